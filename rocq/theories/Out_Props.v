(** Property theorems about the configuration exported from a depot as a whole (C200). *)
From Coq Require Import Sorted.
From Verif Require Import Prelude Text_Spec Codec_Spec Codec_Model Tree_Model Lost_Spec Descr_Model Cf_Model Cfg_Spec Depot_Model Depot_Spec Save_Spec Save_Model Out_Model Out_Spec Out_Proofs.
Ltac Zify.zify_post_hook ::= idtac.

(** C200: the container that is written holds every object and external file of the version with its data, nothing else but the
    lists root, version and versions, and these say what they should *)
Theorem C200_coherent_partial : forall lower same fuel after now uuid deflate inflate pack v major minor root rows exts,
  NoDup (map lower [s_root; s_version; s_versions]) -> In 0 after -> (forall i, 0 <= now i < 2 ^ 64) -> (forall i, is_guid (uuid i)) ->
  (forall x, inflate (deflate x) = Some x) -> (forall x, x <> [] -> deflate x <> []) ->
  0 <= major < 2 ^ 16 /\ 0 <= minor < 2 ^ 16 -> is_guid root ->
  depot_sound same rows exts -> complete same pack v (map v_row rows) (map x_row exts) -> names_clear lower same pack v rows exts -> zlen rows + zlen exts < 2 ^ 62 ->
  exists es, configuration lower same pack v rows exts inflate major minor root es /\
    (room es < 2147483647 -> room es <= Z.of_nat fuel ->
     exists d ys, save_version lower same fuel after now uuid deflate pack v major minor root rows exts = Ok d /\
       (forall junk, length junk = 31%nat -> is_catalog junk d = Ok true) /\ open_files fuel after d = Ok ys /\ Forall2 (shows fuel after d) ys es).
Proof. exact version_saved. Qed.
Print Assumptions C200_coherent_partial.

(** the structure version that is written: the one the depot records, two big-endian numbers; before depot version 5 that of the format of the file *)
Theorem C200_structure_version : forall major minor rest v, 0 <= major < 65536 -> 0 <= minor < 65536 ->
  config_version true ([major / 256; major mod 256; minor / 256; minor mod 256] ++ rest) v = Ok (major, minor) /\
  config_version false rest V8030 = Ok (6, 0) /\ config_version false rest V8050 = Ok (6, 0) /\ config_version false rest V8100 = Ok (106, 0) /\
  (v <> V8030 -> v <> V8050 -> v <> V8100 -> config_version false rest v = Ok (216, 0)).
Proof.
  intros major minor rest v HM Hm. split; [|split; [reflexivity|split; [reflexivity|split; [reflexivity|]]]].
  - unfold config_version, rd. cbn [app Z.ltb Z.compare Z.to_nat nth_error rbind]. change (nth_error _ (Pos.to_nat 1)) with (Some (major mod 256)). change (nth_error _ (Pos.to_nat 2)) with (Some (minor / 256)). change (nth_error _ (Pos.to_nat 3)) with (Some (minor mod 256)). cbn [rbind].
    rewrite <- !Z_div_mod_eq_full. reflexivity.
  - intros A B C. destruct v; try reflexivity; congruence.
Qed.
Print Assumptions C200_structure_version.

(** ** A depot with three objects, of which one is removed, and external files *)
Definition ex200_g (n : Z) : list Z := repeat 0 15 ++ [n].
Definition ex200_same (a b : list Z) : bool := if list_eq_dec Z.eq_dec a b then true else false.
Definition ex200_rows : list vrow :=
  [VR (HR (ex200_g 3) 1 false true (Some [30]) []) (ex200_g 101); VR (HR (ex200_g 3) 4 false true None [9]) (ex200_g 102); VR (HR (ex200_g 3) 6 false true (Some [31]) []) (ex200_g 103);
   VR (HR (ex200_g 5) 2 false true (Some [50]) []) (ex200_g 104); VR (HR (ex200_g 5) 3 true false (Some []) []) (ex200_g 105);
   VR (HR (ex200_g 7) 2 false true (Some [70]) []) (ex200_g 106)].
Definition ex200_exts : list xrow :=
  [XR (ER (ex200_g 3) 1 [65] true (Some [33]) []) (ex200_g 107); XR (ER (ex200_g 3) 4 [65] false (Some []) []) (ex200_g 110); XR (ER (ex200_g 3) 4 [66] true (Some [34; 35]) []) (ex200_g 108); XR (ER (ex200_g 7) 2 [67] true (Some [36]) []) (ex200_g 109)].
Definition ex200_pack : option (list Z -> option (list Z)) := Some (fun h => if list_eq_dec Z.eq_dec h [9] then Some [32] else None).
Lemma ex200_equiv : equiv ex200_same.
Proof.
  unfold ex200_same. split; [|split]; intros.
  - destruct (list_eq_dec Z.eq_dec a a); congruence.
  - destruct (list_eq_dec Z.eq_dec a b), (list_eq_dec Z.eq_dec b a); congruence.
  - destruct (list_eq_dec Z.eq_dec a b), (list_eq_dec Z.eq_dec b c), (list_eq_dec Z.eq_dec a c); congruence.
Qed.
Lemma ex200_guid n : 0 <= n < 256 -> is_guid (ex200_g n).
Proof. intros H. split; [reflexivity|]. unfold ex200_g. apply Forall_app. split; [apply Forall_forall; intros x Hx; apply repeat_spec in Hx; subst x; unfold byte_ok; lia|]. constructor; [unfold byte_ok; lia|constructor]. Qed.
Lemma ex200_sound : depot_sound ex200_same ex200_rows ex200_exts.
Proof.
  unfold depot_sound, ex200_rows, ex200_exts. cbn [map v_row x_row]. split; [|split; [discriminate|]].
  - constructor; [exact ex200_equiv| | | |].
    + repeat (apply Forall_cons; [apply ex200_guid; lia|]). constructor.
    + repeat (apply Forall_cons; [apply ex200_guid; lia|]). constructor.
    + repeat (apply SSorted_cons || apply Forall_cons || apply SSorted_nil || apply Forall_nil); ((left; reflexivity) || (right; split; reflexivity)).
    + repeat (apply SSorted_cons || apply Forall_cons || apply SSorted_nil || apply Forall_nil); ((left; reflexivity) || (right; split; [reflexivity|]; left; reflexivity) || (right; split; [reflexivity|]; right; split; reflexivity)).
  - split; [repeat (apply Forall_cons; [apply ex200_guid; lia|]); constructor|]. split; [repeat (apply Forall_cons; [apply ex200_guid; lia|]); constructor|].
    assert (P : forall c, 0 <= c < 128 -> exists cps, Forall scalar cps /\ [c] = utf8_of cps).
    { intros c H. destruct (plain_utf8 [c]) as (E & F); [constructor; [exact H|constructor]|]. exists [c]. auto. }
    repeat (apply Forall_cons; [apply P; lia|]). constructor.
Qed.
Lemma ex200_complete : complete ex200_same ex200_pack 5 (map v_row ex200_rows) (map x_row ex200_exts).
Proof.
  intros r (I1 & _). cbn [map In ex200_rows v_row] in I1. split.
  - repeat (destruct I1 as [<- |I1]; [first [eexists; left; reflexivity | exists [32]; right; split; [reflexivity|]; eexists; split; reflexivity]|]). destruct I1.
  - intros e (I2 & _). cbn [map In ex200_exts x_row] in I2. repeat (destruct I2 as [<- |I2]; [eexists; left; reflexivity|]). destruct I2.
Qed.
Definition ex200_obj (n : Z) : list Z := repeat 48 8 ++ [45] ++ repeat 48 4 ++ [45] ++ repeat 48 4 ++ [45] ++ repeat 48 4 ++ [45] ++ repeat 48 11 ++ [n].
Lemma ex200_files k d : holds_file ex200_same ex200_pack 5 ex200_rows ex200_exts k d <-> In (k, d) [(ex200_obj 51, [32]); ([65], [33]); ([66], [34; 35]); (ex200_obj 55, [70]); ([67], [36])].
Proof.
  destruct (export_log ex200_same ms ex200_pack 5 _ _ (proj1 ex200_sound)) as (log & E & H); [discriminate|exact ex200_complete|].
  assert (E2 : export ex200_same ms ex200_pack 5 (map v_row ex200_rows) (map x_row ex200_exts) = Ok [(ex200_obj 51, [32]); ([65], [33]); ([66], [34; 35]); (ex200_obj 55, [70]); ([67], [36])]) by (vm_compute; reflexivity).
  assert (Q : log = [(ex200_obj 51, [32]); ([65], [33]); ([66], [34; 35]); (ex200_obj 55, [70]); ([67], [36])]) by congruence. rewrite <- Q, H. symmetry. apply exported_name.
Qed.
Lemma ex200_ids k i : holds_id ex200_same 5 ex200_rows ex200_exts k i <-> In (k, i) [(ex200_obj 51, ex200_g 102); ([65], ex200_g 107); ([66], ex200_g 108); (ex200_obj 55, ex200_g 106); ([67], ex200_g 109)].
Proof.
  destruct (export_log ex200_same ms None 5 _ _ (depot_id ex200_same ex200_rows ex200_exts (proj1 ex200_sound))) as (log & E & H); [discriminate|apply complete_id|].
  assert (E2 : export ex200_same ms None 5 (map id_row ex200_rows) (map id_ext ex200_exts) = Ok [(ex200_obj 51, ex200_g 102); ([65], ex200_g 107); ([66], ex200_g 108); (ex200_obj 55, ex200_g 106); ([67], ex200_g 109)]) by (vm_compute; reflexivity).
  assert (Q : log = [(ex200_obj 51, ex200_g 102); ([65], ex200_g 107); ([66], ex200_g 108); (ex200_obj 55, ex200_g 106); ([67], ex200_g 109)]) by congruence. rewrite <- Q, H. symmetry. apply exported_id. apply (proj1 ex200_sound).
Qed.
Lemma ex200_clear : names_clear ascii_lower ex200_same ex200_pack 5 ex200_rows ex200_exts.
Proof.
  split; [|split].
  - intros k d k' d' H H' E. apply ex200_files in H. apply ex200_files in H'. cbn [In] in H, H'.
    destruct H as [H|[H|[H|[H|[H|[]]]]]], H' as [H'|[H'|[H'|[H'|[H'|[]]]]]]; injection H as <- <-; injection H' as <- <-; first [split; reflexivity | discriminate E].
  - intros k i i' H H'. apply ex200_ids in H. apply ex200_ids in H'. cbn [In] in H, H'.
    destruct H as [H|[H|[H|[H|[H|[]]]]]], H' as [H'|[H'|[H'|[H'|[H'|[]]]]]]; injection H as <- <-; first [discriminate H' | injection H' as <-; reflexivity].
  - intros k d H. apply ex200_files in H. cbn [In] in H. destruct H as [H|[H|[H|[H|[H|[]]]]]]; injection H as <- <-; (split; [discriminate|]; split; [discriminate|]; intros n Hn; cbn [In] in Hn; destruct Hn as [<- |[<- |[<- |[]]]]; discriminate).
Qed.
Definition ex200_now (j : nat) : Z := 5 + Z.of_nat j mod 1000.
Definition ex200_uuid (j : nat) : list Z := ex200_g (Z.of_nat j mod 256).
Definition ex200_save : res (list Z) := save_version ascii_lower ex200_same 3000 [0] ex200_now ex200_uuid (fun x => 7 :: x) ex200_pack 5 216 0 (ex200_g 3) ex200_rows ex200_exts.
Example C200_nonvacuous : exists es, configuration ascii_lower ex200_same ex200_pack 5 ex200_rows ex200_exts (fun x => Some (tl x)) 216 0 (ex200_g 3) es /\
  (room es < 2147483647 -> room es <= Z.of_nat 3000 -> exists d ys, ex200_save = Ok d /\ (forall junk, length junk = 31%nat -> is_catalog junk d = Ok true) /\ open_files 3000 [0] d = Ok ys /\ Forall2 (shows 3000 [0] d) ys es).
Proof.
  apply (C200_coherent_partial ascii_lower ex200_same 3000 [0] ex200_now ex200_uuid (fun x => 7 :: x) (fun x => Some (tl x)) ex200_pack 5 216 0 (ex200_g 3) ex200_rows ex200_exts).
  - assert (E : map ascii_lower [s_root; s_version; s_versions] = [s_root; s_version; s_versions]) by (vm_compute; reflexivity). rewrite E. constructor; [intros [H|[H|[]]]; discriminate H|]. constructor; [intros [H|[]]; discriminate H|]. constructor; [intros []|constructor].
  - now left.
  - intros i. unfold ex200_now. pose proof (Z.mod_pos_bound (Z.of_nat i) 1000 ltac:(lia)). lia.
  - intros i. apply ex200_guid. apply Z.mod_pos_bound. lia.
  - reflexivity.
  - discriminate.
  - lia.
  - apply ex200_guid. lia.
  - exact ex200_sound.
  - exact ex200_complete.
  - exact ex200_clear.
  - vm_compute. reflexivity.
Qed.
(** the room is enough, and these files are there: the names, read with two characters more (C40), and the sizes of the data *)
Example C200_nonvacuous_files : (do d <- ex200_save; do ys <- open_files 3000 [0] d; Ok (map (fun '(n, _, _, s) => (n, match read_data 3000 [0] d s with Ok b => zlen b | _ => -1 end)) ys)) =
  Ok (map (fun '(n, s) => (n ++ [0; 0], s)) [(ex200_obj 51, 1); (ex200_obj 55, 1); ([65], 1); ([66], 2); ([67], 1); (s_root, 44); (s_version, 17); (s_versions, 463)]).
Proof. vm_compute. reflexivity. Qed.

(** what is not so: of two external files whose names differ in letter case only, one is lost, while versions lists both *)
Definition ex200_rows2 : list vrow := [VR (HR (ex200_g 3) 1 false true (Some [30]) []) (ex200_g 101)].
Definition ex200_exts2 : list xrow := [XR (ER (ex200_g 3) 1 [65] true (Some [33]) []) (ex200_g 107); XR (ER (ex200_g 3) 1 [97] true (Some [34; 35]) []) (ex200_g 108)].
Theorem C200_case_refuted : exists rows exts, depot_sound ex200_same rows exts /\ complete ex200_same None 1 (map v_row rows) (map x_row exts) /\
  holds_file ex200_same None 1 rows exts [65] [33] /\ holds_file ex200_same None 1 rows exts [97] [34; 35] /\
  (do ids <- ids_of ex200_same 1 rows exts; Ok (zlen (vermap ex200_uuid ids))) = Ok 7 /\
  (do d <- save_version ascii_lower ex200_same 3000 [0] ex200_now ex200_uuid (fun x => 7 :: x) None 1 216 0 (ex200_g 3) rows exts; do ys <- open_files 3000 [0] d;
   Ok (map (fun '(n, _, _, s) => (n, match read_data 3000 [0] d s with Ok b => zlen b | _ => -1 end)) ys)) =
  Ok (map (fun '(n, s) => (n ++ [0; 0], s)) [(ex200_obj 51, 1); ([65], 2); (s_root, 44); (s_version, 17); (s_versions, 346)]).
Proof.
  exists ex200_rows2, ex200_exts2.
  assert (DS : depot_sound ex200_same ex200_rows2 ex200_exts2).
  { unfold depot_sound, ex200_rows2, ex200_exts2. cbn [map v_row x_row]. split; [|split; [discriminate|]].
    - constructor; [exact ex200_equiv| | | |].
      + repeat (apply Forall_cons; [apply ex200_guid; lia|]). constructor.
      + repeat (apply Forall_cons; [apply ex200_guid; lia|]). constructor.
      + repeat (apply SSorted_cons || apply Forall_cons || apply SSorted_nil || apply Forall_nil).
      + repeat (apply SSorted_cons || apply Forall_cons || apply SSorted_nil || apply Forall_nil). right; split; [reflexivity|]; right; split; reflexivity.
    - split; [repeat (apply Forall_cons; [apply ex200_guid; lia|]); constructor|]. split; [repeat (apply Forall_cons; [apply ex200_guid; lia|]); constructor|].
      assert (P : forall c, 0 <= c < 128 -> exists cps, Forall scalar cps /\ [c] = utf8_of cps).
      { intros c H. destruct (plain_utf8 [c]) as (E & F); [constructor; [exact H|constructor]|]. exists [c]. auto. }
      repeat (apply Forall_cons; [apply P; lia|]). constructor. }
  assert (CO : complete ex200_same None 1 (map v_row ex200_rows2) (map x_row ex200_exts2)).
  { intros r (I1 & _). cbn [map In ex200_rows2 v_row] in I1. split.
    - repeat (destruct I1 as [<- |I1]; [eexists; left; reflexivity|]). destruct I1.
    - intros e (I2 & _). cbn [map In ex200_exts2 x_row] in I2. repeat (destruct I2 as [<- |I2]; [eexists; left; reflexivity|]). destruct I2. }
  assert (HF : forall k d, In (k, d) [(ex200_obj 51, [30]); ([65], [33]); ([97], [34; 35])] -> holds_file ex200_same None 1 ex200_rows2 ex200_exts2 k d).
  { intros k d H. destruct (export_log ex200_same ms None 1 _ _ (proj1 DS)) as (log & E & H2); [discriminate|exact CO|].
    assert (E2 : export ex200_same ms None 1 (map v_row ex200_rows2) (map x_row ex200_exts2) = Ok [(ex200_obj 51, [30]); ([65], [33]); ([97], [34; 35])]) by (vm_compute; reflexivity).
    assert (Q : log = [(ex200_obj 51, [30]); ([65], [33]); ([97], [34; 35])]) by congruence. refine (proj1 (exported_name ex200_same None 1 ex200_rows2 ex200_exts2 k d) _). apply H2. rewrite Q. exact H. }
  split; [exact DS|]. split; [exact CO|]. split; [apply HF; cbn; auto|]. split; [apply HF; cbn; auto|]. split; [vm_compute; reflexivity|]. vm_compute. reflexivity.
Qed.
Print Assumptions C200_case_refuted.
