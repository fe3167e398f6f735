(** Property theorems about a version exported in the old format (C204). *)
From Coq Require Import Sorted.
From Verif Require Import Prelude Text_Spec Codec_Spec Codec_Model Tree_Model Lost_Spec Descr_Model Cf_Model Cfg_Spec Depot_Model Depot_Spec Save_Spec Save_Model Out_Model Out_Spec Out_Proofs Out_Props Old_Model Old_Spec Old_Proofs.
Ltac Zify.zify_post_hook ::= idtac.

(** C204: when the data of the objects is kept in the rows, the inner container holds the objects, expanded, and the list root of
    their identifiers; the outer one the inner one, the external files and the lists version and versions *)
Theorem C204_coherent_partial : forall lower same fuel after now now' uuid deflate inflate unpack pack v major minor root rows exts,
  NoDup (map lower [s_metadata; s_version; s_versions]) -> In 0 after -> (forall i, 0 <= now i < 2 ^ 64) -> (forall i, 0 <= now' i < 2 ^ 64) -> (forall i, is_guid (uuid i)) ->
  (forall x, inflate (deflate x) = Some x) -> (forall x, x <> [] -> deflate x <> []) -> (forall p d, inflate p = Some d -> unpack p = d) ->
  0 <= major < 2 ^ 16 /\ 0 <= minor < 2 ^ 16 -> is_guid root ->
  depot_sound same rows exts -> zlen rows + zlen exts < 2 ^ 62 ->
  in_rows inflate v rows -> externals_stored same pack v rows exts -> objects_clear lower v rows (holds_object pack inflate v rows) -> externals_clear lower same pack v rows exts ->
  exists ns, inner_configuration lower v rows root (holds_object pack inflate v rows) ns /\
    (room ns < 2147483647 -> room ns <= Z.of_nat fuel ->
     exists inner es, container fuel after inner ns /\ outer_configuration lower same pack inflate v rows exts major minor inner es /\
       (room es < 2147483647 -> room es <= Z.of_nat fuel ->
        exists d, save_old lower same fuel after now now' uuid deflate unpack pack v major minor root rows exts = Ok d /\ container fuel after d es)).
Proof. exact old_rows. Qed.
Print Assumptions C204_coherent_partial.

(** what is not so: data kept in the pack directory is not expanded, whatever it is: the inner container holds it packed *)
Theorem C204_packed_refuted : forall lower same fuel after now now' uuid deflate inflate unpack pack v major minor root rows exts,
  NoDup (map lower [s_metadata; s_version; s_versions]) -> In 0 after -> (forall i, 0 <= now i < 2 ^ 64) -> (forall i, 0 <= now' i < 2 ^ 64) -> (forall i, is_guid (uuid i)) ->
  (forall x, inflate (deflate x) = Some x) -> (forall x, x <> [] -> deflate x <> []) ->
  0 <= major < 2 ^ 16 /\ 0 <= minor < 2 ^ 16 -> is_guid root ->
  depot_sound same rows exts -> zlen rows + zlen exts < 2 ^ 62 ->
  in_pack pack v rows -> externals_stored same pack v rows exts -> objects_clear lower v rows (keeps_object pack v rows) -> externals_clear lower same pack v rows exts ->
  exists ns, inner_configuration lower v rows root (keeps_object pack v rows) ns /\
    (forall k p d, keeps_object pack v rows k p -> lower k <> lower s_root -> inflate p = Some d -> d <> p -> holds_object pack inflate v rows k d /\ ~ has ns k d) /\
    (room ns < 2147483647 -> room ns <= Z.of_nat fuel ->
     exists inner es, container fuel after inner ns /\ outer_configuration lower same pack inflate v rows exts major minor inner es /\
       (room es < 2147483647 -> room es <= Z.of_nat fuel ->
        exists d, save_old lower same fuel after now now' uuid deflate unpack pack v major minor root rows exts = Ok d /\ container fuel after d es)).
Proof.
  intros lower same fuel after now now' uuid deflate inflate unpack pack v major minor root rows exts HL HA HT HT' HU HD HE HM HR HS HB HI HX CO CX.
  assert (W := fun k d => written_pack unpack pack v rows k d HI).
  destruct (old_saved lower same fuel after now now' uuid deflate inflate unpack pack v major minor root rows exts HL HA HT HT' HU HD HE HM HR HS HB) as (ns & A & B); [|exact HX| |exact CX|].
  - intros r Ir S1. destruct (HI r Ir S1) as (E & p & D). exists p. rewrite E. exact D.
  - apply (clear_same lower v rows (keeps_object pack v rows)); [|exact CO]. intros k d. symmetry. apply W.
  - exists ns. assert (A' := inner_same lower v rows root _ _ ns W A). split; [exact A'|]. split; [|exact B].
    intros k p d K NR F ND. split; [destruct K as (r & Ir & S1 & Q & D); exists r, p; auto|]. intros H. destruct A' as (_ & _ & N3 & _). destruct (N3 k d H) as [->|H2]; [now apply NR|]. destruct CO as (N1 & _). destruct (N1 k d k p H2 K eq_refl) as (_ & E). contradiction.
Qed.
Print Assumptions C204_packed_refuted.

(** ** A depot with three objects, of which one is removed, and external files; packing = a byte 7 in front *)
Definition ex204_rows : list vrow :=
  [VR (HR (ex200_g 3) 1 false true (Some [7; 30]) []) (ex200_g 101); VR (HR (ex200_g 3) 4 false true (Some [7; 32]) []) (ex200_g 102); VR (HR (ex200_g 3) 6 false true (Some [7; 31]) []) (ex200_g 103);
   VR (HR (ex200_g 5) 2 false true (Some [7; 50]) []) (ex200_g 104); VR (HR (ex200_g 5) 3 true false (Some []) []) (ex200_g 105);
   VR (HR (ex200_g 7) 2 false true (Some [7; 70]) []) (ex200_g 106)].
Definition ex204_inflate (x : list Z) : option (list Z) := match x with 7 :: t => Some t | _ => None end.
Definition ex204_unpack (x : list Z) : list Z := match x with 7 :: t => t | _ => x end.
Lemma ex204_sound : depot_sound ex200_same ex204_rows ex200_exts.
Proof.
  unfold depot_sound, ex204_rows, ex200_exts. cbn [map v_row x_row]. split; [|split; [discriminate|]].
  - constructor; [exact ex200_equiv| | | |].
    + repeat (apply Forall_cons; [apply ex200_guid; lia|]). constructor.
    + repeat (apply Forall_cons; [apply ex200_guid; lia|]). constructor.
    + repeat (apply SSorted_cons || apply Forall_cons || apply SSorted_nil || apply Forall_nil); ((left; reflexivity) || (right; split; reflexivity)).
    + repeat (apply SSorted_cons || apply Forall_cons || apply SSorted_nil || apply Forall_nil); ((left; reflexivity) || (right; split; [reflexivity|]; left; reflexivity) || (right; split; [reflexivity|]; right; split; reflexivity)).
  - split; [repeat (apply Forall_cons; [apply ex200_guid; lia|]); constructor|]. split; [repeat (apply Forall_cons; [apply ex200_guid; lia|]); constructor|]. exact (proj2 (proj2 (proj2 (proj2 ex200_sound)))).
Qed.
Lemma ex204_in_rows : in_rows ex204_inflate 5 ex204_rows.
Proof.
  intros r Ir (I1 & _ & RM & _). cbn [In ex204_rows] in Ir. repeat (destruct Ir as [<- |Ir]; [first [discriminate RM | eexists; eexists; split; reflexivity]|]). destruct Ir.
Qed.
Lemma ex204_stored pack v rows : externals_stored ex200_same pack v rows ex200_exts.
Proof. intros r x _ Ix _. cbn [In ex200_exts] in Ix. repeat (destruct Ix as [<- |Ix]; [eexists; left; reflexivity|]). destruct Ix. Qed.
Definition ex204_log : list (list Z * list Z) := [(ex200_obj 51, [32]); (ex200_obj 55, [70])].
Definition ex204_xlog : list (list Z * list Z) := [([65], [33]); ([66], [34; 35]); ([67], [36])].
Lemma ex204_data : (forall k d, In (k, d) ex204_log <-> as_written ex204_unpack None 5 ex204_rows k d) /\ (forall k d, In (k, d) ex204_xlog <-> holds_external ex200_same None 5 ex204_rows ex200_exts k d).
Proof.
  destruct (data_log ex200_same ex204_unpack None 5 ex204_rows ex200_exts ex204_sound) as (log & E & H1 & H2); [|exact (ex204_stored None 5 ex204_rows)|].
  - intros r Ir S1. destruct (ex204_in_rows r Ir S1) as (p & d & Q & _). exists (ex204_unpack p). left. now rewrite Q.
  - assert (E2 : old_export ex200_same None 5 (map (open_row ex204_unpack) ex204_rows) ex200_exts = Ok [(0 :: ex200_obj 51, [32]); (1 :: [65], [33]); (1 :: [66], [34; 35]); (0 :: ex200_obj 55, [70]); (1 :: [67], [36])]) by (vm_compute; reflexivity).
    assert (Q : log = [(0 :: ex200_obj 51, [32]); (1 :: [65], [33]); (1 :: [66], [34; 35]); (0 :: ex200_obj 55, [70]); (1 :: [67], [36])]) by congruence. rewrite Q in H1, H2. split; [exact H1|exact H2].
Qed.
Lemma ex204_ids : (forall k i, In (k, i) [(ex200_obj 51, ex200_g 102); (ex200_obj 55, ex200_g 106)] <-> object_id 5 ex204_rows k i) /\ (forall k i, In (k, i) [([65], ex200_g 107); ([66], ex200_g 108); ([67], ex200_g 109)] <-> external_id ex200_same 5 ex204_rows ex200_exts k i).
Proof.
  destruct (ids_log ex200_same 5 ex204_rows ex200_exts ex204_sound) as (log & E & H1 & H2).
  assert (E2 : old_ids ex200_same 5 ex204_rows ex200_exts = Ok [(0 :: ex200_obj 51, ex200_g 102); (1 :: [65], ex200_g 107); (1 :: [66], ex200_g 108); (0 :: ex200_obj 55, ex200_g 106); (1 :: [67], ex200_g 109)]) by (vm_compute; reflexivity).
  assert (Q : log = [(0 :: ex200_obj 51, ex200_g 102); (1 :: [65], ex200_g 107); (1 :: [66], ex200_g 108); (0 :: ex200_obj 55, ex200_g 106); (1 :: [67], ex200_g 109)]) by congruence. rewrite Q in H1, H2. split; [exact H1|exact H2].
Qed.
Lemma ex204_clear : objects_clear ascii_lower 5 ex204_rows (as_written ex204_unpack None 5 ex204_rows).
Proof.
  split; [|split].
  - intros k d k' d' H H' E. apply ex204_data in H. apply ex204_data in H'. cbn [In ex204_log] in H, H'. destruct H as [H|[H|[]]], H' as [H'|[H'|[]]]; injection H as <- <-; injection H' as <- <-; first [split; reflexivity | discriminate E].
  - intros k i i' H H'. apply ex204_ids in H. apply ex204_ids in H'. cbn [In] in H, H'. destruct H as [H|[H|[]]], H' as [H'|[H'|[]]]; injection H as <- <-; first [discriminate H' | injection H' as <-; reflexivity].
  - intros k d H. apply ex204_data in H. cbn [In ex204_log] in H. destruct H as [H|[H|[]]]; injection H as <- <-; (split; discriminate).
Qed.
Lemma ex204_xclear : externals_clear ascii_lower ex200_same None 5 ex204_rows ex200_exts.
Proof.
  split; [|split].
  - intros k d k' d' H H' E. apply ex204_data in H. apply ex204_data in H'. cbn [In ex204_xlog] in H, H'. destruct H as [H|[H|[H|[]]]], H' as [H'|[H'|[H'|[]]]]; injection H as <- <-; injection H' as <- <-; first [split; reflexivity | discriminate E].
  - intros k i i' H H'. apply ex204_ids in H. apply ex204_ids in H'. cbn [In] in H, H'. destruct H as [H|[H|[H|[]]]], H' as [H'|[H'|[H'|[]]]]; injection H as <- <-; first [discriminate H' | injection H' as <-; reflexivity].
  - intros k d H. apply ex204_data in H. cbn [In ex204_xlog] in H. destruct H as [H|[H|[H|[]]]]; injection H as <- <-; (split; [discriminate|]; split; [discriminate|]; intros n Hn; cbn [In] in Hn; destruct Hn as [<- |[<- |[<- |[]]]]; discriminate).
Qed.
Lemma ex204_names : NoDup (map ascii_lower [s_metadata; s_version; s_versions]).
Proof. assert (E : map ascii_lower [s_metadata; s_version; s_versions] = [s_metadata; s_version; s_versions]) by (vm_compute; reflexivity). rewrite E. constructor; [intros [H|[H|[]]]; discriminate H|]. constructor; [intros [H|[]]; discriminate H|]. constructor; [intros []|constructor]. Qed.
Lemma ex204_now i : 0 <= ex200_now i < 2 ^ 64.
Proof. unfold ex200_now. pose proof (Z.mod_pos_bound (Z.of_nat i) 1000 ltac:(lia)). lia. Qed.
Definition ex204_save (pack : option (list Z -> option (list Z))) (rows : list vrow) (exts : list xrow) : res (list Z) :=
  save_old ascii_lower ex200_same 3000 [0] ex200_now ex200_now ex200_uuid (fun x => 7 :: x) ex204_unpack pack 5 6 0 (ex200_g 3) rows exts.
Example C204_nonvacuous : exists ns, inner_configuration ascii_lower 5 ex204_rows (ex200_g 3) (holds_object None ex204_inflate 5 ex204_rows) ns /\
  (room ns < 2147483647 -> room ns <= Z.of_nat 3000 ->
   exists inner es, container 3000 [0] inner ns /\ outer_configuration ascii_lower ex200_same None ex204_inflate 5 ex204_rows ex200_exts 6 0 inner es /\
     (room es < 2147483647 -> room es <= Z.of_nat 3000 -> exists d, ex204_save None ex204_rows ex200_exts = Ok d /\ container 3000 [0] d es)).
Proof.
  apply (C204_coherent_partial ascii_lower ex200_same 3000 [0] ex200_now ex200_now ex200_uuid (fun x => 7 :: x) ex204_inflate ex204_unpack None 5 6 0 (ex200_g 3) ex204_rows ex200_exts).
  - exact ex204_names.
  - now left.
  - exact ex204_now.
  - exact ex204_now.
  - intros i. apply ex200_guid. apply Z.mod_pos_bound. lia.
  - reflexivity.
  - discriminate.
  - intros p d H. unfold ex204_inflate in H. unfold ex204_unpack. destruct p as [|z t]; [discriminate|]. destruct (Z.eq_dec z 7) as [-> |N]; [congruence|]. exfalso. destruct z as [ |q|q]; try discriminate. repeat (destruct q as [q|q| ]; try discriminate). congruence.
  - lia.
  - apply ex200_guid. lia.
  - exact ex204_sound.
  - vm_compute. reflexivity.
  - exact ex204_in_rows.
  - exact (ex204_stored None 5 ex204_rows).
  - apply (clear_same ascii_lower 5 ex204_rows (as_written ex204_unpack None 5 ex204_rows)); [|exact ex204_clear]. intros k d. apply written_rows; [|exact ex204_in_rows].
    intros p x H. unfold ex204_inflate in H. unfold ex204_unpack. destruct p as [|z t]; [discriminate|]. destruct (Z.eq_dec z 7) as [-> |N]; [congruence|]. exfalso. destruct z as [ |q|q]; try discriminate. repeat (destruct q as [q|q| ]; try discriminate). congruence.
  - exact ex204_xclear.
Qed.
(** the room is enough, and these files are there: the names, read with two characters more (C40), and the sizes of the data *)
Definition ex204_list (d : list Z) : res (list (list Z * Z)) := do ys <- open_files 3000 [0] d; Ok (map (fun '(n, _, _, s) => (n, match read_data 3000 [0] d s with Ok b => zlen b | _ => -1 end)) ys).
Definition ex204_inner (d : list Z) : res (list Z) := do ys <- open_files 3000 [0] d; match ys with (_, _, _, s) :: _ => do b <- read_data 3000 [0] d s; Ok (ex204_unpack b) | [] => Throw end.
Example C204_nonvacuous_files : exists d inner, ex204_save None ex204_rows ex200_exts = Ok d /\ ex204_inner d = Ok inner /\
  ex204_list d = Ok (map (fun '(n, s) => (n ++ [0; 0], s)) [(s_metadata, 1169); ([65], 1); ([66], 2); ([67], 1); (s_version, 15); (s_versions, 267)]) /\
  ex204_list inner = Ok (map (fun '(n, s) => (n ++ [0; 0], s)) [(ex200_obj 51, 1); (ex200_obj 55, 1); (s_root, 197)]).
Proof.
  assert (E : (do d <- ex204_save None ex204_rows ex200_exts; do i <- ex204_inner d; do a <- ex204_list d; do b <- ex204_list i; Ok (a, b)) =
    Ok (map (fun '(n, s) => (n ++ [0; 0], s)) [(s_metadata, 1169); ([65], 1); ([66], 2); ([67], 1); (s_version, 15); (s_versions, 267)], map (fun '(n, s) => (n ++ [0; 0], s)) [(ex200_obj 51, 1); (ex200_obj 55, 1); (s_root, 197)])) by (vm_compute; reflexivity).
  destruct (ex204_save None ex204_rows ex200_exts) as [d| | |]; [|discriminate|discriminate|discriminate]. cbn [rbind] in E. destruct (ex204_inner d) as [i| | |] eqn:E1; [|discriminate|discriminate|discriminate]. cbn [rbind] in E.
  destruct (ex204_list d) as [a| | |] eqn:E2; [|discriminate|discriminate|discriminate]. cbn [rbind] in E. destruct (ex204_list i) as [b| | |] eqn:E3; [|discriminate|discriminate|discriminate]. cbn [rbind] in E.
  exists d, i. split; [reflexivity|]. split; [exact E1|]. split; [rewrite E2|rewrite E3]; congruence.
Qed.
(** an object whose data is in the pack directory *)
Definition ex204_pack : option (list Z -> option (list Z)) := Some (fun h => if list_eq_dec Z.eq_dec h [9] then Some [7; 32] else None).
Definition ex204_rows2 : list vrow := [VR (HR (ex200_g 3) 1 false true None [9]) (ex200_g 101)].
Lemma ex204_one (data : option (list Z)) (hash : list Z) (exts : list xrow) : (exts = [] \/ exts = [XR (ER (ex200_g 3) 1 s_metadata true (Some [33]) []) (ex200_g 107)]) -> depot_sound ex200_same [VR (HR (ex200_g 3) 1 false true data hash) (ex200_g 101)] exts.
Proof.
  intros HX. split; [|split; [discriminate|]].
  - constructor; [exact ex200_equiv| | | |].
    + apply Forall_cons; [apply ex200_guid; lia|constructor].
    + destruct HX as [-> | ->]; [constructor|]. apply Forall_cons; [apply ex200_guid; lia|constructor].
    + apply SSorted_cons; [apply SSorted_nil|apply Forall_nil].
    + destruct HX as [-> | ->]; [apply SSorted_nil|]. apply SSorted_cons; [apply SSorted_nil|apply Forall_nil].
  - split; [apply Forall_cons; [apply ex200_guid; lia|constructor]|]. destruct HX as [-> | ->]; [split; constructor|]. split; [apply Forall_cons; [apply ex200_guid; lia|constructor]|].
    apply Forall_cons; [|constructor]. exists s_metadata. cbn [x_row Depot_Model.e_name]. destruct (plain_utf8 s_metadata) as (P1 & P2); [unfold s_metadata; repeat (constructor; [lia|]); constructor|]. auto.
Qed.
Lemma ex204_keeps k p : keeps_object ex204_pack 5 ex204_rows2 k p -> k = ex200_obj 51 /\ p = [7; 32].
Proof.
  intros (r & Ir & _ & Q & D). cbn [In ex204_rows2] in Ir. destruct Ir as [<- |[]]. split.
  - apply id_ms in Q; [|apply ex200_guid; lia]. rewrite Q. vm_compute. reflexivity.
  - destruct D as [D|(_ & f & E & D)]; [discriminate D|]. unfold ex204_pack in E. injection E as <-. cbn in D. congruence.
Qed.
Lemma ex204_noext v r x : shown v (map v_row ex204_rows2) r -> attached ex200_same v (map x_row []) r x -> False.
Proof. intros _ (H & _). exact H. Qed.
Example C204_packed_nonvacuous : exists ns, inner_configuration ascii_lower 5 ex204_rows2 (ex200_g 3) (keeps_object ex204_pack 5 ex204_rows2) ns /\ ~ has ns (ex200_obj 51) [32].
Proof.
  destruct (C204_packed_refuted ascii_lower ex200_same 3000 [0] ex200_now ex200_now ex200_uuid (fun x => 7 :: x) ex204_inflate ex204_unpack ex204_pack 5 6 0 (ex200_g 3) ex204_rows2 []) as (ns & A & B & _).
  - exact ex204_names.
  - now left.
  - exact ex204_now.
  - exact ex204_now.
  - intros i. apply ex200_guid. apply Z.mod_pos_bound. lia.
  - reflexivity.
  - discriminate.
  - lia.
  - apply ex200_guid. lia.
  - apply ex204_one. now left.
  - vm_compute. reflexivity.
  - intros r Ir _. cbn [In ex204_rows2] in Ir. destruct Ir as [<- |[]]. split; [reflexivity|]. exists [7; 32]. right. split; [reflexivity|]. eexists. split; reflexivity.
  - intros r x _ [].
  - split; [|split].
    + intros k d k' d' H H' _. apply ex204_keeps in H. apply ex204_keeps in H'. destruct H as (-> & ->), H' as (-> & ->). auto.
    + intros k i i' (r & Ir & _ & _ & ->) (r' & Ir' & _ & _ & ->). cbn [In ex204_rows2] in Ir, Ir'. destruct Ir as [<- |[]], Ir' as [<- |[]]. reflexivity.
    + intros k d H. apply ex204_keeps in H. destruct H as (-> & ->). split; discriminate.
  - split; [intros k d k' d' (r & x & _ & [] & _)|]. split; [intros k i i' (r & x & _ & [] & _)|intros k d (r & x & _ & [] & _)].
  - exists ns. split; [exact A|]. apply (B (ex200_obj 51) [7; 32] [32]); [|discriminate|reflexivity|discriminate].
    exists (VR (HR (ex200_g 3) 1 false true None [9]) (ex200_g 101)). split; [now left|]. split.
    + split; [now left|]. split; [split; [cbn; lia|now right]|]. split; [reflexivity|]. intros r' [<- |[]] _ _. cbn. lia.
    + split; [apply id_ms; [apply ex200_guid; lia|vm_compute; reflexivity]|]. right. split; [reflexivity|]. eexists. split; reflexivity.
Qed.

(** what is not so: an external file named as the inner container takes its place, packed once more; the objects are lost *)
Definition ex204_rows3 : list vrow := [VR (HR (ex200_g 3) 1 false true (Some [7; 30]) []) (ex200_g 101)].
Definition ex204_exts3 : list xrow := [XR (ER (ex200_g 3) 1 s_metadata true (Some [33]) []) (ex200_g 107)].
Theorem C204_metadata_refuted : exists rows exts, depot_sound ex200_same rows exts /\ in_rows ex204_inflate 5 rows /\ externals_stored ex200_same None 5 rows exts /\
  holds_object None ex204_inflate 5 rows (ex200_obj 51) [30] /\ holds_external ex200_same None 5 rows exts s_metadata [33] /\
  exists d, ex204_save None rows exts = Ok d /\ ex204_list d = Ok (map (fun '(n, s) => (n ++ [0; 0], s)) [(s_metadata, 2); (s_version, 15); (s_versions, 192)]) /\ ex204_inner d = Ok [33].
Proof.
  exists ex204_rows3, ex204_exts3. split; [apply ex204_one; now right|]. assert (S3 : shown 5 (map v_row ex204_rows3) (HR (ex200_g 3) 1 false true (Some [7; 30]) [])).
  { split; [now left|]. split; [split; [cbn; lia|now right]|]. split; [reflexivity|]. intros r' [<- |[]] _ _. cbn. lia. }
  split; [intros r Ir _; cbn [In ex204_rows3] in Ir; destruct Ir as [<- |[]]; exists [7; 30], [30]; split; reflexivity|].
  split; [intros r x _ Ix _; cbn [In ex204_exts3] in Ix; destruct Ix as [<- |[]]; exists [33]; now left|].
  split; [exists (VR (HR (ex200_g 3) 1 false true (Some [7; 30]) []) (ex200_g 101)), [7; 30]; split; [now left|]; split; [exact S3|]; split; [apply id_ms; [apply ex200_guid; lia|vm_compute; reflexivity]|]; split; [now left|reflexivity]|].
  split.
  { exists (HR (ex200_g 3) 1 false true (Some [7; 30]) []), (XR (ER (ex200_g 3) 1 s_metadata true (Some [33]) []) (ex200_g 107)). split; [exact S3|]. split; [now left|]. split; [|split; [reflexivity|now left]].
    split; [now left|]. split; [reflexivity|]. split; [cbn; lia|]. split; [reflexivity|]. split; [intros e' [<- |[]] _ _ _ _; cbn; lia|]. eexists. split; [now left|]. split; [reflexivity|]. split; reflexivity. }
  assert (E : (do d <- ex204_save None ex204_rows3 ex204_exts3; do a <- ex204_list d; do b <- ex204_inner d; Ok (a, b)) = Ok (map (fun '(n, s) => (n ++ [0; 0], s)) [(s_metadata, 2); (s_version, 15); (s_versions, 192)], [33])) by (vm_compute; reflexivity).
  destruct (ex204_save None ex204_rows3 ex204_exts3) as [d| | |]; [|discriminate|discriminate|discriminate]. cbn [rbind] in E. destruct (ex204_list d) as [a| | |] eqn:E1; [|discriminate|discriminate|discriminate]. cbn [rbind] in E.
  destruct (ex204_inner d) as [b| | |] eqn:E2; [|discriminate|discriminate|discriminate]. cbn [rbind] in E. exists d. split; [reflexivity|]. split; [rewrite E1|rewrite E2]; congruence.
Qed.
Print Assumptions C204_metadata_refuted.
