(** Property theorems about the export of a configuration from the file of a depot (C201). *)
From Coq Require Import Sorted.
From Verif Require Import Prelude Text_Model Text_Spec Text_Proofs Codec_Spec Codec_Model Tree_Model Lost_Spec Field_Model Cf_Model Cfg_Spec Descr_Model Full_Model Full_Spec Full_Proofs Conf_Spec Depot_Model Depot_Spec Save_Spec Save_Model Out_Model Out_Spec Out_Proofs Old_Model Old_Spec Old_Proofs
  Rep_Model Rep_Spec Rep_Proofs Rep_Export Rep_Demo.
Ltac Zify.zify_post_hook ::= idtac.

(** C201: from the bytes of the file of a depot to the bytes of the container: the version that is asked for is found, and the container
    holds every object and external file of that version with its data, nothing else but the lists, and these say what they should *)
Theorem C201_exported_partial : forall lower same g fuel after now now' uuid deflate inflate unpack store snapshot hjunk junk file mono h st xs r ver n major minor,
  NoDup (map lower [s_root; s_version; s_versions]) -> In 0 after -> (forall i, 0 <= now i < 2 ^ 64) -> (forall i, is_guid (uuid i)) ->
  (forall x, inflate (deflate x) = Some x) -> (forall x, x <> [] -> deflate x <> []) -> up_to_nul same ->
  database same file mono h st xs -> repository same xs r -> increasing (map n_num (r_vers r)) -> -2 ^ 31 < ver < 2 ^ 31 -> asked (r_vers r) ver n ->
  structure_version (r_dv r) (Descr_Model.h_ver h) n major minor -> 100 <= major -> (n_maker n = repeat 0 16 \/ forall rec, snapshot (n_maker n) rec (n_num n) (r_root r) = None) ->
  depot_sound same (r_rows r) (r_exts r) -> complete same (packs (r_dv r) store) (n_num n) (map v_row (r_rows r)) (map x_row (r_exts r)) -> names_clear lower same (packs (r_dv r) store) (n_num n) (r_rows r) (r_exts r) ->
  exists es, configuration lower same (packs (r_dv r) store) (n_num n) (r_rows r) (r_exts r) inflate major minor (r_root r) es /\
    (room es < 2147483647 -> room es <= Z.of_nat fuel ->
     exists d ys, export_of_file lower same g fuel after now now' uuid deflate unpack store snapshot hjunk junk file mono ver = Ok d /\
       (forall junk, length junk = 31%nat -> is_catalog junk d = Ok true) /\ open_files fuel after d = Ok ys /\ Forall2 (shows fuel after d) ys es).
Proof. exact exported_from_file. Qed.
Print Assumptions C201_exported_partial.
(** the same for the old format: with the conditions of C204 *)
Theorem C201_exported_old_partial : forall lower same g fuel after now now' uuid deflate inflate unpack store snapshot hjunk junk file mono h st xs r ver n major minor,
  NoDup (map lower [s_metadata; s_version; s_versions]) -> In 0 after -> (forall i, 0 <= now i < 2 ^ 64) -> (forall i, 0 <= now' i < 2 ^ 64) -> (forall i, is_guid (uuid i)) ->
  (forall x, inflate (deflate x) = Some x) -> (forall x, x <> [] -> deflate x <> []) -> (forall p d, inflate p = Some d -> unpack p = d) -> up_to_nul same ->
  database same file mono h st xs -> repository same xs r -> increasing (map n_num (r_vers r)) -> -2 ^ 31 < ver < 2 ^ 31 -> asked (r_vers r) ver n ->
  structure_version (r_dv r) (Descr_Model.h_ver h) n major minor -> major < 100 -> (n_maker n = repeat 0 16 \/ forall rec, snapshot (n_maker n) rec (n_num n) (r_root r) = None) ->
  depot_sound same (r_rows r) (r_exts r) -> in_rows inflate (n_num n) (r_rows r) -> externals_stored same (packs (r_dv r) store) (n_num n) (r_rows r) (r_exts r) ->
  objects_clear lower (n_num n) (r_rows r) (holds_object (packs (r_dv r) store) inflate (n_num n) (r_rows r)) -> externals_clear lower same (packs (r_dv r) store) (n_num n) (r_rows r) (r_exts r) ->
  exists ns, inner_configuration lower (n_num n) (r_rows r) (r_root r) (holds_object (packs (r_dv r) store) inflate (n_num n) (r_rows r)) ns /\
    (room ns < 2147483647 -> room ns <= Z.of_nat fuel ->
     exists inner es, container fuel after inner ns /\ outer_configuration lower same (packs (r_dv r) store) inflate (n_num n) (r_rows r) (r_exts r) major minor inner es /\
       (room es < 2147483647 -> room es <= Z.of_nat fuel ->
        exists d, export_of_file lower same g fuel after now now' uuid deflate unpack store snapshot hjunk junk file mono ver = Ok d /\ container fuel after d es)).
Proof. exact old_from_file. Qed.
Print Assumptions C201_exported_old_partial.

(** the comparison of names in the program ends at a character U+0000, as the theorem supposes *)
Theorem C201_comparison : up_to_nul (fun a b => match equal_ic a b with Ok r => r | _ => false end).
Proof.
  intros a b Ha Hb. destruct (ascii_utf8 a Ha) as (A1 & A2 & A3).
  assert (N : before_nul (a ++ [0; 0]) = a). { clear A1 A2 A3. induction Ha as [|c a Hc _ IH]; [reflexivity|]. unfold before_nul in *. cbn [cstr app]. destruct (Z.eqb_spec c 0); [lia|]. now rewrite IH. }
  assert (U : utf8_of (a ++ [0; 0]) = a ++ [0; 0]). { unfold utf8_of in *. rewrite flat_map_app, A1. reflexivity. }
  assert (L : lower_case (a ++ [0; 0]) = Ok (map low a)).
  { pose proof (lower_of (a ++ [0; 0])) as E. rewrite U, N, low_lower in E by assumption. rewrite E; [f_equal; exact (proj1 (ascii_utf8 _ (low_ascii a Ha)))|].
    apply Forall_app. split; [exact A2|]. repeat constructor; unfold scalar; lia. }
  unfold equal_ic, compare_ic. rewrite L, (ascii_lower_case b Hb). cbn [rbind]. rewrite Z.eqb_eq. apply str_compare_0.
Qed.
Print Assumptions C201_comparison.

(** ** A depot of version 6: two versions, four records of objects, one of them removed, two external files; the data of one object is in the pack directory *)
Definition ex201_now (j : nat) : Z := 5 + Z.of_nat j mod 1000.
Definition ex201_uuid (j : nat) : list Z := gid (Z.of_nat j mod 256).
Definition ex201_g : Xml_Model.gset := Xml_Model.GS false false.
Definition ex201_export (ver : Z) : res (list Z) :=
  export_of_file ascii_lower d_same ex201_g 3000 [0] ex201_now ex201_now ex201_uuid (fun x => 7 :: x) (@tl Z) d_store (fun _ _ _ _ => None) [] [] d_file false ver.
Example C201_nonvacuous : exists es, configuration ascii_lower d_same (packs 6 d_store) 4 d_rows d_exts (fun x => Some (tl x)) 216 1 (gid 3) es /\
  (room es < 2147483647 -> room es <= Z.of_nat 3000 -> exists d ys, ex201_export 0 = Ok d /\ (forall junk, length junk = 31%nat -> is_catalog junk d = Ok true) /\ open_files 3000 [0] d = Ok ys /\ Forall2 (shows 3000 [0] d) ys es).
Proof.
  refine (C201_exported_partial ascii_lower d_same ex201_g 3000 [0] ex201_now ex201_now ex201_uuid (fun x => 7 :: x) (fun x => Some (tl x)) (@tl Z) d_store (fun _ _ _ _ => None) [] [] d_file false d_head d_pages d_conts d_repo 0 (VN 4 (gid 0) 216 1) 216 1
    _ _ _ _ _ _ d_up_to_nul d_database d_repository _ _ (proj1 d_asked) _ _ _ d_sound d_complete d_clear).
  - assert (E : map ascii_lower [s_root; s_version; s_versions] = [s_root; s_version; s_versions]) by (vm_compute; reflexivity). rewrite E. constructor; [intros [H|[H|[]]]; discriminate H|]. constructor; [intros [H|[]]; discriminate H|]. constructor; [intros []|constructor].
  - now left.
  - intros i. unfold ex201_now. pose proof (Z.mod_pos_bound (Z.of_nat i) 1000 ltac:(lia)). lia.
  - intros i. apply gid_guid. apply Z.mod_pos_bound. lia.
  - reflexivity.
  - discriminate.
  - cbn. lia.
  - lia.
  - split; reflexivity.
  - lia.
  - left. reflexivity.
Qed.
(** the room is enough, and these files are there: the names, read with two characters more (C40), and the sizes of the data; the version before it is in the old format *)
Definition ex201_files (ver : Z) : res (list (list Z * Z)) :=
  do d <- ex201_export ver; do ys <- open_files 3000 [0] d; Ok (map (fun '(n, _, _, s) => (n, match read_data 3000 [0] d s with Ok b => zlen b | _ => -1 end)) ys).
Example C201_nonvacuous_files : ex201_files 0 = Ok (map (fun '(n, s) => (n ++ [0; 0], s)) [(oid 51, 1); (oid 53, 1); ([65], 1); (s_root, 44); (s_version, 17); (s_versions, 381)]) /\ ex201_files 4 = ex201_files 0 /\
  ex201_files (-1) = Ok (map (fun '(n, s) => (n ++ [0; 0], s)) [(s_metadata, 934); ([65], 2); (s_version, 15); (s_versions, 185)]).
Proof. split; [|split]; vm_compute; reflexivity. Qed.

(** the version before it, in the old format *)
Definition ex201_inflate (x : list Z) : option (list Z) := Some (tl x).
Lemma ex201_in_rows : in_rows ex201_inflate 1 d_rows.
Proof.
  intros r Ir (_ & (NV & _) & RM & _). cbn [In d_rows] in Ir. destruct Ir as [<- |[<- |[<- |[<- |[]]]]]; [|cbn in NV; lia|cbn in NV; lia|discriminate RM]. exists [30; 31], [31]. split; reflexivity.
Qed.
Lemma ex201_stored : externals_stored d_same (packs 6 d_store) 1 d_rows d_exts.
Proof. intros r x _ Ix _. cbn [In d_exts] in Ix. repeat (destruct Ix as [<- |Ix]; [eexists; left; reflexivity|]). destruct Ix. Qed.
Lemma ex201_data : (forall k d, In (k, d) [(oid 51, [31])] <-> as_written (@tl Z) (packs 6 d_store) 1 d_rows k d) /\ (forall k d, In (k, d) [([65], [34; 35])] <-> holds_external d_same (packs 6 d_store) 1 d_rows d_exts k d).
Proof.
  destruct (data_log d_same (@tl Z) (packs 6 d_store) 1 d_rows d_exts d_sound) as (log & E & H1 & H2); [|exact ex201_stored|].
  - intros r Ir S1. destruct (ex201_in_rows r Ir S1) as (p & d & Q & _). exists (tl p). left. now rewrite Q.
  - assert (E2 : old_export d_same (packs 6 d_store) 1 (map (open_row (@tl Z)) d_rows) d_exts = Ok [(0 :: oid 51, [31]); (1 :: [65], [34; 35])]) by (vm_compute; reflexivity).
    assert (Q : log = [(0 :: oid 51, [31]); (1 :: [65], [34; 35])]) by congruence. rewrite Q in H1, H2. split; [exact H1|exact H2].
Qed.
Lemma ex201_ids : (forall k i, In (k, i) [(oid 51, gid 101)] <-> object_id 1 d_rows k i) /\ (forall k i, In (k, i) [([65], gid 106)] <-> external_id d_same 1 d_rows d_exts k i).
Proof.
  destruct (ids_log d_same 1 d_rows d_exts d_sound) as (log & E & H1 & H2).
  assert (E2 : old_ids d_same 1 d_rows d_exts = Ok [(0 :: oid 51, gid 101); (1 :: [65], gid 106)]) by (vm_compute; reflexivity).
  assert (Q : log = [(0 :: oid 51, gid 101); (1 :: [65], gid 106)]) by congruence. rewrite Q in H1, H2. split; [exact H1|exact H2].
Qed.
Example C201_nonvacuous_old : exists ns, inner_configuration ascii_lower 1 d_rows (gid 3) (holds_object (packs 6 d_store) ex201_inflate 1 d_rows) ns /\
  (room ns < 2147483647 -> room ns <= Z.of_nat 3000 ->
   exists inner es, container 3000 [0] inner ns /\ outer_configuration ascii_lower d_same (packs 6 d_store) ex201_inflate 1 d_rows d_exts 6 0 inner es /\
     (room es < 2147483647 -> room es <= Z.of_nat 3000 -> exists d, ex201_export (-1) = Ok d /\ container 3000 [0] d es)).
Proof.
  refine (C201_exported_old_partial ascii_lower d_same ex201_g 3000 [0] ex201_now ex201_now ex201_uuid (fun x => 7 :: x) ex201_inflate (@tl Z) d_store (fun _ _ _ _ => None) [] [] d_file false d_head d_pages d_conts d_repo (-1) (VN 1 (gid 7) 6 0) 6 0
    _ _ _ _ _ _ _ _ d_up_to_nul d_database d_repository _ _ (proj1 (proj2 d_asked)) _ _ _ d_sound ex201_in_rows ex201_stored _ _).
  - assert (E : map ascii_lower [s_metadata; s_version; s_versions] = [s_metadata; s_version; s_versions]) by (vm_compute; reflexivity). rewrite E. constructor; [intros [H|[H|[]]]; discriminate H|]. constructor; [intros [H|[]]; discriminate H|]. constructor; [intros []|constructor].
  - now left.
  - intros i. unfold ex201_now. pose proof (Z.mod_pos_bound (Z.of_nat i) 1000 ltac:(lia)). lia.
  - intros i. unfold ex201_now. pose proof (Z.mod_pos_bound (Z.of_nat i) 1000 ltac:(lia)). lia.
  - intros i. apply gid_guid. apply Z.mod_pos_bound. lia.
  - reflexivity.
  - discriminate.
  - intros p d H. unfold ex201_inflate in H. congruence.
  - cbn. lia.
  - lia.
  - split; reflexivity.
  - lia.
  - right. reflexivity.
  - apply (clear_same ascii_lower 1 d_rows (as_written (@tl Z) (packs 6 d_store) 1 d_rows)).
    + intros k d. apply written_rows; [intros p x H; unfold ex201_inflate in H; congruence|exact ex201_in_rows].
    + split; [|split].
      * intros k d k' d' H H' _. apply ex201_data in H. apply ex201_data in H'. cbn [In] in H, H'. destruct H as [H|[]], H' as [H'|[]]. injection H as <- <-. injection H' as <- <-. auto.
      * intros k i i' H H'. apply ex201_ids in H. apply ex201_ids in H'. cbn [In] in H, H'. destruct H as [H|[]], H' as [H'|[]]. injection H as <- <-. injection H' as <-. reflexivity.
      * intros k d H. apply ex201_data in H. cbn [In] in H. destruct H as [H|[]]. injection H as <- <-. split; discriminate.
  - split; [|split].
    + intros k d k' d' H H' _. apply ex201_data in H. apply ex201_data in H'. cbn [In] in H, H'. destruct H as [H|[]], H' as [H'|[]]. injection H as <- <-. injection H' as <- <-. auto.
    + intros k i i' H H'. apply ex201_ids in H. apply ex201_ids in H'. cbn [In] in H, H'. destruct H as [H|[]], H' as [H'|[]]. injection H as <- <-. injection H' as <-. reflexivity.
    + intros k d H. apply ex201_data in H. cbn [In] in H. destruct H as [H|[]]. injection H as <- <-. split; [discriminate|]. split; [discriminate|]. intros n Hn. cbn [In] in Hn. destruct Hn as [<- |[<- |[<- |[]]]]; discriminate.
Qed.
