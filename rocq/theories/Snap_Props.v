(** Theorems about snapshots of depot versions. *)
From Verif Require Import Prelude Lists Stream_Model Stream_Spec Stream_Proofs Snap_Model Snap_Spec Snap_Proofs.
Ltac Zify.zify_post_hook ::= idtac.

(** ** C143: what is taken from a snapshot has the recorded check value, and a good snapshot is taken *)
(** the function computes CRC-32 *)
Theorem C143_crc : forall l p f, bytes_ok l -> (p <= length l)%nat -> crc_file (Some (FS l (Z.of_nat p) (zlen l) f)) = crc32 l.
Proof. intros l p f B _. exact (crc_file_ok l p f B). Qed.
Print Assumptions C143_crc.
Example C143_crc_nonvacuous : crc32 [49;50;51;52;53;54;55;56;57] = 3421780262 /\ crc_file (Some (FS [49;50;51;52;53;54;55;56;57] 4 9 true)) = 3421780262 /\
  crc32 [] = 0 /\ crc32 (repeat 255 4) = 4294967295 /\ crc_file (Some (FS (repeat 7 (Z.to_nat 2050)) 0 2050 false)) = crc32 (repeat 7 (Z.to_nat 2050)).
Proof. repeat apply conj; vm_compute; reflexivity. Qed.
Theorem C143_never_wrong : forall c row ver root k k', gives_bytes c -> (forall n d rw, k_cache k n = Some (d, rw) -> bytes_ok d) -> k_can k = true ->
  try_snapshot c row ver root k = (true, k') ->
  exists t, k_target k' = Some t /\ crc32 t = v_crc row /\ Exists (fun x => x <> 0) (v_maker row).
Proof. exact never_wrong. Qed.
Print Assumptions C143_never_wrong.
(** a snapshot kept as it is *)
Theorem C143_plain : forall c row ver root k d, Exists (fun x => x <> 0) (v_maker row) -> k_cache k (snap_name ver) = Some (d, true) -> k_can k = true -> bytes_ok d ->
  stored_plain root (v_maker row) ->
  try_snapshot c row ver root k = (crc32 d =? v_crc row, DK (k_cache k) (k_can k) (Some d)).
Proof. exact plain_result. Qed.
Print Assumptions C143_plain.
(** a compressed snapshot *)
Theorem C143_compressed : forall c row ver root k t z, lossless c -> deflate_stream c t = (z, true) ->
  Exists (fun x => x <> 0) (v_maker row) -> k_cache k (snap_name ver) = Some (z, true) -> k_can k = true -> bytes_ok t ->
  ~ stored_plain root (v_maker row) ->
  try_snapshot c row ver root k = (crc32 t =? v_crc row, DK (k_cache k) (k_can k) (Some t)).
Proof.
  intros c row ver root k t z L D Hm Hk Hc B Hp. destruct (round_trip c t z L D) as [HI _]. exact (packed_result c row ver root k z Hm t false Hk Hc B Hp HI).
Qed.
Print Assumptions C143_compressed.
(** a case: version 7 with both kinds of snapshot, the target left from before *)
Definition ex_root : list Z := [1;2;3;4;5;6;7;8;9;10;11;12;13;14;15;16].
Definition ex_text : list Z := [49;50;51;52;53;54;55;56;57].
Definition ex_disk (d : list Z) (rw : bool) : disk :=
  DK (fun n => if guid_eq n [100;100;98;48;48;48;48;55;46;115;110;112] then Some (d, rw) else None) true (Some [9;9;9;9;9;9;9;9;9;9;9;9;9;9]).
Lemma toy_bytes : gives_bytes toy.
Proof.
  intros st b. revert st. induction b as [|x b IH]; intros st B; cbn [toy i_step toy_in]; [constructor|]. inversion B; subst. destruct st.
  - specialize (IH false H2). cbn [toy i_step] in IH. destruct (toy_in false b) as [[s o] e]. cbn [fst snd] in *. now constructor.
  - destruct (x =? 0); [exact (IH true H2)|]. destruct (x =? 1); constructor.
Qed.
Example C143_nonvacuous : lossless toy /\ gives_bytes toy /\ deflate_stream toy ex_text = (toy_out ex_text ++ [1], true) /\
  (let '(ok, k) := try_snapshot toy (VR ex_root 3421780262) 7 ex_root (ex_disk (toy_out ex_text ++ [1]) true) in ok = true /\ k_target k = Some ex_text) /\
  (let '(ok, k) := try_snapshot toy (VR plain_maker 3421780262) 7 ex_root (ex_disk ex_text true) in ok = true /\ k_target k = Some ex_text) /\
  fst (try_snapshot toy (VR plain_maker 3421780263) 7 ex_root (ex_disk ex_text true)) = false /\
  fst (try_snapshot toy (VR plain_maker 3421780262) 8 ex_root (ex_disk ex_text true)) = false /\
  fst (try_snapshot toy (VR (repeat 0 16) 3421780262) 7 ex_root (ex_disk ex_text true)) = false.
Proof.
  split; [exact toy_lossless|]. split; [exact toy_bytes|]. split; [reflexivity|]. split; [vm_compute; split; reflexivity|]. split; [vm_compute; split; reflexivity|].
  repeat apply conj; vm_compute; reflexivity.
Qed.

(** ** C144: damage within 32 bits is found *)
Theorem C144_burst : forall a b, bytes_ok a -> bytes_ok b -> damage 32 a b -> crc32 a = crc32 b -> a = b.
Proof. exact burst. Qed.
Print Assumptions C144_burst.
Theorem C144_bytes : forall c row ver root k x p q y, Exists (fun x => x <> 0) (v_maker row) -> stored_plain root (v_maker row) ->
  bytes_ok (x ++ p ++ y) -> bytes_ok (x ++ q ++ y) -> length p = length q -> (length p <= 4)%nat -> p <> q ->
  v_crc row = crc32 (x ++ p ++ y) -> k_cache k (snap_name ver) = Some (x ++ q ++ y, true) -> k_can k = true ->
  fst (try_snapshot c row ver root k) = false.
Proof.
  intros c row ver root k x p q y Hm Hp Bp Bq L L4 N E Hk Hc. rewrite (plain_result c row ver root k _ Hm Hk Hc Bq Hp). cbn [fst]. apply Z.eqb_neq. rewrite E. intros E2.
  apply burst in E2; [|exact Bq|exact Bp|apply bytes_damage; [congruence|lia]]. apply app_inv_head, app_inv_tail in E2. congruence.
Qed.
Print Assumptions C144_bytes.
Example C144_nonvacuous : damage 32 [49;50;51;52;53;54;55;56;57] [49;50;51;11;12;13;14;56;57] /\ crc32 [49;50;51;11;12;13;14;56;57] = 2658793238 /\
  fst (try_snapshot toy (VR plain_maker 3421780262) 7 ex_root (ex_disk [49;50;51;11;12;13;14;56;57] true)) = false.
Proof. split; [exact (bytes_damage [49;50;51] [52;53;54;55] [11;12;13;14] [56;57] eq_refl (le_n 4))|]. split; vm_compute; reflexivity. Qed.

(** ** C145: every version has a snapshot file of its own *)
Theorem C145_shared_refuted : forall v w, 0 <= v < 2^31 -> 0 <= w < 2^31 -> v mod 100000 = w mod 100000 -> snap_name v = snap_name w.
Proof. intros v w Hv Hw E. apply (named_same _ _ (v mod 100000)); [now apply name_ok|]. rewrite E. now apply name_ok. Qed.
Print Assumptions C145_shared_refuted.
Theorem C145_name_partial : forall v, 0 <= v < 100000 -> named (snap_name v) v.
Proof. intros v H. rewrite <- (Z.mod_small v 100000) at 2 by lia. apply name_ok. lia. Qed.
Print Assumptions C145_name_partial.
Theorem C145_own_partial : forall v w, 0 <= v < 100000 -> 0 <= w < 100000 -> snap_name v = snap_name w -> v = w.
Proof. intros v w Hv Hw E. apply (named_one (snap_name v)); [now apply C145_name_partial|]. rewrite E. now apply C145_name_partial. Qed.
Print Assumptions C145_own_partial.
Example C145_nonvacuous : snap_name 7 = [100;100;98;48;48;48;48;55;46;115;110;112] /\ snap_name 98765 = [100;100;98;57;56;55;54;53;46;115;110;112] /\ snap_name 100007 = snap_name 7 /\
  snap_name 2147483647 = [100;100;98;56;51;54;52;55;46;115;110;112].
Proof. repeat apply conj; vm_compute; reflexivity. Qed.

(** ** C146: without a usable snapshot the version is collected as if there were none *)
Theorem C146_fall_back : forall A c (collect : option (list Z) -> A) done row ver root k,
  fst (try_snapshot c row ver root k) = false -> export_version c collect done row ver root k = collect None.
Proof. intros A. exact (@fall_back A). Qed.
Print Assumptions C146_fall_back.
(** missing, not recorded, or wrong: not used *)
Theorem C146_not_used : forall c row ver root k,
  (Forall (fun x => x = 0) (v_maker row) \/ k_cache k (snap_name ver) = None -> try_snapshot c row ver root k = (false, k)) /\
  (forall d, Exists (fun x => x <> 0) (v_maker row) -> k_cache k (snap_name ver) = Some (d, true) -> k_can k = true ->
     (stored_plain root (v_maker row) -> bytes_ok d -> crc32 d <> v_crc row -> fst (try_snapshot c row ver root k) = false) /\
     (~ stored_plain root (v_maker row) -> forall t, bytes_ok t -> inflate_stream c d = (t, true) -> fst (try_snapshot c row ver root k) = false)).
Proof.
  intros c row ver root k. split.
  - intros [H|H]; unfold try_snapshot; [now rewrite maker_none|]. rewrite H. destruct (guid_empty _); reflexivity.
  - intros d Hm Hk Hc. split.
    + intros Hp B N. rewrite (plain_result c row ver root k d Hm Hk Hc B Hp). now apply Z.eqb_neq.
    + intros Hp t B HI. rewrite (packed_result c row ver root k d Hm t true Hk Hc B Hp HI). reflexivity.
Qed.
Print Assumptions C146_not_used.
Example C146_nonvacuous : inflate_stream toy [0;5;7;7] = ([], true) /\
  export_version toy (fun t => (t, [])) (fun t => (None, t)) (VR ex_root 3421780262) 7 ex_root (ex_disk [0;5;7;7] true) = (None, []) /\
  export_version toy (fun t => (t, [])) (fun t => (None, t)) (VR plain_maker 1) 7 ex_root (ex_disk ex_text true) = (None, []) /\
  export_version toy (fun t => (t, [])) (fun t => (None, t)) (VR plain_maker 3421780262) 7 ex_root (ex_disk ex_text true) = (None, ex_text) /\
  export_version toy (fun t => (t, [])) (fun t => (None, t)) (VR plain_maker 3421780262) 9 ex_root (ex_disk ex_text true) = (None, []).
Proof. repeat apply conj; vm_compute; reflexivity. Qed.

(** ** C147: a good snapshot that can only be read is used *)
Theorem C147_read_only_refuted : forall c row ver root k d, Exists (fun x => x <> 0) (v_maker row) -> k_cache k (snap_name ver) = Some (d, false) -> k_can k = true ->
  try_snapshot c row ver root k = (0 =? v_crc row, DK (k_cache k) (k_can k) (Some [])).
Proof. exact readonly_result. Qed.
Print Assumptions C147_read_only_refuted.
Example C147_nonvacuous : fst (try_snapshot toy (VR plain_maker 3421780262) 7 ex_root (ex_disk ex_text false)) = false /\
  fst (try_snapshot toy (VR plain_maker 3421780262) 7 ex_root (ex_disk ex_text true)) = true /\
  (let '(ok, k) := try_snapshot toy (VR plain_maker 0) 7 ex_root (ex_disk ex_text false) in ok = true /\ k_target k = Some []).
Proof. split; [vm_compute; reflexivity|]. split; [vm_compute; reflexivity|]. vm_compute. split; reflexivity. Qed.

(** ** C148: a target that cannot be created is an error *)
Theorem C148_target_refuted : forall c row ver root k d rw, Exists (fun x => x <> 0) (v_maker row) -> k_can k = false -> stored_plain root (v_maker row) ->
  k_cache k (snap_name ver) = Some (d, rw) -> try_snapshot c row ver root k = (0 =? v_crc row, k).
Proof. intros c row ver root k d rw Hm Hc Hp Hk. apply unwritable_result; [exact Hm|exact Hc|intros; exact Hp|congruence]. Qed.
Print Assumptions C148_target_refuted.
Example C148_nonvacuous : (let k := DK (k_cache (ex_disk ex_text true)) false None in fst (try_snapshot toy (VR plain_maker 0) 7 ex_root k) = true /\
  k_target (snd (try_snapshot toy (VR plain_maker 0) 7 ex_root k)) = None /\ crc32 ex_text <> 0).
Proof. vm_compute. repeat split; discriminate. Qed.
