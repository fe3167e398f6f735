(** Names and times, broken containers. *)
From Verif Require Import Prelude Lists Text_Model Text_Spec Text_Proofs Cf_Model Cf_Spec Cf_Proofs Cf_Write Cf_Hist.
Ltac Zify.zify_post_hook ::= idtac.

(** ** Headers *)
Lemma header_roundtrip after d p n : In 0 after -> 0 <= d <= LAST -> 0 <= p <= LAST -> 0 <= n <= LAST ->
  let h := create d p n in
  length h = 31%nat /\ h = hdr d p n /\ get_hex after o_data h = Ok d /\ get_hex after o_page h = Ok p /\ get_hex after o_next h = Ok n /\
  (forall v, 0 <= v <= LAST -> set_hex o_data h v = hdr v p n /\ set_hex o_page h v = hdr d v n /\ set_hex o_next h v = hdr d p v).
Proof.
  intros HA Hd Hp Hn h. assert (E : h = hdr d p n) by (apply create_hdr; unfold LAST in *; lia). rewrite E. split; [apply hdr_length|]. split; [reflexivity|]. split; [now apply hdr_data|]. split; [now apply hdr_page|]. split; [now apply hdr_next|].
  intros v Hv. rewrite set_data_hdr, set_page_hdr, set_next_hdr by (unfold LAST in *; lia). auto.
Qed.
Lemma hex8_u32 v : hex8 v = hex8 (u32 v).
Proof. unfold hex8, u32. now rewrite Z.mod_mod by lia. Qed.
Lemma set_hex_u32 off h v : set_hex off h v = set_hex off h (u32 v).
Proof. unfold set_hex. now rewrite hex8_u32. Qed.
Lemma header_negative after d p n v : In 0 after -> - 2^31 <= v < 0 ->
  get_hex after o_data (set_hex o_data (hdr d p n) v) = Throw /\ get_hex after o_page (set_hex o_page (hdr d p n) v) = Throw /\ get_hex after o_next (set_hex o_next (hdr d p n) v) = Throw.
Proof.
  intros HA Hv. rewrite !(set_hex_u32 _ _ v). assert (E : u32 v = v + 2^32) by (unfold u32; rewrite <- (Z.mod_small (v + 2^32) (2^32)) by lia; rewrite <- Z.add_mod_idemp_r, Z_mod_same_full, Z.add_0_r by lia; reflexivity). rewrite E.
  rewrite set_data_hdr, set_page_hdr, set_next_hdr by lia. unfold LAST in *. split; [|split].
  - apply (hdr_big after o_data (v + 2^32) (digits 8 p ++ [32] ++ digits 8 n ++ [32; 13; 10])); [exact HA|unfold LAST; lia| |].
    + rewrite <- !app_assoc. destruct (tail_page after n HA) as [t Ht]. rewrite <- !app_assoc in Ht. eexists. apply cstr_digits. cbn [app]. apply cstr_cons; [lia|exact Ht].
    + unfold hdr. cbn [app]. unfold o_data. cbn [skipn]. reflexivity.
  - apply (hdr_big after o_page (v + 2^32) (digits 8 n ++ [32; 13; 10])); [exact HA|unfold LAST; lia|exact (tail_page after n HA)|].
    unfold hdr. rewrite app_assoc, app_assoc. apply skipn_app_len. rewrite !app_length, digits_length. reflexivity.
  - apply (hdr_big after o_next (v + 2^32) [13; 10]); [exact HA|unfold LAST; lia|exact (tail_next after HA)|].
    unfold hdr. rewrite app_assoc, app_assoc, app_assoc, app_assoc. apply skipn_app_len. rewrite !app_length, !digits_length. reflexivity.
Qed.
(** the text of a field has no end inside the header *)
Lemma cstr_nozero s : ~ In 0 s -> c_string s = UB.
Proof. induction s as [|c r IH]; intros H; [reflexivity|]. cbn [c_string]. destruct (Z.eqb_spec c 0) as [->|_]; [exfalso; apply H; now left|]. rewrite IH; [reflexivity|]. intros X. apply H. now right. Qed.
Lemma digits_nz k v : ~ In 0 (digits k v).
Proof.
  revert v. induction k as [|k IH]; intros v; [intros []|]. cbn [digits]. intros H. apply in_app_or in H. destruct H as [H|[H|[]]]; [exact (IH _ H)|]. apply (digit_nz (v mod 16)); [apply mod16|exact H].
Qed.
Lemma hdr_nz d p n : ~ In 0 (hdr d p n).
Proof.
  unfold hdr. intros H. rewrite !in_app_iff in H. destruct H as [H|[H|[H|[H|[H|[H|H]]]]]]; try (apply digits_nz in H; exact H); cbn [In] in H; lia.
Qed.
Lemma in_skipn {A} (x : A) n l : In x (skipn n l) -> In x l.
Proof. revert n. induction l as [|y l IH]; intros [|n] H; cbn [skipn] in H; try assumption. right. exact (IH n H). Qed.
Lemma header_overread d p n off : get_hex [] off (hdr d p n) = UB.
Proof. unfold get_hex. rewrite app_nil_r. rewrite cstr_nozero; [reflexivity|]. intros H. apply in_skipn in H. exact (hdr_nz d p n H). Qed.

(** ** Names and times *)
Lemma file_header_read create modify cps : Forall scalar cps -> 0 <= create < 2^64 ->
  exists h, file_header create modify (utf8_of cps) = Ok h /\ read_file_header h = Ok (create, create + 8, utf8_of cps ++ [0; 0]).
Proof.
  intros HC Ht. destruct (text_store_show cps HC) as [E1 _]. assert (HC2 : Forall scalar (cps ++ [0; 0])) by (apply Forall_app; split; [exact HC|]; constructor; [unfold scalar; lia|]; constructor; [unfold scalar; lia|constructor]).
  destruct (text_store_show (cps ++ [0; 0]) HC2) as [_ E2]. unfold file_header. rewrite E1. cbn [rbind]. eexists. split; [reflexivity|]. unfold read_file_header.
  set (u := le16 (utf16_of cps)) in *. set (b := le_bytes 8 create ++ le_bytes 8 modify ++ le_bytes 4 0 ++ u ++ le_bytes 4 0). assert (L8 : forall v, length (le_bytes 8 v) = 8%nat) by (intros v; apply le_bytes_length).
  assert (LB : 20 <= zlen b) by (unfold b, zlen; rewrite !app_length, !le_bytes_length; lia). destruct (Z.ltb_spec (zlen b) 20); [lia|].
  assert (E3 : skipn 20 b = le16 (utf16_of (cps ++ [0; 0]))).
  { unfold b. rewrite (app_assoc (le_bytes 8 create)), (app_assoc (le_bytes 8 create ++ le_bytes 8 modify)). rewrite skipn_app_len by (rewrite !app_length, !le_bytes_length; reflexivity). unfold u, utf16_of. rewrite flat_map_app. unfold le16. rewrite flat_map_app. reflexivity. }
  rewrite E3, E2. cbn [rbind]. assert (E4 : le_val (firstn 8 b) = create). { unfold b. rewrite firstn_app, L8, Nat.sub_diag, firstn_O, app_nil_r. rewrite <- (L8 create) at 1. rewrite firstn_all. apply le_val_bytes_small. change (256 ^ Z.of_nat 8) with (2^64). lia. }
  rewrite E4. unfold utf8_of. rewrite flat_map_app. reflexivity.
Qed.

(** ** A saved container after any history *)
Lemma history_catalog after fuel n os junk ver : In 0 after -> length junk = 31%nat -> history_ok os (empty_store n) -> 559 + total_growth 512 os < LAST -> 559 + total_growth 512 os <= Z.of_nat fuel ->
  exists r, do_ops fuel after os (empty_run n) = Ok r /\ is_catalog junk (flush_marks (r_cat r) ver) = Ok true.
Proof.
  intros HA Hj HO HB HF. assert (N0 : need 512 (c_data (r_cat (empty_run n))) = 559) by reflexivity. destruct (ops_step after fuel 512 os HA (empty_run n) (empty_store n) (empty_inv n) HO) as (r & E & HI & HN); [rewrite N0; lia|rewrite N0; lia|]. rewrite N0 in HN. exists r. split; [exact E|].
  pose proof (need_le 512 (c_data (r_cat r)) ltac:(lia)) as NL. apply (catalog_ok junk 512 r _ ver Hj HI). lia.
Qed.

(** ** A block that names itself as its continuation *)
Definition loop_file : list Z := template ++ hdr 1 1 16 ++ [7].
Lemma loop_hang fuel : forall pos out, rb_loop fuel [0] loop_file 16 1 pos (hdr 1 1 16) out = Hang.
Proof.
  induction fuel as [|fuel IH]; intros pos out; [reflexivity|]. cbn [rb_loop]. change (16 =? LAST) with false. cbv iota. assert (E : read_header loop_file 16 (hdr 1 1 16) = Ok (hdr 1 1 16)) by (vm_compute; reflexivity). rewrite E. cbn [rbind].
  rewrite hdr_page by (try (now left); unfold LAST; lia). cbn [rbind]. rewrite hdr_next by (try (now left); unfold LAST; lia). cbn [rbind]. apply IH.
Qed.
Lemma read_hang fuel : read_block fuel [0] loop_file 16 = Hang.
Proof.
  unfold read_block. change ((16 <? 0) || (16 =? LAST) || (zlen loop_file <? 16)) with false. cbv iota. assert (E : read_header loop_file 16 blank = Ok (hdr 1 1 16)) by (vm_compute; reflexivity). rewrite E. cbn [rbind].
  rewrite hdr_data by (try (now left); unfold LAST; lia). cbn [rbind Z.eqb Pos.eqb]. rewrite hdr_page by (try (now left); unfold LAST; lia). cbn [rbind]. rewrite hdr_next by (try (now left); unfold LAST; lia). cbn [rbind]. apply loop_hang.
Qed.

(** ** Deleting by name *)
Lemma delete_found {F} (same : F -> bool) files : existsb same files = true -> delete_walk same files = UB.
Proof. induction files as [|f r IH]; intros H; [discriminate|]. cbn [delete_walk existsb] in *. destruct (same f); [reflexivity|]. cbn [orb] in H. now rewrite IH. Qed.
Lemma delete_absent {F} (same : F -> bool) files : existsb same files = false -> delete_walk same files = Ok files.
Proof. induction files as [|f r IH]; intros H; [reflexivity|]. cbn [delete_walk existsb] in *. destruct (same f); [discriminate|]. cbn [orb] in H. now rewrite IH. Qed.
