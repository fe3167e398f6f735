(** Blocks that lead back to themselves. *)
From Verif Require Import Prelude Cf_Model Cf_Spec Cf_Proofs.
Ltac Zify.zify_post_hook ::= idtac.

(** a well-formed header at an address: size of the data, size of the page, next address *)
Definition block_at (data : list Z) (a d p n : Z) : Prop :=
  0 <= d <= 2147483647 /\ 0 <= p <= 2147483647 /\ 0 <= n <= 2147483647 /\ exists pre post, data = pre ++ hdr d p n ++ post /\ zlen pre = a.
(** addresses of blocks, each followed by another of them *)
Definition no_end (data : list Z) (addr : Z -> Prop) : Prop := forall a, addr a -> a <> 2147483647 /\ exists d p n, block_at data a d p n /\ addr n.

Lemma hdr_31 d p n : length (hdr d p n) = 31%nat.
Proof. unfold hdr. rewrite !app_length, !digits_length. reflexivity. Qed.
Lemma header_at data a d p n h : length h = 31%nat -> block_at data a d p n -> read_header data a h = Ok (hdr d p n).
Proof.
  intros L (_ & _ & _ & pre & post & -> & E). pose proof (zlen_nonneg pre) as Z0. unfold read_header. rewrite zlen_app. pose proof (zlen_nonneg (hdr d p n ++ post)).
  destruct (Z.ltb_spec (zlen pre + zlen (hdr d p n ++ post)) a); [lia|]. destruct (Z.ltb_spec a 0); [lia|].
  replace (Z.to_nat a) with (length pre) by (unfold zlen in E; lia). rewrite skipn_app, skipn_all, Nat.sub_diag. cbn [skipn app]. rewrite firstn_app, hdr_31, Nat.sub_diag, firstn_O, app_nil_r.
  rewrite firstn_all2 by (rewrite hdr_31; lia). rewrite hdr_31, skipn_all2 by lia. now rewrite app_nil_r.
Qed.
Theorem cycle_loop after data addr : In 0 after -> no_end data addr -> forall fuel a len pos h out, addr a -> length h = 31%nat -> rb_loop fuel after data a len pos h out = Hang.
Proof.
  intros A N. induction fuel as [|fuel IH]; intros a len pos h out Ha Hh; [reflexivity|]. cbn [rb_loop]. destruct (N a Ha) as (NL & d & p & n & B & Hn). pose proof B as (D & P & Nn & _).
  destruct (Z.eqb_spec a LAST) as [Q|_]; [contradiction|]. rewrite (header_at data a d p n h Hh B). cbn [rbind]. rewrite hdr_page by (exact A || exact P). cbn [rbind]. rewrite hdr_next by (exact A || exact Nn). cbn [rbind]. cbv zeta. apply IH; [exact Hn|apply hdr_31].
Qed.
Theorem cycle after data addr a d p n : In 0 after -> no_end data addr -> block_at data a d p n -> a <> 2147483647 -> d <> 0 -> addr n -> forall fuel, read_block fuel after data a = Hang.
Proof.
  intros A N B NL Hd Hn fuel. pose proof B as (D & P & Nn & pre & post & E & Ea). unfold read_block. pose proof (zlen_nonneg pre) as Z0.
  assert (T : (a <? 0) || (a =? LAST) || (zlen data <? a) = false).
  { destruct (Z.ltb_spec a 0); [lia|]. destruct (Z.eqb_spec a LAST) as [Q|_]; [contradiction|]. destruct (Z.ltb_spec (zlen data) a); [|reflexivity]. subst data. rewrite zlen_app in *. pose proof (zlen_nonneg (hdr d p n ++ post)). lia. }
  rewrite T. rewrite (header_at data a d p n blank eq_refl B). cbn [rbind]. rewrite hdr_data by (exact A || exact D). cbn [rbind]. destruct (Z.eqb_spec d 0); [contradiction|].
  rewrite hdr_page by (exact A || exact P). cbn [rbind]. rewrite hdr_next by (exact A || exact Nn). cbn [rbind]. cbv zeta. apply (cycle_loop after data addr A N); [exact Hn|apply hdr_31].
Qed.

(** ** Files without a header *)
Local Opaque le_bytes.
(** no free page, or one within the first 64 KB: the third byte of the container *)
Definition plain_mark (data : list Z) : Prop := nth_error data 2 = Some 0 \/ nth_error data 2 = Some 255.
Lemma cstr_two s : (exists t, c_string s = Ok t) \/ c_string s = UB.
Proof. induction s as [|c s IH]; cbn [c_string]; [auto|]. destruct (c =? 0); [eauto|]. destruct IH as [(t & ->)| ->]; cbn [rbind]; eauto. Qed.
Lemma no_header fuel after data : plain_mark data -> (31 <= length data)%nat -> read_block fuel after data 0 = Ok [] \/ read_block fuel after data 0 = UB.
Proof.
  intros H L. unfold read_block, read_header. destruct (Z.ltb_spec (zlen data) 0) as [Q|_]; [unfold zlen in Q; lia|]. change (0 <? 0) with false. change (0 =? LAST) with false. cbn [orb]. cbv zeta. cbn [rbind Z.to_nat skipn].
  assert (E : forall t, get_hex after o_data (firstn 31 data ++ t) = Ok 0 \/ get_hex after o_data (firstn 31 data ++ t) = UB).
  { intros t. destruct data as [|a [|b [|c r]]]; try (cbn in L; lia). unfold get_hex, o_data. cbn [firstn app skipn]. unfold plain_mark in H. cbn [nth_error] in H. destruct H as [[= ->]|[= ->]]; cbn [c_string Z.eqb rbind]; [auto|].
    match goal with |- context [c_string ?x] => destruct (cstr_two x) as [(u & ->)| ->] end; cbn [rbind]; auto. }
  destruct (E (skipn (length (firstn 31 data)) blank)) as [-> | ->]; cbn [rbind Z.eqb]; auto.
Qed.
Lemma entries_bad fuel after data d : plain_mark data -> (31 <= length data)%nat -> forall k pre post l, length pre = (12 * k)%nat -> forall n, (k < n)%nat -> entries n fuel after data (pre ++ elem 0 d ++ post) <> Ok l.
Proof.
  intros M L. induction k as [|k IH]; intros pre post l Hp n Hn; (destruct n as [|n]; [lia|]); cbn [entries].
  - destruct pre; [|discriminate]. cbn [app]. unfold elem. rewrite <- !app_assoc. replace (i32 (le_val (firstn 4 (le_bytes 4 0 ++ le_bytes 4 d ++ le_bytes 4 LAST ++ post)))) with 0 by (rewrite firstn_app, le_bytes_length, Nat.sub_diag, firstn_O, app_nil_r, firstn_all2 by (rewrite le_bytes_length; lia); reflexivity).
    destruct (no_header fuel after data M L) as [-> | ->]; cbn [rbind]; [|discriminate]. unfold read_file_header. discriminate.
  - destruct (read_block fuel after data _); cbn [rbind]; try discriminate. destruct (read_file_header _) as [((t & m) & name)| | |]; cbn [rbind]; try discriminate.
    assert (E : skipn 12 (pre ++ elem 0 d ++ post) = skipn 12 pre ++ elem 0 d ++ post) by (rewrite skipn_app; replace (12 - length pre)%nat with 0%nat by lia; reflexivity). rewrite E.
    destruct (entries n fuel after data (skipn 12 pre ++ elem 0 d ++ post)) as [r| | |] eqn:Q; cbn [rbind]; try discriminate. exfalso. eapply (IH (skipn 12 pre) post r); [rewrite skipn_length; lia| |exact Q]. lia.
Qed.
Theorem created_bad fuel after data pre d post k l : plain_mark data -> (31 <= length data)%nat -> read_block fuel after data 16 = Ok (pre ++ elem 0 d ++ post) -> length pre = (12 * k)%nat -> open_files fuel after data <> Ok l.
Proof.
  intros M L E Hp. unfold open_files. destruct (Z.leb_spec (zlen data) 16) as [Q|_]; [unfold zlen in Q; lia|]. rewrite E. cbn [rbind]. apply (entries_bad fuel after data d M L k); [exact Hp|].
  unfold elem, zlen. rewrite !app_length, !le_bytes_length, Hp. apply Nat2Z.inj_lt. rewrite Z2Nat.id by (apply Z.div_pos; lia). apply Z.lt_le_trans with (Z.of_nat k + 1); [lia|]. apply Z.div_le_lower_bound; lia.
Qed.
