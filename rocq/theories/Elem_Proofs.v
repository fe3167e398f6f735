(** Proofs about elements and their streams. *)
From Verif Require Import Prelude Lists Stream_Model Stream_Spec Stream_Proofs Elem_Model Elem_Spec.
Ltac Zify.zify_post_hook ::= idtac.

Lemma i32_small x : -2^31 <= x < 2^31 -> i32 x = x.
Proof. intros H. unfold i32. rewrite Z.mod_small by lia. lia. Qed.
Lemma overlay_written l p d : (p <= length l)%nat -> overlay l p d = written l p d.
Proof.
  intros H. rewrite <- overlay_splice. unfold splice, written. rewrite firstn_app. replace (p - length l)%nat with 0%nat by lia. cbn [firstn]. rewrite app_nil_r.
  f_equal. f_equal. rewrite skipn_app. destruct (Nat.le_gt_cases (p + length d) (length l)).
  - replace (p + length d - length l)%nat with 0%nat by lia. cbn [repeat skipn]. now rewrite app_nil_r.
  - rewrite (skipn_all2 l) by lia. cbn [app]. apply skipn_all2. rewrite repeat_length. lia.
Qed.
Lemma written_len l p d : (p <= length l)%nat -> length (written l p d) = Nat.max (length l) (p + length d).
Proof. intros H. unfold written. rewrite !app_length, firstn_length, skipn_length. lia. Qed.
Lemma seek_in l q p : (p <= length l)%nat -> el_seek (MS l q) (Z.of_nat p) = Ok (MS l (Z.of_nat p)).
Proof.
  intros H. unfold el_seek, ms_seek. cbn [ms_data]. unfold zlen. destruct (Z.ltb_spec (Z.of_nat (length l)) (Z.of_nat p)); [lia|]. reflexivity.
Qed.
Lemma read_in l q p n : zlen l < 2^31 -> (p <= length l)%nat -> Z.of_nat n < 2^31 ->
  el_read (MS l q) (Z.of_nat p) (Z.of_nat n) = Ok (MS l (Z.of_nat (p + length (firstn n (skipn p l)))), firstn n (skipn p l)).
Proof.
  intros Hl Hp Hn. unfold el_read. unfold zlen in Hl. rewrite !i32_small by lia. rewrite seek_in by exact Hp. cbn [rbind]. apply read_ok; unfold zlen; lia.
Qed.
Lemma write_in l q p d : zlen l < 2^31 -> (p <= length l)%nat -> Z.of_nat p + zlen d < 2^31 ->
  el_write (MS l q) (Z.of_nat p) d = Ok (MS (written l p d) (Z.of_nat (p + length d)), zlen d).
Proof.
  intros Hl Hp Hd. unfold el_write. unfold zlen in *. rewrite !i32_small by lia. rewrite seek_in by exact Hp. cbn [rbind].
  rewrite rdn_ok by (unfold zlen; lia). cbn [rbind]. rewrite Nat2Z.id. change (sub d (Z.to_nat 0) (length d)) with (firstn (length d) d). rewrite firstn_all.
  rewrite write_ok by (unfold zlen; lia). rewrite overlay_written by exact Hp. reflexivity.
Qed.
Lemma cut_in l q n : (n <= length l)%nat -> exists q', ms_set_size (MS l q) (Z.of_nat n) = if 2^63 - 1 <? Z.of_nat n then Throw else Ok (MS (firstn n l) q').
Proof.
  intros H. unfold ms_set_size. cbn [ms_data ms_pos]. destruct (Z.ltb_spec (Z.of_nat n) 0); [lia|]. cbn [orb]. unfold zlen.
  replace (Z.to_nat (Z.of_nat n - Z.of_nat (length l))) with 0%nat by lia. cbn [repeat]. rewrite app_nil_r, Nat2Z.id. eexists. reflexivity.
Qed.
Lemma written_all l d : (length l <= length d)%nat -> written l 0 d = d.
Proof. intros H. unfold written. cbn [firstn app Nat.add]. rewrite skipn_all2, app_nil_r by exact H. reflexivity. Qed.
Lemma all_in l q d : zlen l < 2^31 -> zlen d < 2^31 -> el_write_all (MS l q) d = Ok (MS d (zlen d), zlen d).
Proof.
  intros Hl Hd. unfold el_write_all. cbn [ms_data]. unfold zlen in *. rewrite i32_small by lia.
  assert (K : forall l' q', (length l' <= length d)%nat -> (do m <- el_seek (MS l' q') 0; do d0 <- rdn d 0 (Z.of_nat (length d)); ms_write m d0) = Ok (MS d (Z.of_nat (length d)), Z.of_nat (length d))).
  { intros l' q' L. change 0 with (Z.of_nat 0) at 1. rewrite seek_in by lia. cbn [rbind]. rewrite rdn_ok by (unfold zlen; lia). cbn [rbind]. rewrite Nat2Z.id.
    change (sub d (Z.to_nat 0) (length d)) with (firstn (length d) d). rewrite firstn_all. rewrite write_ok by (unfold zlen; lia). rewrite overlay_written by lia. rewrite written_all by exact L. reflexivity. }
  destruct (Z.ltb_spec (Z.of_nat (length d)) (Z.of_nat (length l))) as [H|H].
  - destruct (cut_in l q (length d)) as (q' & ->); [lia|]. destruct (Z.ltb_spec (2^63 - 1) (Z.of_nat (length d))); [lia|]. cbn [rbind]. apply K. rewrite firstn_length. lia.
  - cbn [rbind]. apply K. lia.
Qed.
Lemma all_from l q d p : zlen l < 2^31 -> zlen d < 2^31 -> el_put_all (MS l q) (MS d (Z.of_nat p)) = Ok (MS d (zlen d), MS d (zlen d), zlen d).
Proof.
  intros Hl Hd. unfold el_put_all. cbn [ms_data].
  assert (K : forall l' q', (length l' <= length d)%nat -> (do m <- el_seek (MS l' q') 0; copy_from m (MS d (Z.of_nat p)) 0) = Ok (MS d (zlen d), MS d (zlen d), zlen d)).
  { intros l' q' L. change 0 with (Z.of_nat 0) at 1. rewrite seek_in by lia. cbn [rbind]. change (MS l' (Z.of_nat 0)) with (of_ideal (l', 0%nat)). change (MS d (Z.of_nat p)) with (of_ideal (d, p)).
    rewrite copy_all_ok by (unfold zlen in *; lia). rewrite overlay_written by lia. rewrite written_all by exact L. reflexivity. }
  destruct (Z.ltb_spec (zlen d) (zlen l)) as [H|H]; unfold zlen in H.
  - unfold zlen at 1. destruct (cut_in l q (length d)) as (q' & ->); [lia|]. destruct (Z.ltb_spec (2^63 - 1) (Z.of_nat (length d))); [unfold zlen in Hd; lia|]. cbn [rbind]. apply K. rewrite firstn_length. lia.
  - cbn [rbind]. apply K. lia.
Qed.

(** ** Histories *)
Definition good (s : ideal_elem) : Prop := zlen (ie_bytes s) < 2^31 /\ Forall (fun c => (c <= length (ie_bytes s))%nat) (ie_cur s).
Definition shown (s : ideal_elem) (q : Z) : open_elem := OE (MS (ie_bytes s) q) (map Z.of_nat (ie_cur s)).
Lemma put_map l : forall i q, (i < length l)%nat -> set_pos (map Z.of_nat l) i (Z.of_nat q) = map Z.of_nat (put_cur l i q).
Proof.
  induction l as [|x l IH]; intros [|i] q H; cbn [length] in H; try lia; [reflexivity|]. unfold set_pos. cbn [map firstn skipn put_cur app]. f_equal. apply (IH i q). lia.
Qed.
Lemma nth_map l i : (i < length l)%nat -> nth_error (map Z.of_nat l) i = Some (Z.of_nat (nth i l 0%nat)).
Proof. intros H. rewrite nth_error_map, (nth_error_nth' l 0%nat H). reflexivity. Qed.
Lemma put_forall (P : nat -> Prop) l : forall i q, Forall P l -> P q -> Forall P (put_cur l i q).
Proof. induction l as [|x l IH]; intros [|i] q F H; cbn [put_cur]; inversion F; subst; constructor; auto. Qed.
Lemma cur_in s i : good s -> (i < length (ie_cur s))%nat -> (nth i (ie_cur s) 0 <= length (ie_bytes s))%nat.
Proof. intros [_ F] H. rewrite Forall_forall in F. apply F, nth_In, H. Qed.
Lemma step_ok s q x : good s -> covered s x -> exists q', el_step (shown s q) x = Ok (shown (fst (ideal_step s x)) q', snd (ideal_step s x)) /\ good (fst (ideal_step s x)).
Proof.
  intros G C. pose proof G as [GL GC]. destruct s as [l cs]. cbn [ie_bytes ie_cur] in *. destruct x as [i n|i d|i o w|i|d|d p|]; cbn [covered ie_bytes ie_cur] in C.
  - destruct C as [Hi Hn]. pose proof (cur_in _ i G Hi) as Hc. cbn [ie_bytes ie_cur] in Hc. cbn [el_step shown oe_m oe_pos ideal_step fst snd ie_bytes ie_cur].
    rewrite nth_map by exact Hi. set (c := nth i cs 0%nat) in *. rewrite read_in by auto. cbn [rbind fst snd]. eexists. split.
    + unfold zlen. rewrite <- Nat2Z.inj_add, put_map by exact Hi. reflexivity.
    + split; [exact GL|]. cbn [ie_bytes ie_cur]. apply put_forall; [exact GC|]. rewrite firstn_length, skipn_length. lia.
  - destruct C as [Hi Hn]. pose proof (cur_in _ i G Hi) as Hc. cbn [ie_bytes ie_cur] in Hc. cbn [el_step shown oe_m oe_pos ideal_step fst snd ie_bytes ie_cur].
    rewrite nth_map by exact Hi. set (c := nth i cs 0%nat) in *. rewrite write_in by auto. cbn [rbind fst snd]. eexists. split.
    + unfold zlen. rewrite <- Nat2Z.inj_add, put_map by exact Hi. reflexivity.
    + unfold good. cbn [ie_bytes ie_cur]. unfold zlen in *. rewrite written_len by exact Hc. split; [lia|]. apply put_forall; [|lia]. eapply Forall_impl; [|exact GC]. cbn. intros; lia.
  - destruct C as (Hi & Hg & He & Ho). pose proof (cur_in _ i G Hi) as Hc. cbn [ie_bytes ie_cur] in Hc. cbn [el_step shown oe_m oe_pos ideal_step fst snd ie_bytes ie_cur ms_data].
    rewrite nth_map by exact Hi. set (c := nth i cs 0%nat) in *. exists q.
    assert (EV : vs_seek (zlen l) (Z.of_nat c) o w = Ok (goes (length l) c o w)).
    { unfold vs_seek, goes in *. unfold zlen in *. destruct w.
      - destruct (Z.leb_spec 0 o); [|lia]. destruct (Z.leb_spec o (Z.of_nat (length l))); f_equal; lia.
      - rewrite fits_true by lia. cbn [negb]. destruct (Z.ltb_spec (Z.of_nat c + o) (Z.of_nat (length l))); f_equal; lia.
      - rewrite (He eq_refl) in *. destruct (Z.leb_spec 0 0); [|lia]. destruct (Z.leb_spec 0 (Z.of_nat (length l))); [|lia]. rewrite fits_true by lia. cbn [negb]. f_equal. lia. }
    rewrite EV. cbn [rbind]. assert (EG : goes (length l) c o w = Z.of_nat (Z.to_nat (goes (length l) c o w))) by lia. split.
    + rewrite EG at 1. rewrite put_map by exact Hi. reflexivity.
    + split; [exact GL|]. cbn [ie_bytes ie_cur]. apply put_forall; [exact GC|]. unfold goes in *. lia.
  - exists q. split; [reflexivity|exact G].
  - destruct C as [Hd HC]. cbn [el_step shown oe_m oe_pos ideal_step fst snd ie_bytes ie_cur]. rewrite all_in by auto. cbn [rbind fst snd]. eexists. split; [reflexivity|]. split; assumption.
  - destruct C as [Hd HC]. cbn [el_step shown oe_m oe_pos ideal_step fst snd ie_bytes ie_cur]. rewrite all_from by auto. cbn [rbind fst snd]. eexists. split; [reflexivity|]. split; assumption.
  - exists q. cbn [el_step shown oe_m oe_pos ideal_step fst snd ie_bytes ie_cur]. split; [unfold shown; cbn [ie_bytes ie_cur]; rewrite map_app; reflexivity|].
    split; [exact GL|]. cbn [ie_bytes ie_cur]. apply Forall_app. split; [exact GC|]. constructor; [lia|constructor].
Qed.
Lemma steps_ok xs : forall s q, good s -> all_covered s xs ->
  exists q', el_steps (shown s q) xs = Ok (shown (fst (ideal_steps s xs)) q', snd (ideal_steps s xs)).
Proof.
  induction xs as [|x xs IH]; intros s q G C; [exists q; reflexivity|]. destruct C as [C1 C2]. destruct (step_ok s q x G C1) as (q1 & E1 & G1).
  cbn [el_steps ideal_steps]. rewrite E1. cbn [rbind fst]. destruct (ideal_step s x) as [s1 o] eqn:E. cbn [fst snd] in *.
  destruct (IH s1 q1 G1 C2) as (q2 & E2). rewrite E2. cbn [rbind fst snd]. destruct (ideal_steps s1 xs) as [s2 os]. exists q2. reflexivity.
Qed.

(** ** What fails *)
(** from the end: on the wrong side *)
Lemma from_end len pos o : 0 <= len < 2^62 -> -2^62 < o <= 0 -> vs_seek len pos o End_ = Ok (len - o).
Proof.
  intros Hl Ho. unfold vs_seek. destruct (Z.leb_spec o 0); [|lia]. destruct (Z.leb_spec o len); [|lia]. rewrite fits_true by lia. reflexivity.
Qed.
Lemma from_end_pos len pos o : 0 < o -> vs_seek len pos o End_ = Ok pos.
Proof. intros H. unfold vs_seek. destruct (Z.leb_spec o 0); [lia|]. reflexivity. Qed.
(** reading or writing behind the end: an exception *)
Lemma behind l q p n : zlen l < p < 2^31 -> el_read (MS l q) p n = Throw /\ forall d, el_write (MS l q) p d = Throw.
Proof.
  intros H. pose proof (zlen_nonneg l). unfold el_read, el_write. rewrite (i32_small p) by lia. unfold el_seek, ms_seek. cbn [ms_data].
  destruct (Z.ltb_spec (zlen l) p); [|lia]. split; reflexivity.
Qed.
(** before the start: accepted, and the next read is undefined *)
Lemma before len pos o : 0 <= len -> -2^62 < o -> 0 <= pos < 2^62 -> pos + o < 0 -> vs_seek len pos o Cur = Ok (pos + o).
Proof. intros Hl Ho Hp H. unfold vs_seek. rewrite fits_true by lia. cbn [negb]. destruct (Z.ltb_spec (pos + o) len); [reflexivity|lia]. Qed.
Lemma negative_read l p n : zlen l < 2^62 -> -2^31 <= p < 0 -> 0 <= n < 2^31 -> ms_read (MS l p) n n = UB.
Proof.
  intros Hl Hp Hn. pose proof (zlen_nonneg l) as HZ. unfold ms_read. cbn [ms_pos ms_data]. rewrite fits_true by lia. cbn [negb].
  assert (K : forall k, rdn l p k = UB) by (intros k; unfold rdn; destruct (Z.ltb_spec p 0); [reflexivity|lia]).
  destruct (Z.leb_spec (zlen l) (u64 (p + n))) as [E|E].
  - rewrite i64_small by lia. destruct (Z.ltb_spec 0 (zlen l - p)); [|lia]. destruct (Z.ltb_spec n (zlen l - p)); [reflexivity|]. now rewrite K.
  - destruct (Z.ltb_spec 0 n); [destruct (Z.ltb_spec n n); [lia|]; now rewrite K|].
    assert (n = 0) by lia. subst n. exfalso. unfold u64 in E. rewrite Z.add_0_r in E. rewrite <- (Z.mod_add _ 1), Z.mod_small in E by lia. lia.
Qed.
Lemma before_read l q p n : zlen l < 2^31 -> -2^31 <= p < 0 -> 0 <= n < 2^31 -> el_read (MS l q) p n = UB.
Proof.
  intros Hl Hp Hn. pose proof (zlen_nonneg l) as HZ. unfold el_read. rewrite !i32_small by lia. unfold el_seek, ms_seek. cbn [ms_data].
  destruct (Z.ltb_spec (zlen l) p); [lia|]. cbn [rbind snd fst]. apply negative_read; lia.
Qed.
(** positions from 2 GiB on *)
Lemma i32_big p : 2^31 <= p < 2^32 -> i32 p = p - 2^32.
Proof. intros H. unfold i32. rewrite <- (Z.mod_add _ (-1)), Z.mod_small by lia. lia. Qed.
Lemma big_read l q p n : zlen l < 2^62 -> 2^31 <= p < 2^32 -> 0 <= n < 2^31 -> el_read (MS l q) p n = UB.
Proof.
  intros Hl Hp Hn. pose proof (zlen_nonneg l) as HZ. unfold el_read. rewrite (i32_big p) by lia. rewrite i32_small by lia. unfold el_seek, ms_seek. cbn [ms_data].
  destruct (Z.ltb_spec (zlen l) (p - 2^32)); [lia|]. cbn [rbind snd fst]. apply negative_read; lia.
Qed.
Lemma vec_lost l q p n caller : zlen l < 2^31 -> (p <= length l)%nat -> (0 < n)%nat -> Z.of_nat n < 2^31 ->
  el_read_vec (MS l q) caller (Z.of_nat p) (Z.of_nat n) = Ok (MS l (Z.of_nat (p + length (firstn n (skipn p l)))), caller, zlen (firstn n (skipn p l))).
Proof.
  intros Hl Hp Hn Hn2. unfold el_read_vec. unfold zlen in Hl. rewrite !i32_small by lia. rewrite seek_in by exact Hp. cbn [rbind].
  unfold ms_read_vec. destruct (Z.leb_spec (Z.of_nat n) 0); [lia|]. rewrite read_ok by (unfold zlen; lia). reflexivity.
Qed.
(** a part taken from another stream *)
Lemma put_part l q sl sp p n : zlen l < 2^31 -> zlen sl < 2^31 -> (p <= length l)%nat -> (0 < n)%nat -> Z.of_nat n < 2^31 -> (sp < length sl)%nat ->
  el_put (MS l q) (MS sl (Z.of_nat sp)) (Z.of_nat p) (Z.of_nat n) =
  let d := firstn n (skipn sp sl) in Ok (MS (written l p d) (Z.of_nat (p + length d)), MS sl (Z.of_nat (sp + length d)), zlen d).
Proof.
  intros Hl Hs Hp Hn Hn2 Hsp. unfold el_put. unfold zlen in Hl, Hs. rewrite !i32_small by lia. rewrite seek_in by exact Hp. cbn [rbind].
  change (MS l (Z.of_nat p)) with (of_ideal (l, p)). change (MS sl (Z.of_nat sp)) with (of_ideal (sl, sp)). rewrite copy_n_ok by (unfold zlen; lia). cbv zeta. rewrite overlay_written by exact Hp. reflexivity.
Qed.
