(** Proofs about the table of allowed bytes and the test of pages. *)
From Verif Require Import Prelude Lists Field_Model Field_Spec Tmpl_Model Tmpl_Spec.
Ltac Zify.zify_post_hook ::= idtac.

Definition get (t : list Z) (a b : Z) : Z := nth (Z.to_nat (256 * a + b)) t 0.
Definition b2z (b : bool) : Z := if b then 1 else 0.

Lemma wrn_get : forall t p d t', wrn t p d = Ok t' ->
  zlen t' = zlen t /\ (forall q, 0 <= q -> nth (Z.to_nat q) t' 0 = if (p <=? q) && (q <? p + zlen d) then nth (Z.to_nat (q - p)) d 0 else nth (Z.to_nat q) t 0).
Proof.
  intros t p d t' H. unfold wrn in H. destruct (p <? 0) eqn:E1; [discriminate|]. destruct (zlen t <? p + zlen d) eqn:E2; [discriminate|].
  cbn in H. injection H as <-. apply Z.ltb_ge in E1, E2. unfold zlen in *. split; [rewrite splice_length by lia; reflexivity|].
  intros q Hq. rewrite !nth_default_eq || idtac.
  assert (G : forall (l : list Z) n, nth n l 0 = match nth_error l n with Some x => x | None => 0 end).
  { intros l n. destruct (nth_error l n) eqn:E; [now apply nth_error_nth|]. apply nth_error_None in E. now apply nth_overflow. }
  rewrite !G, nth_error_splice by lia.
  replace ((Z.to_nat p <=? Z.to_nat q) && (Z.to_nat q <? Z.to_nat p + length d))%nat with ((p <=? q) && (q <? p + Z.of_nat (length d))).
  2:{ destruct (Z.leb_spec p q), (Z.ltb_spec q (p + Z.of_nat (length d))), (Nat.leb_spec (Z.to_nat p) (Z.to_nat q)), (Nat.ltb_spec (Z.to_nat q) (Z.to_nat p + length d)); cbn; try reflexivity; lia. }
  destruct ((p <=? q) && (q <? p + Z.of_nat (length d))) eqn:E; [|reflexivity].
  apply andb_prop in E. destruct E as [E3 E4]. apply Z.leb_le in E3. replace (Z.to_nat q - Z.to_nat p)%nat with (Z.to_nat (q - p)) by lia. reflexivity.
Qed.
Lemma wrn_works : forall (t : list Z) p d, 0 <= p -> p + zlen d <= zlen t -> exists t', wrn t p d = Ok t'.
Proof.
  intros t p d H1 H2. unfold wrn. destruct (Z.ltb_spec p 0); [lia|]. destruct (Z.ltb_spec (zlen t) (p + zlen d)); [lia|]. cbn. eauto.
Qed.
Lemma zlen_repeat : forall (x : Z) n, zlen (repeat x n) = Z.of_nat n.
Proof. intros. unfold zlen. now rewrite repeat_length. Qed.

Lemma rows_set : forall t o n, 0 <= o -> 0 <= n -> 256 * (o + n) <= zlen t ->
  exists t', memset1 t (256 * o) (256 * n) = Ok t' /\ zlen t' = zlen t /\
  forall a b, 0 <= a -> 0 <= b < 256 -> get t' a b = if (o <=? a) && (a <? o + n) then 1 else get t a b.
Proof.
  intros t o n H1 H2 H3. unfold memset1. destruct (wrn_works t (256 * o) (repeat 1 (Z.to_nat (256 * n)))) as (t' & E); [lia|rewrite zlen_repeat; lia|].
  exists t'. destruct (wrn_get _ _ _ _ E) as [G1 G2]. repeat (split; [assumption|]). intros a b Ha Hb. unfold get. rewrite G2 by lia. rewrite zlen_repeat.
  destruct (Z.leb_spec (256 * o) (256 * a + b)), (Z.ltb_spec (256 * a + b) (256 * o + Z.of_nat (Z.to_nat (256 * n)))), (Z.leb_spec o a), (Z.ltb_spec a (o + n)); cbn [andb]; try reflexivity; try lia.
  rewrite nth_indep with (d' := 1) by (rewrite repeat_length; lia). apply nth_repeat.
Qed.
Lemma part_set : forall t o j, 0 <= o -> 0 <= j <= 256 -> 256 * (o + 1) <= zlen t ->
  exists t', memset1 t (256 * o) j = Ok t' /\ zlen t' = zlen t /\
  forall a b, 0 <= a -> 0 <= b < 256 -> get t' a b = if (a =? o) && (b <? j) then 1 else get t a b.
Proof.
  intros t o j H1 H2 H3. unfold memset1. destruct (wrn_works t (256 * o) (repeat 1 (Z.to_nat j))) as (t' & E); [lia|rewrite zlen_repeat; lia|].
  exists t'. destruct (wrn_get _ _ _ _ E) as [G1 G2]. repeat (split; [assumption|]). intros a b Ha Hb. unfold get. rewrite G2 by lia. rewrite zlen_repeat.
  destruct (Z.leb_spec (256 * o) (256 * a + b)), (Z.ltb_spec (256 * a + b) (256 * o + Z.of_nat (Z.to_nat j))), (Z.eqb_spec a o), (Z.ltb_spec b j); cbn [andb]; try reflexivity; try lia.
  rewrite nth_indep with (d' := 1) by (rewrite repeat_length; lia). apply nth_repeat.
Qed.
Lemma row_set : forall t o R, 0 <= o -> zlen R = 256 -> 256 * (o + 1) <= zlen t ->
  exists t', wrn t (256 * o) R = Ok t' /\ zlen t' = zlen t /\
  forall a b, 0 <= a -> 0 <= b < 256 -> get t' a b = if a =? o then nth (Z.to_nat b) R 0 else get t a b.
Proof.
  intros t o R H1 H2 H3. destruct (wrn_works t (256 * o) R) as (t' & E); [lia|lia|].
  exists t'. destruct (wrn_get _ _ _ _ E) as [G1 G2]. repeat (split; [assumption|]). intros a b Ha Hb. unfold get. rewrite G2 by lia.
  destruct (Z.leb_spec (256 * o) (256 * a + b)), (Z.ltb_spec (256 * a + b) (256 * o + zlen R)), (Z.eqb_spec a o); cbn [andb]; try reflexivity; try lia.
  f_equal. lia.
Qed.

(** the constant tables *)
Lemma all_bytes : forall (P : Z -> bool), forallb P (map Z.of_nat (seq 0 256)) = true -> forall v, 0 <= v < 256 -> P v = true.
Proof.
  intros P H v Hv. rewrite forallb_forall in H. apply H. apply in_map_iff. exists (Z.to_nat v). split; [lia|]. apply in_seq. lia.
Qed.
Lemma row_NUM : forall v, 0 <= v < 256 -> nth (Z.to_nat v) NUM_TEST 0 = b2z (two_digits v 99).
Proof. intros v Hv. apply Z.eqb_eq. revert v Hv. apply (all_bytes (fun v => nth (Z.to_nat v) NUM_TEST 0 =? b2z (two_digits v 99))). vm_compute. reflexivity. Qed.
Lemma row_D1 : forall v, 0 <= v < 256 -> nth (Z.to_nat v) DATE1_TEST 0 = b2z (two_digits v 39).
Proof. intros v Hv. apply Z.eqb_eq. revert v Hv. apply (all_bytes (fun v => nth (Z.to_nat v) DATE1_TEST 0 =? b2z (two_digits v 39))). vm_compute. reflexivity. Qed.
Lemma row_D3 : forall q v, 0 <= v < 256 -> nth (Z.to_nat v) (no_zero q DATE3_TEST) 0 = b2z (two_digits v 12 && negb (q && (v =? 0))).
Proof. intros q v Hv. apply Z.eqb_eq. revert v Hv. apply (all_bytes (fun v => nth (Z.to_nat v) (no_zero q DATE3_TEST) 0 =? b2z (two_digits v 12 && negb (q && (v =? 0))))). destruct q; vm_compute; reflexivity. Qed.
Lemma row_D4 : forall q v, 0 <= v < 256 -> nth (Z.to_nat v) (no_zero q DATE4_TEST) 0 = b2z (two_digits v 31 && negb (q && (v =? 0))).
Proof. intros q v Hv. apply Z.eqb_eq. revert v Hv. apply (all_bytes (fun v => nth (Z.to_nat v) (no_zero q DATE4_TEST) 0 =? b2z (two_digits v 31 && negb (q && (v =? 0))))). destruct q; vm_compute; reflexivity. Qed.
Lemma row_D5 : forall v, 0 <= v < 256 -> nth (Z.to_nat v) DATE5_TEST 0 = b2z (two_digits v 23).
Proof. intros v Hv. apply Z.eqb_eq. revert v Hv. apply (all_bytes (fun v => nth (Z.to_nat v) DATE5_TEST 0 =? b2z (two_digits v 23))). vm_compute. reflexivity. Qed.
Lemma row_D67 : forall v, 0 <= v < 256 -> nth (Z.to_nat v) DATE67_TEST 0 = b2z (two_digits v 59).
Proof. intros v Hv. apply Z.eqb_eq. revert v Hv. apply (all_bytes (fun v => nth (Z.to_nat v) DATE67_TEST 0 =? b2z (two_digits v 59))). vm_compute. reflexivity. Qed.
Lemma len_NUM : zlen NUM_TEST = 256. Proof. reflexivity. Qed.
Lemma len_D1 : zlen DATE1_TEST = 256. Proof. reflexivity. Qed.
Lemma len_D3 : forall q, zlen (no_zero q DATE3_TEST) = 256. Proof. intros []; reflexivity. Qed.
Lemma len_D4 : forall q, zlen (no_zero q DATE4_TEST) = 256. Proof. intros []; reflexivity. Qed.
Lemma len_D5 : zlen DATE5_TEST = 256. Proof. reflexivity. Qed.
Lemma len_D67 : zlen DATE67_TEST = 256. Proof. reflexivity. Qed.

(** what a step does: rows [o, o + n) become those of [f], the others stay *)
Definition fills (t : list Z) (o n : Z) (f : Z -> Z -> bool) (r : res (list Z)) : Prop :=
  exists t', r = Ok t' /\ zlen t' = zlen t /\
  forall a b, 0 <= a -> 0 <= b < 256 -> get t' a b = if (o <=? a) && (a <? o + n) then b2z (f (a - o) b) else get t a b.
Definition zero_at (t : list Z) (o n : Z) : Prop := forall a b, o <= a < o + n -> 0 <= b < 256 -> get t a b = 0.

Lemma fills_seq : forall t o n m f g r k, 0 <= n -> 0 <= m -> zero_at t o (n + m) -> fills t o n f r ->
  (forall t', zlen t' = zlen t -> zero_at t' (o + n) m -> fills t' (o + n) m g (k t')) ->
  fills t o (n + m) (fun i v => if i <? n then f i v else g (i - n) v) (do t' <- r; k t').
Proof.
  intros t o n m f g r k Hn Hm Z (t' & E & L & F) K. subst r. cbn [rbind].
  destruct (K t') as (t2 & E2 & L2 & F2); [exact L| |].
  { intros a b Ha Hb. destruct (Z.le_gt_cases 0 a) as [P|P].
    - rewrite F by assumption. destruct (Z.leb_spec o a), (Z.ltb_spec a (o + n)); cbn [andb]; try lia; apply Z; lia.
    - unfold get. assert (Y : Z.to_nat (256 * a + b) = 0%nat) by lia. destruct (Z.le_gt_cases o 0) as [Q|Q]; [|lia].
      rewrite Y. specialize (F 0 0 ltac:(lia) ltac:(lia)). unfold get in F. cbn in F. rewrite F.
      assert (Zz : nth 0 t 0 = 0). { specialize (Z a b ltac:(lia) Hb). unfold get in Z. now rewrite Y in Z. }
      destruct ((o <=? 0) && (0 <? o + n)) eqn:Q2; [|exact Zz]. exfalso. apply andb_prop in Q2. destruct Q2 as [_ Q2]. apply Z.ltb_lt in Q2. lia. }
  exists t2. split; [exact E2|]. split; [lia|]. intros a b Ha Hb. rewrite F2 by assumption.
  rewrite F by assumption.
  destruct (Z.leb_spec (o + n) a), (Z.ltb_spec a (o + n + m)), (Z.leb_spec o a), (Z.ltb_spec a (o + (n + m))), (Z.ltb_spec a (o + n)), (Z.ltb_spec (a - o) n); cbn [andb]; try reflexivity; try (exfalso; lia).
  do 2 f_equal; lia.
Qed.
Lemma fills_ext : forall t o n f g r, fills t o n f r -> (forall i v, 0 <= i < n -> 0 <= v < 256 -> f i v = g i v) -> fills t o n g r.
Proof.
  intros t o n f g r (t' & E & L & F) H. exists t'. split; [exact E|]. split; [exact L|]. intros a b Ha Hb. rewrite F by assumption.
  destruct (Z.leb_spec o a), (Z.ltb_spec a (o + n)); cbn [andb]; try reflexivity. now rewrite H by lia.
Qed.
Lemma fills_n : forall t o n m f r, n = m -> fills t o n f r -> fills t o m f r.
Proof. intros; now subst. Qed.

Lemma fills_rows : forall t o n, 0 <= o -> 0 <= n -> 256 * (o + n) <= zlen t -> fills t o n (fun _ _ => true) (memset1 t (256 * o) (256 * n)).
Proof. intros. destruct (rows_set t o n) as (t' & E & L & F); try assumption. exists t'. auto. Qed.
Lemma fills_part : forall t o j, 0 <= o -> 0 <= j <= 256 -> 256 * (o + 1) <= zlen t -> zero_at t o 1 -> fills t o 1 (fun _ v => v <? j) (memset1 t (256 * o) j).
Proof.
  intros t o j H1 H2 H3 Z. destruct (part_set t o j) as (t' & E & L & F); try assumption. exists t'. split; [exact E|]. split; [exact L|].
  intros a b Ha Hb. rewrite F by assumption. destruct (Z.eqb_spec a o), (Z.leb_spec o a), (Z.ltb_spec a (o + 1)), (Z.ltb_spec b j); cbn [andb b2z]; try lia; try reflexivity. apply Z; lia.
Qed.
Lemma fills_row : forall t o R f, 0 <= o -> zlen R = 256 -> 256 * (o + 1) <= zlen t -> (forall v, 0 <= v < 256 -> nth (Z.to_nat v) R 0 = b2z (f v)) ->
  fills t o 1 (fun _ v => f v) (wrn t (256 * o) R).
Proof.
  intros t o R f H1 H2 H3 Hf. destruct (row_set t o R) as (t' & E & L & F); try assumption. exists t'. split; [exact E|]. split; [exact L|].
  intros a b Ha Hb. rewrite F by assumption. destruct (Z.eqb_spec a o), (Z.leb_spec o a), (Z.ltb_spec a (o + 1)); cbn [andb]; try lia; try reflexivity. now apply Hf.
Qed.
Lemma fills_two : forall t o, 0 <= o -> 256 * (o + 1) <= zlen t -> zero_at t o 1 -> fills t o 1 (fun _ v => v <=? 1) (wrn t (256 * o) [1; 1]).
Proof.
  intros t o H1 H2 Z. apply (fills_ext t o 1 (fun _ v => v <? 2)).
  - exact (fills_part t o 2 H1 ltac:(lia) H2 Z).
  - intros i v _ _. destruct (Z.ltb_spec v 2), (Z.leb_spec v 1); try reflexivity; lia.
Qed.
Lemma fills_nums : forall n t o, 0 <= o -> 256 * (o + Z.of_nat n) <= zlen t -> zero_at t o (Z.of_nat n) ->
  fills t o (Z.of_nat n) (fun _ v => two_digits v 99) (num_rows n t (256 * o)).
Proof.
  induction n as [|n IH]; intros t o H1 H2 Z; cbn [num_rows].
  - exists t. split; [reflexivity|]. split; [reflexivity|]. intros a b Ha Hb. destruct (Z.leb_spec o a), (Z.ltb_spec a (o + Z.of_nat 0)); cbn [andb]; try reflexivity; lia.
  - apply (fills_n _ _ (1 + Z.of_nat n)); [lia|]. eapply fills_ext.
    + apply (fills_seq t o 1 (Z.of_nat n) (fun _ v => two_digits v 99) (fun _ v => two_digits v 99)); [lia|lia| | |].
      * intros a b Ha Hb. apply Z; lia.
      * apply fills_row; [lia|exact len_NUM|lia|exact row_NUM].
      * intros t' L Z'. replace (256 * o + 256) with (256 * (o + 1)) by lia. apply IH; [lia|lia|exact Z'].
    + intros i v Hi Hv. cbn beta. now destruct (i <? 1).
Qed.

Lemma zero_sub : forall t o n o' n', zero_at t o n -> o <= o' -> o' + n' <= o + n -> zero_at t o' n'.
Proof. intros t o n o' n' Z H1 H2 a b Ha Hb. apply Z; lia. Qed.

Lemma fills_len : forall t o l, 0 <= o -> 0 <= l < 65536 -> 256 * (o + 2) <= zlen t -> zero_at t o 2 ->
  fills t o 2 (fun i v => if i =? 0 then (255 <? l) || (v <=? l) else v <=? l / 256) (len_rows t (256 * o) l).
Proof.
  intros t o l H1 H2 H3 Z. unfold len_rows. apply (fills_n _ _ (1 + 1)); [lia|]. eapply fills_ext.
  - apply (fills_seq t o 1 1 (fun _ v => v <? (if 255 <? l then 256 else l + 1)) (fun _ v => v <? Z.shiftr l 8 + 1)); [lia|lia|eapply zero_sub; [exact Z|lia|lia]| |].
    + apply fills_part; [lia|destruct (Z.ltb_spec 255 l); lia|lia|eapply zero_sub; [exact Z|lia|lia]].
    + intros t' L Z'. replace (256 * o + 256) with (256 * (o + 1)) by lia. apply fills_part; [lia| |lia|exact Z'].
      rewrite Z.shiftr_div_pow2 by lia. change (2 ^ 8) with 256. assert (0 <= l / 256 < 256) by (split; [apply Z.div_pos; lia|apply Z.div_lt_upper_bound; lia]). lia.
  - intros i v Hi Hv. cbn beta. rewrite Z.shiftr_div_pow2 by lia. change (2 ^ 8) with 256.
    destruct (Z.ltb_spec i 1), (Z.eqb_spec i 0); try lia.
    + destruct (Z.ltb_spec 255 l); cbn [orb]; [apply Z.ltb_lt; lia|]. destruct (Z.ltb_spec v (l + 1)), (Z.leb_spec v l); try reflexivity; lia.
Qed.

Lemma fills_value : forall k l q t o, 0 <= o -> 0 <= l < 65536 -> 256 * (o + width k l) <= zlen t -> zero_at t o (width k l) ->
  fills t o (width k l) (value_byte k l q) (tmpl_value k l q t (256 * o)).
Proof.
  intros k l q t o Ho Hl Hlen Z.
  assert (R : forall n, 0 <= n -> width k l = n -> fills t o n (fun _ _ => true) (memset1 t (256 * o) (256 * n))) by (intros n Hn Hw; apply fills_rows; lia).
  destruct k; cbn [width tmpl_value] in *.
  - eapply fills_ext; [apply R; [lia|reflexivity]|]. reflexivity.
  - apply fills_two; [lia|lia|exact Z].
  - eapply fills_ext.
    + apply (fills_n _ _ (Z.of_nat (Z.to_nat (Z.quot (l + 2) 2)))); [|apply fills_nums].
      * rewrite Z.quot_div_nonneg by lia. assert (0 <= (l + 2) / 2) by (apply Z.div_pos; lia). replace (1 + l + 1) with (l + 2) by lia. lia.
      * lia.
      * rewrite Z.quot_div_nonneg by lia. assert (0 <= (l + 2) / 2) by (apply Z.div_pos; lia). replace (1 + l + 1) with (l + 2) in Hlen by lia. lia.
      * rewrite Z.quot_div_nonneg by lia. assert (0 <= (l + 2) / 2) by (apply Z.div_pos; lia). replace (1 + l + 1) with (l + 2) in Z by lia. now rewrite Z2Nat.id.
    + reflexivity.
  - replace (256 * 2 * l) with (256 * (2 * l)) by lia. eapply fills_ext; [apply R; [lia|reflexivity]|]. reflexivity.
  - eapply fills_ext.
    + apply (fills_seq t o 2 (2 * l) (fun i v => if i =? 0 then (255 <? l) || (v <=? l) else v <=? l / 256) (fun _ _ => true)); [lia|lia|exact Z| |].
      * apply fills_len; [lia|lia|lia|eapply zero_sub; [exact Z|lia|lia]].
      * intros t' L Z'. replace (256 * o + 512) with (256 * (o + 2)) by lia. replace (256 * 2 * l) with (256 * (2 * l)) by lia. apply fills_rows; lia.
    + intros i v Hi Hv. cbn. destruct (Z.ltb_spec i 2), (Z.eqb_spec i 0), (Z.eqb_spec i 1); try lia; reflexivity.
  - eapply fills_ext; [apply R; [lia|reflexivity]|]. reflexivity.
  - eapply fills_ext; [apply R; [lia|reflexivity]|]. reflexivity.
  - eapply fills_ext; [apply R; [lia|reflexivity]|]. reflexivity.
  - eapply fills_ext; [apply R; [lia|reflexivity]|]. reflexivity.
  - apply (fills_n _ _ (1 + (1 + (1 + (1 + (1 + (1 + 1))))))); [reflexivity|]. eapply fills_ext.
    + eapply (fills_seq t o 1 _ (fun _ v => two_digits v 39)); [lia|lia|exact Z|apply fills_row; [lia|exact len_D1|lia|exact row_D1]|].
      intros t1 L1 Z1. replace (256 * o + 256) with (256 * (o + 1)) by lia.
      eapply (fills_seq t1 (o + 1) 1 _ (fun _ v => two_digits v 99)); [lia|lia|exact Z1|apply fills_row; [lia|exact len_NUM|lia|exact row_NUM]|].
      intros t2 L2 Z2. replace (256 * o + 512) with (256 * (o + 1 + 1)) by lia.
      eapply (fills_seq t2 (o + 1 + 1) 1 _ (fun _ v => two_digits v 12 && negb (q && (v =? 0)))); [lia|lia|exact Z2|apply fills_row; [lia|apply len_D3|lia|apply row_D3]|].
      intros t3 L3 Z3. replace (256 * o + 768) with (256 * (o + 1 + 1 + 1)) by lia.
      eapply (fills_seq t3 (o + 1 + 1 + 1) 1 _ (fun _ v => two_digits v 31 && negb (q && (v =? 0)))); [lia|lia|exact Z3|apply fills_row; [lia|apply len_D4|lia|apply row_D4]|].
      intros t4 L4 Z4. replace (256 * o + 1024) with (256 * (o + 1 + 1 + 1 + 1)) by lia.
      eapply (fills_seq t4 (o + 1 + 1 + 1 + 1) 1 _ (fun _ v => two_digits v 23)); [lia|lia|exact Z4|apply fills_row; [lia|exact len_D5|lia|exact row_D5]|].
      intros t5 L5 Z5. replace (256 * o + 1280) with (256 * (o + 1 + 1 + 1 + 1 + 1)) by lia.
      eapply (fills_seq t5 (o + 1 + 1 + 1 + 1 + 1) 1 1 (fun _ v => two_digits v 59) (fun _ v => two_digits v 59)); [lia|lia|exact Z5|apply fills_row; [lia|exact len_D67|lia|exact row_D67]|].
      intros t6 L6 Z6. replace (256 * o + 1536) with (256 * (o + 1 + 1 + 1 + 1 + 1 + 1)) by lia.
      apply fills_row; [lia|exact len_D67|lia|exact row_D67].
    + intros i v Hi Hv. cbn beta iota delta [value_byte].
      assert (D : i = 0 \/ i = 1 \/ i = 2 \/ i = 3 \/ i = 4 \/ i = 5 \/ i = 6) by lia.
      repeat (destruct D as [D|D]; [subst i; cbn; reflexivity|]). subst i; reflexivity.
  - eapply fills_ext; [apply R; [lia|reflexivity]|]. reflexivity.
  - eapply fills_ext.
    + apply (fills_seq t o 2 l (fun i v => if i =? 0 then (255 <? l) || (v <=? l) else v <=? l / 256) (fun _ _ => true)); [lia|lia|exact Z| |].
      * apply fills_len; [lia|lia|lia|eapply zero_sub; [exact Z|lia|lia]].
      * intros t' L Z'. replace (256 * o + 512) with (256 * (o + 2)) by lia. apply fills_rows; lia.
    + intros i v Hi Hv. cbn. destruct (Z.ltb_spec i 2), (Z.eqb_spec i 0), (Z.eqb_spec i 1); try lia; reflexivity.
Qed.
Lemma width_nonneg : forall k l, 0 <= l -> 0 <= width k l.
Proof. intros [] l H; cbn [width]; try lia. Qed.

Lemma fills_field : forall f q t, 0 <= f_off f -> 0 <= f_len f < 65536 -> 256 * f_end f <= zlen t -> zero_at t (f_off f) (extent f) ->
  fills t (f_off f) (extent f) (field_byte f q) (tmpl_field f q t).
Proof.
  intros f q t H1 H2 H3 Z. unfold tmpl_field, field_byte, f_end, extent in *. pose proof (width_nonneg (f_kind f) (f_len f) ltac:(lia)) as W.
  destruct (f_null f) eqn:E; cbn zeta.
  - eapply fills_ext.
    + apply (fills_seq t (f_off f) 1 (width (f_kind f) (f_len f)) (fun _ v => v <=? 1) (value_byte (f_kind f) (f_len f) q)); [lia|lia|exact Z| |].
      * apply fills_two; [lia|lia|eapply zero_sub; [exact Z|lia|lia]].
      * intros t' L Z'. replace (256 * f_off f + 256) with (256 * (f_off f + 1)) by lia. apply fills_value; [lia|lia|lia|exact Z'].
    + intros i v Hi Hv. cbn beta. destruct (Z.ltb_spec i 1), (Z.eqb_spec i 0); try lia; reflexivity.
  - apply (fills_n _ _ (width (f_kind f) (f_len f))); [lia|]. apply fills_value; [lia|lia|lia|eapply zero_sub; [exact Z|lia|lia]].
Qed.

Definition insideb (f : field) (p : Z) : bool := (f_off f <=? p) && (p <? f_end f).
Definition rowb (fs : list (field * bool)) (p v : Z) : bool := existsb (fun fq => insideb (fst fq) p && field_byte (fst fq) (snd fq) (p - f_off (fst fq)) v) fs.
Lemma tmpl_loop_ok : forall fs n t,
  (forall f q, In (f, q) fs -> 0 <= f_off f /\ f_end f <= n /\ 0 <= f_len f < 65536) ->
  (forall i j f g a b, i <> j -> nth_error fs i = Some (f, a) -> nth_error fs j = Some (g, b) -> f_end f <= f_off g \/ f_end g <= f_off f) ->
  zlen t = 256 * n -> (forall f q, In (f, q) fs -> zero_at t (f_off f) (extent f)) ->
  exists t', tmpl_loop fs t = Ok t' /\ zlen t' = zlen t /\
    forall a b, 0 <= a -> 0 <= b < 256 -> get t' a b = if existsb (fun fq => insideb (fst fq) a) fs then b2z (rowb fs a b) else get t a b.
Proof.
  induction fs as [|[f q] fs IH]; intros n t H1 H2 H3 H4; cbn [tmpl_loop].
  - exists t. repeat (split; [reflexivity|]). intros. reflexivity.
  - destruct (H1 f q (or_introl eq_refl)) as (A & B & C).
    destruct (fills_field f q t A C ltac:(lia) (H4 f q (or_introl eq_refl))) as (t1 & E1 & L1 & F1). rewrite E1. cbn [rbind].
    destruct (IH n t1) as (t2 & E2 & L2 & F2).
    + intros g r Hg. apply (H1 g r). now right.
    + intros i j g h a b Hij Hi Hj. apply (H2 (S i) (S j) g h a b); [lia|exact Hi|exact Hj].
    + lia.
    + intros g r Hg a b Ha Hb. destruct (H1 g r (or_intror Hg)) as (A' & B' & C'). unfold extent in *. rewrite F1 by lia.
      destruct (In_nth_error _ _ Hg) as (i & Hi). destruct (H2 0%nat (S i) f g q r ltac:(lia) eq_refl Hi) as [D|D]; unfold f_end, extent in D;
      match goal with |- (if ?c then _ else _) = 0 => destruct c eqn:X end; try (apply (H4 g r (or_intror Hg)); unfold extent; lia); exfalso; apply andb_prop in X; destruct X as [X1 X2]; apply Z.leb_le in X1; apply Z.ltb_lt in X2; lia.
    + exists t2. split; [exact E2|]. split; [lia|]. intros a b Ha Hb. rewrite F2 by assumption. cbn [existsb rowb fst snd].
      fold (rowb fs a b). rewrite F1 by assumption. fold (f_end f).
      destruct (existsb (fun fq => insideb (fst fq) a) fs) eqn:X.
      * assert (Y : insideb f a = false).
        { apply existsb_exists in X. destruct X as ([g r] & Hg & X). cbn in X. unfold insideb in *. apply andb_prop in X. destruct X as [X1 X2]. apply Z.leb_le in X1. apply Z.ltb_lt in X2.
          destruct (In_nth_error _ _ Hg) as (i & Hi). destruct (H2 0%nat (S i) f g q r ltac:(lia) eq_refl Hi) as [D|D]; destruct (Z.leb_spec (f_off f) a), (Z.ltb_spec a (f_end f)); try reflexivity; lia. }
        rewrite Y. reflexivity.
      * unfold insideb at 1. rewrite orb_false_r. unfold f_end. destruct ((f_off f <=? a) && (a <? f_off f + extent f)) eqn:Y; [|reflexivity].
        unfold insideb, f_end. rewrite Y. cbn [andb]. f_equal.
        assert (W : rowb fs a b = false). { unfold rowb. clear -X. induction fs as [|x fs IH]; [reflexivity|]. cbn in *. apply orb_false_elim in X. destruct X as [X1 X2]. rewrite X1, (IH X2). reflexivity. }
        now rewrite W, orb_false_r.
Qed.

(** the whole table *)
Lemma template_ok : forall fs n, 1 <= n -> placed fs n ->
  exists t, record_template fs n = Ok t /\ zlen t = 256 * n /\
    forall a b, 0 <= a < n -> 0 <= b < 256 -> (get t a b <> 0 <-> record_byte fs a b).
Proof.
  intros fs n Hn (P1 & P2). unfold record_template.
  assert (G0 : forall a b, get (repeat 0 (Z.to_nat (256 * n))) a b = 0) by (intros a b; unfold get; apply nth_repeat).
  destruct (tmpl_loop_ok fs n (repeat 0 (Z.to_nat (256 * n)))) as (t & E & L & F).
  - intros f q H. destruct (P1 f q H) as (A & B & C). repeat split; lia.
  - exact P2.
  - rewrite zlen_repeat. lia.
  - intros f q H a b _ _. apply G0.
  - rewrite zlen_repeat in L. rewrite E. cbn [rbind]. destruct (wrn_works t 0 [1]) as (t' & E'); [lia|change (zlen [1]) with 1; lia|].
    exists t'. split; [exact E'|]. destruct (wrn_get _ _ _ _ E') as [G1 G2]. split; [lia|]. intros a b Ha Hb.
    assert (Hn0 : existsb (fun fq => insideb (fst fq) 0) fs = false).
    { destruct (existsb (fun fq => insideb (fst fq) 0) fs) eqn:X; [|reflexivity]. apply existsb_exists in X. destruct X as ([g r] & Hg & X). cbn in X. unfold insideb in X. apply andb_prop in X. destruct X as [X1 _]. apply Z.leb_le in X1. destruct (P1 g r Hg). lia. }
    assert (GG : get t' a b = if (a =? 0) && (b =? 0) then 1 else b2z (rowb fs a b)).
    { unfold get. rewrite G2 by lia. change (zlen [1]) with 1.
      destruct (Z.eqb_spec a 0), (Z.eqb_spec b 0); cbn [andb].
      - subst. reflexivity.
      - destruct (Z.leb_spec 0 (256 * a + b)), (Z.ltb_spec (256 * a + b) (0 + 1)); cbn [andb]; try lia. fold (get t a b). rewrite F by lia. subst a. rewrite Hn0, G0.
        assert (W : rowb fs 0 b = false). { unfold rowb. clear -Hn0. induction fs as [|x fs IH]; [reflexivity|]. cbn in *. apply orb_false_elim in Hn0. destruct Hn0 as [X1 X2]. rewrite X1, (IH X2). reflexivity. }
        now rewrite W.
      - destruct (Z.leb_spec 0 (256 * a + b)), (Z.ltb_spec (256 * a + b) (0 + 1)); cbn [andb]; try lia. fold (get t a b). rewrite F by lia.
        destruct (existsb (fun fq => insideb (fst fq) a) fs) eqn:X; [reflexivity|]. rewrite G0.
        assert (W : rowb fs a b = false). { unfold rowb. clear -X. induction fs as [|x fs IH]; [reflexivity|]. cbn in *. apply orb_false_elim in X. destruct X as [X1 X2]. rewrite X1, (IH X2). reflexivity. }
        now rewrite W.
      - destruct (Z.leb_spec 0 (256 * a + b)), (Z.ltb_spec (256 * a + b) (0 + 1)); cbn [andb]; try lia. fold (get t a b). rewrite F by lia.
        destruct (existsb (fun fq => insideb (fst fq) a) fs) eqn:X; [reflexivity|]. rewrite G0.
        assert (W : rowb fs a b = false). { unfold rowb. clear -X. induction fs as [|x fs IH]; [reflexivity|]. cbn in *. apply orb_false_elim in X. destruct X as [X1 X2]. rewrite X1, (IH X2). reflexivity. }
        now rewrite W. }
    rewrite GG. unfold record_byte. split.
    + destruct (Z.eqb_spec a 0), (Z.eqb_spec b 0); cbn [andb]; intros H.
      * left. lia.
      * right. unfold rowb in H. destruct (existsb _ fs) eqn:X in H; [|now cbn in H]. apply existsb_exists in X. destruct X as ([f q] & Hf & X). cbn in X. apply andb_prop in X. destruct X as [X1 X2]. unfold insideb in X1. apply andb_prop in X1. destruct X1 as [X3 X4]. exists f, q. split; [exact Hf|]. split; [unfold inside; lia|exact X2].
      * right. unfold rowb in H. destruct (existsb _ fs) eqn:X in H; [|now cbn in H]. apply existsb_exists in X. destruct X as ([f q] & Hf & X). cbn in X. apply andb_prop in X. destruct X as [X1 X2]. unfold insideb in X1. apply andb_prop in X1. destruct X1 as [X3 X4]. exists f, q. split; [exact Hf|]. split; [unfold inside; lia|exact X2].
      * right. unfold rowb in H. destruct (existsb _ fs) eqn:X in H; [|now cbn in H]. apply existsb_exists in X. destruct X as ([f q] & Hf & X). cbn in X. apply andb_prop in X. destruct X as [X1 X2]. unfold insideb in X1. apply andb_prop in X1. destruct X1 as [X3 X4]. exists f, q. split; [exact Hf|]. split; [unfold inside; lia|exact X2].
    + intros [[-> ->]|(f & q & Hf & Hi & Hb')]; [cbn; lia|].
      assert (X : rowb fs a b = true). { apply existsb_exists. exists (f, q). split; [exact Hf|]. cbn. rewrite Hb'. unfold inside in Hi. unfold insideb. destruct (Z.leb_spec (f_off f) a), (Z.ltb_spec a (f_end f)); try reflexivity; lia. }
      rewrite X. destruct ((a =? 0) && (b =? 0)); cbn; lia.
Qed.

Lemma nth_error_skipn {A} (l : list A) n i : nth_error (skipn n l) i = nth_error l (n + i).
Proof. revert l. induction n as [|n IH]; intros l; [reflexivity|]. destruct l as [|x l]; cbn; [now destruct i|apply IH]. Qed.
Lemma nth_error_firstn {A} (l : list A) n i : (i < n)%nat -> nth_error (firstn n l) i = nth_error l i.
Proof. revert l i. induction n as [|n IH]; intros l i H; [lia|]. destruct l as [|x l], i as [|i]; cbn; try reflexivity. apply IH; lia. Qed.
(** the test *)
Lemma test_loop_spec : forall b tt n j, 1 <= n -> zlen tt = 256 * n -> bytes_ok b -> 0 <= j < n ->
  exists r, test_loop b tt j n = Ok r /\
    (r = true <-> forall x v, nth_error b x = Some v -> get tt ((j + Z.of_nat x) mod n) v <> 0).
Proof.
  induction b as [|v b IH]; intros tt n j Hn Hl Hb Hj; cbn [test_loop].
  - exists true. split; [reflexivity|]. split; [|reflexivity]. intros _ x v H. now destruct x.
  - inversion Hb as [|? ? Hv Hb']; subst.
    assert (exists a, nth_error tt (Z.to_nat (j * 256 + v)) = Some a) as (a & Ea).
    { destruct (nth_error tt (Z.to_nat (j * 256 + v))) eqn:E; [eauto|]. apply nth_error_None in E. unfold zlen, byte_ok in *. lia. }
    unfold byte_ok in Hv. rewrite (rd_ok tt (j * 256 + v) a) by (try exact Ea; lia). cbn [rbind].
    assert (Ga : get tt j v = a). { unfold get. replace (256 * j + v) with (j * 256 + v) by lia. now apply nth_error_nth. }
    destruct (Z.eqb_spec a 0) as [Z|Z].
    + exists false. split; [reflexivity|]. split; [discriminate|]. intros H. exfalso. apply (H 0%nat v eq_refl). replace (j + Z.of_nat 0) with j by lia. rewrite Z.mod_small by lia. now rewrite Ga.
    + destruct (IH tt n (if n <=? j + 1 then 0 else j + 1) Hn Hl Hb') as (r & E & R); [destruct (Z.leb_spec n (j + 1)); lia|].
      exists r. split; [exact E|]. rewrite R. clear R E IH.
      assert (M : forall x, ((if n <=? j + 1 then 0 else j + 1) + Z.of_nat x) mod n = (j + Z.of_nat (S x)) mod n).
      { intros x. destruct (Z.leb_spec n (j + 1)).
        - replace (j + Z.of_nat (S x)) with (0 + Z.of_nat x + 1 * n) by lia. now rewrite Z.mod_add by lia.
        - f_equal. lia. }
      split; intros H x w Hx.
      * destruct x as [|x]; cbn in Hx.
        -- injection Hx as <-. replace (j + Z.of_nat 0) with j by lia. rewrite Z.mod_small by lia. now rewrite Ga.
        -- rewrite <- M. now apply H.
      * rewrite M. apply (H (S x)). exact Hx.
Qed.

Definition zeros (l : list Z) : bool := forallb (fun x => x =? 0) l.
Lemma test_page_ok : forall fs n junk page tt num len, 5 <= n -> placed fs n -> record_template fs n = Ok tt ->
  bytes_ok page -> zlen page = 4096 -> zlen junk = 4096 -> (0 <= len <= 4096 /\ (num = 0 -> 5 <= len)) -> 0 <= num < 2 ^ 20 ->
  exists r, test_page junk page tt num n len = Ok r /\
    (r = true <-> (num = 0 -> firstn 5 page = [1; 0; 0; 0; 0]) /\
       (forall x v, 0 <= x < len -> nth_error page (Z.to_nat x) = Some v -> (num = 0 -> n <= x) -> record_byte fs ((num * 4096 + x) mod n) v) /\
       Forall (fun x => x = 0) (skipn (Z.to_nat len) junk)).
Proof.
  intros fs n junk page tt num len Hn Hp Ht Hb Lp Lj Hlen Hnum.
  destruct (template_ok fs n ltac:(lia) Hp) as (t & E & Lt & G). rewrite E in Ht. injection Ht as ->.
  unfold test_page. unfold zlen in Lp, Lj.
  assert (R : firstn (Z.to_nat len) (firstn (Z.to_nat len) page ++ skipn (Z.to_nat len) junk) = firstn (Z.to_nat len) page).
  { rewrite firstn_app, firstn_firstn, firstn_length, Nat.min_id. replace (Z.to_nat len - Nat.min (Z.to_nat len) (length page))%nat with 0%nat by lia. cbn. now rewrite app_nil_r. }
  assert (T : skipn (Z.to_nat len) (firstn (Z.to_nat len) page ++ skipn (Z.to_nat len) junk) = skipn (Z.to_nat len) junk).
  { rewrite skipn_app, firstn_length. rewrite (skipn_all2 (firstn _ page)) by (rewrite firstn_length; lia). replace (Z.to_nat len - Nat.min (Z.to_nat len) (length page))%nat with 0%nat by lia. reflexivity. }
  rewrite R, T. cbv zeta. set (tail := forallb (fun x => x =? 0) (skipn (Z.to_nat len) junk)).
  assert (TT : tail = true <-> Forall (fun x => x = 0) (skipn (Z.to_nat len) junk)).
  { unfold tail. rewrite forallb_forall, Forall_forall. split; intros H x Hx; specialize (H x Hx); lia. }
  assert (BF : bytes_ok (firstn (Z.to_nat len) page)) by (unfold bytes_ok in *; now apply Forall_firstn').
  assert (RB : forall a v, 0 <= a < n -> 0 <= v < 256 -> (get tt a v <> 0 <-> record_byte fs a v)) by exact G.
  assert (BV : forall x v, nth_error page x = Some v -> 0 <= v < 256).
  { intros x v H. unfold bytes_ok in Hb. rewrite Forall_forall in Hb. apply Hb. eapply nth_error_In; exact H. }
  destruct (Z.eqb_spec num 0) as [N0|N0].
  - subst num.
    destruct page as [|b0 [|b1 [|b2 [|b3 [|b4 page']]]]]; try (cbn in Lp; lia).
    set (page := b0 :: b1 :: b2 :: b3 :: b4 :: page') in *.
    assert (F5 : exists r, firstn (Z.to_nat len) page = b0 :: b1 :: b2 :: b3 :: b4 :: r).
    { replace (Z.to_nat len) with (S (S (S (S (S (Z.to_nat (len - 5))))))) by lia. unfold page. cbn. eauto. }
    destruct F5 as (r5 & F5). rewrite F5. cbn [app nth skipn firstn].
    change (firstn 5 page) with [b0; b1; b2; b3; b4].
    destruct (Z.eqb_spec b0 1) as [B0|B0]; cbn [negb].
    2:{ exists false. split; [reflexivity|]. split; [discriminate|]. intros (H & _). specialize (H eq_refl). now injection H. }
    destruct (forallb (fun x => x =? 0) [b1; b2; b3; b4]) eqn:B1; cbn [negb].
    2:{ exists false. split; [reflexivity|]. split; [discriminate|]. intros (H & _). specialize (H eq_refl). injection H as H0 H1 H2 H3 H4. subst. discriminate B1. }
    rewrite <- F5.
    destruct (test_loop_spec (skipn (Z.to_nat n) (firstn (Z.to_nat len) page)) tt n 0 ltac:(lia) Lt) as (r & Er & Hr); [now apply Forall_skipn'|lia|].
    rewrite Er. cbn [rbind]. exists (r && tail). split; [reflexivity|]. rewrite andb_true_iff, Hr, TT.
    assert (B1' : firstn 5 page = [1; 0; 0; 0; 0]).
    { cbn in B1. unfold page. cbn. repeat (apply andb_prop in B1; destruct B1 as [?B B1]). replace b0 with 1 by lia. replace b1 with 0 by lia. replace b2 with 0 by lia. replace b3 with 0 by lia. replace b4 with 0 by lia. reflexivity. }
    split.
    + intros (H1 & H2). split; [intros _; exact B1'|]. split; [|exact H2]. intros x v Hx Hv Hnx. specialize (Hnx eq_refl).
      apply RB; [apply Z.mod_pos_bound; lia|eapply BV; exact Hv|].
      specialize (H1 (Z.to_nat (x - n)) v). rewrite nth_error_skipn in H1. replace (Z.to_nat n + Z.to_nat (x - n))%nat with (Z.to_nat x) in H1 by lia.
      rewrite nth_error_firstn in H1 by lia. specialize (H1 Hv). replace (0 * 4096 + x) with (0 + Z.of_nat (Z.to_nat (x - n)) + 1 * n) by lia. now rewrite Z.mod_add by lia.
    + intros (_ & H1 & H2). split; [|exact H2]. intros x v Hx. rewrite nth_error_skipn in Hx.
      assert (Hlt : (Z.to_nat n + x < Z.to_nat len)%nat). { assert (P : nth_error (firstn (Z.to_nat len) page) (Z.to_nat n + x) <> None) by congruence. apply nth_error_Some in P. rewrite firstn_length in P. lia. }
      rewrite nth_error_firstn in Hx by lia. apply RB; [apply Z.mod_pos_bound; lia|eapply BV; exact Hx|].
      specialize (H1 (n + Z.of_nat x) v ltac:(lia)). replace (Z.to_nat (n + Z.of_nat x)) with (Z.to_nat n + x)%nat in H1 by lia. specialize (H1 Hx ltac:(lia)).
      replace (0 * 4096 + (n + Z.of_nat x)) with (0 + Z.of_nat x + 1 * n) in H1 by lia. now rewrite Z.mod_add in H1 by lia.
  - assert (U : u32 (num * 4096) = num * 4096) by (unfold u32; apply Z.mod_small; lia). rewrite U.
    assert (J : 0 <= (num * 4096) mod n < n) by (apply Z.mod_pos_bound; lia).
    destruct (test_loop_spec (firstn (Z.to_nat len) page) tt n ((num * 4096) mod n) ltac:(lia) Lt BF J) as (r & Er & Hr).
    rewrite Er. cbn [rbind]. exists (r && tail). split; [reflexivity|]. rewrite andb_true_iff, Hr, TT.
    split.
    + intros (H1 & H2). split; [lia|]. split; [|exact H2]. intros x v Hx Hv _. apply RB; [apply Z.mod_pos_bound; lia|eapply BV; exact Hv|].
      specialize (H1 (Z.to_nat x) v). rewrite nth_error_firstn in H1 by lia. specialize (H1 Hv). rewrite Z2Nat.id in H1 by lia. now rewrite Zplus_mod_idemp_l in H1.
    + intros (_ & H1 & H2). split; [|exact H2]. intros x v Hx.
      assert (Hlt : (x < Z.to_nat len)%nat). { assert (P : nth_error (firstn (Z.to_nat len) page) x <> None) by congruence. apply nth_error_Some in P. rewrite firstn_length in P. lia. }
      rewrite nth_error_firstn in Hx by lia. apply RB; [apply Z.mod_pos_bound; lia|eapply BV; exact Hx|].
      specialize (H1 (Z.of_nat x) v ltac:(lia)). rewrite Nat2Z.id in H1. specialize (H1 Hx ltac:(lia)). now rewrite Zplus_mod_idemp_l.
Qed.

(** ** The properties *)
Lemma accepted_conforms : forall fs n junk page tt num len, setup fs n junk page tt num len -> test_page junk page tt num n len = Ok true ->
  (num = 0 -> firstn 5 page = [1; 0; 0; 0; 0]) /\
  forall slot p v, 0 <= slot -> 0 <= p < n -> (num = 0 -> 1 <= slot) -> num * 4096 <= slot * n + p < num * 4096 + len ->
    nth_error page (Z.to_nat (slot * n + p - num * 4096)) = Some v -> record_byte fs p v.
Proof.
  intros fs n junk page tt num len (A & B & C & D & E & F & G & H) T.
  destruct (test_page_ok fs n junk page tt num len A B C D E F G H) as (r & Er & Hr). rewrite Er in T. injection T as ->.
  destruct Hr as [Hr _]. destruct (Hr eq_refl) as (H1 & H2 & _). split; [exact H1|].
  intros slot p v Hs Hp H0 Hx Hv. specialize (H2 (slot * n + p - num * 4096) v ltac:(lia) Hv).
  replace (num * 4096 + (slot * n + p - num * 4096)) with (p + slot * n) in H2 by lia. rewrite Z.mod_add, Z.mod_small in H2 by lia. apply H2. intros ->. specialize (H0 eq_refl). nia.
Qed.
Lemma page_total : forall fs n junk page tt num len, setup fs n junk page tt num len -> test_page junk page tt num n len = Ok true \/ test_page junk page tt num n len = Ok false.
Proof.
  intros fs n junk page tt num len (A & B & C & D & E & F & G & H).
  destruct (test_page_ok fs n junk page tt num len A B C D E F G H) as ([] & Er & _); auto.
Qed.
Lemma rejected : forall fs n junk page tt num len, setup fs n junk page tt num len ->
  (test_page junk page tt num n len = Ok true -> False) -> test_page junk page tt num n len = Ok false.
Proof. intros fs n junk page tt num len S H. destruct (page_total _ _ _ _ _ _ _ S) as [T|T]; [now destruct (H T)|exact T]. Qed.
Lemma removed_rejected : forall fs n junk page tt num len slot v, setup fs n junk page tt num len ->
  0 <= slot -> (num = 0 -> 1 <= slot) -> num * 4096 <= slot * n < num * 4096 + len ->
  nth_error page (Z.to_nat (slot * n - num * 4096)) = Some v -> v <> 0 -> test_page junk page tt num n len = Ok false.
Proof.
  intros fs n junk page tt num len slot v S Hs H0 Hx Hv Hz. apply (rejected fs); [exact S|]. intros T.
  destruct (accepted_conforms _ _ _ _ _ _ _ S T) as [_ C]. destruct S as (A & (B & _) & _).
  destruct (C slot 0 v Hs ltac:(lia) H0 ltac:(lia)) as [[_ X]|(f & q & Hf & Hi & _)].
  - now replace (slot * n + 0 - num * 4096) with (slot * n - num * 4096) by lia.
  - lia.
  - destruct (B f q Hf). unfold inside in Hi. lia.
Qed.
Lemma link_rejected : forall fs n junk page tt len, setup fs n junk page tt 0 len ->
  firstn 5 page <> [1; 0; 0; 0; 0] -> test_page junk page tt 0 n len = Ok false.
Proof.
  intros fs n junk page tt len S H. apply (rejected fs); [exact S|]. intros T.
  destruct (accepted_conforms _ _ _ _ _ _ _ S T) as [C _]. apply H, C. reflexivity.
Qed.
Lemma spare_rejected : forall fs n junk page tt num len slot p, setup fs n junk page tt num len ->
  1 <= p < n -> (forall f q, In (f, q) fs -> ~ inside f p) -> 0 <= slot -> (num = 0 -> 1 <= slot) -> num * 4096 <= slot * n + p < num * 4096 + len ->
  test_page junk page tt num n len = Ok false.
Proof.
  intros fs n junk page tt num len slot p S Hp Hf Hs H0 Hx. apply (rejected fs); [exact S|]. intros T.
  destruct (accepted_conforms _ _ _ _ _ _ _ S T) as [_ C]. destruct S as (A & _ & _ & _ & E & _ & G & _).
  destruct (nth_error page (Z.to_nat (slot * n + p - num * 4096))) as [v|] eqn:V.
  - destruct (C slot p v Hs ltac:(lia) H0 Hx V) as [[X _]|(f & q & Hf' & Hi & _)]; [lia|exact (Hf f q Hf' Hi)].
  - apply nth_error_None in V. unfold zlen in E. lia.
Qed.
Lemma conforming_accepted : forall fs n junk page tt num len, setup fs n junk page tt num len ->
  (num = 0 -> firstn 5 page = [1; 0; 0; 0; 0]) ->
  (forall slot p v, 0 <= slot -> 0 <= p < n -> (num = 0 -> 1 <= slot) -> num * 4096 <= slot * n + p < num * 4096 + len ->
    nth_error page (Z.to_nat (slot * n + p - num * 4096)) = Some v -> record_byte fs p v) ->
  (test_page junk page tt num n len = Ok true <-> Forall (fun x => x = 0) (skipn (Z.to_nat len) junk)).
Proof.
  intros fs n junk page tt num len (A & B & C & D & E & F & G & H) H0 HC.
  destruct (test_page_ok fs n junk page tt num len A B C D E F G H) as (r & Er & Hr). rewrite Er.
  split.
  - intros X. injection X as ->. destruct Hr as [Hr _]. now destruct (Hr eq_refl) as (_ & _ & J).
  - intros J. f_equal. apply Hr. split; [exact H0|]. split; [|exact J]. intros x v Hx Hv Hn.
    assert (P := Z.div_mod (num * 4096 + x) n ltac:(lia)). assert (M : 0 <= (num * 4096 + x) mod n < n) by (apply Z.mod_pos_bound; lia).
    assert (Q : 0 <= (num * 4096 + x) / n) by (apply Z.div_pos; lia).
    apply (HC ((num * 4096 + x) / n) _ v); [exact Q|exact M| |lia|].
    + intros ->. specialize (Hn eq_refl). apply Z.div_le_lower_bound; lia.
    + replace ((num * 4096 + x) / n * n + (num * 4096 + x) mod n - num * 4096) with x by lia. exact Hv.
Qed.
Lemma full_page : forall (junk : list Z) (P : Z -> Prop), zlen junk = 4096 -> Forall P (skipn (Z.to_nat 4096) junk).
Proof. intros junk P H. unfold zlen in H. rewrite (skipn_all2 junk) by lia. constructor. Qed.
