(** Proofs about snapshots. *)
From Verif Require Import Prelude Lists Stream_Model Stream_Spec Stream_Proofs Snap_Model Snap_Spec.
Ltac Zify.zify_post_hook ::= idtac.

(** ** Bits *)
Fixpoint zb (n : nat) (r : Z) : list bool := match n with O => [] | S n => Z.odd r :: zb n (r / 2) end.
Lemma zb_len n : forall r, length (zb n r) = n. Proof. induction n; intros; cbn [zb length]; auto. Qed.
Lemma half r : r = Z.b2z (Z.odd r) + 2 * (r / 2).
Proof. rewrite <- Z.div2_div. rewrite (Z.div2_odd r) at 1. lia. Qed.
Lemma bits_zb n : forall k r, map (fun i => Z.testbit r (Z.of_nat i)) (seq k n) = zb n (r / 2 ^ Z.of_nat k).
Proof.
  induction n as [|n IH]; intros k r; [reflexivity|]. cbn [seq map zb]. rewrite IH. f_equal.
  - rewrite <- Z.shiftr_div_pow2 by lia. rewrite <- Z.bit0_odd, Z.shiftr_spec by lia. f_equal.
  - f_equal. rewrite Z.div_div by lia. f_equal. replace (Z.of_nat (S k)) with (Z.of_nat k + 1) by lia. rewrite Z.pow_add_r by lia. reflexivity.
Qed.
Lemma bits_of_zb x : bits_of x = zb 8 x.
Proof. unfold bits_of. rewrite bits_zb. cbn [Z.of_nat Z.pow]. now rewrite Z.div_1_r. Qed.
Lemma number_zb n : forall r, 0 <= r < 2 ^ Z.of_nat n -> number (zb n r) = r.
Proof.
  induction n as [|n IH]; intros r H; cbn [zb number]; [cbn in H; lia|]. rewrite IH; [symmetry; apply half|].
  rewrite Nat2Z.inj_succ, Z.pow_succ_r in H by lia. pose proof (half r). destruct (Z.odd r); cbn [Z.b2z] in *; lia.
Qed.
Lemma number_bound l : 0 <= number l < 2 ^ Z.of_nat (length l).
Proof.
  induction l as [|b l IH]; cbn [number length]; [cbn; lia|]. rewrite Nat2Z.inj_succ, Z.pow_succ_r by lia. destruct b; cbn [Z.b2z]; lia.
Qed.
Lemma number_inj a : forall b, length a = length b -> number a = number b -> a = b.
Proof.
  induction a as [|x a IH]; intros [|y b] L E; try discriminate; [reflexivity|]. cbn [number length] in *.
  assert (x = y) as <- by (destruct x, y; cbn [Z.b2z] in E; try reflexivity; lia). f_equal. apply IH; [lia|]. lia.
Qed.
Lemma lxor_half a b : Z.lxor a b / 2 = Z.lxor (a / 2) (b / 2).
Proof. rewrite <- !Z.div2_div, !Z.div2_spec. apply Z.shiftr_lxor. Qed.
Lemma lxor_odd a b : Z.odd (Z.lxor a b) = xorb (Z.odd a) (Z.odd b).
Proof. rewrite <- !Z.bit0_odd. apply Z.lxor_spec. Qed.
Lemma minus_zb n : forall a b, minus (zb n a) (zb n b) = zb n (Z.lxor a b).
Proof. induction n as [|n IH]; intros a b; cbn [zb minus]; [reflexivity|]. now rewrite IH, lxor_half, lxor_odd. Qed.
Lemma minus_zero a : minus a (repeat false (length a)) = a.
Proof. induction a as [|x a IH]; cbn [minus repeat length]; [reflexivity|]. rewrite IH. now destruct x. Qed.
Lemma minus_minus a : forall b t, length a = length b -> minus a (minus b t) = minus (minus a b) t.
Proof.
  induction a as [|x a IH]; intros [|y b] t L; try discriminate; [reflexivity|]. destruct t as [|z t]; [reflexivity|].
  cbn [minus]. rewrite IH by (cbn in L; lia). now rewrite xorb_assoc.
Qed.
Lemma minus_short l : forall t, (length l < length t)%nat -> minus (l ++ [false]) t = minus l t.
Proof.
  induction l as [|x l IH]; intros t L; destruct t as [|y t]; cbn [length] in L; try lia; cbn [app minus]; [now destruct y|]. rewrite IH by lia. reflexivity.
Qed.
Lemma zb_last n : forall r, 0 <= r < 2 ^ Z.of_nat n -> zb (S n) r = zb n r ++ [false].
Proof.
  induction n as [|n IH]; intros r H; [cbn in H; assert (r = 0) as -> by lia; reflexivity|].
  change (zb (S (S n)) r) with (Z.odd r :: zb (S n) (r / 2)). rewrite IH; [reflexivity|].
  rewrite Nat2Z.inj_succ, Z.pow_succ_r in H by lia. pose proof (half r). destruct (Z.odd r); cbn [Z.b2z] in *; lia.
Qed.

(** ** The register *)
Lemma iter_r {A} n (f : A -> A) : forall x, Nat.iter (S n) f x = Nat.iter n f (f x).
Proof. induction n as [|n IH]; intros x; [reflexivity|]. change (Nat.iter (S (S n)) f x) with (f (Nat.iter (S n) f x)). rewrite IH. reflexivity. Qed.
Definition W : Z := 4294967296.
Definition feed1 (r : Z) (b : bool) : Z := crc_shift (Z.lxor r (Z.b2z b)).
Definition feed (r : Z) (m : list bool) : Z := fold_left feed1 m r.
Lemma lxor_bound n a b : 0 <= n -> 0 <= a < 2 ^ n -> 0 <= b < 2 ^ n -> 0 <= Z.lxor a b < 2 ^ n.
Proof.
  intros Hn Ha Hb. assert (H0 : 0 <= Z.lxor a b) by (apply Z.lxor_nonneg; lia). split; [exact H0|].
  destruct (Z.eq_dec (Z.lxor a b) 0) as [->|E]; [lia|]. apply Z.log2_lt_pow2; [lia|].
  eapply Z.le_lt_trans; [apply Z.log2_lxor; lia|].
  destruct (Z.eq_dec a 0) as [->|Ea]; destruct (Z.eq_dec b 0) as [->|Eb]; cbn [Z.log2]; try (cbn in E; lia); apply Z.max_lub_lt;
    try (apply Z.log2_lt_pow2; lia); cbn [Z.log2];
    match goal with |- 0 < n => destruct (Z.eq_dec n 0) as [->|]; [cbn in *; lia|lia] end.
Qed.
Lemma shift_bound r : 0 <= r < W -> 0 <= crc_shift r < W.
Proof.
  intros H. unfold crc_shift. pose proof (half r). unfold W in *. change 4294967296 with (2 ^ 32).
  destruct (Z.odd r); [apply lxor_bound|]; unfold POLY; cbn [Z.b2z] in *; lia.
Qed.
Lemma feed1_bound r b : 0 <= r < W -> 0 <= feed1 r b < W.
Proof. intros H. apply shift_bound. unfold W in *. change 4294967296 with (2 ^ 32) in *. apply lxor_bound; [lia|lia|destruct b; cbn; lia]. Qed.
Lemma feed_bound m : forall r, 0 <= r < W -> 0 <= feed r m < W.
Proof. induction m as [|b m IH]; intros r H; [exact H|]. apply IH, feed1_bound, H. Qed.
Lemma shift_lin a b : crc_shift (Z.lxor a b) = Z.lxor (crc_shift a) (crc_shift b).
Proof.
  unfold crc_shift. rewrite lxor_odd, lxor_half. destruct (Z.odd a), (Z.odd b); cbn [xorb].
  - rewrite (Z.lxor_comm (b / 2)), Z.lxor_assoc, <- (Z.lxor_assoc POLY), Z.lxor_nilpotent, Z.lxor_0_l. reflexivity.
  - rewrite !Z.lxor_assoc. f_equal. apply Z.lxor_comm.
  - now rewrite Z.lxor_assoc.
  - reflexivity.
Qed.
Lemma shift_even v : crc_shift (2 * v) = v.
Proof. unfold crc_shift. rewrite Z.odd_mul. cbn [Z.odd andb]. rewrite Z.mul_comm. apply Z.div_mul. lia. Qed.
Lemma lxor_split b v : Z.b2z b + 2 * v = Z.lxor (Z.b2z b) (2 * v).
Proof.
  rewrite <- Z.add_nocarry_lxor; [reflexivity|]. apply Z.bits_inj'. intros i Hi. rewrite Z.land_spec, Z.bits_0.
  destruct (Z.eq_dec i 0) as [->|]; [rewrite (Z.bit0_odd (2 * v)), Z.odd_mul; cbn [Z.odd andb]; apply andb_false_r|].
  destruct b; cbn [Z.b2z]; [|now rewrite Z.bits_0]. change 1 with (2 ^ 0). rewrite Z.pow2_bits_false by lia. reflexivity.
Qed.
Lemma feed_number m : forall r, feed r m = Nat.iter (length m) crc_shift (Z.lxor r (number m)).
Proof.
  induction m as [|b m IH]; intros r; [cbn; now rewrite Z.lxor_0_r|]. cbn [feed fold_left length]. fold (feed (feed1 r b) m). rewrite IH, iter_r. f_equal.
  cbn [number]. rewrite lxor_split, <- Z.lxor_assoc, (shift_lin _ (2 * number m)), shift_even. reflexivity.
Qed.
Lemma feed_app r a b : feed r (a ++ b) = feed (feed r a) b. Proof. apply fold_left_app. Qed.
Lemma byte_feed r x : 0 <= x < 256 -> crc_byte r x = feed r (bits_of x).
Proof. intros H. rewrite feed_number, bits_of_zb, zb_len, number_zb by exact H. reflexivity. Qed.
Lemma bytes_feed d : bytes_ok d -> forall r, crc_bytes r d = feed r (file_bits d).
Proof.
  induction d as [|x d IH]; intros B r; [reflexivity|]. inversion B; subst. change (crc_bytes r (x :: d)) with (crc_bytes (crc_byte r x) d).
  rewrite IH by assumption. change (file_bits (x :: d)) with (bits_of x ++ file_bits d). rewrite feed_app, <- byte_feed by assumption. reflexivity.
Qed.

(** ** The register is the division *)
Lemma divisor_poly : divisor = zb 32 POLY. Proof. vm_compute. reflexivity. Qed.
Lemma division m : forall r, 0 <= r < W -> remainder (length m) (minus (zb 32 r) (m ++ repeat false 32)) = zb 32 (feed r m).
Proof.
  induction m as [|b m IH]; intros r H.
  - cbn [length app]. replace (repeat false 32) with (repeat false (length (zb 32 r))) by (now rewrite zb_len). rewrite minus_zero. reflexivity.
  - change (zb 32 r) with (Z.odd r :: zb 31 (r / 2)). cbn [length app minus]. set (t := m ++ repeat false 32). cbn [remainder].
    assert (HT : (31 < length t)%nat) by (unfold t; rewrite app_length, repeat_length; lia).
    assert (H2 : 0 <= r / 2 < 2 ^ Z.of_nat 31) by (unfold W in H; pose proof (half r); destruct (Z.odd r); cbn [Z.b2z] in *; change (2 ^ Z.of_nat 31) with 2147483648; lia).
    assert (E : minus (zb 31 (r / 2)) t = minus (zb 32 (r / 2)) t).
    { rewrite (zb_last 31) by exact H2. symmetry. apply minus_short. rewrite zb_len. exact HT. }
    assert (EH : Z.lxor r (Z.b2z b) / 2 = r / 2) by (rewrite lxor_half; destruct b; apply Z.lxor_0_r).
    assert (EO : Z.odd (Z.lxor r (Z.b2z b)) = xorb (Z.odd r) b) by (rewrite lxor_odd; now destruct b).
    assert (EF : feed r (b :: m) = feed (feed1 r b) m) by reflexivity. rewrite EF. rewrite <- IH by (apply feed1_bound, H). f_equal. fold t.
    unfold feed1, crc_shift. rewrite EO, EH. rewrite E. destruct (xorb (Z.odd r) b); [|reflexivity].
    rewrite divisor_poly, minus_minus by (now rewrite !zb_len). rewrite minus_zb. do 2 f_equal. apply Z.lxor_comm.
Qed.
Lemma negb_minus l : map negb l = minus l (repeat true (length l)).
Proof. induction l as [|x l IH]; [reflexivity|]. cbn [map minus repeat length]. rewrite IH. now destruct x. Qed.
Lemma final_number r : 0 <= r < W -> number (map negb (zb 32 r)) = crc_final r.
Proof.
  intros H. rewrite negb_minus, zb_len. change (repeat true 32) with (zb 32 MASK). rewrite minus_zb. apply number_zb. change (2 ^ Z.of_nat 32) with (2 ^ 32).
  apply lxor_bound; unfold MASK, W in *; lia.
Qed.
Lemma crc_feed d : crc32 d = crc_final (feed MASK (file_bits d)).
Proof.
  unfold crc32. change (repeat true 32) with (zb 32 MASK). rewrite division by (unfold MASK, W; lia). apply final_number. apply feed_bound. unfold MASK, W. lia.
Qed.
Lemma crc_ok d : bytes_ok d -> crc_final (crc_bytes MASK d) = crc32 d.
Proof. intros B. rewrite crc_feed, bytes_feed by exact B. reflexivity. Qed.

(** ** Damage *)
Lemma shift_inj a b : 0 <= a < W -> 0 <= b < W -> crc_shift a = crc_shift b -> a = b.
Proof.
  intros Ha Hb E. assert (T : forall r, 0 <= r < W -> Z.testbit (crc_shift r) 31 = Z.odd r).
  { intros r H. assert (H2 : Z.testbit (r / 2) 31 = false).
    { rewrite Z.testbit_false by lia. rewrite Z.div_small; [reflexivity|]. unfold W in H. pose proof (half r). destruct (Z.odd r); cbn [Z.b2z] in *; lia. }
    unfold crc_shift. destruct (Z.odd r); [|exact H2]. rewrite Z.lxor_spec, H2. reflexivity. }
  pose proof (T a Ha) as Ta. pose proof (T b Hb) as Tb. rewrite E in Ta. rewrite Ta in Tb. clear T.
  rewrite (half a), (half b), Tb. f_equal. f_equal. unfold crc_shift in E. rewrite Tb in E. destruct (Z.odd b); [|exact E].
  apply (f_equal (fun z => Z.lxor z POLY)) in E. rewrite !Z.lxor_assoc, Z.lxor_nilpotent, !Z.lxor_0_r in E. exact E.
Qed.
Lemma iter_bound n r : 0 <= r < W -> 0 <= Nat.iter n crc_shift r < W.
Proof. intros H. induction n as [|n IH]; [exact H|]. cbn [Nat.iter nat_rect]. now apply shift_bound. Qed.
Lemma iter_inj n : forall a b, 0 <= a < W -> 0 <= b < W -> Nat.iter n crc_shift a = Nat.iter n crc_shift b -> a = b.
Proof.
  induction n as [|n IH]; intros a b Ha Hb E; [exact E|]. rewrite !iter_r in E. apply shift_inj; auto. apply IH; auto; now apply shift_bound.
Qed.
Lemma feed_inj m : forall a b, 0 <= a < W -> 0 <= b < W -> feed a m = feed b m -> a = b.
Proof.
  induction m as [|x m IH]; intros a b Ha Hb E; [exact E|]. apply IH in E; [|now apply feed1_bound|now apply feed1_bound].
  apply shift_inj in E; [|unfold W in *; change 4294967296 with (2 ^ 32) in *; apply lxor_bound; [lia|lia|destruct x; cbn; lia]..].
  apply (f_equal (fun z => Z.lxor z (Z.b2z x))) in E. rewrite !Z.lxor_assoc, Z.lxor_nilpotent, !Z.lxor_0_r in E. exact E.
Qed.
Lemma burst_bits r x p q y : 0 <= r < W -> length p = length q -> (length p <= 32)%nat -> feed r (x ++ p ++ y) = feed r (x ++ q ++ y) -> p = q.
Proof.
  intros H L L32 E. rewrite !feed_app in E. set (s := feed r x) in *.
  assert (Hs : 0 <= s < W) by (apply feed_bound; exact H).
  apply feed_inj in E; [|now apply feed_bound|now apply feed_bound]. rewrite !feed_number, <- L in E.
  assert (HB : forall m, (length m <= 32)%nat -> 0 <= number m < W).
  { intros m Hm. pose proof (number_bound m). assert (2 ^ Z.of_nat (length m) <= 2 ^ 32) by (apply Z.pow_le_mono_r; lia). unfold W. change 4294967296 with (2 ^ 32). lia. }
  apply iter_inj in E; [|unfold W in *; change 4294967296 with (2 ^ 32) in *; apply lxor_bound; [lia|exact Hs|apply HB; lia]..].
  apply number_inj; [exact L|]. apply (f_equal (Z.lxor s)) in E. rewrite <- !Z.lxor_assoc, Z.lxor_nilpotent, !Z.lxor_0_l in E. exact E.
Qed.
Lemma final_inj a b : crc_final a = crc_final b -> a = b.
Proof.
  unfold crc_final. intros E. apply (f_equal (fun z => Z.lxor z MASK)) in E. rewrite !Z.lxor_assoc, Z.lxor_nilpotent, !Z.lxor_0_r in E. exact E.
Qed.
Lemma byte_bits_inj x y : 0 <= x < 256 -> 0 <= y < 256 -> bits_of x = bits_of y -> x = y.
Proof. intros Hx Hy E. rewrite !bits_of_zb in E. rewrite <- (number_zb 8 x), <- (number_zb 8 y) by assumption. now rewrite E. Qed.
Lemma file_bits_inj a : forall b, bytes_ok a -> bytes_ok b -> file_bits a = file_bits b -> a = b.
Proof.
  induction a as [|x a IH]; intros [|y b] Ba Bb E; try reflexivity; try (cbn in E; discriminate).
  inversion Ba; inversion Bb; subst. unfold file_bits in E. cbn [flat_map] in E.
  assert (L : forall z, length (bits_of z) = 8%nat) by (intros; rewrite bits_of_zb; apply zb_len).
  assert (E1 : bits_of x = bits_of y).
  { apply (f_equal (firstn 8)) in E. rewrite !firstn_app, !L in E. cbn [Nat.sub] in E. change (firstn 0 (flat_map bits_of a)) with (@nil bool) in E. change (firstn 0 (flat_map bits_of b)) with (@nil bool) in E. rewrite !app_nil_r in E. rewrite <- (L x) in E at 1. rewrite <- (L y) in E at 1. rewrite !firstn_all in E. exact E. }
  rewrite E1 in E. apply app_inv_head in E. f_equal; [apply byte_bits_inj; assumption|]. apply IH; assumption.
Qed.
Lemma burst a b : bytes_ok a -> bytes_ok b -> damage 32 a b -> crc32 a = crc32 b -> a = b.
Proof.
  intros Ba Bb (x & p & q & y & Ea & Eb & L & L32) E. rewrite !crc_feed in E. apply final_inj in E. rewrite Ea, Eb in E.
  apply burst_bits in E; [|unfold MASK, W; lia|exact L|exact L32]. apply file_bits_inj; [exact Ba|exact Bb|]. now rewrite Ea, Eb, E.
Qed.
(** up to four bytes that follow each other *)
Lemma bytes_damage x p q y : length p = length q -> (length p <= 4)%nat -> damage 32 (x ++ p ++ y) (x ++ q ++ y).
Proof.
  intros L L4. assert (LB : forall l, length (file_bits l) = (8 * length l)%nat).
  { induction l as [|z l IH]; [reflexivity|]. unfold file_bits. cbn [flat_map]. rewrite app_length. fold (file_bits l). rewrite IH, bits_of_zb, zb_len. cbn [length]. lia. }
  exists (file_bits x), (file_bits p), (file_bits q), (file_bits y). unfold file_bits. rewrite !flat_map_app. fold (file_bits p). fold (file_bits q).
  rewrite !LB. split; [reflexivity|split; [reflexivity|lia]].
Qed.

(** ** Reading and writing *)
Lemma skipn_add {A} (l : list A) : forall m n, skipn m (skipn n l) = skipn (m + n) l.
Proof.
  intros m n. revert l. induction n as [|n IH]; intros l; [now rewrite Nat.add_0_r|]. rewrite Nat.add_succ_r. destruct l as [|a l]; [now rewrite !skipn_nil|]. apply IH.
Qed.
Lemma n1024 : 1024 = Z.of_nat (Z.to_nat 1024). Proof. reflexivity. Qed.
Lemma loop_ok fuel : forall l p f r, (p <= length l)%nat -> (length l - p < fuel)%nat ->
  snd (crc_loop fuel (Some (of_file (l, p) f)) r) = crc_bytes r (skipn p l).
Proof.
  induction fuel as [|k IH]; intros l p f r Hp HF; [lia|].
  assert (HD : length (firstn (Z.to_nat 1024) (skipn p l)) = Nat.min (Z.to_nat 1024) (length l - p)) by now rewrite firstn_length, skipn_length.
  assert (K : (0 < Z.to_nat 1024)%nat) by lia.
  assert (E0 : firstn (Z.to_nat 1024) (skipn p l) = [] -> snd (crc_loop (S k) (Some (of_file (l, p) f)) r) = crc_bytes r (skipn p l)) .
  { intros E0. cbn [crc_loop f_read]. rewrite n1024, fs_read_ok by exact Hp. rewrite E0 in *. cbn [snd length] in *.
    assert (skipn p l = []) as -> by (apply length_zero_iff_nil; rewrite skipn_length; lia). reflexivity. }
  destruct (list_eq_dec Z.eq_dec (firstn (Z.to_nat 1024) (skipn p l)) []) as [E|E]; [exact (E0 E)|]. clear E0.
  cbn [crc_loop f_read]. rewrite n1024, fs_read_ok by exact Hp. remember (firstn (Z.to_nat 1024) (skipn p l)) as d eqn:ED.
  assert (EQ : forall (A : Type) (x y : A), match d with [] => x | _ :: _ => y end = y) by (intros; destruct d; [congruence|reflexivity]). rewrite EQ.
  assert (0 < length d)%nat by (destruct d; [congruence|cbn [length]; lia]).
  rewrite IH by lia. replace (skipn p l) with (d ++ skipn (p + length d) l).
  - unfold crc_bytes. now rewrite fold_left_app.
  - rewrite <- (firstn_skipn (length d) (skipn p l)). f_equal.
    + rewrite HD, ED. destruct (Nat.le_ge_cases (Z.to_nat 1024) (length l - p)); [now rewrite Nat.min_l by lia|].
        rewrite Nat.min_r by lia. rewrite !firstn_all2; [reflexivity| |]; rewrite skipn_length; lia.
    + rewrite skipn_add. f_equal. lia.
Qed.
Lemma crc_file_ok l p f : bytes_ok l -> crc_file (Some (of_file (l, p) f)) = crc32 l.
Proof.
  intros B. unfold crc_file, f_seek0, fs_seek, of_file. cbn [fs_size fs_data fst snd fs_pos fs_fail]. pose proof (zlen_nonneg l).
  destruct (Z.ltb_spec (zlen l) 0); [lia|]. cbn [fst fs_data].
  change (FS l 0 (zlen l) f) with (of_file (l, 0%nat) f). rewrite loop_ok by lia. change (skipn 0 l) with l. now apply crc_ok.
Qed.
Lemma overlay_new d : overlay [] 0 d = d.
Proof. rewrite <- overlay_splice. cbn [app length]. rewrite Nat.sub_0_r. cbn [Nat.add]. unfold splice. cbn [firstn app Nat.add]. rewrite skipn_all2, app_nil_r; [reflexivity|]. rewrite repeat_length. lia. Qed.
Lemma write_new d : f_write (f_open true [] (Z.lor fmCreate fmShareDenyWrite)) d = Some (of_file (d, length d) false).
Proof.
  unfold f_open. change (Z.lor fmCreate fmShareDenyWrite =? fmCreate) with true. cbn [f_write].
  change (fs_open []) with (of_file ([], 0%nat) false). rewrite fs_write_ok by lia. cbn [fst]. rewrite overlay_new. reflexivity.
Qed.
Lemma target_new can t : f_open can t (Z.lor fmCreate fmShareDenyWrite) = f_open can [] (Z.lor fmCreate fmShareDenyWrite).
Proof. reflexivity. Qed.

Lemma out_nothing : f_open true [] (Z.lor fmCreate fmShareDenyWrite) = Some (of_file ([], 0%nat) false).
Proof. reflexivity. Qed.
Lemma in_open d : f_open true d (Z.lor fmOpenRead fmShareDenyNone) = Some (of_file (d, 0%nat) false).
Proof. reflexivity. Qed.
Lemma rest_open d : f_rest (f_open true d (Z.lor fmOpenRead fmShareDenyNone)) = d.
Proof. reflexivity. Qed.
Lemma rest_closed d : f_rest (f_open false d (Z.lor fmOpenRead fmShareDenyNone)) = [].
Proof. reflexivity. Qed.
Lemma copy_open d : exists p, f_copy (f_open true [] (Z.lor fmCreate fmShareDenyWrite)) (f_open true d (Z.lor fmOpenRead fmShareDenyNone)) = Some (of_file (d, p) false).
Proof.
  rewrite in_open. unfold f_copy, f_seek0, fs_seek, of_file. cbn [fs_size fs_data fst snd fs_pos fs_fail]. pose proof (zlen_nonneg d).
  destruct (Z.ltb_spec (zlen d) 0); [lia|]. cbn [fst f_size fs_size]. destruct (Z.eqb_spec (zlen d) 0) as [E|E].
  - assert (d = []) as -> by (destruct d; [reflexivity|unfold zlen in E; cbn [length] in E; lia]). exists 0%nat. apply out_nothing.
  - cbn [f_read]. change (FS d 0 (zlen d) false) with (of_file (d, 0%nat) false). pose proof (fs_read_ok d 0 false (length d) ltac:(lia)) as ER. fold (zlen d) in ER. rewrite ER.
    cbn [skipn]. rewrite firstn_all. destruct d as [|a d]; [cbn in E; lia|]. rewrite write_new. eexists. reflexivity.
Qed.
Lemma empty_crc : crc32 [] = 0. Proof. vm_compute. reflexivity. Qed.
Lemma crc_closed : crc_file None = 0. Proof. vm_compute. reflexivity. Qed.

Lemma guid_eq_ok a : forall b, guid_eq a b = true <-> a = b.
Proof.
  induction a as [|x a IH]; intros [|y b]; cbn [guid_eq]; split; intros E; try discriminate; try reflexivity.
  - apply andb_true_iff in E as [E1 E2]. apply Z.eqb_eq in E1. apply IH in E2. now subst.
  - injection E as -> ->. apply andb_true_iff. split; [apply Z.eqb_refl|now apply IH].
Qed.
Lemma packed_no root maker : packed root maker = false <-> stored_plain root maker.
Proof.
  unfold packed, stored_plain. destruct (guid_eq root maker) eqn:E1; cbn [orb].
  - apply guid_eq_ok in E1. split; [discriminate|]. intros [_ H]. congruence.
  - assert (root <> maker) by (intros ->; assert (guid_eq maker maker = true) by (now apply guid_eq_ok); congruence).
    destruct (guid_eq maker SNAPSHOT_VER1) eqn:E2.
    + apply guid_eq_ok in E2. split; [discriminate|]. intros [-> _]. discriminate.
    + destruct (guid_eq maker SNAPSHOT_VER2) eqn:E3; split; intros HH; try discriminate; try reflexivity.
      * apply guid_eq_ok in E3. split; [exact E3|congruence].
      * destruct HH as [-> _]. vm_compute in E3. discriminate.
Qed.
Lemma packed_yes root maker : ~ stored_plain root maker -> packed root maker = true.
Proof. intros H. destruct (packed root maker) eqn:E; [reflexivity|]. apply packed_no in E. contradiction. Qed.
Lemma maker_some g : Exists (fun x => x <> 0) g -> guid_empty g = false.
Proof.
  intros H. destruct (guid_empty g) eqn:E; [|reflexivity]. exfalso. unfold guid_empty in E. rewrite forallb_forall in E. apply Exists_exists in H as (x & Hx & Hn). specialize (E x Hx). lia.
Qed.
Lemma maker_none g : Forall (fun x => x = 0) g -> guid_empty g = true.
Proof. intros H. unfold guid_empty. apply forallb_forall. intros x Hx. rewrite Forall_forall in H. specialize (H x Hx). lia. Qed.
Lemma maker_dec g : guid_empty g = false -> Exists (fun x => x <> 0) g.
Proof.
  induction g as [|x g IH]; [discriminate|]. unfold guid_empty. cbn [forallb]. intros E. destruct (Z.eqb_spec x 0); [apply Exists_cons_tl, IH, E|now apply Exists_cons_hd].
Qed.

(** ** Results *)
Section Results.
Variables (c : codec) (row : vrow) (ver : Z) (root : list Z) (k : disk) (d : list Z).
Hypothesis Hm : Exists (fun x => x <> 0) (v_maker row).
Lemma plain_result : k_cache k (snap_name ver) = Some (d, true) -> k_can k = true -> bytes_ok d -> stored_plain root (v_maker row) ->
  try_snapshot c row ver root k = (crc32 d =? v_crc row, DK (k_cache k) (k_can k) (Some d)).
Proof.
  intros Hk Hc B Hp. unfold try_snapshot. rewrite (maker_some _ Hm), Hk, Hc, target_new. apply packed_no in Hp as ->. destruct (copy_open d) as (p & ->).
  rewrite crc_file_ok by exact B. unfold with_target. rewrite Hc. reflexivity.
Qed.
Lemma packed_result t bad : k_cache k (snap_name ver) = Some (d, true) -> k_can k = true -> bytes_ok t -> ~ stored_plain root (v_maker row) -> inflate_stream c d = (t, bad) ->
  try_snapshot c row ver root k = (negb bad && (crc32 t =? v_crc row), DK (k_cache k) (k_can k) (Some t)).
Proof.
  intros Hk Hc B Hp HI. unfold try_snapshot. rewrite (maker_some _ Hm), Hk, Hc, target_new, (packed_yes _ _ Hp), rest_open, HI, write_new.
  rewrite crc_file_ok by exact B. unfold with_target. rewrite Hc. destruct bad; reflexivity.
Qed.
(** the snapshot is there but cannot be opened for writing *)
Lemma readonly_result : k_cache k (snap_name ver) = Some (d, false) -> k_can k = true ->
  try_snapshot c row ver root k = (0 =? v_crc row, DK (k_cache k) (k_can k) (Some [])).
Proof.
  intros Hk Hc. unfold try_snapshot. rewrite (maker_some _ Hm), Hk, Hc, target_new, rest_closed, inflate_empty.
  change (f_copy (f_open true [] (Z.lor fmCreate fmShareDenyWrite)) (f_open false d (Z.lor fmOpenRead fmShareDenyNone))) with (Some (of_file ([], 0%nat) false)).
  rewrite write_new. cbn [length]. rewrite crc_file_ok by constructor. rewrite empty_crc. unfold with_target. rewrite Hc. destruct (packed root (v_maker row)); reflexivity.
Qed.
(** the target cannot be created *)
Lemma unwritable_result : k_can k = false -> (forall d' rw, k_cache k (snap_name ver) = Some (d', rw) -> stored_plain root (v_maker row)) ->
  k_cache k (snap_name ver) <> None -> try_snapshot c row ver root k = (0 =? v_crc row, k).
Proof.
  intros Hc Hp Hk. unfold try_snapshot. rewrite (maker_some _ Hm). destruct (k_cache k (snap_name ver)) as [[d' rw]|] eqn:E; [|congruence].
  specialize (Hp _ _ eq_refl). apply packed_no in Hp as ->. rewrite Hc.
  assert (E2 : f_copy (f_open false (match k_target k with Some t => t | None => [] end) (Z.lor fmCreate fmShareDenyWrite)) (f_open rw d' (Z.lor fmOpenRead fmShareDenyNone)) = None).
  { unfold f_copy. cbn [f_open]. destruct (f_size _ =? 0); [reflexivity|]. destruct (f_read _ _) as [q [|? ?]]; reflexivity. }
  rewrite E2, crc_closed. unfold with_target. destruct k; reflexivity.
Qed.
End Results.

Lemma bytes_sub_in p (w : list Z) : bytes_ok w -> bytes_ok (firstn p w). Proof. intros. now apply Forall_firstn'. Qed.
Lemma inflate_bytes c : gives_bytes c -> forall fuel st d, bytes_ok d -> bytes_ok (fst (inflate_loop c fuel st d)).
Proof.
  intros G. induction fuel as [|n IH]; intros st d B; cbn [inflate_loop]; [constructor|]. destruct (_ =? 0); [constructor|].
  specialize (G st (firstn (Z.to_nat CHUNK) d) (Forall_firstn' _ _ _ B)). destruct (i_step c st _) as [[st' o] r]. cbn [fst snd] in G. destruct r.
  - specialize (IH st' (skipn (Z.to_nat CHUNK) d) (Forall_skipn' _ _ _ B)). destruct (inflate_loop c n st' _) as [q e]. cbn [fst] in *. rewrite drained_ok. now apply bytes_ok_app.
  - cbn [fst]. now rewrite drained_ok.
  - cbn [fst]. now apply Forall_firstn'.
Qed.
(** whatever is taken over has the check value *)
Lemma never_wrong c row ver root k k' : gives_bytes c -> (forall n d rw, k_cache k n = Some (d, rw) -> bytes_ok d) -> k_can k = true ->
  try_snapshot c row ver root k = (true, k') ->
  exists t, k_target k' = Some t /\ crc32 t = v_crc row /\ Exists (fun x => x <> 0) (v_maker row).
Proof.
  intros G B Hc E. destruct (guid_empty (v_maker row)) eqn:Em; [unfold try_snapshot in E; rewrite Em in E; discriminate|]. apply maker_dec in Em.
  destruct (k_cache k (snap_name ver)) as [[d rw]|] eqn:Ek; [|unfold try_snapshot in E; rewrite (maker_some _ Em), Ek in E; discriminate].
  destruct rw.
  - destruct (packed root (v_maker row)) eqn:Ep.
    + destruct (inflate_stream c d) as [t bad] eqn:EI. assert (Bt : bytes_ok t) by (pose proof (inflate_bytes c G (S (length d)) (i_init c) d (B _ _ _ Ek)) as HB; unfold inflate_stream in EI; rewrite EI in HB; exact HB).
      assert (Hp : ~ stored_plain root (v_maker row)) by (intros HH; apply packed_no in HH; congruence).
      rewrite (packed_result c row ver root k d Em t bad Ek Hc Bt Hp EI) in E. apply pair_equal_spec in E as [E <-]. apply andb_true_iff in E as [_ E]. apply Z.eqb_eq in E. exists t. cbn [k_target]. auto.
    + apply packed_no in Ep. rewrite (plain_result c row ver root k d Em Ek Hc (B _ _ _ Ek) Ep) in E. apply pair_equal_spec in E as [E <-]. apply Z.eqb_eq in E. exists d. cbn [k_target]. auto.
  - rewrite (readonly_result c row ver root k d Em Ek Hc) in E. apply pair_equal_spec in E as [E <-]. apply Z.eqb_eq in E. exists []. cbn [k_target]. rewrite empty_crc. auto.
Qed.

(** ** Falling back *)
Lemma fall_back {A} c (collect : option (list Z) -> A) done row ver root k : fst (try_snapshot c row ver root k) = false -> export_version c collect done row ver root k = collect None.
Proof. unfold export_version. destruct (try_snapshot c row ver root k) as [ok k']. cbn [fst]. intros ->. destruct (k_target k') eqn:E; [reflexivity|]. now rewrite E. Qed.

(** ** Names *)
Lemma value_app a b : digits_value (a ++ b) = digits_value a * 10 ^ Z.of_nat (length b) + digits_value b.
Proof.
  induction a as [|x a IH]; [reflexivity|]. cbn [app digits_value]. rewrite IH, app_length, Nat2Z.inj_add, Z.pow_add_r by lia. ring.
Qed.
Lemma value_bound l : Forall (fun d => 48 <= d <= 57) l -> 0 <= digits_value l < 10 ^ Z.of_nat (length l).
Proof.
  induction 1 as [|x l H _ IH]; [cbn; lia|]. cbn [digits_value length]. rewrite Nat2Z.inj_succ, Z.pow_succ_r by lia.
  set (w := 10 ^ Z.of_nat (length l)) in *. assert (0 <= (x - 48) * w) by (apply Z.mul_nonneg_nonneg; lia). assert ((x - 48) * w <= 9 * w) by (apply Z.mul_le_mono_nonneg_r; lia). lia.
Qed.
Lemma value_inj a : forall b, length a = length b -> Forall (fun d => 48 <= d <= 57) a -> Forall (fun d => 48 <= d <= 57) b -> digits_value a = digits_value b -> a = b.
Proof.
  induction a as [|x a IH]; intros [|y b] L Fa Fb E; try discriminate; [reflexivity|]. apply Forall_cons_iff in Fa as [Hx Fa]. apply Forall_cons_iff in Fb as [Hy Fb].
  cbn [digits_value length] in *. injection L as L. rewrite L in E. pose proof (value_bound a Fa) as Va. pose proof (value_bound b Fb) as Vb. rewrite L in Va.
  set (w := 10 ^ Z.of_nat (length b)) in *.
  assert (x = y) as ->.
  { destruct (Z.lt_trichotomy x y) as [H|[H|H]]; [|exact H|]; exfalso.
    - assert ((x - 48) * w + w <= (y - 48) * w) by (replace ((x - 48) * w + w) with ((x - 48 + 1) * w) by ring; apply Z.mul_le_mono_nonneg_r; lia). lia.
    - assert ((y - 48) * w + w <= (x - 48) * w) by (replace ((y - 48) * w + w) with ((y - 48 + 1) * w) by ring; apply Z.mul_le_mono_nonneg_r; lia). lia. }
  f_equal. apply IH; auto. lia.
Qed.
Lemma dec_ok k : forall n, 0 <= n < 10 ^ Z.of_nat k -> Forall (fun d => 48 <= d <= 57) (dec k n) /\ digits_value (dec k n) = n.
Proof.
  induction k as [|k IH]; intros n H; [cbn in H; assert (n = 0) by lia; subst; split; [constructor|reflexivity]|]. cbn [dec].
  rewrite Nat2Z.inj_succ, Z.pow_succ_r in H by lia. pose proof (Z.div_mod n 10 ltac:(lia)) as D. pose proof (Z.mod_pos_bound n 10 ltac:(lia)) as M.
  assert (L : Forall (fun d => 48 <= d <= 57) [48 + n mod 10]) by (constructor; [lia|constructor]).
  destruct (Z.ltb_spec n 10) as [Hn|Hn].
  - cbn [app digits_value length]. split; [exact L|]. rewrite Z.mod_small by lia. change (10 ^ Z.of_nat 0) with 1. lia.
  - destruct (IH (n / 10)) as [F V]; [split; [apply Z.div_pos; lia|apply Z.div_lt_upper_bound; lia]|]. split; [apply Forall_app; split; assumption|].
    rewrite value_app, V. cbn [digits_value length Z.of_nat]. change (10 ^ Z.of_nat 1) with 10. change (10 ^ 0) with 1. lia.
Qed.
Lemma name_ok v : 0 <= v < 2 ^ 31 -> named (snap_name v) (v mod 100000).
Proof.
  intros H. destruct (dec_ok 11 v) as [F V]; [change (10 ^ Z.of_nat 11) with 100000000000; lia|].
  unfold snap_name. set (p := [48;48;48;48;48] ++ dec 11 v). assert (FP : Forall (fun d => 48 <= d <= 57) p) by (apply Forall_app; split; [repeat (constructor; [lia|]); constructor|exact F]).
  assert (VP : digits_value p = v) by (unfold p; rewrite value_app, V; reflexivity). assert (LP : (5 <= length p)%nat) by (unfold p; rewrite app_length; cbn [length]; lia). clearbody p.
  assert (LS : length (sub p (length p - 5) 5) = 5%nat) by (rewrite sub_length; lia).
  exists (sub p (length p - 5) 5). split; [reflexivity|]. split; [exact LS|].
  assert (ES : sub p (length p - 5) 5 = skipn (length p - 5) p) by (unfold sub; apply firstn_all2; rewrite skipn_length; lia).
  rewrite ES in *. assert (FS_ : Forall (fun d => 48 <= d <= 57) (skipn (length p - 5) p)) by now apply Forall_skipn'. split; [exact FS_|].
  rewrite <- (firstn_skipn (length p - 5) p), value_app, LS in VP. pose proof (value_bound _ FS_) as B. rewrite LS in B. change (10 ^ Z.of_nat 5) with 100000 in *.
  rewrite <- VP. rewrite Z.add_comm, Z.mod_add, Z.mod_small by lia. reflexivity.
Qed.
Lemma named_one n v w : named n v -> named n w -> v = w.
Proof.
  intros (a & -> & La & Fa & Va) (b & E & Lb & Fb & Vb). apply app_inv_head in E. apply app_inv_tail in E. congruence.
Qed.
Lemma named_same n m v : named n v -> named m v -> n = m.
Proof. intros (a & -> & La & Fa & Va) (b & -> & Lb & Fb & Vb). do 2 f_equal. apply value_inj; congruence. Qed.
