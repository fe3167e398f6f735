(** Proofs about the viewer: digits, typing, lines. *)
From Verif Require Import Prelude Lists Hex_Model Hex_Spec Hex_Proofs Hex_More.
Ltac Zify.zify_post_hook ::= idtac.

(** ** Clipboard *)
Lemma hexval_char v : 0 <= v < 16 -> hexval (hexchar v) = Some v.
Proof.
  intros H. unfold hexchar. destruct (v <? 10) eqn:E; unfold hexval.
  - assert ((48 <=? v + 48) && (v + 48 <=? 57) = true) as -> by lia. f_equal. lia.
  - assert ((48 <=? v + 55) && (v + 55 <=? 57) = false) as -> by lia. assert ((97 <=? v + 55) && (v + 55 <=? 102) = false) as -> by lia. assert ((65 <=? v + 55) && (v + 55 <=? 70) = true) as -> by lia. f_equal. lia.
Qed.
Lemma byte_split x : byte_ok x -> 0 <= x / 16 < 16 /\ 0 <= x mod 16 < 16 /\ 16 * (x / 16) + x mod 16 = x.
Proof. unfold byte_ok. intros H. pose proof (Z.div_mod x 16 ltac:(lia)). pose proof (Z.mod_pos_bound x 16 ltac:(lia)). lia. Qed.
Lemma from_app b : bytes_ok b -> forall r out, from_rev (rev (to_hex b) ++ r) None out = from_rev r None (b ++ out).
Proof.
  induction 1 as [|x b Hx _ IH]; intros r out; [reflexivity|]. destruct (byte_split x Hx) as (H1 & H2 & H3). assert (P : forall q out, from_rev (hexchar (x mod 16) :: hexchar (x / 16) :: q) None out = from_rev q None (x :: out)).
  { intros q o. cbn [from_rev]. rewrite (hexval_char _ H2), (hexval_char _ H1), H3. reflexivity. }
  cbn [to_hex]. destruct b as [|y b]; [cbn [rev app]; apply P|]. set (t := to_hex (y :: b)) in *. cbn [rev]. rewrite <- !app_assoc. cbn [app]. rewrite IH. cbn [from_rev hexval]. change ((48 <=? 32) && (32 <=? 57)) with false. change ((97 <=? 32) && (32 <=? 102)) with false. change ((65 <=? 32) && (32 <=? 70)) with false. cbv iota. apply P.
Qed.
Theorem hex_back b : bytes_ok b -> from_hex (to_hex b) = b.
Proof. intros H. unfold from_hex. rewrite <- (app_nil_r (rev (to_hex b))). rewrite from_app by exact H. cbn [from_rev]. apply app_nil_r. Qed.
Lemma selected_ok v : bytes_ok (bytes v) -> bytes_ok (selected v).
Proof. intros H. unfold selected. destruct (has_sel v); [|constructor]. unfold q_mid. apply Forall_firstn', Forall_skipn'. exact H. Qed.
Theorem copy_paste conv v w i t : hexa v = true -> hexa w = true -> ins w = true -> bytes_ok (bytes v) -> stands_at w i -> (i <= length (bytes w))%nat -> selected v <> [] -> copy conv v = Some t ->
  bytes (paste w t) = firstn i (bytes w) ++ selected v ++ skipn i (bytes w).
Proof.
  intros H1 H2 H3 H4 (H5 & _ & H6 & _) H7 H8 E. unfold copy in E. rewrite H1 in E. destruct (has_sel v) eqn:ES; [|discriminate]. assert (t = to_hex (selected v)) by congruence. subst t. unfold paste. destruct (to_hex (selected v)) as [|c r] eqn:EH; [destruct (selected v); [congruence|discriminate]|]. rewrite <- EH. cbv zeta.
  assert (R : remove_sel w = w). { unfold remove_sel, has_sel. rewrite H5. unfold pos_eqb. rewrite !Z.eqb_refl. reflexivity. } rewrite R, H2, H3. unfold bytes at 1. cbn [with_doc v_doc]. rewrite bytes_insert, H6. rewrite hex_back by (apply selected_ok; exact H4). now rewrite insert_in.
Qed.
Lemma until_app x y : Forall (fun c => c <> 0) x -> until_nul (x ++ 0 :: y) = x.
Proof. induction 1 as [|c x H _ IH]; [reflexivity|]. cbn [app until_nul]. destruct (c =? 0) eqn:E; [lia|]. now rewrite IH. Qed.
Lemma until_all x : Forall (fun c => c <> 0) x -> until_nul x = x.
Proof. induction 1 as [|c x H _ IH]; [reflexivity|]. cbn [until_nul]. destruct (c =? 0) eqn:E; [lia|]. now rewrite IH. Qed.
Theorem copy_nul conv v x y : hexa v = false -> selected v = x ++ 0 :: y -> Forall (fun c => c <> 0) x -> copy conv v = Some (conv x).
Proof. intros H1 H2 H3. unfold copy. destruct (has_sel v) eqn:E; [|unfold selected in H2; rewrite E in H2; destruct x; discriminate]. rewrite H1, H2, until_app by exact H3. reflexivity. Qed.
Theorem copy_text conv v : hexa v = false -> selected v <> [] -> Forall (fun c => c <> 0) (selected v) -> conv (selected v) = selected v -> copy conv v = Some (selected v).
Proof. intros H1 H2 H3 H4. unfold copy. destruct (has_sel v) eqn:E; [|unfold selected in H2; rewrite E in H2; congruence]. rewrite H1, until_all by exact H3. now rewrite H4. Qed.

(** ** Lines *)
Lemma float_small n : n < 2 ^ 24 -> to_float n = n.
Proof. intros H. unfold to_float. assert (n <? 2 ^ 24 = true) as -> by lia. reflexivity. Qed.
Lemma float_2k k m : 24 <= k -> 0 <= m -> 2 * m <= 2 ^ (k - 23) -> to_float (2 ^ k + m) = 2 ^ k.
Proof.
  intros HK HM HL. assert (P : 2 ^ k = 2 ^ 23 * 2 ^ (k - 23)) by (rewrite <- Z.pow_add_r by lia; f_equal; lia). assert (U : 0 < 2 ^ (k - 23)) by (apply Z.pow_pos_nonneg; lia). assert (K2 : 2 ^ 24 <= 2 ^ k) by (apply Z.pow_le_mono_r; lia).
  unfold to_float. assert (2 ^ k + m <? 2 ^ 24 = false) as -> by lia. assert (LG : Z.log2 (2 ^ k + m) = k). { apply Z.log2_unique; [lia|]. rewrite Z.pow_succ_r by lia. lia. } rewrite LG. cbv zeta. set (u := 2 ^ (k - 23)) in *.
  assert (MU : m < u) by lia. assert (Q : (2 ^ k + m) / u = 2 ^ 23). { rewrite P, Z.add_comm, Z.div_add by lia. rewrite (Z.div_small m u) by lia. reflexivity. } assert (R : (2 ^ k + m) mod u = m). { rewrite P, Z.add_comm, Z.mod_add by lia. apply Z.mod_small. lia. }
  rewrite Q, R. change (Z.even (2 ^ 23)) with true. rewrite Bool.andb_true_r. assert ((2 * m <? u) || (2 * m =? u) = true) as -> by lia. lia.
Qed.
Lemma lines_small len : 0 <= len -> len + 1 < 2 ^ 24 -> lines len = len / 16 + 1.
Proof.
  intros H0 H. unfold lines. rewrite float_small by exact H. pose proof (Z.div_mod (- (len + 1)) 16 ltac:(lia)). pose proof (Z.mod_pos_bound (- (len + 1)) 16 ltac:(lia)). pose proof (Z.div_mod len 16 ltac:(lia)). pose proof (Z.mod_pos_bound len 16 ltac:(lia)). lia.
Qed.
Theorem all_shown len i : 0 <= i < len -> len + 1 < 2 ^ 24 -> 0 <= i / 16 < lines len.
Proof.
  intros H1 H2. rewrite lines_small by lia. split; [apply Z.div_pos; lia|]. assert (i / 16 <= len / 16) by (apply Z.div_le_mono; lia). lia.
Qed.
Theorem last_hidden k m : 25 <= k -> 2 <= m -> 2 * m <= 2 ^ (k - 23) -> lines (2 ^ k + m - 1) <= (2 ^ k) / 16.
Proof.
  intros HK HM HL. unfold lines. replace (2 ^ k + m - 1 + 1) with (2 ^ k + m) by lia. rewrite float_2k by lia. assert (P : 2 ^ k = 16 * 2 ^ (k - 4)). { replace 16 with (2 ^ 4) by reflexivity. rewrite <- Z.pow_add_r by lia. f_equal. lia. } rewrite P. replace (- (16 * 2 ^ (k - 4))) with ((- 2 ^ (k - 4)) * 16) by lia. rewrite Z.div_mul by lia. rewrite (Z.mul_comm 16), Z.div_mul by lia. lia.
Qed.

(** ** Typing *)
Lemma digit_key x : 0 <= x < 16 -> hexval (digit x) = Some x /\ ((48 <=? digit x) && (digit x <=? 57)) || ((97 <=? digit x) && (digit x <=? 102)) = true.
Proof.
  intros H. assert (C : x = 0 \/ x = 1 \/ x = 2 \/ x = 3 \/ x = 4 \/ x = 5 \/ x = 6 \/ x = 7 \/ x = 8 \/ x = 9 \/ x = 10 \/ x = 11 \/ x = 12 \/ x = 13 \/ x = 14 \/ x = 15) by lia.
  repeat (destruct C as [-> |C]; [split; reflexivity|]). subst x. split; reflexivity.
Qed.
(** the cursor is at byte [i], digit [n] *)
Definition is_at (v : view) (i : nat) (n : Z) : Prop := at_ v = sel v /\ on_grid (at_ v) /\ offset (at_ v) = Z.of_nat i /\ nib (at_ v) = n.
Lemma no_sel v : at_ v = sel v -> remove_sel v = v.
Proof. intros H. unfold remove_sel, has_sel. rewrite H. unfold pos_eqb. rewrite !Z.eqb_refl. reflexivity. Qed.
Lemma last_small len : 0 <= len -> len + 1 < 2 ^ 24 -> last_line len = len / 16 /\ last_col len = len mod 16.
Proof. intros H0 H. unfold last_col, last_line. rewrite lines_small by assumption. split; [lia|]. pose proof (Z.div_mod len 16 ltac:(lia)). pose proof (Z.mod_pos_bound len 16 ltac:(lia)). lia. Qed.
Lemma not_last v i n : is_at v i n -> (i < length (bytes v))%nat -> size v + 1 < 2 ^ 24 ->
  (last_line (size v) <=? line (at_ v)) && (last_col (size v) <=? col (at_ v)) = false /\ (size v <=? offset (at_ v)) = false /\ (col (at_ v) = 15 -> line (at_ v) + 1 <= last_line (size v)).
Proof.
  intros (_ & (G1 & G2) & E & _) HI HL. assert (SZ : size v = Z.of_nat (length (bytes v))) by reflexivity. destruct (last_small (size v) ltac:(lia) HL) as [L1 L2]. rewrite L1, L2. unfold offset in *. pose proof (Z.div_mod (size v) 16 ltac:(lia)). pose proof (Z.mod_pos_bound (size v) 16 ltac:(lia)). repeat split; lia.
Qed.
Lemma next_first v i : hexa v = true -> is_at v i 1 -> (i < length (bytes v))%nat -> size v + 1 < 2 ^ 24 -> is_at (move_next v) i 0 /\ v_doc (move_next v) = v_doc v /\ ins (move_next v) = ins v /\ hexa (move_next v) = true.
Proof.
  intros HX HA HI HL. destruct (not_last v i 1 HA HI HL) as (N1 & N2 & N3). unfold move_next. rewrite HX, N1, N2. cbn [negb andb orb]. destruct HA as (A1 & (G1 & G2) & E & EN). rewrite EN. change ((1 + 1) mod 2) with 0. cbv zeta. change (0 =? 0) with true. cbv iota. assert (15 <? col (at_ v) = false) as -> by lia. cbn [move_to v_doc ins hexa].
  split; [|auto]. unfold is_at. cbn [move_to at_ sel]. split; [reflexivity|]. split; [split; assumption|]. split; [exact E|reflexivity].
Qed.
Lemma next_byte v i n : (hexa v = true /\ n = 0) \/ hexa v = false -> is_at v i n -> (i < length (bytes v))%nat -> size v + 1 < 2 ^ 24 -> is_at (move_next v) (S i) 1 /\ v_doc (move_next v) = v_doc v /\ ins (move_next v) = ins v /\ hexa (move_next v) = hexa v.
Proof.
  intros HX HA HI HL. destruct (not_last v i n HA HI HL) as (N1 & N2 & N3). destruct HA as (A1 & (G1 & G2) & E & EN). unfold offset in E.
  assert (M : move_next v = if 15 <? col (at_ v) + 1 then move_to v (PS (Z.min (last_line (size v)) (line (at_ v) + 1)) 0 1) else move_to v (PS (line (at_ v)) (col (at_ v) + 1) 1)).
  { unfold move_next. rewrite N1, N2. destruct HX as [[-> ->]|HX]; [|rewrite HX]; cbn [negb andb orb]; rewrite ?EN; reflexivity. }
  rewrite M. destruct (15 <? col (at_ v) + 1) eqn:EC; cbn [move_to v_doc ins hexa]; (split; [|auto]); unfold is_at; cbn [move_to at_ sel]; (split; [reflexivity|]); unfold on_grid, offset; cbn [line col nib]; repeat split; lia.
Qed.
Lemma replace_one b i x y : (i < length b)%nat -> b_replace b (Z.of_nat i) [x] = firstn i b ++ [x] ++ skipn (i + 1) b /\ (y = nth i b 0 -> True).
Proof. intros H. split; [|auto]. now rewrite replaced by (cbn [length]; lia). Qed.
Lemma low_digit hi lo z : 0 <= hi < 16 -> 0 <= lo < 16 -> 0 <= z < 16 -> (z + hi * 16) / 16 * 16 + lo = 16 * hi + lo.
Proof. intros. rewrite Z.div_add by lia. rewrite (Z.div_small z 16) by lia. lia. Qed.
Lemma nth_typed (b r : list Z) i x : (i <= length b)%nat -> nth i (firstn i b ++ x :: r) 0 = x.
Proof. intros H. rewrite app_nth2; rewrite firstn_length_le by exact H; [|lia]. now rewrite Nat.sub_diag. Qed.
Lemma type_byte v i x : hexa v = true -> stands_at v i -> (i <= length (bytes v))%nat -> Z.of_nat (length (bytes v)) + 2 < 2 ^ 24 -> byte_ok x -> bytes_ok (bytes v) ->
  exists w, type_keys v [digit (x / 16); digit (x mod 16)] = Some w /\ bytes w = typed (ins v) (bytes v) i [x] /\ stands_at w (S i) /\ ins w = ins v /\ hexa w = true.
Proof.
  intros HX HA HI HL HB HO. destruct (byte_split x HB) as (B1 & B2 & B3). destruct (digit_key _ B1) as [D1 D2]. destruct (digit_key _ B2) as [D3 D4]. cbn [type_keys].
  assert (F : exists u z r, type_key v (digit (x / 16)) = Some u /\ 0 <= z < 16 /\ bytes u = firstn i (bytes v) ++ (z + x / 16 * 16) :: r /\ r = skipn (if ins v then i else (i + 1)%nat) (bytes v) /\ is_at u i 0 /\ ins u = ins v /\ hexa u = true).
  { unfold type_key. rewrite HX, D2. cbn [negb]. rewrite D1. cbv zeta. pose proof HA as (A1 & A2 & A3 & A4). rewrite (no_sel v A1). rewrite A3, A4. change (1 =? 0) with false. cbn [negb andb].
    assert (SZ : size v = Z.of_nat (length (bytes v))) by reflexivity.
    destruct ((size v <=? Z.of_nat i) || ins v) eqn:EI.
    - set (u0 := with_doc v (d_insert (v_doc v) (Z.of_nat i) [x / 16 * 16])). assert (BU : bytes u0 = firstn i (bytes v) ++ (0 + x / 16 * 16) :: skipn i (bytes v)). { unfold bytes at 1, u0. cbn [with_doc v_doc]. rewrite bytes_insert. fold (bytes v). now rewrite insert_in. }
      assert (LU : length (bytes u0) = S (length (bytes v))). { rewrite BU, app_length. cbn [length]. rewrite firstn_length, skipn_length. lia. }
      destruct (next_first u0 i HX HA ltac:(lia) ltac:(unfold size, zlen; fold (bytes u0); lia)) as (X1 & X2 & X3 & X4). exists (move_next u0), 0, (skipn i (bytes v)). split; [reflexivity|]. split; [lia|]. split; [unfold bytes at 1; rewrite X2; exact BU|]. split; [|split; [exact X1|]; split; [exact X3|exact X4]].
      destruct (ins v); [reflexivity|]. rewrite Bool.orb_false_r in EI. rewrite !skipn_all2 by lia. reflexivity.
    - apply Bool.orb_false_iff in EI. destruct EI as [EI1 EI2]. rewrite Nat2Z.id. set (ch := nth i (d_bytes (v_doc v)) 0). set (u0 := with_doc v (d_replace (v_doc v) (Z.of_nat i) [ch mod 16 + x / 16 * 16])).
      assert (BU : bytes u0 = firstn i (bytes v) ++ (ch mod 16 + x / 16 * 16) :: skipn (i + 1) (bytes v)). { unfold bytes at 1, u0. cbn [with_doc v_doc]. rewrite bytes_replace. fold (bytes v). now rewrite (proj1 (replace_one (bytes v) i _ 0 ltac:(lia))). }
      assert (LU : length (bytes u0) = length (bytes v)). { rewrite BU, app_length. cbn [length]. rewrite firstn_length, skipn_length. lia. }
      destruct (next_first u0 i HX HA ltac:(lia) ltac:(unfold size, zlen; fold (bytes u0); lia)) as (X1 & X2 & X3 & X4). exists (move_next u0), (ch mod 16), (skipn (i + 1) (bytes v)). split; [reflexivity|]. split; [apply Z.mod_pos_bound; lia|]. split; [unfold bytes at 1; rewrite X2; exact BU|]. split; [now rewrite EI2|]. split; [exact X1|]. split; [exact X3|exact X4]. }
  destruct F as (u & z & r & E1 & Hz & BU & Hr & AU & IU & XU). rewrite E1. unfold type_key at 1. rewrite XU, D4. cbn [negb]. rewrite D3. cbv zeta. pose proof AU as (A1 & A2 & A3 & A4). rewrite (no_sel u A1), A3, A4. change (0 =? 0) with true. cbn [negb andb]. rewrite Bool.orb_false_r.
  assert (LU : (i < length (bytes u))%nat). { rewrite BU, app_length, firstn_length. cbn [length]. lia. } assert (LU2 : (length (bytes u) <= S (length (bytes v)))%nat). { rewrite BU, app_length, firstn_length. cbn [length]. rewrite Hr, skipn_length. destruct (ins v); lia. }
  assert (size u <=? Z.of_nat i = false) as -> by (unfold size, zlen; fold (bytes u); lia). cbv iota. rewrite Nat2Z.id. assert (NU : nth i (d_bytes (v_doc u)) 0 = z + x / 16 * 16) by (fold (bytes u); rewrite BU; apply nth_typed; exact HI). rewrite NU, (low_digit _ _ _ B1 B2 Hz), B3. set (w0 := with_doc u (d_replace (v_doc u) (Z.of_nat i) [x])).
  assert (BW : bytes w0 = firstn i (bytes v) ++ x :: r). { unfold bytes at 1, w0. cbn [with_doc v_doc]. rewrite bytes_replace. fold (bytes u). rewrite (proj1 (replace_one (bytes u) i _ 0 LU)), BU. rewrite (first_at _ _ i) by (rewrite firstn_length; lia). change ((z + x / 16 * 16) :: r) with ([z + x / 16 * 16] ++ r). rewrite (skip_at2 _ _ _ i 1) by (rewrite ?firstn_length; cbn [length]; lia). reflexivity. }
  assert (LW : length (bytes w0) = length (bytes u)) by (rewrite BW, BU, !app_length; reflexivity).
  destruct (next_byte w0 i 0 (or_introl (conj XU eq_refl)) AU ltac:(lia) ltac:(unfold size, zlen; fold (bytes w0); lia)) as (X1 & X2 & X3 & X4). exists (move_next w0). split; [reflexivity|]. split; [|split; [exact X1|]; split; [rewrite X3; exact IU|rewrite X4; exact XU]]. unfold bytes at 1. rewrite X2. fold (bytes w0). rewrite BW, Hr. unfold typed. cbn [length app]. reflexivity.
Qed.
Lemma typed_ok mode b i d : bytes_ok b -> bytes_ok d -> bytes_ok (typed mode b i d).
Proof. intros H1 H2. unfold typed, bytes_ok. apply Forall_app. split; [now apply Forall_firstn'|]. apply Forall_app. split; [exact H2|now apply Forall_skipn']. Qed.
Lemma typed_cons mode b i x d : (i <= length b)%nat -> typed mode (typed mode b i [x]) (S i) d = typed mode b i (x :: d) /\ (S i <= length (typed mode b i [x]) <= S (length b))%nat.
Proof.
  intros H. assert (LF : length (firstn i b) = i) by (rewrite firstn_length; lia). split.
  - assert (LF1 : length (firstn i b ++ [x]) = S i) by (rewrite app_length, LF; cbn [length]; lia). set (k := (if mode then i else (i + 1)%nat)).
    assert (T : typed mode b i [x] = (firstn i b ++ [x]) ++ skipn k b) by (unfold typed, k; rewrite <- app_assoc; reflexivity). rewrite T. unfold typed. rewrite (first_at _ _ (S i) LF1).
    assert (K : skipn (if mode then S i else (S i + length d)%nat) ((firstn i b ++ [x]) ++ skipn k b) = skipn (if mode then i else (i + length (x :: d))%nat) b).
    { unfold k. cbn [length]. destruct mode; [now rewrite (skip_at _ _ (S i) LF1)|]. rewrite <- skipn_plus, (skip_at _ _ (S i) LF1), skipn_plus. f_equal. lia. }
    rewrite K, <- app_assoc. reflexivity.
  - unfold typed. rewrite !app_length, LF, skipn_length. cbn [length]. destruct mode; lia.
Qed.
Lemma keys_app k : forall l v, type_keys v (k ++ l) = match type_keys v k with Some w => type_keys w l | None => None end.
Proof. induction k as [|c k IH]; intros l v; [reflexivity|]. cbn [app type_keys]. destruct (type_key v c); [apply IH|reflexivity]. Qed.
Theorem type_digits d : forall v i, hexa v = true -> stands_at v i -> (i <= length (bytes v))%nat -> Z.of_nat (length (bytes v)) + Z.of_nat (length d) + 1 < 2 ^ 24 -> bytes_ok d -> bytes_ok (bytes v) ->
  exists w, type_keys v (digits d) = Some w /\ bytes w = typed (ins v) (bytes v) i d /\ stands_at w (i + length d) /\ ins w = ins v /\ hexa w = true.
Proof.
  induction d as [|x d IH]; intros v i HX HA HI HL HD HO.
  - exists v. split; [reflexivity|]. split; [unfold typed; cbn [length app]; replace (if ins v then i else (i + 0)%nat) with i by (destruct (ins v); lia); now rewrite firstn_skipn|]. cbn [length]. rewrite Nat.add_0_r. auto.
  - apply Forall_cons_iff in HD. destruct HD as [HD1 HD2]. cbn [length] in HL. destruct (type_byte v i x HX HA HI ltac:(lia) HD1 HO) as (u & E1 & E2 & E3 & E4 & E5). destruct (typed_cons (ins v) (bytes v) i x d HI) as [C1 C2]. rewrite <- E2 in C1, C2.
    destruct (IH u (S i) E5 E3 ltac:(lia) ltac:(lia) HD2 ltac:(rewrite E2; apply typed_ok; [exact HO|now constructor])) as (w & W1 & W2 & W3 & W4 & W5). exists w. change (digits (x :: d)) with ([digit (x / 16); digit (x mod 16)] ++ digits d). rewrite keys_app, E1. split; [exact W1|]. split; [rewrite W2, E4; exact C1|]. cbn [length]. replace (i + S (length d))%nat with (S i + length d)%nat by lia. split; [exact W3|]. split; [congruence|exact W5].
Qed.
Lemma type_char v i c : hexa v = false -> stands_at v i -> (i <= length (bytes v))%nat -> Z.of_nat (length (bytes v)) + 2 < 2 ^ 24 -> 32 <= c <= 126 ->
  exists w, type_key v c = Some w /\ bytes w = typed (ins v) (bytes v) i [c] /\ stands_at w (S i) /\ ins w = ins v /\ hexa w = false.
Proof.
  intros HX HA HI HL HC. unfold type_key. rewrite HX. assert ((32 <=? c) && (c <=? 126) = true) as -> by lia. cbn [negb]. cbv zeta. pose proof HA as (A1 & A2 & A3 & A4). rewrite (no_sel v A1), A3. assert (SZ : size v = Z.of_nat (length (bytes v))) by reflexivity.
  destruct ((Z.of_nat i <? size v) && negb (ins v)) eqn:EI.
  - apply Bool.andb_true_iff in EI. destruct EI as [EI1 EI2]. apply Bool.negb_true_iff in EI2. set (u0 := with_doc v (d_replace (v_doc v) (Z.of_nat i) [c])). assert (BU : bytes u0 = typed (ins v) (bytes v) i [c]). { unfold bytes at 1, u0. cbn [with_doc v_doc]. rewrite bytes_replace. fold (bytes v). rewrite (proj1 (replace_one (bytes v) i _ 0 ltac:(lia))), EI2. reflexivity. }
    destruct (typed_cons (ins v) (bytes v) i c [] HI) as [_ C2]. rewrite <- BU in C2. destruct (next_byte u0 i 1 (or_intror HX) HA ltac:(lia) ltac:(unfold size, zlen; fold (bytes u0); lia)) as (X1 & X2 & X3 & X4). exists (move_next u0). split; [reflexivity|]. split; [unfold bytes at 1; rewrite X2; exact BU|]. split; [exact X1|]. split; [exact X3|rewrite X4; exact HX].
  - set (u0 := with_doc v (d_insert (v_doc v) (Z.of_nat i) [c])). assert (BU : bytes u0 = typed (ins v) (bytes v) i [c]). { unfold bytes at 1, u0. cbn [with_doc v_doc]. rewrite bytes_insert. fold (bytes v). rewrite insert_in by exact HI. unfold typed. do 2 f_equal. cbn [length]. destruct (ins v); [reflexivity|]. rewrite !skipn_all2 by lia. reflexivity. }
    destruct (typed_cons (ins v) (bytes v) i c [] HI) as [_ C2]. rewrite <- BU in C2. destruct (next_byte u0 i 1 (or_intror HX) HA ltac:(lia) ltac:(unfold size, zlen; fold (bytes u0); lia)) as (X1 & X2 & X3 & X4). exists (move_next u0). split; [reflexivity|]. split; [unfold bytes at 1; rewrite X2; exact BU|]. split; [exact X1|]. split; [exact X3|rewrite X4; exact HX].
Qed.
Theorem type_text d : forall v i, hexa v = false -> stands_at v i -> (i <= length (bytes v))%nat -> Z.of_nat (length (bytes v)) + Z.of_nat (length d) + 1 < 2 ^ 24 -> printable d ->
  exists w, type_keys v d = Some w /\ bytes w = typed (ins v) (bytes v) i d /\ stands_at w (i + length d) /\ ins w = ins v /\ hexa w = false.
Proof.
  induction d as [|x d IH]; intros v i HX HA HI HL HD.
  - exists v. split; [reflexivity|]. split; [unfold typed; cbn [length app]; replace (if ins v then i else (i + 0)%nat) with i by (destruct (ins v); lia); now rewrite firstn_skipn|]. cbn [length]. rewrite Nat.add_0_r. auto.
  - apply Forall_cons_iff in HD. destruct HD as [HD1 HD2]. cbn [length] in HL. destruct (type_char v i x HX HA HI ltac:(lia) HD1) as (u & E1 & E2 & E3 & E4 & E5). destruct (typed_cons (ins v) (bytes v) i x d HI) as [C1 C2]. rewrite <- E2 in C1, C2.
    destruct (IH u (S i) E5 E3 ltac:(lia) ltac:(lia) HD2) as (w & W1 & W2 & W3 & W4 & W5). exists w. cbn [type_keys]. rewrite E1. split; [exact W1|]. split; [rewrite W2, E4; exact C1|]. cbn [length]. replace (i + S (length d))%nat with (S i + length d)%nat by lia. split; [exact W3|]. split; [congruence|exact W5].
Qed.
Theorem upper_refused v key : hexa v = true -> 65 <= key <= 70 -> type_key v key = None.
Proof. intros HX HK. unfold type_key. rewrite HX. assert (((48 <=? key) && (key <=? 57)) || ((97 <=? key) && (key <=? 102)) = false) as -> by lia. reflexivity. Qed.

(** ** For the theorems *)
Lemma digits_rev b : bytes_ok b -> forall r out, from_rev (rev (digits b) ++ r) None out = from_rev r None (b ++ out).
Proof.
  induction 1 as [|x b Hx _ IH]; intros r out; [reflexivity|]. destruct (byte_split x Hx) as (H1 & H2 & H3). change (digits (x :: b)) with ([digit (x / 16); digit (x mod 16)] ++ digits b). rewrite rev_app_distr, <- app_assoc, IH. cbn [rev app from_rev]. rewrite (proj1 (digit_key _ H2)), (proj1 (digit_key _ H1)), H3. reflexivity.
Qed.
Lemma from_digits b : bytes_ok b -> from_hex (digits b) = b.
Proof. intros H. unfold from_hex. rewrite <- (app_nil_r (rev (digits b))). rewrite digits_rev by exact H. cbn [from_rev]. apply app_nil_r. Qed.
Lemma text_pasted v x text : bytes_ok x -> text_for v x text -> pasted v text = x.
Proof. unfold text_for, pasted. intros H. destruct (hexa v); intros ->; [now apply from_digits|reflexivity]. Qed.
Lemma text_some v x text : x <> [] -> text_for v x text -> text <> [].
Proof. unfold text_for. destruct (hexa v); intros H ->; [|exact H]. destruct x; [congruence|discriminate]. Qed.
Theorem back_paste v i j x text : backwards v i j -> (i <= length (bytes v))%nat -> bytes_ok x -> x <> [] -> text_for v x text -> ins v = true ->
  bytes (paste v text) = firstn i (bytes v) ++ x ++ skipn (j + 1) (bytes v).
Proof. intros H1 H2 H3 H4 H5 H6. rewrite (paste_back v i j text H1 H2 (text_some v x text H4 H5) H6). now rewrite (text_pasted v x text H3 H5). Qed.
Theorem forw_paste v i j x text : forwards v i j -> (i <= length (bytes v))%nat -> bytes_ok x -> x <> [] -> text_for v x text -> ins v = true ->
  bytes (paste v text) = firstn i (bytes v) ++ firstn (j - i) (skipn (j + 1) (bytes v) ++ repeat 32 (j - i)) ++ x ++ skipn (j - i) (skipn (j + 1) (bytes v)).
Proof. intros H1 H2 H3 H4 H5 H6. rewrite (paste_forw v i j text H1 H2); [|rewrite (text_pasted v x text H3 H5); exact H4|exact (text_some v x text H4 H5)|exact H6]. now rewrite (text_pasted v x text H3 H5). Qed.
Theorem over_paste v i j x text : backwards v i j -> (j + 1 + length x <= length (bytes v))%nat -> bytes_ok x -> x <> [] -> text_for v x text -> ins v = false ->
  bytes (paste v text) = firstn i (bytes v) ++ x ++ skipn (j + 1 + length x) (bytes v).
Proof. intros H1 H2 H3 H4 H5 H6. rewrite (paste_over v i j text H1); [|rewrite (text_pasted v x text H3 H5); exact H2|exact (text_some v x text H4 H5)|exact H6]. now rewrite (text_pasted v x text H3 H5). Qed.
Lemma begins_start v s : begins v s -> start_of v = Z.of_nat s.
Proof.
  unfold start_of. intros [[H1 H2]|(j & [H|H])].
  - unfold has_sel. rewrite H1. unfold pos_eqb. rewrite !Z.eqb_refl. cbn [negb andb]. congruence.
  - destruct (forwards_sel v s j H) as (S1 & S2 & _). rewrite S1, S2. apply H.
  - destruct (backwards_sel v s j H) as (S1 & S2 & _). rewrite S1, S2. apply H.
Qed.
Theorem history l b : all_inside ([], b, []) l -> let '(past, now, later) := fold_left next l ([], b, []) in
  let d := fold_left call l (DC b [] []) in d_bytes d = now /\ (d_done d = [] <-> past = []) /\ (d_undone d = [] <-> later = []).
Proof.
  intros H. assert (S0 : shows (DC b [] []) ([], b, [])) by (split; [reflexivity|]; split; reflexivity || exact Logic.I). pose proof (history_ok l _ _ S0 H) as R. destruct (fold_left next l ([], b, [])) as [[past now] later]. destruct (shows_stacks _ _ _ _ R) as (E1 & E2 & E3). cbv zeta. split; [exact E1|]. split.
  - destruct (d_done _), past; cbn [length] in E2; split; intros; congruence || lia.
  - destruct (d_undone _), later; cbn [length] in E3; split; intros; congruence || lia.
Qed.
