(** Proofs about what the graphical program shows. *)
From Verif Require Import Prelude Lists Text_Model Tree_Model Stream_Model Cf_Model Gui_Model Gui_Spec.
Ltac Zify.zify_post_hook ::= idtac.

(** ** Numbers *)
Lemma value_app l : forall a d, value_of (l ++ [d]) a = 10 * value_of l a + (d - 48).
Proof. induction l as [|x l IH]; intros a d; cbn [app value_of]; [reflexivity|apply IH]. Qed.
Lemma number_ok k : forall n, (0 < k)%nat -> 0 <= n < 10 ^ Z.of_nat k -> all_digits (number k n) /\ value_of (number k n) 0 = n.
Proof.
  induction k as [|k IH]; intros n K H; [lia|]. cbn [number].
  pose proof (Z.mod_pos_bound n 10). pose proof (Z.div_mod n 10).
  destruct (Z.ltb_spec n 10).
  - cbn [app value_of]. unfold all_digits. rewrite Z.mod_small by lia. split; [split; [discriminate|repeat constructor; lia]|lia].
  - destruct k as [|k]; [cbn in H; lia|].
    assert (0 <= n / 10 < 10 ^ Z.of_nat (S k)) as HB.
    { rewrite Nat2Z.inj_succ, Z.pow_succ_r in H by lia. split; [apply Z.div_pos; lia|]. apply Z.div_lt_upper_bound; lia. }
    destruct (IH (n / 10) ltac:(lia) HB) as [[N F] V]. rewrite value_app, V. unfold all_digits. split; [split; [intros E; destruct (app_eq_nil _ _ E); discriminate|]|lia].
    apply Forall_app. split; [exact F|]. constructor; [lia|constructor].
Qed.
Lemma digits2_ok r : 0 <= r < 10 ^ 20 -> exists ip d1 d2, digits2 r = ip ++ [46; d1; d2] /\ all_digits (ip ++ [d1; d2]) /\ value_of (ip ++ [d1; d2]) 0 = r.
Proof.
  intros H. exists (number 25 (r / 100)), (48 + r mod 100 / 10), (48 + r mod 10). split; [reflexivity|].
  assert (0 <= r / 100 < 10 ^ Z.of_nat 25) as B.
  { split; [apply Z.div_pos; lia|]. apply Z.div_lt_upper_bound; [lia|]. change (10 ^ Z.of_nat 25) with (10 ^ 20 * 10 ^ 5). lia. }
  destruct (number_ok 25 (r / 100) ltac:(lia) B) as [[N F] V].
  pose proof (Z.mod_pos_bound r 10 ltac:(lia)). pose proof (Z.mod_pos_bound r 100 ltac:(lia)).
  assert (0 <= r mod 100 / 10 < 10) by (split; [apply Z.div_pos; lia|apply Z.div_lt_upper_bound; lia]).
  split.
  - split; [intros E; destruct (app_eq_nil _ _ E); discriminate|]. apply Forall_app. split; [exact F|]. constructor; [lia|]. constructor; [lia|constructor].
  - replace (number 25 (r / 100) ++ [48 + r mod 100 / 10; 48 + r mod 10]) with ((number 25 (r / 100) ++ [48 + r mod 100 / 10]) ++ [48 + r mod 10]) by (rewrite <- app_assoc; reflexivity).
    rewrite !value_app, V. clear -H. Z.div_mod_to_equations. lia.
Qed.

(** ** Sizes *)
(** after [i] steps [m] units of 1024^i and [f] 1024ths of one, rounded down *)
Definition inv (n m f i : Z) : Prop :=
  0 <= i /\ 0 <= f < 1024 /\ 0 <= m /\ (1024 * m + f) * 1024 ^ i <= 1024 * n < (1024 * m + f + 1) * 1024 ^ i /\ (i = 0 -> m = n /\ f = 0).
Lemma inv_step n m f i : inv n m f i -> inv n (Z.shiftr m 10) (m - Z.shiftl (Z.shiftr m 10) 10) (i + 1).
Proof.
  intros (I0 & F & M & [B1 B2] & _). rewrite Z.shiftr_div_pow2, Z.shiftl_mul_pow2 by lia. change (2 ^ 10) with 1024.
  pose proof (Z.mod_pos_bound m 1024 ltac:(lia)). pose proof (Z.div_mod m 1024 ltac:(lia)).
  assert (0 < 1024 ^ i) by (apply Z.pow_pos_nonneg; lia).
  split; [lia|]. split; [lia|]. split; [apply Z.div_pos; lia|]. split; [|lia]. rewrite Z.pow_add_r, Z.pow_1_r by lia.
  replace (1024 * (m / 1024) + (m - m / 1024 * 1024)) with m by lia. split; nia.
Qed.
Lemma shrink_ok k : forall n m f i, inv n m f i -> i <= 5 -> (1000 < m -> 5 <= i + Z.of_nat k) ->
  let '(m', f', i') := shrink k m f i in inv n m' f' i' /\ i <= i' <= 5 /\ (m' <= 1000 \/ i' = 5) /\ (i < i' -> 1000 < m / 1024 ^ (i' - i - 1)).
Proof.
  induction k as [|k IH]; intros n m f i V I5 E; cbn [shrink].
  - split; [exact V|]. split; [lia|]. split; [lia|lia].
  - change (zlen suffixes) with 5. destruct (Z.ltb_spec i 5); [|cbn [andb]; split; [exact V|split; [lia|split; lia]]].
    destruct (Z.ltb_spec 1000 m); [|cbn [andb]; split; [exact V|split; [lia|split; lia]]]. cbn [andb].
    specialize (IH n _ _ _ (inv_step _ _ _ _ V) ltac:(lia) ltac:(lia)).
    destruct (shrink k _ _ _) as [[m' f'] i']. destruct IH as (V' & L & D & G). split; [exact V'|]. split; [lia|]. split; [exact D|].
    intros _. destruct (Z.eq_dec i' (i + 1)) as [->|N].
    + replace (i + 1 - i - 1) with 0 by lia. rewrite Z.pow_0_r, Z.div_1_r. lia.
    + specialize (G ltac:(lia)). rewrite Z.shiftr_div_pow2 in G by lia. change (2 ^ 10) with 1024 in G.
      replace (i' - i - 1) with (1 + (i' - (i + 1) - 1)) by lia. rewrite Z.pow_add_r, Z.pow_1_r by lia. rewrite <- Z.div_div; [exact G|lia|].
      apply Z.pow_pos_nonneg; lia.
Qed.
Lemma human_ok round2 n : rounds round2 -> 0 <= n < 1001 * 2 ^ 40 -> exists t, shown_size round2 n = Ok t /\ names_size t n.
Proof.
  intros R B. unfold shown_size, human_size. rewrite (Z.mod_small n) by lia.
  assert (inv n n 0 0) as V by (split; [lia|]; split; [lia|]; split; [lia|]; rewrite Z.pow_0_r; split; [lia|tauto]).
  pose proof (shrink_ok 6 n n 0 0 V ltac:(lia) ltac:(lia)) as K. destruct (shrink 6 n 0 0) as [[m f] i]. destruct K as (W & L & D & G).
  assert (i <> 5) as N5.
  { intros ->. specialize (G ltac:(lia)). change (1024 ^ (5 - 0 - 1)) with (2 ^ 40) in G. assert (n / 2 ^ 40 < 1001) by (apply Z.div_lt_upper_bound; lia). lia. }
  assert (m <= 1000) as M by lia. destruct W as (_ & F & M0 & [B1 B2] & Z0). clear G D V.
  pose proof (R (1024 * m + f) ltac:(lia)) as RR. set (r := round2 (1024 * m + f)) in *.
  assert (0 <= r <= 100100) as RB by lia.
  destruct (digits2_ok r ltac:(lia)) as (ip & d1 & d2 & E & A & VV).
  assert (exists u, nth_error suffixes (Z.to_nat i) = Some u /\ unit_ u (Z.to_nat i)) as (u & -> & U).
  { assert (i = 0 \/ i = 1 \/ i = 2 \/ i = 3 \/ i = 4) as [-> |[-> |[-> |[-> | ->]]]] by lia; eexists; (split; [reflexivity|constructor]). }
  cbn [rbind fst snd]. eexists. split; [reflexivity|]. fold r. rewrite E.
  exists ip, d1, d2, u, (Z.to_nat i). split; [rewrite <- app_assoc; reflexivity|]. split; [exact A|]. split; [exact U|]. rewrite VV. cbn zeta.
  rewrite Z2Nat.id by lia. assert (0 < 1024 ^ i) by (apply Z.pow_pos_nonneg; lia).
  split; [|split; [lia|intros I0; assert (i = 0) as -> by lia; destruct (Z0 eq_refl) as [-> ->]; lia]].
  set (U1 := 1024 ^ i) in *. clearbody U1 r. clear -RR B1 B2 F M0 H.
  assert (Z.abs (1024 * (100 * n - r * U1)) < 1024 * U1); [|lia].
  assert (-512 <= 1024 * r - 100 * (1024 * m + f) <= 512) as Q by lia. set (w := 1024 * m + f) in *. clearbody w.
  assert (-512 * U1 <= (1024 * r - 100 * w) * U1 <= 512 * U1) by nia. lia.
Qed.
Lemma as_int_small n : 0 <= n < 2^31 -> as_int n = n.
Proof. intros H. unfold as_int. rewrite Z.mod_small by lia. destruct (Z.ltb_spec n (2^31)); lia. Qed.
Lemma object_small n : len_ok n -> object_size n = bytes_of n /\ 0 <= bytes_of n < 2^31.
Proof. destruct n as [n|]; cbn [len_ok object_size bytes_of]; [intros H; rewrite as_int_small by exact H; lia|lia]. Qed.
Lemma columns_ok round2 d b i : rounds round2 -> len_ok d -> len_ok b -> len_ok i -> bytes_of d + bytes_of b + bytes_of i < 2^31 ->
  exists td tb ti ts, columns round2 d b i = [Ok td; Ok tb; Ok ti; Ok ts] /\ names_size td (bytes_of d) /\ names_size tb (bytes_of b) /\ names_size ti (bytes_of i) /\
    names_size ts (bytes_of d + bytes_of b + bytes_of i).
Proof.
  intros R D B I0 S. unfold columns. destruct (object_small _ D) as [-> D2], (object_small _ B) as [-> B2], (object_small _ I0) as [-> I2].
  destruct (human_ok round2 (bytes_of d) R ltac:(lia)) as (td & -> & Nd). destruct (human_ok round2 (bytes_of b) R ltac:(lia)) as (tb & -> & Nb).
  destruct (human_ok round2 (bytes_of i) R ltac:(lia)) as (ti & -> & Ni). destruct (human_ok round2 (bytes_of d + bytes_of b + bytes_of i) R ltac:(lia)) as (t & Et & N).
  exists td, tb, ti, t. rewrite Et. cbn zeta.
  replace ((-2^31 <=? bytes_of d + bytes_of b) && (bytes_of d + bytes_of b <? 2^31) && (-2^31 <=? bytes_of d + bytes_of b + bytes_of i) && (bytes_of d + bytes_of b + bytes_of i <? 2^31)) with true by lia.
  split; [reflexivity|]. repeat split; assumption || exact Nd || exact Nb || exact Ni || exact N.
Qed.
(** more than 1000 TiB is not shown: in particular a negative int *)
Lemma human_large round2 n : 1001 * 2 ^ 40 <= n mod 2^64 -> shown_size round2 n = UB.
Proof.
  intros B. unfold shown_size, human_size. set (w := n mod 2^64) in *. clearbody w.
  assert (inv w w 0 0) as V by (split; [lia|]; split; [lia|]; split; [lia|]; rewrite Z.pow_0_r; split; [lia|tauto]).
  pose proof (shrink_ok 6 w w 0 0 V ltac:(lia) ltac:(lia)) as K. destruct (shrink 6 w 0 0) as [[m f] i]. destruct K as (W & L & D & _).
  destruct (Z.eq_dec i 5) as [->|N]; [reflexivity|]. exfalso. assert (m <= 1000) as M by lia. destruct W as (I0 & F & M0 & [B1 B2] & _).
  assert (1024 ^ i <= 1024 ^ 4) by (apply Z.pow_le_mono_r; lia). assert (0 < 1024 ^ i) by (apply Z.pow_pos_nonneg; lia).
  assert ((1024 * m + f + 1) * 1024 ^ i <= (1024 * 1001) * 1024 ^ 4) as Q by (apply Z.mul_le_mono_nonneg; lia).
  change (1024 ^ 4) with (2 ^ 40) in Q. lia.
Qed.
Lemma two_gib round2 n : 2^31 <= n mod 2^32 -> shown_size round2 (object_size (Some n)) = UB.
Proof.
  intros H. apply human_large. cbn [object_size]. unfold as_int. pose proof (Z.mod_pos_bound n (2^32) ltac:(lia)) as [B1 B2]. cbn zeta. set (w := n mod 2^32) in *. clearbody w.
  destruct (Z.ltb_spec w (2^31)); [lia|]. replace (w - 2^32) with (w + (2^64 - 2^32) + (-1) * 2^64) by lia. rewrite Z.mod_add by lia. rewrite Z.mod_small; lia.
Qed.
Lemma four_gib n k : object_size (Some (n + k * 2^32)) = object_size (Some n).
Proof. cbn [object_size]. unfold as_int. rewrite Z.mod_add by lia. reflexivity. Qed.
Lemma sum_over round2 d b i : len_ok d -> len_ok b -> len_ok i -> 2^31 <= bytes_of d + bytes_of b + bytes_of i -> nth_error (columns round2 d b i) 3 = Some UB.
Proof.
  intros D B I0 S. unfold columns. destruct (object_small _ D) as [-> D2], (object_small _ B) as [-> B2], (object_small _ I0) as [-> I2]. cbn zeta.
  replace (_ && _) with false by lia. reflexivity.
Qed.
