(** Ranges whose end wraps around 2^64: general refutation for C63. *)
From Verif Require Import Prelude Lists Obj_Model Obj_Spec Obj_Proofs Obj_More.
Ltac Zify.zify_post_hook ::= idtac.

Lemma wrapped_page k d : 0 <= k <= 32 -> 1 <= d <= 2 ^ k -> u32 ((2 ^ 64 - d) / 2 ^ k) = 2 ^ 32 - 1.
Proof.
  intros K D. assert (P : 0 < 2 ^ k) by (apply Z.pow_pos_nonneg; lia).
  assert (A : 2 ^ 64 = 2 ^ (32 - k) * 2 ^ 32 * 2 ^ k) by (rewrite <- !Z.pow_add_r by lia; f_equal; lia).
  assert (E : (2 ^ 64 - d) / 2 ^ k = 2 ^ (32 - k) * 2 ^ 32 - 1).
  { symmetry. apply Z.div_unique with (r := 2 ^ k - d); [left; lia|]. rewrite A. ring. }
  rewrite E. unfold u32. symmetry. apply Z.mod_unique with (q := 2 ^ (32 - k) - 1); [left; lia|]. ring.
Qed.
Lemma wrapped_end len m d : 0 <= m - d <= len -> len < 2 ^ 64 -> u64 (2 ^ 64 - d + m) = m - d.
Proof. intros H L. unfold u64. symmetry. apply Z.mod_unique with (q := 1); [left; lia|]. lia. Qed.

Theorem wrap_bad ps f st n len tabs dp k d m buf : stored ps f st n len tabs dp -> f <> FFree -> Z.of_nat ps = 2 ^ k -> 0 <= k -> 1 <= d <= 2 ^ k -> d <= m -> m - d <= Z.of_nat len ->
  exists o, obj_open (Z.of_nat ps) (is838 f) st n = Ok o /\ get_range (Z.of_nat ps) st o (2 ^ 64 - d) m buf = UB.
Proof.
  intros Hs Hn Hp Hk D M L. destruct (open_ok _ _ _ _ _ _ _ Hs) as (o & E & Ho). exists o. split; [exact E|].
  destruct (opened_len _ _ _ _ _ _ _ _ Hs Ho) as [_ H63].
  destruct Hs as (Hst & Hby & H32 & Hm4 & H17 & Hdp & Hpg & h & Hh & Hf), Ho as (Hb & Hd & Ho).
  assert (K : k <= 32). { destruct (Z_le_gt_dec k 32) as [G|G]; [exact G|]. assert (2 ^ 32 <= 2 ^ k) by (apply Z.pow_le_mono_r; lia). lia. }
  unfold get_range. rewrite Hd, (wrapped_end (Z.of_nat len)) by lia.
  assert (Q : Z.of_nat (ps / 4) < 2 ^ 15) by (rewrite Nat2Z.inj_div; apply Z.div_lt_upper_bound; lia).
  assert (B : 0 < Z.of_nat ps / 4) by (apply Z.div_str_pos; lia).
  assert (Q2 : Z.of_nat ps / 4 < 2 ^ 15) by (apply Z.div_lt_upper_bound; lia).
  destruct f; [| | |congruence].
  - destruct Ho as (-> & -> & -> & _), Hf as (Hp4 & _ & _ & _ & Ht & _). destruct (Z.ltb_spec (Z.of_nat len) (m - d)); [lia|]. cbv zeta.
    assert (k = 12) as -> by (apply (Z.pow_inj_r 2); lia). change 4096 with (2 ^ 12). rewrite wrapped_page by lia. unfold start2. rewrite rd_out; [reflexivity|]. unfold zlen. change ((2 ^ 32 - 1) / 1023) with 4198404. lia.
  - destruct Ho as (-> & -> & -> & -> & _), Hf as (_ & _ & _ & Ht & _). destruct (Z.ltb_spec (Z.of_nat len) (m - d)); [lia|]. cbv zeta. change (0 =? 0) with true. cbv iota.
    rewrite Hp, wrapped_page by lia. cbn [read1]. destruct (Z.eqb_spec m 0); [lia|]. rewrite rd_out; [reflexivity|]. unfold zlen. lia.
  - destruct Ho as (-> & -> & -> & -> & _), Hf as (_ & _ & _ & _ & Ht & _). destruct (Z.ltb_spec (Z.of_nat len) (m - d)); [lia|]. cbv zeta. change (1 =? 0) with false. cbv iota.
    rewrite Hp, wrapped_page by lia. rewrite <- Hp. unfold start2. rewrite rd_out; [reflexivity|]. unfold zlen.
    assert ((2 ^ 32 - 1) / 2 ^ 15 <= (2 ^ 32 - 1) / (Z.of_nat ps / 4)) by (apply Z.div_le_compat_l; lia). change ((2 ^ 32 - 1) / 2 ^ 15) with 131071 in *. lia.
Qed.
