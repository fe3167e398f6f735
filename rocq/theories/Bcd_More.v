(** Texts with a fraction in fields without fraction digits: general refutations for C02 and C04. *)
From Verif Require Import Prelude Bcd_Model Bcd_Spec Bcd_Proofs.
Ltac Zify.zify_post_hook ::= idtac.

Lemma dotted ip fp : Forall digit ip -> Forall digit fp -> is_decimal (chars ip ++ 46 :: chars fp) ip fp.
Proof. intros A B. split; [exact A|]. split; [exact B|]. now left. Qed.
Lemma plain ip : Forall digit ip -> is_decimal (chars ip) ip [].
Proof. intros A. split; [exact A|]. split; [constructor|]. now right. Qed.

(** the digits after the point are stored as digits before it *)
Lemma joined ip fp len : Forall digit ip -> Forall digit fp -> fp <> [] -> zlen ip + zlen fp <= len ->
  numeric_store (chars ip ++ 46 :: chars fp) len 0 = numeric_store (chars (ip ++ fp)) len 0.
Proof.
  intros A B N L.
  assert (T : chars ip ++ 46 :: chars fp <> []) by (destruct (chars ip); discriminate).
  assert (T2 : chars (ip ++ fp) <> []) by (destruct ip; [destruct fp; [congruence|discriminate]|discriminate]).
  assert (P : 0 < zlen fp) by (destruct fp; [congruence|rewrite zlen_cons; pose proof (zlen_nonneg fp); lia]).
  assert (D : forall t i f, is_decimal t i f -> zlen i + zlen f <= len -> bdn_of_text t true len 0 = Ok (mkbdn true 0 (repeat 0 (Z.to_nat (len - zlen i - zlen f)) ++ i ++ f) 1)).
  { intros t i f X Y. unfold bdn_of_text. rewrite (split_decimal _ _ _ X). cbn [rbind Z.eqb]. pose proof (zlen_nonneg ip).
    destruct (Z.eqb_spec len 0); [lia|]. cbv zeta. destruct (Z.ltb_spec (len - zlen i - zlen f) 0); [lia|]. reflexivity. }
  rewrite (numeric_store_unfold _ _ _ _ T (D _ _ _ (dotted ip fp A B) L)).
  rewrite (numeric_store_unfold _ _ _ _ T2 (D _ _ _ (plain (ip ++ fp) (proj2 (Forall_app _ _ _) (conj A B))) ltac:(rewrite zlen_app; change (zlen (@nil Z)) with 0; lia))).
  replace (len - zlen (ip ++ fp) - zlen []) with (len - zlen ip - zlen fp) by (rewrite zlen_app; change (zlen (@nil Z)) with 0; lia). now rewrite app_nil_r.
Qed.

Theorem fraction_joined ip fp len : Forall digit ip -> Forall digit fp -> fp <> [] -> zlen ip + zlen fp <= len ->
  exists bs ip', numeric_store (chars ip ++ 46 :: chars fp) len 0 = Ok bs /\
    (forall rest, numeric_show (bs ++ rest) len 0 = Ok (normal_text ip' [])) /\ normal ip' [] /\
    dval ip' = dval ip * 10 ^ zlen fp + dval fp /\ (0 < dval (ip ++ fp) -> dval ip < dval ip').
Proof.
  intros A B N L. rewrite joined by assumption.
  assert (P : 0 < zlen fp) by (destruct fp; [congruence|rewrite zlen_cons; pose proof (zlen_nonneg fp); lia]).
  assert (T2 : chars (ip ++ fp) <> []) by (destruct ip; [destruct fp; [congruence|discriminate]|discriminate]).
  pose proof (zlen_nonneg ip) as Q.
  destruct (text_roundtrip (chars (ip ++ fp)) (ip ++ fp) [] len 0 (plain _ (proj2 (Forall_app _ _ _) (conj A B))) T2 ltac:(lia) ltac:(reflexivity) ltac:(lia) ltac:(rewrite zlen_app; lia)) as (bs & i & f & S1 & S2 & S3 & S4 & S5 & S6 & _).
  assert (f = []) as -> by (destruct f; [reflexivity|rewrite zlen_cons in S5; pose proof (zlen_nonneg f); lia]).
  assert (V : dval i = dval ip * 10 ^ zlen fp + dval fp).
  { rewrite app_nil_r in S6. unfold floor_at in S6. rewrite app_nil_r in S6. unfold zlen in S6 at 1 2. cbn [length] in S6. change (10 ^ (0 - Z.of_nat 0)) with 1 in S6. change (10 ^ 0) with 1 in S6. change (10 ^ Z.of_nat 0) with 1 in S6. rewrite Z.div_1_r in S6. rewrite dval_app in S6. lia. }
  exists bs, i. split; [exact S1|]. split; [exact S3|]. split; [exact S4|]. split; [exact V|].
  rewrite dval_app, V. pose proof (dval_bound ip A). pose proof (dval_bound fp B).
  assert (10 ^ 1 <= 10 ^ zlen fp) by (apply Z.pow_le_mono_r; lia). nia.
Qed.

Theorem overflow_outside ip fp len : Forall digit ip -> Forall digit fp -> 1 <= len -> len < zlen ip + zlen fp ->
  exists bs, numeric_store (chars ip ++ 46 :: chars fp) len 0 = Ok bs /\ zlen bs = (len + zlen fp + 2) / 2 /\ (2 <= zlen fp -> numeric_size len < zlen bs).
Proof.
  intros A B H L.
  assert (T : chars ip ++ 46 :: chars fp <> []) by (destruct (chars ip); discriminate).
  assert (D : bdn_of_text (chars ip ++ 46 :: chars fp) true len 0 = Ok (mkbdn true 0 (repeat 9 (Z.to_nat len) ++ fp) 1)).
  { unfold bdn_of_text. rewrite (split_decimal _ _ _ (dotted ip fp A B)). cbn [rbind Z.eqb].
    destruct (Z.eqb_spec len 0); [lia|]. cbv zeta. destruct (Z.ltb_spec (len - zlen ip - zlen fp) 0); [|lia].
    unfold vresize. rewrite Z.sub_0_r. destruct (Z.ltb_spec len 0); [lia|]. cbn [rbind]. rewrite firstn_nil. cbn [length app]. rewrite Nat.sub_0_r. reflexivity. }
  rewrite (numeric_store_unfold _ _ _ _ T D). unfold bdn_write. cbn [b_flag b_data b_sign].
  destruct (Z.to_nat len) as [|k] eqn:K; [lia|]. cbn [repeat app].
  eexists. split; [reflexivity|].
  assert (E : zlen ((Z.lor (if 1 =? -1 then 0 else 16) 9) mod 256 :: pack_pairs (repeat 9 k ++ fp)) = (len + zlen fp + 2) / 2).
  { rewrite zlen_cons. unfold zlen at 1. rewrite pack_pairs_length, app_length, repeat_length, Nat2Z.inj_div. unfold zlen.
    replace (len + Z.of_nat (length fp) + 2) with (Z.of_nat (k + length fp + 1) + 1 * 2) by lia. rewrite Z.div_add by lia. lia. }
  rewrite E. split; [reflexivity|]. intros F. unfold numeric_size.
  assert ((len + 2 + 1 * 2) / 2 <= (len + zlen fp + 2) / 2) by (apply Z.div_le_mono; lia). rewrite Z.div_add in * by lia. lia.
Qed.
