(** Proofs about updates read wrongly, saved configurations and lists of hashes. *)
From Verif Require Import Prelude Lists Codec_Model Codec_Spec Codec_Proofs Text_Model Tree_Model Cfg_Model Cfg_Spec Cfg_Proofs Cfg_Updates.
Ltac Zify.zify_post_hook ::= idtac.

(** ** Files without updates *)
Lemma config_plain lower dynup files :
  (forall key f, In (key, f) files -> key <> lower s_DynamicallyUpdated -> first_len f <> 0 -> exists base r, means lower (t_name f) base r) ->
  exists m, config_files lower dynup files = Ok m /\ forall b,
    match mget (lower b) m with
    | None => forall key f base r, In (key, f) files -> key <> lower s_DynamicallyUpdated -> first_len f <> 0 -> means lower (t_name f) base r -> lower base <> lower b
    | Some c => (exists key base, In (key, c_file c) files /\ key <> lower s_DynamicallyUpdated /\ first_len (c_file c) <> 0 /\ means lower (t_name (c_file c)) base (c_dyn c) /\ lower base = lower b) /\
                forall key f base, In (key, f) files -> key <> lower s_DynamicallyUpdated -> first_len f <> 0 -> means lower (t_name f) base (-1) -> lower base = lower b -> c_dyn c = -1
    end.
Proof.
  intros HM. destruct (config_ok lower dynup files) with (m := @nil (list Z * cfile)) as (m & E).
  { intros key f H1 H2 H3. destruct (HM key f H1 H2 H3) as (base & r & H). eexists. apply rank_means. exact H. }
  exists m. split; [exact E|]. assert (HB : best (cand lower dynup ([] ++ files)) m) by (apply (config_best lower dynup files [] []); [intros k f r (key & name & [] & _)|exact E]). cbn [app] in HB.
  intros b. specialize (HB (lower b)). destruct (mget (lower b) m) as [c|].
  - destruct HB as [(key & name & H1 & H2 & H3 & H4 & H5) HB]. destruct (HM _ _ H1 H2 H3) as (base & r & HR). pose proof (rank_means lower dynup _ _ _ HR) as HR2. rewrite H4 in HR2. injection HR2 as Q1 Q2. subst base r. split; [exists key, name; auto|].
    intros key' f' base' I1 I2 I3 I4 I5. specialize (HB f' (-1)). assert (L : -1 <= c_dyn c) by (apply HB; exists key', base'; repeat split; try assumption; apply rank_means; exact I4). inversion HR; lia.
  - intros key f base r H1 H2 H3 H4 H5. apply (HB f r). exists key, base. repeat split; try assumption. apply rank_means. exact H4.
Qed.

(** ** The identifier of an update is read one character early *)
Lemma hexdigit_nibble n : 0 <= n < 16 -> from_hex_digit (hexdigit n) = n.
Proof. intros H. assert (C : n = 0 \/ n = 1 \/ n = 2 \/ n = 3 \/ n = 4 \/ n = 5 \/ n = 6 \/ n = 7 \/ n = 8 \/ n = 9 \/ n = 10 \/ n = 11 \/ n = 12 \/ n = 13 \/ n = 14 \/ n = 15) by lia. destruct C as [->|[->|[->|[->|[->|[->|[->|[->|[->|[->|[->|[->|[->|[->|[->| ->]]]]]]]]]]]]]]]; reflexivity. Qed.
Lemma sub_dash s i b c : chr s i = c -> (c = 95 \/ c = 45) -> chr s (i + 1) = hexdigit (Z.shiftr b 4) -> byte_ok b -> get_subbyte s i = b / 16.
Proof.
  intros H1 HC H2 HB. unfold get_subbyte. rewrite H1, H2. unfold byte_ok in HB. assert (ES : Z.shiftr b 4 = b / 16) by (apply Z.shiftr_div_pow2; lia). rewrite ES. assert (R : 0 <= b / 16 < 16) by (split; [apply Z.div_pos; lia|apply Z.div_lt_upper_bound; lia]).
  rewrite hexdigit_nibble by exact R. destruct HC as [->| ->]; change (from_hex_digit 95) with 0; change (from_hex_digit 45) with 0; rewrite Z.lor_0_l, Z.mod_small by lia; reflexivity.
Qed.
Lemma sub_shift s i a b : chr s i = hexdigit (Z.land a 15) -> chr s (i + 1) = hexdigit (Z.shiftr b 4) -> a = 0 -> byte_ok b -> get_subbyte s i = b / 16.
Proof.
  intros H1 H2 -> HB. unfold get_subbyte. rewrite H1, H2. unfold byte_ok in HB. assert (ES : Z.shiftr b 4 = b / 16) by (apply Z.shiftr_div_pow2; lia). rewrite ES. assert (R : 0 <= b / 16 < 16) by (split; [apply Z.div_pos; lia|apply Z.div_lt_upper_bound; lia]).
  rewrite (hexdigit_nibble (b / 16)) by exact R. change (Z.land 0 15) with 0. change (from_hex_digit (hexdigit 0)) with 0. rewrite Z.lor_0_l, Z.mod_small by lia. reflexivity.
Qed.
Lemma div16_zero b : byte_ok b -> b / 16 = b -> b = 0.
Proof. unfold byte_ok. intros H E. assert (Q := Z.div_mod b 16). assert (R := Z.mod_pos_bound b 16). lia. Qed.
Lemma misread g t : is_guid g -> guid_as_1C g = Ok t -> exists g', guid_of_text (95 :: removelast t) = Ok g' /\ is_guid g' /\ (g' = g -> g = repeat 0 16).
Proof.
  intros Hg Ht. pose proof Hg as Hg0. guid_bytes Hg. unfold guid_as_1C in Ht. cbn in Ht. injection Ht as <-. cbn [removelast].
  match goal with |- exists g', guid_of_text ?s = _ /\ _ => set (str := s) end.
  unfold guid_of_text. change (zlen str =? 32) with false. change (negb (zlen str =? 36)) with false. cbv iota. eexists. split; [reflexivity|]. split.
  - split; [rewrite map_length; reflexivity|]. apply Forall_forall. intros x Hx. apply in_map_iff in Hx. destruct Hx as (j & <- & _). unfold get_subbyte, byte_ok. assert (B := Z.mod_pos_bound). specialize (B (Z.lor (Z.shiftl (from_hex_digit (chr str j)) 4) (from_hex_digit (chr str (j + 1)))) 256). lia.
  - intros E. cbn [map] in E. injection E as E0 E1 E2 E3 E4 E5 E6 E7 E8 E9 E10 E11 E12 E13 E14 E15.
    assert (Z12 : b12 = 0) by (apply div16_zero; [assumption|]; rewrite <- E12 at 2; symmetry; eapply sub_dash; [reflexivity|left; reflexivity|reflexivity|assumption]).
    assert (Z13 : b13 = 0) by (apply div16_zero; [assumption|]; rewrite <- E13 at 2; symmetry; eapply sub_shift; [reflexivity|reflexivity|exact Z12|assumption]).
    assert (Z14 : b14 = 0) by (apply div16_zero; [assumption|]; rewrite <- E14 at 2; symmetry; eapply sub_shift; [reflexivity|reflexivity|exact Z13|assumption]).
    assert (Z15 : b15 = 0) by (apply div16_zero; [assumption|]; rewrite <- E15 at 2; symmetry; eapply sub_shift; [reflexivity|reflexivity|exact Z14|assumption]).
    assert (Z10 : b10 = 0) by (apply div16_zero; [assumption|]; rewrite <- E10 at 2; symmetry; eapply sub_dash; [reflexivity|right; reflexivity|reflexivity|assumption]).
    assert (Z11 : b11 = 0) by (apply div16_zero; [assumption|]; rewrite <- E11 at 2; symmetry; eapply sub_shift; [reflexivity|reflexivity|exact Z10|assumption]).
    assert (Z8 : b8 = 0) by (apply div16_zero; [assumption|]; rewrite <- E8 at 2; symmetry; eapply sub_dash; [reflexivity|right; reflexivity|reflexivity|assumption]).
    assert (Z9 : b9 = 0) by (apply div16_zero; [assumption|]; rewrite <- E9 at 2; symmetry; eapply sub_shift; [reflexivity|reflexivity|exact Z8|assumption]).
    assert (Z0 : b0 = 0) by (apply div16_zero; [assumption|]; rewrite <- E0 at 2; symmetry; eapply sub_dash; [reflexivity|right; reflexivity|reflexivity|assumption]).
    assert (Z1 : b1 = 0) by (apply div16_zero; [assumption|]; rewrite <- E1 at 2; symmetry; eapply sub_shift; [reflexivity|reflexivity|exact Z0|assumption]).
    assert (Z2 : b2 = 0) by (apply div16_zero; [assumption|]; rewrite <- E2 at 2; symmetry; eapply sub_dash; [reflexivity|right; reflexivity|reflexivity|assumption]).
    assert (Z3 : b3 = 0) by (apply div16_zero; [assumption|]; rewrite <- E3 at 2; symmetry; eapply sub_shift; [reflexivity|reflexivity|exact Z2|assumption]).
    assert (Z4 : b4 = 0) by (apply div16_zero; [assumption|]; rewrite <- E4 at 2; symmetry; eapply sub_shift; [reflexivity|reflexivity|exact Z3|assumption]).
    assert (Z5 : b5 = 0) by (apply div16_zero; [assumption|]; rewrite <- E5 at 2; symmetry; eapply sub_shift; [reflexivity|reflexivity|exact Z4|assumption]).
    assert (Z6 : b6 = 0) by (apply div16_zero; [assumption|]; rewrite <- E6 at 2; symmetry; eapply sub_shift; [reflexivity|reflexivity|exact Z5|assumption]).
    assert (Z7 : b7 = 0) by (apply div16_zero; [assumption|]; rewrite <- E7 at 2; symmetry; eapply sub_shift; [reflexivity|reflexivity|exact Z6|assumption]).
    clear - Z0 Z1 Z2 Z3 Z4 Z5 Z6 Z7 Z8 Z9 Z10 Z11 Z12 Z13 Z14 Z15. subst. reflexivity.
Qed.
(** the characters of an identifier *)
Definition guid_char (c : Z) : Prop := 48 <= c <= 57 \/ 97 <= c <= 102 \/ c = 45.
Lemma hexdigit_char n : 0 <= n < 16 -> guid_char (hexdigit n).
Proof. intros H. unfold hexdigit, guid_char. destruct (n <? 10) eqn:E; [apply Z.ltb_lt in E|apply Z.ltb_ge in E]; lia. Qed.
Lemma format_chars g idx : bytes_ok g -> forall t, format_guid g idx = Ok t -> Forall guid_char t.
Proof.
  intros HG. induction idx as [|i idx IH]; intros t E; cbn [format_guid] in E; [injection E as <-; constructor|]. destruct (i =? -1).
  - destruct (format_guid g idx) as [r| | |]; try discriminate. cbn [rbind] in E. injection E as <-. constructor; [right; right; reflexivity|apply IH; reflexivity].
  - destruct (rd g i) as [b| | |] eqn:EB; try discriminate. cbn [rbind] in E. destruct (format_guid g idx) as [r| | |]; try discriminate. cbn [rbind] in E. injection E as <-.
    assert (HB : byte_ok b). { unfold rd in EB. destruct (i <? 0); [discriminate|]. destruct (nth_error g (Z.to_nat i)) as [x|] eqn:EN; [|discriminate]. injection EB as <-. apply nth_error_In in EN. exact (proj1 (Forall_forall _ _) HG _ EN). }
    unfold byte_ok in HB. constructor; [apply hexdigit_char; rewrite Z.shiftr_div_pow2 by lia; change (2 ^ 4) with 16; split; [apply Z.div_pos; lia|apply Z.div_lt_upper_bound; lia]|].
    constructor; [apply hexdigit_char; change 15 with (Z.ones 4); rewrite Z.land_ones by lia; change (2 ^ 4) with 16; apply Z.mod_pos_bound; lia|apply IH; reflexivity].
Qed.
Lemma rfind_at pat n x : rfind pat x = Some 0%nat -> rfind pat (n ++ x) = Some (length n).
Proof. intros H. induction n as [|a n IH]; [exact H|]. cbn [app rfind length]. rewrite IH. reflexivity. Qed.
Lemma rfind_mark t : Forall guid_char t -> rfind s_dynupdate (s_dynupdate ++ t) = Some 0%nat.
Proof.
  intros HT. set (rest := [100;121;110;117;112;100;97;116;101;95] ++ t). change (s_dynupdate ++ t) with (95 :: rest). assert (N : rfind s_dynupdate rest = None).
  { apply rfind_none. intros (a & b & E). assert (HN : nth_error rest (length a + 2) = Some 121) by (rewrite E, nth_error_app2 by lia; replace (length a + 2 - length a)%nat with 2%nat by lia; reflexivity).
    unfold rest in HN. cbn [app] in HN. replace (length a + 2)%nat with (S (S (length a))) in HN by lia. cbn [nth_error] in HN. apply nth_error_In in HN. cbn [In] in HN. repeat (destruct HN as [HN|HN]; [discriminate|]).
    rewrite Forall_forall in HT. specialize (HT _ HN). unfold guid_char in HT. lia. }
  assert (U : forall pat x s, rfind pat (x :: s) = match rfind pat s with Some i => Some (S i) | None => if eq_list (firstn (length pat) (x :: s)) pat then Some 0%nat else None end) by reflexivity.
  rewrite U, N. reflexivity.
Qed.
Lemma guid_no_dot t : Forall guid_char t -> ~ In 46 t.
Proof. intros H I. rewrite Forall_forall in H. specialize (H _ I). unfold guid_char in H. lia. Qed.
Local Strategy expand [guid_as_1C].
Lemma guid_chars g t : is_guid g -> guid_as_1C g = Ok t -> Forall guid_char t.
Proof. intros [_ HB] HT. unfold guid_as_1C in HT. exact (format_chars g idx_1C HB t HT). Qed.
Lemma rank_update lower dynup n g t g' : is_guid g -> guid_as_1C g = Ok t -> guid_of_text (95 :: removelast t) = Ok g' -> ~ In 46 n -> zlen n < 2 ^ 64 ->
  rank_file lower dynup (n ++ s_dynupdate ++ t) = Ok (n, match index_of g' dynup with Some i => i | None => -2 end).
Proof.
  intros HG HT HG' ND LN. pose proof (guid_chars g t HG HT) as CT.
  destruct (guid_1C_roundtrip g HG) as (t' & ET & LT & _). rewrite HT in ET. injection ET as <-.
  assert (N46 : ~ In 46 (n ++ s_dynupdate ++ t)). { rewrite !in_app_iff. intros [H|[H|H]]; [exact (ND H)| |exact (guid_no_dot t CT H)]. cbn in H. repeat (destruct H as [H|H]; [discriminate|]). exact H. }
  unfold rank_file. rewrite rfind_char_none by exact N46. assert (EX : exists dyn, (if eq_list (lower []) (lower s_new) then ([], -2) else ([], -1)) = (@nil Z, dyn)) by (destruct (eq_list (lower []) (lower s_new)); eexists; reflexivity). destruct EX as (dyn & ->).
  rewrite rfind_at with (n := n) by (apply rfind_mark; exact CT). unfold substr. rewrite !zlen_app, LT. change (zlen s_dynupdate) with 11. pose proof (zlen_nonneg n) as L0. unfold zlen in LN, L0 |- * .
  destruct (Z.ltb_spec (Z.of_nat (length n) + (11 + 36)) (Z.of_nat (length n) + 11 - 1)); [lia|]. cbn [rbind]. destruct (Z.ltb_spec (Z.of_nat (length n) + (11 + 36)) 0); [lia|]. cbn [rbind].
  replace (Z.of_nat (length n) + (11 + 36) - Z.of_nat (length n) - 11) with 36 by lia. change (Z.to_nat (u64 36)) with 36%nat. unfold u64. rewrite Z.mod_small by lia. rewrite Nat2Z.id. change (Z.to_nat 0) with 0%nat. rewrite skipn_O, firstn_len_app.
  replace (Z.to_nat (Z.of_nat (length n) + 11 - 1)) with (length n + 10)%nat by lia. rewrite <- skipn_plus, skipn_app, Nat.sub_diag, (skipn_all2 n) by lia. rewrite skipn_O. cbn [app].
  assert (EQ : firstn 36 (skipn 10 (s_dynupdate ++ t)) = 95 :: removelast t).
  { unfold s_dynupdate. cbn [app skipn]. rewrite removelast_firstn_len. unfold zlen in LT. replace (length t) with 36%nat by lia. reflexivity. }
  rewrite EQ, HG'. reflexivity.
Qed.
Lemma rank_plain lower dynup n : ~ In 46 n -> ~ has s_dynupdate n -> lower [] <> lower s_new -> rank_file lower dynup n = Ok (n, -1).
Proof. intros H1 H2 H3. apply rank_means. constructor; assumption. Qed.
(** the file as it was wins against its only, listed update *)
Lemma update_lost lower n g t k1 k2 a1 a2 tm1 tm2 l : is_guid g -> g <> repeat 0 16 -> guid_as_1C g = Ok t -> ~ In 46 n -> ~ has s_dynupdate n -> zlen n < 2 ^ 64 -> lower [] <> lower s_new ->
  k1 <> lower s_DynamicallyUpdated -> k2 <> lower s_DynamicallyUpdated ->
  let base := TF n a1 tm1 in let upd := TF (n ++ s_dynupdate ++ t) a2 tm2 in first_len base <> 0 -> first_len upd <> 0 -> l = [(k1, base); (k2, upd)] \/ l = [(k2, upd); (k1, base)] ->
  exists m, config_files lower [g] l = Ok m /\ option_map c_file (mget (lower n) m) = Some base.
Proof.
  intros HG NZ HT ND NM LN LL HK1 HK2 base upd F1 F2 HL. destruct (misread g t HG HT) as (g' & E1 & E2 & E3).
  pose proof (rank_update lower [g] n g t g' HG HT E1 ND LN) as RU. assert (EI : index_of g' [g] = None). { cbn [index_of]. destruct (guid_eqb g g') eqn:E; [|reflexivity]. apply guid_eq_spec in E; [|assumption|assumption]. exfalso. apply NZ. apply E3. symmetry. exact E. }
  rewrite EI in RU. pose proof (rank_plain lower [g] n ND NM LL) as RP.
  assert (B1 : eq_list k1 (lower s_DynamicallyUpdated) = false) by (apply eq_list_neq; exact HK1). assert (B2 : eq_list k2 (lower s_DynamicallyUpdated) = false) by (apply eq_list_neq; exact HK2).
  unfold config_files. destruct HL as [-> | ->]; cbn [config_loop]; rewrite B1, B2; apply Z.eqb_neq in F1, F2; rewrite F1, F2; cbn [t_name base upd]; rewrite RU, RP; cbn [rbind config_loop]; rewrite ?RU, ?RP; cbn [rbind]; eexists; (split; [reflexivity|]);
    unfold offer; cbn [mget mput]; rewrite eq_list_refl; cbn [c_dyn Z.ltb Z.compare CompOpp Pos.compare Pos.compare_cont mget mput]; rewrite ?eq_list_refl; cbn [mget]; rewrite ?eq_list_refl; reflexivity.
Qed.
(** a name ending in a dot loses the dot *)
Lemma dot_lost lower dynup n : ~ In 46 n -> ~ has s_dynupdate n -> lower [] <> lower s_new -> rank_file lower dynup (n ++ [46]) = Ok (n, -1).
Proof.
  intros H1 H2 H3. unfold rank_file. rewrite rfind_char_at by (intros []). rewrite firstn_len_app, skipn_len_cons, eq_list_neq by exact H3. rewrite rfind_none by exact H2. reflexivity.
Qed.
