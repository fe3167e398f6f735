(** Layout, setters, nullable keys, index keys of a record, texts. *)
From Verif Require Import Prelude Lists Field_Model Field_Spec Field_Keys.
From Coq Require Import Permutation.
Ltac Zify.zify_post_hook ::= idtac.

Lemma firstn_repeat {A} (x : A) n m : firstn n (repeat x m) = repeat x (Nat.min n m).
Proof. revert m. induction n as [|n IH]; intros [|m]; try reflexivity. cbn [repeat firstn Nat.min]. now rewrite IH. Qed.
Lemma NoDup_nth_inj {A} (l : list A) i j x : NoDup l -> nth_error l i = Some x -> nth_error l j = Some x -> i = j.
Proof. intros HN Hi Hj. apply (proj1 (NoDup_nth_error l) HN); [apply nth_error_Some; congruence|congruence]. Qed.
Lemma type_width k L : type_size k L = width k L.
Proof. destruct k; cbn [type_size width]; try lia. rewrite Z.shiftr_div_pow2 by lia. change (2 ^ 1) with 2. f_equal. lia. Qed.
Lemma size_extent f : field_size f = extent f.
Proof. unfold field_size, extent. now rewrite type_width. Qed.
Lemma f_end_eq f : f_end f = f_off f + field_size f.
Proof. unfold f_end. now rewrite size_extent. Qed.
Lemma total_cons f fs : total (f :: fs) = field_size f + total fs.
Proof. unfold total. cbn [map fold_right]. now rewrite size_extent. Qed.
(** ** Nullable keys *)
Lemma null_key f rec buf : f_null f = true -> 0 <= f_off f -> rd rec (f_off f) = Ok 0 -> 1 < field_size f <= 4096 -> field_size f < zlen buf ->
  field_key f rec 0 buf 0 (zlen buf) = Ok (0 :: 1 :: repeat 0 (Z.to_nat (field_size f - 1)) ++ skipn (Z.to_nat (field_size f + 1)) buf, 0).
Proof.
  intros Hn Ho Hr Hs Hb. unfold field_key. rewrite Hn, !Z.add_0_l, Hr. cbn [rbind Z.eqb]. destruct buf as [|x buf]; [change (zlen (@nil Z)) with 0 in Hb; lia|].
  rewrite wrn_front by (change (zlen [0]) with 1; lia). cbn [rbind length app skipn]. destruct (Z.ltb_spec 4096 (field_size f)); [lia|].
  assert (HL : null_index (field_size f) = 1 :: repeat 0 (Z.to_nat (field_size f - 1))).
  { unfold null_index. replace (Z.to_nat (field_size f)) with (S (Z.to_nat (field_size f - 1))) by lia. cbn [firstn]. f_equal.
    rewrite firstn_repeat. f_equal. lia. }
  rewrite HL. rewrite wrn_ok; [|lia|rewrite !zlen_cons in *; unfold zlen at 1; rewrite repeat_length; lia]. cbn [rbind]. change (Z.to_nat 1) with 1%nat. unfold splice. cbn [firstn app length].
  rewrite repeat_length. replace (Z.to_nat (field_size f + 1)) with (S (S (Z.to_nat (field_size f - 1)))) by lia. cbn [skipn Nat.add app]. reflexivity.
Qed.
Lemma null_key_over f rec buf : f_null f = true -> 0 <= f_off f -> rd rec (f_off f) = Ok 0 -> 1 < field_size f <= 4096 -> zlen buf = field_size f ->
  field_key f rec 0 buf 0 (zlen buf) = UB.
Proof.
  intros Hn Ho Hr Hs Hb. unfold field_key. rewrite Hn, !Z.add_0_l, Hr. cbn [rbind Z.eqb]. destruct buf as [|x buf]; [change (zlen (@nil Z)) with 0 in Hb; lia|].
  rewrite wrn_front by (change (zlen [0]) with 1; lia). cbn [rbind length app skipn]. destruct (Z.ltb_spec 4096 (field_size f)); [lia|].
  assert (HL : zlen (null_index (field_size f)) = field_size f).
  { unfold null_index, zlen. rewrite firstn_length. cbn [length]. rewrite repeat_length. lia. }
  unfold wrn. rewrite HL, zlen_cons in *. destruct (Z.ltb_spec (1 + zlen buf) (1 + field_size f)); [|lia]. rewrite orb_true_r. reflexivity.
Qed.
Lemma null_before f rec0 rec1 a buf0 buf1 : f_null f = true -> value_ok (f_kind f) (f_len f) a -> 0 <= f_off f -> rd rec0 (f_off f) = Ok 0 -> at_ rec1 (f_off f) (1 :: a) ->
  field_size f <= 4096 -> field_size f < zlen buf0 -> field_size f <= zlen buf1 ->
  exists k0 k1 n0 n1, field_key f rec0 0 buf0 0 (zlen buf0) = Ok (k0, n0) /\ field_key f rec1 0 buf1 0 (zlen buf1) = Ok (k1, n1) /\ lex k0 k1 = Lt.
Proof.
  intros Hn Va Ho R0 R1 H4 H0 H1. destruct (value_len _ _ _ Va) as [La La0]. assert (1 < field_size f) by (unfold field_size; rewrite Hn; lia).
  rewrite (null_key f rec0 buf0) by (auto; lia). destruct (field_key_set f a rec1 buf1 Hn Va Ho R1 H1) as (ka & -> & _).
  do 4 eexists. split; [reflexivity|]. split; [reflexivity|]. reflexivity.
Qed.
Lemma set_order f a b ra rb ba bb : f_null f = true -> value_ok (f_kind f) (f_len f) a -> value_ok (f_kind f) (f_len f) b -> 0 <= f_off f ->
  at_ ra (f_off f) (1 :: a) -> at_ rb (f_off f) (1 :: b) -> field_size f <= zlen ba -> field_size f <= zlen bb ->
  exists ka kb, field_key f ra 0 ba 0 (zlen ba) = Ok (ka ++ skipn (length ka) ba, field_size f - 1) /\ field_key f rb 0 bb 0 (zlen bb) = Ok (kb ++ skipn (length kb) bb, field_size f - 1) /\
    zlen ka = field_size f /\ zlen kb = field_size f /\ lex ka kb = value_cmp (f_kind f) (f_len f) a b.
Proof.
  intros Hn Va Vb Ho Ra Rb Ha Hb. destruct (field_key_set f a ra ba Hn Va Ho Ra Ha) as (ka & A1 & A2 & A3). destruct (field_key_set f b rb bb Hn Vb Ho Rb Hb) as (kb & B1 & B2 & B3).
  exists (1 :: ka), (1 :: kb). split; [exact A1|]. split; [exact B1|]. unfold field_size in *. rewrite Hn in *. rewrite !zlen_cons. split; [lia|]. split; [lia|]. cbn [lex Z.compare]. rewrite Pos.compare_refl. 
  assert (AT : forall r x, value_ok (f_kind f) (f_len f) x -> at_ r (f_off f) (1 :: x) -> at_ r (f_off f + 1) x).
  { intros r x Vx [_ Hr]. apply rdn_some in Hr. destruct Hr as (_ & _ & Hl & Hs). rewrite zlen_cons in Hl. split; [lia|]. rewrite rdn_ok by (pose proof (zlen_nonneg x); lia). f_equal.
    unfold sub in *. replace (Z.to_nat (f_off f + 1)) with (1 + Z.to_nat (f_off f))%nat by lia. rewrite <- skipn_skipn_add. destruct (skipn (Z.to_nat (f_off f)) r) as [|y l].
    - rewrite firstn_nil in Hs. discriminate.
    - replace (Z.to_nat (zlen (1 :: x))) with (S (length x)) in Hs by (unfold zlen; cbn [length]; lia). cbn [firstn] in Hs. injection Hs as _ Hs. cbn [skipn]. unfold zlen. rewrite Nat2Z.id. now symmetry. }
  destruct (type_key_cmp _ _ a b ra rb _ _ (zlen ba) (zlen bb) Va Vb (AT _ _ Va Ra) (AT _ _ Vb Rb) ltac:(lia) ltac:(lia)) as (ka' & kb' & E1 & E2 & _ & _ & E5).
  rewrite A3 in E1. rewrite B3 in E2. injection E1 as <-. injection E2 as <-. exact E5.
Qed.

(** ** Keys of records in an index *)
Lemma wrn_nil {A} (l : list A) i : 0 <= i <= zlen l -> wrn l i [] = Ok l.
Proof. intros H. rewrite wrn_ok by (change (zlen (@nil A)) with 0; lia). now rewrite splice_nil. Qed.
Lemma wrn_all (l d : list Z) : zlen d = zlen l -> wrn l 0 d = Ok d.
Proof. intros H. rewrite wrn_ok by lia. change (Z.to_nat 0) with 0%nat. rewrite splice_full; [reflexivity|]. unfold zlen in H. lia. Qed.
Lemma calc_one f rec buf : f_null f = false -> (f_kind f = KBin \/ f_kind f = KDate \/ f_kind f = KBool) -> 0 <= f_off f -> 0 < field_size f -> zlen buf = field_size f ->
  calc_record_index [f] rec buf = rdn rec (2 * f_off f) (field_size f).
Proof.
  intros Hn Hk Ho Hs Hb. unfold calc_record_index. cbn [calc_fields]. unfold field_key, type_key. rewrite Hn. replace (f_off f + f_off f) with (2 * f_off f) by lia.
  assert (Hsz : type_size (f_kind f) (f_len f) = field_size f) by (unfold field_size; rewrite Hn; lia). rewrite Hsz.
  destruct (Z.eqb_spec (zlen buf) 0); [lia|]. destruct (Z.ltb_spec (zlen buf) (field_size f)); [lia|].
  assert (E : forall r, rdn rec (2 * f_off f) (field_size f) = r -> match r with Ok d => zlen d = field_size f | UB => True | _ => False end).
  { intros r <-. unfold rdn. destruct (_ || _) eqn:Eo; [exact I|]. apply orb_false_iff in Eo. destruct Eo as [Eo E3]. apply orb_false_iff in Eo. destruct Eo as [E1 E2].
    apply Z.ltb_ge in E1, E2, E3. unfold zlen in *. rewrite sub_length by lia. lia. }
  assert (Hm : (match f_kind f with KBin | KDate | KBool => rdn rec (2 * f_off f) (field_size f)
    | KNum => if 64 <? field_size f then UB else do bs <- rdn rec (2 * f_off f) (field_size f); do key <- num_key (f_len f) bs; Ok key | _ => Throw end) = rdn rec (2 * f_off f) (field_size f))
    by (destruct Hk as [->|[->| ->]]; reflexivity).
  rewrite Hm. specialize (E _ eq_refl). destruct (rdn rec (2 * f_off f) (field_size f)) as [d| | |]; try contradiction; [|reflexivity].
  rewrite wrn_all by lia. cbn [rbind fst snd]. destruct (Z.ltb_spec 0 (zlen buf - zlen d)); [lia|]. reflexivity.
Qed.
Lemma rdn_splice_before (rec d : list Z) o i n : 0 <= o -> o + zlen d <= zlen rec -> o + zlen d <= i -> rdn (splice rec (Z.to_nat o) d) i n = rdn rec i n.
Proof.
  intros Ho Hd Hi. assert (Hl : zlen (splice rec (Z.to_nat o) d) = zlen rec) by (unfold zlen in *; rewrite splice_length; lia).
  unfold rdn. rewrite Hl. destruct (_ || _); [reflexivity|]. f_equal. unfold sub. f_equal. unfold splice. unfold zlen in *.
  rewrite app_assoc, skipn_app. rewrite skipn_all2 by (rewrite app_length, firstn_length; lia). cbn [app]. rewrite skipn_skipn_add. f_equal. rewrite app_length, firstn_length. lia.
Qed.
(** the key of the only field of an index does not depend on the value of the field *)
Lemma type_key_ext k L r r' fr m : rdn r fr (type_size k L) = rdn r' fr (type_size k L) -> type_key k L r fr m = type_key k L r' fr m.
Proof. intros E. unfold type_key. rewrite E. reflexivity. Qed.
Lemma calc_ignores f rec buf d : f_null f = false -> 0 <= f_off f -> zlen d = field_size f -> field_size f <= f_off f -> f_off f + field_size f <= zlen rec ->
  calc_record_index [f] (splice rec (Z.to_nat (f_off f)) d) buf = calc_record_index [f] rec buf.
Proof.
  intros Hn Ho Hd Hs Hr. unfold calc_record_index. cbn [calc_fields]. unfold field_key. rewrite Hn.
  rewrite (type_key_ext (f_kind f) (f_len f) (splice rec (Z.to_nat (f_off f)) d) rec); [reflexivity|]. apply rdn_splice_before; lia.
Qed.
(** text fields *)
Lemma calc_text fs rec buf : Forall (fun f => f_null f = false /\ (f_kind f = KChar \/ f_kind f = KVarchar)) fs -> calc_record_index fs rec buf = Ok (repeat 0 (length buf)).
Proof.
  intros H. unfold calc_record_index. assert (E : calc_fields fs rec buf 0 (zlen buf) = Ok (buf, 0, zlen buf)).
  { induction H as [|f fs [Hn Hk] H IH]; [reflexivity|]. cbn [calc_fields]. unfold field_key. rewrite Hn.
    assert (T : type_key (f_kind f) (f_len f) rec (f_off f + f_off f) (zlen buf) = Throw) by (unfold type_key; destruct (zlen buf =? 0); [reflexivity|]; destruct Hk as [->| ->]; reflexivity).
    rewrite T. cbn [rbind fst snd]. rewrite Z.add_0_l, Z.sub_0_r. exact IH. }
  rewrite E. cbn [rbind]. destruct (Z.ltb_spec 0 (zlen buf)) as [L|L].
  - unfold zlen. rewrite Nat2Z.id. apply wrn_all. unfold zlen. now rewrite repeat_length.
  - destruct buf; [reflexivity|]. rewrite zlen_cons in L. pose proof (zlen_nonneg buf). lia.
Qed.

(** ** Layout *)
Fixpoint consec (lo : Z) (fs : list field) (hi : Z) : Prop :=
  match fs with [] => lo = hi | f :: r => f_off f = lo /\ consec (f_end f) r hi end.
Definition isv (w : bool) (f : field) : bool := Bool.eqb (is_version (f_kind f)) w.
Lemma same_refl f : same_decl f f. Proof. repeat split. Qed.
Lemma same_trans f g h : same_decl f g -> same_decl g h -> same_decl f h.
Proof. intros (X1 & X2 & X3) (Y1 & Y2 & Y3). repeat split; congruence. Qed.
Lemma place_ok w fs : forall lo, consec lo (filter (isv w) (fst (place (length fs) w fs lo))) (snd (place (length fs) w fs lo)) /\
  filter (isv (negb w)) (fst (place (length fs) w fs lo)) = filter (isv (negb w)) fs /\ Forall2 same_decl fs (fst (place (length fs) w fs lo)) /\
  snd (place (length fs) w fs lo) = lo + total (filter (isv w) fs).
Proof.
  induction fs as [|f fs IH]; intros lo; [cbn; repeat split; try constructor; unfold total; cbn; lia|]. cbn [length place]. fold (isv w f). destruct (isv w f) eqn:E.
  - specialize (IH (lo + field_size f)). destruct (place (length fs) w fs (lo + field_size f)) as [r l]. cbn [fst snd] in *. destruct IH as (I1 & I2 & I3 & I4).
    cbn [filter]. change (isv w (set_off f lo)) with (isv w f). change (isv (negb w) (set_off f lo)) with (isv (negb w) f). rewrite E.
    assert (E' : isv (negb w) f = false) by (unfold isv in *; destruct (is_version (f_kind f)), w; cbn in *; congruence). rewrite E'.
    repeat apply conj; [reflexivity|fold consec; rewrite f_end_eq; exact I1|exact I2|constructor; [repeat split|exact I3]|]. rewrite ?total_cons in *. lia.
  - specialize (IH lo). destruct (place (length fs) w fs lo) as [r l]. cbn [fst snd] in *. destruct IH as (I1 & I2 & I3 & I4). cbn [filter]. rewrite E.
    assert (E' : isv (negb w) f = true) by (unfold isv in *; destruct (is_version (f_kind f)), w; cbn in *; congruence). rewrite E'.
    repeat apply conj; [exact I1|now rewrite I2|constructor; [apply same_refl|exact I3]|exact I4].
Qed.
Lemma same_size f g : same_decl f g -> field_size f = field_size g.
Proof. intros (H1 & H2 & H3). unfold field_size. now rewrite H1, H2, H3. Qed.
Lemma same_isv w f g : same_decl f g -> isv w f = isv w g.
Proof. intros (H1 & _). unfold isv. now rewrite H1. Qed.
Lemma filter_same w fs gs : Forall2 same_decl fs gs -> total (filter (isv w) fs) = total (filter (isv w) gs) /\ length gs = length fs.
Proof.
  induction 1 as [|f g fs gs H HH IH]; [auto|]. cbn [filter length]. rewrite (same_isv w f g H). destruct IH as [IH1 IH2]. split; [|lia]. destruct (isv w g); [|exact IH1]. rewrite ?total_cons in *. rewrite (same_size f g H). lia.
Qed.
Lemma total_split fs : total fs = total (filter (isv true) fs) + total (filter (isv false) fs).
Proof.
  induction fs as [|f fs IH]; [reflexivity|]. cbn [filter]. assert (isv false f = negb (isv true f)) as -> by (unfold isv; destruct (is_version (f_kind f)); reflexivity).
  destruct (isv true f); cbn [negb]; rewrite !total_cons; lia.
Qed.
Lemma Forall2_trans {A} (P : A -> A -> Prop) (HP : forall a b c, P a b -> P b c -> P a c) l1 l2 l3 : Forall2 P l1 l2 -> Forall2 P l2 l3 -> Forall2 P l1 l3.
Proof. intros H. revert l3. induction H; intros l3 H3; inversion H3; subst; constructor; eauto. Qed.
Lemma consec_app a b : forall lo m hi, consec lo a m -> consec m b hi -> consec lo (a ++ b) hi.
Proof. induction a as [|f a IH]; intros lo m hi Ha Hb; cbn [consec app] in *; [now subst|]. destruct Ha as [E Ha]. split; [exact E|]. apply (IH _ m); assumption. Qed.
Lemma layout_consec fs fs' L : layout (length fs) fs = (fs', L) ->
  Forall2 same_decl fs fs' /\ L = Z.max 5 (1 + total fs) /\ consec 1 (filter (isv true) fs' ++ filter (isv false) fs') (1 + total fs).
Proof.
  unfold layout. intros E. destruct (place_ok true fs 1) as (A1 & A2 & A3 & A4). destruct (place (length fs) true fs 1) as [f1 l1] eqn:E1. cbn [fst snd negb] in *.
  destruct (filter_same false _ _ A3) as [F1 F2]. rewrite <- F2 in E. destruct (place_ok false f1 l1) as (B1 & B2 & B3 & B4). destruct (place (length f1) false f1 l1) as [f2 l2] eqn:E2. cbn [fst snd negb] in *.
  injection E as <- <-. split; [|split].
  - apply (Forall2_trans same_decl same_trans _ _ _ A3 B3).
  - rewrite (total_split fs). destruct (Z.ltb_spec l2 5); lia.
  - rewrite (total_split fs). replace (1 + (total (filter (isv true) fs) + total (filter (isv false) fs))) with l2 by lia. rewrite B2.
    apply (consec_app _ _ _ _ _ A1 B1).
Qed.
Lemma consec_facts fs : forall lo hi, consec lo fs hi -> Forall (fun f => 0 < field_size f) fs -> lo <= hi /\ Forall (fun f => lo <= f_off f /\ f_end f <= hi) fs /\ NoDup fs /\
  (forall f g, In f fs -> In g fs -> f <> g -> f_end f <= f_off g \/ f_end g <= f_off f) /\ (forall x, lo <= x < hi -> exists f, In f fs /\ inside f x).
Proof.
  induction fs as [|f fs IH]; intros lo hi H HS; cbn [consec] in H.
  - subst. split; [lia|]. split; [constructor|]. split; [constructor|]. split; [intros f g []|]. intros x Hx. lia.
  - destruct H as [H1 H2]. inversion HS as [|? ? Hf HS']; subst. destruct (IH _ _ H2 HS') as (I1 & I2 & I3 & I4 & I5). pose proof (f_end_eq f) as EF.
    rewrite Forall_forall in I2. split; [lia|]. split; [constructor; [lia|apply Forall_forall; intros g Hg; specialize (I2 g Hg); cbv beta in I2; lia]|]. split; [|split].
    + constructor; [|exact I3]. intros Hin. specialize (I2 f Hin). cbv beta in I2. lia.
    + intros a b [<-|Ha] [<-|Hb] Hne; [congruence|left; specialize (I2 b Hb); cbv beta in I2; lia|right; specialize (I2 a Ha); cbv beta in I2; lia|now apply I4].
    + intros x Hx. destruct (Z.lt_ge_cases x (f_off f + field_size f)).
      * exists f. split; [left; reflexivity|]. unfold inside. lia.
      * destruct (I5 x ltac:(lia)) as (g & Hg & Hi). exists g. split; [right; exact Hg|exact Hi].
Qed.
Lemma perm_filter fs : Permutation fs (filter (isv true) fs ++ filter (isv false) fs).
Proof.
  induction fs as [|f fs IH]; [constructor|]. cbn [filter]. assert (isv false f = negb (isv true f)) as -> by (unfold isv; destruct (is_version (f_kind f)); reflexivity).
  destruct (isv true f); cbn [negb app]; [now constructor|]. apply Permutation_cons_app. exact IH.
Qed.
Lemma layout_ok fs fs' L : Forall (fun f => 0 < field_size f) fs -> layout (length fs) fs = (fs', L) ->
  Forall2 same_decl fs fs' /\ L = Z.max 5 (1 + total fs) /\
  Forall (fun f => 1 <= f_off f /\ f_end f <= 1 + total fs) fs' /\
  (forall i j f g, i <> j -> nth_error fs' i = Some f -> nth_error fs' j = Some g -> f_end f <= f_off g \/ f_end g <= f_off f) /\
  (forall x, 1 <= x < 1 + total fs -> exists f, In f fs' /\ inside f x) /\
  (forall f g, In f fs' -> In g fs' -> is_version (f_kind f) = true -> is_version (f_kind g) = false -> f_end f <= f_off g).
Proof.
  intros HS E. destruct (layout_consec fs fs' L E) as (A1 & A2 & A3). split; [exact A1|]. split; [exact A2|].
  set (all := filter (isv true) fs' ++ filter (isv false) fs') in *. pose proof (perm_filter fs') as HP. fold all in HP.
  assert (HS' : Forall (fun f => 0 < field_size f) fs') by (clear - A1 HS; induction A1 as [|f g fs gs H HH IH]; inversion HS; subst; constructor; [rewrite <- (same_size f g H); assumption|auto]).
  assert (HSa : Forall (fun f => 0 < field_size f) all) by (apply (Permutation_Forall HP), HS').
  destruct (consec_facts _ _ _ A3 HSa) as (B1 & B2 & B3 & B4 & B5). split; [|split; [|split]].
  - apply (Permutation_Forall (Permutation_sym HP)). exact B2.
  - intros i j f g Hij Hf Hg. apply B4; [apply (Permutation_in _ HP), (nth_error_In _ _ Hf)|apply (Permutation_in _ HP), (nth_error_In _ _ Hg)|].
    intros ->. apply Hij. apply (NoDup_nth_inj fs' i j g); auto. apply (Permutation_NoDup (Permutation_sym HP)), B3.
  - intros x Hx. destruct (B5 x Hx) as (f & Hf & Hi). exists f. split; [|exact Hi]. apply (Permutation_in _ (Permutation_sym HP)), Hf.
  - intros f g Hf Hg Vf Vg. assert (If : In f (filter (isv true) fs')) by (apply filter_In; split; [exact Hf|unfold isv; now rewrite Vf]).
    assert (Ig : In g (filter (isv false) fs')) by (apply filter_In; split; [exact Hg|unfold isv; now rewrite Vg]).
    clear - A3 If Ig HSa. unfold all in *. clear all. revert A3 HSa. generalize 1 at 1. induction (filter (isv true) fs') as [|a r IH]; intros lo H HS; [destruct If|]. cbn [app consec] in H. destruct H as [H1 H2].
    inversion HS as [|? ? Ha HS2]; subst. destruct If as [->|If]; [|apply (IH If _ H2 HS2)]. destruct (consec_facts _ _ _ H2 HS2) as (_ & F & _). rewrite Forall_forall in F. apply F. apply in_app_iff. right. exact Ig.
Qed.
Lemma place_app w a : forall x lo, fst (place (length a) w (a ++ [x]) lo) = fst (place (length a) w a lo) ++ [x] /\ snd (place (length a) w (a ++ [x]) lo) = snd (place (length a) w a lo).
Proof.
  induction a as [|f a IH]; intros x lo; [split; reflexivity|]. cbn [app length place]. destruct (Bool.eqb _ _).
  - destruct (IH x (lo + field_size f)) as [I1 I2]. destruct (place (length a) w (a ++ [x]) _), (place (length a) w a _). cbn [fst snd] in *. subst. split; reflexivity.
  - destruct (IH x lo) as [I1 I2]. destruct (place (length a) w (a ++ [x]) _), (place (length a) w a _). cbn [fst snd] in *. subst. split; reflexivity.
Qed.
Lemma place_length w a : forall n lo, length (fst (place n w a lo)) = length a.
Proof.
  induction a as [|f a IH]; intros [|n] lo; try reflexivity. cbn [place]. destruct (Bool.eqb _ _).
  - specialize (IH n (lo + field_size f)). destruct (place n w a _). cbn [fst length] in *. lia.
  - specialize (IH n lo). destruct (place n w a _). cbn [fst length] in *. lia.
Qed.
Lemma hidden_version decl : existsb (fun f => match f_kind f with KVersion => true | _ => false end) decl = false ->
  fst (table_fields decl true) = fst (table_fields decl false) ++ [FD KVersion8 false 0 0] /\ snd (table_fields decl true) = snd (table_fields decl false).
Proof.
  intros H. unfold table_fields. rewrite H. cbn [andb negb]. unfold layout. set (x := FD KVersion8 false 0 0).
  destruct (place_app true decl x 1) as [A1 A2]. destruct (place (length decl) true (decl ++ [x]) 1) as [p q] eqn:E1. pose proof (place_length true decl (length decl) 1) as HL. destruct (place (length decl) true decl 1) as [r s] eqn:E2.
  cbn [fst snd] in *. subst p q. destruct (place_app false r x s) as [B1 B2]. rewrite HL in B1, B2. destruct (place (length decl) false (r ++ [x]) s) as [p q], (place (length decl) false r s) as [u v]. cbn [fst snd] in *. subst. split; reflexivity.
Qed.

(** ** Setters *)
Lemma rdn_splice_out (rec d : list Z) o i n : 0 <= o -> o + zlen d <= zlen rec -> i + n <= o \/ o + zlen d <= i -> rdn (splice rec (Z.to_nat o) d) i n = rdn rec i n.
Proof.
  intros Ho Hd [Hi|Hi]; [|now apply rdn_splice_before]. assert (Hl : zlen (splice rec (Z.to_nat o) d) = zlen rec) by (unfold zlen in *; rewrite splice_length; lia).
  unfold rdn. rewrite Hl. destruct (_ || _) eqn:E; [reflexivity|]. apply orb_false_iff in E. destruct E as [E _]. apply orb_false_iff in E. destruct E as [E1 E2]. apply Z.ltb_ge in E1, E2. f_equal.
  rewrite <- (sub_firstn (splice _ _ _) (Z.to_nat o)) by lia. rewrite <- (sub_firstn rec (Z.to_nat o)) by lia. f_equal. unfold splice. rewrite firstn_app, firstn_firstn, Nat.min_id.
  rewrite firstn_length, Nat.min_l by (unfold zlen in *; lia). rewrite Nat.sub_diag. cbn [firstn]. apply app_nil_r.
Qed.
Lemma rdn_splice_in (rec d : list Z) o : 0 <= o -> o + zlen d <= zlen rec -> rdn (splice rec (Z.to_nat o) d) o (zlen d) = Ok d.
Proof.
  intros Ho Hd. rewrite rdn_ok; [|lia|apply zlen_nonneg|unfold zlen in *; rewrite splice_length; lia]. f_equal. unfold splice, sub, zlen in *. rewrite Nat2Z.id.
  rewrite skipn_app. rewrite skipn_all2 by (rewrite firstn_length; lia). rewrite firstn_length, Nat.min_l by lia. rewrite Nat.sub_diag. cbn [app skipn]. rewrite firstn_app, firstn_all, Nat.sub_diag. cbn [firstn]. apply app_nil_r.
Qed.
Lemma rd_rdn (l : list Z) i : rd l i = match rdn l i 1 with Ok (x :: _) => Ok x | _ => UB end.
Proof.
  unfold rd, rdn. destruct (Z.ltb_spec i 0); [reflexivity|]. cbn [orb]. change (1 <? 0) with false. cbn [orb]. destruct (Z.ltb_spec (zlen l) (i + 1)) as [L|L].
  - destruct (nth_error l (Z.to_nat i)) eqn:E; [|reflexivity]. assert (Z.to_nat i < length l)%nat by (apply nth_error_Some; congruence). unfold zlen in L. lia.
  - unfold sub. change (Z.to_nat 1) with 1%nat. rewrite <- (Nat.add_0_r (Z.to_nat i)) at 1. rewrite <- nth_error_skipn. destruct (skipn (Z.to_nat i) l) eqn:E; [|reflexivity].
    apply (f_equal (@length Z)) in E. rewrite skipn_length in E. cbn [length] in E. unfold zlen in *. lia.
Qed.
Definition apart (f g : field) : Prop := f_end f <= f_off g \/ f_end g <= f_off f.
Lemma view_other f g rec o d : apart f g -> f_off f <= o -> o + zlen d <= f_end f -> 0 <= f_off f -> f_end f <= zlen rec -> 0 <= type_size (f_kind g) (f_len g) ->
  get_value g (splice rec (Z.to_nat o) d) = get_value g rec /\ is_null g (splice rec (Z.to_nat o) d) = is_null g rec.
Proof.
  intros HA H1 H2 H3 H4 H5. assert (S : f_end g = f_off g + (if f_null g then 1 else 0) + type_size (f_kind g) (f_len g)) by (rewrite f_end_eq; unfold field_size; lia).
  unfold apart in HA. split.
  - unfold get_value. apply rdn_splice_out; [lia|lia|]. destruct (f_null g); lia.
  - unfold is_null. destruct (f_null g); [|reflexivity]. rewrite !rd_rdn. rewrite rdn_splice_out; [reflexivity|lia|lia|lia].
Qed.
Lemma set_data_ok f d rec : f_null f = false -> 0 <= f_off f -> f_end f <= zlen rec -> zlen d = field_size f ->
  exists rec', set_data f d rec = Ok rec' /\ zlen rec' = zlen rec /\ get_value f rec' = Ok d /\ is_null f rec' = Ok false /\
    (forall g, apart f g -> 0 <= type_size (f_kind g) (f_len g) -> get_value g rec' = get_value g rec /\ is_null g rec' = is_null g rec).
Proof.
  intros Hn Ho He Hd. rewrite f_end_eq in He. pose proof (zlen_nonneg d) as Hd0. exists (splice rec (Z.to_nat (f_off f)) d). unfold set_data. rewrite Hn.
  rewrite rdn_ok by lia. cbn [rbind]. assert (Es : sub d (Z.to_nat 0) (Z.to_nat (field_size f)) = d) by (change (Z.to_nat 0) with 0%nat; rewrite sub_0_firstn; apply firstn_all2; unfold zlen in Hd; lia).
  rewrite Es. rewrite wrn_ok by lia. split; [reflexivity|]. split; [unfold zlen in *; rewrite splice_length; lia|]. split; [|split].
  - unfold get_value. rewrite Hn, Z.add_0_r. assert (E : type_size (f_kind f) (f_len f) = zlen d) by (unfold field_size in Hd; rewrite Hn in Hd; lia). rewrite E. apply rdn_splice_in; lia.
  - unfold is_null. now rewrite Hn.
  - intros g HA Hg. apply (view_other f); auto; rewrite ?f_end_eq; lia.
Qed.
Lemma set_null_ok f rec : f_null f = true -> 0 <= f_off f -> f_end f <= zlen rec -> 0 <= type_size (f_kind f) (f_len f) ->
  exists rec', set_null f rec = Ok rec' /\ zlen rec' = zlen rec /\ is_null f rec' = Ok true /\ get_value f rec' = get_value f rec /\
    (forall g, apart f g -> 0 <= type_size (f_kind g) (f_len g) -> get_value g rec' = get_value g rec /\ is_null g rec' = is_null g rec).
Proof.
  intros Hn Ho He Hs. rewrite f_end_eq in He. unfold field_size in He. rewrite Hn in He. exists (splice rec (Z.to_nat (f_off f)) [0]). unfold set_null. rewrite Hn. change (zlen [0]) with 1 in *.
  rewrite wrn_ok by (change (zlen [0]) with 1; lia). split; [reflexivity|]. split; [unfold zlen in *; rewrite splice_length; cbn [length]; lia|]. split; [|split].
  - unfold is_null. rewrite Hn, rd_rdn. replace 1 with (zlen [0]) by reflexivity. rewrite rdn_splice_in by (change (zlen [0]) with 1; lia). reflexivity.
  - unfold get_value. rewrite Hn. apply rdn_splice_out; change (zlen [0]) with 1; lia.
  - intros g HA Hg. apply (view_other f); auto; rewrite ?f_end_eq; unfold field_size; rewrite ?Hn; change (zlen [0]) with 1; lia.
Qed.
(** a nullable field: the byte behind the field is written as well *)
Lemma set_nullable f d x rec : f_null f = true -> 0 <= f_off f -> f_end f < zlen rec -> 0 <= type_size (f_kind f) (f_len f) -> zlen d = type_size (f_kind f) (f_len f) ->
  exists rec', set_data f (d ++ [x]) rec = Ok rec' /\ get_value f rec' = Ok d /\ is_null f rec' = Ok false /\ rd rec' (f_end f) = Ok x.
Proof.
  intros Hn Ho He Hs Hd. rewrite f_end_eq in *. unfold field_size in *. rewrite Hn in *. unfold set_data, field_size. rewrite Hn.
  rewrite wrn_ok by (change (zlen [1]) with 1; lia). cbn [rbind]. set (r1 := splice rec (Z.to_nat (f_off f)) [1]). assert (Hl : zlen r1 = zlen rec) by (unfold r1, zlen in *; rewrite splice_length; cbn [length]; lia).
  assert (Hdx : zlen (d ++ [x]) = zlen d + 1) by (rewrite zlen_app; reflexivity). rewrite rdn_ok by lia. cbn [rbind].
  assert (Es : sub (d ++ [x]) (Z.to_nat 0) (Z.to_nat (1 + type_size (f_kind f) (f_len f))) = d ++ [x]) by (change (Z.to_nat 0) with 0%nat; rewrite sub_0_firstn; apply firstn_all2; unfold zlen in *; lia).
  rewrite Es, wrn_ok by lia. eexists. split; [reflexivity|]. split; [|split].
  - unfold get_value. rewrite Hn, <- Hd. pose proof (rdn_splice_in r1 (d ++ [x]) (f_off f + 1) ltac:(lia) ltac:(lia)) as E. apply rdn_some in E. destruct E as (_ & _ & E3 & E4).
    rewrite rdn_ok by (pose proof (zlen_nonneg d); lia). f_equal. rewrite Hdx in E4. unfold sub in *. replace (Z.to_nat (zlen d + 1)) with (length d + 1)%nat in E4 by (unfold zlen; lia).
    apply (f_equal (firstn (length d))) in E4. rewrite firstn_firstn, Nat.min_l in E4 by lia. rewrite firstn_app, firstn_all, Nat.sub_diag in E4. cbn [firstn] in E4. rewrite app_nil_r in E4. unfold zlen. rewrite Nat2Z.id. now symmetry.
  - unfold is_null. rewrite Hn, rd_rdn, rdn_splice_out by lia. unfold r1. replace 1 with (zlen [1]) at 3 by reflexivity. rewrite rdn_splice_in by (change (zlen [1]) with 1; lia). reflexivity.
  - apply rd_ok; [lia|]. unfold splice. rewrite nth_error_app2 by (rewrite firstn_length; lia). rewrite nth_error_app1 by (rewrite firstn_length, app_length; cbn [length]; unfold zlen in *; lia).
    rewrite firstn_length, Nat.min_l by (unfold zlen in *; lia). replace (Z.to_nat (f_off f + (1 + type_size (f_kind f) (f_len f))) - Z.to_nat (f_off f + 1))%nat with (length d) by (unfold zlen in *; lia).
    rewrite nth_error_app2, Nat.sub_diag by lia. reflexivity.
Qed.
Lemma set_nullable_source f d rec : f_null f = true -> 0 <= f_off f -> f_end f <= zlen rec -> 0 <= type_size (f_kind f) (f_len f) -> zlen d = type_size (f_kind f) (f_len f) -> set_data f d rec = UB.
Proof.
  intros Hn Ho He Hs Hd. rewrite f_end_eq in He. unfold field_size in He. rewrite Hn in He. unfold set_data, field_size. rewrite Hn. rewrite wrn_ok by (change (zlen [1]) with 1; lia). cbn [rbind].
  unfold rdn. destruct (Z.ltb_spec (zlen d) (0 + (1 + type_size (f_kind f) (f_len f)))); [|lia]. rewrite orb_true_r. reflexivity.
Qed.
Lemma set_nullable_last f d rec : f_null f = true -> 0 <= f_off f -> f_end f = zlen rec -> 0 <= type_size (f_kind f) (f_len f) -> set_data f d rec = UB.
Proof.
  intros Hn Ho He Hs. rewrite f_end_eq in He. unfold field_size in He. rewrite Hn in He. unfold set_data, field_size. rewrite Hn. rewrite wrn_ok by (change (zlen [1]) with 1; lia). cbn [rbind].
  destruct (rdn d 0 _) as [b| | |] eqn:E; try reflexivity; [|unfold rdn in E; destruct (_ || _) in E; discriminate|unfold rdn in E; destruct (_ || _) in E; discriminate].
  apply rdn_some in E. destruct E as (_ & _ & E3 & E4). cbn [rbind]. unfold wrn. assert (Hb : zlen b = 1 + type_size (f_kind f) (f_len f)) by (rewrite E4; unfold zlen in *; rewrite sub_length; lia).
  rewrite Hb. destruct (Z.ltb_spec (zlen (splice rec (Z.to_nat (f_off f)) [1])) (f_off f + 1 + (1 + type_size (f_kind f) (f_len f)))) as [|K]; [rewrite orb_true_r; reflexivity|].
  exfalso. unfold zlen in *. rewrite splice_length in K by (cbn [length]; lia). lia.
Qed.
Lemma assign_ok src dst : zlen src = zlen dst -> assign src dst true = Ok src.
Proof.
  intros H. unfold assign. rewrite H, Z.eqb_refl. cbn [negb orb].
  assert (G : forall n dst, (n <= length dst)%nat -> length dst = length src -> assign_loop n src dst = Ok (firstn n src ++ skipn n dst)).
  { induction n as [|n IH]; intros d Hn Hl; [reflexivity|]. cbn [assign_loop]. destruct (nth_error src n) as [b|] eqn:E; [|apply nth_error_None in E; lia].
    rewrite (rd_ok src (Z.of_nat n) b) by (rewrite ?Nat2Z.id; auto; lia). cbn [rbind]. rewrite wrn_ok by (unfold zlen; cbn [length]; lia). cbn [rbind]. rewrite Nat2Z.id.
    rewrite IH by (rewrite splice_length; cbn [length]; lia). f_equal.
    assert (E1 : firstn (S n) src = firstn n src ++ [b]) by (clear - E; revert src E; induction n as [|n IH]; intros [|x src] E; try discriminate; cbn [nth_error] in E; [injection E as <-; reflexivity|]; rewrite firstn_cons, (IH _ E); reflexivity).
    rewrite E1, <- app_assoc. f_equal. unfold splice. rewrite skipn_app. rewrite skipn_all2 by (rewrite firstn_length; lia). rewrite firstn_length, Nat.min_l by lia. rewrite Nat.sub_diag. cbn [length]. replace (n + 1)%nat with (S n) by lia. reflexivity. }
  rewrite G by (unfold zlen in H; lia). f_equal. rewrite skipn_all, app_nil_r. apply firstn_all2. unfold zlen in H. lia.
Qed.

(** ** Texts *)
Lemma char_over length t : 2 <= zlen t <= length -> char_of_text length t = UB /\ varchar_of_text length t = UB.
Proof.
  intros H. unfold char_of_text, varchar_of_text. rewrite Z.min_l by lia. unfold rdn. rewrite zlen_app. change (zlen [0]) with 1. destruct (Z.ltb_spec (zlen t + 1) (0 + 2 * zlen t)); [|lia]. rewrite !orb_true_r. split; reflexivity.
Qed.
Lemma char_long length t : 0 < length -> 2 * length <= zlen t -> char_of_text length t = Ok (firstn (Z.to_nat (2 * length)) t).
Proof.
  intros H1 H2. unfold char_of_text. rewrite Z.min_r by lia. rewrite rdn_ok by (rewrite ?zlen_app; change (zlen [0]) with 1; lia). cbn [rbind]. rewrite Z.sub_diag. change (blanks 0) with (@nil Z). rewrite app_nil_r.
  change (Z.to_nat 0) with 0%nat. rewrite sub_0_firstn. f_equal. rewrite firstn_app. replace (Z.to_nat (2 * length) - Datatypes.length t)%nat with 0%nat by (unfold zlen in H2; lia). cbn [firstn]. apply app_nil_r.
Qed.
Lemma char_one length c : 0 < length -> char_of_text length [c] = Ok (utf16 [c] ++ blanks (length - 1)) /\ char_of_text length [] = Ok (blanks length).
Proof.
  intros H. unfold char_of_text. change (zlen [c]) with 1. change (zlen (@nil Z)) with 0. rewrite !Z.min_l by lia. split; [reflexivity|]. rewrite Z.sub_0_r. reflexivity.
Qed.
(** the hexadecimal digits of bytes *)
Lemma hex_back d : 0 <= d < 16 -> hex_digit (hex_char d) = d.
Proof.
  intros H. assert (A : forallb (fun d => hex_digit (hex_char d) =? d) (map Z.of_nat (seq 0 16)) = true) by reflexivity. rewrite forallb_forall in A.
  apply Z.eqb_eq, A. apply in_map_iff. exists (Z.to_nat d). split; [lia|]. apply in_seq. lia.
Qed.
Lemma hex_table d : 0 <= d < 16 -> nth (Z.to_nat d) [48; 49; 50; 51; 52; 53; 54; 55; 56; 57; 97; 98; 99; 100; 101; 102] 0 = hex_char d.
Proof.
  intros H. assert (A : forallb (fun d => nth (Z.to_nat d) [48; 49; 50; 51; 52; 53; 54; 55; 56; 57; 97; 98; 99; 100; 101; 102] 0 =? hex_char d) (map Z.of_nat (seq 0 16)) = true) by reflexivity. rewrite forallb_forall in A.
  apply Z.eqb_eq, A. apply in_map_iff. exists (Z.to_nat d). split; [lia|]. apply in_seq. lia.
Qed.
Lemma hex_text_chars bs : bytes_ok bs -> hex_text bs = map hex_char (nibs bs).
Proof. intros H. unfold hex_text. pose proof (nibs_nonneg bs H) as HN. induction HN as [|x l Hx HN IH]; [reflexivity|]. cbn [map]. now rewrite IH, hex_table. Qed.
Lemma text_of_bin_ok bs : bytes_ok bs -> text_of_bin bs = hex_text bs ++ [0; 0].
Proof.
  intros H. rewrite hex_text_chars by exact H. unfold text_of_bin, nibs. f_equal. induction H as [|b bs Hb H IH]; [reflexivity|]. unfold byte_ok in Hb. cbn [flat_map app map]. rewrite IH.
  destruct (byte_ops b 0 ltac:(lia) ltac:(lia)) as (E1 & _). rewrite E1. rewrite Z.shiftr_div_pow2 by lia. reflexivity.
Qed.
Lemma hex_loop_at t : forall n j, 0 <= j -> j + 2 * Z.of_nat n <= zlen t + 1 ->
  exists r, hex_loop n t j = Ok r /\ nibs r = map hex_digit (sub (t ++ [0]) (Z.to_nat j) (2 * n)).
Proof.
  assert (C : forall j, 0 <= j <= zlen t -> ch t j = Ok (nth (Z.to_nat j) (t ++ [0]) 0)).
  { intros j Hj. unfold ch. destruct (Z.eqb_spec j (zlen t)) as [E|E].
    - rewrite app_nth2 by (unfold zlen in E; lia). replace (Z.to_nat j - length t)%nat with 0%nat by (unfold zlen in E; lia). reflexivity.
    - rewrite app_nth1 by (unfold zlen in *; lia). apply rd_ok; [lia|]. apply nth_error_nth'. unfold zlen in *. lia. }
  assert (B : forall c, 0 <= hex_digit c < 16) by (intros c; unfold hex_digit; destruct (Z.leb_spec 48 c), (Z.leb_spec c 57), (Z.leb_spec 97 c), (Z.leb_spec c 102), (Z.leb_spec 65 c), (Z.leb_spec c 70); cbn [andb]; lia).
  induction n as [|n IH]; intros j Hj Hl; [exists []; split; [reflexivity|]; now rewrite sub_nil|]. cbn [hex_loop]. rewrite !C by lia. cbn [rbind].
  destruct (IH (j + 2) ltac:(lia) ltac:(lia)) as (r & -> & Er). cbn [rbind]. eexists. split; [reflexivity|]. unfold nibs. cbn [flat_map app]. fold (nibs r). rewrite Er.
  set (a := hex_digit (nth (Z.to_nat j) (t ++ [0]) 0)). set (b := hex_digit (nth (Z.to_nat (j + 1)) (t ++ [0]) 0)).
  assert (EV : Z.land (Z.shiftl a 4 + b) 255 = 16 * a + b). { rewrite Z.shiftl_mul_pow2 by lia. change 255 with (Z.ones 8). rewrite Z.land_ones by lia. assert (Ha : 0 <= a < 16) by apply B. assert (Hb : 0 <= b < 16) by apply B. rewrite Z.mod_small; [lia|]. change (2^8) with 256. change (2^4) with 16. lia. }
  rewrite EV. destruct (pair16 a b (B _) (B _)) as (P1 & P2 & _). rewrite P1, P2.
  assert (ES : sub (t ++ [0]) (Z.to_nat j) (2 * S n) = nth (Z.to_nat j) (t ++ [0]) 0 :: nth (Z.to_nat (j + 1)) (t ++ [0]) 0 :: sub (t ++ [0]) (Z.to_nat (j + 2)) (2 * n)).
  { assert (HL : (Z.to_nat j + 2 * S n <= length (t ++ [0%Z]))%nat) by (rewrite app_length; cbn [length]; unfold zlen in Hl; lia). unfold sub. replace (2 * S n)%nat with (S (S (2 * n))) by lia.
    assert (SK : forall i, (i < length (t ++ [0%Z]))%nat -> skipn i (t ++ [0]) = nth i (t ++ [0]) 0 :: skipn (S i) (t ++ [0])).
    { intros i Hi. clear - Hi. revert i Hi. induction (t ++ [0]) as [|x l IH]; intros [|i] Hi; cbn [length] in Hi; try lia; [reflexivity|]. cbn [skipn nth]. apply IH. lia. }
    rewrite (SK (Z.to_nat j)) by lia. rewrite (SK (S (Z.to_nat j))) by lia. cbn [firstn]. replace (Z.to_nat (j + 1)) with (S (Z.to_nat j)) by lia. replace (Z.to_nat (j + 2)) with (S (S (Z.to_nat j))) by lia. reflexivity. }
  rewrite ES. cbn [map]. reflexivity.
Qed.
(** the text of a binary value is read back shifted by one digit *)
Lemma bin_shift bs : bytes_ok bs -> bs <> [] -> exists r, bin_of_text (zlen bs) (hex_text bs) = Ok r /\ nibs r = tl (nibs bs) ++ [0].
Proof.
  intros Hok Hne. assert (Hl : length (hex_text bs) = (2 * length bs)%nat) by (unfold hex_text; rewrite map_length; apply nibs_length). unfold bin_of_text.
  assert (0 < zlen bs) by (destruct bs; [congruence|rewrite zlen_cons; pose proof (zlen_nonneg bs); lia]).
  destruct (Z.eqb_spec (zlen (hex_text bs)) 0); [unfold zlen in *; lia|]. destruct (Z.ltb_spec (zlen (hex_text bs)) (zlen bs * 2)); [unfold zlen in *; lia|]. cbn [orb].
  destruct (hex_loop_at (hex_text bs) (Z.to_nat (zlen bs)) 1 ltac:(lia) ltac:(unfold zlen in *; lia)) as (r & E1 & E2). exists r. split; [exact E1|]. rewrite E2. change (Z.to_nat 1) with 1%nat.
  rewrite hex_text_chars by exact Hok. destruct bs as [|b bs]; [congruence|]. unfold nibs at 1. cbn [flat_map app map]. fold (nibs bs). unfold sub. cbn [skipn]. rewrite firstn_all2 by (cbn [length]; rewrite app_length, map_length, nibs_length; cbn [length]; unfold zlen; cbn [length]; lia).
  rewrite app_comm_cons, map_app. cbn [map]. unfold nibs at 2. cbn [flat_map app tl]. fold (nibs bs).
  inversion Hok as [|? ? Hb Hbs]; subst. unfold byte_ok in Hb. destruct (div16 b ltac:(lia)) as (_ & B2 & _). rewrite hex_back by lia. f_equal. f_equal. rewrite map_map. 
  pose proof (nibs_nonneg bs Hbs) as HN. induction HN as [|x l Hx HN IH]; [reflexivity|]. cbn [map]. rewrite IH, hex_back by lia. reflexivity.
Qed.

(** variable-length fields *)
Lemma varchar_own length rec fr : 0 <= length < 2^15 -> 0 <= fr -> fr + type_size KVarchar length <= zlen rec ->
  let c := le_val (sub rec (Z.to_nat fr) 2) in 0 <= c <= length -> varchar_bytes length rec fr = Ok (sub rec (Z.to_nat (fr + 2)) (Z.to_nat (2 * c))).
Proof.
  intros HL Hf He c Hc. cbn [type_size] in *. unfold varchar_bytes. rewrite rdn_ok by lia. cbn [rbind]. change (Z.to_nat 2) with 2%nat. fold c.
  assert (E : i16 c = c) by (unfold i16; rewrite Z.mod_small by lia; lia). rewrite E. unfold u64. rewrite Z.mod_small by lia. cbn [type_size].
  destruct (Z.ltb_spec (length * 2 + 2) (c * 2)); [lia|]. rewrite rdn_ok by lia. do 2 f_equal. lia.
Qed.
Lemma varchar_over length rec fr : 0 <= length < 2^15 -> 0 <= fr -> fr + type_size KVarchar length + 2 <= zlen rec ->
  let c := le_val (sub rec (Z.to_nat fr) 2) in (length + 1 < c < 2^16) -> varchar_bytes length rec fr = Ok (sub rec (Z.to_nat (fr + 2)) (Z.to_nat (2 * length + 2))).
Proof.
  intros HL Hf He c Hc. cbn [type_size] in *. unfold varchar_bytes. rewrite rdn_ok by lia. cbn [rbind]. change (Z.to_nat 2) with 2%nat. fold c. cbn [type_size].
  assert (E : length * 2 + 2 < u64 (i16 c * 2)).
  { unfold u64, i16. destruct (Z.lt_ge_cases c (2^15)).
    - rewrite (Z.mod_small (c + 2^15)) by lia. replace (c + 2^15 - 2^15) with c by lia. rewrite Z.mod_small by lia. lia.
    - assert (M : (c + 2^15) mod 2^16 = c - 2^15) by (symmetry; apply (Z.mod_unique _ _ 1); lia). rewrite M. replace ((c - 2^15 - 2^15) * 2) with (2 * c - 2^17) by lia.
      assert (M2 : (2 * c - 2^17) mod 2^64 = 2 * c - 2^17 + 2^64) by (symmetry; apply (Z.mod_unique _ _ (-1)); lia). rewrite M2. lia. }
  destruct (Z.ltb_spec (length * 2 + 2) (u64 (i16 c * 2))); [|lia]. rewrite rdn_ok by lia. do 2 f_equal. lia.
Qed.
Lemma varchar_over_last length rec fr : 0 <= length < 2^15 -> 0 <= fr -> fr + type_size KVarchar length = zlen rec ->
  let c := le_val (sub rec (Z.to_nat fr) 2) in (length + 1 < c < 2^16) -> varchar_bytes length rec fr = UB.
Proof.
  intros HL Hf He c Hc. cbn [type_size] in *. unfold varchar_bytes. rewrite rdn_ok by lia. cbn [rbind]. change (Z.to_nat 2) with 2%nat. fold c. cbn [type_size].
  assert (E : length * 2 + 2 < u64 (i16 c * 2)).
  { unfold u64, i16. destruct (Z.lt_ge_cases c (2^15)).
    - rewrite (Z.mod_small (c + 2^15)) by lia. replace (c + 2^15 - 2^15) with c by lia. rewrite Z.mod_small by lia. lia.
    - assert (M : (c + 2^15) mod 2^16 = c - 2^15) by (symmetry; apply (Z.mod_unique _ _ 1); lia). rewrite M. replace ((c - 2^15 - 2^15) * 2) with (2 * c - 2^17) by lia.
      assert (M2 : (2 * c - 2^17) mod 2^64 = 2 * c - 2^17 + 2^64) by (symmetry; apply (Z.mod_unique _ _ (-1)); lia). rewrite M2. lia. }
  destruct (Z.ltb_spec (length * 2 + 2) (u64 (i16 c * 2))); [|lia]. unfold rdn. destruct (Z.ltb_spec (zlen rec) (fr + 2 + (length * 2 + 2))); [|lia]. rewrite orb_true_r. reflexivity.
Qed.

(** ** The same facts with the sizes of the specification *)
Lemma field_key_cmp_w : forall f a b ra rb ba bb,
  f_null f = false -> value_ok (f_kind f) (f_len f) a -> value_ok (f_kind f) (f_len f) b -> at_ ra (f_off f) a -> at_ rb (f_off f) b ->
  extent f <= zlen ba -> extent f <= zlen bb ->
  exists ka kb, field_key f ra 0 ba 0 (zlen ba) = Ok (ka ++ skipn (length ka) ba, extent f) /\ field_key f rb 0 bb 0 (zlen bb) = Ok (kb ++ skipn (length kb) bb, extent f) /\
    zlen ka = extent f /\ zlen kb = extent f /\ lex ka kb = value_cmp (f_kind f) (f_len f) a b.
Proof. intros; rewrite <- ?size_extent, <- ?type_width in *; eapply field_key_cmp; eassumption. Qed.
Lemma null_key_over_w : forall f rec buf, f_null f = true -> 0 <= f_off f -> rd rec (f_off f) = Ok 0 -> 1 < extent f <= 4096 -> zlen buf = extent f ->
  field_key f rec 0 buf 0 (zlen buf) = UB.
Proof. intros; rewrite <- ?size_extent, <- ?type_width in *; eapply null_key_over; eassumption. Qed.
Lemma null_key_w : forall f rec buf, f_null f = true -> 0 <= f_off f -> rd rec (f_off f) = Ok 0 -> 1 < extent f <= 4096 -> extent f < zlen buf ->
  field_key f rec 0 buf 0 (zlen buf) = Ok (0 :: 1 :: repeat 0 (Z.to_nat (extent f - 1)) ++ skipn (Z.to_nat (extent f + 1)) buf, 0).
Proof. intros; rewrite <- ?size_extent, <- ?type_width in *; eapply null_key; eassumption. Qed.
Lemma null_before_w : forall f rec0 rec1 a buf0 buf1, f_null f = true -> value_ok (f_kind f) (f_len f) a -> 0 <= f_off f -> rd rec0 (f_off f) = Ok 0 -> at_ rec1 (f_off f) (1 :: a) ->
  extent f <= 4096 -> extent f < zlen buf0 -> extent f <= zlen buf1 ->
  exists k0 k1 n0 n1, field_key f rec0 0 buf0 0 (zlen buf0) = Ok (k0, n0) /\ field_key f rec1 0 buf1 0 (zlen buf1) = Ok (k1, n1) /\ lex k0 k1 = Lt.
Proof. intros; rewrite <- ?size_extent, <- ?type_width in *; eapply null_before; eassumption. Qed.
Lemma set_order_w : forall f a b ra rb ba bb, f_null f = true -> value_ok (f_kind f) (f_len f) a -> value_ok (f_kind f) (f_len f) b -> 0 <= f_off f ->
  at_ ra (f_off f) (1 :: a) -> at_ rb (f_off f) (1 :: b) -> extent f <= zlen ba -> extent f <= zlen bb ->
  exists ka kb, field_key f ra 0 ba 0 (zlen ba) = Ok (ka ++ skipn (length ka) ba, extent f - 1) /\ field_key f rb 0 bb 0 (zlen bb) = Ok (kb ++ skipn (length kb) bb, extent f - 1) /\
    zlen ka = extent f /\ zlen kb = extent f /\ lex ka kb = value_cmp (f_kind f) (f_len f) a b.
Proof. intros; rewrite <- ?size_extent, <- ?type_width in *; eapply set_order; eassumption. Qed.
Lemma calc_one_w : forall f rec buf, f_null f = false -> (f_kind f = KBin \/ f_kind f = KDate \/ f_kind f = KBool) -> 0 <= f_off f -> 0 < extent f -> zlen buf = extent f ->
  calc_record_index [f] rec buf = rdn rec (2 * f_off f) (extent f).
Proof. intros; rewrite <- ?size_extent, <- ?type_width in *; eapply calc_one; eassumption. Qed.
Lemma calc_ignores_w : forall f rec buf d, f_null f = false -> 0 <= f_off f -> zlen d = extent f -> extent f <= f_off f -> f_off f + extent f <= zlen rec ->
  calc_record_index [f] (splice rec (Z.to_nat (f_off f)) d) buf = calc_record_index [f] rec buf.
Proof. intros; rewrite <- ?size_extent, <- ?type_width in *; eapply calc_ignores; eassumption. Qed.
Lemma layout_ok_w : forall fs fs' L, Forall (fun f => 0 < extent f) fs -> layout (length fs) fs = (fs', L) ->
  Forall2 same_decl fs fs' /\ L = Z.max 5 (1 + total fs) /\
  Forall (fun f => 1 <= f_off f /\ f_end f <= 1 + total fs) fs' /\
  (forall i j f g, i <> j -> nth_error fs' i = Some f -> nth_error fs' j = Some g -> f_end f <= f_off g \/ f_end g <= f_off f) /\
  (forall x, 1 <= x < 1 + total fs -> exists f, In f fs' /\ inside f x) /\
  (forall f g, In f fs' -> In g fs' -> is_version (f_kind f) = true -> is_version (f_kind g) = false -> f_end f <= f_off g).
Proof. intros fs fs' L H. apply layout_ok. revert H. apply Forall_impl. intros f Hf. now rewrite size_extent. Qed.
Lemma set_data_ok_w : forall f d rec, f_null f = false -> 0 <= f_off f -> f_end f <= zlen rec -> zlen d = extent f ->
  exists rec', set_data f d rec = Ok rec' /\ zlen rec' = zlen rec /\ get_value f rec' = Ok d /\ is_null f rec' = Ok false /\
    (forall g, apart f g -> 0 <= width (f_kind g) (f_len g) -> get_value g rec' = get_value g rec /\ is_null g rec' = is_null g rec).
Proof. intros f d rec H1 H2 H3 H4. rewrite <- size_extent in H4. destruct (set_data_ok f d rec H1 H2 H3 H4) as (r & A & B & C & D & E). exists r. repeat (split; [assumption|]). intros g G1 G2. apply E; [exact G1|]. now rewrite type_width. Qed.
Lemma set_null_ok_w : forall f rec, f_null f = true -> 0 <= f_off f -> f_end f <= zlen rec -> 0 <= width (f_kind f) (f_len f) ->
  exists rec', set_null f rec = Ok rec' /\ zlen rec' = zlen rec /\ is_null f rec' = Ok true /\ get_value f rec' = get_value f rec /\
    (forall g, apart f g -> 0 <= width (f_kind g) (f_len g) -> get_value g rec' = get_value g rec /\ is_null g rec' = is_null g rec).
Proof. intros f rec H1 H2 H3 H4. rewrite <- type_width in H4. destruct (set_null_ok f rec H1 H2 H3 H4) as (r & A & B & C & D & E). exists r. repeat (split; [assumption|]). intros g G1 G2. apply E; [exact G1|]. now rewrite type_width. Qed.
Lemma set_nullable_w : forall f d x rec, f_null f = true -> 0 <= f_off f -> f_end f < zlen rec -> 0 <= width (f_kind f) (f_len f) -> zlen d = width (f_kind f) (f_len f) ->
  exists rec', set_data f (d ++ [x]) rec = Ok rec' /\ get_value f rec' = Ok d /\ is_null f rec' = Ok false /\ rd rec' (f_end f) = Ok x.
Proof. intros; rewrite <- ?size_extent, <- ?type_width in *; eapply set_nullable; eassumption. Qed.
Lemma set_nullable_source_w : forall f d rec, f_null f = true -> 0 <= f_off f -> f_end f <= zlen rec -> 0 <= width (f_kind f) (f_len f) -> zlen d = width (f_kind f) (f_len f) -> set_data f d rec = UB.
Proof. intros; rewrite <- ?size_extent, <- ?type_width in *; eapply set_nullable_source; eassumption. Qed.
Lemma set_nullable_last_w : forall f d rec, f_null f = true -> 0 <= f_off f -> f_end f = zlen rec -> 0 <= width (f_kind f) (f_len f) -> set_data f d rec = UB.
Proof. intros; rewrite <- ?size_extent, <- ?type_width in *; eapply set_nullable_last; eassumption. Qed.
Lemma varchar_own_w : forall length rec fr, 0 <= length < 2^15 -> 0 <= fr -> fr + width KVarchar length <= zlen rec ->
  let c := le_val (sub rec (Z.to_nat fr) 2) in 0 <= c <= length -> varchar_bytes length rec fr = Ok (sub rec (Z.to_nat (fr + 2)) (Z.to_nat (2 * c))).
Proof. intros; rewrite <- ?size_extent, <- ?type_width in *; eapply varchar_own; eassumption. Qed.
Lemma varchar_over_w : forall length rec fr, 0 <= length < 2^15 -> 0 <= fr -> fr + width KVarchar length + 2 <= zlen rec ->
  let c := le_val (sub rec (Z.to_nat fr) 2) in (length + 1 < c < 2^16) -> varchar_bytes length rec fr = Ok (sub rec (Z.to_nat (fr + 2)) (Z.to_nat (2 * length + 2))).
Proof. intros; rewrite <- ?size_extent, <- ?type_width in *; eapply varchar_over; eassumption. Qed.
Lemma varchar_over_last_w : forall length rec fr, 0 <= length < 2^15 -> 0 <= fr -> fr + width KVarchar length = zlen rec ->
  let c := le_val (sub rec (Z.to_nat fr) 2) in (length + 1 < c < 2^16) -> varchar_bytes length rec fr = UB.
Proof. intros; rewrite <- ?size_extent, <- ?type_width in *; eapply varchar_over_last; eassumption. Qed.
