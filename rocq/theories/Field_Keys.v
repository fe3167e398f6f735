(** Index keys order like the values. *)
From Verif Require Import Prelude Lists Field_Model Field_Spec.
Ltac Zify.zify_post_hook ::= idtac.

Lemma app_inj_length {A} (a : list A) : forall b c d, length a = length b -> a ++ c = b ++ d -> a = b /\ c = d.
Proof.
  induction a as [|x a IH]; intros [|y b] c d H E; cbn [length] in H; try lia; [auto|]. cbn [app] in E. injection E as -> E. destruct (IH b c d ltac:(lia) E) as [-> ->]. auto.
Qed.
Lemma rev_repeat {A} (x : A) n : rev (repeat x n) = repeat x n.
Proof.
  induction n as [|n IH]; [reflexivity|]. cbn [repeat rev]. rewrite IH. clear IH. induction n as [|n IH]; [reflexivity|]. cbn [repeat app]. now rewrite IH.
Qed.
Lemma nth_error_skipn {A} (l : list A) n i : nth_error (skipn n l) i = nth_error l (n + i).
Proof. revert l. induction n as [|n IH]; intros [|x l]; cbn [skipn Nat.add nth_error]; auto. now destruct i. Qed.
Lemma skipn_skipn_add {A} (l : list A) m n : skipn m (skipn n l) = skipn (m + n) l.
Proof. revert l. induction n as [|n IH]; intros l; [now rewrite Nat.add_0_r|]. rewrite Nat.add_succ_r. destruct l; cbn [skipn]; [apply skipn_nil|apply IH]. Qed.
Lemma wrn_ok {A} (l : list A) i d : 0 <= i -> i + zlen d <= zlen l -> wrn l i d = Ok (splice l (Z.to_nat i) d).
Proof. intros H1 H2. unfold wrn. destruct (Z.ltb_spec i 0); [lia|]. destruct (Z.ltb_spec (zlen l) (i + zlen d)); [lia|]. reflexivity. Qed.
Lemma rdn_some {A} (l : list A) i n x : rdn l i n = Ok x -> 0 <= i /\ 0 <= n /\ i + n <= zlen l /\ x = sub l (Z.to_nat i) (Z.to_nat n).
Proof.
  unfold rdn. destruct (Z.ltb_spec i 0); [discriminate|]. destruct (Z.ltb_spec n 0); [discriminate|]. destruct (Z.ltb_spec (zlen l) (i + n)); [discriminate|].
  cbn [orb]. intros E. injection E as <-. repeat apply conj; try lia. reflexivity.
Qed.

(** ** Lexicographic order *)
Lemma lex_refl a : lex a a = Eq.
Proof. induction a as [|x a IH]; [reflexivity|]. cbn [lex]. rewrite Z.compare_refl. exact IH. Qed.
Lemma lex_app a : forall b c d, length a = length b -> lex (a ++ c) (b ++ d) = match lex a b with Eq => lex c d | r => r end.
Proof.
  induction a as [|x a IH]; intros [|y b] c d H; cbn [length] in H; try lia; [reflexivity|]. cbn [app lex]. rewrite IH by lia.
  destruct (x ?= y); reflexivity.
Qed.
Lemma div16 b : 0 <= b < 256 -> 0 <= b / 16 < 16 /\ 0 <= b mod 16 < 16 /\ b = 16 * (b / 16) + b mod 16.
Proof.
  intros H. pose proof (Z.div_mod b 16 ltac:(lia)). pose proof (Z.mod_pos_bound b 16 ltac:(lia)). lia.
Qed.
Lemma lex_nibs a : forall b, bytes_ok a -> bytes_ok b -> length a = length b -> lex (nibs a) (nibs b) = lex a b.
Proof.
  induction a as [|x a IH]; intros [|y b] Ha Hb H; cbn [length] in H; try lia; [reflexivity|]. inversion Ha as [|? ? Hx Ha']; inversion Hb as [|? ? Hy Hb']; subst.
  unfold nibs. cbn [flat_map app]. fold (nibs a) (nibs b). cbn [lex]. rewrite IH by (auto; lia). unfold byte_ok in *.
  destruct (div16 x ltac:(lia)) as (X1 & X2 & X3). destruct (div16 y ltac:(lia)) as (Y1 & Y2 & Y3).
  set (xh := x / 16) in *. set (xl := x mod 16) in *. set (yh := y / 16) in *. set (yl := y mod 16) in *. clearbody xh xl yh yl. subst x y.
  destruct (Z.compare_spec xh yh); destruct (Z.compare_spec xl yl); destruct (Z.compare_spec (16 * xh + xl) (16 * yh + yl)); try reflexivity; lia.
Qed.
Lemma dec_app ds d : dec (ds ++ [d]) = 10 * dec ds + d.
Proof. unfold dec. rewrite fold_left_app. reflexivity. Qed.
Lemma dec_acc ds : forall a, fold_left (fun a d => 10 * a + d) ds a = 10 ^ zlen ds * a + dec ds.
Proof.
  induction ds as [|d ds IH]; intros a; cbn [fold_left]; [change (10 ^ zlen (@nil Z)) with 1; unfold dec; cbn [fold_left]; lia|].
  rewrite IH. unfold dec at 2. cbn [fold_left]. rewrite (IH (10 * 0 + d)). rewrite zlen_cons, Z.pow_add_r by (pose proof (zlen_nonneg ds); lia). nia.
Qed.
Lemma dec_cons d ds : dec (d :: ds) = 10 ^ zlen ds * d + dec ds.
Proof. unfold dec at 1. cbn [fold_left]. rewrite dec_acc. lia. Qed.
Lemma dec_bound ds : Forall (fun d => 0 <= d <= 9) ds -> 0 <= dec ds < 10 ^ zlen ds.
Proof.
  induction ds as [|d ds IH]; intros H; [unfold dec; cbn; lia|]. inversion H as [|? ? Hd Hds]; subst. specialize (IH Hds). rewrite dec_cons, zlen_cons, Z.pow_add_r by (pose proof (zlen_nonneg ds); lia). nia.
Qed.
Lemma lex_dec a : forall b, Forall (fun d => 0 <= d <= 9) a -> Forall (fun d => 0 <= d <= 9) b -> length a = length b -> lex a b = (dec a ?= dec b).
Proof.
  induction a as [|x a IH]; intros [|y b] Ha Hb H; cbn [length] in H; try lia; [reflexivity|]. inversion Ha as [|? ? Hx Ha']; inversion Hb as [|? ? Hy Hb']; subst.
  cbn [lex]. rewrite IH by (auto; lia). rewrite !dec_cons. pose proof (dec_bound a Ha') as BA. pose proof (dec_bound b Hb') as BB.
  replace (zlen b) with (zlen a) in * by (unfold zlen; lia). set (t := 10 ^ zlen a) in *. clearbody t.
  destruct (Z.compare_spec x y) as [E|E|E].
  - subst y. destruct (Z.compare_spec (dec a) (dec b)); destruct (Z.compare_spec (t * x + dec a) (t * x + dec b)); try reflexivity; lia.
  - symmetry. apply Z.compare_lt_iff. nia.
  - symmetry. apply Z.compare_gt_iff. nia.
Qed.

(** ** The ten's complement *)
Definition ten (c : Z) (k : bool) : Z * bool := if k then (9 - c, true) else if c =? 0 then (c, false) else (10 - c, true).
Fixpoint tens (l : list Z) (k : bool) : list Z * bool :=
  match l with [] => ([], k) | c :: r => let '(c', k') := ten c k in let '(r', k'') := tens r k' in (c' :: r', k'') end.
(** decimal value, least significant digit first *)
Fixpoint ldec (l : list Z) : Z := match l with [] => 0 | d :: r => d + 10 * ldec r end.
Lemma dec_rev l : dec (rev l) = ldec l.
Proof. induction l as [|d l IH]; [reflexivity|]. cbn [rev ldec]. rewrite dec_app, IH. lia. Qed.
Lemma tens_true l : Forall (fun d => 0 <= d <= 9) l -> snd (tens l true) = true /\ ldec (fst (tens l true)) = 10 ^ zlen l - 1 - ldec l /\ Forall (fun d => 0 <= d <= 9) (fst (tens l true)) /\ length (fst (tens l true)) = length l.
Proof.
  induction l as [|d l IH]; intros H; [cbn; repeat split; constructor|]. inversion H as [|? ? Hd Hl]; subst. cbn [tens ten]. destruct (IH Hl) as (I1 & I2 & I3 & I4).
  destruct (tens l true) as [r k]. cbn [fst snd] in *. repeat apply conj; [exact I1| |constructor; [lia|exact I3]|cbn [length]; lia].
  cbn [ldec]. rewrite I2, zlen_cons, Z.pow_add_r by (pose proof (zlen_nonneg l); lia). lia.
Qed.
Lemma tens_false l : Forall (fun d => 0 <= d <= 9) l -> Forall (fun d => 0 <= d <= 9) (fst (tens l false)) /\ length (fst (tens l false)) = length l /\
  (if snd (tens l false) then 0 < ldec l /\ ldec (fst (tens l false)) = 10 ^ zlen l - ldec l else ldec l = 0 /\ fst (tens l false) = l /\ l = repeat 0 (length l)).
Proof.
  induction l as [|d l IH]; intros H; [cbn; repeat split; constructor|]. inversion H as [|? ? Hd Hl]; subst. cbn [tens ten]. destruct (Z.eqb_spec d 0) as [E|E].
  - subst d. destruct (IH Hl) as (I1 & I2 & I3). destruct (tens l false) as [r k]. cbn [fst snd] in *. split; [constructor; [lia|exact I1]|]. split; [cbn [length]; lia|].
    destruct k; cbn [ldec].
    + rewrite (proj2 I3), zlen_cons, Z.pow_add_r by (pose proof (zlen_nonneg l); lia). lia.
    + destruct I3 as (J1 & J2 & J3). split; [lia|]. split; [now rewrite J2|]. cbn [length repeat]. now rewrite <- J3.
  - destruct (tens_true l Hl) as (I1 & I2 & I3 & I4). destruct (tens l true) as [r k]. cbn [fst snd] in *. subst k. split; [constructor; [lia|exact I3]|]. split; [cbn [length]; lia|].
    cbn [ldec]. assert (0 <= ldec l) by (rewrite <- (rev_involutive l), <- dec_rev, rev_involutive; apply dec_bound, Forall_rev, Hl).
    rewrite I2, zlen_cons, Z.pow_add_r by (pose proof (zlen_nonneg l); lia). lia.
Qed.

(** half bytes of a byte *)
Lemma byte_ops b c : 0 <= b < 256 -> 0 <= c < 16 -> Z.land b 15 = b mod 16 /\ Z.land (Z.shiftr b 4) 15 = b / 16 /\ Z.lor (Z.land b 240) c = 16 * (b / 16) + c /\
  Z.lor (Z.land b 15) (Z.shiftl c 4) mod 256 = 16 * c + b mod 16.
Proof.
  intros Hb Hc.
  assert (A : forallb (fun b => forallb (fun c => (Z.land b 15 =? b mod 16) && (Z.land (Z.shiftr b 4) 15 =? b / 16) && (Z.lor (Z.land b 240) c =? 16 * (b / 16) + c) &&
     (Z.lor (Z.land b 15) (Z.shiftl c 4) mod 256 =? 16 * c + b mod 16)) (map Z.of_nat (seq 0 16))) (map Z.of_nat (seq 0 256)) = true) by (vm_compute; reflexivity).
  rewrite forallb_forall in A. specialize (A b). rewrite forallb_forall in A. specialize (A ltac:(apply in_map_iff; exists (Z.to_nat b); split; [lia|apply in_seq; lia]) c).
  specialize (A ltac:(apply in_map_iff; exists (Z.to_nat c); split; [lia|apply in_seq; lia])).
  apply andb_true_iff in A. destruct A as [A A4]. apply andb_true_iff in A. destruct A as [A A3]. apply andb_true_iff in A. destruct A as [A1 A2].
  apply Z.eqb_eq in A1, A2, A3, A4. repeat split; assumption.
Qed.
Lemma nibs_app a b : nibs (a ++ b) = nibs a ++ nibs b.
Proof. unfold nibs. apply flat_map_app. Qed.
Lemma nibs_length a : length (nibs a) = (2 * length a)%nat.
Proof. induction a as [|x a IH]; [reflexivity|]. unfold nibs in *. cbn [flat_map app length]. lia. Qed.
Lemma pair16 h l : 0 <= h < 16 -> 0 <= l < 16 -> (16 * h + l) / 16 = h /\ (16 * h + l) mod 16 = l /\ 0 <= 16 * h + l < 256.
Proof.
  intros Hh Hl. split; [|split; [|lia]]; symmetry; [apply (Z.div_unique _ _ _ l)|apply (Z.mod_unique _ _ h)]; lia.
Qed.

Lemma comp_loop_ok i : forall nb k pre rest, bytes_ok nb -> nibs nb = pre ++ rest -> length pre = S i -> Forall (fun d => 0 <= d <= 9) (tl pre) ->
  exists nb', comp_loop i nb k = Ok (nb', snd (tens (rev (tl pre)) k)) /\ bytes_ok nb' /\ length nb' = length nb /\
    nibs nb' = hd 0 pre :: rev (fst (tens (rev (tl pre)) k)) ++ rest.
Proof.
  induction i as [|i IH]; intros nb k pre rest Hok Hn Hp Hd.
  { destruct pre as [|s [|? ?]]; cbn [length] in Hp; try lia. exists nb. cbn [tl rev tens fst snd comp_loop hd]. repeat split; auto. }
  assert (HS : exists pre0 d, pre = pre0 ++ [d]) by (destruct (exists_last (l := pre)) as (p & d & E); [intros ->; discriminate|exists p, d; exact E]).
  destruct HS as (pre0 & d & ->). rewrite app_length in Hp. cbn [length] in Hp. assert (Hp0 : length pre0 = S i) by lia. clear Hp.
  destruct pre0 as [|s ds]; [discriminate|]. cbn [app tl hd] in Hd |- *. rewrite rev_app_distr. cbn [rev app tens].
  apply Forall_app in Hd. destruct Hd as [Hds Hd]. inversion Hd as [|? ? Hd0 _]; subst.
  cbn [comp_loop]. set (q := Nat.div2 (S i)). assert (Hdiv : (2 * q <= S i <= 2 * q + 1)%nat) by (unfold q; pose proof (Nat.div2_odd (S i)); destruct (Nat.odd (S i)); cbn [Nat.b2n] in *; lia).
  assert (Hodd : Nat.odd (S i) = negb (S i =? 2 * q)%nat).
  { pose proof (Nat.div2_odd (S i)) as E. fold q in E. destruct (Nat.odd (S i)); cbn [Nat.b2n] in E; destruct (Nat.eqb_spec (S i) (2 * q)); cbn; try reflexivity; lia. }
  assert (Hlen : (2 * length nb = S (S i) + length rest)%nat) by (rewrite <- nibs_length, Hn, !app_length, Hp0; cbn [length]; lia).
  destruct (nth_error nb q) as [b|] eqn:Eb. 2:{ apply nth_error_None in Eb. lia. }
  destruct (nth_error_split _ _ Eb) as (A & C & EA & HA). rewrite (rd_ok nb (Z.of_nat q) b) by (rewrite ?Nat2Z.id; auto; lia). cbn [rbind].
  assert (Hb : 0 <= b < 256). { apply (proj1 (Forall_forall _ _) Hok). rewrite EA. apply in_app_iff. right. left. reflexivity. }
  destruct (div16 b Hb) as (B1 & B2 & B3).
  assert (HN : nibs A ++ [b / 16; b mod 16] ++ nibs C = (s :: ds) ++ [d] ++ rest). { rewrite app_assoc. transitivity (nibs nb); [rewrite EA, nibs_app, <- app_assoc; reflexivity|]. rewrite Hn, <- app_assoc. reflexivity. }
  assert (HAl : length (nibs A) = (2 * q)%nat) by (rewrite nibs_length; lia).
  assert (Hc : (if Nat.odd (S i) then Z.land b 15 else Z.land (Z.shiftr b 4) 15) = d /\
    forall c, 0 <= c <= 9 -> exists b', (if Nat.odd (S i) then Z.lor (Z.land b 240) c else Z.lor (Z.land b 15) (Z.shiftl c 4) mod 256) = b' /\ 0 <= b' < 256 /\
      nibs (A ++ b' :: C) = (s :: ds) ++ c :: rest).
  { destruct (byte_ops b 0 Hb ltac:(lia)) as (O1 & O2 & _). rewrite Hodd. destruct (Nat.eqb_spec (S i) (2 * q)) as [E|E]; cbn [negb].
    - assert (EN : nibs A = s :: ds /\ [b / 16; b mod 16] ++ nibs C = [d] ++ rest) by (apply app_inj_length; [rewrite HAl; cbn [length] in Hp0 |- *; lia|exact HN]).
      destruct EN as [EN1 EN2]. cbn [app] in EN2. injection EN2 as ED ER. split; [rewrite O2; exact ED|]. intros c Hc. destruct (byte_ops b c Hb ltac:(lia)) as (_ & _ & _ & O4).
      destruct (pair16 c (b mod 16) ltac:(lia) B2) as (P1 & P2 & P3). exists (16 * c + b mod 16). split; [exact O4|]. split; [exact P3|].
      rewrite nibs_app. unfold nibs at 2. cbn [flat_map app]. fold (nibs C). rewrite P1, P2, EN1, <- ER. reflexivity.
    - assert (EN : nibs A ++ [b / 16] = s :: ds /\ (b mod 16) :: nibs C = [d] ++ rest).
      { apply app_inj_length; [rewrite app_length, HAl; cbn [length] in Hp0 |- *; lia|]. rewrite <- app_assoc. exact HN. }
      destruct EN as [EN1 EN2]. cbn [app] in EN2. injection EN2 as ED ER. split; [rewrite O1; exact ED|]. intros c Hc. destruct (byte_ops b c Hb ltac:(lia)) as (_ & _ & O3 & _).
      destruct (pair16 (b / 16) c B1 ltac:(lia)) as (P1 & P2 & P3). exists (16 * (b / 16) + c). split; [exact O3|]. split; [exact P3|].
      rewrite <- EN1, <- ER, nibs_app, <- app_assoc. unfold nibs at 2. cbn [flat_map app]. fold (nibs C). rewrite P1, P2. reflexivity. }
  destruct Hc as [Hc1 Hc2]. rewrite Hc1.
  assert (Hten : (if k then ((9 - d) mod 256, true) else if d =? 0 then (d, false) else ((10 - d) mod 256, true)) = ten d k /\ 0 <= fst (ten d k) <= 9).
  { unfold ten. destruct k; [rewrite Z.mod_small by lia; split; [reflexivity|cbn [fst]; lia]|]. destruct (Z.eqb_spec d 0); [split; [reflexivity|cbn [fst]; lia]|]. rewrite Z.mod_small by lia. split; [reflexivity|cbn [fst]; lia]. }
  destruct Hten as [-> Ht]. destruct (ten d k) as [c k1]. cbn [fst] in Ht. destruct (Hc2 c Ht) as (b' & -> & Hb' & Hnb). clear Hc1 Hc2.
  assert (EW : wrn nb (Z.of_nat q) [b'] = Ok (A ++ b' :: C)).
  { rewrite wrn_ok by (unfold zlen; cbn [length]; lia). rewrite Nat2Z.id. f_equal. rewrite EA. unfold splice. rewrite <- HA, firstn_app, firstn_all, Nat.sub_diag. cbn [firstn]. rewrite app_nil_r. f_equal.
    cbn [length app]. f_equal. rewrite skipn_app. rewrite skipn_all2 by lia. replace (length A + 1 - length A)%nat with 1%nat by lia. reflexivity. }
  rewrite EW. cbn [rbind].
  assert (Hok' : bytes_ok (A ++ b' :: C)). { rewrite EA in Hok. apply Forall_app in Hok. destruct Hok as [HokA HokC]. inversion HokC; subst. apply Forall_app. split; [exact HokA|]. constructor; [exact Hb'|assumption]. }
  destruct (IH (A ++ b' :: C) k1 (s :: ds) (c :: rest) Hok' Hnb Hp0 Hds) as (nb' & E1 & E2 & E3 & E4). cbn [tl hd] in *.
  exists nb'. destruct (tens (rev ds) k1) as [r k2]. cbn [fst snd] in *. repeat apply conj; [exact E1|exact E2| |].
  - rewrite E3, EA, !app_length. reflexivity.
  - rewrite E4. cbn [rev]. rewrite <- app_assoc. reflexivity.
Qed.

Lemma nibs_nonneg bs : bytes_ok bs -> Forall (fun d => 0 <= d < 16) (nibs bs).
Proof.
  induction bs as [|b bs IH]; intros H; [constructor|]. inversion H as [|? ? Hb Hbs]; subst. unfold nibs. cbn [flat_map app]. unfold byte_ok in Hb. destruct (div16 b ltac:(lia)) as (B1 & B2 & _).
  repeat constructor; try lia. apply IH, Hbs.
Qed.
Lemma num_key_ok L bs : (0 < L)%nat -> num_ok L bs -> exists key s ds, num_key (Z.of_nat L) bs = Ok key /\ bytes_ok key /\ length key = length bs /\
  nibs key = (s :: ds) ++ repeat 0 (2 * length bs - S L) /\ length ds = L /\ Forall (fun d => 0 <= d <= 9) (s :: ds) /\ dec (s :: ds) = 10 ^ Z.of_nat L + num_value L bs.
Proof.
  intros HL (Hok & Hlen & Hd & Hs & Hpad). pose proof (nibs_nonneg bs Hok) as Hnn. pose proof (nibs_length bs) as Hnl.
  assert (Hl2 : (S L <= 2 * length bs)%nat). { rewrite Hlen. pose proof (Nat.div2_odd (L + 2)). destruct (Nat.odd (L + 2)); cbn [Nat.b2n] in *; lia. }
  assert (HN : nibs bs = firstn (S L) (nibs bs) ++ repeat 0 (2 * length bs - S L)) by (rewrite <- Hpad; symmetry; apply firstn_skipn).
  set (pre := firstn (S L) (nibs bs)) in *. assert (Hpl : length pre = S L) by (unfold pre; rewrite firstn_length; lia).
  assert (Hpd : Forall (fun d => 0 <= d <= 9) pre). { unfold pre. apply Forall_forall. intros x Hx. rewrite Forall_forall in Hd, Hnn. assert (Hx' : In x (nibs bs)) by (rewrite <- (firstn_skipn (S L)); apply in_app_iff; left; exact Hx). clear Hx. rename Hx' into Hx. specialize (Hd x Hx). specialize (Hnn x Hx). lia. }
  assert (Hv : num_value L bs = (let v := dec (tl pre) in if hd 0 pre =? 0 then - v else v)).
  { unfold num_value. destruct (nibs bs) as [|s r]; [cbn [length] in Hnl; lia|]. unfold pre. cbn [hd tl firstn]. reflexivity. }
  assert (Hhd : hd 0 (nibs bs) = hd 0 pre) by (unfold pre; destruct (nibs bs); reflexivity). rewrite Hhd in Hs.
  clearbody pre. destruct pre as [|s ds]; [discriminate|]. cbn [hd tl length] in *. inversion Hpd as [|? ? Hs0 Hds]; subst x l. assert (Hdl : length ds = L) by lia.
  destruct bs as [|b0 bs']; [cbn [length] in Hl2; lia|]. assert (Eb0 : b0 / 16 = s) by (unfold nibs in HN; cbn [flat_map app] in HN; congruence).
  inversion Hok as [|? ? Hb0 Hbs']; subst x l. unfold byte_ok in Hb0. destruct (div16 b0 ltac:(lia)) as (B1 & B2 & B3).
  unfold num_key. rewrite (rd_ok (b0 :: bs') 0 b0) by (try lia; reflexivity). cbn [rbind].
  assert (ES : Z.land b0 240 = 16 * s). { destruct (byte_ops b0 0 ltac:(lia) ltac:(lia)) as (_ & _ & O3 & _). rewrite Z.lor_0_r in O3. lia. }
  rewrite ES. destruct (Z.eqb_spec (16 * s) 0) as [E|E].
  - assert (s = 0) by lia. destruct (comp_loop_ok L (b0 :: bs') false (s :: ds) _ Hok HN Hpl Hds) as (nb & E1 & E2 & E3 & E4). cbn [tl hd] in *.
    rewrite Nat2Z.id. rewrite E1. cbn [rbind fst snd]. destruct (tens_false (rev ds) (Forall_rev Hds)) as (T1 & T2 & T3). destruct (tens (rev ds) false) as [r kk]. cbn [fst snd] in *.
    assert (Hds2 : ldec (rev ds) = dec ds) by (rewrite <- dec_rev, rev_involutive; reflexivity). rewrite rev_length in T2. assert (Hz : zlen (rev ds) = Z.of_nat L) by (unfold zlen; rewrite rev_length; lia).
    destruct kk.
    + exists nb, s, (rev r). split; [reflexivity|]. split; [exact E2|]. split; [exact E3|]. split; [exact E4|]. split; [rewrite rev_length; lia|]. split; [constructor; [lia|apply Forall_rev, T1]|].
      rewrite dec_cons, dec_rev, Hv. destruct (Z.eqb_spec s 0); [|lia]. subst s. rewrite Hz in T3. lia.
    + destruct T3 as (T3 & T4 & T5). rewrite T4, rev_involutive in E4.
      assert (Eds : ds = repeat 0 L). { rewrite <- (rev_involutive ds), T5, rev_repeat, rev_length, Hdl. reflexivity. }
      destruct nb as [|n0 nb']; [cbn [length] in E3; lia|]. assert (EN0 : n0 / 16 = 0 /\ n0 mod 16 = 0 /\ nibs nb' = tl ds ++ repeat 0 (2 * length (b0 :: bs') - S L)).
      { unfold nibs in E4. cbn [flat_map app] in E4. fold (nibs nb') in E4. destruct L as [|L']; [lia|]. rewrite Eds in E4 |- *. cbn [repeat app tl] in *. injection E4 as X1 X2 X3. repeat split; auto; congruence. }
      destruct EN0 as (N1 & N2 & N3). rewrite wrn_ok by (unfold zlen; cbn [length]; lia). change (Z.to_nat 0) with 0%nat.
      exists (16 :: nb'), 1, ds. split; [reflexivity|]. inversion_clear E2 as [|? ? _ Hnb2]. split; [constructor; [unfold byte_ok; lia|exact Hnb2]|]. split; [exact E3|].
      split; [unfold nibs; cbn [flat_map app]; fold (nibs nb'); rewrite N3; destruct L as [|L']; [lia|]; rewrite Eds; cbn [repeat tl app]; reflexivity|].
      split; [exact Hdl|]. split; [constructor; [lia|exact Hds]|]. rewrite dec_cons, Hv. cbv zeta. destruct (Z.eqb_spec s 0); [|lia]. rewrite <- Hds2, T3. unfold zlen. rewrite Hdl. lia.
  - assert (s = 1) by lia. exists (b0 :: bs'), s, ds. split; [reflexivity|]. split; [exact Hok|]. split; [reflexivity|]. split; [exact HN|]. split; [exact Hdl|]. split; [exact Hpd|].
    rewrite dec_cons, Hv. cbv zeta. destruct (Z.eqb_spec s 0); [lia|]. unfold zlen. rewrite Hdl. nia.
Qed.
Lemma num_key_cmp L a b : (0 < L)%nat -> num_ok L a -> num_ok L b -> exists ka kb, num_key (Z.of_nat L) a = Ok ka /\ num_key (Z.of_nat L) b = Ok kb /\ length ka = length a /\ length kb = length b /\
  lex ka kb = (num_value L a ?= num_value L b).
Proof.
  intros HL Ha Hb. destruct (num_key_ok L a HL Ha) as (ka & s & ds & A1 & A2 & A3 & A4 & A5 & A6 & A7). destruct (num_key_ok L b HL Hb) as (kb & t & es & B1 & B2 & B3 & B4 & B5 & B6 & B7).
  assert (El : length a = length b) by (destruct Ha as (_ & -> & _), Hb as (_ & -> & _); reflexivity).
  exists ka, kb. split; [exact A1|]. split; [exact B1|]. split; [exact A3|]. split; [exact B3|]. rewrite <- lex_nibs by (auto; lia). rewrite A4, B4, El.
  rewrite lex_app by (cbn [length]; lia). rewrite lex_refl. rewrite lex_dec by (auto; cbn [length]; lia). rewrite A7, B7.
  destruct (Z.compare_spec (num_value L a) (num_value L b)); destruct (Z.compare_spec (10 ^ Z.of_nat L + num_value L a) (10 ^ Z.of_nat L + num_value L b)); try reflexivity; lia.
Qed.

(** dates *)
Lemma bcd_cmp a b : 0 <= a < 256 -> 0 <= b < 256 -> a / 16 <= 9 -> a mod 16 <= 9 -> b / 16 <= 9 -> b mod 16 <= 9 -> (bcd a ?= bcd b) = (a ?= b) /\ 0 <= bcd a <= 99.
Proof.
  intros Ha Hb A1 A2 B1 B2. unfold bcd. destruct (div16 a Ha) as (X1 & X2 & X3), (div16 b Hb) as (Y1 & Y2 & Y3).
  set (p := a / 16) in *. set (q := a mod 16) in *. set (r := b / 16) in *. set (s := b mod 16) in *. clearbody p q r s. subst a b.
  destruct (Z.compare_spec (10 * p + q) (10 * r + s)); destruct (Z.compare_spec (16 * p + q) (16 * r + s)); try (split; [reflexivity|lia]); lia.
Qed.
Lemma date_cmp a b : date_ok a -> date_ok b -> lex a b = lex (date_parts a) (date_parts b).
Proof.
  intros (A1 & A2 & A3) (B1 & B2 & B3).
  destruct a as [|a1 [|a2 [|a3 [|a4 [|a5 [|a6 [|a7 [|? ?]]]]]]]]; try discriminate. destruct b as [|b1 [|b2 [|b3 [|b4 [|b5 [|b6 [|b7 [|? ?]]]]]]]]; try discriminate.
  unfold nibs in A3, B3. cbn [flat_map app] in A3, B3. unfold bytes_ok, byte_ok in A1, B1.
  repeat match goal with H : Forall _ (_ :: _) |- _ => inversion H; clear H; subst end.
  cbn [lex date_parts].
  destruct (bcd_cmp a1 b1) as [C1 D1]; auto; try lia. destruct (bcd_cmp a2 b2) as [C2 D2]; auto; try lia.
  destruct (bcd_cmp b1 a1) as [_ F1]; auto; try lia. destruct (bcd_cmp b2 a2) as [_ F2]; auto; try lia.
  destruct (bcd_cmp a3 b3) as [C3 _]; auto; try lia. destruct (bcd_cmp a4 b4) as [C4 _]; auto; try lia. destruct (bcd_cmp a5 b5) as [C5 _]; auto; try lia.
  destruct (bcd_cmp a6 b6) as [C6 _]; auto; try lia. destruct (bcd_cmp a7 b7) as [C7 _]; auto; try lia.
  rewrite C3, C4, C5, C6, C7.
  assert (E : (100 * bcd a1 + bcd a2 ?= 100 * bcd b1 + bcd b2) = match a1 ?= b1 with Eq => a2 ?= b2 | c => c end).
  { rewrite <- C1, <- C2. clear - D1 D2 F1 F2. destruct (Z.compare_spec (bcd a1) (bcd b1)); destruct (Z.compare_spec (bcd a2) (bcd b2)); destruct (Z.compare_spec (100 * bcd a1 + bcd a2) (100 * bcd b1 + bcd b2)); try reflexivity; lia. }
  rewrite E. destruct (a1 ?= b1); reflexivity.
Qed.

(** ** The keys of fields *)
Definition at_ (rec : list Z) (o : Z) (bs : list Z) : Prop := 0 <= o /\ rdn rec o (zlen bs) = Ok bs.
Lemma value_len k L bs : value_ok k L bs -> zlen bs = type_size k L /\ 0 < zlen bs.
Proof.
  destruct k; cbn [value_ok type_size]; try tauto.
  - intros (H1 & _ & H2). lia.
  - intros [->| ->]; cbn; lia.
  - intros (H1 & _ & H2 & _). unfold zlen. rewrite H2. rewrite Z.shiftr_div_pow2 by lia. change (2^1) with 2.
    assert (E : Z.of_nat (Nat.div2 (Z.to_nat L + 2)) = (L + 2) / 2) by (rewrite Nat.div2_div, Nat2Z.inj_div, Nat2Z.inj_add, Z2Nat.id by lia; reflexivity).
    rewrite E. split; [reflexivity|]. apply Z.div_str_pos. lia.
  - intros (_ & H & _). unfold zlen. lia.
Qed.
Lemma type_key_cmp k L a b ra rb oa ob ma mb : value_ok k L a -> value_ok k L b -> at_ ra oa a -> at_ rb ob b -> type_size k L <= ma -> type_size k L <= mb ->
  exists ka kb, type_key k L ra oa ma = Ok ka /\ type_key k L rb ob mb = Ok kb /\ zlen ka = type_size k L /\ zlen kb = type_size k L /\ lex ka kb = value_cmp k L a b.
Proof.
  intros Va Vb [_ Ra] [_ Rb] Ma Mb. destruct (value_len _ _ _ Va) as [La La0]. destruct (value_len _ _ _ Vb) as [Lb Lb0]. rewrite La in Ra. rewrite Lb in Rb.
  unfold type_key. destruct (Z.eqb_spec ma 0); [lia|]. destruct (Z.eqb_spec mb 0); [lia|]. 
  assert (Fa : (ma <? type_size k L) = false) by (apply Z.ltb_ge; lia). assert (Fb : (mb <? type_size k L) = false) by (apply Z.ltb_ge; lia). rewrite Fa, Fb, Ra, Rb. cbn [rbind].
  destruct k; try contradiction.
  - exists a, b. repeat split; auto.
  - exists a, b. repeat split; auto. destruct Va as [->| ->], Vb as [->| ->]; reflexivity.
  - destruct Va as [HL Na], Vb as [_ Nb]. destruct (num_key_cmp (Z.to_nat L) a b ltac:(lia) Na Nb) as (ka & kb & E1 & E2 & E3 & E4 & E5). rewrite Z2Nat.id in E1, E2 by lia. rewrite E1, E2. cbn [rbind].
    assert (type_size KNum L <= 64). { cbn [type_size]. rewrite Z.shiftr_div_pow2 by lia. change (2^1) with 2. assert ((L + 2) / 2 < 65) by (apply Z.div_lt_upper_bound; lia). lia. }
    destruct (Z.ltb_spec 64 (type_size KNum L)); [lia|]. exists ka, kb. repeat split; auto; unfold zlen in *; lia.
  - exists a, b. repeat split; auto. cbn [value_cmp]. now apply date_cmp.
Qed.
Lemma wrn_front (buf key : list Z) : zlen key <= zlen buf -> wrn buf 0 key = Ok (key ++ skipn (length key) buf).
Proof. intros H. rewrite wrn_ok by (unfold zlen in *; lia). reflexivity. Qed.

(** a field that is not nullable *)
Lemma field_key_cmp f a b ra rb ba bb : f_null f = false -> value_ok (f_kind f) (f_len f) a -> value_ok (f_kind f) (f_len f) b -> at_ ra (f_off f) a -> at_ rb (f_off f) b ->
  field_size f <= zlen ba -> field_size f <= zlen bb ->
  exists ka kb, field_key f ra 0 ba 0 (zlen ba) = Ok (ka ++ skipn (length ka) ba, field_size f) /\ field_key f rb 0 bb 0 (zlen bb) = Ok (kb ++ skipn (length kb) bb, field_size f) /\
    zlen ka = field_size f /\ zlen kb = field_size f /\ lex ka kb = value_cmp (f_kind f) (f_len f) a b.
Proof.
  intros Hn Va Vb Ra Rb Ha Hb. unfold field_size in *. rewrite Hn in *. rewrite Z.add_0_l in *.
  destruct (type_key_cmp _ _ _ _ _ _ _ _ (zlen ba) (zlen bb) Va Vb Ra Rb Ha Hb) as (ka & kb & E1 & E2 & E3 & E4 & E5).
  exists ka, kb. unfold field_key. rewrite Hn. cbn [Z.add]. rewrite E1, E2. rewrite !wrn_front by lia. cbn [rbind]. rewrite E3, E4. repeat split; auto.
Qed.
(** a nullable field *)
Lemma field_key_set f a ra ba : f_null f = true -> value_ok (f_kind f) (f_len f) a -> 0 <= f_off f -> at_ ra (f_off f) (1 :: a) -> field_size f <= zlen ba ->
  exists ka, field_key f ra 0 ba 0 (zlen ba) = Ok (1 :: ka ++ skipn (S (length ka)) ba, field_size f - 1) /\ zlen ka = type_size (f_kind f) (f_len f) /\
    type_key (f_kind f) (f_len f) ra (f_off f + 1) (zlen ba) = Ok ka.
Proof.
  intros Hn Va Ho [_ Ra] Ha. unfold field_size in *. rewrite Hn in Ha |- *. cbv iota in Ha |- *. destruct (value_len _ _ _ Va) as [La La0].
  assert (R1 : rd ra (f_off f) = Ok 1 /\ rdn ra (f_off f + 1) (zlen a) = Ok a).
  { apply rdn_some in Ra. destruct Ra as (_ & _ & Rl & Ra). symmetry in Ra. unfold sub in Ra. set (o := Z.to_nat (f_off f)) in *. replace (Z.to_nat (zlen (1 :: a))) with (S (length a)) in Ra by (unfold zlen; cbn [length]; lia).
    destruct (skipn o ra) as [|x r] eqn:Es; cbn [firstn] in Ra; [discriminate|]. injection Ra as -> Ra. split.
    - apply rd_ok; [lia|]. fold o. rewrite <- (Nat.add_0_r o), <- nth_error_skipn, Es. reflexivity.
    - rewrite zlen_cons in Rl. rewrite rdn_ok by lia. f_equal. unfold sub. replace (Z.to_nat (f_off f + 1)) with (1 + o)%nat by lia. rewrite <- skipn_skipn_add, Es. cbn [skipn]. replace (Z.to_nat (zlen a)) with (length a) by (unfold zlen; lia). exact Ra. }
  destruct R1 as [R1 R2].
  assert (R3 : at_ ra (f_off f + 1) a) by (split; [lia|exact R2]). assert (Hm : type_size (f_kind f) (f_len f) <= zlen ba) by lia.
  destruct (type_key_cmp _ _ _ _ _ _ _ _ (zlen ba) (zlen ba) Va Va R3 R3 Hm Hm) as (ka & _ & E1 & _ & E3 & _).
  exists ka. unfold field_key. rewrite Hn, !Z.add_0_l, R1. cbn [rbind Z.eqb]. destruct ba as [|x ba]; [exfalso; change (zlen (@nil Z)) with 0 in Ha; lia|].
  rewrite wrn_front by (change (zlen [1]) with 1; lia). cbn [rbind length app skipn]. rewrite E1. rewrite zlen_cons in *. rewrite wrn_ok by (rewrite ?zlen_cons; lia). cbn [rbind]. repeat apply conj; [|exact E3|reflexivity].
  replace (1 + type_size (f_kind f) (f_len f) - 1) with (zlen ka) by lia. change (Z.to_nat 1) with 1%nat. unfold splice. cbn [firstn app skipn Nat.add]. reflexivity.
Qed.
