(** Deleting an object; what setting a length cannot do. *)
From Coq Require Import Permutation.
From Verif Require Import Prelude Lists Obj_Model Obj_Spec Obj_Proofs Obj_Write Obj_More Obj_Hist Obj_Make Alloc_Model Alloc_Spec Alloc_Proofs Alloc_More Alloc_Grow Alloc_Len.
Ltac Zify.zify_post_hook ::= idtac.

Section Del.
Variables (slack : Z) (cached : Z -> bool) (ps : nat).
Hypothesis Hps : (32 <= ps)%nat.
Let P := Z.of_nat ps.

Lemma push_all_ok bs : forall st fl fb stk, good ps st -> free_list ps st fl fb stk -> Forall (fun v => 0 <= v < 2^32) bs -> zlen stk + zlen bs <= 1024 * zlen fb ->
  exists st' fl', push_all slack cached P st fl bs = Ok (st', fl') /\ good ps st' /\ free_list ps st' fl' fb (stk ++ bs) /\ only st st' fb /\ zlen st' = zlen st.
Proof.
  induction bs as [|b bs IH]; intros st fl fb stk Hg Hf Hb Hc.
  - exists st, fl. rewrite app_nil_r. split; [reflexivity|]. split; [exact Hg|]. split; [exact Hf|]. split; [intros m _ _; reflexivity|reflexivity].
  - rewrite zlen_cons in Hc. pose proof (zlen_nonneg bs). inversion_clear Hb as [|x l Hx Hl]. cbn [push_all].
    destruct (push_ok slack cached ps Hps st fl fb stk b Hg Hf Hx ltac:(lia)) as (st1 & fl1 & E & G1 & F1 & O1 & Z1). fold P in E. rewrite E. cbn [rbind fst snd].
    destruct (IH st1 fl1 fb (stk ++ [b]) G1 F1 Hl) as (st' & fl' & E' & G' & F' & O' & Z'). { rewrite zlen_app. change (zlen [b]) with 1. lia. }
    exists st', fl'. rewrite <- app_assoc in F'. split; [exact E'|]. split; [exact G'|]. split; [exact F'|]. split; [eapply only_trans; eauto; lia|lia].
Qed.

Lemma del_in_ok fb t tp : ~ In t fb -> 1 < t -> forall vs e st fl stk, good ps st -> free_list ps st fl fb stk -> t < zlen st -> page st t = tp -> array_at tp 4 vs -> zlen stk + (zlen vs - Z.of_nat e) <= 1024 * zlen fb -> (e <= length vs)%nat ->
  exists st' fl', del_in slack cached P (length vs - e) t (Z.of_nat e) st fl = Ok (st', fl') /\ good ps st' /\ free_list ps st' fl' fb (stk ++ skipn e vs) /\ only st st' fb /\ zlen st' = zlen st.
Proof.
  intros Hn Ht vs e. remember (length vs - e)%nat as k eqn:Ek. revert e Ek. induction k as [|k IH]; intros e Ek st fl stk Hg Hf Htl Hp Ha Hc He.
  - exists st, fl. rewrite skipn_all2, app_nil_r by lia. split; [reflexivity|]. split; [exact Hg|]. split; [exact Hf|]. split; [intros m _ _; reflexivity|reflexivity].
  - cbn [del_in]. rewrite get_page_page by lia. rewrite Hp. cbn [rbind]. destruct (nth_error vs e) as [v|] eqn:Ev; [|apply nth_error_None in Ev; lia].
    change 4 with (Z.of_nat 4) at 1. rewrite (entry_ok _ _ _ _ _ Ha Ev). cbn [rbind]. destruct (Ha e v Ev) as [Rv _]. unfold zlen in Hc.
    destruct (push_ok slack cached ps Hps st fl fb stk v Hg Hf Rv ltac:(unfold zlen; lia)) as (st1 & fl1 & E & G1 & F1 & O1 & Z1). fold P in E. rewrite E. cbn [rbind fst snd].
    destruct (IH (S e) ltac:(lia) st1 fl1 (stk ++ [v]) G1 F1 ltac:(lia)) as (st' & fl' & E' & G' & F' & O' & Z'); [|exact Ha|unfold zlen; rewrite app_length; cbn [length]; lia|lia|].
    { rewrite (O1 t); [exact Hp|lia|exact Hn]. }
    replace (Z.of_nat e + 1) with (Z.of_nat (S e)) by lia. exists st', fl'. split; [exact E'|]. split; [exact G'|]. split.
    + rewrite <- app_assoc in F'. replace (skipn e vs) with ([v] ++ skipn (S e) vs); [exact F'|]. clear - Ev. revert vs Ev. induction e as [|e IH]; intros [|x vs] E; try discriminate; cbn in *; [congruence|]. now apply IH.
    + split; [eapply only_trans; eauto; lia|lia].
Qed.

Lemma sub_chunk {A} (l : list A) a b : firstn a l ++ sub l a b = firstn (a + b) l.
Proof.
  unfold sub. destruct (Nat.le_gt_cases a (length l)) as [H|H].
  - rewrite <- (firstn_skipn a l) at 3. rewrite firstn_app, firstn_length, Nat.min_l by lia. rewrite firstn_firstn. replace (Nat.min (a + b) a) with a by lia. now replace (a + b - a)%nat with b by lia.
  - rewrite skipn_all2 by lia. rewrite firstn_nil, app_nil_r, !firstn_all2 by lia. reflexivity.
Qed.

Lemma del_out_ok fb n R tabs dp : forall k st fl stk o g, ginv ps st fl fb stk n tabs dp R -> o_blocks o = tabs -> (k + g = length tabs)%nat ->
  forall st1 fl1, good ps st1 -> free_list ps st1 fl1 fb (stk ++ firstn (g * per80) dp) -> only st st1 fb -> zlen st1 = zlen st -> zlen stk + zlen dp <= 1024 * zlen fb ->
  exists st' fl', del_out slack cached P k o (Z.of_nat g) st1 fl1 = Ok (st', fl') /\ good ps st' /\ free_list ps st' fl' fb (stk ++ dp) /\ only st st' fb /\ zlen st' = zlen st.
Proof.
  pose proof per80_pos as HP. pose proof per80_Z as HZ.
  induction k as [|k IH]; intros st fl stk o g Hi Hb Hk st1 fl1 G1 F1 O1 Z1 Hc; pose proof Hi as (Hg & Hf & Hnd & Hr & Hh & Htab); pose proof Htab as [Htl Htp]; pose proof (groups_spec (length dp) per80 HP) as Gs; rewrite <- Htl in Gs.
  - exists st1, fl1. replace (firstn (g * per80) dp) with dp in F1 by (symmetry; apply firstn_all2; replace g with (length tabs) by lia; lia). split; [reflexivity|]. auto.
  - cbn [del_out]. rewrite Hb. destruct (nth_error tabs g) as [t|] eqn:Et; [|apply nth_error_None in Et; lia]. rewrite (rd_ok _ _ t) by (rewrite ?Nat2Z.id; lia || exact Et). cbn [rbind].
    assert (Hint : In t tabs) by (eapply nth_error_In; eauto).
    assert (Rt : 1 < t < zlen st) by (apply (in_forall _ _ t Hr), in_or_app; right; right; apply in_or_app; now left).
    assert (Nt : ~ In t fb) by (intros C; eapply (disjoint_in fb); [exact Hnd|exact C|apply in_or_app; right; right; apply in_or_app; now left]).
    destruct (Htp g t Et) as (p & Hp & Ha & Hn). destruct (page_of _ _ _ Hp) as [Ep _]. specialize (Hn eq_refl).
    assert (Ep1 : page st1 t = p) by (rewrite (O1 t); [exact Ep|lia|exact Nt]). rewrite get_page_page by lia. rewrite Ep1. cbn [rbind].
    pose proof (u32at_ok _ _ _ Hn) as Hu. change (Z.of_nat 0) with 0 in Hu. rewrite Hu. cbn [rbind]. rewrite Nat2Z.id. set (vs := sub dp (g * per80) per80) in *.
    assert (Lv : length (firstn (g * per80) dp ++ vs) = length (firstn (S g * per80) dp)) by (unfold vs; rewrite sub_chunk; f_equal; f_equal; cbn; lia).
    rewrite app_length in Lv. rewrite !firstn_length in Lv.
    destruct (del_in_ok fb t p Nt ltac:(lia) vs 0 st1 fl1 (stk ++ firstn (g * per80) dp) G1 F1 ltac:(lia) Ep1 Ha) as (st2 & fl2 & E2 & G2 & F2 & O2 & Z2); [unfold zlen in *; rewrite app_length, firstn_length; lia|lia|].
    rewrite Nat.sub_0_r in E2. change (Z.of_nat 0) with 0 in E2. rewrite E2. cbn [rbind fst snd skipn] in *. rewrite <- app_assoc in F2.
    replace (Z.of_nat g + 1) with (Z.of_nat (S g)) by lia. apply (IH st fl stk o (S g) Hi Hb ltac:(lia) st2 fl2 G2).
    + unfold vs in F2. rewrite sub_chunk in F2. now replace (S g * per80)%nat with (g * per80 + per80)%nat by (cbn; lia).
    + eapply only_trans; eauto; lia.
    + lia.
    + exact Hc.
Qed.

Lemma delete_ok st fl fb stk n len tabs dp R o : stored ps F80 st n len tabs dp -> good ps st -> free_list ps st fl fb stk -> apart st fb stk (pages_of n tabs dp ++ R) ->
  opened F80 (set_cached o None) n len tabs dp -> n <> 2 -> zlen stk + zlen dp + 2 * zlen tabs <= 1024 * zlen fb ->
  exists st' fl', delete_object slack cached P st fl o = Ok (st', fl') /\ good ps st' /\ free_list ps st' fl' fb (stk ++ dp ++ tabs ++ repeat n (length tabs)) /\
    zlen st' = zlen st /\ (forall m, In m (pages_of n tabs dp ++ R) -> page st' m = page st m).
Proof.
  intros Hs Hg Hf Hap Hop H2 Hc. destruct (stored_ginv ps st fl fb stk n len tabs dp R Hs Hg Hf Hap) as (Hi & _ & _). pose proof Hi as (_ & _ & Hnd & Hr & Hh & Htab).
  destruct Hop as (Ob & _ & Ot & Ol & Obl & On). cbn [set_cached o_block o_ty o_len o_blocks o_num] in *. pose proof Hg as (_ & _ & G32 & _).
  assert (Rn : 1 < n < zlen st) by (apply (in_forall _ _ n Hr), in_or_app; right; now left).
  unfold delete_object. rewrite Ob. destruct (Z.eqb_spec n 1); [lia|]. destruct (Z.eqb_spec n 2); [lia|]. cbn [orb]. rewrite On, Nat2Z.id.
  pose proof (zlen_nonneg tabs). destruct (del_out_ok fb n R tabs dp (length tabs) st fl stk o 0 Hi Obl ltac:(lia) st fl Hg) as (st1 & fl1 & E1 & G1 & F1 & O1 & Z1); [cbn [Nat.mul firstn]; rewrite app_nil_r; exact Hf|intros m _ _; reflexivity|reflexivity|lia|].
  change (Z.of_nat 0) with 0 in E1. rewrite E1. cbn [rbind fst snd]. rewrite rdn_ok by (unfold zlen; rewrite ?Obl; lia). cbn [rbind]. change (Z.to_nat 0) with 0%nat. rewrite Nat2Z.id, Obl, sub_0_firstn, firstn_all.
  assert (Htr : Forall (fun v => 0 <= v < 2^32) tabs).
  { apply Forall_forall. intros t Ht. assert (1 < t < zlen st) by (apply (in_forall _ _ t Hr), in_or_app; right; right; apply in_or_app; now left). lia. }
  destruct (push_all_ok tabs st1 fl1 fb (stk ++ dp) G1 F1 Htr) as (st2 & fl2 & E2 & G2 & F2 & O2 & Z2); [rewrite zlen_app; lia|]. rewrite E2. cbn [rbind fst snd].
  destruct (push_all_ok (repeat n (length tabs)) st2 fl2 fb ((stk ++ dp) ++ tabs) G2 F2) as (st3 & fl3 & E3 & G3 & F3 & O3 & Z3).
  { apply Forall_forall. intros x Hx. apply repeat_spec in Hx. lia. } { rewrite !zlen_app. unfold zlen at 4. rewrite repeat_length. fold (zlen tabs). lia. }
  exists st3, fl3. split; [exact E3|]. split; [exact G3|]. split; [now rewrite <- !app_assoc in F3|]. split; [lia|].
  assert (O : only st st3 fb) by (eapply only_trans; [exact O1|eapply only_trans; [exact O2|exact O3|lia]|lia]).
  intros m Hm. destruct Hap as [Hnd2 Hr2]. apply O; [apply (in_forall _ _ m Hr2), in_or_app; now right|]. intros C. eapply (disjoint_in fb); [exact Hnd2|exact C|]. apply in_or_app. now right.
Qed.

(** one table page: exactly the pages of the object become free, each once *)
Lemma delete_one st fl fb stk n len tabs dp R o : stored ps F80 st n len tabs dp -> good ps st -> free_list ps st fl fb stk -> apart st fb stk (pages_of n tabs dp ++ R) ->
  opened F80 (set_cached o None) n len tabs dp -> n <> 2 -> (0 < len <= per80 * ps)%nat -> zlen stk + zlen (pages_of n tabs dp) <= 1024 * zlen fb ->
  exists st' fl' stk', delete_object slack cached P st fl o = Ok (st', fl') /\ good ps st' /\ free_list ps st' fl' fb stk' /\ Permutation stk' (stk ++ pages_of n tabs dp) /\ apart st' fb stk' R /\
    zlen st' = zlen st /\ (forall m, In m R -> page st' m = page st m).
Proof.
  intros Hs Hg Hf Hap Hop H2 Hlen Hc. pose proof Hs as (_ & _ & _ & _ & _ & Hdp & _ & h & _ & Hx). destruct Hx as (_ & _ & _ & _ & _ & _ & Htab & _).
  pose proof (groups_spec len ps ltac:(lia)) as G1. rewrite <- Hdp in G1. pose proof per80_pos as HP. pose proof (groups_spec (length dp) per80 HP) as G2. rewrite <- Htab in G2.
  assert (Ht1 : length tabs = 1%nat) by nia. destruct tabs as [|t [|]]; cbn [length] in Ht1; try lia.
  unfold pages_of in Hc. rewrite zlen_cons, zlen_app in Hc. change (zlen [t]) with 1 in Hc.
  destruct (delete_ok st fl fb stk n len [t] dp R o Hs Hg Hf Hap Hop H2) as (st' & fl' & A1 & A2 & A3 & A4 & A5); [change (zlen [t]) with 1; lia|].
  exists st', fl', (stk ++ dp ++ [t] ++ [n]). split; [exact A1|]. split; [exact A2|]. split; [exact A3|].
  assert (Hperm : Permutation (stk ++ dp ++ [t] ++ [n]) (stk ++ pages_of n [t] dp)).
  { apply Permutation_app_head. unfold pages_of. cbn [app]. change (n :: t :: dp) with ([n; t] ++ dp). rewrite Permutation_app_comm. apply Permutation_app_tail. apply perm_swap. }
  split; [exact Hperm|]. split; [|split; [exact A4|intros m Hm; apply A5, in_or_app; now right]].
  destruct Hap as [Hnd Hr]. split.
  - eapply Permutation_NoDup; [|exact Hnd]. apply Permutation_app_head. rewrite app_assoc. apply Permutation_app_tail. now apply Permutation_sym.
  - rewrite A4. eapply Permutation_Forall; [|exact Hr]. rewrite app_assoc. apply Permutation_app_tail. now apply Permutation_sym.
Qed.

(** several table pages: the header page is free several times *)
Lemma delete_many st fl fb stk n len tabs dp R o : stored ps F80 st n len tabs dp -> good ps st -> free_list ps st fl fb stk -> apart st fb stk (pages_of n tabs dp ++ R) ->
  opened F80 (set_cached o None) n len tabs dp -> n <> 2 -> zlen stk + zlen dp + 2 * zlen tabs <= 1024 * zlen fb -> (per80 * ps < len)%nat -> forall c1 c2,
  exists st1 fl1 st2 fl2 st3 fl3, delete_object slack cached P st fl o = Ok (st1, fl1) /\ pop_free c1 P st1 fl1 = Ok (st2, fl2, n) /\ pop_free c2 P st2 fl2 = Ok (st3, fl3, n).
Proof.
  intros Hs Hg Hf Hap Hop H2 Hc Hlen c1 c2. pose proof Hs as (_ & _ & _ & _ & _ & Hdp & _ & h & _ & Hx). destruct Hx as (_ & _ & _ & _ & _ & _ & Htab & _).
  pose proof (groups_spec len ps ltac:(lia)) as G1. rewrite <- Hdp in G1. pose proof per80_pos as HP. pose proof (groups_spec (length dp) per80 HP) as G2. rewrite <- Htab in G2.
  assert (Ht1 : (2 <= length tabs)%nat) by nia.
  destruct (delete_ok st fl fb stk n len tabs dp R o Hs Hg Hf Hap Hop H2 Hc) as (st1 & fl1 & A1 & A2 & A3 & A4 & A5). exists st1, fl1.
  destruct (length tabs) as [|[|k]] eqn:Ek; try lia.
  replace (repeat n (S (S k))) with ((repeat n k ++ [n]) ++ [n]) in A3 by (rewrite <- repeat_cons; cbn [app]; rewrite <- repeat_cons; reflexivity). rewrite !app_assoc in A3.
  destruct (pop_some c1 ps Hps st1 fl1 fb _ n A2 A3) as (st2 & fl2 & B1 & B2 & B3 & _).
  destruct (pop_some c2 ps Hps st2 fl2 fb _ n B2 B3) as (st3 & fl3 & D1 & _). exists st2, fl2, st3, fl3. auto.
Qed.
(** an empty object: nothing becomes free, not even the header page *)
Lemma delete_empty st fl fb stk n tabs dp R o : stored ps F80 st n 0 tabs dp -> good ps st -> free_list ps st fl fb stk -> apart st fb stk (pages_of n tabs dp ++ R) ->
  opened F80 (set_cached o None) n 0 tabs dp -> n <> 2 ->
  exists fl', delete_object slack cached P st fl o = Ok (st, fl') /\ free_list ps st fl' fb stk /\ ~ In n stk.
Proof.
  intros Hs Hg Hf Hap Hop H2. pose proof Hs as (_ & _ & _ & _ & _ & Hdp & _ & h & _ & Hx). destruct Hx as (_ & Hn1 & _ & _ & _ & _ & Htab & _).
  pose proof (groups_spec 0 ps ltac:(lia)) as G1. rewrite <- Hdp in G1. pose proof per80_pos as HP. pose proof (groups_spec (length dp) per80 HP) as G2. rewrite <- Htab in G2.
  assert (Hd0 : length dp = 0%nat) by nia. assert (Ht1 : length tabs = 0%nat) by nia. destruct tabs; [|discriminate]. exists fl. destruct Hop as (Ob & _ & Ot & Ol & Obl & On). cbn [set_cached o_block o_ty o_len o_blocks o_num] in *.
  split; [|split; [exact Hf|]].
  - unfold delete_object. rewrite Ob. destruct (Z.eqb_spec n 1); [lia|]. destruct (Z.eqb_spec n 2); [lia|]. cbn [orb]. rewrite On, Obl. reflexivity.
  - destruct Hap as [Hnd _]. intros C. eapply (disjoint_in (fb ++ stk)); [rewrite <- app_assoc; exact Hnd|apply in_or_app; right; exact C|]. now left.
Qed.

(** a full list *)
Lemma push_full st fl fb stk v : good ps st -> free_list ps st fl fb stk -> zlen stk = 1024 * zlen fb -> forall r, push_free 0 cached P st fl v <> Ok r.
Proof.
  intros Hg (A1 & A2 & A3 & A4 & A5 & A6 & A7 & A8 & A9 & A10 & A11 & A12 & A13 & A14 & A15) Hfull r. unfold push_free. rewrite A3. cbn [Z.eqb Pos.eqb negb].
  pose proof (zlen_nonneg fb) as H0.
  assert (Ej : o_len fl / 1024 = zlen fb) by (rewrite A4, Hfull, Z.mul_comm; apply Z.div_mul; lia).
  rewrite Ej, A5. destruct (Z.ltb_spec (zlen fb) (zlen fb)); [lia|]. destruct (poke32 _ _ _ _ _ _) as [st1| | |]; cbn [rbind]; try discriminate.
  destruct (get_page st1 1) as [h| | |]; cbn [rbind]; try discriminate. unfold copy_blocks. destruct (entries _ _ _) as [src| | |]; cbn [rbind]; try discriminate.
  rewrite Z.add_0_r. unfold zlen at 1. rewrite repeat_length. destruct (Z.ltb_spec (Z.of_nat (Z.to_nat (zlen fb + 1))) (4 * (zlen fb + 1))); [discriminate|lia].
Qed.
End Del.
