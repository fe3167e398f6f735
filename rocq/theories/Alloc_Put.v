(** Replacing the whole contents of an object by data of the same length. *)
From Verif Require Import Prelude Lists Obj_Model Obj_Spec Obj_Proofs Obj_Write Obj_More Obj_Hist Obj_Make Alloc_Model Alloc_Spec Alloc_Proofs Alloc_More Alloc_Grow Alloc_Len.
Ltac Zify.zify_post_hook ::= idtac.

Lemma skipn_firstn_sub {A} (l : list A) o n : firstn n (skipn o l) = sub l o n.
Proof. reflexivity. Qed.
Lemma sub_short {A} (l : list A) o n : sub l o n = sub l o (Nat.min n (length l - o)).
Proof.
  unfold sub. destruct (Nat.le_gt_cases n (length l - o)) as [H|H]; [now rewrite Nat.min_l by lia|].
  rewrite Nat.min_r by lia. rewrite !firstn_all2; [reflexivity|rewrite skipn_length; lia|rewrite skipn_length; lia].
Qed.

Section Put.
Variables (cached : Z -> bool) (ps : nat) (st0 : store) (dp : list Z) (D : list Z).
Hypothesis Hps : (32 <= ps)%nat.
Hypothesis Hg0 : good ps st0.
Hypothesis Hdp : Forall (fun b => 0 <= b < zlen st0) dp.
Hypothesis Hnd : NoDup dp.
Hypothesis HD : bytes_ok D.
Hypothesis Hlen : length dp = groups (length D) ps.
Let P := Z.of_nat ps.

(** the first [c] data pages have been written *)
Definition upto (c : nat) (st : store) : Prop :=
  good ps st /\ zlen st = zlen st0 /\ (forall m, 0 <= m -> ~ In m dp -> page st m = page st0 m) /\
  forall i b, nth_error dp i = Some b -> ((i < c)%nat -> firstn (length (sub D (i * ps) ps)) (page st b) = sub D (i * ps) ps) /\ ((c <= i)%nat -> page st b = page st0 b).

Lemma upto_0 : upto 0 st0.
Proof using Hg0. split; [exact Hg0|]. split; [reflexivity|]. split; [reflexivity|]. intros i b Hi. split; [intros C; inversion C|reflexivity]. Qed.

Lemma upto_step c st b : upto c st -> nth_error dp c = Some b -> exists st', write_page cached P st b false 0 (sub D (c * ps) ps) = Ok st' /\ upto (S c) st'.
Proof.
  intros (Hg & Hz & Hother & Hpages) Hb. assert (Rb : 0 <= b < zlen st0) by (apply (in_forall _ _ b Hdp); eapply nth_error_In; eauto).
  assert (Hl : (length (sub D (c * ps) ps) <= ps)%nat) by (unfold sub; rewrite firstn_length; lia).
  destruct (fresh_ok cached ps Hps st b (sub D (c * ps) ps) Hg ltac:(lia) Hl (bytes_ok_sub _ _ _ HD)) as (q & E & Lq & Bq).
  eexists. split; [exact E|]. split; [apply upd_good; [exact Hg|lia|rewrite splice_length; lia|apply bytes_ok_splice; [exact Bq|now apply bytes_ok_sub]]|].
  split; [rewrite upd_len; lia|]. split.
  - intros m Hm Hin. rewrite upd_page by lia. destruct (Z.eqb_spec m b) as [->|]; [exfalso; apply Hin; eapply nth_error_In; eauto|]. now apply Hother.
  - intros i x Hi. assert (Rx : 0 <= x < zlen st0) by (apply (in_forall _ _ x Hdp); eapply nth_error_In; eauto). rewrite upd_page by lia. destruct (Z.eqb_spec x b) as [->|Hne].
    + assert (i = c) by (eapply NoDup_nth_inj; eauto). subst i. split; [|lia]. intros _. unfold splice. cbn [firstn app]. rewrite firstn_app, Nat.sub_diag. cbn [firstn]. rewrite app_nil_r. apply firstn_all.
    + destruct (Hpages i x Hi) as [H1 H2]. assert (i <> c) by (intros ->; congruence). split; intros; [apply H1; lia|apply H2; lia].
Qed.

Lemma rest_len c : (length (skipn (c * ps) D) = length D - c * ps)%nat.
Proof. apply skipn_length. Qed.
Lemma piece c : firstn (Nat.min ps (length D - c * ps)) (skipn (c * ps) D) = sub D (c * ps) ps.
Proof. rewrite skipn_firstn_sub. symmetry. apply sub_short. Qed.

Lemma put1_ok rest fuel : forall c st, upto c st -> (length D - c * ps < fuel)%nat ->
  exists st', put1 cached P fuel st (dp ++ rest) (Z.of_nat c) (skipn (c * ps) D) = Ok st' /\ upto (length dp) st'.
Proof.
  pose proof (groups_spec (length D) ps ltac:(lia)) as Hg. rewrite <- Hlen in Hg.
  induction fuel as [|fuel IH]; intros c st Hu Hf; [lia|]. cbn [put1]. destruct (skipn (c * ps) D) as [|x r] eqn:Er.
  - exists st. split; [reflexivity|]. pose proof (f_equal (@length Z) Er) as El. rewrite skipn_length in El. cbn in El. destruct Hu as (H1 & H2 & H3 & H4).
    split; [exact H1|]. split; [exact H2|]. split; [exact H3|]. intros i b Hi. destruct (H4 i b Hi) as [A B]. assert (i < length dp)%nat by (apply nth_error_Some; congruence). split; [|lia]. intros _. apply A. nia.
  - rewrite <- Er. pose proof (f_equal (@length Z) Er) as El. rewrite skipn_length in El. cbn in El. unfold zlen. rewrite rest_len.
    assert (Hc : (c < length dp)%nat) by nia. destruct (nth_error dp c) as [b|] eqn:Eb; [|apply nth_error_None in Eb; lia].
    rewrite (rd_ok _ _ b); [|lia|rewrite Nat2Z.id, nth_error_app1 by lia; exact Eb]. cbn [rbind].
    replace (Z.to_nat (Z.min P (Z.of_nat (length D - c * ps)))) with (Nat.min ps (length D - c * ps)) by (unfold P; lia). rewrite piece.
    destruct (upto_step c st b Hu Eb) as (st' & E & Hu'). rewrite E. cbn [rbind]. rewrite skipn_plus.
    replace (skipn (c * ps + Nat.min ps (length D - c * ps)) D) with (skipn (S c * ps) D).
    2:{ destruct (Nat.le_gt_cases ps (length D - c * ps)); [f_equal; cbn; lia|]. rewrite !skipn_all2; [reflexivity|lia|cbn; lia]. }
    replace (Z.of_nat c + 1) with (Z.of_nat (S c)) by lia. apply IH; [exact Hu'|cbn; lia].
Qed.

(** through tables *)
Variables (tabs : list Z) (per hdr : nat).
Hypothesis Hper : (0 < per)%nat.
Hypothesis Htp : Forall (fun t => 0 <= t < zlen st0 /\ ~ In t dp) tabs.
Hypothesis Hlist : forall c b, nth_error dp c = Some b -> exists t, nth_error tabs (c / per) = Some t /\ entry (page st0 t) (Z.of_nat hdr) (Z.of_nat (c mod per)) = Ok b.

Lemma table_at c b st : upto (c) st -> forall k, nth_error dp k = Some b -> exists t, nth_error tabs (k / per) = Some t /\ 0 <= t < zlen st /\ get_page st t = Ok (page st0 t) /\ entry (page st0 t) (Z.of_nat hdr) (Z.of_nat (k mod per)) = Ok b.
Proof.
  intros (Hg & Hz & Hother & _) k Hk. destruct (Hlist k b Hk) as (t & Ht & He). exists t. destruct (in_forall _ _ t Htp ltac:(eapply nth_error_In; eauto)) as [Rt Nt].
  split; [exact Ht|]. split; [lia|]. split; [|exact He]. rewrite get_page_page by lia. f_equal. now apply Hother; [lia|].
Qed.

Lemma put2_ok fuel : hdr = 0%nat -> forall c st tb, upto c st -> (length D - c * ps < fuel)%nat ->
  (c * ps < length D -> nth_error tabs (c / per) = Some tb)%nat ->
  exists st', put2 cached P fuel st (Z.of_nat per) tabs tb (Z.of_nat (c / per + 1)) (Z.of_nat (c mod per)) (skipn (c * ps) D) = Ok st' /\ upto (length dp) st'.
Proof.
  intros H0. pose proof (groups_spec (length D) ps ltac:(lia)) as Hg. rewrite <- Hlen in Hg.
  induction fuel as [|fuel IH]; intros c st tb Hu Hf Htb; [lia|]. cbn [put2]. destruct (skipn (c * ps) D) as [|x r] eqn:Er.
  - exists st. split; [reflexivity|]. pose proof (f_equal (@length Z) Er) as El. rewrite skipn_length in El. cbn in El. destruct Hu as (H1 & H2 & H3 & H4).
    split; [exact H1|]. split; [exact H2|]. split; [exact H3|]. intros i b Hi. destruct (H4 i b Hi) as [A B]. assert (i < length dp)%nat by (apply nth_error_Some; congruence). split; [|lia]. intros _. apply A. nia.
  - rewrite <- Er. pose proof (f_equal (@length Z) Er) as El. rewrite skipn_length in El. cbn in El. unfold zlen. rewrite rest_len.
    assert (Hc : (c < length dp)%nat) by nia. destruct (nth_error dp c) as [b|] eqn:Eb; [|apply nth_error_None in Eb; lia].
    destruct (table_at c b st Hu c Eb) as (t & Ht & Rt & Hp & He). rewrite (Htb ltac:(lia)) in Ht. injection Ht as <-. rewrite Hp. cbn [rbind].
    rewrite H0 in He. change (Z.of_nat 0) with 0 in He. rewrite He. cbn [rbind].
    replace (Z.to_nat (Z.min P (Z.of_nat (length D - c * ps)))) with (Nat.min ps (length D - c * ps)) by (unfold P; lia). rewrite piece.
    destruct (upto_step c st b Hu Eb) as (st' & E & Hu'). rewrite E. cbn [rbind]. rewrite skipn_plus.
    replace (skipn (c * ps + Nat.min ps (length D - c * ps)) D) with (skipn (S c * ps) D).
    2:{ destruct (Nat.le_gt_cases ps (length D - c * ps)); [f_equal; cbn; lia|]. rewrite !skipn_all2; [reflexivity|lia|cbn; lia]. }
    rewrite rest_len. pose proof (Nat.div_mod c per ltac:(lia)) as Hdm. pose proof (Nat.mod_upper_bound c per ltac:(lia)) as Hub.
    destruct (Nat.eq_dec (S (c mod per)) per) as [e|e].
    + assert (Ed : (S c / per = S (c / per))%nat) by (symmetry; apply (Nat.div_unique _ _ _ 0); [lia|nia]). assert (Em : (S c mod per = 0)%nat) by (symmetry; apply (Nat.mod_unique _ _ (S (c / per))); [lia|nia]).
      destruct (Z.leb_spec (Z.of_nat per) (Z.of_nat (c mod per) + 1)); [|lia]. rewrite andb_true_r. destruct (Z.ltb_spec 0 (Z.of_nat (length D - S c * ps))) as [Hm|Hm].
      * assert (Hc' : (S c < length dp)%nat) by nia. destruct (nth_error dp (S c)) as [b'|] eqn:Eb'; [|apply nth_error_None in Eb'; lia].
        destruct (table_at (S c) b' st' Hu' (S c) Eb') as (t' & Ht' & Rt' & Hp' & _). rewrite Ed in Ht'. rewrite (rd_ok _ _ t'); [|lia|rewrite Nat2Z.id, Nat.add_1_r; exact Ht']. cbn [rbind]. rewrite Hp'. cbn [rbind].
        destruct (IH (S c) st' t' Hu' ltac:(cbn; lia)) as (st'' & E'' & U''). { intros _. now rewrite Ed. } exists st''. split; [|exact U''].
        rewrite Ed, Em in E''. replace (Z.of_nat (c / per + 1) + 1) with (Z.of_nat (S (c / per) + 1)) by lia. exact E''.
      * (* all written *)
        rewrite (skipn_all2 D) by lia. destruct fuel as [|fuel]; [lia|]. cbn [put2]. exists st'. split; [reflexivity|]. assert (S c = length dp) by nia. now rewrite <- H1.
    + assert (Ed : (S c / per = c / per)%nat) by (symmetry; apply (Nat.div_unique _ _ _ (S (c mod per))); [lia|lia]). assert (Em : (S c mod per = S (c mod per))%nat) by (symmetry; apply (Nat.mod_unique _ _ (c / per)); [lia|lia]).
      destruct (Z.leb_spec (Z.of_nat per) (Z.of_nat (c mod per) + 1)); [lia|]. rewrite andb_false_r.
      destruct (IH (S c) st' tb Hu' ltac:(cbn; lia)) as (st'' & E'' & U''). { intros _. rewrite Ed. apply Htb. lia. } exists st''. split; [|exact U''].
      rewrite Ed, Em in E''. replace (Z.of_nat (c mod per) + 1) with (Z.of_nat (S (c mod per))) by lia. exact E''.
Qed.

(** older format: one table page, then all of them *)

Lemma put_in_full n : Z.of_nat ps = 4096 -> hdr = 4%nat -> forall c e st t cl, upto c st -> nth_error tabs (c / per) = Some t -> (c mod per = e)%nat -> (e + n <= per)%nat -> (c * ps + n * ps < length D)%nat ->
  exists st', put_in cached n t (Z.of_nat e) st (skipn (c * ps) D) (Z.of_nat (length D - c * ps)) cl =
    Ok (st', skipn ((c + n) * ps) D, Z.of_nat (length D - (c + n) * ps), if (n =? 0)%nat then cl else 4096) /\ upto (c + n) st'.
Proof.
  intros HZ H4. pose proof (groups_spec (length D) ps ltac:(lia)) as Hg. rewrite <- Hlen in Hg.
  induction n as [|n IH]; intros c e st t cl Hu Ht He Hn Hl.
  - exists st. cbn [put_in Nat.eqb]. rewrite Nat.add_0_r. now split.
  - cbn [put_in]. assert (Hc : (c < length dp)%nat) by nia. destruct (nth_error dp c) as [b|] eqn:Eb; [|apply nth_error_None in Eb; lia].
    destruct (table_at c b st Hu c Eb) as (t' & Ht' & Rt & Hp & Hen). assert (t' = t) by congruence. subst t'. rewrite Hp. cbn [rbind]. rewrite H4, He in Hen. change (Z.of_nat 4) with 4 in Hen. rewrite Hen. cbn [rbind].
    rewrite Z.min_l by lia. rewrite rdn_ok by (unfold zlen; rewrite ?rest_len; lia). cbn [rbind].
    replace (sub (skipn (c * ps) D) (Z.to_nat 0) (Z.to_nat 4096)) with (sub D (c * ps) ps) by (change (Z.to_nat 0) with 0%nat; rewrite <- HZ, Nat2Z.id; reflexivity).
    destruct (upto_step c st b Hu Eb) as (st' & E & Hu'). unfold P in E. rewrite HZ in E. rewrite E. cbn [rbind].
    destruct (Z.leb_spec (Z.of_nat (length D - c * ps)) 4096); [lia|]. replace (Z.to_nat 4096) with ps by lia. rewrite skipn_plus.
    replace (c * ps + ps)%nat with (S c * ps)%nat by (cbn; lia). replace (Z.of_nat (length D - c * ps) - 4096) with (Z.of_nat (length D - S c * ps)) by (cbn; lia). replace (Z.of_nat e + 1) with (Z.of_nat (S e)) by lia.
    destruct (Nat.eq_dec n 0) as [->|Hn0].
    + cbn [put_in]. exists st'. replace (c + 1)%nat with (S c) by lia. cbn [Nat.eqb]. now split.
    + assert (Ed : (S c / per = c / per)%nat /\ (S c mod per = S e)%nat).
      { pose proof (Nat.div_mod c per ltac:(lia)) as Hdm. split; symmetry; [apply (Nat.div_unique _ _ _ (S e)); lia|apply (Nat.mod_unique _ _ (c / per)); lia]. }
      destruct Ed as [Ed Em]. destruct (IH (S c) (S e) st' t 4096 Hu' ltac:(now rewrite Ed) Em ltac:(lia) ltac:(cbn; lia)) as (st'' & E'' & U''). exists st''.
      replace (c + S n)%nat with (S c + n)%nat by lia. split; [|exact U'']. rewrite E''. cbn [Nat.eqb]. now destruct (n =? 0)%nat.
Qed.

Lemma put_in_last n : Z.of_nat ps = 4096 -> hdr = 4%nat -> forall c e st t cl, upto c st -> nth_error tabs (c / per) = Some t -> (c mod per = e)%nat -> (e + n <= per)%nat -> (0 < length D - c * ps <= n * ps)%nat ->
  exists st' d' l' cl', put_in cached n t (Z.of_nat e) st (skipn (c * ps) D) (Z.of_nat (length D - c * ps)) cl = Ok (st', d', l', cl') /\ (l' <=? cl') = true /\ upto (length dp) st'.
Proof.
  intros HZ H4. pose proof (groups_spec (length D) ps ltac:(lia)) as Hg. rewrite <- Hlen in Hg.
  induction n as [|n IH]; intros c e st t cl Hu Ht He Hn Hl; [lia|].
  cbn [put_in]. assert (Hc : (c < length dp)%nat) by nia. destruct (nth_error dp c) as [b|] eqn:Eb; [|apply nth_error_None in Eb; lia].
  destruct (table_at c b st Hu c Eb) as (t' & Ht' & Rt & Hp & Hen). assert (t' = t) by congruence. subst t'. rewrite Hp. cbn [rbind]. rewrite H4, He in Hen. change (Z.of_nat 4) with 4 in Hen. rewrite Hen. cbn [rbind].
  assert (Hcl : Z.min 4096 (Z.of_nat (length D - c * ps)) = Z.of_nat (Nat.min ps (length D - c * ps))) by lia.
  rewrite Hcl. rewrite rdn_ok by (unfold zlen; rewrite ?rest_len; lia). cbn [rbind]. change (Z.to_nat 0) with 0%nat. rewrite Nat2Z.id.
  replace (sub (skipn (c * ps) D) 0 (Nat.min ps (length D - c * ps))) with (sub D (c * ps) ps) by (symmetry; apply piece).
  destruct (upto_step c st b Hu Eb) as (st' & E & Hu'). unfold P in E. rewrite HZ in E. rewrite E. cbn [rbind].
  destruct (Z.leb_spec (Z.of_nat (length D - c * ps)) (Z.of_nat (Nat.min ps (length D - c * ps)))) as [Hle|Hgt].
  - eexists st', _, _, _. split; [reflexivity|]. split; [lia|]. replace (length dp) with (S c) by nia. exact Hu'.
  - rewrite Nat.min_l by lia. replace (Z.to_nat 4096) with ps by lia. rewrite skipn_plus.
    replace (c * ps + ps)%nat with (S c * ps)%nat by (cbn; lia). replace (Z.of_nat (length D - c * ps) - Z.of_nat ps) with (Z.of_nat (length D - S c * ps)) by (cbn; lia). replace (Z.of_nat e + 1) with (Z.of_nat (S e)) by lia.
    destruct (Nat.eq_dec n 0) as [->|Hn0]; [cbn in Hl; lia|].
    assert (Ed : (S c / per = c / per)%nat /\ (S c mod per = S e)%nat).
    { pose proof (Nat.div_mod c per ltac:(lia)) as Hdm. split; symmetry; [apply (Nat.div_unique _ _ _ (S e)); lia|apply (Nat.mod_unique _ _ (c / per)); lia]. }
    destruct Ed as [Ed Em]. destruct (IH (S c) (S e) st' t (Z.of_nat ps) Hu' ltac:(now rewrite Ed) Em ltac:(lia) ltac:(cbn in *; lia)) as (st'' & d' & l' & cl' & E'' & B'' & U''). eexists st'', d', l', cl'. now rewrite E''.
Qed.

(** pages written by the loop over the tables *)
Definition reached : nat :=
  if ((1 <? length tabs) && (length D <=? (length tabs - 1) * per * ps + ps))%nat%bool then ((length tabs - 1) * per)%nat else length dp.

Hypothesis Htl : length tabs = groups (length dp) per.
Hypothesis Hcnt : forall g t, nth_error tabs g = Some t -> num_at (page st0 t) 0 (Z.of_nat (length (sub dp (g * per) per))).

Lemma put_out_ok : Z.of_nat ps = 4096 -> hdr = 4%nat -> Z.of_nat per < 2^31 -> (2 <= per)%nat -> forall n g st cl, upto (g * per) st -> (n + g = length tabs)%nat -> (0 < n)%nat -> (0 < g -> g * per * ps + ps < length D)%nat ->
  exists st', put_out cached n tabs (Z.of_nat g) st (skipn (g * per * ps) D) (Z.of_nat (length D - g * per * ps)) cl = Ok st' /\ upto reached st'.
Proof.
  intros HZ H4 Hp31 Hp2. pose proof (groups_spec (length D) ps ltac:(lia)) as Hg1. rewrite <- Hlen in Hg1. pose proof (groups_spec (length dp) per ltac:(lia)) as Hg2. rewrite <- Htl in Hg2.
  induction n as [|n IH]; intros g st cl Hu Hn H0 Hge; [lia|]. cbn [put_out].
  destruct (nth_error tabs g) as [t|] eqn:Et; [|apply nth_error_None in Et; lia].
  rewrite (rd_ok _ _ t) by (rewrite ?Nat2Z.id; lia || exact Et). cbn [rbind].
  destruct (in_forall _ _ t Htp ltac:(eapply nth_error_In; eauto)) as [Rt Nt]. pose proof Hu as (Hg & Hz & Hother & _). rewrite get_page_page by lia. cbn [rbind]. rewrite Hother by (lia || assumption).
  pose proof (u32at_ok _ _ _ (Hcnt g t Et)) as Hu0. change (Z.of_nat 0) with 0 in Hu0. rewrite Hu0. cbn [rbind].
  set (m := length (sub dp (g * per) per)). assert (Hm : (m <= per)%nat) by (unfold m, sub; rewrite firstn_length; lia).
  replace (i32 (Z.of_nat m)) with (Z.of_nat m) by (unfold i32; rewrite Z.mod_small; lia). rewrite Nat2Z.id.
  assert (Hgd : ((g * per) / per = g)%nat) by (apply Nat.div_mul; lia). assert (Hgm : ((g * per) mod per = 0)%nat) by (apply Nat.mod_mul; lia).
  assert (Htg : nth_error tabs ((g * per) / per) = Some t) by now rewrite Hgd.
  destruct (Nat.eq_dec n 0) as [->|Hn0].
  - assert (Hgl : (length tabs - 1 = g)%nat) by lia.
    assert (Hs : m = (length dp - g * per)%nat) by (unfold m, sub; rewrite firstn_length, skipn_length; nia).
    destruct (put_in_last m HZ H4 (g * per) 0 st t cl Hu Htg Hgm ltac:(lia) ltac:(nia)) as (st' & d' & l' & cl' & E & Hb & U'). change (Z.of_nat 0) with 0 in E. rewrite E. cbn [rbind]. rewrite Hb.
    exists st'. split; [reflexivity|]. replace reached with (length dp); [exact U'|]. unfold reached. rewrite Hgl.
    destruct (Nat.ltb_spec 1 (length tabs)); [|reflexivity]. destruct (Nat.leb_spec (length D) (g * per * ps + ps)); [|reflexivity]. cbn [andb]. specialize (Hge ltac:(lia)). lia.
  - assert (Hm' : m = per) by (unfold m; apply sub_length; nia). rewrite Hm'.
    assert (Hrem : (S g * per * ps < length D)%nat) by nia. assert (Hpg : (S g * per <= length dp)%nat) by nia.
    destruct (put_in_full per HZ H4 (g * per) 0 st t cl Hu Htg Hgm ltac:(lia) ltac:(cbn [Nat.mul] in Hrem; nia)) as (st' & E & U'). change (Z.of_nat 0) with 0 in E. rewrite E. cbn [rbind].
    destruct (Nat.eqb_spec per 0); [lia|]. replace (g * per + per)%nat with (S g * per)%nat in * by (cbn; lia).
    destruct (Z.leb_spec (Z.of_nat (length D - S g * per * ps)) 4096) as [Hle|Hgt].
    + assert (Hlast : (length tabs - 1 = S g)%nat) by nia. exists st'. split; [reflexivity|].
      replace reached with (S g * per)%nat; [exact U'|]. unfold reached. rewrite Hlast. destruct (Nat.ltb_spec 1 (length tabs)); [|lia].
      destruct (Nat.leb_spec (length D) (S g * per * ps + ps)); [reflexivity|lia].
    + replace (Z.of_nat g + 1) with (Z.of_nat (S g)) by lia. apply IH; [exact U'|lia|lia|lia].
Qed.

Lemma flat_nth st i : good ps st -> Forall (fun b => 0 <= b < zlen st) dp -> (i < length dp * ps)%nat ->
  exists b, nth_error dp (i / ps) = Some b /\ nth_error (flat st dp) i = nth_error (page st b) (i mod ps).
Proof using Hps. clear Hlist Hper Htp Htl Hcnt Hg0 Hdp Hnd HD Hlen cached.
  intros Hg Hr Hi. pose proof (Nat.div_mod i ps ltac:(lia)) as Hdm. pose proof (Nat.mod_upper_bound i ps ltac:(lia)) as Hub. set (c := (i / ps)%nat) in *. set (r := (i mod ps)%nat) in *. clearbody c r.
  destruct (nth_error dp c) as [b|] eqn:Eb; [|apply nth_error_None in Eb; nia]. exists b. split; [reflexivity|]. pose proof Hg as (G1 & _ & G3 & _).
  assert (Rb : 0 <= b < zlen st) by (apply (in_forall _ _ b Hr); eapply nth_error_In; eauto).
  rewrite <- (flat_page ps st G1 dp c b (page st b)); [|eapply Forall_impl; [|exact Hr]; intros x Hx; exists (page st x); apply page_page; cbn in Hx; lia|exact Eb|apply page_page; lia].
  rewrite nth_error_sub. destruct (Nat.ltb_spec r ps); [|lia]. f_equal. lia.
Qed.

Lemma upto_content c st : upto c st -> content st dp (length D) = firstn (c * ps) D ++ skipn (c * ps) (content st0 dp (length D)).
Proof using Hps Hg0 Hdp Hlen. clear Hlist Hper Htp Htl Hcnt Hnd HD cached.
  intros (Hg & Hz & Hother & Hpages). pose proof (groups_spec (length D) ps ltac:(lia)) as Hg1. rewrite <- Hlen in Hg1.
  assert (Hdp' : Forall (fun b => 0 <= b < zlen st) dp) by now rewrite Hz. pose proof Hg0 as (G1 & _ & G3 & _). pose proof Hg as (G1' & _ & G3' & _).
  assert (Hpp : forall s, zlen s < 2^32 -> Forall (fun b => 0 <= b < zlen s) dp -> Forall (fun b => exists p, page_is s b p) dp).
  { intros s Hs H. eapply Forall_impl; [|exact H]. intros x Hx. exists (page s x). apply page_page; cbn in Hx; lia. }
  assert (L0 : length (content st0 dp (length D)) = length D) by (unfold content; rewrite firstn_length, (flat_len ps st0 G1 dp (Hpp st0 G3 Hdp)); lia).
  apply nth_error_ext. intros i. destruct (Nat.ltb_spec i (length D)) as [Hi|Hi].
  2:{ rewrite !(proj2 (nth_error_None _ _)); [reflexivity| |]; [rewrite app_length, firstn_length, skipn_length, L0; lia|unfold content; rewrite firstn_length; lia]. }
  unfold content at 1. rewrite <- sub_0_firstn, nth_error_sub. destruct (Nat.ltb_spec i (length D)); [|lia]. cbn [Nat.add].
  destruct (flat_nth st i Hg Hdp' ltac:(lia)) as (b & Eb & E). rewrite E. clear E. destruct (Hpages _ _ Eb) as [H1 H2].
  pose proof (Nat.div_mod i ps ltac:(lia)) as Hdm. pose proof (Nat.mod_upper_bound i ps ltac:(lia)) as Hub.
  destruct (Nat.ltb_spec (i / ps) c) as [Hc|Hc].
  - specialize (H1 Hc). assert (Hls : length (sub D (i / ps * ps) ps) = Nat.min ps (length D - i / ps * ps)) by (unfold sub; rewrite firstn_length, skipn_length; lia).
    assert (Ep : nth_error (page st b) (i mod ps) = nth_error (sub D (i / ps * ps) ps) (i mod ps)).
    { rewrite <- H1, <- sub_0_firstn, nth_error_sub. rewrite Hls. destruct (Nat.ltb_spec (i mod ps) (Nat.min ps (length D - i / ps * ps))); [reflexivity|lia]. }
    rewrite Ep, nth_error_sub. destruct (Nat.ltb_spec (i mod ps) ps); [|lia]. replace (i / ps * ps + i mod ps)%nat with i by lia.
    rewrite nth_error_app1 by (rewrite firstn_length; nia). rewrite <- sub_0_firstn, nth_error_sub. destruct (Nat.ltb_spec i (c * ps)); [reflexivity|nia].
  - specialize (H2 ltac:(lia)). rewrite H2. assert (c * ps <= i)%nat by nia. rewrite nth_error_app2 by (rewrite firstn_length; lia). rewrite firstn_length, Nat.min_l by lia.
    replace (skipn (c * ps) (content st0 dp (length D))) with (sub (content st0 dp (length D)) (c * ps) (length D)) by (unfold sub; apply firstn_all2; rewrite skipn_length; lia).
    rewrite nth_error_sub. destruct (Nat.ltb_spec (i - c * ps) (length D)); [|lia]. replace (c * ps + (i - c * ps))%nat with i by lia.
    unfold content. rewrite <- sub_0_firstn, nth_error_sub. destruct (Nat.ltb_spec i (length D)); [|lia]. cbn [Nat.add].
    destruct (flat_nth st0 i Hg0 Hdp ltac:(lia)) as (b0 & Eb0 & E0). rewrite E0. assert (b0 = b) by congruence. now subst.
Qed.
End Put.
