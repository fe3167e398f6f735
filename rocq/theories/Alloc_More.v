(** Histories of the free list; growth of an object. *)
From Verif Require Import Prelude Lists Obj_Model Obj_Spec Obj_Proofs Obj_Write Obj_Make Alloc_Model Alloc_Spec Alloc_Proofs.
Ltac Zify.zify_post_hook ::= idtac.

(** distinctness by counting *)
Ltac nodup H := let x := fresh "x" in let H' := fresh in
  apply (NoDup_count_occ Z.eq_dec); intros x; pose proof (proj1 (NoDup_count_occ Z.eq_dec _) H x) as H';
  repeat first [rewrite count_occ_app in H' | progress cbn [count_occ] in H' | match type of H' with context[Z.eq_dec ?a x] => destruct (Z.eq_dec a x) end
    | rewrite count_occ_app | progress cbn [count_occ] | match goal with |- context[Z.eq_dec ?a x] => destruct (Z.eq_dec a x) end]; try congruence; lia.
Lemma disjoint_in (a b : list Z) x : NoDup (a ++ b) -> In x a -> In x b -> False.
Proof.
  intros H Ha Hb. pose proof (proj1 (NoDup_count_occ Z.eq_dec _) H x) as H'. rewrite count_occ_app in H'.
  apply (count_occ_In Z.eq_dec) in Ha, Hb. lia.
Qed.

Lemma take_nil N : take ([], N) = (([], N + 1), N). Proof. reflexivity. Qed.
Lemma take_snoc stk v N : take (stk ++ [v], N) = ((stk, N), v).
Proof. unfold take. cbn [fst snd]. rewrite rev_unit. now rewrite rev_involutive. Qed.

Lemma within_take_len stk N : let '((stk', N'), _) := take (stk, N) in zlen stk' <= zlen stk /\ N <= N' <= N + 1.
Proof.
  unfold take. cbn [fst snd]. destruct (rev stk) as [|v r] eqn:Er; [split; [unfold zlen; cbn; lia|lia]|].
  assert (stk = rev r ++ [v]) by (apply (f_equal (@rev Z)) in Er; now rewrite rev_involutive in Er). subst. rewrite zlen_app. unfold zlen. cbn. lia.
Qed.
Lemma only_trans st st1 st2 fb : only st st1 fb -> only st1 st2 fb -> zlen st <= zlen st1 -> only st st2 fb.
Proof. intros H1 H2 Hl m Hm Hin. rewrite H2; [now apply H1|lia|exact Hin]. Qed.
Lemma groups_snoc n k : (0 < k)%nat -> groups (S n) k = S (n / k).
Proof. intros H. symmetry. apply groups_unique; [exact H|]. pose proof (Nat.div_mod n k ltac:(lia)). pose proof (Nat.mod_upper_bound n k ltac:(lia)). nia. Qed.
Lemma groups_div n k : (0 < k)%nat -> groups n k = if (n mod k =? 0)%nat then (n / k)%nat else S (n / k).
Proof.
  intros H. symmetry. pose proof (Nat.div_mod n k ltac:(lia)). pose proof (Nat.mod_upper_bound n k ltac:(lia)).
  destruct (Nat.eqb_spec (n mod k) 0); apply groups_unique; try exact H; nia.
Qed.
Lemma sub_snoc_before {A} (l : list A) x o n : (o + n <= length l)%nat -> sub (l ++ [x]) o n = sub l o n.
Proof. intros H. now apply sub_app_l. Qed.
Lemma sub_snoc_last {A} (l : list A) x o n : (o <= length l < o + n)%nat -> sub (l ++ [x]) o n = sub l o n ++ [x].
Proof.
  intros H. unfold sub. rewrite skipn_app. replace (o - length l)%nat with 0%nat by lia. cbn [skipn]. rewrite !firstn_all2; [reflexivity|rewrite skipn_length; lia|rewrite app_length, skipn_length; cbn; lia].
Qed.
Lemma sub_tail_len {A} (l : list A) o n : (o <= length l < o + n)%nat -> length (sub l o n) = (length l - o)%nat.
Proof. intros H. unfold sub. rewrite firstn_length, skipn_length. lia. Qed.
Lemma in_forall {A} (Q : A -> Prop) l x : Forall Q l -> In x l -> Q x.
Proof. intros H. rewrite Forall_forall in H. apply H. Qed.
Lemma array_nil p off : array_at p off [].
Proof. intros [|i] v H; discriminate. Qed.
Lemma free_frame ps st st' fl fb stk : free_list ps st fl fb stk -> page st' 1 = page st 1 -> (forall b, In b fb -> page st' b = page st b) -> zlen st <= zlen st' -> free_list ps st' fl fb stk.
Proof.
  intros (A1 & A2 & A3 & A4 & A5 & A6 & A7 & A8 & A9 & A10 & A11 & A12 & A13 & A14 & A15) H1 Hb Hl. unfold free_list. rewrite H1, (flat_stable st st' fb Hb).
  repeat (split; [assumption|]). split; [eapply Forall_impl; [|exact A10]; intros x Hx; cbn in *; lia|]. now repeat (split; [assumption|]).
Qed.
Lemma tables_page ps st tabs dp j t : good ps st -> tables st per80 4 true tabs dp -> nth_error tabs j = Some t ->
  array_at (page st t) 4 (sub dp (j * per80) per80) /\ num_at (page st t) 0 (Z.of_nat (length (sub dp (j * per80) per80))) /\ 0 <= t < zlen st.
Proof. intros Hg [_ H] Hj. destruct (H j t Hj) as (p & Hp & Ha & Hc). apply page_of in Hp. destruct Hp as [-> Ht]. auto. Qed.
Lemma tables_intro ps st tabs dp : good ps st -> length tabs = groups (length dp) per80 ->
  (forall j t, nth_error tabs j = Some t -> 0 <= t < zlen st /\ array_at (page st t) 4 (sub dp (j * per80) per80) /\ num_at (page st t) 0 (Z.of_nat (length (sub dp (j * per80) per80)))) ->
  tables st per80 4 true tabs dp.
Proof.
  intros (_ & _ & G3 & _) Hl H. split; [exact Hl|]. intros j t Hj. destruct (H j t Hj) as (Ht & Ha & Hc). exists (page st t). split; [apply page_page; lia|]. now split.
Qed.
Section Pg.
Variables (slack : Z) (ps : nat).
Hypothesis Hps : (32 <= ps)%nat.
Let P := Z.of_nat ps.

Lemma pop_ok cached st fl fb stk : good ps st -> free_list ps st fl fb stk -> zlen st + 1 < 2^32 ->
  exists st' fl' k stk', pop_free cached P st fl = Ok (st', fl', k) /\ take (stk, zlen st) = ((stk', zlen st'), k) /\ good ps st' /\ free_list ps st' fl' fb stk' /\ only st st' fb /\
    zlen st <= zlen st' <= zlen st + 1 /\ (stk = stk' ++ [k] /\ zlen st' = zlen st \/ stk = [] /\ stk' = [] /\ k = zlen st /\ zlen st' = zlen st + 1).
Proof.
  intros Hg Hf H32. destruct (rev stk) as [|v r] eqn:Er.
  - assert (stk = []) by (apply (f_equal (@rev Z)) in Er; now rewrite rev_involutive in Er). subst stk.
    destruct (pop_none cached ps Hps st fl fb Hg Hf H32) as (st' & E & Hg' & Hf' & Ho & Hl). exists st', fl, (zlen st), []. fold P in E. rewrite take_nil, Hl.
    repeat (split; [assumption||reflexivity|]). split; [lia|]. right. now repeat split.
  - assert (stk = rev r ++ [v]) by (apply (f_equal (@rev Z)) in Er; now rewrite rev_involutive in Er). subst stk.
    destruct (pop_some cached ps Hps st fl fb (rev r) v Hg Hf) as (st' & fl' & E & Hg' & Hf' & Ho & Hl). exists st', fl', v, (rev r). fold P in E. rewrite take_snoc, Hl.
    repeat (split; [assumption||reflexivity|]). split; [lia|]. left. now split.
Qed.



Lemma fexecs_ok xs : forall st fl fb stk, good ps st -> free_list ps st fl fb stk -> zlen st + zlen xs < 2^32 -> within (1024 * zlen fb) (stk, zlen st) xs ->
  exists st' fl', fexecs slack P (st, fl) xs = Ok ((st', fl'), snd (fplains (stk, zlen st) xs)) /\ good ps st' /\
    free_list ps st' fl' fb (fst (fst (fplains (stk, zlen st) xs))) /\ zlen st' = snd (fst (fplains (stk, zlen st) xs)) /\ only st st' fb /\ zlen st <= zlen st'.
Proof.
  induction xs as [|[x cached] xs IH]; intros st fl fb stk Hg Hf H32 Hw.
  - exists st, fl. cbn. repeat (split; [assumption||reflexivity|]). split; [intros m _ _; reflexivity|lia].
  - rewrite zlen_cons in H32. pose proof (zlen_nonneg xs) as Hx0. cbn [within] in Hw. destruct Hw as [Hc Hw]. cbn [fexecs]. destruct x as [v|].
    + destruct Hc as [Hv Hc]. cbn [fst] in Hc. destruct (push_ok slack cached ps Hps st fl fb stk v Hg Hf Hv Hc) as (st1 & fl1 & E & G1 & F1 & O1 & L1). fold P in E.
      cbn [fexec fst snd fplain] in *. rewrite E. cbn [rbind fst snd].
      assert (Hw1 : within (1024 * zlen fb) (stk ++ [v], zlen st1) xs) by now rewrite L1.
      destruct (IH st1 fl1 fb (stk ++ [v]) G1 F1 ltac:(lia) Hw1) as (st' & fl' & E' & G' & F' & L' & O' & M'). rewrite E'. cbn [rbind fst snd fplains fplain]. rewrite L1 in *.
      exists st', fl'. repeat (split; [assumption||reflexivity|]). split; [eapply only_trans; eauto; lia|lia].
    + destruct (pop_ok cached st fl fb stk Hg Hf ltac:(lia)) as (st1 & fl1 & k & stk1 & E & T & G1 & F1 & O1 & L1 & _).
      cbn [fexec fst snd fplain fplains] in *. rewrite E, T in *. cbn [rbind fst snd] in *.
      destruct (IH st1 fl1 fb stk1 G1 F1 ltac:(lia) Hw) as (st' & fl' & E' & G' & F' & L' & O' & M'). rewrite E'. cbn [rbind fst snd].
      exists st', fl'. repeat (split; [assumption||reflexivity|]). split; [eapply only_trans; eauto; lia|lia].
Qed.

(** opening page 1 finds the same list *)
Lemma free_reopen st fl fb stk : good ps st -> free_list ps st fl fb stk -> exists o, obj_open P false st 1 = Ok o /\ free_list ps st o fb stk.
Proof.
  intros Hg (A1 & A2 & A3 & A4 & A5 & A6 & A7 & A8 & A9 & A10 & A11 & A12 & A13 & A14 & A15). pose proof Hg as (G1 & G2 & G3 & G4).
  destruct (good_page ps st 1 Hg ltac:(lia)) as [L1 _]. unfold obj_open. rewrite get_page_page by lia. cbn [rbind].
  change 8 with (Z.of_nat 8) at 1. rewrite rdn_ok by (unfold zlen; lia). cbn [rbind]. change (Z.to_nat 0) with 0%nat. rewrite Nat2Z.id, (bytes_eqb_ok _ _ A12). cbn [negb].
  pose proof (u32at_ok _ _ _ A13) as U8. change (Z.of_nat 8) with 8 in U8. rewrite U8. cbn [rbind].
  assert (U : forall off, (off + 4 <= 32)%nat -> exists v, u32at (page st 1) (Z.of_nat off) = Ok v).
  { intros off Ho. unfold u32at. rewrite rdn_ok by (unfold zlen; lia). cbn [rbind]. eauto. }
  destruct (U 12%nat ltac:(lia)) as [v1 E1]. destruct (U 16%nat ltac:(lia)) as [v2 E2]. change (Z.of_nat 12) with 12 in E1. change (Z.of_nat 16) with 16 in E2. rewrite E1, E2. cbn [rbind Z.eqb Pos.eqb].
  pose proof (until_zero_ok _ 24 fb (S (Z.to_nat P)) A14) as E3. change (Z.of_nat 24) with 24 in E3. rewrite E3; [|eapply Forall_impl; [|exact A10]; intros x Hx; cbn in Hx; lia|unfold zlen in A8; lia].
  cbn [rbind]. eexists. split; [reflexivity|]. unfold free_list. cbn [o_ty o_block o_len o_real o_blocks]. now repeat (split; [assumption||reflexivity|]).
Qed.

(** the list changes only through its own pages *)

(** ** growth of an object of the older format *)
Definition ginv (st : store) (fl : obj) (fb stk : list Z) (n : Z) (tabs dp R : list Z) : Prop :=
  good ps st /\ free_list ps st fl fb stk /\ NoDup (fb ++ stk ++ n :: tabs ++ dp ++ R) /\ Forall (fun b => 1 < b < zlen st) (stk ++ n :: tabs ++ dp ++ R) /\
  array_at (page st n) 24 tabs /\ tables st per80 4 true tabs dp.



(** a data page [bl] is added: the earlier tables are untouched, table number [j] lists [bl] too *)
Lemma tables_snoc st st' tabs tabs' dp bl t : good ps st -> good ps st' -> tables st per80 4 true tabs dp ->
  let j := (length dp / per80)%nat in
  nth_error tabs' j = Some t -> length tabs' = S j -> (forall j', (j' < j)%nat -> nth_error tabs' j' = nth_error tabs j') ->
  (forall j' t', (j' < j)%nat -> nth_error tabs j' = Some t' -> page st' t' = page st t') -> zlen st <= zlen st' -> 0 <= t < zlen st' ->
  array_at (page st' t) 4 (sub dp (j * per80) per80 ++ [bl]) -> num_at (page st' t) 0 (Z.of_nat (length dp mod per80) + 1) ->
  tables st' per80 4 true tabs' (dp ++ [bl]).
Proof.
  intros Hg Hg' Ht j Hj Hlt Hsame Hpages Hz Htr Ha Hc. pose proof per80_pos as HP.
  pose proof (Nat.div_mod (length dp) per80 ltac:(lia)) as Hdm. pose proof (Nat.mod_upper_bound (length dp) per80 ltac:(lia)) as Hub. fold j in Hdm.
  apply (tables_intro ps); [exact Hg'|rewrite app_length, Nat.add_1_r, groups_snoc by exact HP; exact Hlt|].
  intros j' t' Hj'. assert (j' < length tabs')%nat by (apply nth_error_Some; congruence). destruct (Nat.eq_dec j' j) as [->|Hne].
  - assert (t' = t) by congruence. subst t'. split; [exact Htr|]. rewrite sub_snoc_last by nia. split; [exact Ha|]. rewrite app_length. cbn [length].
    rewrite sub_tail_len by nia. replace (Z.of_nat (length dp - j * per80 + 1)) with (Z.of_nat (length dp mod per80) + 1) by nia. exact Hc.
  - assert (Hlt' : (j' < j)%nat) by lia. rewrite Hsame in Hj' by lia. destruct (tables_page ps st tabs dp j' t' Hg Ht Hj') as (B1 & B2 & B3).
    rewrite (Hpages j' t' Hlt' Hj'). rewrite sub_snoc_before by nia. split; [lia|]. now split.
Qed.

Lemma pop_used cached st fl fb stk U : good ps st -> free_list ps st fl fb stk -> zlen st + 1 < 2^32 ->
  NoDup (fb ++ stk ++ U) -> Forall (fun b => 1 < b < zlen st) (stk ++ U) ->
  exists st' fl' k stk', pop_free cached P st fl = Ok (st', fl', k) /\ take (stk, zlen st) = ((stk', zlen st'), k) /\ good ps st' /\ free_list ps st' fl' fb stk' /\
    NoDup (fb ++ stk' ++ k :: U) /\ Forall (fun b => 1 < b < zlen st') (stk' ++ k :: U) /\ zlen st <= zlen st' <= zlen st + 1 /\ (forall m, In m U -> page st' m = page st m).
Proof.
  intros Hg Hf H32 Hnd Hr. destruct (pop_ok cached st fl fb stk Hg Hf H32) as (st' & fl' & k & stk' & E & T & Hg' & Hf' & Ho & Hl & Hc).
  exists st', fl', k, stk'. repeat (split; [assumption|]).
  assert (HU : forall m, In m U -> 1 < m < zlen st /\ ~ In m fb).
  { intros m Hm. split; [rewrite Forall_forall in Hr; apply Hr, in_or_app; now right|]. intros Hb. eapply (disjoint_in fb (stk ++ U)); eauto. apply in_or_app. now right. }
  split; [|split].
  - destruct Hc as [[-> Hz]|(-> & -> & -> & Hz)].
    + nodup Hnd.
    + cbn [app] in *. pose proof Hf as (_ & _ & _ & _ & _ & _ & _ & _ & _ & A10 & _).
      assert (Hk : ~ In (zlen st) fb) by (intros Hin; rewrite Forall_forall in A10; apply A10 in Hin; lia).
      assert (Hk2 : ~ In (zlen st) U) by (intros Hin; apply HU in Hin; lia).
      apply (NoDup_count_occ Z.eq_dec). intros x. pose proof (proj1 (NoDup_count_occ Z.eq_dec _) Hnd x) as H'. apply (count_occ_not_In Z.eq_dec) in Hk, Hk2. rewrite count_occ_app in *. cbn [count_occ]. destruct (Z.eq_dec (zlen st) x); subst; lia.
  - destruct Hc as [[-> Hz]|(-> & -> & -> & Hz)]; rewrite Hz.
    + rewrite <- app_assoc in Hr. exact Hr.
    + cbn [app] in *. destruct Hg as (_ & _ & _ & G4). constructor; [lia|]. eapply Forall_impl; [|exact Hr]. intros x Hx. cbn in Hx. lia.
  - split; [exact Hl|]. intros m Hm. apply HU in Hm. apply Ho; tauto.
Qed.

(** a table page may still lack its count *)
Definition pend (st : store) (tabs dp : list Z) : Prop :=
  length tabs = S (length dp / per80) /\
  forall j t, nth_error tabs j = Some t -> array_at (page st t) 4 (sub dp (j * per80) per80) /\
    ((j < length dp / per80)%nat -> num_at (page st t) 0 (Z.of_nat (length (sub dp (j * per80) per80)))).


Lemma data_phase cached st fl fb stk n tabs dp R t : good ps st -> free_list ps st fl fb stk -> zlen st + 1 < 2^32 ->
  NoDup (fb ++ stk ++ n :: tabs ++ dp ++ R) -> Forall (fun b => 1 < b < zlen st) (stk ++ n :: tabs ++ dp ++ R) ->
  array_at (page st n) 24 tabs -> pend st tabs dp -> nth_error tabs (length dp / per80) = Some t ->
  exists st1 fl1 bl st2 st3 st4 stk1, pop_free cached P st fl = Ok (st1, fl1, bl) /\ touch cached P st1 bl = Ok st2 /\
    poke32 cached P st2 t (4 + 4 * Z.of_nat (length dp mod per80)) bl = Ok st3 /\ poke32 cached P st3 t 0 (Z.of_nat (length dp mod per80) + 1) = Ok st4 /\
    take (stk, zlen st) = ((stk1, zlen st4), bl) /\ ginv st4 fl1 fb stk1 n tabs (dp ++ [bl]) R /\ zlen st <= zlen st4 <= zlen st + 1 /\
    page st4 n = page st n /\ (forall m, In m (dp ++ R) -> page st4 m = page st m).
Proof.
  intros Hg Hf H32 Hnd Hr Hh [Hpl Hpp] Ht. assert (H4096 : Z.of_nat ps = 4096) by apply Hf. pose proof per80_pos as HP. pose proof per80_Z as HZ.
  set (i := (length dp mod per80)%nat). set (j := (length dp / per80)%nat) in *.
  assert (Hi : (i < per80)%nat) by (apply Nat.mod_upper_bound; lia).
  assert (Hdm : length dp = (per80 * j + i)%nat) by (apply Nat.div_mod; lia).
  destruct (pop_used cached st fl fb stk (n :: tabs ++ dp ++ R) Hg Hf H32 Hnd Hr) as (st1 & fl1 & bl & stk1 & E & T & G1 & F1 & N1 & R1 & L1 & S1).
  assert (Rb : 1 < bl < zlen st1) by (apply (in_forall _ _ bl R1), in_or_app; right; now left).
  destruct (fresh_ok cached ps Hps st1 bl [] G1 ltac:(lia) ltac:(cbn; lia) ltac:(constructor)) as (q & E2 & Lq & Bq).
  rewrite splice_nil in E2. set (st2 := upd st1 bl q) in *.
  assert (G2 : good ps st2) by (apply upd_good; try assumption; lia).
  assert (Z2 : zlen st2 = zlen st1) by (apply upd_len; lia).
  assert (Int : In t tabs) by (eapply nth_error_In; eauto).
  assert (IU : In t (n :: tabs ++ dp ++ R)) by (right; apply in_or_app; now left).
  assert (Rt : 1 < t < zlen st1) by (apply (in_forall _ _ t R1), in_or_app; right; now right).
  assert (Hbl : forall m, In m (n :: tabs ++ dp ++ R) -> m <> bl).
  { intros m Hm ->. eapply (disjoint_in (fb ++ stk1 ++ [bl]) (n :: tabs ++ dp ++ R) bl); [rewrite <- !app_assoc; exact N1| |exact Hm]. apply in_or_app. right. apply in_or_app. right. now left. }
  assert (Htn : t <> n). { intros ->. eapply (disjoint_in [n] tabs n); [|now left|exact Int]. cbn [app]. nodup Hnd. }
  assert (Htd : forall m, In m (dp ++ R) -> m <> t). { intros m Hm ->. eapply (disjoint_in tabs (dp ++ R) t); [|exact Int|exact Hm]. nodup Hnd. }
  assert (Hzb : 4 + 4 * Z.of_nat i = Z.of_nat (4 + 4 * i)) by lia.
  set (st3 := upd st2 t (splice (page st2 t) (4 + 4 * i) (le_bytes 4 (u32 bl)))).
  assert (G3 : good ps st3) by (apply (poke_good cached); [exact Hps|exact G2|lia|rewrite le_bytes_length; lia|apply le_bytes_ok]).
  assert (Z3 : zlen st3 = zlen st1) by (unfold st3; rewrite upd_len; lia).
  set (st4 := upd st3 t (splice (page st3 t) 0 (le_bytes 4 (u32 (Z.of_nat i + 1))))).
  assert (G4 : good ps st4) by (apply (poke_good cached); [exact Hps|exact G3|lia|rewrite le_bytes_length; lia|apply le_bytes_ok]).
  assert (Z4 : zlen st4 = zlen st1) by (unfold st4; rewrite upd_len; lia).
  assert (Et : page st4 t = splice (splice (page st t) (4 + 4 * i) (le_bytes 4 (u32 bl))) 0 (le_bytes 4 (u32 (Z.of_nat i + 1)))).
  { unfold st4. rewrite upd_page, Z.eqb_refl by lia. f_equal. unfold st3. rewrite upd_page, Z.eqb_refl by lia. f_equal. unfold st2. rewrite upd_page by lia.
    destruct (Z.eqb_spec t bl) as [e|_]; [exfalso; exact (Hbl t IU e)|]. now apply S1. }
  assert (Eo : forall m, 0 <= m -> m <> t -> m <> bl -> page st4 m = page st1 m).
  { intros m Hm Hmt Hmb. unfold st4. rewrite upd_page by lia. destruct (Z.eqb_spec m t); [contradiction|]. unfold st3. rewrite upd_page by lia. destruct (Z.eqb_spec m t); [contradiction|]. unfold st2. rewrite upd_page by lia. destruct (Z.eqb_spec m bl); [contradiction|reflexivity]. }
  assert (Rt0 : 1 < t < zlen st) by (apply (in_forall _ _ t Hr); apply in_or_app; right; exact IU).
  destruct (good_page ps st t Hg ltac:(lia)) as [Lt Bt].
  assert (EU : forall m, In m (n :: tabs ++ dp ++ R) -> m <> t -> page st4 m = page st m).
  { intros m Hm Hmt. rewrite Eo; [now apply S1| |exact Hmt|now apply Hbl]. assert (1 < m < zlen st) by (apply (in_forall _ _ m Hr), in_or_app; now right). lia. }
  exists st1, fl1, bl, st2, st3, st4, stk1. split; [exact E|]. split; [exact E2|]. rewrite Hzb.
  split; [apply poke_ok; [exact Hps|exact G2|lia|rewrite le_bytes_length; lia]|].
  split; [change 0 with (Z.of_nat 0) at 1; apply poke_ok; [exact Hps|exact G3|lia|rewrite le_bytes_length; lia]|].
  split; [rewrite Z4; exact T|]. split; [|split; [lia|split; [apply EU; [now left|congruence]|intros m Hm; apply EU; [right; apply in_or_app; now right|now apply Htd]]]].
  split; [exact G4|]. split.
  { eapply free_frame; [exact F1| | |lia].
    - apply Eo; [lia|lia|lia].
    - intros b Hb. assert (Hb1 : 1 < b < zlen st1). { pose proof F1 as (_ & _ & _ & _ & _ & _ & _ & _ & _ & A10 & _). apply (in_forall _ _ b A10 Hb). }
      apply Eo; [lia| |]; intros ->; eapply (disjoint_in fb (stk1 ++ bl :: n :: tabs ++ dp ++ R)); try exact N1; try exact Hb; apply in_or_app; right; [right; exact IU|now left]. }
  split; [nodup N1|]. split.
  { rewrite Z4. apply Forall_forall. intros x Hx. apply (in_forall _ _ x R1). rewrite !in_app_iff in *. cbn [In] in *. rewrite !in_app_iff in *. cbn [In] in *. tauto. }
  split; [rewrite EU; [exact Hh|now left|congruence]|].
  destruct (Hpp j t Ht) as [Ha _].
  apply (tables_intro ps); [exact G4|rewrite app_length, Nat.add_1_r, groups_snoc by exact HP; exact Hpl|].
  intros j' t' Hj'. assert (j' < length tabs)%nat by (apply nth_error_Some; congruence).
  assert (Int' : In t' tabs) by (eapply nth_error_In; eauto). assert (IU' : In t' (n :: tabs ++ dp ++ R)) by (right; apply in_or_app; now left).
  split. { assert (1 < t' < zlen st) by (apply (in_forall _ _ t' Hr), in_or_app; now right). lia. }
  destruct (Nat.eq_dec j' j) as [->|Hne].
  - assert (t' = t) by congruence. subst t'. rewrite sub_snoc_last by lia. rewrite app_length. cbn [length]. rewrite sub_tail_len by lia.
    assert (Hsl : length (sub dp (j * per80) per80) = i) by (rewrite sub_tail_len by lia; lia). rewrite Et.
    assert (L3 : length (splice (page st t) (4 + 4 * i) (le_bytes 4 (u32 bl))) = ps) by (rewrite splice_length; rewrite ?le_bytes_length; lia). split.
    + apply array_other; [|rewrite le_bytes_length; lia|right; rewrite le_bytes_length; lia]. rewrite <- Hsl. apply array_set; [exact Ha|lia|]. destruct G1 as (_ & _ & G1 & _). lia.
    + replace (Z.of_nat (length dp - j * per80 + 1)) with (Z.of_nat i + 1) by lia. apply num_at_splice; lia.
  - assert (Hlt' : (j' < j)%nat) by lia. rewrite sub_snoc_before by nia. rewrite EU; [|exact IU'|].
    + destruct (Hpp j' t' Hj') as [B1 B2]. split; [exact B1|now apply B2].
    + intros ->. apply Hne. eapply NoDup_nth_inj; [|exact Hj'|exact Ht]. nodup Hnd.
Qed.
End Pg.
