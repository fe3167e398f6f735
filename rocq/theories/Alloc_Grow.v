(** Growth of an object of the older format. *)
From Verif Require Import Prelude Lists Obj_Model Obj_Spec Obj_Proofs Obj_Write Obj_Make Alloc_Model Alloc_Spec Alloc_Proofs Alloc_More.
Ltac Zify.zify_post_hook ::= idtac.

Lemma grow80_step k cached ps hd cur num tb st fl :
  grow80 cached ps (S k) hd cur num tb st fl =
      let i := cur mod 1023 in
      do a <- (if i =? 0 then
                 do r <- pop_free cached ps st fl;
                 let '(st1, fl1, bl) := r in
                 do st2 <- poke32 cached ps st1 hd (24 + 4 * num) bl;
                 do st3 <- write_page cached ps st2 bl false 0 (le_bytes 4 0);
                 Ok (st3, fl1, num + 1, Some bl)
               else Ok (st, fl, num, tb));
      let '(st1, fl1, num1, tb1) := a in
      do r <- pop_free cached ps st1 fl1;
      let '(st2, fl2, bl) := r in
      do st3 <- touch cached ps st2 bl;
      match tb1 with
      | None => UB
      | Some t =>
          do st4 <- poke32 cached ps st3 t (4 + 4 * i) bl;
          do st5 <- poke32 cached ps st4 t 0 (i + 1);
          grow80 cached ps k hd (cur + 1) num1 tb1 st5 fl2
      end.
Proof. reflexivity. Qed.

(** page numbers taken for [n] more data pages after [cur]: a table page before every 1023 *)
Fixpoint need (n cur : nat) : nat := match n with O => 0 | S k => (if (cur mod per80 =? 0)%nat then 2 else 1) + need k (S cur) end.
Lemma need_bound n : forall cur, (n <= need n cur <= 2 * n)%nat.
Proof. induction n as [|n IH]; intros cur; cbn [need]; [lia|]. specialize (IH (S cur)). destruct (cur mod per80 =? 0)%nat; lia. Qed.
Lemma takes_app n m s : takes (n + m) s = let (s1, a) := takes n s in let (s2, b) := takes m s1 in (s2, a ++ b).
Proof.
  revert s. induction n as [|n IH]; intros s; cbn [takes Nat.add].
  - destruct (takes m s); reflexivity.
  - destruct (take s) as [s1 x]. rewrite IH. destruct (takes n s1) as [s2 a]. destruct (takes m s2) as [s3 b]. reflexivity.
Qed.

Section G.
Variables (cached : Z -> bool) (ps : nat).
Hypothesis Hps : (32 <= ps)%nat.
Let P := Z.of_nat ps.

Lemma table_phase st fl fb stk n tabs dp R : ginv ps st fl fb stk n tabs dp R -> zlen st + 1 < 2^32 -> (length dp mod per80 = 0)%nat -> Z.of_nat (length tabs) < 1018 ->
  exists st1 fl1 t st2 st3 stk1, pop_free cached P st fl = Ok (st1, fl1, t) /\ poke32 cached P st1 n (24 + 4 * zlen tabs) t = Ok st2 /\
    write_page cached P st2 t false 0 (le_bytes 4 0) = Ok st3 /\ take (stk, zlen st) = ((stk1, zlen st3), t) /\
    good ps st3 /\ free_list ps st3 fl1 fb stk1 /\ NoDup (fb ++ stk1 ++ n :: (tabs ++ [t]) ++ dp ++ R) /\ Forall (fun b => 1 < b < zlen st3) (stk1 ++ n :: (tabs ++ [t]) ++ dp ++ R) /\
    array_at (page st3 n) 24 (tabs ++ [t]) /\ pend st3 (tabs ++ [t]) dp /\ zlen st <= zlen st3 <= zlen st + 1 /\
    sub (page st3 n) 0 24 = sub (page st n) 0 24 /\ (forall m, In m (tabs ++ dp ++ R) -> page st3 m = page st m).
Proof.
  intros (Hg & Hf & Hnd & Hr & Hh & Htab) H32 H0 Hmax. assert (H4096 : Z.of_nat ps = 4096) by apply Hf. pose proof per80_pos as HP.
  destruct (pop_used ps Hps cached st fl fb stk (n :: tabs ++ dp ++ R) Hg Hf H32 Hnd Hr) as (st1 & fl1 & t & stk1 & E & T & G1 & F1 & N1 & R1 & L1 & S1). fold P in E.
  assert (Rt : 1 < t < zlen st1) by (apply (in_forall _ _ t R1), in_or_app; right; now left).
  assert (Rn : 1 < n < zlen st1) by (apply (in_forall _ _ n R1), in_or_app; right; right; now left).
  assert (Rn0 : 1 < n < zlen st) by (apply (in_forall _ _ n Hr), in_or_app; right; now left).
  assert (Ht : forall m, In m (n :: tabs ++ dp ++ R) -> m <> t).
  { intros m Hm ->. eapply (disjoint_in (fb ++ stk1 ++ [t]) (n :: tabs ++ dp ++ R) t); [rewrite <- !app_assoc; exact N1| |exact Hm]. apply in_or_app. right. apply in_or_app. right. now left. }
  assert (Hn : forall m, In m (tabs ++ dp ++ R) -> m <> n). { intros m Hm ->. eapply (disjoint_in [n] (tabs ++ dp ++ R) n); [cbn [app]; nodup Hnd|now left|exact Hm]. }
  assert (Hoff : 24 + 4 * zlen tabs = Z.of_nat (24 + 4 * length tabs)) by (unfold zlen; lia).
  set (st2 := upd st1 n (splice (page st1 n) (24 + 4 * length tabs) (le_bytes 4 (u32 t)))).
  assert (G2 : good ps st2) by (apply (poke_good cached); [exact Hps|exact G1|lia|rewrite le_bytes_length; lia|apply le_bytes_ok]).
  assert (Z2 : zlen st2 = zlen st1) by (unfold st2; rewrite upd_len; lia).
  destruct (fresh_ok cached ps Hps st2 t (le_bytes 4 0) G2 ltac:(lia) ltac:(rewrite le_bytes_length; lia) (le_bytes_ok _ _)) as (q & E3 & Lq & Bq). fold P in E3.
  set (st3 := upd st2 t (splice q 0 (le_bytes 4 0))) in *.
  assert (G3 : good ps st3) by (apply upd_good; [exact G2|lia|rewrite splice_length; rewrite ?le_bytes_length; lia|apply bytes_ok_splice; [exact Bq|apply le_bytes_ok]]).
  assert (Z3 : zlen st3 = zlen st1) by (unfold st3; rewrite upd_len; lia).
  destruct (good_page ps st n Hg ltac:(lia)) as [Ln Bn].
  assert (En : page st3 n = splice (page st n) (24 + 4 * length tabs) (le_bytes 4 (u32 t))).
  { unfold st3. rewrite upd_page by lia. destruct (Z.eqb_spec n t) as [e|_]; [exfalso; apply (Ht n); [now left|exact e]|]. unfold st2. rewrite upd_page, Z.eqb_refl by lia. f_equal. apply S1. now left. }
  assert (Eo : forall m, 0 <= m -> m <> n -> m <> t -> page st3 m = page st1 m).
  { intros m Hm H1 H2. unfold st3. rewrite upd_page by lia. destruct (Z.eqb_spec m t); [contradiction|]. unfold st2. rewrite upd_page by lia. destruct (Z.eqb_spec m n); [contradiction|reflexivity]. }
  assert (EU : forall m, In m (tabs ++ dp ++ R) -> page st3 m = page st m).
  { intros m Hm. assert (1 < m < zlen st) by (apply (in_forall _ _ m Hr), in_or_app; right; now right). rewrite Eo; [apply S1; now right|lia|now apply Hn|apply Ht; now right]. }
  exists st1, fl1, t, st2, st3, stk1. split; [exact E|]. rewrite Hoff. split; [apply poke_ok; [exact Hps|exact G1|lia|rewrite le_bytes_length; lia]|]. split; [exact E3|].
  split; [rewrite Z3; exact T|]. split; [exact G3|]. split.
  { eapply free_frame; [exact F1|apply Eo; lia| |lia].
    intros b Hb. assert (Hb1 : 1 < b < zlen st1) by (apply (in_forall _ _ b (proj1 (proj2 (proj2 (proj2 (proj2 (proj2 (proj2 (proj2 (proj2 (proj2 F1)))))))))) Hb)).
    apply Eo; [lia| |]; intros ->; eapply (disjoint_in fb (stk1 ++ t :: n :: tabs ++ dp ++ R)); try exact N1; try exact Hb; apply in_or_app; right; [right; now left|now left]. }
  split; [nodup N1|]. split.
  { rewrite Z3. apply Forall_forall. intros x Hx. apply (in_forall _ _ x R1). rewrite !in_app_iff in *. cbn [In] in *. rewrite !in_app_iff in *. cbn [In] in *. tauto. }
  split; [rewrite En; apply array_set; [exact Hh|lia|destruct G1 as (_ & _ & G1' & _); lia]|].
  assert (Htl : length tabs = (length dp / per80)%nat). { destruct Htab as [-> _]. rewrite groups_div by exact HP. now rewrite H0. }
  split.
  - split; [rewrite app_length; cbn [length]; lia|]. intros j t' Hj. assert (Hjl : (j < length (tabs ++ [t]))%nat) by (apply nth_error_Some; congruence). rewrite app_length in Hjl. cbn [length] in Hjl.
    destruct (Nat.eq_dec j (length tabs)) as [->|Hne].
    + split; [|lia]. pose proof (Nat.div_mod (length dp) per80 ltac:(lia)) as Hdm. unfold sub. rewrite skipn_all2 by nia. rewrite firstn_nil. apply array_nil.
    + rewrite nth_error_app1 in Hj by lia. destruct (tables_page ps st tabs dp j t' Hg Htab Hj) as (B1 & B2 & B3). rewrite (EU t') by (apply in_or_app; left; eapply nth_error_In; eauto). split; [exact B1|intros _; exact B2].
  - split; [lia|]. split; [rewrite En; apply sub_splice_other; [rewrite le_bytes_length; lia|left; lia]|exact EU].
Qed.

Lemma ginv_pend st fl fb stk n tabs dp R : ginv ps st fl fb stk n tabs dp R -> (length dp mod per80 <> 0)%nat -> pend st tabs dp.
Proof.
  intros (Hg & Hf & Hnd & Hr & Hh & Htab) H0. pose proof per80_pos as HP. split.
  - destruct Htab as [-> _]. rewrite groups_div by exact HP. destruct (Nat.eqb_spec (length dp mod per80) 0); [contradiction|reflexivity].
  - intros j t Hj. destruct (tables_page ps st tabs dp j t Hg Htab Hj) as (B1 & B2 & B3). split; [exact B1|intros _; exact B2].
Qed.

Lemma grow80_ok k : forall st fl fb stk n tabs dp R tb, ginv ps st fl fb stk n tabs dp R -> zlen st + Z.of_nat (need k (length dp)) < 2^32 -> Z.of_nat (groups (length dp + k) per80) <= 1018 ->
  ((length dp mod per80 <> 0)%nat -> exists t, tb = Some t /\ nth_error tabs (length dp / per80) = Some t) ->
  exists st' fl' stk' new tabs' dp', grow80 cached P k n (Z.of_nat (length dp)) (zlen tabs) tb st fl = Ok (st', fl', zlen (tabs ++ tabs')) /\
    takes (need k (length dp)) (stk, zlen st) = ((stk', zlen st'), new) /\
    ginv ps st' fl' fb stk' n (tabs ++ tabs') (dp ++ dp') R /\ length dp' = k /\ zlen st <= zlen st' /\
    sub (page st' n) 0 24 = sub (page st n) 0 24 /\ (forall m, In m (dp ++ R) -> page st' m = page st m).
Proof.
  pose proof per80_pos as HP. pose proof per80_Z as HZ. induction k as [|k IH]; intros st fl fb stk n tabs dp R tb Hi H32 Hmax Htb.
  - exists st, fl, stk, [], [], []. cbn [need takes grow80]. rewrite !app_nil_r. split; [reflexivity|]. split; [reflexivity|]. split; [exact Hi|]. split; [reflexivity|]. split; [lia|]. split; [reflexivity|]. intros; reflexivity.
  - rewrite grow80_step. cbv zeta.
    assert (Ei : Z.of_nat (length dp) mod 1023 = Z.of_nat (length dp mod per80)) by (rewrite <- HZ; symmetry; apply Nat2Z.inj_mod). rewrite Ei. cbn [need] in *.
    pose proof (need_bound k (S (length dp))) as Hnb.
    assert (Hlen1 : forall bl, length (dp ++ [bl]) = S (length dp)) by (intros; rewrite app_length; cbn; lia).
    destruct (Nat.eqb_spec (length dp mod per80) 0) as [H0|H0].
    + assert (Htl : length tabs = (length dp / per80)%nat). { destruct Hi as (_ & _ & _ & _ & _ & [-> _]). rewrite groups_div by exact HP. now rewrite H0. }
      assert (Hg1 : (groups (S (length dp)) per80 <= groups (length dp + S k) per80)%nat).
      { pose proof (groups_spec (S (length dp)) per80 HP). pose proof (groups_spec (length dp + S k) per80 HP). nia. }
      rewrite groups_snoc in Hg1 by exact HP.
      destruct (table_phase st fl fb stk n tabs dp R Hi ltac:(lia) H0 ltac:(lia)) as (st1 & fl1 & t & st2 & st3 & stk1 & E1 & E2 & E3 & T1 & G3 & F3 & N3 & R3 & A3 & P3 & L3 & B3 & U3).
      destruct (Z.eqb_spec (Z.of_nat (length dp mod per80)) 0); [|lia]. rewrite E1. cbn [rbind]. rewrite E2. cbn [rbind]. rewrite E3. cbn [rbind].
      assert (Hnt : nth_error (tabs ++ [t]) (length dp / per80) = Some t) by (rewrite nth_error_app2 by lia; replace (length dp / per80 - length tabs)%nat with 0%nat by lia; reflexivity).
      destruct (data_phase ps Hps cached st3 fl1 fb stk1 n (tabs ++ [t]) dp R t G3 F3 ltac:(lia) N3 R3 A3 P3 Hnt) as (st4 & fl4 & bl & st5 & st6 & st7 & stk7 & D1 & D2 & D3 & D4 & T2 & I7 & L7 & B7 & U7).
      fold P in D1, D2, D3, D4. rewrite D1. cbn [rbind]. rewrite D2. cbn [rbind]. rewrite D3. cbn [rbind]. rewrite D4. cbn [rbind].
      replace (Z.of_nat (length dp) + 1) with (Z.of_nat (length (dp ++ [bl]))) by (rewrite Hlen1; lia).
      replace (zlen tabs + 1) with (zlen (tabs ++ [t])) by (rewrite zlen_app; reflexivity).
      destruct (IH st7 fl4 fb stk7 n (tabs ++ [t]) (dp ++ [bl]) R (Some t) I7) as (st' & fl' & stk' & new & tabs' & dp' & E & T & I' & L' & M' & B' & U').
      { rewrite Hlen1. lia. } { rewrite Hlen1. replace (S (length dp) + k)%nat with (length dp + S k)%nat by lia. lia. }
      { intros H1. exists t. split; [reflexivity|]. rewrite Hlen1 in *. replace (S (length dp) / per80)%nat with (length dp / per80)%nat; [exact Hnt|].
        pose proof (Nat.div_mod (length dp) per80 ltac:(lia)) as Hdm. rewrite H0, Nat.add_0_r in Hdm. apply (Nat.div_unique _ _ _ 1); [|lia]. destruct (Nat.eq_dec per80 1); lia. }
      exists st', fl', stk', (t :: bl :: new), (t :: tabs'), (bl :: dp'). rewrite E. cbn [Nat.add takes]. rewrite T1. cbn [takes]. rewrite T2, <- Hlen1 with (bl := bl), T.
      replace (tabs ++ t :: tabs') with ((tabs ++ [t]) ++ tabs') by (rewrite <- app_assoc; reflexivity). replace (dp ++ bl :: dp') with ((dp ++ [bl]) ++ dp') by (rewrite <- app_assoc; reflexivity).
      split; [reflexivity|]. split; [reflexivity|]. split; [exact I'|]. split; [cbn [length]; lia|]. split; [lia|]. split; [rewrite B', B7; exact B3|].
      intros m Hm. rewrite U' by (rewrite !in_app_iff in *; tauto). rewrite U7 by exact Hm. apply U3. apply in_or_app. now right.
    + destruct (Htb H0) as (t & -> & Hnt). destruct (Z.eqb_spec (Z.of_nat (length dp mod per80)) 0); [lia|]. cbn [rbind].
      pose proof Hi as (G3 & F3 & N3 & R3 & A3 & _).
      destruct (data_phase ps Hps cached st fl fb stk n tabs dp R t G3 F3 ltac:(lia) N3 R3 A3 (ginv_pend _ _ _ _ _ _ _ _ Hi H0) Hnt) as (st4 & fl4 & bl & st5 & st6 & st7 & stk7 & D1 & D2 & D3 & D4 & T2 & I7 & L7 & B7 & U7).
      fold P in D1, D2, D3, D4. rewrite D1. cbn [rbind]. rewrite D2. cbn [rbind]. rewrite D3. cbn [rbind]. rewrite D4. cbn [rbind].
      replace (Z.of_nat (length dp) + 1) with (Z.of_nat (length (dp ++ [bl]))) by (rewrite Hlen1; lia).
      destruct (IH st7 fl4 fb stk7 n tabs (dp ++ [bl]) R (Some t) I7) as (st' & fl' & stk' & new & tabs' & dp' & E & T & I' & L' & M' & B' & U').
      { rewrite Hlen1. lia. } { rewrite Hlen1. replace (S (length dp) + k)%nat with (length dp + S k)%nat by lia. lia. }
      { intros H1. exists t. split; [reflexivity|]. rewrite Hlen1 in *. replace (S (length dp) / per80)%nat with (length dp / per80)%nat; [exact Hnt|].
        pose proof (Nat.div_mod (length dp) per80 ltac:(lia)) as Hdm. pose proof (Nat.mod_upper_bound (length dp) per80 ltac:(lia)) as Hub.
        apply (Nat.div_unique _ _ _ (S (length dp mod per80))); [|lia].
        destruct (Nat.eq_dec (S (length dp mod per80)) per80) as [e|]; [|lia]. exfalso. apply H1. replace (S (length dp)) with ((length dp / per80 + 1) * per80)%nat by nia. apply Nat.mod_mul. lia. }
      exists st', fl', stk', (bl :: new), tabs', (bl :: dp'). rewrite E. cbn [Nat.add takes]. rewrite T2, <- Hlen1 with (bl := bl), T.
      replace (dp ++ bl :: dp') with ((dp ++ [bl]) ++ dp') by (rewrite <- app_assoc; reflexivity).
      split; [reflexivity|]. split; [reflexivity|]. split; [exact I'|]. split; [cbn [length]; lia|]. split; [lia|]. split; [rewrite B'; now rewrite B7|].
      intros m Hm. rewrite U' by (rewrite !in_app_iff in *; tauto). now apply U7.
Qed.
End G.
