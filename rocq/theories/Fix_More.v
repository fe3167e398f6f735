(** More about the repair: what it cannot do. *)
From Verif Require Import Prelude Lists Field_Model Field_Spec Tmpl_Model Tmpl_Spec Tmpl_Proofs Fix_Model Fix_Spec Fix_Proofs.
Ltac Zify.zify_post_hook ::= idtac.

(** ** Consequences of the exact result *)
Lemma ok_repaired junk fs rl block l s s' : repairable fs rl block l s -> clean junk l -> restore junk fs rl block s = Ok s' -> repaired fs rl block l s s'.
Proof. intros R C E. destruct (restore_ok junk fs rl block l s R C) as [(s2 & E2 & H)|(E2 & _)]; [|congruence]. assert (s' = s2) by congruence. now subst. Qed.
Lemma ok_mended junk fs rl block l s s' i : repairable fs rl block l s -> clean junk l -> restore junk fs rl block s = Ok s' -> 0 <= i < n_pages l -> mended fs rl l s i (entry (mem s) block i) (entry (mem s') block i).
Proof. intros R C E H. destruct (ok_repaired _ _ _ _ _ _ _ R C E) as (_ & _ & M & _). now apply M. Qed.
Lemma recovers junk fs rl block l s g : repairable fs rl block l s -> clean junk l -> (forall i r, 0 <= i < n_pages l -> (suits fs rl l s i r <-> r = g i)) ->
  exists s', restore junk fs rl block s = Ok s' /\ forall i, 0 <= i < n_pages l -> entry (mem s') block i = g i.
Proof.
  intros R C G. destruct (restore_ok junk fs rl block l s R C) as [(s2 & E2 & H)|(_ & i & H1 & H2)].
  - exists s2. split; [exact E2|]. intros i Hi. destruct (ok_mended _ _ _ _ _ _ _ i R C E2 Hi) as [[H1 ->]|[(_ & H1 & _)|(_ & _ & r & r' & N & H1 & H2)]].
    + now apply G.
    + now apply G.
    + apply G in H1, H2; [|exact Hi|exact Hi]. congruence.
  - exfalso. apply (H2 (g i)). now apply G.
Qed.
Lemma healthy junk fs rl block l s : repairable fs rl block l s -> clean junk l -> (forall i, 0 <= i < n_pages l -> suits fs rl l s i (entry (mem s) block i)) ->
  (forall k, 0 <= k < (n_pages l + 1022) / 1023 -> at_ (mem s) (tab (mem s) block k) 0 = Z.min 1023 (n_pages l - 1023 * k)) ->
  exists s', restore junk fs rl block s = Ok s' /\ disk s' = disk s /\ pages s' = pages s /\ forall n w, 0 <= n -> 0 <= w -> at_ (mem s') n w = at_ (mem s) n w.
Proof.
  intros R C G N. destruct (restore_ok junk fs rl block l s R C) as [(s2 & E2 & D & PG & M & B & K)|(_ & i & H1 & H2)]; [|exfalso; exact (H2 _ (G i H1))].
  exists s2. split; [exact E2|]. split; [exact D|]. split; [exact PG|]. intros n w Hn Hw.
  pose proof (shaped_s _ _ _ _ _ R) as SH. pose proof (rp_rl _ _ _ _ _ R) as RL. destruct (template_ok fs rl ltac:(lia) (rp_placed _ _ _ _ _ R)) as (tm & TM & _). pose proof (rp_block _ _ _ _ _ R) as BL.
  pose proof (words_s _ _ _ _ _ tm R block 2 ltac:(lia) ltac:(lia)) as LB. rewrite (rp_len _ _ _ _ _ R) in LB. pose proof (P_bound _ _ _ _ _ R LB) as PB.
  set (P := n_pages l) in *. set (T := (P + 1022) / 1023) in *.
  assert (TAB : forall k, 0 <= k < T -> tab (mem s2) block k = tab (mem s) block k).
  { intros k H. assert (T <= 1018) by (unfold T; pose proof (Z.div_mod (P + 1022) 1023 ltac:(lia)); pose proof (Z.mod_pos_bound (P + 1022) 1023 ltac:(lia)); lia). unfold tab at 1 2. apply K; [lia|lia| |].
    - intros k' H1 H2. destruct (rp_tab _ _ _ _ _ R k' H1). congruence.
    - intros i H1 H2. destruct (rp_tab _ _ _ _ _ R (i / 1023)); [|congruence]. exact (proj1 (T_bound _ _ _ _ _ R LB i H1)). }
  destruct (Z.eq_dec w 0) as [-> |W].
  - destruct (existsb (fun k => n =? tab (mem s) block k) (map Z.of_nat (seq 0 (Z.to_nat T)))) eqn:EX.
    + apply existsb_exists in EX. destruct EX as (k & H1 & H2). apply in_map_iff in H1. destruct H1 as (x & <- & H1). apply in_seq in H1. apply Z.eqb_eq in H2. rewrite H2, B by lia. symmetry. apply N. lia.
    + apply K; [exact Hn|lia| |].
      * intros k H1 H2. exfalso. assert (existsb (fun k => n =? tab (mem s) block k) (map Z.of_nat (seq 0 (Z.to_nat T))) = true); [|congruence]. apply existsb_exists. exists k. split; [|now apply Z.eqb_eq]. apply in_map_iff. exists (Z.to_nat k). split; [lia|]. apply in_seq. lia.
      * intros i H1 _. pose proof (Z.mod_pos_bound i 1023 ltac:(lia)). lia.
  - destruct (existsb (fun i => (n =? tab (mem s) block (i / 1023)) && (w =? 1 + i mod 1023)) (map Z.of_nat (seq 0 (Z.to_nat P)))) eqn:EX.
    + apply existsb_exists in EX. destruct EX as (i & H1 & H2). apply in_map_iff in H1. destruct H1 as (x & <- & H1). apply in_seq in H1. apply Bool.andb_true_iff in H2. destruct H2 as [H2 H3]. apply Z.eqb_eq in H2, H3. set (i := Z.of_nat x) in *. assert (HI : 0 <= i < P) by lia. destruct (M i HI) as [[H4 H5]|[(H4 & _)|(H4 & _)]]; [|exfalso; exact (H4 (G i HI))|exfalso; exact (H4 (G i HI))].
      unfold entry in H5. rewrite TAB in H5 by exact (proj1 (T_bound _ _ _ _ _ R LB i HI)). rewrite H2, H3. exact H5.
    + apply K; [exact Hn|exact Hw|auto|]. intros i H1 H2 H3. assert (existsb (fun i => (n =? tab (mem s) block (i / 1023)) && (w =? 1 + i mod 1023)) (map Z.of_nat (seq 0 (Z.to_nat P))) = true); [|congruence]. apply existsb_exists. exists i. split; [|rewrite H2, H3, !Z.eqb_refl; reflexivity]. apply in_map_iff. exists (Z.to_nat i). split; [lia|]. apply in_seq. lia.
Qed.
Lemma several_kept junk fs rl block l s s' i r r' : repairable fs rl block l s -> clean junk l -> restore junk fs rl block s = Ok s' -> 0 <= i < n_pages l ->
  ~ suits fs rl l s i (entry (mem s) block i) -> suits fs rl l s i r -> suits fs rl l s i r' -> r <> r' -> entry (mem s') block i = entry (mem s) block i.
Proof. intros R C E Hi N S1 S2 D. destruct (ok_mended _ _ _ _ _ _ _ i R C E Hi) as [[H _]|[(_ & _ & H)|(_ & H & _)]]; [contradiction| |exact H]. rewrite (H r S1) in D. rewrite (H r' S2) in D. congruence. Qed.
Lemma only_taken junk fs rl block l s s' i r : repairable fs rl block l s -> clean junk l -> restore junk fs rl block s = Ok s' -> 0 <= i < n_pages l ->
  (forall q, suits fs rl l s i q <-> q = r) -> entry (mem s') block i = r.
Proof.
  intros R C E Hi G. destruct (ok_mended _ _ _ _ _ _ _ i R C E Hi) as [[H1 ->]|[(_ & H1 & _)|(_ & _ & q & q' & N & H1 & H2)]].
  - now apply G.
  - now apply G.
  - apply G in H1, H2. congruence.
Qed.
Lemma shared junk fs rl block l s s' i i' : repairable fs rl block l s -> clean junk l -> restore junk fs rl block s = Ok s' -> 0 <= i < n_pages l -> 0 <= i' < n_pages l ->
  suits fs rl l s i' (entry (mem s) block i') -> (forall q, suits fs rl l s i q <-> q = entry (mem s) block i') -> entry (mem s') block i = entry (mem s') block i'.
Proof.
  intros R C E Hi Hi' S1 G. rewrite (only_taken _ _ _ _ _ _ _ i _ R C E Hi G). destruct (ok_mended _ _ _ _ _ _ _ i' R C E Hi') as [[_ H]|[(H & _)|(H & _)]]; [now symmetry|contradiction|contradiction].
Qed.
Lemma none_throws junk fs rl block l s i : repairable fs rl block l s -> clean junk l -> 0 <= i < n_pages l -> (forall q, ~ suits fs rl l s i q) -> restore junk fs rl block s = Throw.
Proof.
  intros R C Hi N. destruct (restore_ok junk fs rl block l s R C) as [(s2 & E2 & _)|(E & _)]; [|exact E]. exfalso. destruct (ok_mended _ _ _ _ _ _ _ i R C E2 Hi) as [[H _]|[(_ & H & _)|(_ & _ & q & _ & _ & H & _)]]; exact (N _ H).
Qed.
(** a page with a removed record never suits *)
Lemma removed_unsuited fs rl l s i r slot v : 5 <= rl -> placed fs rl -> 0 <= slot -> (i = 0 -> 1 <= slot) -> i * 4096 <= slot * rl < i * 4096 + used l i ->
  nth_error (nth (Z.to_nat r) (disk s) []) (Z.to_nat (slot * rl - i * 4096)) = Some v -> v <> 0 -> ~ suits fs rl l s i r.
Proof.
  intros RL PL HS H0 HP HV NZ (_ & _ & H). destruct (H slot 0 v HS ltac:(lia) H0 ltac:(lia)) as [[_ Q]|(f & q & Hf & Hi & _)].
  - rewrite Z.add_0_r. exact HV.
  - contradiction.
  - destruct PL as [PL _]. destruct (PL f q Hf) as [PF _]. unfold inside in Hi. lia.
Qed.

(** ** The last page *)
Definition stored (s : st) : Prop := Forall (fun p => length p = 4096%nat /\ bytes_ok p) (disk s) /\ length (disk s) = length (mem s).
Lemma put_stored s n w v s' : stored s -> put s n w v = Ok s' -> stored s'.
Proof.
  unfold put. intros [D L] E. destruct (rd (mem s) n) as [p| | |]; cbn [rbind] in E; try discriminate. destruct (wrn p w [v]) as [q| | |]; cbn [rbind] in E; try discriminate.
  unfold wrn in E. destruct ((n <? 0) || (zlen (mem s) <? n + zlen [q])) eqn:B; cbn [rbind] in E; [discriminate|]. assert (s' = ST (splice (mem s) (Z.to_nat n) [q]) (disk s)) as -> by congruence. split; [exact D|]. cbn [disk mem]. rewrite splice_length; [exact L|]. change (zlen [q]) with 1 in B. unfold zlen in B. cbn [length]. lia.
Qed.
Lemma take_stored s n s' : stored s -> take s n = Ok s' -> stored s'.
Proof.
  unfold take. intros V E. destruct (pages s <? n); [discriminate|]. destruct (n =? pages s).
  - eapply put_stored; [|exact E]. destruct V as [D L]. split; cbn [disk mem].
    + apply Forall_app. split; [exact D|]. constructor; [|constructor]. split; [apply repeat_length|]. apply Forall_forall. intros x H. apply repeat_spec in H. subst x. unfold byte_ok. lia.
    + rewrite !app_length. cbn [length]. lia.
  - assert (s' = s) by congruence. now subst.
Qed.
Lemma open_stored s block k l s' a : stored s -> open_table s block k l = Ok (s', a) -> stored s'.
Proof.
  unfold open_table. intros V E. destruct (word s block (6 + k)) as [b| | |]; cbn [rbind] in E; try discriminate.
  set (X := if (b <? 5) || (pages s <=? b) then _ else _) in E. destruct X as [[s1 a1]| | |] eqn:EX; cbn [rbind] in E; try discriminate. subst X.
  assert (V1 : stored s1). { destruct ((b <? 5) || (pages s <=? b)); [destruct (take s (pages s)) as [s2| | |] eqn:ET|destruct (take s b) as [s2| | |] eqn:ET]; cbn [rbind] in EX; try discriminate; assert (s1 = s2) by congruence; subst; eapply take_stored; eassumption. }
  destruct (word s1 a1 0) as [m| | |]; cbn [rbind] in E; try discriminate. set (Y := if _ =? i32 m then _ else _) in E. destruct Y as [s3| | |] eqn:EY; cbn [rbind] in E; try discriminate. subst Y. assert (s' = s3) by congruence. subst s'. destruct (_ =? i32 m); [assert (s3 = s1) by congruence; now subst|eapply put_stored; eassumption].
Qed.
Lemma mend_stored junk tm rl s ca i j cl s' : stored s -> mend junk tm rl s ca i j cl = Ok s' -> stored s'.
Proof.
  unfold mend. intros V E. destruct (word s ca (1 + j)) as [d| | |]; cbn [rbind] in E; try discriminate. set (X := if _ || _ then _ else _) in E. destruct X as [b| | |]; cbn [rbind] in E; try discriminate. destruct b; [assert (s' = s) by congruence; now subst|].
  destruct (candidates _ _ _ _ _ _ _) as [bk| | |]; cbn [rbind] in E; try discriminate. destruct bk as [|x [|y bk]]; [discriminate|eapply put_stored; eassumption|assert (s' = s) by congruence; now subst].
Qed.
Lemma loop_reaches junk tm rl block fuel : forall s i j k ca l s', stored s -> 0 < l -> loop junk tm rl fuel s block i j k ca l = Ok s' ->
  exists s1 ca1 j1 s2, stored s1 /\ mend junk tm rl s1 ca1 (i + (l - 1) / 4096) j1 (l - 4096 * ((l - 1) / 4096)) = Ok s2.
Proof.
  induction fuel as [|f IH]; intros s i j k ca l s' V L E; cbn [loop] in E; (assert (Q : l =? 0 = false) by lia); rewrite Q in E; [discriminate|].
  set (X := if j =? 0 then _ else _) in E. destruct X as [[s1 ca1]| | |] eqn:EX; cbn [rbind] in E; try discriminate. subst X.
  assert (V1 : stored s1). { destruct (j =? 0); [eapply open_stored; eassumption|]. assert (s1 = s) by congruence. now subst. }
  destruct (mend junk tm rl s1 ca1 i j (Z.min 4096 l)) as [s2| | |] eqn:EM; cbn [rbind] in E; try discriminate.
  destruct (Z.le_gt_cases l 4096) as [LE|GT].
  - exists s1, ca1, j, s2. split; [exact V1|]. rewrite (Z.div_small (l - 1)) by lia. rewrite Z.mul_0_r, Z.sub_0_r, Z.add_0_r. rewrite Z.min_r in EM by lia. exact EM.
  - assert (l <? 4096 = false) as Q2 by lia. rewrite Q2 in E. assert (GT2 : 0 < l - 4096) by lia. destruct (IH _ _ _ _ _ _ _ (mend_stored _ _ _ _ _ _ _ _ _ V1 EM) GT2 E) as (s3 & ca3 & j3 & s4 & V3 & E3). exists s3, ca3, j3, s4. split; [exact V3|].
    replace ((l - 1) / 4096) with ((l - 4096 - 1) / 4096 + 1). 2: { replace (l - 1) with (l - 4096 - 1 + 1 * 4096) by lia. rewrite Z.div_add by lia. reflexivity. }
    replace (i + ((l - 4096 - 1) / 4096 + 1)) with (i + 1 + (l - 4096 - 1) / 4096) by lia. replace (l - 4096 * ((l - 4096 - 1) / 4096 + 1)) with (l - 4096 - 4096 * ((l - 4096 - 1) / 4096)) by lia. exact E3.
Qed.
Lemma page_bad junk fs rl tm s again r i cl : stored s -> 5 <= rl -> placed fs rl -> record_template fs rl = Ok tm -> 0 <= cl <= 4096 -> (i = 0 -> 5 <= cl) -> 0 <= i < 2 ^ 20 ->
  length (junk again r i) = 4096%nat -> ~ Forall (fun x => x = 0) (skipn (Z.to_nat cl) (junk again r i)) -> fits junk tm rl s again r i cl <> Ok true.
Proof.
  intros [D _] RL PL TM CL C5 HI JL JN E. unfold fits in E. destruct (rd (disk s) r) as [p| | |] eqn:ER; cbn [rbind] in E; try discriminate.
  assert (IN : In p (disk s)). { unfold rd in ER. destruct (r <? 0); [discriminate|]. destruct (nth_error (disk s) (Z.to_nat r)) eqn:EN; [|discriminate]. assert (p = l) by congruence. subst. eapply nth_error_In; eassumption. }
  rewrite Forall_forall in D. destruct (D p IN) as [PL4 PB].
  destruct (test_page_ok fs rl (junk again r i) p tm i cl RL PL TM PB ltac:(unfold zlen; rewrite PL4; reflexivity) ltac:(unfold zlen; rewrite JL; reflexivity) (conj CL C5) HI) as (b & Eb & Hb). rewrite Eb in E. assert (b = true) by congruence. apply Hb in H. apply JN. apply H.
Qed.
Lemma no_candidates junk fs rl tm s i cl : stored s -> 5 <= rl -> placed fs rl -> record_template fs rl = Ok tm -> 0 <= cl <= 4096 -> (i = 0 -> 5 <= cl) -> 0 <= i < 2 ^ 20 ->
  (forall again r, length (junk again r i) = 4096%nat /\ ~ Forall (fun x => x = 0) (skipn (Z.to_nat cl) (junk again r i))) -> forall rs bk, candidates junk tm rl s i cl rs = Ok bk -> bk = [].
Proof.
  intros V RL PL TM CL C5 HI J. induction rs as [|r rs IH]; intros bk E; cbn [candidates] in E; [congruence|]. destruct (fits junk tm rl s true r i cl) as [b| | |] eqn:EF; cbn [rbind] in E; try discriminate.
  destruct (candidates junk tm rl s i cl rs) as [bk2| | |]; cbn [rbind] in E; try discriminate. specialize (IH bk2 eq_refl). subst bk2. destruct b; [|congruence]. exfalso. destruct (J true r) as [J1 J2]. exact (page_bad _ _ _ _ _ _ _ _ _ V RL PL TM CL C5 HI J1 J2 EF).
Qed.
Theorem rest_fails junk fs rl block l s : 5 <= rl -> placed fs rl -> stored s -> 0 < l < 2 ^ 32 -> at_ (mem s) block 2 = l -> l mod 4096 <> 0 ->
  (forall again r, length (junk again r (l / 4096)) = 4096%nat /\ ~ Forall (fun x => x = 0) (skipn (Z.to_nat (l mod 4096)) (junk again r (l / 4096)))) ->
  forall s', restore junk fs rl block s <> Ok s'.
Proof.
  intros RL PL V L EL NM J s' E.
  pose proof (Z.div_mod l 4096 ltac:(clear; lia)) as DM. pose proof (Z.mod_pos_bound l 4096 ltac:(clear; lia)) as MB.
  assert (K : (l - 1) / 4096 = l / 4096). { replace (l - 1) with (l mod 4096 - 1 + l / 4096 * 4096) by (clear - L NM DM MB; lia). rewrite Z.div_add by (clear - L NM DM MB; lia). rewrite Z.div_small by (clear - L NM DM MB; lia). clear; lia. }
  assert (K2 : l - 4096 * (l / 4096) = l mod 4096) by (clear - DM; lia).
  unfold restore in E. destruct ((block <? 5) || (pages s <=? block)) eqn:EB; [discriminate|]. unfold take in E. assert (pages s <? block = false) as Q1 by (clear - EB; lia). assert (block =? pages s = false) as Q2 by (clear - EB; lia). rewrite Q1, Q2 in E. cbn [rbind] in E.
  destruct (word s block 0) as [a| | |]; cbn [rbind] in E; try discriminate. destruct (word s block 1) as [b| | |]; cbn [rbind] in E; try discriminate. destruct (negb _); [discriminate|].
  destruct (word s block 2) as [w| | |] eqn:EW; cbn [rbind] in E; try discriminate.
  assert (w = l). { unfold word, rd in EW. destruct (block <? 0); [discriminate|]. destruct (nth_error (mem s) (Z.to_nat block)) as [p|] eqn:EN; cbn [rbind] in EW; [|discriminate]. change (2 <? 0) with false in EW. cbv iota in EW. destruct (nth_error p (Z.to_nat 2)) as [x|] eqn:EN2; [|discriminate]. unfold at_ in EL. rewrite (nth_error_nth _ _ [] EN), (nth_error_nth _ _ 0 EN2) in EL. congruence. } subst w.
  destruct (rl =? 0); [discriminate|]. destruct (l / rl * rl =? l) eqn:EWH; cbn [negb] in E; [|discriminate]. destruct (record_template fs rl) as [tm| | |] eqn:TM; cbn [rbind] in E; try discriminate.
  destruct (loop_reaches _ _ _ _ _ _ _ _ _ _ _ _ V (proj1 L) E) as (s1 & ca & j & s2 & V1 & EM). rewrite Z.add_0_l in EM.
  rewrite K, K2 in EM. clear E K K2.
  assert (H5 : l / 4096 = 0 -> 5 <= l mod 4096). { intros Q. rewrite Q in DM. assert (l mod rl = 0). { apply Z.eqb_eq in EWH. rewrite <- EWH. apply Z.mod_mul. lia. } pose proof (whole_le l rl ltac:(clear - RL; lia) (proj1 L) H). clear - DM H0 RL. lia. }
  assert (H20 : 0 <= l / 4096 < 2 ^ 20) by lia.
  unfold mend in EM. destruct (word s1 ca (1 + j)) as [d| | |]; cbn [rbind] in EM; try discriminate.
  assert (F : (if (d <? 5) || (pages s1 <=? d) then Ok false else fits junk tm rl s1 false d (l / 4096) (l mod 4096)) <> Ok true).
  { destruct ((d <? 5) || (pages s1 <=? d)); [discriminate|]. destruct (J false d) as [J1 J2]. apply (page_bad junk fs); try assumption; lia. }
  set (X := if (d <? 5) || (pages s1 <=? d) then _ else _) in *. destruct X as [b0| | |]; cbn [rbind] in EM; try discriminate. destruct b0; [congruence|].
  destruct (candidates junk tm rl s1 (l / 4096) (l mod 4096) _) as [bk| | |] eqn:EC; cbn [rbind] in EM; try discriminate. rewrite (no_candidates junk fs rl tm s1 (l / 4096) (l mod 4096) V1 RL PL TM ltac:(lia) H5 H20 J _ _ EC) in EM. discriminate.
Qed.

(** ** The root page is never changed *)
Definition root (m : list (list Z)) (block : Z) : list Z := nth (Z.to_nat block) m [].
Lemma put_root s n w v s' block : 0 <= n -> 0 <= block -> n <> block -> put s n w v = Ok s' -> root (mem s') block = root (mem s) block /\ pages s' = pages s.
Proof.
  unfold put. intros Hn Hb N E. destruct (rd (mem s) n) as [p| | |]; cbn [rbind] in E; try discriminate. destruct (wrn p w [v]) as [q| | |]; cbn [rbind] in E; try discriminate.
  unfold wrn in E. destruct ((n <? 0) || (zlen (mem s) <? n + zlen [q])) eqn:B; cbn [rbind] in E; [discriminate|]. assert (s' = ST (splice (mem s) (Z.to_nat n) [q]) (disk s)) as -> by congruence. cbn [mem]. change (zlen [q]) with 1 in B. unfold zlen in B. split; [unfold root; rewrite nth_splice1 by lia; destruct (Nat.eqb_spec (Z.to_nat block) (Z.to_nat n)); [lia|reflexivity]|]. unfold pages, zlen. cbn [mem]. rewrite splice_length; [reflexivity|cbn [length]; lia].
Qed.
Lemma take_root s n s' block : 5 <= block < pages s -> take s n = Ok s' -> root (mem s') block = root (mem s) block /\ pages s <= pages s'.
Proof.
  unfold take. intros B E. destruct (pages s <? n); [discriminate|]. destruct (n =? pages s).
  - apply put_root with (block := block) in E; [|lia|lia|lia]. destruct E as [-> ->]. unfold pages, zlen in *. unfold root. cbn [mem]. rewrite app_nth1 by lia. split; [reflexivity|]. rewrite app_length. lia.
  - assert (s' = s) by congruence. subst. split; [reflexivity|lia].
Qed.
Lemma word_root s block w x : word s block w = Ok x -> x = nth (Z.to_nat w) (root (mem s) block) 0.
Proof.
  unfold word, rd, root. intros E. destruct (block <? 0); [discriminate|]. destruct (nth_error (mem s) (Z.to_nat block)) as [p|] eqn:EN; cbn [rbind] in E; [|discriminate]. destruct (w <? 0); [discriminate|]. destruct (nth_error p (Z.to_nat w)) as [y|] eqn:EN2; [|discriminate]. rewrite (nth_error_nth _ _ [] EN), (nth_error_nth _ _ 0 EN2). congruence.
Qed.
Definition apart (m : list (list Z)) (block : Z) : Prop := forall k, 0 <= k -> nth (Z.to_nat (6 + k)) (root m block) 0 <> block.
Lemma open_root s block k l s' a : 5 <= block < pages s -> 0 <= k -> apart (mem s) block -> open_table s block k l = Ok (s', a) -> root (mem s') block = root (mem s) block /\ pages s <= pages s' /\ a <> block /\ 0 <= a.
Proof.
  unfold open_table. intros B K AP E. destruct (word s block (6 + k)) as [b| | |] eqn:EB; cbn [rbind] in E; try discriminate. apply word_root in EB. assert (NB : b <> block) by (rewrite EB; now apply AP).
  set (X := if (b <? 5) || (pages s <=? b) then _ else _) in E. destruct X as [[s1 a1]| | |] eqn:EX; cbn [rbind] in E; try discriminate. subst X.
  assert (V1 : root (mem s1) block = root (mem s) block /\ pages s <= pages s1 /\ a1 <> block /\ 0 <= a1).
  { destruct ((b <? 5) || (pages s <=? b)) eqn:Q; [destruct (take s (pages s)) as [s2| | |] eqn:ET|destruct (take s b) as [s2| | |] eqn:ET]; cbn [rbind] in EX; try discriminate; assert (s1 = s2) by congruence; subst s2; apply (take_root _ _ _ _ B) in ET; destruct ET as [T1 T2]; (split; [exact T1|split; [exact T2|]]); [assert (a1 = pages s) by congruence|assert (a1 = b) by congruence]; lia. }
  destruct V1 as (V1 & V2 & V3 & V4). destruct (word s1 a1 0) as [m| | |]; cbn [rbind] in E; try discriminate. set (Y := if _ =? i32 m then _ else _) in E. destruct Y as [s3| | |] eqn:EY; cbn [rbind] in E; try discriminate. subst Y. assert (s' = s3 /\ a = a1) as [-> ->] by (split; congruence).
  destruct (_ =? i32 m); [assert (s3 = s1) by congruence; subst; auto|]. apply put_root with (block := block) in EY; [|lia|lia|exact V3]. destruct EY as [-> ->]. auto.
Qed.
Lemma mend_root junk tm rl s ca i j cl s' block : 0 <= ca -> 0 <= block -> ca <> block -> mend junk tm rl s ca i j cl = Ok s' -> root (mem s') block = root (mem s) block /\ pages s' = pages s.
Proof.
  unfold mend. intros H1 H2 H3 E. destruct (word s ca (1 + j)) as [d| | |]; cbn [rbind] in E; try discriminate. set (X := if _ || _ then _ else _) in E. destruct X as [b| | |]; cbn [rbind] in E; try discriminate. destruct b; [assert (s' = s) by congruence; subst; auto|].
  destruct (candidates _ _ _ _ _ _ _) as [bk| | |]; cbn [rbind] in E; try discriminate. destruct bk as [|x [|y bk]]; [discriminate|exact (put_root _ _ _ _ _ _ H1 H2 H3 E)|assert (s' = s) by congruence; subst; auto].
Qed.
Lemma loop_root junk tm rl block fuel : forall s i j k ca l s', 5 <= block < pages s -> 0 <= k -> apart (mem s) block -> (j <> 0 -> 0 <= ca /\ ca <> block) ->
  loop junk tm rl fuel s block i j k ca l = Ok s' -> root (mem s') block = root (mem s) block.
Proof.
  induction fuel as [|f IH]; intros s i j k ca l s' B K AP HC E; cbn [loop] in E; destruct (l =? 0); try discriminate; try (assert (s' = s) by congruence; now subst).
  set (X := if j =? 0 then _ else _) in E. destruct X as [[s1 ca1]| | |] eqn:EX; cbn [rbind] in E; try discriminate. subst X.
  assert (V1 : root (mem s1) block = root (mem s) block /\ pages s <= pages s1 /\ ca1 <> block /\ 0 <= ca1).
  { destruct (j =? 0) eqn:EJ; [eapply open_root; eassumption|]. assert (s1 = s /\ ca1 = ca) as [-> ->] by (split; congruence). destruct (HC ltac:(lia)). split; [reflexivity|]. split; [lia|]. auto. }
  destruct V1 as (V1 & V2 & V3 & V4). destruct (mend junk tm rl s1 ca1 i j (Z.min 4096 l)) as [s2| | |] eqn:EM; cbn [rbind] in E; try discriminate. apply mend_root with (block := block) in EM; [|exact V4|lia|exact V3]. destruct EM as [M1 M2].
  apply IH in E; [rewrite E, M1; exact V1|lia|destruct (j =? 0); lia|intros k' H; rewrite M1, V1; now apply AP|auto].
Qed.
Theorem root_kept junk fs rl block s s' : (forall k, 0 <= k -> tab (mem s) block k <> block) -> restore junk fs rl block s = Ok s' -> forall w, at_ (mem s') block w = at_ (mem s) block w.
Proof.
  intros AP E w. unfold restore in E. destruct ((block <? 5) || (pages s <=? block)) eqn:EB; [discriminate|]. unfold take in E. assert (pages s <? block = false) as Q1 by (clear - EB; lia). assert (block =? pages s = false) as Q2 by (clear - EB; lia). rewrite Q1, Q2 in E. cbn [rbind] in E.
  destruct (word s block 0) as [a| | |]; cbn [rbind] in E; try discriminate. destruct (word s block 1) as [b| | |]; cbn [rbind] in E; try discriminate. destruct (negb _); [discriminate|].
  destruct (word s block 2) as [l| | |] eqn:EW; cbn [rbind] in E; try discriminate. destruct (rl =? 0); [discriminate|]. destruct (negb _); [discriminate|]. destruct (record_template fs rl) as [tm| | |]; cbn [rbind] in E; try discriminate.
  apply loop_root in E; [|lia|lia|exact AP|lia]. unfold at_. fold (root (mem s') block). fold (root (mem s) block). now rewrite E.
Qed.
