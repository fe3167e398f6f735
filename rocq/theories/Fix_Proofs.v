(** Proofs about the repair. *)
From Coq Require Import FinFun.
From Verif Require Import Prelude Lists Field_Model Tmpl_Model Tmpl_Spec Tmpl_Proofs Fix_Model Fix_Spec.
Ltac Zify.zify_post_hook ::= idtac.

(** ** Words *)
Definition shaped (m : list (list Z)) : Prop := Forall (fun p => length p = 1024%nat) m.
Lemma page_at m n : shaped m -> 0 <= n < zlen m -> rd m n = Ok (nth (Z.to_nat n) m []) /\ length (nth (Z.to_nat n) m []) = 1024%nat.
Proof.
  intros H L. unfold zlen in L. split.
  - apply rd_ok; [lia|]. apply nth_error_nth'. lia.
  - unfold shaped in H. rewrite Forall_forall in H. apply H, nth_In. lia.
Qed.
Lemma word_at s n w : shaped (mem s) -> 0 <= n < pages s -> 0 <= w < 1024 -> word s n w = Ok (at_ (mem s) n w).
Proof.
  intros H L W. unfold word. destruct (page_at (mem s) n H L) as [E P]. rewrite E. cbn [rbind]. unfold at_. apply rd_ok; [lia|]. apply nth_error_nth'. lia.
Qed.
Lemma nth_splice1 {A} (l : list A) o x i d : (o < length l)%nat -> nth i (splice l o [x]) d = if (i =? o)%nat then x else nth i l d.
Proof.
  intros H. assert (E : nth_error (splice l o [x]) i = if (i =? o)%nat then Some x else nth_error l i).
  { rewrite nth_error_splice by (cbn [length]; lia). cbn [length]. destruct (Nat.eqb_spec i o) as [-> |N].
    - destruct (Nat.leb_spec o o); [|lia]. destruct (Nat.ltb_spec o (o + 1)); [|lia]. cbn. now rewrite Nat.sub_diag.
    - destruct (Nat.leb_spec o i); cbn [andb]; [|reflexivity]. destruct (Nat.ltb_spec i (o + 1)); [lia|]. reflexivity. }
  destruct (Nat.eqb_spec i o) as [-> |N]; [now apply nth_error_nth|]. destruct (nth_error l i) as [y|] eqn:EL.
  - rewrite (nth_error_nth _ _ d E). symmetry. now apply nth_error_nth.
  - apply nth_error_None in E, EL. now rewrite !nth_overflow.
Qed.
Lemma put_at s n w v : shaped (mem s) -> 0 <= n < pages s -> 0 <= w < 1024 ->
  exists s', put s n w v = Ok s' /\ shaped (mem s') /\ pages s' = pages s /\ disk s' = disk s /\
    forall n' w', 0 <= n' -> 0 <= w' -> at_ (mem s') n' w' = if (n' =? n) && (w' =? w) then v else at_ (mem s) n' w'.
Proof.
  intros H L W. unfold put. destruct (page_at (mem s) n H L) as [E P]. rewrite E. cbn [rbind]. set (p := nth (Z.to_nat n) (mem s) []) in *. unfold wrn at 1. unfold zlen. rewrite P. cbn [length].
  assert ((w <? 0) || (Z.of_nat 1024 <? w + Z.of_nat 1) = false) as -> by lia. cbn [rbind]. unfold wrn. unfold pages in L. change (zlen [splice p (Z.to_nat w) [v]]) with 1. assert ((n <? 0) || (zlen (mem s) <? n + 1) = false) as -> by lia. cbn [rbind].
  unfold zlen in L. eexists. split; [reflexivity|]. cbn [mem disk].
  assert (LP : length (splice p (Z.to_nat w) [v]) = 1024%nat) by (rewrite splice_length; cbn [length]; lia).
  split; [|split; [|split; [reflexivity|]]].
  - unfold shaped, splice. apply Forall_app. split; [now apply Forall_firstn'|]. apply Forall_app. split; [constructor; [exact LP|constructor]|now apply Forall_skipn'].
  - unfold pages, zlen. cbn [mem]. rewrite splice_length; [reflexivity|cbn [length]; lia].
  - intros n' w' Hn' Hw'. unfold at_. rewrite nth_splice1 by lia. destruct (Nat.eqb_spec (Z.to_nat n') (Z.to_nat n)) as [EN|EN].
    + assert (n' = n) by lia. subst n'. rewrite Z.eqb_refl. cbn [andb]. rewrite nth_splice1 by lia. destruct (Nat.eqb_spec (Z.to_nat w') (Z.to_nat w)) as [EW|EW].
      * assert (w' =? w = true) as -> by lia. reflexivity.
      * assert (w' =? w = false) as -> by lia. reflexivity.
    + assert (n' =? n = false) as -> by lia. reflexivity.
Qed.

(** ** The test and the search *)
Lemma pages_l l i : 0 <= i < n_pages l -> 4096 * i < l /\ 1 <= used l i <= 4096.
Proof. unfold n_pages, used. intros H. pose proof (Z.div_mod (l + 4095) 4096 ltac:(lia)). pose proof (Z.mod_pos_bound (l + 4095) 4096 ltac:(lia)). lia. Qed.
Lemma whole_le l rl : 0 < rl -> 0 < l -> l mod rl = 0 -> rl <= l.
Proof. intros H1 H2 H3. destruct (Z.lt_ge_cases l rl); [|assumption]. rewrite Z.mod_small in H3 by lia. lia. Qed.

Section Ok.
Variables (junk : bool -> Z -> Z -> list Z) (fs : list (field * bool)) (rl block l : Z) (s : st) (tm : list Z).
Hypothesis R : repairable fs rl block l s.
Hypothesis CJ : clean junk l.
Hypothesis L0 : 0 <= l < 2 ^ 32.
Hypothesis TM : record_template fs rl = Ok tm.
Let P := n_pages l.
Let T := (P + 1022) / 1023.
Let tb := tab (mem s) block.

Lemma P_bound : 0 <= P <= 1018 * 1023.
Proof. pose proof (rp_room _ _ _ _ _ R). unfold P, n_pages. pose proof (Z.div_mod (l + 4095) 4096 ltac:(lia)). pose proof (Z.mod_pos_bound (l + 4095) 4096 ltac:(lia)). lia. Qed.
Lemma T_bound i : 0 <= i < P -> 0 <= i / 1023 < T /\ T <= 1018.
Proof.
  intros H. pose proof P_bound. unfold T. pose proof (Z.div_mod (P + 1022) 1023 ltac:(lia)). pose proof (Z.mod_pos_bound (P + 1022) 1023 ltac:(lia)). pose proof (Z.div_mod i 1023 ltac:(lia)). pose proof (Z.mod_pos_bound i 1023 ltac:(lia)). lia.
Qed.
Definition same (s1 : st) : Prop := shaped (mem s1) /\ pages s1 = pages s /\ disk s1 = disk s.
Lemma fits_ok s1 again r i : same s1 -> 0 <= i < P -> 5 <= r < pages s -> exists b, fits junk tm rl s1 again r i (used l i) = Ok b /\ (b = true <-> suits fs rl l s i r).
Proof.
  intros (_ & _ & D) HI HR. pose proof (rp_both _ _ _ _ _ R) as r5. unfold fits. rewrite D. assert (LD : (Z.to_nat r < length (disk s))%nat) by (clear - r5 HR; unfold pages, zlen in HR; lia).
  rewrite (rd_ok (disk s) r (nth (Z.to_nat r) (disk s) [])); [|clear - HR; lia|now apply nth_error_nth']. cbn [rbind]. set (p := nth (Z.to_nat r) (disk s) []).
  assert (PP : length p = 4096%nat /\ bytes_ok p) by (pose proof (rp_disk _ _ _ _ _ R) as r4; rewrite Forall_forall in r4; apply r4, nth_In; exact LD). destruct PP as [PL PB]. destruct (CJ again r i) as [J1 J2]. destruct (pages_l l i HI) as [U1 U2]. pose proof P_bound as PM.
  assert (SU : setup fs rl (junk again r i) p tm i (used l i)).
  { pose proof (rp_rl _ _ _ _ _ R) as r1. split; [exact r1|]. split; [exact (rp_placed _ _ _ _ _ R)|]. split; [exact TM|]. split; [exact PB|]. unfold zlen. split; [rewrite PL; reflexivity|]. split; [rewrite J1; reflexivity|]. split; [|clear - HI PM; lia]. split; [clear - U2; lia|]. intros ->. pose proof (whole_le l rl ltac:(lia) ltac:(lia) (rp_whole _ _ _ _ _ R)). unfold used. clear - H r1. lia. }
  destruct (page_total _ _ _ _ _ _ _ SU) as [E|E]; rewrite E; eexists; (split; [reflexivity|]).
  - split; [intros _|reflexivity]. split; [exact HR|]. exact (accepted_conforms _ _ _ _ _ _ _ SU E).
  - split; [discriminate|]. intros (_ & [H1 H2]). exfalso. pose proof (proj2 (conforming_accepted _ _ _ _ _ _ _ SU H1 H2) (J2 HI)). congruence.
Qed.
Lemma candidates_ok s1 i : same s1 -> 0 <= i < P -> forall rs, Forall (fun r => 5 <= r < pages s) rs -> NoDup rs ->
  exists bk, candidates junk tm rl s1 i (used l i) rs = Ok bk /\ NoDup bk /\ forall r, In r bk <-> In r rs /\ suits fs rl l s i r.
Proof.
  intros HS HI. induction rs as [|r rs IH]; intros HF HN; cbn [candidates].
  - exists []. split; [reflexivity|]. split; [constructor|]. intros r. cbn [In]. intuition.
  - apply Forall_cons_iff in HF. destruct HF as [HR HF]. apply NoDup_cons_iff in HN. destruct HN as [N1 N2]. destruct (fits_ok s1 true r i HS HI HR) as (b & E & B). rewrite E. cbn [rbind]. destruct (IH HF N2) as (bk & E2 & N3 & I2). rewrite E2. cbn [rbind]. eexists. split; [reflexivity|]. destruct b.
    + split; [constructor; [rewrite I2; tauto|exact N3]|]. intros q. cbn [In]. rewrite I2. split; [intros [<- |H]; [split; [now left|now apply B]|tauto]|intros [[<- |H] H']; [now left|tauto]].
    + split; [exact N3|]. intros q. cbn [In]. rewrite I2. split; [tauto|]. intros [[<- |H] H']; [|tauto]. apply B in H'. discriminate.
Qed.
Lemma all_pages s1 : same s1 -> Forall (fun r => 5 <= r < pages s) (map Z.of_nat (seq 5 (length (mem s1) - 5))) /\ NoDup (map Z.of_nat (seq 5 (length (mem s1) - 5))) /\
  forall r, 5 <= r < pages s -> In r (map Z.of_nat (seq 5 (length (mem s1) - 5))).
Proof.
  intros (_ & E & _). unfold pages, zlen in *. split; [|split].
  - apply Forall_forall. intros r H. apply in_map_iff in H. destruct H as (x & <- & H). apply in_seq in H. lia.
  - apply Injective_map_NoDup; [intros x y Q; lia|apply seq_NoDup].
  - intros r H. apply in_map_iff. exists (Z.to_nat r). split; [lia|]. apply in_seq. lia.
Qed.
Lemma mend_ok s1 ca i j : same s1 -> 0 <= ca < pages s -> 0 <= j < 1023 -> 0 <= i < P ->
  (mend junk tm rl s1 ca i j (used l i) = Throw /\ forall r, ~ suits fs rl l s i r) \/
  (exists s2 d', mend junk tm rl s1 ca i j (used l i) = Ok s2 /\ same s2 /\ mended fs rl l s i (at_ (mem s1) ca (1 + j)) d' /\
    forall n w, 0 <= n -> 0 <= w -> at_ (mem s2) n w = if (n =? ca) && (w =? 1 + j) then d' else at_ (mem s1) n w).
Proof.
  intros HS HC HJ HI. pose proof HS as (SH & PG & DK). unfold mend. rewrite word_at by (try exact SH; lia). cbn [rbind]. set (d := at_ (mem s1) ca (1 + j)). rewrite PG.
  assert (KEEP : forall n w, 0 <= n -> 0 <= w -> at_ (mem s1) n w = if (n =? ca) && (w =? 1 + j) then d else at_ (mem s1) n w).
  { intros n w _ _. destruct ((n =? ca) && (w =? 1 + j)) eqn:E; [|reflexivity]. apply Bool.andb_true_iff in E. destruct E as [E1 E2]. apply Z.eqb_eq in E1, E2. now subst. }
  assert (F : exists ok, (if (d <? 5) || (pages s <=? d) then Ok false else fits junk tm rl s1 false d i (used l i)) = Ok ok /\ (ok = true <-> suits fs rl l s i d)).
  { destruct ((d <? 5) || (pages s <=? d)) eqn:E; [exists false; split; [reflexivity|]; split; [discriminate|intros [H _]; lia]|]. apply fits_ok; [exact HS|exact HI|lia]. }
  destruct F as (ok & E & B). rewrite E. cbn [rbind]. destruct ok.
  - right. exists s1, d. split; [reflexivity|]. split; [exact HS|]. split; [left; split; [now apply B|reflexivity]|exact KEEP].
  - assert (NS : ~ suits fs rl l s i d) by (intros H; apply B in H; discriminate). destruct (all_pages s1 HS) as (A1 & A2 & A3). destruct (candidates_ok s1 i HS HI _ A1 A2) as (bk & E2 & ND & IN). rewrite E2. cbn [rbind]. destruct bk as [|x [|y bk]].
    + left. split; [reflexivity|]. intros r H. apply (IN r). split; [apply A3; apply H|exact H].
    + right. destruct (put_at s1 ca (1 + j) x SH ltac:(lia) ltac:(lia)) as (s2 & E3 & S2 & P2 & D2 & A). exists s2, x. split; [exact E3|]. split; [split; [exact S2|split; congruence]|]. split; [|exact A]. right. left. split; [exact NS|]. split; [apply (IN x); now left|]. intros r H. assert (In r [x]) as [-> |[]] by (apply IN; split; [apply A3; apply H|exact H]). reflexivity.
    + right. exists s1, d. split; [reflexivity|]. split; [exact HS|]. split; [|exact KEEP]. right. right. split; [exact NS|]. split; [reflexivity|]. exists x, y. split; [intros ->; apply NoDup_cons_iff in ND; apply (proj1 ND); now left|]. split; [apply (IN x); now left|apply (IN y); right; now left].
Qed.

(** ** The loop: the tables of the first [b] entries have been counted, the first [i] entries mended *)
Definition inv (b i : Z) (s1 : st) : Prop :=
  same s1 /\
  (forall i', 0 <= i' < i -> mended fs rl l s i' (entry (mem s) block i') (at_ (mem s1) (tb (i' / 1023)) (1 + i' mod 1023))) /\
  (forall k, 0 <= k -> 1023 * k < b -> at_ (mem s1) (tb k) 0 = Z.min 1023 (P - 1023 * k)) /\
  (forall n w, 0 <= n -> 0 <= w -> (forall k, 0 <= k -> 1023 * k < b -> n = tb k -> w <> 0) -> (forall i', 0 <= i' < i -> n = tb (i' / 1023) -> w <> 1 + i' mod 1023) -> at_ (mem s1) n w = at_ (mem s) n w).
Lemma tb_ok k : 0 <= k -> 1023 * k < P -> 5 <= tb k < pages s /\ tb k <> block.
Proof. intros H1 H2. apply (rp_tab _ _ _ _ _ R). fold P. fold T. pose proof (T_bound (1023 * k) ltac:(lia)) as B. replace (1023 * k / 1023) with k in B by (rewrite Z.mul_comm, Z.div_mul; lia). lia. Qed.
Lemma tb_eq k k' : 0 <= k -> 1023 * k < P -> 0 <= k' -> 1023 * k' < P -> tb k = tb k' -> k = k'.
Proof.
  intros H1 H2 H3 H4. apply (rp_apart _ _ _ _ _ R); fold P; fold T.
  - pose proof (T_bound (1023 * k) ltac:(lia)) as B. replace (1023 * k / 1023) with k in B by (rewrite Z.mul_comm, Z.div_mul; lia). lia.
  - pose proof (T_bound (1023 * k') ltac:(lia)) as B. replace (1023 * k' / 1023) with k' in B by (rewrite Z.mul_comm, Z.div_mul; lia). lia.
Qed.
Lemma div_lt i : 0 <= i < P -> 0 <= i / 1023 /\ 1023 * (i / 1023) < P /\ 1023 * (i / 1023) <= i /\ 0 <= i mod 1023 < 1023 /\ i = 1023 * (i / 1023) + i mod 1023.
Proof. intros H. pose proof (Z.div_mod i 1023 ltac:(lia)). pose proof (Z.mod_pos_bound i 1023 ltac:(lia)). lia. Qed.
Lemma shaped_s : shaped (mem s).
Proof. pose proof (rp_mem _ _ _ _ _ R) as H. unfold shaped. eapply Forall_impl; [|exact H]. intros a [Ha _]. exact Ha. Qed.
Lemma words_s n w : 0 <= n < pages s -> 0 <= w < 1024 -> 0 <= at_ (mem s) n w < 2 ^ 32.
Proof.
  intros Hn Hw. pose proof (rp_mem _ _ _ _ _ R) as H. rewrite Forall_forall in H. unfold pages, zlen in Hn. destruct (H (nth (Z.to_nat n) (mem s) []) ltac:(apply nth_In; lia)) as [H1 H2]. rewrite Forall_forall in H2. apply H2. unfold at_. apply nth_In. lia.
Qed.
Lemma open_ok s1 i : inv i i s1 -> 0 <= i < P -> i mod 1023 = 0 -> exists s2, open_table s1 block (i / 1023) (l - 4096 * i) = Ok (s2, tb (i / 1023)) /\ inv (i + 1) i s2.
Proof.
  intros (HS & A & B & C) HI HM. pose proof HS as (SH & PG & DK). destruct (div_lt i HI) as (D1 & D2 & D3 & D4 & D5). destruct (T_bound i HI) as [T1 T2]. set (k := i / 1023) in *. assert (EI : i = 1023 * k) by lia. pose proof (rp_block _ _ _ _ _ R) as BL. destruct (tb_ok k D1 D2) as [TK1 TK2].
  unfold open_table. rewrite word_at by (try exact SH; lia). cbn [rbind].
  assert (EB : at_ (mem s1) block (6 + k) = tb k).
  { rewrite C; [reflexivity|lia|lia| |].
    - intros k' H1 H2 H3. destruct (tb_ok k' H1 ltac:(lia)). congruence.
    - intros i' H1 H2. destruct (div_lt i' ltac:(lia)) as (E1 & E2 & _). destruct (tb_ok (i' / 1023) E1 E2). congruence. }
  rewrite EB, PG. assert ((tb k <? 5) || (pages s <=? tb k) = false) as -> by lia. unfold take. rewrite PG. assert (pages s <? tb k = false) as -> by lia. assert (tb k =? pages s = false) as -> by lia. cbn [rbind]. cbv iota beta zeta. rewrite word_at by (try exact SH; lia). cbn [rbind].
  assert (N : (l - 4096 * i + 4095) / 4096 = P - i). { unfold P, n_pages. replace (l - 4096 * i + 4095) with (l + 4095 + (- i) * 4096) by lia. rewrite Z.div_add by lia. lia. } rewrite N.
  assert (E0 : at_ (mem s1) (tb k) 0 = at_ (mem s) (tb k) 0).
  { apply C; [lia|lia| |].
    - intros k' H1 H2 H3. exfalso. assert (k = k') by (apply tb_eq; try lia; exact H3). lia.
    - intros i' H1 H2. destruct (div_lt i' ltac:(lia)) as (_ & _ & _ & E4 & _). lia. }
  rewrite E0. set (m := at_ (mem s) (tb k) 0). set (n := Z.min 1023 (P - i)).
  assert (KB : forall k', 0 <= k' -> 1023 * k' < i + 1 -> k' = k \/ 1023 * k' < i) by (intros; lia).
  assert (F : exists s2, (if n =? i32 m then Ok s1 else put s1 (tb k) 0 n) = Ok s2 /\ same s2 /\ forall n' w', 0 <= n' -> 0 <= w' -> at_ (mem s2) n' w' = if (n' =? tb k) && (w' =? 0) then n else at_ (mem s1) n' w').
  { destruct (n =? i32 m) eqn:EN.
    - exists s1. split; [reflexivity|]. split; [exact HS|]. intros n' w' _ _. destruct ((n' =? tb k) && (w' =? 0)) eqn:EQ; [|reflexivity]. apply Bool.andb_true_iff in EQ. destruct EQ as [Q1 Q2]. apply Z.eqb_eq in Q1, Q2. subst n' w'. rewrite E0. fold m. pose proof (words_s (tb k) 0 ltac:(lia) ltac:(lia)) as W. fold m in W. unfold i32 in EN. apply Z.eqb_eq in EN. pose proof (Z.div_mod (m + 2 ^ 31) (2 ^ 32) ltac:(lia)). pose proof (Z.mod_pos_bound (m + 2 ^ 31) (2 ^ 32) ltac:(lia)). unfold n in *. lia.
    - destruct (put_at s1 (tb k) 0 n SH ltac:(lia) ltac:(lia)) as (s2 & E3 & S2 & P2 & D22 & A2). exists s2. split; [exact E3|]. split; [split; [exact S2|split; congruence]|exact A2]. }
  destruct F as (s2 & EF & S2 & A2). rewrite EF. cbn [rbind]. exists s2. split; [reflexivity|]. split; [exact S2|]. split; [|split].
  - intros i' H. destruct (div_lt i' ltac:(lia)) as (E1 & E2 & _ & E4 & _). rewrite A2; [|destruct (tb_ok (i' / 1023) E1 E2); lia|lia]. assert (1 + i' mod 1023 =? 0 = false) as -> by lia. rewrite Bool.andb_false_r. now apply A.
  - intros k' H1 H2. rewrite A2; [|destruct (tb_ok k' H1 ltac:(lia)); lia|lia]. destruct (KB k' H1 H2) as [-> |H3].
    + rewrite !Z.eqb_refl. cbn [andb]. unfold n. rewrite EI. reflexivity.
    + assert (tb k' =? tb k = false) as ->. { apply Z.eqb_neq. intros Q. assert (k' = k) by (apply tb_eq; try lia; exact Q). lia. } cbn [andb]. now apply B.
  - intros n' w' H1 H2 H3 H4. rewrite A2 by assumption. destruct ((n' =? tb k) && (w' =? 0)) eqn:EQ.
    + exfalso. apply Bool.andb_true_iff in EQ. destruct EQ as [Q1 Q2]. apply Z.eqb_eq in Q1, Q2. apply (H3 k D1 ltac:(lia) Q1). exact Q2.
    + apply C; [exact H1|exact H2| |exact H4]. intros k' H5 H6. apply H3; lia.
Qed.
Lemma skip_open s1 i : inv i i s1 -> i mod 1023 <> 0 -> inv (i + 1) i s1.
Proof.
  intros (HS & A & B & C) HM. assert (K : forall k, 1023 * k < i + 1 -> 1023 * k < i). { intros k H. pose proof (Z.div_mod i 1023 ltac:(lia)). destruct (Z.eq_dec (1023 * k) i) as [E|E]; [|lia]. exfalso. apply HM. rewrite <- E, Z.mul_comm. apply Z.mod_mul. lia. }
  split; [exact HS|]. split; [exact A|]. split; [intros k H1 H2; apply B; [exact H1|now apply K]|]. intros n w H1 H2 H3 H4. apply C; [exact H1|exact H2| |exact H4]. intros k H5 H6. apply H3; lia.
Qed.
Lemma mend_inv s1 i : inv (i + 1) i s1 -> 0 <= i < P ->
  (mend junk tm rl s1 (tb (i / 1023)) i (i mod 1023) (used l i) = Throw /\ forall r, ~ suits fs rl l s i r) \/
  (exists s2, mend junk tm rl s1 (tb (i / 1023)) i (i mod 1023) (used l i) = Ok s2 /\ inv (i + 1) (i + 1) s2).
Proof.
  intros (HS & A & B & C) HI. destruct (div_lt i HI) as (D1 & D2 & D3 & D4 & D5). destruct (tb_ok (i / 1023) D1 D2) as [TK1 TK2].
  assert (OTHER : forall i', 0 <= i' < P -> i' <> i -> (tb (i' / 1023) =? tb (i / 1023)) && (1 + i' mod 1023 =? 1 + i mod 1023) = false).
  { intros i' H N. destruct (div_lt i' H) as (E1 & E2 & E3 & E4 & E5). destruct ((tb (i' / 1023) =? tb (i / 1023)) && (1 + i' mod 1023 =? 1 + i mod 1023)) eqn:EQ; [|reflexivity]. exfalso. apply Bool.andb_true_iff in EQ. destruct EQ as [Q1 Q2]. apply Z.eqb_eq in Q1, Q2. assert (i' / 1023 = i / 1023) by (apply tb_eq; assumption). lia. }
  assert (EO : at_ (mem s1) (tb (i / 1023)) (1 + i mod 1023) = entry (mem s) block i).
  { rewrite C; [reflexivity|lia|lia|lia|]. intros i' H1 H2 H3. pose proof (OTHER i' ltac:(lia) ltac:(lia)) as O. rewrite <- H2, <- H3, !Z.eqb_refl in O. discriminate. }
  destruct (mend_ok s1 (tb (i / 1023)) i (i mod 1023) HS ltac:(lia) D4 HI) as [H|(s2 & d' & E & S2 & M & A2)]; [now left|]. right. exists s2. split; [exact E|]. rewrite EO in M. split; [exact S2|]. split; [|split].
  - intros i' H. destruct (div_lt i' ltac:(lia)) as (E1 & E2 & E3 & E4 & E5). rewrite A2; [|destruct (tb_ok (i' / 1023) E1 E2); lia|lia]. destruct (Z.eq_dec i' i) as [-> |N]; [rewrite !Z.eqb_refl; cbn [andb]; exact M|]. rewrite OTHER by lia. apply A. lia.
  - intros k H1 H2. rewrite A2; [|destruct (tb_ok k H1 ltac:(lia)); lia|lia]. assert (0 =? 1 + i mod 1023 = false) as -> by lia. rewrite Bool.andb_false_r. now apply B.
  - intros n w H1 H2 H3 H4. rewrite A2 by assumption. destruct ((n =? tb (i / 1023)) && (w =? 1 + i mod 1023)) eqn:EQ.
    + exfalso. apply Bool.andb_true_iff in EQ. destruct EQ as [Q1 Q2]. apply Z.eqb_eq in Q1, Q2. exact (H4 i ltac:(lia) Q1 Q2).
    + apply C; [exact H1|exact H2|exact H3|]. intros i' H5. apply H4. lia.
Qed.
Definition left_ (i : Z) : Z := if i <? P then l - 4096 * i else 0.
Lemma loop_ok fuel : forall i s1 ca, fuel = Z.to_nat (P - i) -> 0 <= i <= P -> inv i i s1 -> (i mod 1023 <> 0 -> ca = tb (i / 1023)) ->
  (exists s2, loop junk tm rl fuel s1 block i (i mod 1023) ((i + 1022) / 1023) ca (left_ i) = Ok s2 /\ inv P P s2) \/
  (loop junk tm rl fuel s1 block i (i mod 1023) ((i + 1022) / 1023) ca (left_ i) = Throw /\ exists i', 0 <= i' < P /\ forall r, ~ suits fs rl l s i' r).
Proof.
  induction fuel as [|f IH]; intros i s1 ca EF HI HV HC; cbn [loop].
  - assert (i = P) by lia. subst i. left. exists s1. unfold left_. assert (P <? P = false) as -> by lia. cbn. split; [reflexivity|exact HV].
  - assert (LT : 0 <= i < P) by lia. destruct (pages_l l i LT) as [U1 U2]. assert (LI : left_ i = l - 4096 * i) by (unfold left_; assert (i <? P = true) as -> by lia; reflexivity). rewrite LI. assert (l - 4096 * i =? 0 = false) as -> by lia.
    destruct (div_lt i LT) as (D1 & D2 & D3 & D4 & D5).
    assert (O : exists s2, (if i mod 1023 =? 0 then open_table s1 block ((i + 1022) / 1023) (l - 4096 * i) else Ok (s1, ca)) = Ok (s2, tb (i / 1023)) /\ inv (i + 1) i s2).
    { destruct (i mod 1023 =? 0) eqn:EM.
      - assert (K : (i + 1022) / 1023 = i / 1023). { assert (i = 1023 * (i / 1023)) by lia. pose proof (Z.div_mod (i + 1022) 1023 ltac:(lia)). pose proof (Z.mod_pos_bound (i + 1022) 1023 ltac:(lia)). lia. } rewrite K. apply open_ok; [exact HV|exact LT|lia].
      - exists s1. rewrite (HC ltac:(lia)). split; [reflexivity|]. apply skip_open; [exact HV|lia]. }
    destruct O as (s2 & E2 & V2). rewrite E2. cbn [rbind]. cbv beta iota. change (Z.min 4096 (l - 4096 * i)) with (used l i).
    destruct (mend_inv s2 i V2 LT) as [(E3 & N)|(s3 & E3 & V3)]; rewrite E3; cbn [rbind]; [right; split; [reflexivity|]; exists i; auto|].
    assert (Q1 : (if 1023 <=? i mod 1023 + 1 then 0 else i mod 1023 + 1) = (i + 1) mod 1023).
    { rewrite D5 at 3. destruct (1023 <=? i mod 1023 + 1) eqn:EM.
      - replace (1023 * (i / 1023) + i mod 1023 + 1) with ((i / 1023 + 1) * 1023) by lia. symmetry. apply Z.mod_mul. lia.
      - replace (1023 * (i / 1023) + i mod 1023 + 1) with (i mod 1023 + 1 + (i / 1023) * 1023) by lia. rewrite Z.mod_add by lia. symmetry. apply Z.mod_small. lia. }
    assert (Q2 : (if i mod 1023 =? 0 then (i + 1022) / 1023 + 1 else (i + 1022) / 1023) = (i + 1 + 1022) / 1023).
    { pose proof (Z.div_mod (i + 1022) 1023 ltac:(lia)). pose proof (Z.mod_pos_bound (i + 1022) 1023 ltac:(lia)). pose proof (Z.div_mod (i + 1 + 1022) 1023 ltac:(lia)). pose proof (Z.mod_pos_bound (i + 1 + 1022) 1023 ltac:(lia)). destruct (i mod 1023 =? 0) eqn:EM; lia. }
    assert (Q3 : (if l - 4096 * i <? 4096 then 0 else l - 4096 * i - 4096) = left_ (i + 1)).
    { unfold left_. assert (PD : P * 4096 - 4095 <= l <= P * 4096). { unfold P, n_pages. pose proof (Z.div_mod (l + 4095) 4096 ltac:(lia)). pose proof (Z.mod_pos_bound (l + 4095) 4096 ltac:(lia)). lia. } destruct (l - 4096 * i <? 4096) eqn:E4; destruct (i + 1 <? P) eqn:E5; lia. }
    rewrite Q1, Q2, Q3. apply IH; [lia|lia|exact V3|]. intros NM. f_equal.
    rewrite <- Q1 in NM. destruct (1023 <=? i mod 1023 + 1) eqn:EM; [congruence|]. rewrite D5 at 2. replace (1023 * (i / 1023) + i mod 1023 + 1) with (i mod 1023 + 1 + (i / 1023) * 1023) by lia. rewrite Z.div_add by lia. rewrite (Z.div_small (i mod 1023 + 1)) by lia. lia.
Qed.
Lemma inv_repaired s2 : inv P P s2 -> repaired fs rl block l s s2.
Proof.
  intros ((SH & PG & DK) & A & B & C). split; [exact DK|]. split; [exact PG|]. fold P. fold T.
  assert (TAB : forall k, 0 <= k < T -> tab (mem s2) block k = tb k).
  { intros k H. assert (KP : 1023 * k < P). { unfold T in H. pose proof (Z.div_mod (P + 1022) 1023 ltac:(lia)). pose proof (Z.mod_pos_bound (P + 1022) 1023 ltac:(lia)). lia. } unfold tab. pose proof (rp_block _ _ _ _ _ R). rewrite C; [reflexivity|lia|lia| |].
    - intros k' H1 H2 H3. destruct (tb_ok k' H1 ltac:(lia)). congruence.
    - intros i' H1 H2. destruct (div_lt i' ltac:(lia)) as (E1 & E2 & _). destruct (tb_ok (i' / 1023) E1 E2). congruence. }
  split; [|split].
  - intros i H. unfold entry at 2. rewrite TAB by (apply T_bound; exact H). now apply A.
  - intros k H. apply B; [lia|]. unfold T in H. pose proof (Z.div_mod (P + 1022) 1023 ltac:(lia)). pose proof (Z.mod_pos_bound (P + 1022) 1023 ltac:(lia)). lia.
  - intros n w H1 H2 H3 H4. apply C; [exact H1|exact H2| |exact H4]. intros k H5 H6. apply H3. fold P T. split; [lia|]. unfold T. pose proof (Z.div_mod (P + 1022) 1023 ltac:(lia)). pose proof (Z.mod_pos_bound (P + 1022) 1023 ltac:(lia)). lia.
Qed.
End Ok.

Theorem restore_ok junk fs rl block l s : repairable fs rl block l s -> clean junk l ->
  (exists s', restore junk fs rl block s = Ok s' /\ repaired fs rl block l s s') \/
  (restore junk fs rl block s = Throw /\ exists i, 0 <= i < n_pages l /\ forall r, ~ suits fs rl l s i r).
Proof.
  intros R CJ. pose proof (shaped_s _ _ _ _ _ R) as SH. pose proof (rp_block _ _ _ _ _ R) as BL. pose proof (rp_rl _ _ _ _ _ R) as RL. destruct (template_ok fs rl ltac:(lia) (rp_placed _ _ _ _ _ R)) as (tm & TM & _).
  pose proof (words_s _ _ _ _ _ tm R block 2 ltac:(lia) ltac:(lia)) as LB. rewrite (rp_len _ _ _ _ _ R) in LB. destruct (rp_sig _ _ _ _ _ R) as [G1 G2].
  unfold restore. assert ((block <? 5) || (pages s <=? block) = false) as -> by lia. unfold take. assert (pages s <? block = false) as -> by lia. assert (block =? pages s = false) as -> by lia. cbn [rbind]. rewrite !word_at by (try exact SH; lia). cbn [rbind]. rewrite G1, G2. change (le_val [49; 67; 68; 66] =? SIG_1) with true. change (le_val [79; 66; 86; 56] =? SIG_2) with true. cbn [andb negb]. rewrite (rp_len _ _ _ _ _ R). assert (rl =? 0 = false) as -> by lia.
  pose proof (Z.div_mod l rl ltac:(lia)) as DM. rewrite (rp_whole _ _ _ _ _ R) in DM. assert (l / rl * rl =? l = true) as -> by lia. cbn [negb]. rewrite TM. cbn [rbind]. fold (n_pages l).
  assert (V : inv fs rl block l s 0 0 s). { split; [split; [exact SH|auto]|]. split; [lia|]. split; [lia|]. auto. }
  pose proof (P_bound _ _ _ _ _ R LB) as PB.
  assert (LF : left_ l 0 = l). { unfold left_. destruct (0 <? n_pages l) eqn:E; [lia|]. unfold n_pages in E. destruct (Z.lt_ge_cases 0 l); [|lia]. assert (1 <= (l + 4095) / 4096) by (apply Z.div_le_lower_bound; lia). lia. }
  pose proof (loop_ok junk fs rl block l s tm R CJ LB TM (Z.to_nat (n_pages l)) 0 s 0 ltac:(f_equal; lia) ltac:(lia) V ltac:(intros H; exfalso; apply H; reflexivity)) as LO. rewrite LF in LO. change (0 mod 1023) with 0 in LO. change ((0 + 1022) / 1023) with 0 in LO.
  destruct LO as [(s2 & E & V2)|(E & N)]; rewrite E; [left; exists s2; split; [reflexivity|]; exact (inv_repaired fs rl block l s R LB s2 V2)|right; split; [reflexivity|exact N]].
Qed.
