(** Proofs about the table of contents of a container. *)
From Coq Require Import Permutation.
From Verif Require Import Prelude Lists Cf_Model Toc_Model Toc_Spec.
Ltac Zify.zify_post_hook ::= idtac.

Lemma nowhere_spec a : nowhere a = true <-> no_place a.
Proof. unfold nowhere, no_place, LAST. rewrite orb_true_iff, !Z.eqb_eq. tauto. Qed.
Lemma nowhere_false a : nowhere a = false <-> ~ no_place a.
Proof. rewrite <- nowhere_spec. destruct (nowhere a); split; congruence. Qed.
Lemma placed_in a b : In b (placed a) <-> b = a /\ ~ no_place a.
Proof. unfold placed. change ((a =? 0) || (a =? 2147483647)) with (nowhere a). destruct (nowhere a) eqn:E; cbn [In]; [apply nowhere_spec in E; tauto|apply nowhere_false in E]. intuition. Qed.
Lemma placed_some a : ~ no_place a -> placed a = [a].
Proof. intros H. unfold placed. change ((a =? 0) || (a =? 2147483647)) with (nowhere a). apply nowhere_false in H. rewrite H. reflexivity. Qed.
Lemma placed_none a : no_place a -> placed a = [].
Proof. intros H. unfold placed. change ((a =? 0) || (a =? 2147483647)) with (nowhere a). apply nowhere_spec in H. rewrite H. reflexivity. Qed.
Lemma nodup_right {A} (a b : list A) : NoDup (a ++ b) -> NoDup b.
Proof. induction a as [|x a IH]; [auto|]. intros H. inversion H. auto. Qed.
(** ** Blocks *)
Lemma get_drop st a b : get_block (drop_block st a) b = if a =? b then None else get_block st b.
Proof.
  unfold drop_block. induction st as [|[c d] r IH]; cbn [filter get_block fst]; [destruct (a =? b); reflexivity|]. destruct (Z.eqb_spec c a) as [E|E]; cbn [negb].
  - rewrite IH. subst c. destruct (a =? b); reflexivity.
  - cbn [get_block]. rewrite IH. destruct (Z.eqb_spec c b), (Z.eqb_spec a b); congruence.
Qed.
Lemma get_put st a d b : get_block (put_block st a d) b = if a =? b then Some d else get_block st b.
Proof. unfold put_block. cbn [get_block]. rewrite get_drop. destruct (a =? b); reflexivity. Qed.
Lemma get_free st a b : get_block (free st a) b = if (a =? b) && negb (nowhere a) then None else get_block st b.
Proof. unfold free. destruct (nowhere a); [rewrite andb_false_r; reflexivity|]. rewrite get_drop, andb_true_r. reflexivity. Qed.

Definition own (x : item) : list Z := placed (i_head x) ++ placed (i_data x).
Definition owns (l : list item) : list Z := flat_map own l.
Definition known (st : blocks) (l : list Z) : Prop := Forall (fun a => get_block st a <> None) l.
Definition same_on (st st' : blocks) (l : list Z) : Prop := forall a, In a l -> get_block st' a = get_block st a.
Definition apart (st : blocks) (l : list Z) : Prop := NoDup l /\ known st l.

(** an element in memory and what it should be; [b]: a creation or deletion is not flushed *)
Record sits (b : bool) (st : blocks) (x : item) (e : idl) : Prop := SITS {
  st_name : i_name x = d_name e;
  st_head : get_block st (i_head x) = Some (i_name x) /\ ~ no_place (i_head x) \/ i_head x = 0 /\ i_hch x = true /\ b = true /\ (i_mem x <> None \/ d_new e = true);
  st_closed : i_mem x = None -> d_bytes e = bytes_at st (i_data x);
  st_open : forall d, i_mem x = Some d -> d = d_bytes e /\ (i_dch x = false -> bytes_at st (i_data x) = d);
  st_void : no_place (i_data x) -> d_void e = true \/ i_dch x = true /\ i_mem x <> None;
  st_place : no_place (i_data x) -> i_dch x = true -> i_mem x <> None -> b = true;
  st_zero : d_void e = false -> no_place (i_data x) -> b = true }.

Lemma bytes_same st st' a : (forall c, In c (placed a) -> get_block st' c = get_block st c) -> bytes_at st' a = bytes_at st a.
Proof. intros H. unfold bytes_at. destruct (nowhere a) eqn:E; [reflexivity|]. apply nowhere_false in E. rewrite H; [reflexivity|]. apply placed_in. auto. Qed.
Lemma sits_frame b st st' x e : same_on st st' (own x) -> sits b st x e -> sits b st' x e.
Proof.
  intros F [A1 A2 A3 A4 A5 A6 A7]. assert (FB : bytes_at st' (i_data x) = bytes_at st (i_data x)) by (apply bytes_same; intros c Hc; apply F; apply in_or_app; right; exact Hc).
  constructor; try assumption.
  - destruct A2 as [[A2 N]|A2]; [left; split; [|exact N]|right; exact A2]. rewrite F; [exact A2|]. apply in_or_app. left. apply placed_in. auto.
  - intros M. rewrite FB. exact (A3 M).
  - intros d M. rewrite FB. exact (A4 d M).
Qed.
Lemma sits_frame_all b st st' l es : same_on st st' (owns l) -> Forall2 (sits b st) l es -> Forall2 (sits b st') l es.
Proof.
  intros F H. induction H as [|x e l es H1 H2 IH]; constructor.
  - apply (sits_frame b st); [|exact H1]. intros a Ha. apply F. apply in_or_app. left. exact Ha.
  - apply IH. intros a Ha. apply F. apply in_or_app. right. exact Ha.
Qed.
Lemma sits_true b st x e : sits b st x e -> sits true st x e.
Proof. intros [A1 A2 A3 A4 A5 A6 A7]. constructor; try assumption; try reflexivity. destruct A2 as [A2|(A & B & _ & C)]; [left; exact A2|right; auto]. Qed.
Lemma sits_true_all b st l es : Forall2 (sits b st) l es -> Forall2 (sits true st) l es.
Proof. intros H. induction H; constructor; [exact (sits_true _ _ _ _ H)|assumption]. Qed.

Section Alloc.
Variable alloc : blocks -> Z.
Hypothesis HA : allocates alloc.

(** saving bytes under an address: the others keep theirs *)
Lemma save_block_ok st a d others : NoDup (placed a ++ others) -> known st others ->
  exists st' a', save_block alloc st a d = (st', a') /\ ~ no_place a' /\ get_block st' a' = Some d /\ same_on st st' others /\ NoDup (a' :: others) /\ known st' others /\ (~ no_place a -> a' = a).
Proof using HA.
  intros N K. unfold save_block. set (a' := if nowhere a then alloc st else a). exists (put_block st a' d), a'. split; [reflexivity|].
  assert (P : ~ no_place a'). { unfold a'. destruct (nowhere a) eqn:E; [apply HA|apply nowhere_false; exact E]. }
  assert (I : ~ In a' others).
  { unfold a'. destruct (nowhere a) eqn:E.
    - intros I. unfold known in K. rewrite Forall_forall in K. apply (K _ I). apply HA.
    - apply nowhere_false in E. rewrite (placed_some a E) in N. inversion N. assumption. }
  assert (S1 : same_on st (put_block st a' d) others). { intros c Hc. rewrite get_put. destruct (Z.eqb_spec a' c); [congruence|reflexivity]. }
  split; [exact P|]. split; [rewrite get_put, Z.eqb_refl; reflexivity|]. split; [exact S1|]. split; [constructor; [exact I|]; exact (nodup_right _ _ N)|].
  split; [|intros H; unfold a'; apply nowhere_false in H; rewrite H; reflexivity]. unfold known in *. rewrite Forall_forall in *. intros c Hc. rewrite S1 by exact Hc. apply K. exact Hc.
Qed.
Definition settled (x : item) : Prop := i_mem x <> None -> i_dch x = false /\ i_hch x = false.
Lemma own_perm (h d o : list Z) : Permutation ((h ++ d) ++ o) (d ++ h ++ o).
Proof using. clear HA. rewrite <- app_assoc. rewrite !app_assoc. apply Permutation_app_tail. apply Permutation_app_comm. Qed.
(** saving an element *)
Lemma save_item_ok b st x e others : sits b st x e -> NoDup (own x ++ others) -> known st (own x ++ others) ->
  exists st' x', save_item alloc st x = (st', x') /\ sits b st' x' e /\ settled x' /\ same_on st st' others /\ NoDup (own x' ++ others) /\ known st' (own x' ++ others) /\
    (b = false -> i_head x' = i_head x /\ i_data x' = i_data x) /\ (i_mem x <> None -> ~ no_place (i_head x')) /\ (i_mem x = None -> x' = x) /\ (i_mem x <> None -> i_mem x' <> None) /\
    (d_new e = false -> ~ no_place (i_head x')) /\ (no_place (i_data x') -> d_void e = true).
Proof using HA.
  intros H N K. destruct x as [h a n [d|] dc hc]; unfold save_item; cbn [i_mem i_dch i_hch i_data i_head i_name].
  2:{ exists st, (IT h a n None dc hc). split; [reflexivity|]. split; [exact H|]. split; [intros X; elim X; reflexivity|]. split; [intros c _; reflexivity|]. split; [exact N|]. split; [exact K|]. split; [auto|]. split; [intros X; elim X; reflexivity|]. split; [reflexivity|]. split; [auto|].
      split; [|intros X; destruct H as [_ _ _ _ A5 _ _]; cbn [i_data i_mem i_dch] in A5; destruct (A5 X) as [Y|[_ Y]]; [exact Y|elim Y; reflexivity]].
      intros X. destruct H as [_ A2 _ _ _ _ _]. cbn [i_head i_mem i_hch] in *. destruct A2 as [[_ A2]|(_ & _ & _ & [Y|Y])]; [exact A2|elim Y; reflexivity|congruence]. }
  destruct H as [A1 A2 A3 A4 A5 A6 A7]. cbn [i_mem i_dch i_hch i_data i_head i_name] in *. unfold own in N, K. cbn [i_head i_data] in N, K.
  destruct (A4 d eq_refl) as [Ed Eb]. 
  (* the data *)
  assert (NP : NoDup (placed a ++ placed h ++ others)) by (apply (Permutation_NoDup (own_perm (placed h) (placed a) others)); exact N).
  assert (KP : known st (placed a ++ placed h ++ others)). { unfold known in *. rewrite Forall_forall in *. intros c Hc. apply K. apply (Permutation_in c (Permutation_sym (own_perm (placed h) (placed a) others))). exact Hc. }
  assert (D : exists st1 a1, (if dc then save_block alloc st a d else (st, a)) = (st1, a1) /\ bytes_at st1 a1 = d /\ same_on st st1 (placed h ++ others) /\ NoDup (placed a1 ++ placed h ++ others) /\ known st1 (placed a1 ++ placed h ++ others) /\
    (~ no_place a -> a1 = a) /\ (dc = true -> ~ no_place a1) /\ (dc = false -> a1 = a)).
  { destruct dc.
    - assert (KO : known st (placed h ++ others)) by (unfold known in *; apply Forall_app in KP; apply KP).
      destruct (save_block_ok st a d (placed h ++ others) NP KO) as (st1 & a1 & E & P & G & SO & N1 & K1 & Q). exists st1, a1. split; [exact E|]. split; [unfold bytes_at; pose proof P as P'; apply nowhere_false in P'; rewrite P', G; reflexivity|].
      split; [exact SO|]. rewrite (placed_some a1 P). cbn [app]. split; [exact N1|]. split; [unfold known in *; constructor; [rewrite G; discriminate|exact K1]|]. split; [exact Q|]. split; [intros _; exact P|discriminate].
    - exists st, a. split; [reflexivity|]. split; [apply Eb; reflexivity|]. split; [intros c _; reflexivity|]. split; [exact NP|]. split; [exact KP|]. split; [reflexivity|]. split; [discriminate|reflexivity]. }
  destruct D as (st1 & a1 & -> & D1 & D2 & D3 & D4 & D5 & D6 & D7).
  (* the header *)
  assert (N2 : NoDup (placed h ++ placed a1 ++ others)). { revert D3. apply Permutation_NoDup. rewrite !app_assoc. apply Permutation_app_tail. apply Permutation_app_comm. }
  assert (HH : exists st2 h2, (if hc then save_block alloc st1 h n else (st1, h)) = (st2, h2) /\ ~ no_place h2 /\ get_block st2 h2 = Some n /\ same_on st1 st2 (placed a1 ++ others) /\ NoDup (placed h2 ++ placed a1 ++ others) /\ known st2 (placed a1 ++ others) /\ (~ no_place h -> h2 = h)).
  { assert (K2 : known st1 (placed a1 ++ others)). { unfold known in *. apply Forall_app in D4. destruct D4 as [D4 D4']. apply Forall_app in D4'. apply Forall_app. tauto. }
    destruct hc.
    - destruct (save_block_ok st1 h n (placed a1 ++ others) N2 K2) as (st2 & h2 & E & P & G & SO & N3 & K3 & Q). exists st2, h2. split; [exact E|]. split; [exact P|]. split; [exact G|]. split; [exact SO|]. rewrite (placed_some h2 P). auto.
    - destruct A2 as [[G P]|(_ & X & _)]; [|discriminate]. exists st1, h. split; [reflexivity|]. split; [exact P|]. split; [rewrite D2; [exact G|]; apply in_or_app; left; apply placed_in; auto|]. split; [intros c _; reflexivity|]. auto. }
  destruct HH as (st2 & h2 & -> & P2 & G2 & S2 & N3 & K3 & Q2). eexists _, _. split; [reflexivity|]. unfold own, settled. cbn [i_head i_data i_mem i_dch i_hch i_name].
  assert (BD : bytes_at st2 a1 = d). { rewrite <- D1. apply bytes_same. intros c Hc. apply S2. apply in_or_app. left. exact Hc. }
  split; [|split; [|split; [|split; [|split; [|split; [|split; [|split; [|split; [|split]]]]]]]]].
  - constructor; cbn [i_head i_data i_mem i_dch i_hch i_name]; auto; try discriminate.
    + intros d0 [= <-]. split; [exact Ed|]. intros _. exact BD.
    + intros X. destruct dc; [elim (D6 eq_refl); exact X|]. rewrite (D7 eq_refl) in X. destruct (A5 X) as [Y|[Y _]]; [left; exact Y|discriminate].
    + intros X Y. destruct dc; [elim (D6 eq_refl); exact Y|]. rewrite (D7 eq_refl) in Y. apply A7; assumption.
  - intros _. split; reflexivity.
  - intros c Hc. rewrite S2 by (apply in_or_app; right; exact Hc). apply D2. apply in_or_app. right. exact Hc.
  - rewrite <- app_assoc. exact N3.
  - unfold known in *. rewrite <- app_assoc, (placed_some h2 P2). constructor; [rewrite G2; discriminate|exact K3].
  - intros ->. split.
    + apply Q2. destruct A2 as [[_ P]|(_ & _ & X & _)]; [exact P|discriminate].
    + destruct dc; [|apply D7; reflexivity]. apply D5. intros X. specialize (A6 X eq_refl ltac:(discriminate)). discriminate.
  - intros _. exact P2.
  - discriminate.
  - intros _. discriminate.
  - intros _. exact P2.
  - intros X. destruct dc; [elim (D6 eq_refl); exact X|]. rewrite (D7 eq_refl) in X. destruct (A5 X) as [Y|[Y _]]; [exact Y|discriminate].
Qed.
Lemma close_item_ok b st x e others : sits b st x e -> NoDup (own x ++ others) -> known st (own x ++ others) ->
  exists st' x', close_item alloc st x = (st', x') /\ sits b st' x' e /\ settled x' /\ same_on st st' others /\ NoDup (own x' ++ others) /\ known st' (own x' ++ others) /\
    (b = false -> i_head x' = i_head x /\ i_data x' = i_data x) /\ (d_new e = false -> ~ no_place (i_head x')) /\ (no_place (i_data x') -> d_void e = true).
Proof using HA.
  intros H N K. destruct (save_item_ok b st x e others H N K) as (st' & x' & E & S1 & S2 & S3 & S4 & S5 & S6 & S7 & S8 & S9 & S10 & S11).
  unfold close_item. rewrite E. eexists _, _. split; [reflexivity|]. split; [|split; [intros X; elim X; reflexivity|]; split; [exact S3|]; split; [exact S4|]; split; [exact S5|]; split; [exact S6|]; split; [exact S10|exact S11]].
  destruct (i_mem x) as [d0|] eqn:EM.
  - assert (M : i_mem x' <> None) by (apply S9; discriminate). destruct (S2 M) as [Ed Eh]. destruct S1 as [A1 A2 A3 A4 A5 A6 A7].
    destruct (i_mem x') as [d|] eqn:EM'; [|elim M; reflexivity]. destruct (A4 d eq_refl) as [B1 B2].
    constructor; cbn [i_head i_data i_mem i_dch i_hch i_name]; auto; try discriminate.
    + destruct A2 as [A2|(_ & X & _)]; [left; exact A2|congruence].
    + intros _. rewrite <- B1. symmetry. apply B2. exact Ed.
  - rewrite (S8 eq_refl) in *. destruct x as [h a n m dc hc]. cbn [i_mem] in EM. subst m. exact S1.
Qed.
(** saving all elements *)
Lemma each_ok (f : blocks -> item -> blocks * item) b :
  (forall st x e others, sits b st x e -> NoDup (own x ++ others) -> known st (own x ++ others) ->
   exists st' x', f st x = (st', x') /\ sits b st' x' e /\ settled x' /\ same_on st st' others /\ NoDup (own x' ++ others) /\ known st' (own x' ++ others) /\
     (b = false -> i_head x' = i_head x /\ i_data x' = i_data x) /\ (d_new e = false -> ~ no_place (i_head x')) /\ (no_place (i_data x') -> d_void e = true)) ->
  forall l es st others, Forall2 (sits b st) l es -> NoDup (owns l ++ others) -> known st (owns l ++ others) ->
  exists st' l', each f st l = (st', l') /\ Forall2 (sits b st') l' es /\ Forall settled l' /\ same_on st st' others /\ NoDup (owns l' ++ others) /\ known st' (owns l' ++ others) /\
    (b = false -> table_of l' = table_of l) /\ Forall2 (fun x e => (d_new e = false -> ~ no_place (i_head x)) /\ (no_place (i_data x) -> d_void e = true)) l' es.
Proof using.
  clear HA. intros HF. induction l as [|x l IH]; intros es st others H N K; inversion H; subst; clear H.
  - exists st, []. split; [reflexivity|]. split; [constructor|]. split; [constructor|]. split; [intros c _; reflexivity|]. split; [exact N|]. split; [exact K|]. split; [reflexivity|constructor].
  - rename y into e, l' into es. cbn [owns flat_map] in N, K. fold (owns l) in N, K. rewrite <- app_assoc in N, K.
    destruct (HF st x e (owns l ++ others) H2 N K) as (st1 & x1 & E1 & A1 & A2 & A3 & A4 & A5 & A6 & A7).
    assert (PERM : Permutation (own x1 ++ owns l ++ others) (owns l ++ own x1 ++ others)) by (rewrite !app_assoc; apply Permutation_app_tail; apply Permutation_app_comm).
    assert (N1 : NoDup (owns l ++ own x1 ++ others)) by (exact (Permutation_NoDup PERM A4)).
    assert (K1 : known st1 (owns l ++ own x1 ++ others)) by (unfold known in *; rewrite Forall_forall in *; intros c Hc; apply A5; apply (Permutation_in c (Permutation_sym PERM)); exact Hc).
    assert (F1 : Forall2 (sits b st1) l es). { apply (sits_frame_all b st); [|exact H4]. intros c Hc. apply A3. apply in_or_app. left. exact Hc. }
    destruct (IH es st1 (own x1 ++ others) F1 N1 K1) as (st2 & l2 & E2 & B1 & B2 & B3 & B4 & B5 & B6 & B7).
    exists st2, (x1 :: l2). cbn [each]. rewrite E1, E2. split; [reflexivity|].
    assert (PERM2 : Permutation (owns l2 ++ own x1 ++ others) (owns (x1 :: l2) ++ others)) by (cbn [owns flat_map]; fold (owns l2); rewrite !app_assoc; apply Permutation_app_tail; apply Permutation_app_comm).
    split; [constructor; [apply (sits_frame b st1); [|exact A1]; intros c Hc; apply B3; apply in_or_app; left; exact Hc|exact B1]|]. split; [constructor; assumption|].
    split; [intros c Hc; rewrite B3 by (apply in_or_app; right; exact Hc); apply A3; apply in_or_app; right; exact Hc|]. split; [exact (Permutation_NoDup PERM2 B4)|].
    split; [unfold known in *; rewrite Forall_forall in *; intros c Hc; apply B5; apply (Permutation_in c (Permutation_sym PERM2)); exact Hc|].
    split; [intros Eb; cbn [table_of map]; destruct (A6 Eb) as [-> ->]; f_equal; exact (B6 Eb)|constructor; assumption].
Qed.
Lemma save_item_short b st x e others : sits b st x e -> NoDup (own x ++ others) -> known st (own x ++ others) ->
  exists st' x', save_item alloc st x = (st', x') /\ sits b st' x' e /\ settled x' /\ same_on st st' others /\ NoDup (own x' ++ others) /\ known st' (own x' ++ others) /\
    (b = false -> i_head x' = i_head x /\ i_data x' = i_data x) /\ (d_new e = false -> ~ no_place (i_head x')) /\ (no_place (i_data x') -> d_void e = true).
Proof using HA.
  intros H N K. destruct (save_item_ok b st x e others H N K) as (st' & x' & E & S1 & S2 & S3 & S4 & S5 & S6 & S7 & S8 & S9 & S10 & S11). exists st', x'. split; [exact E|]. split; [exact S1|]. split; [exact S2|]. auto 10.
Qed.
Definition each_save b := each_ok (save_item alloc) b (save_item_short b).
Definition each_close b := each_ok (close_item alloc) b (close_item_ok b).

(** ** The container *)
Definition meets (c : cont) (s : list idl * bool) : Prop :=
  Forall2 (sits (snd s) (n_blocks c)) (n_items c) (fst s) /\ NoDup (owns (n_items c)) /\ known (n_blocks c) (owns (n_items c)) /\ n_changed c = snd s /\ (snd s = false -> n_table c = table_of (n_items c)).
Lemma after_flush b st l es : Forall2 (sits b st) l es -> Forall settled l -> Forall (fun e => d_new e = false) es ->
  Forall2 (fun x e => (d_new e = false -> ~ no_place (i_head x)) /\ (no_place (i_data x) -> d_void e = true)) l es -> Forall2 (sits false st) l es.
Proof using.
  clear HA. intros H. induction H as [|x e l es H1 H2 IH]; intros HS HN HP; [constructor|]. inversion HS; inversion HN; inversion HP; subst. constructor; [|apply IH; assumption].
  destruct H1 as [A1 A2 A3 A4 A5 A6 A7]. match goal with X : _ /\ _ |- _ => destruct X as [P1 P2] end. constructor; auto.
  - destruct A2 as [A2|(X & _)]; [left; exact A2|]. elim P1; [assumption|left; exact X].
  - intros X Y Z. match goal with X : settled x |- _ => destruct (X Z) as [W _] end. congruence.
  - intros X Y. rewrite (P2 Y) in X. discriminate.
Qed.
Lemma split_at (l : list item) (es : list idl) i x (P : item -> idl -> Prop) : Forall2 P l es -> nth_error l i = Some x ->
  exists l1 l2 e e1 e2, l = l1 ++ x :: l2 /\ firstn i l = l1 /\ skipn (S i) l = l2 /\ es = e1 ++ e :: e2 /\ nth_error es i = Some e /\ Forall2 P l1 e1 /\ P x e /\ Forall2 P l2 e2 /\
    (forall f, change_at es i f = e1 ++ f e :: e2) /\ without es i = e1 ++ e2.
Proof using.
  clear HA. intros H. revert i. induction H as [|y e l es H1 H2 IH]; intros i E; [destruct i; discriminate|]. destruct i as [|i].
  - cbn [nth_error] in E. injection E as ->. exists [], l, e, [], es. cbn. split; [reflexivity|]. split; [reflexivity|]. split; [reflexivity|]. split; [reflexivity|]. split; [reflexivity|]. split; [constructor|]. auto 10.
  - cbn [nth_error] in E. destruct (IH i E) as (l1 & l2 & e0 & e1 & e2 & A1 & A2 & A3 & A4 & A5 & A6 & A7 & A8 & A9 & A10). exists (y :: l1), l2, e0, (e :: e1), e2. cbn [firstn skipn nth_error app].
    split; [f_equal; exact A1|]. split; [f_equal; exact A2|]. split; [exact A3|]. split; [f_equal; exact A4|]. split; [exact A5|]. split; [constructor; assumption|]. split; [exact A7|]. split; [exact A8|].
    split; [intros f; cbn [change_at]; f_equal; apply A9|cbn [without]; f_equal; exact A10].
Qed.
Lemma nth_item (P : item -> idl -> Prop) l es i e : Forall2 P l es -> nth_error es i = Some e -> exists x, nth_error l i = Some x.
Proof using. clear HA. intros H E. revert i E. induction H as [|y e' l es H1 H2 IH]; intros [|i] E; cbn [nth_error] in *; try discriminate; [eauto|exact (IH i E)]. Qed.
Lemma owns_mid l1 x l2 : Permutation (owns (l1 ++ x :: l2)) (own x ++ owns l1 ++ owns l2).
Proof using. clear HA. unfold owns. rewrite flat_map_app. cbn [flat_map]. rewrite !app_assoc. apply Permutation_app_tail. apply Permutation_app_comm. Qed.
Lemma known_perm st l l' : Permutation l l' -> known st l -> known st l'.
Proof using. clear HA. intros P K. unfold known in *. rewrite Forall_forall in *. intros c Hc. apply K. apply (Permutation_in c (Permutation_sym P)). exact Hc. Qed.
(** an operation on one element *)
Lemma on_item_ok c l b i f g : meets c (l, b) -> (i < length l)%nat ->
  (forall x e others, nth_error l i = Some e -> sits b (n_blocks c) x e -> NoDup (own x ++ others) -> known (n_blocks c) (own x ++ others) ->
   exists st' x', f (n_blocks c) x = (st', x') /\ sits b st' x' (g e) /\ same_on (n_blocks c) st' others /\ NoDup (own x' ++ others) /\ known st' (own x' ++ others) /\ (b = false -> i_head x' = i_head x /\ i_data x' = i_data x)) ->
  meets (on_item c i f) (change_at l i g, b).
Proof using.
  clear HA. intros (M1 & M2 & M3 & M4 & M5) Hi HF. cbn [fst snd] in *. assert (Ex : exists e, nth_error l i = Some e). { destruct (nth_error l i) eqn:Q; [eauto|]. apply nth_error_None in Q. lia. }
  destruct Ex as (e & Ee). destruct (nth_item _ _ _ _ _ M1 Ee) as (x & Ex). unfold on_item. rewrite Ex.
  destruct (split_at _ _ _ _ _ M1 Ex) as (l1 & l2 & e' & e1 & e2 & A1 & A2 & A3 & A4 & A5 & A6 & A7 & A8 & A9 & _). assert (e' = e) as -> by congruence.
  rewrite A1 in M2, M3. pose proof (owns_mid l1 x l2) as PM. destruct (HF x e (owns l1 ++ owns l2) Ee A7 (Permutation_NoDup PM M2) (known_perm _ _ _ PM M3)) as (st' & x' & E & B1 & B2 & B3 & B4 & B5).
  rewrite E, A2, A3. unfold meets. cbn [n_blocks n_items n_changed n_table fst snd]. rewrite A9. change (l1 ++ [x'] ++ l2) with (l1 ++ x' :: l2). pose proof (Permutation_sym (owns_mid l1 x' l2)) as PM'.
  split; [apply Forall2_app; [apply (sits_frame_all b (n_blocks c)); [|exact A6]; intros a Ha; apply B2; apply in_or_app; left; exact Ha|constructor; [exact B1|apply (sits_frame_all b (n_blocks c)); [|exact A8]; intros a Ha; apply B2; apply in_or_app; right; exact Ha]]|].
  split; [exact (Permutation_NoDup PM' B3)|]. split; [exact (known_perm _ _ _ PM' B4)|]. split; [exact M4|].
  intros Eb. rewrite (M5 Eb), A1. unfold table_of. rewrite !map_app. cbn [map]. destruct (B5 Eb) as [-> ->]. reflexivity.
Qed.
Lemma change_id (l : list idl) i : change_at l i (fun e => e) = l.
Proof using. clear HA. revert i. induction l as [|x l IH]; intros [|i]; cbn [change_at]; [reflexivity|reflexivity|reflexivity|f_equal; apply IH]. Qed.
Lemma tstep_ok c s o : meets c s -> permitted s o -> meets (tstep alloc c o) (iop s o).
Proof using HA.
  intros M P. destruct s as [l b]. destruct o as [n|i|i d|i| |i]; cbn [tstep iop permitted] in *.
  - destruct M as (M1 & M2 & M3 & M4 & M5). unfold meets, create_item. cbn [n_blocks n_items n_changed n_table fst snd] in *.
    assert (OW : owns (n_items c ++ [IT 0 0 n None true true]) = owns (n_items c)) by (unfold owns; rewrite flat_map_app; cbn; apply app_nil_r). rewrite OW.
    split; [apply Forall2_app; [exact (sits_true_all _ _ _ _ M1)|constructor; [|constructor]]|]; [|split; [exact M2|split; [exact M3|split; [reflexivity|discriminate]]]].
    constructor; cbn [i_head i_data i_mem i_dch i_hch i_name d_name d_bytes d_new d_void]; [reflexivity|right; auto|reflexivity|discriminate|auto|reflexivity|reflexivity].
  - destruct P as (e0 & E0 & P). apply on_item_ok; [exact M|apply nth_error_Some; congruence|]. intros x e others Ee H N K. assert (e0 = e) as -> by congruence. eexists _, _. split; [reflexivity|].
    destruct H as [A1 A2 A3 A4 A5 A6 A7]. destruct x as [h a n [m|] dc hc]; unfold open_item; cbn [i_head i_data i_mem i_dch i_hch i_name own] in *.
    + split; [|split; [intros c0 _; reflexivity|auto]]. constructor; cbn [i_head i_data i_mem i_dch i_hch i_name d_name d_bytes d_new d_void]; auto.
      destruct A2 as [A2|(X & Y & W & _)]; [left; exact A2|right; split; [exact X|split; [exact Y|split; [exact W|left; discriminate]]]].
    + split; [|split; [intros c0 _; reflexivity|auto]]. constructor; cbn [i_head i_data i_mem i_dch i_hch i_name d_name d_bytes d_new d_void]; auto.
      * destruct A2 as [A2|(X & Y & W & _)]; [left; exact A2|right; split; [exact X|split; [exact Y|split; [exact W|left; discriminate]]]].
      * intros d0 [= <-]. split; [symmetry; apply A3; reflexivity|]. reflexivity.
      * intros X. left. destruct (A5 X) as [Y|[_ Y]]; [exact Y|elim Y; reflexivity].
      * intros X Y _. apply P. destruct (A5 X) as [W|[_ W]]; [exact W|elim W; reflexivity].
  - destruct P as (e0 & E0 & P). apply on_item_ok; [exact M|apply nth_error_Some; congruence|]. intros x e others Ee H N K. assert (e0 = e) as -> by congruence. eexists _, _. split; [reflexivity|].
    destruct H as [A1 A2 A3 A4 A5 A6 A7]. destruct x as [h a n m dc hc]; unfold write_item; cbn [i_head i_data i_mem i_dch i_hch i_name own] in *.
    split; [|split; [intros c0 _; reflexivity|auto]]. constructor; cbn [i_head i_data i_mem i_dch i_hch i_name d_name d_bytes d_new d_void]; auto.
    + destruct A2 as [A2|(X & Y & W & _)]; [left; exact A2|right; split; [exact X|split; [reflexivity|split; [exact W|left; discriminate]]]].
    + intros X. discriminate X.
    + intros d0 [= <-]. split; [reflexivity|discriminate].
    + intros _. right. split; [reflexivity|discriminate].
    + intros X _ _. destruct (d_void e) eqn:V; [apply P; reflexivity|]. apply A7; [reflexivity|exact X].
    + intros _ X. destruct (d_void e) eqn:V; [apply P; reflexivity|]. apply A7; [reflexivity|exact X].
  - rewrite <- (change_id l i). apply on_item_ok; [exact M|exact P|]. intros x e others Ee H N K. destruct (close_item_ok b (n_blocks c) x e others H N K) as (st' & x' & E & B1 & B2 & B3 & B4 & B5 & B6 & _).
    exists st', x'. auto 10.
  - destruct M as (M1 & M2 & M3 & M4 & M5). cbn [fst snd] in *. unfold flush. rewrite <- (app_nil_r (owns (n_items c))) in M2, M3.
    destruct (each_save b _ _ _ [] M1 M2 M3) as (st' & l' & E & B1 & B2 & B3 & B4 & B5 & B6 & B7). rewrite E. rewrite app_nil_r in B4, B5. unfold meets. cbn [n_blocks n_items n_changed n_table fst snd].
    split; [exact (after_flush b st' l' l B1 B2 P B7)|]. split; [exact B4|]. split; [exact B5|]. split; [reflexivity|]. intros _. rewrite M4. destruct b; [reflexivity|]. rewrite (B6 eq_refl). apply M5. reflexivity.
  - destruct M as (M1 & M2 & M3 & M4 & M5). cbn [fst snd] in *. assert (Ex : exists e, nth_error l i = Some e). { destruct (nth_error l i) eqn:Q; [eauto|]. apply nth_error_None in Q. lia. }
    destruct Ex as (e & Ee). destruct (nth_item _ _ _ _ _ M1 Ee) as (x & Ex). unfold delete_item. rewrite Ex.
    destruct (split_at _ _ _ _ _ M1 Ex) as (l1 & l2 & e' & e1 & e2 & A1 & A2 & A3 & A4 & A5 & A6 & A7 & A8 & _ & A10). rewrite A1 in M2, M3. rewrite A2, A3, A10.
    pose proof (owns_mid l1 x l2) as PM. pose proof (Permutation_NoDup PM M2) as N2. pose proof (known_perm _ _ _ PM M3) as K2.
    set (st' := free (free (n_blocks c) (i_data x)) (i_head x)).
    assert (SO : same_on (n_blocks c) st' (owns l1 ++ owns l2)).
    { intros a Ha. assert (NI : ~ In a (own x)) by (intros X; apply in_split in X; destruct X as (u & v & X); rewrite X in N2; rewrite <- app_assoc in N2; cbn [app] in N2; apply nodup_right in N2; inversion N2 as [|? ? Q]; apply Q; apply in_or_app; right; exact Ha).
      unfold st'. rewrite !get_free. destruct ((i_head x =? a) && negb (nowhere (i_head x))) eqn:E1.
      - elim NI. apply in_or_app. left. apply placed_in. apply andb_true_iff in E1. destruct E1 as [E1 E2]. apply Z.eqb_eq in E1. apply negb_true_iff, nowhere_false in E2. auto.
      - destruct ((i_data x =? a) && negb (nowhere (i_data x))) eqn:E2; [|reflexivity]. elim NI. apply in_or_app. right. apply placed_in. apply andb_true_iff in E2. destruct E2 as [E2 E3]. apply Z.eqb_eq in E2. apply negb_true_iff, nowhere_false in E3. auto. }
    unfold meets. cbn [n_blocks n_items n_changed n_table fst snd]. assert (OW : owns (l1 ++ l2) = owns l1 ++ owns l2) by (unfold owns; apply flat_map_app). rewrite OW.
    split; [apply Forall2_app; apply (sits_frame_all true (n_blocks c)); [intros a Ha; apply SO; apply in_or_app; left; exact Ha|exact (sits_true_all _ _ _ _ A6)|intros a Ha; apply SO; apply in_or_app; right; exact Ha|exact (sits_true_all _ _ _ _ A8)]|].
    split; [exact (nodup_right _ _ N2)|]. split; [|split; [reflexivity|discriminate]]. unfold known in *. apply Forall_app in K2. destruct K2 as [_ K2]. rewrite Forall_forall in *. intros a Ha. rewrite SO by exact Ha. apply K2. exact Ha.
Qed.
Lemma tsteps_ok os : forall c s, meets c s -> all_permitted s os -> meets (fold_left (tstep alloc) os c) (iops s os) /\ Forall (fun e => d_new e = false) (fst (iops s os)).
Proof using HA.
  induction os as [|o os IH]; intros c s M P; [split; [exact M|exact P]|]. destruct P as [P1 P2]. cbn [fold_left]. unfold iops. cbn [fold_left]. apply (IH _ _ (tstep_ok c s o M P1) P2).
Qed.
(** opening *)
Lemma load_ok st t l : in_order st t l -> exists c, open_cont st t = Some c /\ meets c (l, false).
Proof using.
  clear HA. intros [H N]. assert (L : exists its, load st t = Some its /\ Forall2 (sits false st) its l /\ table_of its = t).
  { clear N. induction H as [|[h d] e t l H1 H2 IH]; [exists []; split; [reflexivity|split; [constructor|reflexivity]]|]. destruct IH as (its & E & F & T). cbn [load].
    inversion H1 as [h0 d0 n b Ph Pd Gh Gd|h0 d0 n Ph Pd Gh]; subst; clear H1.
    - pose proof Ph as P. apply nowhere_false in P. rewrite P, Gh, E. eexists. split; [reflexivity|]. split; [|cbn [table_of map i_head i_data]; fold (table_of its); reflexivity]. constructor; [|exact F].
      constructor; cbn [i_head i_data i_mem i_dch i_hch i_name d_name d_bytes d_new d_void]; [reflexivity|left; auto| |discriminate|intros X; elim Pd; exact X|intros X; elim Pd; exact X|intros _ X; elim Pd; exact X].
      intros _. unfold bytes_at. pose proof Pd as Q. apply nowhere_false in Q. rewrite Q, Gd. reflexivity.
    - pose proof Ph as P. apply nowhere_false in P. rewrite P, Gh, E. eexists. split; [reflexivity|]. split; [|cbn [table_of map i_head i_data]; fold (table_of its); reflexivity]. constructor; [|exact F].
      constructor; cbn [i_head i_data i_mem i_dch i_hch i_name d_name d_bytes d_new d_void]; [reflexivity|left; auto| |discriminate|auto|intros _ _ X; elim X; reflexivity|discriminate].
      intros _. unfold bytes_at. pose proof Pd as Q. apply nowhere_spec in Q. rewrite Q. reflexivity. }
  destruct L as (its & E & F & T). unfold open_cont. rewrite E. eexists. split; [reflexivity|]. unfold meets. cbn [n_blocks n_items n_changed n_table fst snd]. split; [exact F|].
  assert (OW : owns its = flat_map (fun e => placed (fst e) ++ placed (snd e)) t). { rewrite <- T. unfold owns, table_of. clear. induction its as [|x r IH]; [reflexivity|]. cbn [flat_map map fst snd]. rewrite IH. reflexivity. }
  rewrite OW. split; [exact N|]. split; [|split; [reflexivity|intros _; symmetry; exact T]].
  unfold known. apply Forall_forall. intros a Ha. apply in_flat_map in Ha. destruct Ha as ([h d] & Hi & Ha). clear - H Hi Ha. induction H as [|q e t l H1 H2 IH]; [destruct Hi|]. destruct Hi as [-> |Hi]; [|exact (IH Hi)].
  cbn [fst snd] in Ha. apply in_app_or in Ha. rewrite !placed_in in Ha. inversion H1; subst; destruct Ha as [[-> X]|[-> X]]; congruence.
Qed.
(** what a container shows whose elements are all stored *)
Lemma shows_ok st its l : Forall2 (sits false st) its l -> Forall (fun x => i_mem x = None) its -> shows st (table_of its) = Some (map (fun e => (d_name e, d_bytes e)) l).
Proof using.
  clear HA. intros H M. assert (L : exists ks, load st (table_of its) = Some ks /\ map (fun x => (i_name x, bytes_at st (i_data x))) ks = map (fun e => (d_name e, d_bytes e)) l).
  { induction H as [|x e its l H1 H2 IH]; [exists []; split; reflexivity|]. inversion M; subst. destruct (IH ltac:(assumption)) as (ks & E & Q). destruct H1 as [A1 A2 A3 A4 A5 A6 A7].
    destruct A2 as [[G P]|(_ & _ & X & _)]; [|discriminate]. cbn [table_of map load]. fold (table_of its). pose proof P as P'. apply nowhere_false in P'. rewrite P', G, E. eexists. split; [reflexivity|]. cbn [map i_name i_data]. rewrite Q, A1, A3 by assumption. reflexivity. }
  destruct L as (ks & E & Q). unfold shows, open_cont. rewrite E. cbn [n_items]. rewrite Q. reflexivity.
Qed.
Lemma each_closes st l : Forall (fun x => i_mem x = None) (snd (each (close_item alloc) st l)).
Proof using.
  clear HA. revert st. induction l as [|x l IH]; intros st; [constructor|]. cbn [each]. destruct (close_item alloc st x) as [st1 x1] eqn:E. specialize (IH st1). destruct (each (close_item alloc) st1 l) as [st2 l2]. constructor; [|exact IH].
  unfold close_item in E. destruct (save_item alloc st x) as [s0 x0]. assert (x1 = IT (i_head x0) (i_data x0) (i_name x0) None (i_dch x0) (i_hch x0)) as -> by congruence. reflexivity.
Qed.
Lemma saved_ok st t l os : in_order st t l -> all_permitted (l, false) os -> saved_after alloc st t os = Some (map (fun e => (d_name e, d_bytes e)) (fst (iops (l, false) os))).
Proof using HA.
  intros H P. destruct (load_ok st t l H) as (c & E & M). unfold saved_after. rewrite E. destruct (tsteps_ok os c (l, false) M P) as [(M1 & M2 & M3 & M4 & M5) NW]. set (c' := fold_left (tstep alloc) os c) in *. destruct (iops (l, false) os) as [l' b]. cbn [fst snd] in *.
  unfold destroy. rewrite <- (app_nil_r (owns (n_items c'))) in M2, M3. destruct (each_close b _ _ _ [] M1 M2 M3) as (st' & its & E' & B1 & B2 & B3 & B4 & B5 & B6 & B7). pose proof (each_closes (n_blocks c') (n_items c')) as CL. rewrite E' in *. cbn [snd] in CL.
  assert (T : (if n_changed c' then table_of its else n_table c') = table_of its). { rewrite M4. destruct b; [reflexivity|]. rewrite (B6 eq_refl). apply M5. reflexivity. }
  rewrite T. apply shows_ok; [exact (after_flush b st' its l' B1 B2 NW B7)|exact CL].
Qed.
End Alloc.

(** ** Elements without a place *)
Section Lost.
Variable alloc : blocks -> Z.
Definition keeps (f : blocks -> item -> blocks * item) : Prop := forall st x a, get_block st a <> None -> get_block (fst (f st x)) a <> None.
Lemma save_block_keeps st b d a : get_block st a <> None -> get_block (fst (save_block alloc st b d)) a <> None.
Proof. intros H. unfold save_block. cbn [fst]. rewrite get_put. destruct (_ =? a); [discriminate|exact H]. Qed.
Lemma save_item_keeps : keeps (save_item alloc).
Proof.
  intros st x a H. unfold save_item. destruct (i_mem x) as [d|]; [|exact H]. set (p := if i_dch x then save_block alloc st (i_data x) d else (st, i_data x)).
  assert (P : get_block (fst p) a <> None) by (unfold p; destruct (i_dch x); [apply save_block_keeps; exact H|exact H]). destruct p as [st1 a1]. cbn [fst] in P.
  set (q := if i_hch x then save_block alloc st1 (i_head x) (i_name x) else (st1, i_head x)). assert (Q : get_block (fst q) a <> None) by (unfold q; destruct (i_hch x); [apply save_block_keeps; exact P|exact P]). destruct q as [st2 h2]. exact Q.
Qed.
Lemma close_item_keeps : keeps (close_item alloc).
Proof. intros st x a H. pose proof (save_item_keeps st x a H) as P. unfold close_item. destruct (save_item alloc st x) as [st1 x1]. exact P. Qed.
Lemma each_keeps f : keeps f -> forall l st a, get_block st a <> None -> get_block (fst (each f st l)) a <> None.
Proof. intros K. induction l as [|x l IH]; intros st a H; [exact H|]. cbn [each]. pose proof (K st x a H) as P. destruct (f st x) as [st1 x1]. specialize (IH st1 a P). destruct (each f st1 l) as [st2 l2]. exact IH. Qed.
Definition plain (o : top) : Prop := match o with TCreate _ | TDelete _ => False | _ => True end.
Lemma on_item_plain c i f : keeps f -> n_table (on_item c i f) = n_table c /\ n_changed (on_item c i f) = n_changed c /\ forall a, get_block (n_blocks c) a <> None -> get_block (n_blocks (on_item c i f)) a <> None.
Proof. intros K. unfold on_item. destruct (nth_error (n_items c) i) as [x|]; [|auto]. pose proof (K (n_blocks c) x) as P. destruct (f (n_blocks c) x) as [st x1]. cbn [n_table n_changed n_blocks fst] in *. auto. Qed.
Lemma plain_step c o : plain o -> n_changed c = false -> n_table (tstep alloc c o) = n_table c /\ n_changed (tstep alloc c o) = false /\ forall a, get_block (n_blocks c) a <> None -> get_block (n_blocks (tstep alloc c o)) a <> None.
Proof.
  intros P E. assert (K1 : forall g : blocks -> item -> item, keeps (fun st x => (st, g st x))) by (intros g st x a H; exact H).
  destruct o as [n|i|i d|i| |i]; cbn [tstep plain] in *; try contradiction.
  - destruct (on_item_plain c i _ (K1 open_item)) as (A & B & C). rewrite B. auto.
  - destruct (on_item_plain c i _ (K1 (fun st x => write_item st d x))) as (A & B & C). rewrite B. auto.
  - destruct (on_item_plain c i _ close_item_keeps) as (A & B & C). rewrite B. auto.
  - unfold flush. pose proof (each_keeps _ save_item_keeps (n_items c) (n_blocks c)) as K. destruct (each (save_item alloc) (n_blocks c) (n_items c)) as [st l]. cbn [n_table n_changed n_blocks fst] in *. rewrite E. auto.
Qed.
Lemma plain_steps os : forall c, Forall plain os -> n_changed c = false -> let c' := fold_left (tstep alloc) os c in n_table c' = n_table c /\ n_changed c' = false /\ forall a, get_block (n_blocks c) a <> None -> get_block (n_blocks c') a <> None.
Proof.
  induction os as [|o os IH]; intros c P E; cbn [fold_left]; [auto|]. inversion P; subst. destruct (plain_step c o ltac:(assumption) E) as (A & B & C). destruct (IH (tstep alloc c o) ltac:(assumption) B) as (A' & B' & C').
  cbv zeta in *. split; [congruence|]. split; [exact B'|]. auto.
Qed.
Lemma load_some st t : Forall (fun e => ~ no_place (fst e) /\ get_block st (fst e) <> None) t -> exists its, load st t = Some its /\ map (fun x => i_data x) its = map snd t.
Proof.
  induction t as [|[h d] t IH]; intros H; [exists []; split; reflexivity|]. inversion H as [|? ? [P G] R]; subst. destruct (IH R) as (its & E & M). cbn [fst] in *. cbn [load]. apply nowhere_false in P. rewrite P, E.
  destruct (get_block st h) as [n|]; [|elim G; reflexivity]. eexists. split; [reflexivity|]. cbn [map i_data snd]. rewrite M. reflexivity.
Qed.
Lemma load_none st t : Exists (fun e => no_place (fst e)) t -> load st t = None.
Proof.
  intros H. induction H as [[h d] t H|[h d] t H IH]; cbn [load fst] in *; [apply nowhere_spec in H; rewrite H; reflexivity|]. rewrite IH. destruct (if nowhere h then None else get_block st h); reflexivity.
Qed.
Lemma void_lost st t l os i h d : in_order st t l -> Forall plain os -> nth_error t i = Some (h, d) -> no_place d -> exists r n, saved_after alloc st t os = Some r /\ length r = length t /\ nth_error r i = Some (n, []).
Proof.
  intros H P E D. destruct (load_ok st t l H) as (c & EO & M). unfold saved_after. rewrite EO. destruct M as (_ & _ & _ & NC & NT). cbn [snd] in NC, NT.
  assert (T0 : n_table c = t /\ n_blocks c = st). { unfold open_cont in EO. destruct (load st t); [|discriminate]. assert (c = CN st l0 t false) as -> by congruence. split; reflexivity. } destruct T0 as [T0 B0].
  destruct (plain_steps os c P NC) as (A1 & A2 & A3). set (c' := fold_left (tstep alloc) os c) in *. unfold destroy. pose proof (each_keeps _ close_item_keeps (n_items c') (n_blocks c')) as K. destruct (each (close_item alloc) (n_blocks c') (n_items c')) as [st' its']. cbn [fst] in K.
  rewrite A2, A1, T0. assert (F : Forall (fun e => ~ no_place (fst e) /\ get_block st' (fst e) <> None) t).
  { destruct H as [H _]. rewrite B0 in A3. assert (KK : forall a, get_block st a <> None -> get_block st' a <> None) by auto. clear - H KK. induction H as [|q e t l H1 H2 IH]; constructor; [|exact IH]. inversion H1; subst; cbn [fst]; (split; [assumption|]); apply KK; congruence. }
  destruct (load_some st' t F) as (its & EL & ML). unfold shows, open_cont. rewrite EL. cbn [n_items]. eexists. assert (LN : nth_error (map (fun x => i_data x) its) i = Some d) by (rewrite ML, nth_error_map, E; reflexivity).
  rewrite nth_error_map in LN. destruct (nth_error its i) as [x|] eqn:EX; [|discriminate]. cbn [option_map] in LN. exists (i_name x). split; [reflexivity|]. split; [rewrite map_length, <- (map_length (fun x => i_data x) its), ML, map_length; reflexivity|].
  rewrite nth_error_map, EX. cbn [option_map]. assert (i_data x = d) as -> by congruence. unfold bytes_at. apply nowhere_spec in D. rewrite D. reflexivity.
Qed.
(** created, flushed, written *)
Lemma each_last f l : forall st x, i_mem x = None -> (forall st x, i_mem x = None -> f st x = (st, x)) -> exists st' l', each f st (l ++ [x]) = (st', l' ++ [x]) /\ length l' = length l.
Proof.
  induction l as [|y l IH]; intros st x M F; cbn [app each].
  - rewrite F by exact M. exists st, []. split; reflexivity.
  - destruct (f st y) as [st1 y1]. destruct (IH st1 x M F) as (st' & l' & E & L). rewrite E. exists st', (y1 :: l'). cbn [app length]. split; [reflexivity|congruence].
Qed.
Lemma spoiled st t l n os : in_order st t l -> Forall plain os -> saved_after alloc st t (TCreate n :: TFlush :: os) = None.
Proof.
  intros H P. destruct (load_ok st t l H) as (c & EO & _). unfold saved_after. rewrite EO. cbn [fold_left tstep]. set (c1 := flush alloc (create_item c n)).
  assert (Q : n_changed c1 = false /\ Exists (fun e => no_place (fst e)) (n_table c1)).
  { unfold c1, flush, create_item. cbn [n_items n_blocks n_changed]. destruct (each_last (save_item alloc) (n_items c) (n_blocks c) (IT 0 0 n None true true) eq_refl) as (st' & l' & E & _).
    - intros st0 x M. unfold save_item. rewrite M. reflexivity.
    - rewrite E. cbn [n_changed n_table]. split; [reflexivity|]. unfold table_of. rewrite map_app. apply Exists_exists. exists (0, 0). split; [apply in_or_app; right; left; reflexivity|left; reflexivity]. }
  destruct Q as [Q1 Q2]. destruct (plain_steps os c1 P Q1) as (A1 & A2 & _). set (c' := fold_left (tstep alloc) os c1) in *. unfold destroy. destruct (each (close_item alloc) (n_blocks c') (n_items c')) as [st' its']. rewrite A2, A1. unfold shows, open_cont. rewrite (load_none st' _ Q2). reflexivity.
Qed.
End Lost.

(** ** only looking *)
Section Look.
Variable alloc : blocks -> Z.
Definition clean (x : item) : Prop := i_dch x = false /\ i_hch x = false.
Lemma save_clean st x : clean x -> exists y, save_item alloc st x = (st, y) /\ clean y.
Proof. intros (A & B). unfold save_item. destruct (i_mem x); [|exists x; split; [reflexivity|split; assumption]]. rewrite A, B. eexists. split; [reflexivity|]. split; reflexivity. Qed.
Lemma close_clean st x : clean x -> exists y, close_item alloc st x = (st, y) /\ clean y.
Proof. intros C. unfold close_item. destruct (save_clean st x C) as (y & -> & C1 & C2). eexists. split; [reflexivity|]. split; [exact C1|exact C2]. Qed.
Lemma each_clean f : (forall st x, clean x -> exists y, f st x = (st, y) /\ clean y) -> forall l st, Forall clean l -> exists l', each f st l = (st, l') /\ Forall clean l'.
Proof.
  intros F l st. induction 1 as [|x r C _ IH]; cbn [each]; [exists []; auto|]. destruct (F st x C) as (y & -> & Cy). destruct IH as (l' & -> & Cl). eexists. split; [reflexivity|]. constructor; assumption.
Qed.
Definition calm (st : blocks) (t : list (Z * Z)) (c : cont) : Prop := n_blocks c = st /\ n_table c = t /\ n_changed c = false /\ Forall clean (n_items c).
Lemma on_clean st t c i f : calm st t c -> (forall x, clean x -> exists y, f st x = (st, y) /\ clean y) -> calm st t (on_item c i f).
Proof.
  intros (A & B & C & D) F. unfold on_item. destruct (nth_error (n_items c) i) as [x|] eqn:E; [|repeat split; assumption].
  pose proof D as D'. rewrite Forall_forall in D'. destruct (F x (D' x (nth_error_In _ _ E))) as (y & Ey & Cy). rewrite A, Ey. unfold calm. cbn [n_blocks n_table n_changed n_items].
  split; [reflexivity|]. split; [exact B|]. split; [exact C|]. apply Forall_app. split; [apply Forall_firstn', D|]. constructor; [exact Cy|apply Forall_skipn', D].
Qed.
Lemma look_step st t c o : looking o -> calm st t c -> calm st t (tstep alloc c o).
Proof.
  destruct o as [n|i|i d|i| |i]; intros L H; try (elim L); cbn [tstep].
  - apply on_clean; [exact H|]. intros x (C1 & C2). eexists. split; [reflexivity|]. unfold open_item. destruct (i_mem x); split; assumption.
  - apply on_clean; [exact H|]. intros x C. apply close_clean, C.
  - destruct H as (A & B & C & D). unfold flush. rewrite A. destruct (each_clean (save_item alloc) save_clean (n_items c) st D) as (l' & -> & D'). rewrite C.
    split; [reflexivity|]. split; [exact B|]. split; [reflexivity|exact D'].
Qed.
Lemma load_clean st : forall t l, load st t = Some l -> Forall (fun e => snd e <> 0) t -> Forall clean l.
Proof.
  induction t as [|[h d] r IH]; intros l E F; cbn [load] in E; [injection E as <-; constructor|]. inversion F as [|? ? F1 F2]; subst. cbn [snd] in F1.
  destruct (nowhere h) eqn:N; [discriminate|]. destruct (get_block st h); [|discriminate]. destruct (load st r) as [l'|]; [|discriminate]. injection E as <-.
  constructor; [|now apply IH]. apply nowhere_false in N. unfold no_place in N. split; cbn [i_dch i_hch]; apply Z.eqb_neq; lia.
Qed.
Theorem looked st t c os : open_cont st t = Some c -> Forall (fun e => snd e <> 0) t -> Forall looking os -> destroy alloc (fold_left (tstep alloc) os c) = (st, t).
Proof.
  unfold open_cont. destruct (load st t) as [l|] eqn:E; [|discriminate]. intros Q F. injection Q as <-. pose proof (load_clean st t l E F) as C.
  assert (H : calm st t (CN st l t false)) by (repeat split; assumption). revert H. generalize (CN st l t false). intros c H L. revert c H.
  induction L as [|o r Lo _ IH]; intros c H; cbn [fold_left]; [|apply IH, look_step; assumption].
  destruct H as (A & B & C' & D). unfold destroy. rewrite A. destruct (each_clean (close_item alloc) close_clean (n_items c) st D) as (l' & -> & _). now rewrite C', B.
Qed.
(** an element whose place for data is 0 *)
Lemma load_nth st : forall t l i h, load st t = Some l -> nth_error t i = Some (h, 0) -> nowhere h = false /\ exists n, nth_error l i = Some (IT h 0 n None true false).
Proof.
  induction t as [|[h' d] r IH]; intros l i h E N; [destruct i; discriminate|]. cbn [load] in E. destruct (nowhere h') eqn:W; [discriminate|]. destruct (get_block st h') as [n|]; [|discriminate].
  destruct (load st r) as [l'|] eqn:E'; [|discriminate]. injection E as <-. destruct i as [|i]; cbn [nth_error] in *.
  - injection N as -> ->. split; [exact W|]. exists n. rewrite (proj2 (Z.eqb_neq h 0)); [reflexivity|]. apply nowhere_false in W. unfold no_place in W. lia.
  - apply (IH l' i h eq_refl N).
Qed.
Lemma load_closed st : forall t l, load st t = Some l -> Forall (fun x => i_mem x = None) l.
Proof.
  induction t as [|[h d] r IH]; intros l E; cbn [load] in E; [injection E as <-; constructor|]. destruct (if nowhere h then _ else _); [|discriminate].
  destruct (load st r) as [l'|]; [|discriminate]. injection E as <-. constructor; [reflexivity|now apply IH].
Qed.
Lemma each_closed st l : Forall (fun x => i_mem x = None) l -> fst (each (close_item alloc) st l) = st.
Proof.
  induction 1 as [|x r C _ IH]; cbn [each]; [reflexivity|]. unfold close_item at 1, save_item. rewrite C. destruct (each (close_item alloc) st r) as [st' l']. exact IH.
Qed.
Lemma each_app f : forall l1 st l2, fst (each f st (l1 ++ l2)) = fst (each f (fst (each f st l1)) l2).
Proof.
  induction l1 as [|x r IH]; intros st l2; cbn [app each]; [reflexivity|]. destruct (f st x) as [st1 y]. specialize (IH st1 l2). destruct (each f st1 (r ++ l2)), (each f st1 r). exact IH.
Qed.
Theorem looked_void st t c i h : open_cont st t = Some c -> nth_error t i = Some (h, 0) -> destroy alloc (fold_left (tstep alloc) [TOpen i] c) = (put_block st (alloc st) [], t).
Proof.
  unfold open_cont. destruct (load st t) as [l|] eqn:E; [|discriminate]. intros Q N. injection Q as <-. destruct (load_nth st t l i h E N) as (W & n & Ni).
  pose proof (load_closed st t l E) as Cl. cbn [fold_left tstep]. unfold on_item. cbn [n_items n_blocks n_table n_changed]. rewrite Ni. unfold destroy. cbn [n_blocks n_items n_changed n_table].
  set (L := firstn i l ++ [open_item st (IT h 0 n None true false)] ++ skipn (S i) l). destruct (each (close_item alloc) st L) as [st' l'] eqn:Ee. f_equal.
  assert (Q : fst (each (close_item alloc) st L) = st') by now rewrite Ee. rewrite <- Q. unfold L. rewrite each_app, (each_closed st (firstn i l)) by (apply Forall_firstn', Cl). rewrite each_app, (each_closed _ (skipn (S i) l)) by (apply Forall_skipn', Cl).
  reflexivity.
Qed.
End Look.
