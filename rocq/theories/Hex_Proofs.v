(** Proofs about the viewer: undo and redo, replacing a selection. *)
From Verif Require Import Prelude Lists Hex_Model Hex_Spec.
Ltac Zify.zify_post_hook ::= idtac.

Lemma insert_in b o d : (o <= length b)%nat -> q_insert b (Z.of_nat o) d = firstn o b ++ d ++ skipn o b.
Proof.
  intros H. unfold q_insert. destruct (Z.of_nat o <? 0) eqn:?; [lia|]. destruct d as [|x d]; [cbn [app]; now rewrite firstn_skipn|]. unfold zlen. destruct (Z.of_nat o <=? Z.of_nat (length b)) eqn:?; [|lia]. now rewrite Nat2Z.id.
Qed.
Lemma insert_out b o x d : (length b < o)%nat -> q_insert b (Z.of_nat o) (x :: d) = b ++ repeat 32 (o - length b) ++ x :: d.
Proof.
  intros H. unfold q_insert. destruct (Z.of_nat o <? 0) eqn:?; [lia|]. unfold zlen. destruct (Z.of_nat o <=? Z.of_nat (length b)) eqn:?; [lia|]. do 2 f_equal. f_equal. lia.
Qed.
Lemma remove_in b o n : q_remove b (Z.of_nat o) (Z.of_nat n) = firstn o b ++ skipn (o + n) b.
Proof.
  unfold q_remove. destruct (Z.of_nat n <=? 0) eqn:E; cbn [orb]; [replace (o + n)%nat with o by lia; now rewrite firstn_skipn|]. destruct (Z.of_nat o <? 0) eqn:?; [lia|]. cbn [orb]. unfold zlen.
  destruct (Z.of_nat (length b) <=? Z.of_nat o) eqn:?; [rewrite firstn_all2, skipn_all2 by lia; now rewrite app_nil_r|]. rewrite Nat2Z.id. do 2 f_equal. lia.
Qed.
Lemma mid_in b o n : q_mid b (Z.of_nat o) (Z.of_nat n) = firstn n (skipn o b).
Proof. unfold q_mid. now rewrite !Nat2Z.id. Qed.
Lemma first_at {A} (a r : list A) o : length a = o -> firstn o (a ++ r) = a.
Proof. intros <-. rewrite firstn_app, firstn_all, Nat.sub_diag. cbn [firstn]. apply app_nil_r. Qed.
Lemma skip_at {A} (a r : list A) o : length a = o -> skipn o (a ++ r) = r.
Proof. intros <-. rewrite skipn_app, skipn_all, Nat.sub_diag. reflexivity. Qed.
Lemma skip_at2 {A} (a b c : list A) o n : length a = o -> n = length b -> skipn (o + n) (a ++ b ++ c) = c.
Proof. intros <- ->. rewrite app_assoc, <- app_length. now apply skip_at. Qed.
Lemma remove_back b o d : (o <= length b)%nat -> q_remove (firstn o b ++ d ++ skipn o b) (Z.of_nat o) (zlen d) = b.
Proof.
  intros H. unfold zlen. rewrite remove_in. assert (L : length (firstn o b) = o) by (rewrite firstn_length; lia). rewrite (first_at _ _ o L), (skip_at2 _ _ _ o _ L eq_refl). apply firstn_skipn.
Qed.
Lemma skip_skip {A} (b : list A) o n : skipn (o + n) b = skipn n (skipn o b).
Proof. revert b. induction o as [|o IH]; intros b; [reflexivity|]. destruct b as [|x b]; [now rewrite !skipn_nil|]. cbn [Nat.add skipn]. apply IH. Qed.
Lemma three {A} (b : list A) o n : firstn o b ++ firstn n (skipn o b) ++ skipn (o + n) b = b.
Proof. rewrite skip_skip, firstn_skipn. apply firstn_skipn. Qed.

(** ** Undo and redo *)
Definition link (b : list Z) (c : cmd) (p : list Z) : Prop := c_redo b c = (p, c) /\ c_undo p c = b.
Fixpoint before (b : list Z) (cs : list cmd) (ps : list (list Z)) : Prop :=
  match cs, ps with [], [] => True | c :: t, p :: u => link p c b /\ before p t u | _, _ => False end.
Fixpoint behind (b : list Z) (cs : list cmd) (ps : list (list Z)) : Prop :=
  match cs, ps with [], [] => True | c :: t, p :: u => link b c p /\ behind p t u | _, _ => False end.
Definition shows (d : doc) (s : versions) : Prop := let '(past, now, later) := s in d_bytes d = now /\ before now (d_done d) past /\ behind now (d_undone d) later.
Definition cmd_of (a : act) : option cmd :=
  match a with AIns o x => Some (CIns (Z.of_nat o) x) | ADel o n => Some (CDel (Z.of_nat o) (Z.of_nat n) []) | ARep o x => Some (CRep (Z.of_nat o) x []) | _ => None end.
Lemma replaced b o d : (o + length d <= length b)%nat -> b_replace b (Z.of_nat o) d = firstn o b ++ d ++ skipn (o + length d) b.
Proof.
  intros H. unfold b_replace, zlen. rewrite remove_in. assert (L : length (firstn o b) = o) by (rewrite firstn_length; lia). rewrite insert_in by (rewrite app_length, L; lia).
  rewrite firstn_app, L, Nat.sub_diag. cbn [firstn]. rewrite app_nil_r. rewrite firstn_all2 by lia. f_equal. f_equal. rewrite skipn_app, L, Nat.sub_diag. rewrite skipn_all2 by lia. reflexivity.
Qed.
Lemma link_push b a c : inside b a -> cmd_of a = Some c -> exists c', c_redo b c = (edited b a, c') /\ link b c' (edited b a).
Proof.
  intros HI HC. destruct a as [o x|o n|o x| |]; cbn [cmd_of] in HC; try discriminate; assert (E : Some c = Some c) by reflexivity; rewrite <- HC in E at 1; clear HC; cbn [inside edited] in *.
  - assert (c = CIns (Z.of_nat o) x) by congruence. subst c. exists (CIns (Z.of_nat o) x). unfold link. cbn [c_redo c_undo]. rewrite insert_in by exact HI. split; [reflexivity|]. split; [reflexivity|]. now apply remove_back.
  - assert (c = CDel (Z.of_nat o) (Z.of_nat n) []) by congruence. subst c. eexists. unfold link. cbn [c_redo]. rewrite remove_in, mid_in. split; [reflexivity|]. cbn [c_redo c_undo]. rewrite remove_in, mid_in. split; [reflexivity|].
    assert (L : length (firstn o b) = o) by (rewrite firstn_length; lia). rewrite insert_in by (rewrite app_length; lia). rewrite (first_at _ _ o L), (skip_at _ _ o L). apply three.
  - assert (c = CRep (Z.of_nat o) x []) by congruence. subst c. eexists. unfold link. cbn [c_redo]. rewrite replaced by exact HI. split; [reflexivity|]. cbn [c_redo c_undo]. rewrite replaced by exact HI. split; [reflexivity|].
    unfold zlen. rewrite mid_in. assert (L : length (firstn o b) = o) by (rewrite firstn_length; lia). assert (L2 : length (firstn (length x) (skipn o b)) = length x) by (rewrite firstn_length, skipn_length; lia).
    rewrite replaced by (rewrite !app_length, L, L2; lia). rewrite L2. rewrite (first_at _ _ o L), (skip_at2 _ _ _ o _ L eq_refl). apply three.
Qed.
Lemma call_shows d s a : shows d s -> inside (snd (fst s)) a -> shows (call d a) (next s a).
Proof.
  destruct s as [[past now] later]. cbn [fst snd]. intros (H1 & H2 & H3) HI. assert (P : forall c, cmd_of a = Some c -> shows (push d c) (now :: past, edited now a, [])).
  { intros c HC. destruct (link_push now a c HI HC) as (c' & E & L). unfold push. rewrite H1, E. split; [reflexivity|]. split; [|exact Logic.I]. cbn [d_done before]. split; [exact L|exact H2]. }
  destruct a as [o x|o n|o x| |]; cbn [call next]; try (apply P; reflexivity).
  - unfold undo. destruct (d_done d) as [|c t] eqn:E; destruct past as [|p u]; cbn [before] in H2; try contradiction; [split; [exact H1|rewrite E; split; [exact Logic.I|exact H3]]|].
    destruct H2 as [[L1 L2] H2]. split; cbn [d_bytes d_done d_undone]; [now rewrite H1|]. split; [exact H2|]. cbn [behind]. split; [split; assumption|exact H3].
  - unfold redo. destruct (d_undone d) as [|c t] eqn:E; destruct later as [|p u]; cbn [behind] in H3; try contradiction; [split; [exact H1|rewrite E; split; [exact H2|exact Logic.I]]|].
    destruct H3 as [[L1 L2] H3]. rewrite H1, L1. split; cbn [d_bytes d_done d_undone]; [reflexivity|]. cbn [before]. split; [split; [split; assumption|exact H2]|exact H3].
Qed.
Theorem history_ok l : forall d s, shows d s -> all_inside s l -> shows (fold_left call l d) (fold_left next l s).
Proof. induction l as [|a l IH]; intros d s H HI; [exact H|]. destruct HI as [H1 H2]. exact (IH _ _ (call_shows _ _ _ H H1) H2). Qed.
Lemma shows_stacks d past now later : shows d (past, now, later) -> d_bytes d = now /\ length (d_done d) = length past /\ length (d_undone d) = length later.
Proof.
  intros (H1 & H2 & H3). split; [exact H1|]. clear H1. split.
  - clear H3. revert H2. generalize (d_done d). revert now. induction past as [|p u IH]; intros now [|c t] H; cbn [before] in H; try contradiction; [reflexivity|]. cbn [length]. f_equal. exact (IH p t (proj2 H)).
  - clear H2. revert H3. generalize (d_undone d). revert now. induction later as [|p u IH]; intros now [|c t] H; cbn [behind] in H; try contradiction; [reflexivity|]. cbn [length]. f_equal. exact (IH p t (proj2 H)).
Qed.
Theorem replace_past b o x : (o <= length b)%nat -> d_bytes (undo (d_replace (DC b [] []) (Z.of_nat o) x)) = b ++ skipn (length b - o) x.
Proof.
  intros H. destruct (Nat.le_gt_cases (o + length x) (length b)) as [HI|HO].
  - destruct (link_push b (ARep o x) _ HI eq_refl) as (c' & E & L1 & L2). unfold d_replace, push. cbn [d_bytes]. rewrite E. unfold undo. cbn [d_done d_bytes]. rewrite L2. rewrite skipn_all2 by lia. now rewrite app_nil_r.
  - assert (R : b_replace b (Z.of_nat o) x = firstn o b ++ x). { unfold b_replace, zlen. rewrite remove_in. rewrite skipn_all2 by lia. rewrite app_nil_r. rewrite insert_in by (rewrite firstn_length; lia). rewrite firstn_firstn, Nat.min_id. rewrite skipn_all2 by (rewrite firstn_length; lia). now rewrite app_nil_r. }
    unfold d_replace, push. cbn [c_redo d_bytes]. rewrite R. unfold undo. cbn [d_done d_bytes c_undo]. unfold zlen. rewrite mid_in. assert (M : firstn (length x) (skipn o b) = skipn o b) by (apply firstn_all2; rewrite skipn_length; lia). rewrite M.
    assert (L : length (firstn o b) = o) by (rewrite firstn_length; lia). assert (LS : length (skipn o b) = (length b - o)%nat) by apply skipn_length.
    rewrite replaced by (rewrite app_length, L, LS; lia). rewrite LS. rewrite firstn_app, L, Nat.sub_diag. cbn [firstn]. rewrite app_nil_r, firstn_firstn, Nat.min_id. rewrite skipn_app, L. rewrite (skipn_all2 (firstn o b)) by lia. cbn [app].
    replace (o + (length b - o) - o)%nat with (length b - o)%nat by lia. now rewrite app_assoc, firstn_skipn.
Qed.
Theorem insert_past b o x d : (length b < o)%nat -> d_bytes (undo (d_insert (DC b [] []) (Z.of_nat o) (x :: d))) = b ++ repeat 32 (o - length b).
Proof.
  intros H. unfold d_insert, push. cbn [c_redo d_bytes]. rewrite insert_out by exact H. unfold undo. cbn [d_done d_bytes c_undo]. unfold zlen. rewrite remove_in. rewrite skipn_all2 by (rewrite !app_length, repeat_length; cbn [length]; lia). rewrite app_nil_r, app_assoc. rewrite firstn_app. rewrite app_length, repeat_length.
  replace (o - (length b + (o - length b)))%nat with 0%nat by lia. cbn [firstn]. rewrite app_nil_r. apply firstn_all2. rewrite app_length, repeat_length. lia.
Qed.
