From Verif Require Import Prelude Stream_Model Life_Model Life_Spec.
Ltac Zify.zify_post_hook ::= idtac.

Definition rep (l : life) (c : bool) (f : file) : Prop :=
  l_open l = negb c /\ fs_data (l_s l) = fst f /\ fs_pos (l_s l) = Z.of_nat (snd f) /\ fs_size (l_s l) = zlen (fst f) /\ fs_fail (l_s l) = false /\ (snd f <= length (fst f))%nat.
Lemma reopen_rep l c f : rep l c f -> rep (life_reopen l) false f.
Proof.
  intros (R1 & R2 & R3 & R4 & R5 & R6). unfold life_reopen. rewrite R1. destruct c; cbn [negb].
  - unfold rep. cbn [l_open l_s fs_data fs_pos fs_size fs_fail negb]. rewrite R2. repeat (split; [assumption || reflexivity|]). exact R6.
  - repeat (split; [assumption|]). exact R6.
Qed.
Lemma splice_write (d b : list Z) p : (p <= length d)%nat -> splice (d ++ repeat 0 (p + length b - length d)) p b = firstn p d ++ b ++ skipn (p + length b) d.
Proof.
  intros H. unfold splice. rewrite firstn_app. assert (E : (p - length d = 0)%nat) by lia. rewrite E, firstn_O, app_nil_r. f_equal. f_equal.
  destruct (Nat.le_gt_cases (p + length b) (length d)) as [L|L].
  - assert (E2 : (p + length b - length d = 0)%nat) by lia. rewrite E2. cbn [repeat]. rewrite !app_nil_r. reflexivity.
  - rewrite !skipn_all2; [reflexivity|lia|rewrite app_length, repeat_length; lia].
Qed.
Lemma step_rep l c f o : rep l c f -> (o = OClose -> c = false) ->
  match o with ORead n => 0 <= n /\ Z.of_nat (snd f) + n <= zlen (fst f) | OSeek q => 0 <= q <= zlen (fst f) | _ => True end ->
  exists l', life_step l o = Ok (l', answer f o) /\ rep l' (closed_after c o) (after f o).
Proof.
  intros R HC HW. destruct o as [n|b|q|]; cbn [life_step answer closed_after].
  - apply reopen_rep in R. destruct R as (R1 & R2 & R3 & R4 & R5 & R6). destruct f as [d p]. cbn [fst snd] in *. unfold fs_read. rewrite R2, R3, R4. destruct (Z.ltb_spec (Z.of_nat p) 0); [lia|]. rewrite Nat2Z.id.
    set (r := firstn (Z.to_nat n) (skipn p d)). assert (EL : zlen r = n) by (unfold r, zlen in *; rewrite firstn_length, skipn_length; lia).
    eexists. split; [reflexivity|]. unfold rep. cbn [l_open l_s fs_data fs_pos fs_size fs_fail after fst snd]. rewrite EL. split; [exact R1|]. split; [reflexivity|]. split; [lia|]. split; [reflexivity|]. split; [apply Z.ltb_irrefl|]. unfold zlen in *. lia.
  - apply reopen_rep in R. destruct R as (R1 & R2 & R3 & R4 & R5 & R6). destruct f as [d p]. cbn [fst snd] in *. unfold fs_write. rewrite R2, R3, R4, R5. destruct (Z.ltb_spec (Z.of_nat p) 0); [lia|]. cbn [orb]. rewrite Nat2Z.id.
    eexists. split; [reflexivity|]. unfold rep. cbn [l_open l_s fs_data fs_pos fs_size fs_fail after fst snd]. split; [exact R1|].
    assert (ED : match b with [] => d | _ :: _ => splice (d ++ repeat 0 (p + length b - length d)) p b end = firstn p d ++ b ++ skipn (p + length b) d).
    { destruct b as [|x b]; [cbn [length app]; rewrite Nat.add_0_r, firstn_skipn; reflexivity|apply splice_write; exact R6]. }
    split; [exact ED|]. split; [unfold zlen; lia|]. split; [|split; [reflexivity|]].
    + unfold zlen. rewrite !app_length, firstn_length, skipn_length. lia.
    + rewrite !app_length, firstn_length, skipn_length. lia.
  - destruct R as (R1 & R2 & R3 & R4 & R5 & R6). destruct f as [d p]. cbn [fst snd] in *. unfold fs_seek. rewrite R4. destruct (Z.ltb_spec (zlen d) q); [lia|]. cbn [rbind].
    eexists. split; [reflexivity|]. unfold rep. cbn [l_open l_s fs_data fs_pos fs_size fs_fail after fst snd]. repeat (split; [assumption || lia|]). unfold zlen in *. lia.
  - rewrite (HC eq_refl) in R. destruct R as (R1 & R). unfold life_close. rewrite R1. cbn [negb rbind]. eexists. split; [reflexivity|]. split; [reflexivity|]. destruct f. exact R.
Qed.
Lemma run_ok ops : forall l c f, rep l c f -> within f ops -> closed_once c ops -> life_run l ops = Ok (answers f ops, final f ops).
Proof.
  induction ops as [|o ops IH]; intros l c f R HW HC; cbn [life_run within closed_once answers] in *.
  - subst c. destruct R as (R1 & R2 & _). unfold life_close. rewrite R1. cbn [negb rbind l_s]. rewrite R2. reflexivity.
  - destruct HW as [W1 W2], HC as [C1 C2]. destruct (step_rep l c f o R C1 W1) as (l' & E & R'). rewrite E. cbn [rbind]. rewrite (IH l' _ _ R' W2 C2). reflexivity.
Qed.
Lemma run_twice ops : forall l c f, rep l c f -> within f ops -> ~ closed_once c ops -> life_run l ops = UB.
Proof.
  induction ops as [|o ops IH]; intros l c f R HW HC; cbn [life_run within closed_once] in *.
  - destruct R as (R1 & _). unfold life_close. rewrite R1. destruct c; [reflexivity|congruence].
  - destruct HW as [W1 W2]. assert (D : (o = OClose /\ c = true) \/ (o = OClose -> c = false)) by (destruct c; [|auto]; destruct o; [right; discriminate|right; discriminate|right; discriminate|left; auto]).
    destruct D as [[-> ->]|D].
    + cbn [life_step]. destruct R as (R1 & _). unfold life_close. rewrite R1. reflexivity.
    + destruct (step_rep l c f o R D W1) as (l' & E & R'). rewrite E. cbn [rbind]. rewrite (IH l' _ _ R' W2); [reflexivity|]. tauto.
Qed.
Lemma open_rep (create : bool) d : rep (life_open create d) false (if create then @nil Z else d, 0%nat).
Proof. unfold rep, life_open, fs_open. cbn [l_open l_s fs_data fs_pos fs_size fs_fail fst snd]. repeat (split; [reflexivity|]). lia. Qed.
Lemma history (create : bool) d ops : let f := (if create then @nil Z else d, 0%nat) in within f ops ->
  (closed_once false ops -> life_run (life_open create d) ops = Ok (answers f ops, final f ops)) /\ (~ closed_once false ops -> life_run (life_open create d) ops = UB).
Proof. cbv zeta. intros HW. split; intros HC; [apply (run_ok ops _ false)|apply (run_twice ops _ false _ (open_rep create d))]; try assumption. apply open_rep. Qed.
Lemma close_last ops : ~ closed_once false (ops ++ [OClose]).
Proof. generalize false. induction ops as [|o ops IH]; intros c; cbn [app closed_once closed_after]; [intros [_ H]; discriminate|intros [_ H]; exact (IH _ H)]. Qed.
Lemma within_app ops : forall f, within f ops -> within f (ops ++ [OClose]).
Proof. induction ops as [|o ops IH]; intros f; cbn [app within]; [tauto|]. intros [H1 H2]. split; [exact H1|apply IH; exact H2]. Qed.
