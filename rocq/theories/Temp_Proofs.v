(** Proofs about temporary files. *)
From Verif Require Import Prelude Lists Temp_Model Temp_Spec.
Ltac Zify.zify_post_hook ::= idtac.

Section Trace.
Variables (d : option (list (Z * nat))) (fs : list (list Z)).
Notation rn := (run d fs).
Lemma run_snoc tr o : rn (tr ++ [o]) = step (rn tr) o.
Proof. unfold run. now rewrite fold_left_app. Qed.
Lemma streams_snoc tr o : streams (tr ++ [o]) = (streams tr + (if is_new o then 1 else 0))%nat.
Proof. unfold streams. rewrite filter_app, app_length. cbn [filter]. destruct (is_new o); reflexivity. Qed.
Lemma written_snoc tr o h : written (tr ++ [o]) h = written tr h ++ match o with Put h' b => if Nat.eqb h' h then b else [] | _ => [] end.
Proof. unfold written. rewrite flat_map_app. cbn [flat_map]. now rewrite app_nil_r. Qed.
Lemma names_snoc tr o : names (tr ++ [o]) = names tr ++ match o with New _ n => [n] | _ => [] end.
Proof. unfold names. rewrite flat_map_app. cbn [flat_map]. now rewrite app_nil_r. Qed.
Lemma uses_snoc tr o p : uses (tr ++ [o]) p <-> uses tr p \/ exists n, o = New p n.
Proof.
  unfold uses. split.
  - intros [n H]. apply in_app_iff in H. destruct H as [H|[H|[]]]; [left; now exists n|right; now exists n].
  - intros [[n H]|[n H]]; exists n; apply in_app_iff; [now left|right; now left].
Qed.
Lemma started_uses tr p : In p (started (rn tr)) <-> uses tr p.
Proof.
  induction tr as [|o tr IH] using rev_ind; [cbn; split; [tauto|intros [n []]]|]. rewrite run_snoc, uses_snoc, <- IH. set (w := rn tr). clearbody w. destruct o as [q n|h b|h|q]; cbn [step].
  - unfold open_new, enter. destruct (existsb (Z.eqb q) (started w)) eqn:E.
    + assert (S1 : In q (started w)) by (apply existsb_exists in E; destruct E as (x & H1 & H2); apply Z.eqb_eq in H2; now subst). destruct (dir w) as [l|]; [destruct (find _ l) as [[? ?]|]|]; cbn [started]; (split; [now left|intros [H|[n' H]]; [exact H|injection H as -> ->; exact S1]]).
    + cbn [dir files started hs find]. split; [intros [<- |H]; [right; now exists n|now left]|intros [H|[n' H]]; [now right|injection H as -> ->; now left]].
  - destruct (nth_error (hs w) h) as [[[i|] []]|]; cbn [started]; (split; [now left|intros [H|[n' H]]; [exact H|discriminate]]).
  - destruct (nth_error (hs w) h) as [[? ?]|]; cbn [started]; (split; [now left|intros [H|[n' H]]; [exact H|discriminate]]).
  - destruct (existsb _ _); cbn [started]; (split; [now left|intros [H|[n' H]]; [exact H|discriminate]]).
Qed.
Lemma started_b tr p : existsb (Z.eqb p) (started (rn tr)) = true <-> uses tr p.
Proof. rewrite <- started_uses, existsb_exists. split; [intros (x & H & E); apply Z.eqb_eq in E; now subst|intros H; exists p; split; [exact H|apply Z.eqb_refl]]. Qed.

(** ** The invariant *)
Record inv (tr : list op) (w : world) : Prop := {
  i_len : length (hs w) = streams tr;
  i_dir : forall l n i, dir w = Some l -> In (n, i) l -> (i < length (files w))%nat /\ (In n (names tr) \/ exists l0, d = Some l0 /\ exists e, In e l0 /\ fst e = n);
  i_file : forall h i f, nth_error (hs w) h = Some (Some i, f) -> (i < length (files w))%nat;
  i_one : forall h h' i f f', nth_error (hs w) h = Some (Some i, f) -> nth_error (hs w) h' = Some (Some i, f') -> h = h';
  i_live : forall h i, nth_error (hs w) h = Some (i, false) -> In (Done h) tr;
  i_data : forall h i f, nth_error (hs w) h = Some (Some i, f) -> nth i (files w) [] = written tr h }.
Lemma sane_snoc tr o : sane (tr ++ [o]) -> sane tr.
Proof. intros H a h b c E. apply (H a h b (c ++ [o])). rewrite E, <- app_assoc. reflexivity. Qed.
Lemma fresh_snoc tr o : fresh d fs (tr ++ [o]) -> fresh d fs tr.
Proof.
  intros [H1 H2]. rewrite names_snoc in H1, H2. split.
  - clear - H1. induction (names tr) as [|x l IH]; [constructor|]. cbn [app] in H1. apply NoDup_cons_iff in H1. destruct H1 as [A B]. constructor; [intros C; apply A, in_app_iff; now left|now apply IH].
  - destruct d as [l|]; [|exact Logic.I]. intros e He. destruct (H2 e He) as [A B]. split; [|exact B]. intros C. apply A, in_app_iff. now left.
Qed.
Lemma nth_splice_one {A} (l : list A) o x i z : (o < length l)%nat -> nth i (splice l o [x]) z = if Nat.eqb i o then x else nth i l z.
Proof.
  intros H. assert (E : nth_error (splice l o [x]) i = if (i =? o)%nat then Some x else nth_error l i).
  { rewrite nth_error_splice by (cbn [length]; lia). cbn [length]. destruct (Nat.eqb_spec i o) as [-> |N].
    - destruct (Nat.leb_spec o o); [|lia]. destruct (Nat.ltb_spec o (o + 1)); [|lia]. cbn. now rewrite Nat.sub_diag.
    - destruct (Nat.leb_spec o i); cbn [andb]; [|reflexivity]. destruct (Nat.ltb_spec i (o + 1)); [lia|]. reflexivity. }
  destruct (Nat.eqb_spec i o) as [-> |N]; [now apply nth_error_nth|]. destruct (nth_error l i) as [y|] eqn:EL.
  - rewrite (nth_error_nth _ _ z E). symmetry. now apply nth_error_nth.
  - apply nth_error_None in E, EL. now rewrite !nth_overflow.
Qed.
Lemma ne_splice_one {A} (l : list A) o x i : (o < length l)%nat -> nth_error (splice l o [x]) i = if Nat.eqb i o then Some x else nth_error l i.
Proof.
  intros H. rewrite nth_error_splice by (cbn [length]; lia). cbn [length]. destruct (Nat.eqb_spec i o) as [-> |N].
  - destruct (Nat.leb_spec o o); [|lia]. destruct (Nat.ltb_spec o (o + 1)); [|lia]. cbn. now rewrite Nat.sub_diag.
  - destruct (Nat.leb_spec o i); cbn [andb]; [|reflexivity]. destruct (Nat.ltb_spec i (o + 1)); [lia|]. reflexivity.
Qed.
Lemma fut_written tr h : sane tr -> (streams tr <= h)%nat -> written tr h = [].
Proof.
  intros H L. induction tr as [|o tr IH] using rev_ind; [reflexivity|]. rewrite written_snoc. rewrite IH; [|now apply sane_snoc in H|rewrite streams_snoc in L; lia]. destruct o as [p n|h' b|h'|p]; try reflexivity. destruct (Nat.eqb_spec h' h) as [-> |N]; [|reflexivity]. destruct (H tr h b [] eq_refl) as [A _]. rewrite streams_snoc in L. cbn [is_new] in L. lia.
Qed.
Lemma snoc_ne {A} (l : list A) x i y : nth_error (l ++ [x]) i = Some y -> (nth_error l i = Some y /\ (i < length l)%nat) \/ (i = length l /\ y = x).
Proof.
  intros H. destruct (Nat.lt_ge_cases i (length l)) as [L|L].
  - rewrite nth_error_app1 in H by exact L. now left.
  - rewrite nth_error_app2 in H by exact L. destruct (i - length l)%nat as [|k] eqn:E; [|destruct k; discriminate]. right. split; [lia|]. cbn in H. congruence.
Qed.
Lemma inv_run tr : sane tr -> fresh d fs tr -> inv tr (rn tr).
Proof.
  induction tr as [|o tr IH] using rev_ind; intros SA FR.
  - constructor; cbn.
    + reflexivity.
    + intros l n i E H. destruct FR as [_ FR]. rewrite E in FR. destruct (FR _ H) as [_ B]. split; [exact B|]. right. exists l. split; [exact E|]. now exists (n, i).
    + intros [|h]; discriminate.
    + intros [|h]; discriminate.
    + intros [|h]; discriminate.
    + intros [|h]; discriminate.
  - specialize (IH (sane_snoc _ _ SA) (fresh_snoc _ _ FR)). rewrite run_snoc. set (w := rn tr) in *. clearbody w. destruct IH as [i1 i2 i3 i4 i5 i7]. destruct o as [p n|h b|h|p]; cbn [step].
    + (* New *)
      set (w1 := enter w p). assert (W1 : files w1 = files w /\ hs w1 = hs w /\ forall l n i, dir w1 = Some l -> In (n, i) l -> (i < length (files w))%nat /\ (In n (names tr) \/ exists l0, d = Some l0 /\ exists e, In e l0 /\ fst e = n)).
      { unfold w1, enter. destruct (existsb _ _); [auto|]. cbn [files hs dir]. split; [reflexivity|]. split; [reflexivity|]. intros l n' i E H. assert (l = []) by congruence. subst. destruct H. }
      destruct W1 as (F1 & H1 & D1). clearbody w1. assert (NT : forall l, dir w1 = Some l -> find (fun e => fst e =? n) l = None).
      { intros l E. destruct (find (fun e => fst e =? n) l) as [[n' i]|] eqn:EF; [|reflexivity]. exfalso. apply find_some in EF. destruct EF as [A B]. cbn [fst] in B. apply Z.eqb_eq in B. subst n'. destruct (D1 _ _ _ E A) as [_ [C|(l0 & E0 & e & C1 & C2)]]; destruct FR as [FR1 FR2]; rewrite names_snoc in FR1, FR2.
        - apply NoDup_remove_2 in FR1. rewrite app_nil_r in FR1. contradiction.
        - rewrite E0 in FR2. destruct (FR2 e C1) as [X _]. apply X. apply in_app_iff. right. left. now symmetry. }
      unfold open_new. assert (FW : written tr (length (hs w)) = []) by (apply fut_written; [exact (sane_snoc _ _ SA)|lia]). destruct (dir w1) as [l|] eqn:ED.
      * rewrite (NT l eq_refl). rewrite H1, F1. constructor; cbn [dir files hs].
        -- rewrite app_length, streams_snoc. cbn [length is_new]. lia.
        -- intros l' n' i E H. assert (l' = l ++ [(n, length (files w))]) by congruence. subst l'. rewrite app_length. cbn [length]. apply in_app_iff in H. destruct H as [H|[H|[]]].
           ++ destruct (D1 l n' i eq_refl H) as [A [B|B]]; (split; [lia|]); [left; rewrite names_snoc; apply in_app_iff; now left|now right].
           ++ assert (n' = n /\ i = length (files w)) as [-> ->] by (split; congruence). split; [lia|]. left. rewrite names_snoc. apply in_app_iff. right. now left.
        -- intros h i f H. rewrite app_length. cbn [length]. apply snoc_ne in H. destruct H as [[H _]|[_ H]]; [apply i3 in H; lia|]. assert (i = length (files w)) by congruence. lia.
        -- intros h h' i f f' A B. apply snoc_ne in A, B. destruct A as [[A LA]|[A EA]]; destruct B as [[B LB]|[B EB]].
           ++ exact (i4 _ _ _ _ _ A B).
           ++ apply i3 in A. assert (i = length (files w)) by congruence. lia.
           ++ apply i3 in B. assert (i = length (files w)) by congruence. lia.
           ++ lia.
        -- intros h i H. apply snoc_ne in H. destruct H as [[H _]|[_ H]]; [|congruence]. apply in_app_iff. left. exact (i5 _ _ H).
        -- intros h i f H. rewrite written_snoc, app_nil_r. apply snoc_ne in H. destruct H as [[H _]|[-> H]].
           ++ rewrite app_nth1 by exact (i3 _ _ _ H). exact (i7 _ _ _ H).
           ++ assert (i = length (files w)) as -> by congruence. rewrite app_nth2, Nat.sub_diag by lia. cbn [nth]. now symmetry.
      * rewrite H1, F1. constructor; cbn [dir files hs].
        -- rewrite app_length, streams_snoc. cbn [length is_new]. lia.
        -- discriminate.
        -- intros h i f H. apply snoc_ne in H. destruct H as [[H _]|[_ H]]; [exact (i3 _ _ _ H)|congruence].
        -- intros h h' i f f' A B. apply snoc_ne in A, B. destruct A as [[A LA]|[A EA]]; destruct B as [[B LB]|[B EB]]; try congruence. exact (i4 _ _ _ _ _ A B).
        -- intros h i H. apply snoc_ne in H. destruct H as [[H _]|[_ H]]; [|congruence]. apply in_app_iff. left. exact (i5 _ _ H).
        -- intros h i f H. rewrite written_snoc, app_nil_r. apply snoc_ne in H. destruct H as [[H _]|[-> H]]; [exact (i7 _ _ _ H)|congruence].
    + (* Put *)
      destruct (SA tr h b [] eq_refl) as [SL SD]. destruct (nth_error (hs w) h) as [[f lv]|] eqn:EH.
      2: { apply nth_error_None in EH. lia. }
      assert (lv = true) as ->. { destruct lv; [reflexivity|]. exfalso. apply SD. exact (i5 _ _ EH). }
      assert (KEEP : forall h0 i f0, nth_error (hs w) h0 = Some (Some i, f0) -> h0 <> h -> nth i (files w) [] = written (tr ++ [Put h b]) h0).
      { intros h0 i f0 H N. rewrite written_snoc. destruct (Nat.eqb_spec h h0); [congruence|]. rewrite app_nil_r. exact (i7 _ _ _ H). }
      destruct f as [i|].
      * pose proof (i3 _ _ _ EH) as LI. constructor; cbn [dir files hs].
        -- rewrite streams_snoc. cbn [is_new]. lia.
        -- intros l n' i' E H. rewrite splice_length by (cbn [length]; lia). rewrite names_snoc, app_nil_r. exact (i2 _ _ _ E H).
        -- intros h0 i0 f0 H. rewrite splice_length by (cbn [length]; lia). exact (i3 _ _ _ H).
        -- exact i4.
        -- intros h0 i0 H. apply in_app_iff. left. exact (i5 _ _ H).
        -- intros h0 i0 f0 H. rewrite nth_splice_one by lia. destruct (Nat.eqb_spec i0 i) as [-> |N].
           ++ assert (h0 = h) as -> by exact (i4 _ _ _ _ _ H EH). rewrite written_snoc, Nat.eqb_refl. f_equal. exact (i7 _ _ _ H).
           ++ apply (KEEP _ _ _ H). intros ->. congruence.
      * constructor.
        -- rewrite streams_snoc. cbn [is_new]. lia.
        -- intros l n' i' E H. rewrite names_snoc, app_nil_r. exact (i2 _ _ _ E H).
        -- exact i3.
        -- exact i4.
        -- intros h0 i0 H. apply in_app_iff. left. exact (i5 _ _ H).
        -- intros h0 i0 f0 H. apply (KEEP _ _ _ H). intros ->. congruence.
    + (* Done *)
      assert (B1 : streams (tr ++ [Done h]) = streams tr) by (rewrite streams_snoc; cbn [is_new]; lia). assert (B2 : names (tr ++ [Done h]) = names tr) by (rewrite names_snoc; apply app_nil_r). assert (B3 : forall h0, written (tr ++ [Done h]) h0 = written tr h0) by (intros h0; rewrite written_snoc; apply app_nil_r).
      destruct (nth_error (hs w) h) as [[f lv]|] eqn:EH.
      * assert (LH : (h < length (hs w))%nat) by (apply nth_error_Some; congruence).
        assert (OLD : forall h0 i f0, nth_error (splice (hs w) h [(f, false)]) h0 = Some (Some i, f0) -> exists f1, nth_error (hs w) h0 = Some (Some i, f1)).
        { intros h0 i f0 H. rewrite ne_splice_one in H by exact LH. destruct (Nat.eqb_spec h0 h) as [-> |N]; [exists lv; congruence|now exists f0]. }
        constructor; cbn [dir files hs].
        -- rewrite splice_length by (cbn [length]; lia). lia.
        -- intros l n' i' E H. rewrite B2. exact (i2 _ _ _ E H).
        -- intros h0 i0 f0 H. apply OLD in H. destruct H as [f1 H]. exact (i3 _ _ _ H).
        -- intros h0 h1 i0 f0 f1 H H'. apply OLD in H, H'. destruct H as [? H]. destruct H' as [? H']. exact (i4 _ _ _ _ _ H H').
        -- intros h0 i0 H. rewrite ne_splice_one in H by exact LH. apply in_app_iff. destruct (Nat.eqb_spec h0 h) as [-> |N]; [right; now left|left; exact (i5 _ _ H)].
        -- intros h0 i0 f0 H. rewrite B3. apply OLD in H. destruct H as [f1 H]. exact (i7 _ _ _ H).
      * constructor; try assumption.
        -- congruence.
        -- intros l n' i' E H. rewrite B2. exact (i2 _ _ _ E H).
        -- intros h0 i0 H. apply in_app_iff. left. exact (i5 _ _ H).
        -- intros h0 i0 f0 H. rewrite B3. exact (i7 _ _ _ H).
    + (* Exit *)
      assert (B1 : streams (tr ++ [Exit p]) = streams tr) by (rewrite streams_snoc; cbn [is_new]; lia). assert (B2 : names (tr ++ [Exit p]) = names tr) by (rewrite names_snoc; apply app_nil_r). assert (B3 : forall h0, written (tr ++ [Exit p]) h0 = written tr h0) by (intros h0; rewrite written_snoc; apply app_nil_r).
      destruct (existsb _ _); (constructor; cbn [dir files hs]; try assumption).
      * congruence.
      * discriminate.
      * intros h0 i0 H. apply in_app_iff. left. exact (i5 _ _ H).
      * intros h0 i0 f0 H. rewrite B3. exact (i7 _ _ _ H).
      * congruence.
      * intros l n' i' E H. rewrite B2. exact (i2 _ _ _ E H).
      * intros h0 i0 H. apply in_app_iff. left. exact (i5 _ _ H).
      * intros h0 i0 f0 H. rewrite B3. exact (i7 _ _ _ H).
Qed.

(** ** Files once opened stay open, for better or worse *)
Lemma step_fst w o h f lv : nth_error (hs w) h = Some (f, lv) -> exists lv', nth_error (hs (step w o)) h = Some (f, lv').
Proof.
  intros H. assert (L : (h < length (hs w))%nat) by (apply nth_error_Some; congruence). destruct o as [p n|h' b|h'|p]; cbn [step].
  - exists lv. assert (E : hs (enter w p) = hs w) by (unfold enter; destruct (existsb _ _); reflexivity). unfold open_new. destruct (dir (enter w p)) as [l|]; [destruct (find _ l) as [[? ?]|]|]; cbn [hs]; rewrite E, nth_error_app1 by exact L; exact H.
  - exists lv. destruct (nth_error (hs w) h') as [[[i|] []]|]; cbn [hs]; exact H.
  - destruct (nth_error (hs w) h') as [[f' lv']|] eqn:E; cbn [hs]; [|now exists lv]. assert (L' : (h' < length (hs w))%nat) by (apply nth_error_Some; congruence). rewrite ne_splice_one by exact L'. destruct (Nat.eqb_spec h h') as [-> |N]; [exists false; congruence|now exists lv].
  - exists lv. destruct (existsb _ _); exact H.
Qed.
Lemma later_fst c : forall w h f lv, nth_error (hs w) h = Some (f, lv) -> exists lv', nth_error (hs (fold_left step c w)) h = Some (f, lv').
Proof. induction c as [|o c IH]; intros w h f lv H; cbn [fold_left]; [now exists lv|]. destruct (step_fst w o h f lv H) as [lv' H']. exact (IH _ _ _ _ H'). Qed.
(** the directory is missing only after a run that used it has ended, or before any has *)
Lemma dir_gone tr : dir (rn tr) = None -> started (rn tr) <> [] -> exists a q b, tr = a ++ Exit q :: b /\ uses a q.
Proof.
  induction tr as [|o tr IH] using rev_ind; intros E NS; [now elim NS|]. rewrite run_snoc in E, NS.
  assert (MORE : (exists a q b, tr = a ++ Exit q :: b /\ uses a q) -> exists a q b, tr ++ [o] = a ++ Exit q :: b /\ uses a q).
  { intros (a & q & b & -> & U). exists a, q, (b ++ [o]). split; [now rewrite <- app_assoc|exact U]. }
  destruct o as [p n|h b|h|p]; cbn [step] in E, NS.
  - unfold enter in E, NS. destruct (existsb (Z.eqb p) (started (rn tr))) eqn:X.
    + apply MORE, IH; [|intros Q; rewrite Q in X; discriminate]. unfold open_new in E. destruct (dir (rn tr)) as [l|]; [destruct (find _ l) as [[? ?]|]; discriminate|reflexivity].
    + discriminate E.
  - apply MORE, IH; destruct (nth_error (hs (rn tr)) h) as [[[i|] []]|]; assumption.
  - apply MORE, IH; destruct (nth_error (hs (rn tr)) h) as [[? ?]|]; assumption.
  - destruct (existsb (Z.eqb p) (started (rn tr))) eqn:X; [|apply MORE, IH; assumption]. exists tr, p, []. split; [reflexivity|now apply started_b].
Qed.
Lemma calm_snoc tr o : calm (tr ++ [o]) -> calm tr.
Proof. intros H a q b p n c E. apply (H a q b p n (c ++ [o])). rewrite E, <- !app_assoc. cbn [app]. now rewrite <- app_assoc. Qed.
Lemma calm_open tr : calm tr -> forall h f lv, nth_error (hs (rn tr)) h = Some (f, lv) -> f <> None.
Proof.
  induction tr as [|o tr IH] using rev_ind; intros C h f lv H; [destruct h; discriminate|]. specialize (IH (calm_snoc _ _ C)). rewrite run_snoc in H. destruct o as [p n|h' b|h'|p]; cbn [step] in H.
  - unfold open_new in H. assert (E : hs (enter (rn tr) p) = hs (rn tr)) by (unfold enter; destruct (existsb _ _); reflexivity). rewrite E in H.
    destruct (dir (enter (rn tr) p)) as [l|] eqn:ED; [destruct (find _ l) as [[? ?]|]|]; cbn [hs] in H; apply snoc_ne in H; (destruct H as [[H _]|[_ H]]; [exact (IH _ _ _ H)|]); try congruence.
    exfalso. unfold enter in ED. destruct (existsb (Z.eqb p) (started (rn tr))) eqn:X; [|discriminate]. destruct (dir_gone tr ED ltac:(intros Q; rewrite Q in X; discriminate)) as (a & q & b & Et & U). apply (C a q b p n []); [rewrite Et, <- !app_assoc; reflexivity|exact U].
  - destruct (nth_error (hs (rn tr)) h') as [[[i|] []]|]; exact (IH _ _ _ H).
  - destruct (nth_error (hs (rn tr)) h') as [[f' lv']|] eqn:EH; cbn [hs] in H; [|exact (IH _ _ _ H)]. assert (L' : (h' < length (hs (rn tr)))%nat) by (apply nth_error_Some; congruence). rewrite ne_splice_one in H by exact L'. destruct (Nat.eqb_spec h h') as [-> |N]; [|exact (IH _ _ _ H)]. assert (f = f') as -> by congruence. exact (IH _ _ _ EH).
  - destruct (existsb _ _); exact (IH _ _ _ H).
Qed.
Theorem reads_back tr h : sane tr -> fresh d fs tr -> calm tr -> (h < streams tr)%nat -> ~ In (Done h) tr -> reads (rn tr) h = written tr h.
Proof.
  intros SA FR C L ND. pose proof (inv_run tr SA FR) as V. unfold reads. destruct (nth_error (hs (rn tr)) h) as [[f lv]|] eqn:E.
  2: { apply nth_error_None in E. rewrite (i_len _ _ V) in E. lia. }
  destruct lv; [|exfalso; apply ND; exact (i_live _ _ V _ _ E)]. destruct f as [i|]; [exact (i_data _ _ V _ _ _ E)|]. exfalso. exact (calm_open tr C _ _ _ E eq_refl).
Qed.
(** a stream is as written, or nothing is left of it *)
Theorem all_or_nothing tr h : sane tr -> fresh d fs tr -> reads (rn tr) h = written tr h \/ reads (rn tr) h = [].
Proof.
  intros SA FR. pose proof (inv_run tr SA FR) as V. unfold reads. destruct (nth_error (hs (rn tr)) h) as [[[i|] []]|] eqn:E; try (now right). left. exact (i_data _ _ V _ _ _ E).
Qed.
Lemma gone_stays b : forall a, dir (rn a) = None -> (forall p n, In (New p n) b -> uses a p) -> dir (rn (a ++ b)) = None.
Proof.
  induction b as [|o b IH]; intros a E H; [now rewrite app_nil_r|]. replace (a ++ o :: b) with ((a ++ [o]) ++ b) by now rewrite <- app_assoc. apply IH.
  - rewrite run_snoc. destruct o as [p n|h' x|h'|p]; cbn [step].
    + assert (X : existsb (Z.eqb p) (started (rn a)) = true) by (apply started_b; apply (H p n); now left). unfold enter. rewrite X. unfold open_new. rewrite E. reflexivity.
    + destruct (nth_error (hs (rn a)) h') as [[[i|] []]|]; exact E.
    + destruct (nth_error (hs (rn a)) h') as [[? ?]|]; exact E.
    + destruct (existsb _ _); [reflexivity|exact E].
  - intros p n Hn. apply uses_snoc. left. apply (H p n). now right.
Qed.
Lemma run_len tr : length (hs (rn tr)) = streams tr.
Proof.
  induction tr as [|o tr IH] using rev_ind; [reflexivity|]. rewrite run_snoc, streams_snoc, <- IH. destruct o as [p n|h b|h|p]; cbn [step is_new].
  - assert (E : hs (enter (rn tr) p) = hs (rn tr)) by (unfold enter; destruct (existsb _ _); reflexivity). unfold open_new. destruct (dir (enter (rn tr) p)) as [l|]; [destruct (find _ l) as [[? ?]|]|]; cbn [hs]; rewrite E, app_length; cbn [length]; lia.
  - destruct (nth_error (hs (rn tr)) h) as [[[i|] []]|]; cbn [hs]; lia.
  - destruct (nth_error (hs (rn tr)) h) as [[f lv]|] eqn:E; cbn [hs]; [|lia]. assert ((h < length (hs (rn tr)))%nat) by (apply nth_error_Some; congruence). rewrite splice_length by (cbn [length]; lia). lia.
  - destruct (existsb _ _); cbn [hs]; lia.
Qed.
Theorem lost a q b p n c : uses a q -> uses a p -> (forall r m, In (New r m) b -> uses a r) -> reads (rn (a ++ Exit q :: b ++ New p n :: c)) (streams (a ++ b)) = [].
Proof.
  intros UQ UP UB. replace (a ++ Exit q :: b ++ New p n :: c) with (((a ++ [Exit q]) ++ b) ++ [New p n] ++ c) by (rewrite <- !app_assoc; reflexivity). set (t := (a ++ [Exit q]) ++ b).
  assert (E : dir (rn t) = None). { apply gone_stays; [rewrite run_snoc; cbn [step]; assert (X : existsb (Z.eqb q) (started (rn a)) = true) by (now apply started_b); rewrite X; reflexivity|]. intros r m H. apply uses_snoc. left. exact (UB r m H). }
  assert (X : existsb (Z.eqb p) (started (rn t)) = true). { apply started_b. destruct UP as [m U]. exists m. unfold t. apply in_app_iff. left. apply in_app_iff. now left. }
  assert (LN : length (hs (rn t)) = streams (a ++ b)). { rewrite run_len. unfold t, streams. rewrite !filter_app, !app_length. cbn [filter is_new length]. lia. }
  assert (H : nth_error (hs (rn (t ++ [New p n]))) (streams (a ++ b)) = Some (None, true)). { rewrite run_snoc. cbn [step]. unfold enter. rewrite X. unfold open_new. rewrite E. cbn [hs]. rewrite nth_error_app2, LN, Nat.sub_diag by lia. reflexivity. }
  rewrite app_assoc. unfold run. rewrite fold_left_app. fold (rn (t ++ [New p n])). destruct (later_fst c _ _ _ _ H) as [lv' H']. unfold reads. rewrite H'. reflexivity.
Qed.

(** ** What stays in the directory *)
Lemma map_fst_splice {A B} (l : list (A * B)) h x : (h < length l)%nat -> fst x = fst (nth h l x) -> map fst (splice l h [x]) = map fst l.
Proof.
  revert h. induction l as [|y l IH]; intros [|h] L E; cbn [length] in L; try lia.
  - cbn in E |- *. now rewrite E.
  - cbn [nth] in E. specialize (IH h ltac:(lia) E). unfold splice in *. cbn [firstn app map length Nat.add skipn] in *. now rewrite IH.
Qed.
Lemma only_run p tr : fresh d fs tr -> (forall q n, In (New q n) tr -> q = p) -> (forall q, ~ In (Exit q) tr) ->
  (streams tr = 0%nat /\ started (rn tr) = []) \/
  (started (rn tr) = [p] /\ exists l, dir (rn tr) = Some l /\ map fst l = names tr /\ map (fun e => Some (snd e)) l = map fst (hs (rn tr))).
Proof.
  induction tr as [|o tr IH] using rev_ind; intros FR ON NX; [now left|]. rewrite run_snoc, streams_snoc, names_snoc.
  assert (IH' := IH (fresh_snoc _ _ FR) (fun q n H => ON q n ltac:(apply in_app_iff; now left)) (fun q H => NX q ltac:(apply in_app_iff; now left))). clear IH. set (w := rn tr) in *.
  destruct o as [q n|h b|h|q]; cbn [is_new step].
  - assert (q = p) as -> by (apply (ON q n), in_app_iff; right; now left). right.
    assert (D : started (enter w p) = [p] /\ hs (enter w p) = hs w /\ exists l, dir (enter w p) = Some l /\ map fst l = names tr /\ map (fun e => Some (snd e)) l = map fst (hs w)).
    { unfold enter. destruct IH' as [(Z0 & S0)|(S1 & l & E1 & E2 & E3)].
      - rewrite S0. cbn [existsb started hs dir]. split; [reflexivity|]. split; [reflexivity|]. exists []. split; [reflexivity|]. split; [|destruct (hs w) eqn:Eh; [reflexivity|exfalso; pose proof (run_len tr) as RL; fold w in RL; rewrite Eh in RL; cbn [length] in RL; lia]].
        clear - Z0. unfold streams in Z0. induction tr as [|o tr IH]; [reflexivity|]. destruct o; cbn [filter is_new length] in Z0; try lia; cbn [names flat_map app]; now apply IH.
      - rewrite S1. cbn [existsb]. rewrite Z.eqb_refl. cbn [orb]. split; [exact S1|]. split; [reflexivity|]. exists l. auto. }
    destruct D as (D1 & D2 & l & D3 & D4 & D5). unfold open_new. rewrite D3.
    assert (find (fun e => fst e =? n) l = None) as ->.
    { destruct (find (fun e => fst e =? n) l) as [[n' i]|] eqn:EF; [|reflexivity]. exfalso. apply find_some in EF. destruct EF as [A B]. cbn [fst] in B. apply Z.eqb_eq in B. subst n'. destruct FR as [FR1 _]. rewrite names_snoc in FR1. apply NoDup_remove_2 in FR1. rewrite app_nil_r in FR1. apply FR1. rewrite <- D4. apply in_map_iff. now exists (n, i). }
    cbn [started dir hs]. split; [exact D1|]. eexists. split; [reflexivity|]. rewrite !map_app, D2. cbn [map fst snd]. rewrite D4, D5. split; reflexivity.
  - rewrite Nat.add_0_r, app_nil_r. destruct (nth_error (hs w) h) as [[[i|] []]|]; cbn [started dir hs]; exact IH'.
  - rewrite Nat.add_0_r, app_nil_r. destruct (nth_error (hs w) h) as [[f lv]|] eqn:EH; cbn [started dir hs]; [|exact IH']. assert (LH : (h < length (hs w))%nat) by (apply nth_error_Some; congruence). rewrite map_fst_splice; [exact IH'|exact LH|]. rewrite (nth_error_nth _ _ _ EH). reflexivity.
  - exfalso. apply (NX q), in_app_iff. right. now left.
Qed.
Theorem left_over p tr : sane tr -> fresh d fs tr -> (forall q n, In (New q n) tr -> q = p) -> (forall q, ~ In (Exit q) tr) -> (0 < streams tr)%nat ->
  exists l, dir (rn tr) = Some l /\ length l = streams tr /\ forall h, (h < streams tr)%nat -> exists n i, nth_error l h = Some (n, i) /\ nth i (files (rn tr)) [] = written tr h.
Proof.
  intros SA FR ON NX L. destruct (only_run p tr FR ON NX) as [(Z0 & _)|(_ & l & E1 & _ & E3)]; [lia|]. pose proof (inv_run tr SA FR) as V. exists l. split; [exact E1|].
  assert (LL : length l = streams tr). { rewrite <- (i_len _ _ V). pose proof (f_equal (@length _) E3) as Q. now rewrite !map_length in Q. } split; [exact LL|]. intros h Hh.
  destruct (nth_error l h) as [[n i]|] eqn:EN; [|apply nth_error_None in EN; lia]. exists n, i. split; [reflexivity|]. pose proof (map_nth_error (fun e => Some (snd e)) h l EN) as Q. rewrite E3 in Q. cbn [snd] in Q. destruct (nth_error (hs (rn tr)) h) as [[f lv]|] eqn:EH.
  - rewrite (map_nth_error fst h _ EH) in Q. cbn [fst] in Q. assert (f = Some i) as -> by congruence. exact (i_data _ _ V _ _ _ EH).
  - apply nth_error_None in EH. rewrite (i_len _ _ V) in EH. lia.
Qed.
Theorem swept tr p : uses tr p -> dir (rn (tr ++ [Exit p])) = None.
Proof. intros U. rewrite run_snoc. cbn [step]. assert (X : existsb (Z.eqb p) (started (rn tr)) = true) by (now apply started_b). rewrite X. reflexivity. Qed.
Theorem first_use tr p n : ~ uses tr p -> exists i, dir (rn (tr ++ [New p n])) = Some [(n, i)].
Proof. intros U. rewrite run_snoc. cbn [step]. unfold enter. destruct (existsb (Z.eqb p) (started (rn tr))) eqn:X; [exfalso; apply U; now apply started_b|]. cbn [open_new dir find files app]. eexists. reflexivity. Qed.
End Trace.
