(** Keys in order, and records in leaves. *)
From Coq Require Import Sorted.
From Verif Require Import Prelude Lists Leaf_Model Leaf_Spec Idx_Model Idx_Spec.
Ltac Zify.zify_post_hook ::= idtac.

(** ** The order of keys *)
Lemma ltb_lt a : forall b, key_ltb a b = true <-> key_lt a b.
Proof.
  induction a as [|x a IH]; intros [|y b]; cbn [key_ltb key_lt]; try (split; [discriminate|tauto]).
  rewrite orb_true_iff, andb_true_iff, Z.ltb_lt, Z.eqb_eq, IH. tauto.
Qed.
Lemma ltb_irrefl a : key_ltb a a = false.
Proof. induction a as [|x a IH]; cbn [key_ltb]; [reflexivity|]. rewrite Z.ltb_irrefl, Z.eqb_refl, IH. reflexivity. Qed.
Lemma lt_trans' a : forall b c, key_lt a b -> key_lt b c -> key_lt a c.
Proof. induction a as [|x a IH]; intros [|y b] [|z c]; cbn [key_lt]; try tauto. intros [H|[-> H]] [H2|[-> H2]]; [left; lia|left; lia|left; lia|right; split; [reflexivity|eauto]]. Qed.
Lemma ltb_trans a b c : key_ltb a b = true -> key_ltb b c = true -> key_ltb a c = true.
Proof. rewrite !ltb_lt. apply lt_trans'. Qed.
Lemma ltb_asym a b : key_ltb a b = true -> key_ltb b a = false.
Proof. intros H. destruct (key_ltb b a) eqn:E; [|reflexivity]. pose proof (ltb_trans a b a H E) as T. rewrite ltb_irrefl in T. discriminate. Qed.
Lemma memcmp_cases a : forall b, length a = length b ->
  (a = b /\ memcmp a b = 0) \/ (key_ltb a b = true /\ memcmp a b = -1) \/ (key_ltb b a = true /\ memcmp a b = 1).
Proof.
  induction a as [|x a IH]; intros [|y b] H; cbn [length memcmp key_ltb] in *; try discriminate; [left; auto|].
  injection H as H. destruct (Z.ltb_spec x y); [right; left; auto|]. destruct (Z.ltb_spec y x); [right; right; auto|].
  assert (x = y) by lia. subst y. rewrite Z.eqb_refl. cbn [orb andb]. destruct (IH b H) as [[-> E]|[E|E]]; auto.
Qed.
Lemma ltb_total a b : length a = length b -> a <> b -> key_ltb a b = false -> key_ltb b a = true.
Proof. intros L N H. destruct (memcmp_cases a b L) as [[E _]|[[E _]|[E _]]]; [contradiction|congruence|exact E]. Qed.

(** ** Sorted lists of records *)
Definition ss (l : list (Z * list Z)) := StronglySorted key_lt (map snd l).
Lemma sorted_ss l : sorted l -> StronglySorted key_lt l.
Proof.
  induction l as [|a l IH]; intros H; constructor.
  - apply IH. destruct l; [exact I|apply H].
  - destruct l as [|b l]; [constructor|]. destruct H as [H1 H2]. specialize (IH H2). constructor; [exact H1|].
    inversion IH; subst. eapply Forall_impl; [|eassumption]. intros c Hc. cbn beta in Hc. eapply lt_trans'; eassumption.
Qed.
Lemma ss_sorted l : StronglySorted key_lt l -> sorted l.
Proof. intros H. induction H as [|a l H IH HF]; [exact I|]. destruct l as [|b l]; [exact I|]. split; [now inversion HF|exact IH]. Qed.
Lemma ss_app a b : ss (a ++ b) <-> ss a /\ ss b /\ (forall x y, In x a -> In y b -> key_ltb (snd x) (snd y) = true).
Proof.
  unfold ss. induction a as [|r a IH]; cbn [app map].
  - split; [intros H; split; [constructor|split; [exact H|intros x y []]]|tauto].
  - split.
    + intros H. inversion H as [|? ? H1 H2]; subst. apply IH in H1. destruct H1 as (H1 & H3 & H4). rewrite map_app in H2. apply Forall_app in H2. destruct H2 as [H2 H5].
      split; [constructor; assumption|]. split; [exact H3|]. intros x y [->|Hx] Hy; [|now apply H4]. apply ltb_lt. rewrite Forall_forall in H5. apply H5. now apply in_map.
    + intros (H1 & H2 & H3). inversion H1 as [|? ? H4 H5]; subst. constructor; [apply IH; split; [exact H4|split; [exact H2|]]|].
      * intros x y Hx Hy. apply H3; [now right|exact Hy].
      * rewrite map_app. apply Forall_app. split; [exact H5|]. apply Forall_forall. intros k Hk. apply in_map_iff in Hk. destruct Hk as (y & <- & Hy). apply ltb_lt. apply H3; [now left|exact Hy].
Qed.
Lemma ss_one r : ss [r]. Proof. repeat constructor. Qed.
Lemma last_some {A} (l : list A) x : last (map Some (l ++ [x])) None = Some x.
Proof. rewrite map_app. apply last_last. Qed.
Lemma last_split {A} (l : list A) : (l = [] /\ last (map Some l) None = None) \/ exists a x, l = a ++ [x] /\ last (map Some l) None = Some x.
Proof. destruct l as [|y l] using rev_ind; [left; auto|right]. exists l, y. split; [reflexivity|apply last_some]. Qed.
Lemma last_app_some {A} (a b : list A) : b <> [] -> last (map Some (a ++ b)) None = last (map Some b) None.
Proof. intros H. destruct b as [|x b] using rev_ind; [congruence|]. rewrite app_assoc, !last_some. reflexivity. Qed.
(** a sorted list that ends before a key has all its records before it *)
Lemma ends_all key l : ss l -> ends_before key l = true -> l <> [] /\ Forall (fun r => key_ltb (snd r) key = true) l.
Proof.
  intros H E. unfold ends_before in E. destruct (last_split l) as [[-> El]|(a & x & -> & El)]; rewrite El in E; [discriminate|]. destruct x as [n k].
  split; [now destruct a|]. apply ss_app in H. destruct H as (_ & _ & H). apply Forall_app. split; [|repeat constructor; exact E].
  apply Forall_forall. intros r Hr. eapply ltb_trans; [apply H; [exact Hr|left; reflexivity]|exact E].
Qed.
Lemma all_ends key l : l <> [] -> Forall (fun r => key_ltb (snd r) key = true) l -> ends_before key l = true.
Proof.
  intros N H. unfold ends_before. destruct (last_split l) as [[-> El]|(a & x & -> & El)]; [congruence|]. rewrite El. apply Forall_app in H. destruct H as [_ H].
  destruct x. exact (Forall_inv H).
Qed.

(** ** Adding *)
Lemma added_skip key num r s : Forall (fun x => key_ltb key (snd x) = false) r -> added key num (r ++ s) = r ++ added key num s.
Proof. induction r as [|[n k] r IH]; intros H; cbn [app added]; [reflexivity|]. pose proof (Forall_inv H) as E. cbn [snd] in E. rewrite E, IH; [reflexivity|exact (Forall_inv_tail H)]. Qed.
Lemma added_stop key num r s : Exists (fun x => key_ltb key (snd x) = true) r -> added key num (r ++ s) = added key num r ++ s.
Proof.
  induction r as [|[n k] r IH]; intros H; [inversion H|]. cbn [app added]. destruct (key_ltb key k) eqn:E; [reflexivity|].
  rewrite IH; [reflexivity|]. inversion H as [? ? E2|]; subst; [cbn [snd] in E2; congruence|assumption].
Qed.
Lemma added_in key num l x : In x (added key num l) <-> x = (num, key) \/ In x l.
Proof.
  induction l as [|[n k] l IH]; cbn [added]; [cbn [In]; intuition|]. destruct (key_ltb key k); cbn [In]; [intuition|]. rewrite IH. intuition.
Qed.
Lemma added_split key num l : exists a b, l = a ++ b /\ added key num l = a ++ (num, key) :: b /\ Forall (fun x => key_ltb key (snd x) = false) a /\
  match b with [] => True | x :: _ => key_ltb key (snd x) = true end.
Proof.
  induction l as [|[n k] l (a & b & E1 & E2 & E3 & E4)]; cbn [added].
  - exists [], []. repeat split; constructor.
  - destruct (key_ltb key k) eqn:E.
    + exists [], ((n, k) :: l). repeat split; [constructor|exact E].
    + exists ((n, k) :: a), b. rewrite E1 at 1. rewrite E2. repeat split; [|exact E4]. constructor; [exact E|exact E3].
Qed.
Lemma added_ss key num l : ss l -> ~ In key (map snd l) -> Forall (fun r => length (snd r) = length key) l -> ss (added key num l).
Proof.
  intros H N L. destruct (added_split key num l) as (a & b & -> & -> & HA & HB). apply ss_app in H. destruct H as (H1 & H2 & H3).
  apply Forall_app in L. destruct L as [L1 L2].
  assert (HA' : forall x, In x a -> key_ltb (snd x) key = true).
  { intros x Hx. rewrite Forall_forall in HA, L1. apply ltb_total; [symmetry; now apply L1| |now apply HA].
    intros ->. apply N. rewrite map_app. apply in_or_app. left. now apply in_map. }
  assert (HB' : forall y, In y b -> key_ltb key (snd y) = true).
  { intros y Hy. destruct b as [|z b]; [contradiction|]. destruct Hy as [->|Hy]; [exact HB|]. eapply ltb_trans; [exact HB|].
    apply (ss_app [z] b) in H2. destruct H2 as (_ & _ & H2). apply H2; [left; reflexivity|exact Hy]. }
  apply ss_app. split; [exact H1|]. split.
  - apply (ss_app [(num, key)] b). split; [apply ss_one|]. split; [exact H2|]. intros x y [<-|[]] Hy. now apply HB'.
  - intros x y Hx [<-|Hy]; [now apply HA'|now apply H3].
Qed.

(** ** Removing *)
Lemma removed_app key a b : removed key (a ++ b) = removed key a ++ removed key b.
Proof. unfold removed. apply filter_app. Qed.
Lemma removed_none key l : ~ In key (map snd l) -> removed key l = l.
Proof.
  intros H. unfold removed. induction l as [|[n k] l IH]; cbn [filter snd]; [reflexivity|]. cbn [map snd In] in H.
  destruct (list_eq_dec Z.eq_dec k key) as [E|E]; [exfalso; apply H; now left|]. cbn [negb]. f_equal. apply IH. tauto.
Qed.
Lemma removed_in key l x : In x (removed key l) -> In x l.
Proof. unfold removed. intros H. apply filter_In in H. tauto. Qed.
Lemma removed_ss key l : ss l -> ss (removed key l).
Proof.
  unfold ss. induction l as [|[n k] l IH]; intros H; [exact H|]. unfold removed. cbn [filter snd]. inversion H as [|? ? H1 H2]; subst. specialize (IH H1).
  destruct (list_eq_dec Z.eq_dec k key); cbn [negb map snd]; [exact IH|]. constructor; [exact IH|].
  apply Forall_forall. intros y Hy. apply in_map_iff in Hy. destruct Hy as (r & <- & Hr). rewrite Forall_forall in H2. apply H2. apply in_map. now apply (removed_in key).
Qed.
Lemma removed_one key n a b : ss (a ++ (n, key) :: b) -> removed key (a ++ (n, key) :: b) = a ++ b.
Proof.
  intros H. apply ss_app in H. destruct H as (_ & H2 & H3). apply (ss_app [(n, key)] b) in H2. destruct H2 as (_ & _ & H2).
  rewrite removed_app. change ((n, key) :: b) with ([(n, key)] ++ b). rewrite removed_app. rewrite (removed_none key a).
  - rewrite (removed_none key b).
    + unfold removed. cbn [filter snd]. destruct (list_eq_dec Z.eq_dec key key); [reflexivity|congruence].
    + intros Hi. apply in_map_iff in Hi. destruct Hi as (y & E & Hy). specialize (H2 _ _ (or_introl eq_refl) Hy). cbn [snd] in H2. rewrite E, ltb_irrefl in H2. discriminate.
  - intros Hi. apply in_map_iff in Hi. destruct Hi as (y & E & Hy). specialize (H3 _ _ Hy (or_introl eq_refl)). cbn [snd] in H3. rewrite E, ltb_irrefl in H3. discriminate.
Qed.

(** ** The home of a key *)
Lemma at_home_skip key g A : forall B, Forall (fun l => ends_before key (snd l) = true) A -> B <> [] -> at_home key g (A ++ B) = A ++ at_home key g B.
Proof.
  induction A as [|[o r] A IH]; intros B H N; [reflexivity|]. cbn [app at_home]. pose proof (Forall_inv H) as E. cbn [snd] in E.
  destruct (A ++ B) as [|l0 t] eqn:EA; [apply app_eq_nil in EA; tauto|]. rewrite E. rewrite <- EA, (IH B (Forall_inv_tail H) N). reflexivity.
Qed.
Lemma home_skip key A : forall B, Forall (fun l => ends_before key (snd l) = true) A -> B <> [] -> home key (A ++ B) = home key B.
Proof.
  induction A as [|[o r] A IH]; intros B H N; [reflexivity|]. cbn [app home]. pose proof (Forall_inv H) as E. cbn [snd] in E.
  destruct (A ++ B) as [|l0 t] eqn:EA; [apply app_eq_nil in EA; tauto|]. rewrite E. rewrite <- EA. exact (IH B (Forall_inv_tail H) N).
Qed.
Lemma at_home_stop key g A : forall B, (exists C l, A = C ++ [l] /\ ends_before key (snd l) = false) -> at_home key g (A ++ B) = at_home key g A ++ B.
Proof.
  induction A as [|[o r] A IH]; intros B (C & l & E & HE); [destruct C; discriminate|]. cbn [app at_home].
  destruct A as [|l0 A].
  - destruct C as [|? [|? ?]]; try discriminate. injection E as <-. cbn [snd] in HE. cbn [app]. destruct B; [reflexivity|]. rewrite HE. reflexivity.
  - cbn [app]. destruct (ends_before key r); [|reflexivity]. cbn [app]. f_equal. change (l0 :: A ++ B) with ((l0 :: A) ++ B). apply IH.
    destruct C as [|c C]; [discriminate|]. cbn [app] in E. injection E as _ E. exists C, l. auto.
Qed.
Lemma home_stop key A : forall B, (exists C l, A = C ++ [l] /\ ends_before key (snd l) = false) -> home key (A ++ B) = home key A.
Proof.
  induction A as [|[o r] A IH]; intros B (C & l & E & HE); [destruct C; discriminate|]. cbn [app home].
  destruct A as [|l0 A].
  - destruct C as [|? [|? ?]]; try discriminate. injection E as <-. cbn [snd] in HE. cbn [app]. destruct B; [reflexivity|]. rewrite HE. reflexivity.
  - cbn [app]. destruct (ends_before key r); [|reflexivity]. change (l0 :: A ++ B) with ((l0 :: A) ++ B). apply IH.
    destruct C as [|c C]; [discriminate|]. cbn [app] in E. injection E as _ E. exists C, l. auto.
Qed.
Lemma at_home_offs key g ls : map fst (at_home key g ls) = map fst ls.
Proof. induction ls as [|[o r] [|l ls] IH]; [reflexivity|reflexivity|]. change (at_home key g ((o, r) :: l :: ls)) with (if ends_before key r then (o, r) :: at_home key g (l :: ls) else (o, g r) :: l :: ls). destruct (ends_before key r); [|reflexivity]. set (q := l :: ls) in *. cbn [map fst]. now rewrite IH. Qed.

Definition all_recs (ls : list (Z * list (Z * list Z))) := concat (map snd ls).
Lemma not_ends key l : ss l -> l <> [] -> Forall (fun r => length (snd r) = length key) l -> ends_before key l = false -> exists n k, In (n, k) l /\ (key = k \/ key_ltb key k = true).
Proof.
  intros H N L E. unfold ends_before in E. destruct (last_split l) as [[-> El]|(a & [n k] & -> & El)]; [congruence|]. rewrite El in E. exists n, k. split; [apply in_or_app; right; left; reflexivity|].
  destruct (list_eq_dec Z.eq_dec key k) as [->|D]; [now left|right]. apply Forall_app in L. destruct L as [_ L]. pose proof (Forall_inv L) as L'. cbn [snd] in L'. apply (ltb_total k key); [exact L'|congruence|exact E].
Qed.
Lemma at_home_added key num ls : ss (all_recs ls) -> Forall (fun l => snd l <> []) ls \/ (length ls <= 1)%nat -> ls <> [] -> ~ In key (map snd (all_recs ls)) ->
  Forall (fun r => length (snd r) = length key) (all_recs ls) -> all_recs (at_home key (added key num) ls) = added key num (all_recs ls).
Proof.
  unfold all_recs. induction ls as [|[o r] ls IH]; intros H F N NI L; [congruence|]. cbn [at_home]. destruct ls as [|l ls]; [cbn [map concat snd]; now rewrite !app_nil_r|].
  destruct F as [F|F]; [|cbn [length] in F; lia]. set (ls' := l :: ls) in *. cbn [map concat snd] in H, NI, L |- *. apply ss_app in H. destruct H as (H1 & H2 & H3).
  rewrite map_app in NI. apply Forall_app in L. destruct L as [L1 L2]. pose proof (Forall_inv F) as Fr. cbn [snd] in Fr.
  destruct (ends_before key r) eqn:E; cbn [map concat snd].
  - destruct (ends_all key r H1 E) as [_ HA]. rewrite added_skip; [|eapply Forall_impl; [|exact HA]; intros x; apply ltb_asym]. f_equal.
    apply IH; [exact H2|left; exact (Forall_inv_tail F)|discriminate|intros Hi; apply NI; apply in_or_app; now right|exact L2].
  - rewrite added_stop; [reflexivity|]. destruct (not_ends key r H1 Fr L1 E) as (n & k & Hi & [->|Hk]).
    + exfalso. apply NI. apply in_or_app. left. apply in_map_iff. exists (n, k). auto.
    + apply Exists_exists. exists (n, k). auto.
Qed.
Lemma at_home_removed key ls : ss (all_recs ls) -> Forall (fun l => snd l <> []) ls \/ (length ls <= 1)%nat ->
  Forall (fun r => length (snd r) = length key) (all_recs ls) -> all_recs (at_home key (removed key) ls) = removed key (all_recs ls).
Proof.
  unfold all_recs. induction ls as [|[o r] ls IH]; intros H F L; [reflexivity|]. cbn [at_home]. destruct ls as [|l ls]; [cbn [map concat snd]; now rewrite !app_nil_r|].
  destruct F as [F|F]; [|cbn [length] in F; lia]. set (ls' := l :: ls) in *. cbn [map concat snd] in H, L |- *. apply ss_app in H. destruct H as (H1 & H2 & H3).
  apply Forall_app in L. destruct L as [L1 L2]. pose proof (Forall_inv F) as Fr. cbn [snd] in Fr. rewrite removed_app.
  destruct (ends_before key r) eqn:E; cbn [map concat snd].
  - destruct (ends_all key r H1 E) as [_ HA]. rewrite (removed_none key r).
    + f_equal. apply IH; [exact H2|left; exact (Forall_inv_tail F)|exact L2].
    + intros Hi. apply in_map_iff in Hi. destruct Hi as (x & <- & Hx). rewrite Forall_forall in HA. specialize (HA x Hx). cbn beta in HA. rewrite ltb_irrefl in HA. discriminate.
  - rewrite (removed_none key (concat _)); [reflexivity|]. intros Hi. apply in_map_iff in Hi. destruct Hi as (x & Ex & Hx).
    destruct (not_ends key r H1 Fr L1 E) as (n & k & Hk & HK). specialize (H3 _ _ Hk Hx). cbn [snd] in H3. rewrite Ex in H3. destruct HK as [->|HK].
    + rewrite ltb_irrefl in H3. discriminate.
    + rewrite (ltb_asym _ _ HK) in H3. discriminate.
Qed.
