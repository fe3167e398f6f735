(** Proofs for Fname_Props. *)
From Verif Require Import Prelude Fname_Model Fname_Spec.
Ltac Zify.zify_post_hook ::= idtac.

Section Fname.
Variables (same : list Z -> list Z -> bool) (pres : nat -> list Z -> list Z).
Notation join := (join pres).
Notation key_part := (key_part pres).
Notation name_of := (field_file_name same pres).

Lemma find_first : forall l i, (exists a b, l = a ++ [i] ++ b /\ Forall (fun j => fi_primary j = false) a) -> fi_primary i = true -> find fi_primary l = Some i.
Proof. intros l i (a & b & -> & F) P. induction F as [|j a Fj F IH]; cbn [app find]; [now rewrite P|now rewrite Fj]. Qed.
Lemma find_none : forall l, Forall (fun j => fi_primary j = false) l -> find fi_primary l = None.
Proof. induction 1 as [|j l Fj F IH]; [reflexivity|]. cbn [find]. now rewrite Fj. Qed.
Lemma key_of t i rec n : naming t i -> key_part t rec n = if negb (fi_primary i) && negb (n =? 0) then (join (fi_fields i) rec [] ++ [95]) ++ [n mod 256] else join (fi_fields i) rec [].
Proof.
  intros [(P & a & b & E & F)|(F & b & E)]; unfold Fname_Model.key_part.
  - rewrite (find_first (ft_indexes t) i) by (eauto || assumption). rewrite E. now destruct a.
  - rewrite (find_none _ F), E. reflexivity.
Qed.
Lemma one_ok t : one_file same t <-> negb (ft_system t) || negb (existsb (same (ft_name t)) config_names) = false.
Proof. unfold one_file, config_names. cbn [existsb]. destruct (ft_system t); cbn [negb orb]; [|split; [intros (X & _); discriminate|discriminate]]. rewrite !orb_false_r. destruct (same _ _), (same _ _), (same _ _), (same _ _); cbn [orb negb]; intuition congruence. Qed.
Lemma name_some t f rec n fn : ~ one_file same t -> nth_error (ft_fields t) f = Some fn -> name_of t f rec n = Ok (under (key_part t rec n) ++ fn).
Proof. intros O E. unfold field_file_name. cbv zeta. destruct (negb (ft_system t) || _) eqn:Q; [now rewrite E|]. elim O. now apply one_ok. Qed.

Lemma join_ext rec rec' ks : (forall k, In k ks -> pres k rec = pres k rec') -> forall s, join ks rec s = join ks rec' s.
Proof. induction ks as [|k ks IH]; intros H s; cbn [Fname_Model.join]; [reflexivity|]. rewrite (H k (or_introl eq_refl)). apply IH. intros; apply H; now right. Qed.

Theorem wrapped t i rec rec' f n m : naming t i -> fi_primary i = false -> (forall k, In k (fi_fields i) -> pres k rec = pres k rec') -> n <> 0 -> m <> 0 -> n mod 256 = m mod 256 ->
  name_of t f rec n = name_of t f rec' m.
Proof.
  intros N P H Hn Hm E. unfold field_file_name. rewrite !(key_of t i) by exact N. rewrite P. cbn [negb andb]. apply Z.eqb_neq in Hn, Hm. rewrite Hn, Hm. cbn [negb]. now rewrite (join_ext rec rec' _ H), E.
Qed.
Theorem no_index t rec rec' f n m : ft_indexes t = [] -> name_of t f rec n = name_of t f rec' m.
Proof. intros E. unfold field_file_name, Fname_Model.key_part. now rewrite E. Qed.
Theorem zero t i rec f n nm : naming t i -> fi_primary i = false -> n <> 0 -> n mod 256 = 0 -> name_of t f rec n = Ok nm -> exists p q, nm = p ++ [95; 0] ++ q.
Proof.
  intros N P Hn E. unfold field_file_name. cbv zeta. rewrite !(key_of t i) by exact N. rewrite P. apply Z.eqb_neq in Hn. rewrite Hn, E. cbn [negb andb].
  set (s := join _ _ _). destruct (negb (ft_system t) || _).
  - destruct (nth_error (ft_fields t) f) as [fn|]; [|discriminate]. intros [= <-]. unfold under. destruct ((s ++ [95]) ++ [0]) as [|c l] eqn:Q; [now destruct s|]. rewrite <- Q. exists s, ([95] ++ fn). now rewrite <- !app_assoc.
  - intros [= <-]. exists s, []. rewrite <- app_assoc. now rewrite app_nil_r.
Qed.
Theorem ambiguous t i rec rec' f n k1 k2 x y z : naming t i -> fi_fields i = [k1; k2] -> x <> [] ->
  pres k1 rec = x ++ [95] ++ y -> pres k2 rec = z -> pres k1 rec' = x -> pres k2 rec' = y ++ [95] ++ z -> name_of t f rec n = name_of t f rec' n.
Proof.
  intros N F X A B C D. unfold field_file_name. rewrite !(key_of t i) by exact N. rewrite F. cbn [Fname_Model.join under app]. rewrite A, B, C, D.
  assert (E : under (x ++ [95] ++ y) ++ z = under x ++ y ++ [95] ++ z).
  { destruct x as [|c x]; [congruence|]. cbn [under app]. now rewrite <- !app_assoc. }
  now rewrite E.
Qed.

Lemma under_inj s s' : under s = under s' -> s = s'.
Proof. destruct s, s'; cbn [under]; intros H; try reflexivity; [now apply app_cons_not_nil in H| |]; [symmetry in H; now apply app_cons_not_nil in H|]. now apply app_inj_tail in H. Qed.
Lemma cut_no a a' b b' : ~ In 95 a -> ~ In 95 a' -> a ++ 95 :: b = a' ++ 95 :: b' -> a = a' /\ b = b'.
Proof.
  revert a'. induction a as [|c a IH]; intros [|c' a'] H H' E; cbn [app] in E.
  - now injection E.
  - injection E as <- _. elim H'. now left.
  - injection E as -> _. elim H. now left.
  - injection E as -> E. destruct (IH a') as (-> & ->); [intros Q; apply H; now right|intros Q; apply H'; now right|exact E|auto].
Qed.
Fixpoint tail_of (ks : list nat) (rec : list Z) : list Z := match ks with [] => [] | k :: r => 95 :: pres k rec ++ tail_of r rec end.
Lemma join_tail rec ks : forall s, s <> [] -> join ks rec s = s ++ tail_of ks rec.
Proof.
  induction ks as [|k ks IH]; intros s Hs; cbn [Fname_Model.join tail_of]; [now rewrite app_nil_r|].
  rewrite IH by (destruct s; [congruence|]; cbn [under app]; discriminate). destruct s as [|c s]; [congruence|]. cbn [under]. now rewrite <- !app_assoc.
Qed.
Lemma tail_inj rec rec' ks : Forall (fun k => clear_value (pres k rec) /\ clear_value (pres k rec')) ks -> forall v v', ~ In 95 v -> ~ In 95 v' -> v ++ tail_of ks rec = v' ++ tail_of ks rec' ->
  v = v' /\ Forall (fun k => pres k rec = pres k rec') ks.
Proof.
  induction 1 as [|k ks ((_ & A) & (_ & B)) F IH]; intros v v' V V' E; cbn [tail_of] in E; [rewrite !app_nil_r in E; auto|].
  destruct (cut_no _ _ _ _ V V' E) as (-> & Q). destruct (IH _ _ A B Q) as (X & Y). auto.
Qed.
Lemma join_inj rec rec' ks : Forall (fun k => clear_value (pres k rec) /\ clear_value (pres k rec')) ks -> join ks rec [] = join ks rec' [] -> Forall (fun k => pres k rec = pres k rec') ks.
Proof.
  intros F. destruct ks as [|k ks]; [constructor|]. inversion F as [|? ? ((A1 & A2) & (B1 & B2)) F']; subst. cbn [Fname_Model.join under app]. rewrite !join_tail by assumption. intros E.
  destruct (tail_inj _ _ _ F' _ _ A2 B2 E). now constructor.
Qed.
Theorem own t i rec rec' f n m nm : naming t i -> Forall (fun k => clear_value (pres k rec) /\ clear_value (pres k rec')) (fi_fields i) ->
  (fi_primary i = true \/ 0 < n < 256 /\ 0 < m < 256) -> name_of t f rec n = Ok nm -> name_of t f rec' m = Ok nm ->
  Forall (fun k => pres k rec = pres k rec') (fi_fields i) /\ (fi_primary i = false -> n = m).
Proof.
  intros N F P E E'. assert (K : key_part t rec n = key_part t rec' m).
  { unfold field_file_name in E, E'. cbv zeta in E, E'. destruct (negb (ft_system t) || _); [|congruence]. destruct (nth_error (ft_fields t) f); [|discriminate].
    apply under_inj. eapply app_inv_tail. rewrite <- E' in E. injection E as E. exact E. }
  rewrite !(key_of t i) in K by exact N. destruct (fi_primary i); cbn [negb andb] in K.
  - split; [now apply join_inj|discriminate].
  - destruct P as [P|(Hn & Hm)]; [discriminate|]. destruct (Z.eqb_spec n 0); [lia|]. destruct (Z.eqb_spec m 0); [lia|]. cbn [negb] in K. apply app_inj_tail in K. destruct K as (K & Q). apply app_inj_tail in K.
    split; [now apply join_inj|]. intros _. rewrite !Z.mod_small in Q by lia. exact Q.
Qed.
Theorem fields_own t f g rec n fn gn nm : ~ one_file same t -> nth_error (ft_fields t) f = Some fn -> nth_error (ft_fields t) g = Some gn ->
  name_of t f rec n = Ok nm -> name_of t g rec n = Ok nm -> fn = gn.
Proof. intros O Ef Eg. rewrite (name_some _ _ _ _ fn), (name_some _ _ _ _ gn) by assumption. intros A B. rewrite <- B in A. injection A as A. now apply app_inv_head in A. Qed.
Theorem one_name t f g rec n : one_file same t -> name_of t f rec n = name_of t g rec n.
Proof. intros O. apply one_ok in O. unfold field_file_name. cbv zeta. now rewrite O. Qed.
End Fname.
