(** Proofs about a run of the program: files, messages, options, commands. *)
From Verif Require Import Prelude Lists Text_Spec Codec_Model App_Model App_Spec App_Proofs Obj_Model Lost_Proofs Run_Model Run_Spec.
Ltac Zify.zify_post_hook ::= idtac.

(** ** Paths *)
Lemma beqs_spec : forall a b, beqs a b = true <-> a = b.
Proof.
  induction a as [|x a IH]; intros [|y b]; cbn [beqs]; try easy.
  rewrite Bool.andb_true_iff, beq_spec, IH. split; [intros [-> ->]; reflexivity|]. intros E. injection E as -> ->. auto.
Qed.
Lemma beqs_refl a : beqs a a = true.
Proof. now apply beqs_spec. Qed.
Lemma starts_spec : forall a b, starts a b = true <-> within a b.
Proof.
  induction a as [|x a IH]; intros b; cbn [starts].
  - split; [|easy]. intros _. now exists b.
  - destruct b as [|y b]; [split; [easy|]; intros [t E]; discriminate|].
    rewrite Bool.andb_true_iff, beq_spec, IH. split.
    + intros [-> [t ->]]. now exists t.
    + intros [t E]. cbn [app] in E. injection E as -> ->. split; [reflexivity|]. now exists t.
Qed.
Lemma names_end : forall n cur, ~ In 47 n -> names n cur = [cur ++ n].
Proof.
  induction n as [|c n IH]; intros cur H; cbn [names]; [now rewrite app_nil_r|].
  destruct (Z.eqb_spec c 47) as [-> | N]; [exfalso; apply H; now left|]. rewrite IH by (intros Q; apply H; now right). now rewrite <- app_assoc.
Qed.
Lemma names_more : forall n t cur, ~ In 47 n -> names (n ++ 47 :: t) cur = (cur ++ n) :: names t [].
Proof.
  induction n as [|c n IH]; intros t cur H; cbn [names app].
  - change (47 =? 47) with true. cbn iota. now rewrite app_nil_r.
  - destruct (Z.eqb_spec c 47) as [-> | N]; [exfalso; apply H; now left|]. rewrite IH by (intros Q; apply H; now right). now rewrite <- app_assoc.
Qed.
Lemma kept_filter n k : kept n k -> filter (fun n => negb (bytes_eqb n []) && negb (bytes_eqb n [46])) [n] = k.
Proof.
  intros [[[-> | ->] ->] | [[A B] ->]]; [reflexivity|reflexivity|]. cbn [filter]. now rewrite !beq_neq by assumption.
Qed.
Lemma kept_ex n : exists k, kept n k.
Proof.
  destruct (list_eq_dec Z.eq_dec n []) as [-> | A]; [exists []; left; auto|].
  destruct (list_eq_dec Z.eq_dec n [46]) as [-> | B]; [exists []; left; auto|]. exists [n]. right. auto.
Qed.
Lemma names_comps s q : names_of s q -> comps s = q.
Proof.
  unfold comps. induction 1 as [n k A K|n k t p A K H IH].
  - rewrite names_end by exact A. cbn [app]. now apply kept_filter.
  - rewrite names_more by exact A. cbn [app]. rewrite <- (kept_filter _ _ K). cbn [filter]. destruct (negb (bytes_eqb n []) && negb (bytes_eqb n [46])); cbn [app]; now rewrite IH.
Qed.
Lemma names_ex : forall k s, (length s <= k)%nat -> exists q, names_of s q.
Proof.
  induction k as [|k IH]; intros s L.
  - destruct s; [|cbn [length] in L; lia]. exists []. apply n_one; [easy|]. left; auto.
  - destruct (in_dec Z.eq_dec 47 s) as [I | N].
    + apply in_split in I. destruct I as (a & b & E).
      assert (exists n t, s = n ++ 47 :: t /\ ~ In 47 n) as (n & t & -> & A).
      { clear -E. revert s E. induction a as [|x a IHa]; intros s ->.
        - exists [], b. split; [reflexivity|easy].
        - cbn [app]. destruct (Z.eq_dec x 47) as [-> | N]; [exists [], (a ++ 47 :: b); split; [reflexivity|easy]|].
          destruct (IHa _ eq_refl) as (n & t & E & A). exists (x :: n), t. rewrite E. split; [reflexivity|]. intros [Q | Q]; [congruence|tauto]. }
      rewrite app_length in L. cbn [length] in L. destruct (IH t) as [q Q]; [lia|]. destruct (kept_ex n) as [kk K]. eexists. now apply n_more; [| exact K |exact Q].
    + destruct (kept_ex s) as [q K]. exists q. now apply n_one.
Qed.
Lemma place_full cwd s p : place cwd s p <-> p = full_path cwd s.
Proof.
  split.
  - intros (q & N & C). apply names_comps in N. unfold full_path. destruct s as [|c s]; cbn [hd] in C.
    + destruct C as [[C _] | [_ ->]]; [discriminate|]. now rewrite N.
    + destruct C as [[-> ->] | [A ->]]; [now rewrite N|]. rewrite N. clear N. destruct c as [|c|c]; try reflexivity.
      do 6 (destruct c as [c|c|]; try reflexivity). congruence.
  - intros ->. destruct (names_ex (length s) s) as [q N]; [lia|]. exists q. split; [exact N|]. apply names_comps in N. unfold full_path.
    destruct (Z.eq_dec (hd 0 s) 47) as [E | E].
    + left. split; [exact E|]. destruct s as [|c s]; cbn [hd] in E; [discriminate|]. subst c. exact N.
    + right. split; [exact E|]. rewrite N. destruct s as [|c s]; cbn [hd] in E; [reflexivity|]. destruct c as [|c|c]; try reflexivity.
      do 6 (destruct c as [c|c|]; try reflexivity). congruence.
Qed.

(** ** Entries *)
Lemma look_in d p x : disk_ok d -> (look d p = Some x <-> In (p, x) d).
Proof.
  unfold look, disk_ok. induction d as [|[q y] d IH]; intros ND; cbn [find fst]; [easy|]. cbn [map fst] in ND. inversion ND as [|? ? N1 N2]; subst.
  destruct (beqs q p) eqn:E.
  - apply beqs_spec in E. subst q. cbn [option_map snd]. split; [intros Q; injection Q as ->; now left|]. intros [Q | Q]; [congruence|]. exfalso. apply N1. apply in_map_iff. now exists (p, x).
  - rewrite IH by assumption. split; [now right|]. intros [Q | Q]; [|exact Q]. injection Q as -> ->. now rewrite beqs_refl in E.
Qed.
Lemma look_none d p : look d p = None <-> absent d p.
Proof.
  unfold look, absent. induction d as [|[q y] d IH]; cbn [find fst]; [split; [intros _ x Q; exact Q|reflexivity]|].
  destruct (beqs q p) eqn:E.
  - apply beqs_spec in E. subst q. cbn [option_map]. split; [discriminate|]. intros Q. exfalso. apply (Q y). now left.
  - rewrite IH. split; intros Q x; [intros [R | R]; [injection R as -> ->; now rewrite beqs_refl in E|now apply (Q x)]|]. intros R. apply (Q x). now right.
Qed.
Lemma rem_in d p q x : In (q, x) (remove_all d p) <-> In (q, x) d /\ ~ within p q.
Proof.
  unfold remove_all. rewrite filter_In. cbn [fst]. rewrite Bool.negb_true_iff, <- starts_spec. now rewrite Bool.not_true_iff_false.
Qed.
Lemma filter_nodup {A B} (f : A -> B) g : forall l, NoDup (map f l) -> NoDup (map f (filter g l)).
Proof.
  induction l as [|x l IH]; intros H; cbn [filter map]; [constructor|]. cbn [map] in H. inversion H; subst. destruct (g x); [|auto]. cbn [map]. constructor; [|auto].
  intros Q. apply H2. apply in_map_iff in Q. destruct Q as (y & E & Q). apply filter_In in Q. apply in_map_iff. exists y. tauto.
Qed.
Lemma rem_ok d p : disk_ok d -> disk_ok (remove_all d p).
Proof. apply filter_nodup. Qed.

(** writing at the end of a file *)
Definition log_at (d : fs) (p : path) (t : list Z) : Prop := In (p, Some t) d \/ t = [] /\ absent d p.
Lemma append_map (d : fs) f : (forall e, fst (f e) = fst e) -> disk_ok d -> disk_ok (map f d).
Proof. intros E H. unfold disk_ok in *. rewrite map_map. erewrite map_ext; [exact H|]. intros e. apply E. Qed.
Lemma append_ok d q n t x : let p := q ++ [n] in disk_ok d -> In (q, None) d -> log_at d p t ->
  disk_ok (append d p x) /\ In (p, Some (t ++ x)) (append d p x) /\ forall r y, r <> p -> (In (r, y) (append d p x) <-> In (r, y) d).
Proof.
  intros p OK PQ L. unfold append. destruct L as [L | [-> L]].
  - rewrite (proj2 (look_in d p (Some t) OK) L). split.
    { apply append_map; [intros e; now destruct (beqs (fst e) p)|exact OK]. }
    split.
    + apply in_map_iff. exists (p, Some t). cbn [fst snd option_map]. now rewrite beqs_refl.
    + intros r y N. rewrite in_map_iff. split.
      * intros ([a b] & E & Q). cbn [fst snd] in E. destruct (beqs a p) eqn:B; [|injection E as -> ->; exact Q].
        apply beqs_spec in B. subst a. injection E as E _. congruence.
      * intros Q. exists (r, y). cbn [fst snd]. destruct (beqs r p) eqn:B; [apply beqs_spec in B; congruence|]. auto.
  - rewrite (proj2 (look_none d p) L). assert (R : removelast p = q) by (unfold p; apply removelast_last). rewrite R, (proj2 (look_in d q None OK) PQ). split.
    { unfold disk_ok. cbn [map fst]. constructor; [|exact OK]. intros Q. apply in_map_iff in Q. destruct Q as ([a b] & E & Q). cbn [fst] in E. subst a. now apply (L b). }
    split; [now left|]. intros r y N. split; [intros [Q | Q]; [injection Q as Q _; congruence|exact Q]|now right].
Qed.

(** ** Messages *)
Lemma says_con m ts : m_log m = None -> says m ts = MS (m_fs m) (m_con m ++ ts) None (m_noverb m) (m_error m).
Proof.
  revert m. induction ts as [|t ts IH]; intros m L; cbn [says fold_left].
  - rewrite app_nil_r. destruct m. cbn in *. now rewrite L.
  - change (fold_left say ts (say m t)) with (says (say m t) ts). unfold say. rewrite L. rewrite IH by reflexivity. cbn [m_fs m_con m_noverb m_error]. now rewrite <- app_assoc.
Qed.
Lemma says_app m a b : says m (a ++ b) = says (says m a) b.
Proof. apply fold_left_app. Qed.
Lemma says_log q n : let p := q ++ [n] in forall ts m t, m_log m = Some p -> disk_ok (m_fs m) -> In (q, None) (m_fs m) -> log_at (m_fs m) p t ->
  m_con (says m ts) = m_con m /\ (In (p, Some t) (m_fs m) \/ ts <> [] -> In (p, Some (t ++ concat ts)) (m_fs (says m ts))) /\ (forall r y, r <> p -> (In (r, y) (m_fs (says m ts)) <-> In (r, y) (m_fs m))).
Proof.
  intros p. induction ts as [|x ts IH]; intros m t L OK PQ A.
  - cbn [says fold_left concat]. rewrite app_nil_r. split; [reflexivity|]. split; [intros [Q | Q]; [exact Q|congruence]|]. tauto.
  - change (says m (x :: ts)) with (says (say m x) ts). destruct (append_ok (m_fs m) q n t x OK PQ A) as (OK' & IN & EQ). fold p in OK', IN, EQ.
    assert (NQ : q <> p) by (unfold p; intros Q; apply (f_equal (@length _)) in Q; rewrite app_length in Q; cbn [length] in Q; lia).
    assert (F : m_fs (say m x) = append (m_fs m) p x) by (unfold say; now rewrite L).
    assert (L' : m_log (say m x) = Some p) by (unfold say; now rewrite L).
    assert (C : m_con (say m x) = m_con m) by (unfold say; now rewrite L).
    destruct (IH (say m x) (t ++ x)) as (I1 & I2 & I3); [exact L'|now rewrite F|rewrite F; now apply EQ|rewrite F; now left|].
    rewrite I1, C. split; [reflexivity|]. split; [cbn [concat]; rewrite app_assoc; intros _; apply I2; left; rewrite F; exact IN|]. intros r y N. rewrite I3 by exact N. rewrite F. now apply EQ.
Qed.

(** ** The first pass *)
Definition noted (cwd : path) (m : mess) (c : command) : mess :=
  if c_cmd c =? 1 then MS (m_fs m) (m_con m) (m_log m) true (m_error m) else if c_cmd c =? 14 then set_logfile cwd m (c_p1 c) else m.
Definition after (cwd : path) (cs : list command) (m : mess) : mess := fold_left (noted cwd) cs m.
Lemma has_cons c cs k : has (c :: cs) k <-> c_cmd c = k \/ has cs k.
Proof.
  unfold has. split.
  - intros (x & [-> | Q] & E); [now left|]. right. eauto.
  - intros [E | (x & Q & E)]; [exists c|exists x]; split; auto; [now left|now right].
Qed.
Lemma setting_skip c cs k a b : c_cmd c <> k -> setting cs k a b -> setting (c :: cs) k a b.
Proof.
  intros N [[H ->] | (x & y & r & -> & E & H & A)].
  - left. split; [|reflexivity]. rewrite has_cons. tauto.
  - right. exists (c :: x), y, r. auto.
Qed.
Lemma setting_take c cs k a b x : c_cmd c = k -> answer (c_p1 c) x -> setting cs k x b -> setting (c :: cs) k a b.
Proof.
  intros E A [[H ->] | (u & y & r & -> & E' & H & A')].
  - right. exists [], c, cs. auto.
  - right. exists (c :: u), y, r. auto.
Qed.
Lemma first_ok cwd : forall cs m o, ~ has cs 0 -> answers_ok cs ->
  exists o', first_pass cwd cs m o = Ok (after cwd cs m, o', false) /\ (o_shared o' = true <-> o_shared o = true \/ has cs 3) /\
    setting cs 5 (o_blob o) (o_blob o') /\ setting cs 6 (o_unpack o) (o_unpack o').
Proof.
  induction cs as [|c cs IH]; intros m o H A.
  - exists o. split; [reflexivity|]. split; [split; [auto|]; intros [Q | (x & [] & _)]; exact Q|]. split; left; (split; [|reflexivity]); intros (x & [] & _).
  - rewrite has_cons in H. assert (A' : answers_ok cs) by (inversion A; assumption). assert (AC : c_cmd c = 5 \/ c_cmd c = 6 -> exists cps, c_p1 c = utf8_of cps /\ Forall scalar cps /\ ~ In 0 cps) by (inversion A; assumption).
    assert (H' : ~ has cs 0) by tauto. cbn [first_pass after fold_left]. change (fold_left (noted cwd) cs) with (fun m => after cwd cs m). cbn beta. unfold noted at 1.
    destruct (Z.eqb_spec (c_cmd c) 0) as [E | _]; [tauto|].
    destruct (Z.eqb_spec (c_cmd c) 1) as [E1 | N1].
    { destruct (IH (MS (m_fs m) (m_con m) (m_log m) true (m_error m)) o H' A') as (o' & P1 & P2 & P3 & P4). exists o'. rewrite P1. split; [reflexivity|]. rewrite has_cons. split; [rewrite P2; lia || (split; [tauto|intros [Q | [Q | Q]]; [now left|congruence|now right]])|]. split; apply setting_skip; auto; congruence. }
    destruct (Z.eqb_spec (c_cmd c) 14) as [E14 | N14].
    { destruct (IH (set_logfile cwd m (c_p1 c)) o H' A') as (o' & P1 & P2 & P3 & P4). exists o'. rewrite P1. split; [reflexivity|]. rewrite has_cons. split; [rewrite P2; split; [tauto|intros [Q | [Q | Q]]; [now left|congruence|now right]]|]. split; apply setting_skip; auto; congruence. }
    destruct (Z.eqb_spec (c_cmd c) 3) as [E3 | N3].
    { destruct (IH m (OP true (o_blob o) (o_unpack o)) H' A') as (o' & P1 & P2 & P3 & P4). exists o'. rewrite P1. split; [reflexivity|]. rewrite has_cons. cbn [o_shared o_blob o_unpack] in *. split; [rewrite P2; tauto|]. split; apply setting_skip; auto; congruence. }
    destruct (Z.eqb_spec (c_cmd c) 5) as [E5 | N5].
    { destruct (AC (or_introl E5)) as (cps & EC & SC & NC). destruct (true_string cps SC NC) as (b & EB & B). rewrite <- EC in EB. rewrite EB. cbn [rbind].
      destruct (IH m (OP (o_shared o) b (o_unpack o)) H' A') as (o' & P1 & P2 & P3 & P4). exists o'. rewrite P1. split; [reflexivity|]. rewrite has_cons. cbn [o_shared o_blob o_unpack] in *.
      split; [rewrite P2; split; [tauto|intros [Q | [Q | Q]]; [now left|congruence|now right]]|].
      split; [apply (setting_take _ _ _ _ _ b); [assumption|exists cps; auto|assumption]|apply setting_skip; auto; congruence]. }
    destruct (Z.eqb_spec (c_cmd c) 6) as [E6 | N6].
    { destruct (AC (or_intror E6)) as (cps & EC & SC & NC). destruct (true_string cps SC NC) as (b & EB & B). rewrite <- EC in EB. rewrite EB. cbn [rbind].
      destruct (IH m (OP (o_shared o) (o_blob o) b) H' A') as (o' & P1 & P2 & P3 & P4). exists o'. rewrite P1. split; [reflexivity|]. rewrite has_cons. cbn [o_shared o_blob o_unpack] in *.
      split; [rewrite P2; split; [tauto|intros [Q | [Q | Q]]; [now left|congruence|now right]]|].
      split; [apply setting_skip; auto; congruence|apply (setting_take _ _ _ _ _ b); [assumption|exists cps; auto|assumption]]. }
    destruct (IH m o H' A') as (o' & P1 & P2 & P3 & P4). exists o'. rewrite P1. split; [reflexivity|]. rewrite has_cons. split; [rewrite P2; split; [tauto|intros [Q | [Q | Q]]; [now left|congruence|now right]]|]. split; apply setting_skip; auto; congruence.
Qed.
