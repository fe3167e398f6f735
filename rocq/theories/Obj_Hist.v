(** Histories of reads and writes through one open object. *)
From Verif Require Import Prelude Lists Obj_Model Obj_Spec Obj_Proofs Obj_Write Obj_More.
Ltac Zify.zify_post_hook ::= idtac.

Definition handle (f : fmt) (st : store) (o : obj) (n : Z) (len : nat) (tabs dp : list Z) : Prop :=
  opened f (set_cached o None) n len tabs dp /\ (o_data o = None \/ o_data o = Some (content st dp len)).

Lemma opened_handle f st o n len tabs dp : opened f o n len tabs dp -> handle f st o n len tabs dp.
Proof. intros H. split; [|left; apply H]. destruct H as (A & B & C). split; [exact A|]. split; [reflexivity|exact C]. Qed.
Lemma opened_none f o n len tabs dp : opened f (set_cached o None) n len tabs dp -> o_data o = None -> opened f o n len tabs dp.
Proof. intros (A & B & C) H. split; [exact A|]. split; [exact H|exact C]. Qed.

(** an unrelated object is untouched *)
Lemma other_stored ps f st st' n len tabs dp : stored ps f st n len tabs dp ->
  Forall (fun p => length p = ps) st' -> Forall bytes_ok st' ->
  (forall m, In m (pages_of n tabs dp) -> 0 <= m -> nth_error st' (Z.to_nat m) = nth_error st (Z.to_nat m)) ->
  stored ps f st' n len tabs dp /\ content st' dp len = content st dp len.
Proof.
  intros (Hst & Hby & H32 & Hm4 & H17 & Hdp & Hpg & h & Hh & Hf) Hst' Hby' Hsame.
  assert (Hp : forall m p, In m (pages_of n tabs dp) -> page_is st m p -> page_is st' m p).
  { intros m p Hm [Hr Hp]. split; [exact Hr|]. rewrite Hsame; [exact Hp|exact Hm|lia]. }
  assert (Hindp : forall b, In b dp -> In b (pages_of n tabs dp)) by (intros b Hb; right; apply in_or_app; now right).
  assert (Htb : forall per hdr cnt, tables st per hdr cnt tabs dp -> tables st' per hdr cnt tabs dp).
  { intros per hdr cnt [Hl Ht]. split; [exact Hl|]. intros j t Hj. destruct (Ht j t Hj) as (p & Hp' & Hx). exists p. split; [|exact Hx]. apply Hp; [|exact Hp'].
    right. apply in_or_app. left. eapply nth_error_In; eauto. }
  split.
  - split; [exact Hst'|]. split; [exact Hby'|]. split; [exact H32|]. split; [exact Hm4|]. split; [exact H17|]. split; [exact Hdp|]. split.
    { apply Forall_forall. intros b Hb. rewrite Forall_forall in Hpg. destruct (Hpg b Hb) as (p & Hx). exists p. apply Hp; [now apply Hindp|exact Hx]. }
    exists h. split; [apply Hp; [now left|exact Hh]|]. destruct f; try exact Hf.
    + destruct Hf as (A1 & A2 & A3 & A4 & A5 & A6 & A7). repeat (split; [assumption|]). now apply Htb.
    + destruct Hf as (A1 & A2 & A3 & A4 & A5 & A6 & A7). repeat (split; [assumption|]). now apply Htb.
  - unfold content, flat. f_equal. f_equal. apply map_ext_in. intros b Hb. rewrite Forall_forall in Hpg. destruct (Hpg b Hb) as (p & Hx).
    pose proof (Hp b p (Hindp b Hb) Hx) as [_ Hy]. destruct Hx as [_ Hx]. rewrite (nth_error_nth_Z _ _ _ _ Hx). now apply nth_error_nth_Z.
Qed.

Lemma exec_ok cached ps f st o n len tabs dp x : stored ps f st n len tabs dp -> NoDup (pages_of n tabs dp) -> handle f st o n len tabs dp -> in_range f ps len x ->
  exists st' o', exec cached ps (st, o) x = Ok ((st', o'), snd (plain (content st dp len) x)) /\
    content st' dp len = fst (plain (content st dp len) x) /\ stored ps f st' n len tabs dp /\ handle f st' o' n len tabs dp /\ length st' = length st /\
    (forall m, ~ In m dp -> m <> n -> 0 <= m -> nth_error st' (Z.to_nat m) = nth_error st (Z.to_nat m)).
Proof.
  intros Hs Hnd Hh Hin. pose proof (content_len _ _ _ _ _ _ _ Hs) as Hcl. destruct x as [start d|start m buf|junk]; cbn [exec plain fst snd in_range] in *.
  - destruct Hin as (Hnf & Hd & H0 & Hr). destruct Hh as [Hop Hda].
    destruct (overwrite_ok (fun _ _ _ => UB) cached ps f st n len tabs dp o start d Hs Hnd Hnf Hop Hd H0 Hr) as (st' & o' & E & Hs' & Hop' & Hfl & Hl & Hoth & _).
    exists st', o'. rewrite E. cbn [rbind]. split; [reflexivity|]. split.
    + unfold content. rewrite Hfl. apply firstn_splice; [exact Hr|].
      destruct Hs as (Hst & _ & H32 & _ & _ & Hdp & Hpg & _). rewrite (flat_len ps st Hst dp Hpg). pose proof (groups_spec len ps ltac:(lia)). rewrite <- Hdp in H. lia.
    + split; [exact Hs'|]. split; [now apply opened_handle|]. split; [exact Hl|exact Hoth].
  - destruct Hin as (H0 & Hr). destruct Hh as [Hop Hda].
    assert (E : get_range (Z.of_nat ps) st o (Z.of_nat start) (Z.of_nat m) buf = Ok (sub (content st dp len) start m)).
    { destruct Hda as [Hda|Hda]; [apply (range_ok ps f st n len tabs dp); try assumption; now apply opened_none|]. apply range_mem; [exact Hda|lia]. }
    exists st, o. rewrite E. cbn [rbind]. split; [reflexivity|]. split; [reflexivity|]. split; [exact Hs|]. split; [split; assumption|]. split; [reflexivity|]. reflexivity.
  - destruct Hh as [Hop Hda]. destruct (Nat.eq_dec len 0) as [H0|H0].
    + assert (Hz : o_len o = 0). { destruct Hop as (_ & _ & Hop). cbn [set_cached o_len] in Hop. destruct f; [destruct Hop as (_ & -> & _)|destruct Hop as (_ & _ & -> & _)|destruct Hop as (_ & _ & -> & _)|destruct Hop as (_ & Hx & _)]; lia. }
      assert (E : get_all (Z.of_nat ps) st o junk = Ok (o, None)) by (unfold get_all; rewrite Hz; reflexivity).
      exists st, o. rewrite E. cbn [rbind fst snd]. split; [f_equal; f_equal; rewrite H0; reflexivity|]. split; [reflexivity|]. split; [exact Hs|]. split; [split; assumption|]. split; reflexivity.
    + destruct Hda as [Hda|Hda].
      * destruct (all_ok ps f st n len tabs dp o junk Hs (opened_none _ _ _ _ _ _ Hop Hda) ltac:(lia)) as (d & E & Hd & _). rewrite (Hd Hin) in E.
        exists st, (set_cached o (Some (content st dp len))). rewrite E. cbn [rbind fst snd]. split; [reflexivity|]. split; [reflexivity|]. split; [exact Hs|].
        split; [split; [exact Hop|right; reflexivity]|]. split; reflexivity.
      * assert (Hz : o_len o <> 0). { destruct Hop as (_ & _ & Hop). cbn [set_cached o_len] in Hop. destruct f; [destruct Hop as (_ & -> & _)|destruct Hop as (_ & _ & -> & _)|destruct Hop as (_ & _ & -> & _)|destruct Hop as (_ & Hx & _)]; lia. }
        exists st, o. unfold get_all. destruct (Z.eqb_spec (o_len o) 0); [contradiction|]. rewrite Hda. cbn [rbind fst snd].
        split; [reflexivity|]. split; [reflexivity|]. split; [exact Hs|]. split; [split; [exact Hop|now right]|]. split; reflexivity.
Qed.

Lemma execs_ok ps f n len tabs dp xs : NoDup (pages_of n tabs dp) -> Forall (fun x => in_range f ps len (fst x)) xs -> forall st o,
  stored ps f st n len tabs dp -> handle f st o n len tabs dp ->
  exists st' o', execs ps (st, o) xs = Ok ((st', o'), snd (plains (content st dp len) xs)) /\
    content st' dp len = fst (plains (content st dp len) xs) /\ stored ps f st' n len tabs dp /\ handle f st' o' n len tabs dp /\ length st' = length st /\
    (forall m, ~ In m dp -> m <> n -> 0 <= m -> nth_error st' (Z.to_nat m) = nth_error st (Z.to_nat m)).
Proof.
  intros Hnd Hin. induction Hin as [|[x cached] xs Hx Hin IH]; intros st o Hs Hh.
  - exists st, o. cbn. split; [reflexivity|]. split; [reflexivity|]. split; [exact Hs|]. split; [exact Hh|]. split; reflexivity.
  - destruct (exec_ok cached ps f st o n len tabs dp x Hs Hnd Hh Hx) as (st1 & o1 & E1 & C1 & S1 & H1 & L1 & O1).
    destruct (IH st1 o1 S1 H1) as (st2 & o2 & E2 & C2 & S2 & H2 & L2 & O2).
    exists st2, o2. cbn [execs plains]. rewrite E1. cbn [rbind fst snd]. rewrite E2. cbn [rbind fst snd]. rewrite C1 in *.
    split; [reflexivity|]. split; [exact C2|]. split; [exact S2|]. split; [exact H2|]. split; [congruence|].
    intros m A B C. rewrite O2 by assumption. now apply O1.
Qed.

Lemma history_ok ps f st n len tabs dp xs : stored ps f st n len tabs dp -> NoDup (pages_of n tabs dp) -> Forall (fun x => in_range f ps len (fst x)) xs ->
  exists o st' o', obj_open (Z.of_nat ps) (is838 f) st n = Ok o /\ execs ps (st, o) xs = Ok ((st', o'), snd (plains (content st dp len) xs)) /\
    stored ps f st' n len tabs dp /\ content st' dp len = fst (plains (content st dp len) xs) /\
    (forall m, ~ In m dp -> m <> n -> 0 <= m -> nth_error st' (Z.to_nat m) = nth_error st (Z.to_nat m)) /\
    (forall f2 n2 len2 tabs2 dp2, stored ps f2 st n2 len2 tabs2 dp2 -> (forall m, In m (pages_of n2 tabs2 dp2) -> ~ In m (n :: dp)) ->
       stored ps f2 st' n2 len2 tabs2 dp2 /\ content st' dp2 len2 = content st dp2 len2).
Proof.
  intros Hs Hnd Hin. destruct (open_ok _ _ _ _ _ _ _ Hs) as (o & Eo & Hop).
  destruct (execs_ok ps f n len tabs dp xs Hnd Hin st o Hs (opened_handle _ _ _ _ _ _ _ Hop)) as (st' & o' & E & C & S & H & L & O).
  exists o, st', o'. split; [exact Eo|]. split; [exact E|]. split; [exact S|]. split; [exact C|]. split; [exact O|].
  intros f2 n2 len2 tabs2 dp2 Hs2 Hdis. apply (other_stored _ _ st); [exact Hs2|apply S|apply S|].
  intros m Hm Hm0. apply O; [|intros ->; apply (Hdis n Hm); now left|exact Hm0]. intros C'. apply (Hdis m Hm). now right.
Qed.
