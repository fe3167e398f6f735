(** Changes in one leaf of the tree. *)
From Verif Require Import Prelude Lists Leaf_Model Leaf_Spec Leaf_Proofs Leaf_Walk Leaf_More Idx_Model Idx_Spec Idx_Order Idx_Proofs.
Ltac Zify.zify_post_hook ::= idtac.

Section tree.
Variable x : ix.
Notation ps := (x_ps x).
Notation len := (x_len x).
Notation mul := (x_mul x).
Hypothesis Hlen : 0 < len < 2^15.
Hypothesis Hps : 30 < ps <= 2^16.

Notation st f := (stored (get f) ps len mul).
Notation ky f := (keyed f len).
Lemma all_kids (P : tree -> Prop) kids : (fix all l := match l with [] => True | t :: r => P t /\ all r end) kids <-> Forall P kids.
Proof.
  induction kids as [|t kids IH]; [split; [constructor|trivial]|]. split; intros H.
  - destruct H as [H1 H2]. constructor; [exact H1|now apply IH].
  - split; [exact (Forall_inv H)|apply IH; exact (Forall_inv_tail H)].
Qed.
Lemma apart o o' : o mod ps = 0 -> o' mod ps = 0 -> o <> o' -> o + ps <= o' \/ o' + ps <= o.
Proof.
  intros H1 H2 N. apply Z.mod_divide in H1; [|lia]. apply Z.mod_divide in H2; [|lia]. destruct H1 as [a ->], H2 as [b ->]. assert (a <> b) by congruence.
  destruct (Z.lt_trichotomy a b) as [L|[L|L]]; [left|contradiction|right]; nia.
Qed.

(** the parts of a tree that one file shares with another *)
Definition same_page (f f' : list Z) (o : Z) := forall c n, 0 <= c -> 0 <= n -> c + n <= ps -> get f' (o + c) n = get f (o + c) n.
Lemma same_whole f f' o : same_page f f' o -> get f' o ps = get f o ps.
Proof. intros H. specialize (H 0 ps ltac:(lia) ltac:(lia) ltac:(lia)). now rewrite !Z.add_0_r in H. Qed.
Lemma frame_tree f f' t : (forall o, In o (t_pages t) -> same_page f f' o) -> st f t -> ky f t -> st f' t /\ ky f' t.
Proof.
  induction t as [o r|o kids IH] using tree_nested; intros HF HS HK; cbn [t_pages] in HF.
  - split; [|exact I]. cbn [stored] in *. destruct HS as (p & [HP HP'] & HS). exists p. split; [|exact HS]. split; [|exact HP'].
    rewrite (same_whole f f'); [exact HP|apply HF; now left].
  - cbn [stored keyed] in *. destruct HS as (p & [HP HP'] & H1 & H2 & H3 & H4 & H5 & H6). destruct HK as [K1 K2].
    apply all_kids in H6. apply all_kids in K2.
    assert (HA : Forall (st f') kids /\ Forall (ky f') kids).
    { assert (HF' : forall t, In t kids -> forall o, In o (t_pages t) -> same_page f f' o) by (intros t Ht o' Ho; apply HF; right; apply in_flat_map; eauto).
      clear - IH H6 K2 HF'. induction kids as [|t kids IHk]; [split; constructor|].
      destruct (Forall_inv IH (HF' t (or_introl eq_refl)) (Forall_inv H6) (Forall_inv K2)) as [A1 A2].
      destruct (IHk (Forall_inv_tail IH) (Forall_inv_tail H6) (Forall_inv_tail K2)) as [B1 B2]; [intros t' Ht'; apply HF'; now right|]. split; constructor; assumption. }
    destruct HA as [HA1 HA2]. assert (HO : same_page f f' o) by (apply HF; now left). split.
    + exists p. split; [split; [rewrite (same_whole f f' o HO); exact HP|exact HP']|]. repeat apply conj; try assumption; try apply H2. now apply all_kids.
    + split; [|now apply all_kids]. intros i t Hi. destruct (K1 i t Hi) as (num & key & E1 & E2 & E3). exists num, key. split; [exact E1|].
      assert (Hil : Z.of_nat i < zlen kids) by (assert (nth_error kids i <> None) as HN by congruence; apply nth_error_Some in HN; unfold zlen; lia).
      rewrite <- E2, <- E3. split; [rewrite <- !Z.add_assoc; apply HO; nia|]. rewrite <- !Z.add_assoc. apply HO; nia.
Qed.

(** what holds of a part of an index *)
Record tok (f : list Z) (t : tree) : Prop := {
  k_stored : st f t; k_keyed : ky f t; k_nd : NoDup (t_pages t);
  k_pg : forall o, In o (t_pages t) -> 0 <= o /\ o mod ps = 0 /\ o + ps <= zlen f }.
(** what a change inside one part does *)
Record step (f f' : list Z) (t t' : tree) : Prop := {
  s_bytes : bytes_ok f'; s_len : zlen f' = zlen f; s_off : t_off t' = t_off t; s_pages : t_pages t' = t_pages t; s_height : height t' = height t;
  s_stored : st f' t'; s_keyed : ky f' t';
  s_frame : forall off n, 0 <= n -> (forall o, In o (t_pages t) -> off + n <= o \/ o + ps <= off) -> get f' off n = get f off n;
  s_links : forall o, In o (map fst (t_leaves t)) -> get f' (o + 4) 8 = get f (o + 4) 8 }.
Lemma nodup_app {A} (a b : list A) : NoDup (a ++ b) -> NoDup a /\ NoDup b /\ (forall y, In y a -> ~ In y b).
Proof.
  induction a as [|z a IH]; cbn [app]; intros H; [split; [constructor|split; [exact H|intros y []]]|]. inversion H as [|? ? H1 H2]; subst. destruct (IH H2) as (A1 & A2 & A3).
  split; [constructor; [intros Hi; apply H1, in_or_app; now left|exact A1]|]. split; [exact A2|]. intros y [->|Hy]; [intros Hi; apply H1, in_or_app; now right|now apply A3].
Qed.
Lemma tok_kid f o a k b : tok f (Node o (a ++ k :: b)) -> tok f k.
Proof.
  intros [H1 H2 H3 H4]. cbn [stored keyed t_pages] in *. destruct H1 as (_ & _ & _ & _ & _ & _ & _ & H1). destruct H2 as [_ H2]. apply all_kids in H1. apply all_kids in H2.
  apply Forall_app in H1. destruct H1 as [_ H1]. apply Forall_app in H2. destruct H2 as [_ H2]. constructor; [exact (Forall_inv H1)|exact (Forall_inv H2)| |].
  - inversion H3 as [|? ? _ H3']; subst. rewrite flat_map_app in H3'. apply nodup_app in H3'. destruct H3' as (_ & H3' & _). cbn [flat_map] in H3'. apply nodup_app in H3'. apply H3'.
  - intros o' Ho. apply H4. right. rewrite flat_map_app. apply in_or_app. right. cbn [flat_map]. apply in_or_app. now left.
Qed.
Lemma kid_nth {A} (a : list A) k k' b i t : nth_error (a ++ k' :: b) i = Some t -> (i = length a /\ t = k') \/ (i <> length a /\ nth_error (a ++ k :: b) i = Some t /\ (In t a \/ In t b)).
Proof.
  intros H. destruct (Nat.lt_trichotomy i (length a)) as [L|[L|L]].
  - right. rewrite nth_error_app1 in H by exact L. split; [lia|]. split; [now rewrite nth_error_app1 by exact L|left; eapply nth_error_In; eassumption].
  - left. subst i. rewrite nth_error_app2, Nat.sub_diag in H by lia. cbn in H. injection H as <-. auto.
  - right. rewrite nth_error_app2 in H by lia. split; [lia|]. rewrite nth_error_app2 by lia. destruct (i - length a)%nat as [|j] eqn:E; [lia|]. cbn [nth_error] in *. split; [exact H|right; eapply nth_error_In; eassumption].
Qed.

Lemma node_step f f1 f2 o a k k' b page page2 num key :
  bytes_ok f -> tok f (Node o (a ++ k :: b)) -> step f f1 k k' -> get f o ps = Ok page ->
  (f2 = put f1 o page2 \/ (f2 = f1 /\ page2 = page)) -> zlen page2 = ps -> bytes_ok page2 ->
  let at_ := 12 + zlen a * (len + 8) in
  (forall c n, (Z.of_nat (c + n) <= at_ \/ at_ + len + 4 <= Z.of_nat c) -> sub page2 c n = sub page c n) ->
  last (map Some (t_recs k')) None = Some (num, key) -> sub page2 (Z.to_nat at_) (Z.to_nat len) = key -> sub page2 (Z.to_nat (at_ + len)) 4 = be4 num ->
  step f f2 (Node o (a ++ k :: b)) (Node o (a ++ k' :: b)).
Proof.
  intros Hb HT [S1 S2 S3 S4 S5 S6 S7 S8 S9] HG Hf2 Z2 B2 at_ HP HL HK HN. destruct HT as [T1 T2 T3 T4].
  cbn [t_pages] in T3, T4. apply NoDup_cons_iff in T3. destruct T3 as [T3a T3b]. rewrite flat_map_app in T3a, T3b, T4. cbn [flat_map] in T3a, T3b, T4.
  apply nodup_app in T3b. destruct T3b as (_ & T3b & T3c). apply nodup_app in T3b. destruct T3b as (_ & _ & T3d).
  destruct (T4 o (or_introl eq_refl)) as (O1' & O2' & O3').
  assert (HPK : forall q, In q (t_pages k) -> 0 <= q /\ q mod ps = 0 /\ q + ps <= zlen f) by (intros q Hq; apply T4; right; apply in_or_app; right; apply in_or_app; now left).
  assert (Hok : ~ In o (t_pages k)) by (intros Hi; apply T3a, in_or_app; right; apply in_or_app; now left).
  (* pages that are not in the child *)
  assert (Hout1 : forall q, 0 <= q -> q mod ps = 0 -> ~ In q (t_pages k) -> same_page f f1 q).
  { intros q Hq0 Hq Hn c n Hc Hn0 Hcn. apply S8; [exact Hn0|]. intros q' Hq'. destruct (HPK q' Hq') as (_ & Hm & _).
    destruct (apart q q' Hq Hm) as [L|L]; [intros ->; contradiction|left; lia|right; lia]. }
  assert (HG1 : get f1 o ps = Ok page) by (rewrite (same_whole f f1 o); [exact HG|now apply Hout1]).
  assert (L2 : zlen f2 = zlen f) by (destruct Hf2 as [-> | [-> _]]; [rewrite put_len by lia; exact S2|exact S2]).
  assert (HG2 : get f2 o ps = Ok page2) by (destruct Hf2 as [-> | [-> ->]]; [rewrite <- Z2; apply get_put_page; lia|exact HG1]).
  assert (B : bytes_ok f2) by (destruct Hf2 as [-> | [-> _]]; [now apply put_bytes|exact S1]).
  assert (Hout2 : forall off n, 0 <= n -> off + n <= o \/ o + ps <= off -> get f2 off n = get f1 off n).
  { intros off n Hn HD. destruct Hf2 as [-> | [-> _]]; [|reflexivity]. apply get_put_other; rewrite ?Z2; try lia. }
  assert (Hout2p : forall q, q mod ps = 0 -> q <> o -> same_page f1 f2 q).
  { intros q Hq Hqo c n Hc Hn Hcn. apply Hout2; [exact Hn|]. destruct (apart q o Hq O2' Hqo); [left; lia|right; lia]. }
  (* the other children *)
  cbn [stored keyed] in T1, T2. destruct T1 as (p & [P1 P2] & P3 & P4 & P5 & P6 & P7 & P8). assert (p = page) by congruence. subst p. destruct T2 as [K1 K2].
  apply all_kids in P8. apply all_kids in K2.
  assert (HOld : forall t, In t a \/ In t b -> st f2 t /\ ky f2 t).
  { intros t Ht. rewrite Forall_forall in P8, K2. assert (Hin : In t (a ++ k :: b)) by (apply in_or_app; destruct Ht; [now left|right; now right]).
    apply (frame_tree f f2 t); [|now apply P8|now apply K2]. intros q Hq.
    assert (Hqp : In q (flat_map t_pages a) \/ In q (flat_map t_pages b)) by (destruct Ht; [left|right]; apply in_flat_map; eauto).
    assert (Hq4 : 0 <= q /\ q mod ps = 0 /\ q + ps <= zlen f) by (apply T4; right; apply in_or_app; destruct Hqp; [now left|right; apply in_or_app; now right]).
    assert (Hqo : q <> o) by (intros ->; apply T3a, in_or_app; destruct Hqp; [now left|right; apply in_or_app; now right]).
    assert (Hqk : ~ In q (t_pages k)) by (intros Hi; destruct Hqp as [Hqa|Hqb]; [apply (T3c q Hqa), in_or_app; now left|now apply (T3d q Hi)]).
    intros c n Hc Hn Hcn. rewrite (Hout2p q); try tauto. apply Hout1; tauto. }
  assert (HNew : st f2 k' /\ ky f2 k').
  { apply (frame_tree f1 f2 k'); [|exact S6|exact S7]. intros q Hq. rewrite S4 in Hq. apply Hout2p; [now apply HPK|]. intros ->. contradiction. }
  assert (HLk : zlen (a ++ k' :: b) = zlen (a ++ k :: b)) by (rewrite !zlen_app, !zlen_cons; reflexivity).
  assert (Hin' : forall t, In t (a ++ k' :: b) -> t = k' \/ (In t a \/ In t b)) by (intros t Ht; apply in_app_or in Ht; destruct Ht as [Ht|[Ht|Ht]]; auto).
  pose proof (zlen_nonneg a) as Ha0. pose proof (zlen_nonneg b) as Hb0. rewrite zlen_app, zlen_cons in P6.
  assert (MM : forall u v, u < v -> (len + 8) * u + (len + 8) <= (len + 8) * v) by (intros u v Huv; nia).
  assert (MP : forall u, 0 <= u -> 0 <= (len + 8) * u) by (intros u Hu; nia).
  assert (Hat : 12 <= at_ /\ at_ + len + 8 <= ps) by (pose proof (MM (zlen a) (zlen a + (1 + zlen b)) ltac:(lia)); pose proof (MP (zlen a) Ha0); unfold at_; lia).
  constructor.
  - exact B.
  - exact L2.
  - reflexivity.
  - cbn [t_pages]. rewrite !flat_map_app. cbn [flat_map]. now rewrite S4.
  - cbn [height]. rewrite !map_app. cbn [map]. now rewrite S5.
  - cbn [stored]. exists page2. split; [split; [exact HG2|split; [exact Z2|exact B2]]|].
    assert (HH : sub page2 0 2 = sub page 0 2 /\ sub page2 2 2 = sub page 2 2) by (split; apply HP; left; lia).
    destruct HH as [HH1 HH2]. split; [|split; [|split; [|split; [|split]]]].
    + rewrite <- flag_low by (try exact B2; unfold zlen in *; lia). unfold hd_field. rewrite HH1. fold (hd_field page 0 2).
      rewrite flag_low; [exact P3|apply P2|destruct P2 as [P2 _]; unfold zlen in *; lia].
    + unfold hd_field. rewrite HH2. exact P4.
    + unfold hd_field. rewrite HH2, HLk. exact P5.
    + rewrite HLk, zlen_app, zlen_cons. exact P6.
    + intros i t Hi. assert (Hil : Z.of_nat i < zlen (a ++ k' :: b)) by (assert (nth_error (a ++ k' :: b) i <> None) as HN0 by congruence; apply nth_error_Some in HN0; unfold zlen; lia).
      rewrite HP.
      * destruct (kid_nth a k k' b i t Hi) as [[-> ->]|(_ & Hi' & _)]; [|now apply P7]. rewrite S3. apply P7. rewrite nth_error_app2, Nat.sub_diag by lia. reflexivity.
      * pose proof (MP (Z.of_nat i) ltac:(lia)). unfold at_. destruct (Z.lt_trichotomy (Z.of_nat i) (zlen a)) as [L|[L|L]]; [left; pose proof (MM _ _ L); lia|right; rewrite L; lia|right; pose proof (MM _ _ L); lia].
    + apply all_kids. apply Forall_forall. intros t Ht. destruct (Hin' t Ht) as [-> | Ht']; [apply HNew|now apply HOld].
  - cbn [keyed]. split; [|apply all_kids; apply Forall_forall; intros t Ht; destruct (Hin' t Ht) as [-> | Ht']; [apply HNew|now apply HOld]].
    intros i t Hi. assert (Hil : Z.of_nat i < zlen (a ++ k' :: b)) by (assert (nth_error (a ++ k' :: b) i <> None) as HN0 by congruence; apply nth_error_Some in HN0; unfold zlen; lia).
    rewrite HLk, zlen_app, zlen_cons in Hil. rewrite <- !Z.add_assoc.
    pose proof (MP (Z.of_nat i) ltac:(lia)) as Hi0. pose proof (MM _ _ Hil) as Hi1.
    rewrite !(get_part f2 o ps page2) by (try exact HG2; lia).
    destruct (kid_nth a k k' b i t Hi) as [[-> ->]|(Hne & Hi' & _)].
    + exists num, key. split; [exact HL|]. split; f_equal; [rewrite <- HK; f_equal; unfold at_, zlen; lia|]. change (Z.to_nat 4) with 4%nat.
      unfold be4 in HN. rewrite <- HN. f_equal. unfold at_, zlen. lia.
    + destruct (K1 i t Hi') as (n0 & k0 & E1 & E2 & E3). exists n0, k0. split; [exact E1|]. 
      rewrite <- !Z.add_assoc in E2. rewrite <- !Z.add_assoc in E3.
      rewrite (get_part f o ps page) in E2 by (try exact HG; lia). rewrite (get_part f o ps page) in E3 by (try exact HG; lia).
      split; [rewrite <- E2|rewrite <- E3]; f_equal; apply HP; unfold at_; destruct (Z.lt_trichotomy (Z.of_nat i) (zlen a)) as [L|[L|L]]; try (exfalso; unfold zlen in L; lia); pose proof (MM _ _ L); [left|right|left|right]; lia.
  - intros off n Hn HD. cbn [t_pages] in HD. rewrite flat_map_app in HD. cbn [flat_map] in HD. rewrite Hout2; [|exact Hn|apply HD; now left]. apply S8; [exact Hn|]. intros q Hq. apply HD. right. apply in_or_app. right. apply in_or_app. now left.
  - intros q Hq. cbn [t_leaves] in Hq. rewrite flat_map_app in Hq. cbn [flat_map] in Hq. rewrite !map_app in Hq.
    assert (HLP : forall t y, In y (map fst (t_leaves t)) -> In y (t_pages t)).
    { clear. induction t as [o r|o kids IH] using tree_nested; intros y Hy; [exact Hy|]. cbn [t_leaves t_pages] in *. right. apply in_map_iff in Hy. destruct Hy as (l & <- & Hl).
      apply in_flat_map in Hl. destruct Hl as (t & Ht & Hl). apply in_flat_map. exists t. split; [exact Ht|]. rewrite Forall_forall in IH. apply IH; [exact Ht|now apply in_map]. }
    assert (HLF : forall ts y, In y (map fst (flat_map t_leaves ts)) -> In y (flat_map t_pages ts)).
    { intros ts y Hy. apply in_map_iff in Hy. destruct Hy as (l & <- & Hl). apply in_flat_map in Hl. destruct Hl as (t & Ht & Hl). apply in_flat_map. exists t. split; [exact Ht|]. apply HLP. now apply in_map. }
    assert (Hqp : In q (flat_map t_pages a ++ t_pages k ++ flat_map t_pages b)) by (apply in_app_or in Hq; apply in_or_app; destruct Hq as [Hq|Hq]; [left; now apply HLF|right; apply in_app_or in Hq; apply in_or_app; destruct Hq as [Hq|Hq]; [left; now apply HLP|right; now apply HLF]]).
    assert (Hqo : q <> o) by (intros ->; contradiction). destruct (T4 q (or_intror Hqp)) as (Q1 & Q2 & Q3).
    rewrite (Hout2p q Q2 Hqo 4 8) by lia.
    apply in_app_or in Hq. destruct Hq as [Hq|Hq]; [|apply in_app_or in Hq; destruct Hq as [Hq|Hq]].
    + apply Hout1; try assumption; try lia. intros Hi. apply (T3c q); [now apply HLF|apply in_or_app; now left].
    + now apply S9.
    + apply Hout1; try assumption; try lia. intros Hi. apply (T3d q Hi). now apply HLF.
Qed.
End tree.
