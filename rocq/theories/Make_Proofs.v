(** Proofs for Make_Props. *)
From Verif Require Import Prelude Lists Tree_Model Port_Model Descr_Model Descr_Spec Descr_Proofs Lost_Model Lost_Spec Lost_Tables Make_Model Make_Spec.
Ltac Zify.zify_post_hook ::= idtac.
Local Opaque le_bytes.

Section Make.
Variables (old : bool) (same : list Z -> list Z -> bool) (decode : list Z -> res (list Z)) (names : Z -> list Z) (pg : nat -> Z).

Lemma one_deleted lang a x b root : list_of old lang (a ++ x :: b) root -> good_list (a ++ x :: b) ->
  exists root', delete_table old false (a ++ x :: b) root x = Ok (a ++ b, root') /\ list_of old lang (a ++ b) root' /\ good_list (a ++ b).
Proof.
  intros (HL & pad & rest & HP & ->) (W & HN & ND). pose proof W as W0. apply Forall_app in W. destruct W as [Wa W]. inversion W as [|? ? Wx Wb]; subst.
  assert (N : ~ In x a) by (apply NoDup_remove_2 in ND; intros Q; apply ND, in_or_app; now left).
  destruct (del_ok old lang pad a x b rest HP Wa Wx N HN) as (rest' & E & Lr). eexists. split.
  - unfold delete_table, descr_page. unfold hd_len in E. rewrite E. cbn [rbind]. rewrite (drop_ok x a b N). reflexivity.
  - split; [split; [exact HL|]; exists pad, rest'; split; [exact HP|reflexivity]|]. split; [apply Forall_app; split; assumption|]. split; [|now apply NoDup_remove_1 in ND].
    unfold zlen in *. rewrite app_length in *. cbn [length] in HN. lia.
Qed.
Lemma list_read lang l root : list_of old lang l root -> good_list l -> root_tables old root = Ok (lang, l).
Proof. intros (HL & pad & rest & HP & ->) (W & HN & _). apply root_ok; assumption. Qed.
(** tables with other names stay, nothing is added *)
Lemma loop_keeps lang nm : forall n j l root, list_of old lang l root -> good_list l ->
  exists l' root', delete_named old false same names n j nm l root = Ok (l', root') /\ list_of old lang l' root' /\ good_list l' /\ incl l' l /\ forall y, In y l -> same (names y) nm = false -> In y l'.
Proof.
  induction n as [|n IH]; intros j l root H G; cbn [delete_named]; [exists l, root; split; [reflexivity|]; split; [exact H|]; split; [exact G|]; split; [apply incl_refl|auto]|].
  destruct (nth_error l j) as [x|] eqn:E; [|exists l, root; split; [reflexivity|]; split; [exact H|]; split; [exact G|]; split; [apply incl_refl|auto]].
  destruct (same (names x) nm) eqn:S1; [|apply IH; assumption]. destruct (nth_error_split _ _ E) as (a & b & -> & _).
  destruct (one_deleted lang a x b root H G) as (root' & -> & H' & G'). cbn [rbind fst snd]. destruct (IH (S j) (a ++ b) root' H' G') as (l' & r' & -> & A & B & C & D).
  exists l', r'. split; [reflexivity|]. split; [exact A|]. split; [exact B|]. split.
  - intros y Hy. apply C in Hy. apply in_app_or in Hy. apply in_or_app. destruct Hy; [now left|right; now right].
  - intros y Hy Sy. apply D; [|exact Sy]. apply in_app_or in Hy. apply in_or_app. destruct Hy as [Hy|[-> |Hy]]; [now left|congruence|now right].
Qed.
Lemma loop_none nm l root : Forall (fun y => same (names y) nm = false) l -> forall n j, delete_named old false same names n j nm l root = Ok (l, root).
Proof.
  intros F. induction n as [|n IH]; intros j; cbn [delete_named]; [reflexivity|]. destruct (nth_error l j) as [x|] eqn:E; [|reflexivity].
  rewrite Forall_forall in F. rewrite (F x (nth_error_In _ _ E)). apply IH.
Qed.
Lemma loop_one lang nm a x b root : list_of old lang (a ++ x :: b) root -> good_list (a ++ x :: b) -> same (names x) nm = true -> Forall (fun y => same (names y) nm = false) (a ++ b) ->
  exists root', delete_named old false same names (length (a ++ x :: b)) 0 nm (a ++ x :: b) root = Ok (a ++ b, root') /\ list_of old lang (a ++ b) root' /\ good_list (a ++ b).
Proof.
  intros H G S1 F. destruct (one_deleted lang a x b root H G) as (root' & E & H' & G'). exists root'. split; [|split; assumption].
  assert (K : forall m j n, (j + m = length a)%nat -> (m < n)%nat -> delete_named old false same names n j nm (a ++ x :: b) root = Ok (a ++ b, root')).
  { induction m as [|m IH]; intros j n Hj Hn; (destruct n as [|n]; [lia|]); cbn [delete_named].
    - rewrite nth_error_app2 by lia. replace (j - length a)%nat with 0%nat by lia. cbn [nth_error]. rewrite S1, E. cbn [rbind fst snd]. now apply loop_none.
    - destruct (nth_error a j) as [y|] eqn:Ey; [|apply nth_error_None in Ey; lia]. rewrite nth_error_app1 by lia. rewrite Ey.
      assert (Sy : same (names y) nm = false) by (apply Forall_app in F; destruct F as (F & _); rewrite Forall_forall in F; apply F; eapply nth_error_In, Ey). rewrite Sy. apply IH; lia. }
  apply (K (length a)); [lia|]. rewrite app_length. cbn [length]. lia.
Qed.

Lemma begins_name text nm : begins_with text nm -> name_in text = Ok nm.
Proof. intros (a & ka & b & kb & k & c & r & s & E). unfold name_in. rewrite E. reflexivity. Qed.
Lemma head_flag junk root i : whole_root root -> (i < 4)%nat -> flag (head_of junk root) i = true /\ brings root i \/ flag (head_of junk root) i = false /\ ~ brings root i.
Proof.
  intros (L & B) Hi. assert (E : nth_error (head_of junk root) i = nth_error root i).
  { unfold head_of. cbv zeta. rewrite nth_error_app1 by (rewrite firstn_length; lia). rewrite <- (firstn_skipn 36 root) at 2. rewrite nth_error_app1 by (rewrite firstn_length; lia). reflexivity. }
  unfold flag, brings. destruct (B i Hi) as [Q|Q]; rewrite Q in E |- *; rewrite (nth_error_nth _ _ 0 E); cbn [Z.eqb negb]; [right|left]; split; congruence.
Qed.
Lemma files_there junk root f : whole_root root -> (lacking (head_of junk root) f = false <-> has_files f root).
Proof.
  intros W. unfold lacking, has_files. destruct (head_flag junk root 0 W) as [(-> & B0)|(-> & B0)]; [lia| |]; (destruct (head_flag junk root 1 W) as [(-> & B1)|(-> & B1)]; [lia| |]; (destruct (head_flag junk root 2 W) as [(-> & B2)|(-> & B2)]; [lia| |]));
    destruct (m_data f), (m_blob f), (m_index f); cbn [andb orb]; split; try discriminate; try reflexivity; try (intros _; repeat split; intros; (discriminate || contradiction)); intros (P0 & P1 & P2); exfalso; intuition congruence.
Qed.
Lemma starts_app w s : starts w (w ++ s) = true.
Proof. induction w as [|c w IH]; [reflexivity|]. cbn [app starts]. now rewrite Z.eqb_refl, IH. Qed.
Lemma position_some w p q : exists i, position w (p ++ w ++ q) = Some i.
Proof.
  induction p as [|c p (i & IH)]; cbn [app].
  - destruct (w ++ q) as [|d r] eqn:E; cbn [position]; rewrite <- E, starts_app; eauto.
  - cbn [position]. destruct (starts w (c :: p ++ w ++ q)); [eauto|]. rewrite IH. eauto.
Qed.

Theorem created lang nm a x b tabs root f r d text junk : list_of old lang (a ++ x :: b) root -> good_list (a ++ x :: b) -> same (names x) nm = true -> Forall (fun y => same (names y) nm = false) (a ++ b) ->
  exported f r d -> has_files f r -> decode d = Ok text -> begins_with text nm -> tabs = a ++ x :: b ->
  exists root', create_table old false same decode names pg false junk (Some f) tabs root = Ok (a ++ b, root', Some true) /\ root_tables old root' = Ok (lang, a ++ b).
Proof.
  intros H G S1 F (Er & Ed & W) Hf D N ->. destruct (loop_one lang nm a x b root H G S1 F) as (root' & E & H' & G'). exists root'. split; [|now apply list_read].
  unfold create_table. rewrite Er, Ed, D. cbn [going]. rewrite (begins_name _ _ N). cbn [going]. rewrite E. cbn [rbind]. cbv zeta. rewrite (proj2 (files_there junk r f W) Hf).
  unfold describe. cbn [negb]. now destruct (negb (flag (head_of junk r) 3)).
Qed.
Theorem not_there nm l root f r d text junk : Forall (fun y => same (names y) nm = false) l ->
  exported f r d -> has_files f r -> decode d = Ok text -> begins_with text nm -> create_table old false same decode names pg false junk (Some f) l root = Ok (l, root, Some true).
Proof.
  intros F (Er & Ed & W) Hf D N. unfold create_table. rewrite Er, Ed, D. cbn [going]. rewrite (begins_name _ _ N). cbn [going]. rewrite loop_none by exact F. cbn [rbind]. cbv zeta. rewrite (proj2 (files_there junk r f W) Hf).
  unfold describe. cbn [negb]. now destruct (negb (flag (head_of junk r) 3)).
Qed.
Theorem failed lang nm a x b tabs root fopen f r d text junk : list_of old lang (a ++ x :: b) root -> good_list (a ++ x :: b) -> same (names x) nm = true -> Forall (fun y => same (names y) nm = false) (a ++ b) ->
  exported f r d -> ~ has_files f r -> decode d = Ok text -> begins_with text nm -> tabs = a ++ x :: b ->
  exists root', create_table old false same decode names pg fopen junk (Some f) tabs root = Ok (a ++ b, root', None) /\ root_tables old root' = Ok (lang, a ++ b).
Proof.
  intros H G S1 F (Er & Ed & W) Hf D N ->. destruct (loop_one lang nm a x b root H G S1 F) as (root' & E & H' & G'). exists root'. split; [|now apply list_read].
  unfold create_table. rewrite Er, Ed, D. cbn [going]. rewrite (begins_name _ _ N). cbn [going]. rewrite E. cbn [rbind]. cbv zeta.
  destruct (lacking (head_of junk r) f) eqn:L; [reflexivity|]. elim Hf. now apply (files_there junk r f W).
Qed.
Theorem described lang nm l root f r d text junk : list_of old lang l root -> good_list l ->
  exported f r d -> has_files f r -> brings r 3 -> decode d = Ok text -> begins_with text nm -> has_part text ->
  create_table old false same decode names pg true junk (Some f) l root = UB.
Proof.
  intros H G (Er & Ed & W) Hf B3 D N (p & q & Et). destruct (loop_keeps lang nm (length l) 0 l root H G) as (l' & root' & E & _).
  unfold create_table. rewrite Er, Ed, D. cbn [going]. rewrite (begins_name _ _ N). cbn [going]. rewrite E. cbn [rbind]. cbv zeta. rewrite (proj2 (files_there junk r f W) Hf).
  unfold describe. destruct (head_flag junk r 3 W) as [(-> & _)|(_ & X)]; [lia| |contradiction]. cbn [negb]. rewrite Et. destruct (position_some files_mark p q) as (i & Ei). unfold files_mark in Ei at 2. rewrite Ei. cbv zeta.
  match goal with |- (if ?c then _ else _) = _ => assert (Q : c = true) end; [|now rewrite Q]. apply Z.ltb_lt. unfold new_descr, zlen. rewrite !app_length. change (length files_mark) with 9%nat. lia.
Qed.
Theorem nothing_added lang l root fopen dir junk l' root' o : list_of old lang l root -> good_list l -> create_table old false same decode names pg fopen junk dir l root = Ok (l', root', o) ->
  root_tables old root' = Ok (lang, l') /\ incl l' l.
Proof.
  intros H G. assert (K' : forall o1 : option bool, Ok (l, root, o1) = Ok (l', root', o) -> root_tables old root' = Ok (lang, l') /\ incl l' l) by (intros o1 Q; injection Q as <- <- _; split; [now apply list_read|apply incl_refl]).
  unfold create_table. destruct dir as [f|]; [|apply K']. destruct (m_root f) as [r|]; [|apply K']. destruct (m_descr f) as [d|]; [|apply K'].
  unfold going. destruct (decode d) as [text| | |]; try discriminate; [|apply K']. destruct (name_in text) as [nm| | |]; try discriminate; [|apply K'].
  destruct (loop_keeps lang nm (length l) 0 l root H G) as (l1 & root1 & -> & H1 & G1 & I1 & _). cbn [rbind]. cbv zeta.
  assert (K : forall o1 : option bool, Ok (l1, root1, o1) = Ok (l', root', o) -> root_tables old root' = Ok (lang, l') /\ incl l' l) by (intros o1 Q; injection Q as <- <- _; split; [now apply list_read|exact I1]).
  destruct (lacking _ f); [apply K|]. unfold describe. destruct (negb (flag _ 3)); [apply K|]. destruct (negb fopen); [apply K|]. destruct (position files_mark text); [|apply K].
  cbv zeta. destruct (_ <? _); [discriminate|apply K].
Qed.
Theorem newer nm l root fopen f r d text junk : Exists (fun y => same (names y) nm = true) l -> exported f r d -> decode d = Ok text -> begins_with text nm ->
  create_table old true same decode names pg fopen junk (Some f) l root = UB.
Proof.
  intros X (Er & Ed & W) D N. unfold create_table. rewrite Er, Ed, D. cbn [going]. rewrite (begins_name _ _ N). cbn [going].
  assert (K : forall b a n, l = a ++ b -> Exists (fun y => same (names y) nm = true) b -> (length b <= n)%nat -> delete_named old true same names n (length a) nm l root = UB).
  { clear X. induction b as [|y b IH]; intros a n El X Hn; [inversion X|]. destruct n as [|n]; [cbn [length] in Hn; lia|]. cbn [delete_named]. rewrite El at 1. rewrite nth_error_app2 by lia. rewrite Nat.sub_diag. cbn [nth_error].
    destruct (same (names y) nm) eqn:S1; [reflexivity|]. inversion X as [? ? Q|? ? Q]; subst; [congruence|].
    specialize (IH (a ++ [y]) n). rewrite app_length, Nat.add_1_r in IH. rewrite <- app_assoc in IH. apply IH; [reflexivity|exact Q|cbn [length] in Hn; lia]. }
  pose proof (K l [] (length l) eq_refl X (le_n _)) as Q. cbn [length] in Q. rewrite Q. reflexivity.
Qed.
Theorem others_kept lang l root fopen f junk l' root' o r d text nm : list_of old lang l root -> good_list l -> exported f r d -> decode d = Ok text -> begins_with text nm ->
  create_table old false same decode names pg fopen junk (Some f) l root = Ok (l', root', o) -> forall y, In y l -> same (names y) nm = false -> In y l'.
Proof.
  intros H G (Er & Ed & W) D N. unfold create_table. rewrite Er, Ed, D. cbn [going]. rewrite (begins_name _ _ N). cbn [going].
  destruct (loop_keeps lang nm (length l) 0 l root H G) as (l1 & root1 & -> & H1 & G1 & I1 & K1). cbn [rbind]. cbv zeta.
  assert (K : forall o1 : option bool, Ok (l1, root1, o1) = Ok (l', root', o) -> forall y, In y l -> same (names y) nm = false -> In y l') by (intros o1 Q; injection Q as <- _ _; exact K1).
  destruct (lacking _ f); [apply K|]. unfold describe. destruct (negb (flag _ 3)); [apply K|]. destruct (negb fopen); [apply K|]. destruct (position files_mark text); [|apply K].
  cbv zeta. destruct (_ <? _); [discriminate|apply K].
Qed.
End Make.
