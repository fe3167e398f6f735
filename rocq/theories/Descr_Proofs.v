(** Proofs about opening a database. *)
From Verif Require Import Prelude Lists Text_Model Text_Spec Text_Proofs Tree_Model Tree_Spec Tree_Proofs Field_Model Descr_Model Descr_Spec.
Import String.StringSyntax.
Ltac Zify.zify_post_hook ::= idtac.

Lemma teq_spec : forall a b, reflect (a = b) (teq a b).
Proof. intros a b. unfold teq. destruct (list_eq_dec Z.eq_dec a b); constructor; assumption. Qed.
Lemma teq_refl : forall a, teq a a = true.
Proof. intros a. now destruct (teq_spec a a). Qed.
Ltac teqs := repeat match goal with |- context [teq ?a ?b] => destruct (teq_spec a b) | H : context [teq ?a ?b] |- _ => destruct (teq_spec a b) end.
Ltac bind_in H := match type of H with rbind ?r _ = Ok _ => let x := fresh "x" in let E := fresh "E" in destruct r as [x| | |] eqn:E; cbn [rbind] in H; try discriminate H end.

(** ** Numbers *)
Lemma stoi_int : forall v x, int_text v x -> stoi v = Ok x.
Proof.
  intros v x (R & ds & Hne & Hd & H). unfold stoi.
  assert (P := digits_value_nonneg ds Hd).
  assert (T : take_digits (map (fun d => d + 48) ds) None = Some (digits_value ds)).
  { pose proof (to_int_def_digits ds 7 Hne Hd) as Q. unfold to_int_def, strtol10 in Q.
    destruct ds as [|d ds]; [congruence|]. inversion Hd as [|? ? D1 D2]; subst.
    assert (G : forall a, take_digits (map (fun d => d + 48) ds) (Some a) = Some (fold_left (fun a d => 10 * a + d) ds a)).
    { clear - D2. induction ds as [|e ds IH]; intros a; [reflexivity|]. inversion D2; subst. cbn [map take_digits fold_left].
      replace ((48 <=? e + 48) && (e + 48 <=? 57)) with true by lia. rewrite IH by assumption. do 2 f_equal. lia. }
    cbn [map take_digits]. replace ((48 <=? d + 48) && (d + 48 <=? 57)) with true by lia. rewrite G. unfold digits_value. cbn [fold_left]. do 2 f_equal. lia. }
  destruct H as [[-> ->]|[-> ->]].
  - assert (S : strtol10 (map (fun d => d + 48) ds) = Some (digits_value ds)).
    { unfold strtol10. destruct ds as [|d ds]; [congruence|]. inversion Hd as [|? ? D1 D2]; subst. cbn [map] in T |- *. cbn [skip_space]. unfold is_space.
      replace ((d + 48 =? 32) || (9 <=? d + 48) && (d + 48 <=? 13)) with false by lia.
      assert (D : d = 0 \/ d = 1 \/ d = 2 \/ d = 3 \/ d = 4 \/ d = 5 \/ d = 6 \/ d = 7 \/ d = 8 \/ d = 9) by lia.
      repeat (destruct D as [D|D]; [subst d; exact T|]). subst d; exact T. }
    rewrite S. destruct (Z.ltb_spec (digits_value ds) (-2147483648)), (Z.ltb_spec 2147483647 (digits_value ds)); cbn [orb]; try reflexivity; lia.
  - unfold strtol10. cbn [skip_space is_space]. change (is_space 45) with false. cbv iota. rewrite T. cbn [option_map].
    destruct (Z.ltb_spec (- digits_value ds) (-2147483648)), (Z.ltb_spec 2147483647 (- digits_value ds)); cbn [orb]; try reflexivity; lia.
Qed.
Lemma digits_of : forall d, Forall is_digit d -> exists ds, d = map (fun x => x + 48) ds /\ Forall (fun x => 0 <= x <= 9) ds.
Proof.
  induction d as [|c d IH]; intros H; [exists []; split; [reflexivity|constructor]|]. inversion H as [|? ? H1 H2]; subst. destruct (IH H2) as (ds & -> & F).
  exists (c - 48 :: ds). unfold is_digit in H1. split; [cbn; f_equal; lia|constructor; [lia|exact F]].
Qed.
Lemma number_int : forall v x, number_text v -> stoi v = Ok x -> int_text v x.
Proof.
  intros v x (s & d & -> & Hs & Hne & Hd) H. destruct (digits_of d Hd) as (ds & -> & Hd').
  assert (Hn : ds <> []) by (intros ->; now apply Hne).
  assert (R : forall y, stoi (s ++ map (fun x => x + 48) ds) = Ok y -> -2 ^ 31 <= y < 2 ^ 31).
  { intros y Hy. unfold stoi in Hy. destruct (strtol10 _); [|discriminate]. destruct (Z.ltb_spec z (-2147483648)), (Z.ltb_spec 2147483647 z); cbn [orb] in Hy; try discriminate. injection Hy as <-. lia. }
  specialize (R x H). split; [exact R|]. exists ds. split; [exact Hn|]. split; [exact Hd'|].
  destruct Hs as [-> | ->]; cbn [app] in *.
  - left. split; [reflexivity|].
    destruct (Z.le_gt_cases (digits_value ds) 2147483647) as [L|L].
    + assert (I : int_text (map (fun x => x + 48) ds) (digits_value ds)).
      { split; [pose proof (digits_value_nonneg ds Hd'); lia|]. exists ds. repeat split; try assumption. left; split; reflexivity. }
      rewrite (stoi_int _ _ I) in H. now injection H.
    + exfalso. pose proof (to_int_def_digits ds 7 Hn Hd') as Q. unfold to_int_def in Q. unfold stoi in H.
      destruct (strtol10 (map (fun d => d + 48) ds)) as [z|]; [|discriminate]. rewrite H in Q. destruct (Z.leb_spec (digits_value ds) 2147483647); [lia|discriminate].
  - right. split; [reflexivity|].
    destruct (Z.le_gt_cases (digits_value ds) 2147483648) as [L|L].
    + assert (I : int_text (45 :: map (fun x => x + 48) ds) (- digits_value ds)).
      { split; [pose proof (digits_value_nonneg ds Hd'); lia|]. exists ds. repeat split; try assumption. right; split; reflexivity. }
      rewrite (stoi_int _ _ I) in H. now injection H.
    + exfalso. unfold stoi, strtol10 in H. cbn [skip_space] in H. change (is_space 45) with false in H. cbv iota in H.
      assert (T : take_digits (map (fun d => d + 48) ds) None = Some (digits_value ds)).
      { destruct ds as [|d ds]; [congruence|]. inversion Hd' as [|? ? D1 D2]; subst.
        assert (G : forall a, take_digits (map (fun d => d + 48) ds) (Some a) = Some (fold_left (fun a d => 10 * a + d) ds a)).
        { clear - D2. induction ds as [|e ds IH]; intros a; [reflexivity|]. inversion D2; subst. cbn [map take_digits fold_left].
          replace ((48 <=? e + 48) && (e + 48 <=? 57)) with true by lia. rewrite IH by assumption. do 2 f_equal. lia. }
        cbn [map take_digits]. replace ((48 <=? d + 48) && (d + 48 <=? 57)) with true by lia. rewrite G. unfold digits_value. cbn [fold_left]. do 2 f_equal. lia. }
      rewrite T in H. cbn [option_map] in H. destruct (Z.ltb_spec (- digits_value ds) (-2147483648)); cbn [orb] in H; [discriminate|lia].
Qed.

(** ** Trees the reader accepts *)
Lemma wf_string : forall v ks, wf_tree (Node v nd_string ks) -> ks = [].
Proof. intros v ks H. now inversion H. Qed.
Lemma wf_number : forall v ks, wf_tree (Node v nd_number ks) -> ks = [] /\ number_text v.
Proof. intros v ks H. inversion H as [? ? L|]; subst. split; [reflexivity|]. cbn in L. tauto. Qed.
Lemma wf_kids : forall v ty ks, wf_tree (Node v ty ks) -> ks <> [] -> v = [] /\ ty = nd_list /\ Forall wf_tree ks.
Proof. intros v ty ks H N. inversion H; subst; [congruence|]. auto. Qed.
Lemma wf_list_value : forall v ks, wf_tree (Node v nd_list ks) -> v = [] /\ Forall wf_tree ks.
Proof. intros v ks H. inversion H as [? ? L|]; subst; [destruct L|auto]. Qed.

Lemma kind_of_spec : forall v k, kind_of v = Ok k <-> In (v, k) codes.
Proof.
  intros v k. unfold kind_of. split.
  - intros H. teqs; subst; injection H as <- || discriminate H; cbn; tauto.
  - intros H. cbn [codes In] in H. repeat (destruct H as [H|H]; [injection H as <- <-; reflexivity|]). destruct H.
Qed.
Lemma flag_of_ok : forall no yes v b, no <> yes -> (flag_of no yes v = Ok b <-> v = if b then yes else no).
Proof.
  intros no yes v b N. unfold flag_of. destruct (teq_spec v no), (teq_spec v yes); subst; split; intros H; try congruence.
  - injection H as <-. reflexivity.
  - destruct b; congruence.
  - injection H as <-. reflexivity.
  - destruct b; congruence.
  - destruct b; congruence.
Qed.
Lemma bs01 : bs "0" <> bs "1". Proof. discriminate. Qed.
Lemma bsCS : bs "CI" <> bs "CS". Proof. discriminate. Qed.

Lemma field_complete : forall f t, field_descr f t -> field_of t = Ok f.
Proof.
  intros [nm k u l p c] t (code & lt & pt & -> & Hk & (lv & -> & Hl) & (pv & -> & Hp)). cbn [fd_name fd_kind fd_null fd_len fd_prec fd_cs] in *. unfold str.
  cbn [field_of]. rewrite (proj2 (kind_of_spec _ _) Hk). cbn [rbind].
  rewrite (proj2 (flag_of_ok (bs "0") (bs "1") (flag u) u bs01)) by (now destruct u). cbn [rbind].
  rewrite (stoi_int _ _ Hl). cbn [rbind]. rewrite (stoi_int _ _ Hp). cbn [rbind].
  rewrite (proj2 (flag_of_ok (bs "CI") (bs "CS") _ c bsCS)) by reflexivity. reflexivity.
Qed.
Ltac ty_in H := repeat match type of H with context [match ?x with _ => _ end] => is_var x; destruct x; try discriminate H end.
Lemma field_sound : forall f t, wf_tree t -> field_of t = Ok f -> field_descr f t.
Proof.
  intros f [v ty ks] W H. unfold field_of in H. ty_in H.
  destruct (wf_kids _ _ _ W ltac:(discriminate)) as (-> & -> & F).
  repeat match goal with H : Forall _ (_ :: _) |- _ => inversion H; subst; clear H end.
  repeat match goal with H : wf_tree (Node _ nd_string _) |- _ => apply wf_string in H; subst | H : wf_tree (Node _ nd_number _) |- _ => apply wf_number in H; destruct H; subst end.
  bind_in H. bind_in H. bind_in H. bind_in H. bind_in H. injection H as <-.
  apply kind_of_spec in E. apply (flag_of_ok _ _ _ _ bs01) in E0. apply (flag_of_ok _ _ _ _ bsCS) in E3.
  eexists _, _, _. cbn [fd_name fd_kind fd_null fd_len fd_prec fd_cs]. unfold str, flag. subst.
  split; [reflexivity|]. split; [exact E|]. split; eexists; (split; [reflexivity|]); apply number_int; assumption.
Qed.
Lemma fields_complete : forall fs ts, Forall2 field_descr fs ts -> fields_of ts = Ok fs.
Proof. induction 1 as [|f t fs ts H _ IH]; [reflexivity|]. cbn [fields_of]. rewrite (field_complete _ _ H). cbn [rbind]. rewrite IH. reflexivity. Qed.
Lemma fields_sound : forall ts fs, Forall wf_tree ts -> fields_of ts = Ok fs -> Forall2 field_descr fs ts.
Proof.
  induction ts as [|t ts IH]; intros fs W H; cbn [fields_of] in H; [injection H as <-; constructor|].
  inversion W; subst. bind_in H. bind_in H. injection H as <-. constructor; [now apply field_sound|now apply IH].
Qed.
Lemma find_first : forall same fs name i, find_field same fs name = Some i <-> first_named same fs name i.
Proof.
  intros same fs name. induction fs as [|f fs IH]; intros i; cbn [find_field].
  - split; [discriminate|]. intros (g & H & _). now destruct i.
  - destruct (same (fd_name f) name) eqn:E.
    + split.
      * intros H. injection H as <-. exists f. repeat split; [exact E|]. intros j g Hj. lia.
      * intros (g & H1 & H2 & H3). destruct i as [|i]; [reflexivity|]. specialize (H3 0%nat f ltac:(lia) eq_refl). congruence.
    + split.
      * destruct (find_field same fs name) as [j|] eqn:F; cbn; [|discriminate]. intros H. injection H as <-.
        destruct (proj1 (IH j) eq_refl) as (g & H1 & H2 & H3). exists g. split; [exact H1|]. split; [exact H2|].
        intros [|k] h Hk Hh; [cbn in Hh; injection Hh as <-; exact E|]. apply (H3 k h); [lia|exact Hh].
      * intros (g & H1 & H2 & H3). destruct i as [|i]; [cbn in H1; injection H1 as ->; congruence|].
        assert (Q : first_named same fs name i). { exists g. split; [exact H1|]. split; [exact H2|]. intros j h Hj Hh. apply (H3 (S j) h); [lia|exact Hh]. }
        rewrite (proj2 (IH i) Q). reflexivity.
Qed.
Lemma col_complete : forall same fs c t, col_descr same fs c t -> col_of same fs t = Ok c.
Proof.
  intros same fs [i l] t (nm & lt & -> & Hf & (v & -> & Hl)). unfold str. cbn [col_of fst snd] in *. rewrite (proj2 (find_first _ _ _ _) Hf), (stoi_int _ _ Hl). reflexivity.
Qed.
Lemma col_sound : forall same fs c t, wf_tree t -> col_of same fs t = Ok c -> col_descr same fs c t.
Proof.
  intros same fs c [v ty ks] W H. unfold col_of in H. ty_in H.
  destruct (wf_kids _ _ _ W ltac:(discriminate)) as (-> & -> & F).
  repeat match goal with H : Forall _ (_ :: _) |- _ => inversion H; subst; clear H end.
  repeat match goal with H : wf_tree (Node _ nd_string _) |- _ => apply wf_string in H; subst | H : wf_tree (Node _ nd_number _) |- _ => apply wf_number in H; destruct H; subst end.
  destruct (find_field same fs _) as [i|] eqn:E; [|discriminate]. bind_in H. injection H as <-. apply find_first in E.
  eexists _, _. split; [reflexivity|]. split; [exact E|]. eexists. split; [reflexivity|]. now apply number_int.
Qed.
Lemma cols_complete : forall same fs cs ts, Forall2 (col_descr same fs) cs ts -> cols_of same fs ts = Ok cs.
Proof. induction 1 as [|f t cs ts H _ IH]; [reflexivity|]. cbn [cols_of]. rewrite (col_complete _ _ _ _ H). cbn [rbind]. rewrite IH. reflexivity. Qed.
Lemma cols_sound : forall same fs ts cs, Forall wf_tree ts -> cols_of same fs ts = Ok cs -> Forall2 (col_descr same fs) cs ts.
Proof.
  intros same fs. induction ts as [|t ts IH]; intros cs W H; cbn [cols_of] in H; [injection H as <-; constructor|].
  inversion W; subst. bind_in H. bind_in H. injection H as <-. constructor; [now apply col_sound|now apply IH].
Qed.
Lemma index_complete : forall same fs i t, index_descr same fs i t -> index_of_tree same fs t = Ok i.
Proof.
  intros same fs [nm p cs] t (cols & -> & Hne & H). cbn [id_name id_primary id_cols] in *. unfold str. destruct cols as [|c cols]; [congruence|]. cbn [index_of_tree].
  rewrite (proj2 (flag_of_ok (bs "0") (bs "1") (flag p) p bs01)) by (now destruct p). cbn [rbind]. rewrite (cols_complete _ _ _ _ H). reflexivity.
Qed.
Lemma index_sound : forall same fs i t, wf_tree t -> index_of_tree same fs t = Ok i -> index_descr same fs i t.
Proof.
  intros same fs i [v ty ks] W H. unfold index_of_tree in H. ty_in H.
  destruct (wf_list_value _ _ W) as (-> & F).
  inversion F as [|? ? W1 F1]; subst. inversion F1 as [|? ? W2 F2]; subst. apply wf_string in W1. apply wf_number in W2. destruct W2 as [-> W2]. subst.
  bind_in H. bind_in H. injection H as <-. apply (flag_of_ok _ _ _ _ bs01) in E. subst.
  eexists. cbn [id_name id_primary id_cols]. unfold str, flag. split; [reflexivity|]. split; [discriminate|]. now apply cols_sound.
Qed.
Lemma indexes_complete : forall same fs is ts, Forall2 (index_descr same fs) is ts -> indexes_of same fs ts = Ok is.
Proof. induction 1 as [|f t cs ts H _ IH]; [reflexivity|]. cbn [indexes_of]. rewrite (index_complete _ _ _ _ H). cbn [rbind]. rewrite IH. reflexivity. Qed.
Lemma indexes_sound : forall same fs ts is, Forall wf_tree ts -> indexes_of same fs ts = Ok is -> Forall2 (index_descr same fs) is ts.
Proof.
  intros same fs. induction ts as [|t ts IH]; intros cs W H; cbn [indexes_of] in H; [injection H as <-; constructor|].
  inversion W; subst. bind_in H. bind_in H. injection H as <-. constructor; [now apply index_sound|now apply IH].
Qed.
Lemma index_list_complete : forall same fs w is l, (is <> [] -> w = str (bs "Indexes")) -> Forall2 (index_descr same fs) l is -> index_list same fs (Node [] nd_list (w :: is)) = Ok l.
Proof.
  intros same fs w is l Hw H. destruct is as [|i is]; cbn [index_list].
  - inversion H. destruct w as [? [] ?]; reflexivity.
  - rewrite (Hw ltac:(discriminate)). unfold str. rewrite teq_refl. now apply indexes_complete.
Qed.
Lemma index_list_sound : forall same fs t l, wf_tree t -> index_list same fs t = Ok l ->
  exists w is, t = Node [] nd_list (w :: is) /\ (is <> [] -> w = str (bs "Indexes")) /\ Forall2 (index_descr same fs) l is.
Proof.
  intros same fs [v ty ks] l W H. unfold index_list in H. destruct ty; try discriminate H. destruct (wf_list_value _ _ W) as (-> & F).
  destruct ks as [|w is]; [discriminate H|]. exists w, is. split; [reflexivity|]. inversion F as [|? ? W1 F1]; subst.
  destruct is as [|i is].
  - split; [congruence|]. destruct w as [? [] ?]; injection H as <-; constructor.
  - destruct w as [wv wt wk]. destruct wt; try discriminate H. destruct (teq_spec wv (bs "Indexes")); [|discriminate H]. subst.
    apply wf_string in W1. subst. split; [reflexivity|]. now apply indexes_sound.
Qed.
Lemma table_complete : forall same d t, describes same d t -> table_of same t = Ok d.
Proof.
  intros same [nm fs is lk a b c] t (x & fl & w & il & ta & tb & tc & -> & Hne & Hf & Hw & Hi & (va & -> & Ha) & (vb & -> & Hb) & (vc & -> & Hc)).
  cbn [td_name td_fields td_indexes td_lock td_data td_blob td_index] in *. destruct fl as [|f fl]; [congruence|]. unfold str, table_of. rewrite !teq_refl. cbn [andb negb].
  rewrite (fields_complete _ _ Hf). cbn [rbind]. rewrite (index_list_complete _ _ _ _ _ Hw Hi). cbn [rbind].
  rewrite (proj2 (flag_of_ok (bs "0") (bs "1") (flag lk) lk bs01)) by (now destruct lk). cbn [rbind].
  rewrite (stoi_int _ _ Ha), (stoi_int _ _ Hb), (stoi_int _ _ Hc). reflexivity.
Qed.
Ltac wf_split := repeat match goal with
  | H : Forall _ (_ :: _) |- _ => inversion H; subst; clear H
  | H : wf_tree (Node _ nd_string _) |- _ => apply wf_string in H; subst
  | H : wf_tree (Node _ nd_number _) |- _ => apply wf_number in H; destruct H; subst end.
Lemma table_sound : forall same d t, wf_tree t -> table_of same t = Ok d -> describes same d t.
Proof.
  intros same d [v ty ks] W H. unfold table_of in H. ty_in H.
  destruct (wf_kids _ _ _ W ltac:(discriminate)) as (-> & -> & F). clear W. wf_split.
  repeat match goal with H : wf_tree (Node _ _ (_ :: _)) |- _ => destruct (wf_kids _ _ _ H ltac:(discriminate)) as (? & ? & ?); clear H; subst end.
  match type of H with (if negb (teq ?a ?x && teq ?b ?y && teq ?c ?z) then _ else _) = _ =>
    destruct (teq_spec a x); [|discriminate H]; destruct (teq_spec b y); [|discriminate H]; destruct (teq_spec c z); [|discriminate H] end.
  cbn [andb negb] in H. subst.
  bind_in H. bind_in H. bind_in H. bind_in H. bind_in H. bind_in H. injection H as <-.
  wf_split.
  match goal with H : index_list _ _ _ = Ok _ |- _ => apply index_list_sound in H; [|assumption]; destruct H as (w & il & -> & Hw & Hi) end.
  match goal with H : flag_of _ _ _ = Ok _ |- _ => apply (flag_of_ok _ _ _ _ bs01) in H end. subst.
  eexists _, _, w, il, _, _, _. cbn [td_name td_fields td_indexes td_lock td_data td_blob td_index]. unfold str, flag.
  split; [reflexivity|]. split; [discriminate|]. split; [apply fields_sound; [repeat constructor; assumption|assumption]|].
  split; [exact Hw|]. split; [exact Hi|]. split; [|split]; eexists; (split; [reflexivity|]); apply number_int; assumption.
Qed.

(** ** Errors are exceptions *)
Lemma decided_bind : forall A B (r : res A) (f : A -> res B), decided r -> (forall x, r = Ok x -> decided (f x)) -> decided (do x <- r; f x).
Proof. intros A B r f [->|(x & ->)] H; [left; reflexivity|]. cbn [rbind]. now apply H. Qed.
Lemma decided_ok : forall A (x : A), decided (Ok x). Proof. intros. right. eauto. Qed.
Lemma decided_throw : forall A, @decided A Throw. Proof. intros. now left. Qed.
#[local] Hint Resolve decided_ok decided_throw : core.
Lemma stoi_decided : forall v, decided (stoi v).
Proof. intros v. unfold stoi. destruct (strtol10 v); [destruct (_ || _)|]; auto. Qed.
Lemma flag_decided : forall a b v, decided (flag_of a b v).
Proof. intros. unfold flag_of. destruct (teq v a), (teq v b); auto. Qed.
Lemma kind_decided : forall v, decided (kind_of v).
Proof. intros. unfold kind_of. teqs; auto. Qed.
Ltac dec_goal := repeat (apply decided_bind; [first [apply stoi_decided|apply flag_decided|apply kind_decided|idtac]|intros ? _]); auto.
Ltac ty_goal := repeat match goal with |- decided (match ?x with _ => _ end) => is_var x; destruct x; auto end.
Lemma field_decided : forall t, decided (field_of t).
Proof. intros t. unfold field_of. ty_goal. dec_goal. Qed.
Lemma fields_decided : forall ts, decided (fields_of ts).
Proof. induction ts; cbn [fields_of]; auto. apply decided_bind; [apply field_decided|]. intros ? _. apply decided_bind; auto. Qed.
Lemma col_decided : forall same fs t, decided (col_of same fs t).
Proof. intros. unfold col_of. ty_goal. destruct (find_field _ _ _); auto. dec_goal. Qed.
Lemma cols_decided : forall same fs ts, decided (cols_of same fs ts).
Proof. induction ts; cbn [cols_of]; auto. apply decided_bind; [apply col_decided|]. intros ? _. apply decided_bind; auto. Qed.
Lemma index_decided : forall same fs t, decided (index_of_tree same fs t).
Proof. intros. unfold index_of_tree. ty_goal. apply decided_bind; [apply flag_decided|]. intros ? _. apply (decided_bind _ _ (cols_of _ _ _)); [apply cols_decided|]. auto. Qed.
Lemma indexes_decided : forall same fs ts, decided (indexes_of same fs ts).
Proof. induction ts; cbn [indexes_of]; auto. apply decided_bind; [apply index_decided|]. intros ? _. apply decided_bind; auto. Qed.
Lemma index_list_decided : forall same fs t, decided (index_list same fs t).
Proof. intros. unfold index_list. ty_goal. destruct (teq _ _); [apply indexes_decided|auto]. Qed.
Lemma table_decided : forall same t, decided (table_of same t).
Proof. intros. unfold table_of. ty_goal. destruct (negb _); auto. apply decided_bind; [apply fields_decided|]. intros ? _. apply decided_bind; [apply index_list_decided|]. intros ? _. dec_goal. Qed.

Lemma table_exact : forall same d t, wf_tree t -> (table_of same t = Ok d <-> describes same d t) /\ decided (table_of same t).
Proof. intros same d t W. split; [split; [now apply table_sound|apply table_complete]|apply table_decided]. Qed.
Lemma text_sound : forall same text d, ~ In 0 text -> table_of_text same text = Ok (Some d) -> exists t, parse_text text = Ok (Node [] nd_list [t]) /\ describes same d t.
Proof.
  intros same text d Hz H. unfold table_of_text in H. destruct text as [|c text]; [discriminate|]. bind_in H.
  destruct (parse_result (c :: text) Hz) as [Q|(pre & last & Q & Wp & Wl)]; [congruence|]. rewrite E in Q. injection Q as ->.
  destruct pre as [|p pre]; cbn [app] in H.
  - bind_in H. injection H as <-. exists last. split; [reflexivity|]. destruct Wl as [Wl|(w & -> & _)]; [now apply table_sound|]. cbn in E0. discriminate.
  - destruct (pre ++ [last]) eqn:L; [destruct pre; discriminate|discriminate].
Qed.
Lemma text_complete : forall same t d, printable t -> describes same d t -> table_of_text same (outtext t []) = Ok (Some d).
Proof.
  intros same t d P D. assert (N : ~ is_empty_leaf t). { destruct D as (x & fs & w & is & a & b & c & -> & _). unfold is_empty_leaf. discriminate. }
  pose proof (print_parse t P N) as Q. unfold table_of_text. destruct (outtext t []) as [|c tx] eqn:O; [vm_compute in Q; discriminate|].
  rewrite Q. cbn [rbind]. rewrite (table_complete _ _ _ D). reflexivity.
Qed.
Lemma text_decided : forall same text, ~ In 0 text -> decided (table_of_text same text) /\ (table_of_text same text = Ok None <-> text = []).
Proof.
  intros same text Hz. unfold table_of_text. destruct text as [|c text]; [split; [auto|tauto]|].
  destruct (parse_result (c :: text) Hz) as [->|(pre & last & -> & _)]; cbn [rbind]; [split; [auto|split; discriminate]|].
  destruct pre as [|p pre]; cbn [app].
  - destruct (table_decided same last) as [->|(x & ->)]; cbn [rbind]; (split; [auto|split; discriminate]).
  - destruct (pre ++ [last]) eqn:L; [destruct pre; discriminate|]. split; [auto|split; discriminate].
Qed.

(** ** The file *)
Lemma ver_of_spec : forall a b c d v, ver_of a b c d = Some v <-> In ([a; b; c; d], v) versions.
Proof.
  intros a b c d v. split.
  - intros H. unfold ver_of in H. ty_in H; injection H as <-; cbn; tauto.
  - intros H. cbn [versions In] in H. repeat (destruct H as [H|H]; [injection H as <- <- <- <- <-; reflexivity|]). destruct H.
Qed.
Lemma list24 : forall (l : list Z), 24 <= zlen l -> exists a r, l = a ++ r /\ length a = 24%nat.
Proof. intros l H. exists (firstn 24 l), (skipn 24 l). split; [now rewrite firstn_skipn|]. rewrite firstn_length. unfold zlen in H. lia. Qed.
Lemma open_exact : forall junk file mono h, bytes_ok file -> 24 <= zlen file -> ~ no_page_size file ->
  (open_header junk file mono = Ok h <-> opened file mono h) /\ decided (open_header junk file mono).
Proof.
  intros junk file mono h B L NP. destruct (list24 file L) as (a & r & -> & La).
  assert (Bn : 0 <= le_val (sub (a ++ r) 12 4) < 2 ^ 32).
  { assert (Q : length (sub (a ++ r) 12 4) = 4%nat) by (rewrite sub_length; [reflexivity|rewrite app_length; lia]).
    pose proof (le_val_bound (sub (a ++ r) 12 4)) as P. unfold zlen in P. rewrite Q in P. apply P. apply Forall_firstn', Forall_skipn'. exact B. }
  assert (Bp : 0 <= le_val (sub (a ++ r) 20 4)).
  { apply le_val_bound. apply Forall_firstn', Forall_skipn'. exact B. }
  assert (FA : firstn 24 (a ++ r) = a) by (rewrite firstn_app, La, Nat.sub_diag, firstn_all2 by lia; apply app_nil_r).
  unfold open_header. rewrite FA. clear FA.
  unfold opened, no_page_size in *.
  do 24 (destruct a as [|? a]; [discriminate La|]). destruct a; [|discriminate La]. cbn [app firstn skipn sub nth] in *.
  unfold sub in *. cbn [app firstn skipn] in *.
  set (sig := [z; z0; z1; z2; z3; z4; z5; z6]) in *. set (np := le_val [z11; z12; z13; z14]) in *. set (pz := le_val [z19; z20; z21; z22]) in *.
  set (file := z :: _) in *.
  destruct (teq_spec sig (bs "1CDBMSV8")) as [->|N]; cbn [negb]; [|split; [split; [discriminate|intros (H & _); congruence]|auto]].
  destruct (ver_of z7 z8 z9 z10) as [v|] eqn:V.
  2:{ split; [|auto]. split; [discriminate|]. intros (_ & H & _). apply ver_of_spec in H. congruence. }
  pose proof (proj1 (ver_of_spec _ _ _ _ _) V) as HV.
  assert (U : forall w, In ([z7; z8; z9; z10], w) versions -> w = v) by (intros w Hw; apply ver_of_spec in Hw; congruence).
  set (ps := match v with V8380 => pz | _ => 4096 end).
  assert (Hps : ps <> 0).
  { unfold ps. destruct v; try lia. intros Z0. apply NP. split; [|exact Z0]. cbn [versions In] in HV.
    do 5 (destruct HV as [HV|HV]; [discriminate HV|]). destruct HV as [HV|[]]. now injection HV as <- <- <- <-. }
  assert (Hps0 : 0 < ps) by (unfold ps in *; destruct v; lia).
  destruct (Z.eqb_spec ps 0); [lia|].
  assert (RO : forall b, (b = true <-> mono = false \/ v = V8030 \/ v = V8050) <-> b = (if old_ver v then true else negb mono)).
  { intros b. destruct v, b, mono; cbn; intuition congruence. }
  set (pg := u32 (zlen file / ps)). pose proof (Z.mod_pos_bound (zlen file / ps) (2 ^ 32) ltac:(lia)) as Hpg. fold (u32 (zlen file / ps)) in Hpg. fold pg in Hpg.
  destruct (Z.eqb_spec (pg * ps) (zlen file)) as [E1|E1]; cbn [negb].
  - destruct (Z.eqb_spec pg np) as [E2|E2]; cbn [negb].
    + split; [|auto]. split.
      * intros H. injection H as <-. cbn [h_ver h_page h_pages h_readonly]. repeat split; try assumption; try (now symmetry); apply RO; reflexivity.
      * destruct h as [hv hp hn hr]. cbn [h_ver h_page h_pages h_readonly]. intros (_ & H1 & H2 & H3 & H4 & H5). apply U in H1. subst hv. fold ps in H2. subst hp hn. f_equal. f_equal; [exact E2|]. symmetry. apply RO, H5.
    + split; [|auto]. split; [discriminate|]. destruct h as [hv hp hn hr]. cbn [h_ver h_page h_pages h_readonly]. intros (_ & H1 & H2 & H3 & H4 & H5). apply U in H1. subst hv. fold ps in H2. subst hp.
      exfalso. assert (hn = pg) by nia. congruence.
  - split; [|auto]. split; [discriminate|]. destruct h as [hv hp hn hr]. cbn [h_ver h_page h_pages h_readonly]. intros (_ & H1 & H2 & H3 & H4 & H5). apply U in H1. subst hv. fold ps in H2. subst hp hn.
    exfalso. apply E1. unfold pg. rewrite H3. rewrite Z.div_mul by lia. unfold u32. rewrite Z.mod_small by lia. reflexivity.
Qed.
Lemma no_page_size_ub : forall junk file mono, 24 <= zlen file -> firstn 8 file = bs "1CDBMSV8" -> no_page_size file -> open_header junk file mono = UB.
Proof.
  intros junk file mono L S (V & P). destruct (list24 file L) as (a & r & -> & La).
  assert (FA : firstn 24 (a ++ r) = a) by (rewrite firstn_app, La, Nat.sub_diag, firstn_all2 by lia; apply app_nil_r).
  unfold open_header. rewrite FA. clear FA.
  do 24 (destruct a as [|? a]; [discriminate La|]). destruct a; [|discriminate La]. cbn [app firstn skipn sub nth] in *.
  unfold sub in *. cbn [app firstn skipn] in *. rewrite S, teq_refl. cbn [negb]. injection V as -> -> -> ->. cbn [ver_of]. rewrite P. reflexivity.
Qed.
(** a file of one page of any size *)
Definition one_page (ps : Z) : list Z := bs "1CDBMSV8" ++ [8; 3; 8; 0] ++ le_bytes 4 1 ++ le_bytes 4 0 ++ le_bytes 4 ps ++ repeat 0 (Z.to_nat (ps - 24)).
Lemma one_page_ok : forall ps, bytes_ok (one_page ps).
Proof.
  intros ps. unfold one_page. repeat (apply Forall_app; split); try apply le_bytes_ok.
  - repeat constructor; lia.
  - repeat constructor; lia.
  - apply Forall_forall. intros x Hx. apply repeat_spec in Hx. subst. unfold byte_ok. lia.
Qed.
Lemma any_page_size : forall junk mono ps, 24 <= ps < 2 ^ 32 -> open_header junk (one_page ps) mono = Ok (HD V8380 ps 1 (negb mono)).
Proof.
  intros junk mono ps H.
  assert (Lz : zlen (one_page ps) = ps). { unfold one_page. rewrite !zlen_app. unfold zlen. rewrite repeat_length, !le_bytes_length. cbn [bs length String.list_ascii_of_string map]. lia. }
  apply (open_exact junk (one_page ps) mono (HD V8380 ps 1 (negb mono))).
  - apply one_page_ok.
  - lia.
  - intros (_ & Q). change (le_val (sub (one_page ps) 20 4)) with (le_val (le_bytes 4 ps)) in Q. rewrite le_val_bytes_small in Q by (cbn; lia). lia.
  - unfold opened. cbn [h_ver h_page h_pages h_readonly]. split; [reflexivity|]. split; [cbn; tauto|].
    split. { change (le_val (sub (one_page ps) 20 4)) with (le_val (le_bytes 4 ps)). rewrite le_val_bytes_small by (cbn; lia). reflexivity. }
    split; [lia|]. split; [reflexivity|]. destruct mono; cbn; intuition congruence.
Qed.
(** a file of fewer than 24 bytes is taken or refused as the memory happens to be *)
Definition good_head (pages ps : Z) : list Z := bs "1CDBMSV8" ++ [8; 3; 8; 0] ++ le_bytes 4 pages ++ le_bytes 4 0 ++ le_bytes 4 ps.
Lemma short_file : forall mono, open_header (good_head 0 4096) [] mono = Ok (HD V8380 4096 0 (negb mono)) /\ open_header (repeat 0 24) [] mono = Throw.
Proof. intros mono. split; [vm_compute|vm_compute]; reflexivity. Qed.

(** ** The root object *)
Lemma c_str_ok : forall lang r, Forall (fun c => c <> 0) lang -> c_str (lang ++ 0 :: r) = Ok lang.
Proof.
  induction lang as [|c l IH]; intros r H; [reflexivity|]. inversion H; subst. cbn [app c_str]. destruct (Z.eqb_spec c 0); [congruence|]. rewrite IH by assumption. reflexivity.
Qed.
Definition word (b : Z) : Prop := 0 <= b < 2 ^ 32.
Lemma word_bytes : forall b, word b -> le_val (le_bytes 4 b) = b.
Proof. intros b H. apply le_val_bytes_small. unfold word in H. cbn. lia. Qed.
Lemma rdn_at : forall (p m r : list Z) i n, i = zlen p -> n = zlen m -> rdn (p ++ m ++ r) i n = Ok m.
Proof.
  intros p m r i n -> ->. unfold rdn. rewrite !zlen_app. pose proof (zlen_nonneg p). pose proof (zlen_nonneg m). pose proof (zlen_nonneg r).
  destruct (Z.ltb_spec (zlen p) 0), (Z.ltb_spec (zlen m) 0), (Z.ltb_spec (zlen p + (zlen m + zlen r)) (zlen p + zlen m)); try lia. cbn [orb]. f_equal.
  unfold sub, zlen. rewrite !Nat2Z.id. rewrite skipn_app, skipn_all2, Nat.sub_diag by lia. cbn [app skipn]. rewrite firstn_app, Nat.sub_diag, firstn_all2 by lia. apply app_nil_r.
Qed.
Lemma u32s_ok : forall l p r pos, pos = zlen p -> Forall word l -> u32s (length l) (p ++ concat (map (le_bytes 4) l) ++ r) pos = Ok l.
Proof.
  induction l as [|b l IH]; intros p r pos -> H; [reflexivity|]. inversion H; subst. cbn [length u32s map concat]. rewrite <- app_assoc.
  rewrite rdn_at; [|reflexivity|unfold zlen; now rewrite le_bytes_length]. cbn [rbind]. rewrite word_bytes by assumption.
  rewrite (app_assoc p). rewrite IH; [reflexivity| |assumption]. rewrite zlen_app. unfold zlen at 3. rewrite le_bytes_length. lia.
Qed.
Lemma u32s_short : forall n d pos, 0 <= pos -> pos <= zlen d < pos + 4 * Z.of_nat n -> u32s n d pos = UB.
Proof.
  induction n as [|n IH]; intros d pos H0 H; cbn [u32s]; [lia|].
  unfold rdn. destruct (Z.ltb_spec pos 0); [lia|]. destruct (Z.ltb_spec (zlen d) (pos + 4)); cbn [orb]; [reflexivity|]. cbn [rbind Z.ltb Z.compare].
  change (4 <? 0) with false. cbn [orb rbind]. rewrite IH by lia. reflexivity.
Qed.
Lemma zlen_words : forall l, zlen (concat (map (le_bytes 4) l)) = 4 * zlen l.
Proof. induction l as [|b l IH]; [reflexivity|]. cbn [map concat]. rewrite zlen_app, IH, zlen_cons. unfold zlen at 1. rewrite le_bytes_length. lia. Qed.
Lemma root_eq : forall (old : bool) lang pad num blocks rest, Forall (fun c => c <> 0) lang -> zlen lang + 1 + zlen pad = (if old then 8 else 32) -> word num ->
  root_tables old (root_data (if old then 8 else 32) lang pad num blocks rest) =
  if i32 num <? 0 then Throw else do t <- u32s (Z.to_nat (i32 num)) ((lang ++ 0 :: pad ++ le_bytes 4 num) ++ concat (map (le_bytes 4) blocks) ++ rest) (zlen (lang ++ 0 :: pad ++ le_bytes 4 num)); Ok (lang, t).
Proof.
  intros old lang pad num blocks rest H L N. unfold root_tables, root_data. rewrite c_str_ok by assumption. cbn [rbind].
  replace (lang ++ 0 :: pad ++ le_bytes 4 num ++ concat (map (le_bytes 4) blocks) ++ rest) with ((lang ++ 0 :: pad) ++ le_bytes 4 num ++ concat (map (le_bytes 4) blocks) ++ rest) by (rewrite <- app_assoc; reflexivity).
  rewrite rdn_at; [|rewrite zlen_app, zlen_cons; lia|unfold zlen; now rewrite le_bytes_length]. cbn [rbind]. rewrite word_bytes by assumption.
  destruct (i32 num <? 0); [reflexivity|].
  replace ((lang ++ 0 :: pad) ++ le_bytes 4 num ++ concat (map (le_bytes 4) blocks) ++ rest) with ((lang ++ 0 :: pad ++ le_bytes 4 num) ++ concat (map (le_bytes 4) blocks) ++ rest) by (rewrite <- !app_assoc; cbn; rewrite <- app_assoc; reflexivity).
  f_equal. f_equal. rewrite !zlen_app, zlen_cons, zlen_app. unfold zlen at 3. rewrite le_bytes_length. destruct old; lia.
Qed.
Lemma root_ok : forall (old : bool) lang pad blocks rest, Forall (fun c => c <> 0) lang -> zlen lang + 1 + zlen pad = (if old then 8 else 32) -> zlen blocks < 2 ^ 31 -> Forall word blocks ->
  root_tables old (root_data (if old then 8 else 32) lang pad (zlen blocks) blocks rest) = Ok (lang, blocks).
Proof.
  intros old lang pad blocks rest H L N W. pose proof (zlen_nonneg blocks) as P. rewrite root_eq; [|assumption|assumption|unfold word; lia].
  assert (I : i32 (zlen blocks) = zlen blocks) by (unfold i32; rewrite Z.mod_small; lia). rewrite I. destruct (Z.ltb_spec (zlen blocks) 0); [lia|].
  unfold zlen at 1. rewrite Nat2Z.id, u32s_ok by (reflexivity || assumption). reflexivity.
Qed.
Lemma root_short : forall (old : bool) lang pad num blocks rest, Forall (fun c => c <> 0) lang -> zlen lang + 1 + zlen pad = (if old then 8 else 32) -> 4 * zlen blocks + zlen rest < 4 * num -> num < 2 ^ 31 ->
  root_tables old (root_data (if old then 8 else 32) lang pad num blocks rest) = UB.
Proof.
  intros old lang pad num blocks rest H L N W. pose proof (zlen_nonneg blocks) as P. pose proof (zlen_nonneg rest) as P'. rewrite root_eq; [|assumption|assumption|unfold word; lia].
  assert (I : i32 num = num) by (unfold i32; rewrite Z.mod_small; lia). rewrite I. destruct (Z.ltb_spec num 0); [lia|].
  rewrite u32s_short; [reflexivity|apply zlen_nonneg|]. rewrite (zlen_app (lang ++ _)), (zlen_app (concat _)), zlen_words. rewrite Z2Nat.id by lia. lia.
Qed.
Lemma root_negative : forall (old : bool) lang pad num blocks rest, Forall (fun c => c <> 0) lang -> zlen lang + 1 + zlen pad = (if old then 8 else 32) -> 2 ^ 31 <= num < 2 ^ 32 ->
  root_tables old (root_data (if old then 8 else 32) lang pad num blocks rest) = Throw.
Proof.
  intros old lang pad num blocks rest H L N. rewrite root_eq; [|assumption|assumption|unfold word; lia].
  assert (I : i32 num = num - 2 ^ 32). { unfold i32. replace (num + 2 ^ 31) with (num - 2 ^ 31 + 1 * 2 ^ 32) by lia. rewrite Z.mod_add, Z.mod_small by lia. lia. }
  rewrite I. destruct (Z.ltb_spec (num - 2 ^ 32) 0); [reflexivity|lia].
Qed.

(** ** The kind of the database *)
Lemma all_none : forall (has : list Z -> bool) l, forallb (fun n => negb (has n)) l = true <-> forall n, In n l -> has n = false.
Proof. intros. rewrite forallb_forall. split; intros H n Hn; specialize (H n Hn); destruct (has n); auto; discriminate. Qed.
Lemma kind_exact : forall has,
  (db_kind has = Ok Infobase <-> forall n, In n infobase_tables -> has n = true) /\
  (db_kind has = Ok Depot <-> (forall n, In n infobase_tables -> has n = false) /\ (forall n, In n depot_tables -> has n = true)) /\
  (db_kind has = Ok Other <-> forall n, In n (infobase_tables ++ depot_tables) -> has n = false) /\ decided (db_kind has).
Proof.
  intros has. unfold db_kind.
  destruct (forallb (fun n => negb (has n)) infobase_tables) eqn:E1.
  - pose proof (proj1 (all_none _ _) E1) as N1.
    assert (X1 : ~ forall n, In n infobase_tables -> has n = true). { intros Q. specialize (N1 (bs "CONFIG") ltac:(cbn; auto)). specialize (Q (bs "CONFIG") ltac:(cbn; auto)). congruence. }
    destruct (forallb (fun n => negb (has n)) depot_tables) eqn:E2.
    + pose proof (proj1 (all_none _ _) E2) as N2.
      assert (X2 : ~ forall n, In n depot_tables -> has n = true). { intros Q. specialize (N2 (bs "DEPOT") ltac:(cbn; auto)). specialize (Q (bs "DEPOT") ltac:(cbn; auto)). congruence. }
      split; [split; [discriminate|tauto]|]. split; [split; [discriminate|tauto]|]. split; [split; [|reflexivity]|auto]. intros _ n Hn. apply in_app_or in Hn. destruct Hn; auto.
    + assert (X3 : ~ forall n, In n (infobase_tables ++ depot_tables) -> has n = false).
      { intros Q. assert (forallb (fun n => negb (has n)) depot_tables = true); [|congruence]. apply all_none. intros n Hn. apply Q, in_or_app. now right. }
      destruct (forallb has depot_tables) eqn:E3.
      * rewrite forallb_forall in E3. split; [split; [discriminate|tauto]|]. split; [split; auto|]. split; [split; [discriminate|tauto]|auto].
      * split; [split; [discriminate|tauto]|]. split; [|split; [split; [discriminate|tauto]|auto]]. split; [discriminate|]. intros (_ & Q). rewrite <- forallb_forall in Q. congruence.
  - assert (X1 : ~ forall n, In n infobase_tables -> has n = false) by (intros Q; apply all_none in Q; congruence).
    assert (X3 : ~ forall n, In n (infobase_tables ++ depot_tables) -> has n = false) by (intros Q; apply X1; intros n Hn; apply Q, in_or_app; now left).
    destruct (forallb has infobase_tables) eqn:E3.
    + rewrite forallb_forall in E3. split; [split; auto|]. split; [split; [discriminate|tauto]|]. split; [split; [discriminate|tauto]|auto].
    + split; [split; [discriminate|]|]. { intros Q. rewrite <- forallb_forall in Q. congruence. } split; [split; [discriminate|tauto]|]. split; [split; [discriminate|tauto]|auto].
Qed.

(** ** The files of a table *)
Lemma land4095 : forall b, 0 <= b -> (Z.land b 4095 =? 0) = true <-> (4096 | b).
Proof.
  intros b H. rewrite Z.eqb_eq. change 4095 with (Z.ones 12). rewrite Z.land_ones by lia. change (2 ^ 12) with 4096. rewrite Z.mod_divide by lia. tauto.
Qed.
Lemma starts_exact : forall v ps len bufs, Forall word bufs -> decided (index_starts v ps len bufs) /\ forall ss, index_starts v ps len bufs = Ok ss <-> Forall2 (start_ok v ps len) bufs ss.
Proof.
  intros v ps len. induction bufs as [|b bufs IH]; intros W; cbn [index_starts].
  - split; [auto|]. intros ss. split; [intros H; injection H as <-; constructor|intros H; inversion H; reflexivity].
  - inversion W as [|? ? Wb W']; subst. destruct (IH W') as (D & I). unfold word in Wb.
    match goal with |- decided (rbind ?x _) /\ _ => set (r := x) end.
    assert (R : decided r /\ forall s, r = Ok s <-> start_ok v ps len b s).
    { unfold r, start_ok. destruct v.
      - destruct (Z.leb_spec len (b * ps)); (split; [auto|]); intros s; (split; [|intros (Q1 & Q2)]); try discriminate; try lia.
        + intros Q. injection Q as <-. split; [lia|reflexivity].
        + now subst.
      - destruct (Z.leb_spec len b).
        + split; [auto|]. intros s. split; [discriminate|]. intros (Q1 & -> & _). lia.
        + pose proof (land4095 b ltac:(lia)) as L4. destruct (Z.land b 4095 =? 0); cbn [negb].
          * split; [auto|]. intros s. split; [intros Q; injection Q as <-; split; [lia|split; [reflexivity|tauto]]|intros (_ & -> & _); reflexivity].
          * split; [auto|]. intros s. split; [discriminate|]. intros (_ & _ & Q). apply L4 in Q. discriminate. }
    destruct R as (R1 & R2). clearbody r. split.
    + apply decided_bind; [exact R1|]. intros x _. apply decided_bind; auto.
    + intros ss. split.
      * intros H. bind_in H. bind_in H. injection H as <-. constructor; [now apply R2|now apply I].
      * intros H. inversion H as [|? s ? ss' H1 H2]; subst. apply R2 in H1. rewrite H1. cbn [rbind]. apply I in H2. rewrite H2. reflexivity.
Qed.
Lemma small_mul : forall len ps, 0 < ps -> 0 <= len < 2 ^ 32 -> (len =? u32 (u32 (len / ps) * ps)) = true <-> (ps | len).
Proof.
  intros len ps H H0. rewrite Z.eqb_eq. pose proof (Z.div_mod len ps ltac:(lia)) as D. pose proof (Z.mod_pos_bound len ps ltac:(lia)) as M.
  assert (Q : 0 <= len / ps <= len). { split; [apply Z.div_pos; lia|]. apply Z.div_le_upper_bound; nia. }
  unfold u32. rewrite (Z.mod_small (len / ps)) by lia. rewrite Z.mod_small by nia. rewrite <- Z.mod_divide by lia. split; intros E; nia.
Qed.
Lemma indexes_open : forall v ps len (get : Z -> Z -> res (list Z)) n free bufs, length bufs = n -> n <> 0%nat -> Forall word (free :: bufs) ->
  get 0 (Z.of_nat n * 4 + 4) = Ok (index_file free bufs []) ->
  open_indexes v ps (Some (len, get)) n = if negb (len =? u32 (u32 (len / ps) * ps)) then Throw else if len <=? u32 (free * ps) then Throw else index_starts v ps len bufs.
Proof.
  intros v ps len get n free bufs Hn H0 W E. unfold open_indexes. destruct n as [|n]; [congruence|]. rewrite E. cbn [rbind].
  destruct (negb _); [reflexivity|]. rewrite <- Hn. change (S (length bufs)) with (length (free :: bufs)).
  pose proof (u32s_ok (free :: bufs) [] [] 0 eq_refl W) as U. cbn [app map concat] in U. rewrite <- app_assoc in U. unfold index_file. rewrite U. reflexivity.
Qed.
Lemma firstn_pre : forall (a r : list Z) n, length a = n -> firstn n (a ++ r) = a.
Proof. intros a r n <-. rewrite firstn_app, Nat.sub_diag, firstn_all. apply app_nil_r. Qed.
Lemma index_head_len : forall free bufs, length (le_bytes 4 free ++ concat (map (le_bytes 4) bufs)) = (4 * length bufs + 4)%nat.
Proof. intros. rewrite app_length, le_bytes_length. pose proof (zlen_words bufs). unfold zlen in H. lia. Qed.
Lemma indexes_whole : forall v ps free bufs rest, bufs <> [] -> Forall word (free :: bufs) ->
  open_indexes v ps (Some (from_bytes (index_file free bufs rest))) (length bufs) =
  let len := zlen (index_file free bufs rest) in
  if negb (len =? u32 (u32 (len / ps) * ps)) then Throw else if len <=? u32 (free * ps) then Throw else index_starts v ps len bufs.
Proof.
  intros v ps free bufs rest Hne W. cbv zeta. unfold from_bytes.
  apply indexes_open; [reflexivity|destruct bufs; [congruence|discriminate]|exact W|].
  pose proof (index_head_len free bufs) as L. assert (E : index_file free bufs rest = (le_bytes 4 free ++ concat (map (le_bytes 4) bufs)) ++ rest) by (unfold index_file; now rewrite app_assoc).
  rewrite E. assert (Hh : index_file free bufs [] = le_bytes 4 free ++ concat (map (le_bytes 4) bufs)) by (unfold index_file; now rewrite app_nil_r). rewrite Hh.
  set (h := le_bytes 4 free ++ concat (map (le_bytes 4) bufs)) in *. clearbody h. assert (Lz : zlen h = Z.of_nat (length bufs) * 4 + 4) by (unfold zlen; lia). pose proof (zlen_nonneg rest).
  rewrite zlen_app. destruct (Z.ltb_spec (zlen h + zlen rest) (0 + (Z.of_nat (length bufs) * 4 + 4))); [lia|].
  rewrite rdn_ok by (rewrite ?zlen_app; lia). change (Z.to_nat 0) with 0%nat. rewrite sub_0_firstn. f_equal. apply firstn_pre. lia.
Qed.
(** more indexes than the file has places for *)
Lemma indexes_short : forall v ps d n, (0 < n)%nat -> zlen d < 4 * Z.of_nat n + 4 -> open_indexes v ps (Some (from_bytes d)) n = Throw.
Proof.
  intros v ps d n Hn H. unfold open_indexes, from_bytes. destruct n as [|n]; [lia|]. destruct (negb _); [reflexivity|].
  destruct (Z.ltb_spec (zlen d) (0 + (Z.of_nat (S n) * 4 + 4))); [reflexivity|lia].
Qed.
Lemma indexes_exact : forall v ps free bufs rest, 0 < ps -> bufs <> [] -> Forall word (free :: bufs) -> free * ps < 2 ^ 32 -> zlen (index_file free bufs rest) < 2 ^ 32 ->
  decided (open_indexes v ps (Some (from_bytes (index_file free bufs rest))) (length bufs)) /\
  forall ss, open_indexes v ps (Some (from_bytes (index_file free bufs rest))) (length bufs) = Ok ss <->
    (ps | zlen (index_file free bufs rest)) /\ free * ps < zlen (index_file free bufs rest) /\ Forall2 (start_ok v ps (zlen (index_file free bufs rest))) bufs ss.
Proof.
  intros v ps free bufs rest Hp Hne W Hf Hl. rewrite indexes_whole by assumption. cbv zeta. set (len := zlen _) in *.
  assert (L0 : 0 <= len) by apply zlen_nonneg. pose proof (small_mul len ps Hp ltac:(lia)) as SM. inversion W as [|? ? Wf Wb]; subst. unfold word in Wf.
  destruct (starts_exact v ps len bufs Wb) as (D & I).
  destruct (len =? _); cbn [negb].
  - assert (U : u32 (free * ps) = free * ps) by (unfold u32; apply Z.mod_small; nia). rewrite U. destruct (Z.leb_spec len (free * ps)).
    + split; [auto|]. intros ss. split; [discriminate|]. intros (_ & Q & _). lia.
    + split; [exact D|]. intros ss. rewrite I. split; [intros Q; repeat split; [tauto|lia|exact Q]|tauto].
  - split; [auto|]. intros ss. split; [discriminate|]. intros (Q & _). apply SM in Q. discriminate.
Qed.
Lemma indexes_big : forall v ps len get n, 2 ^ 32 <= len -> open_indexes v ps (Some (len, get)) n = Throw.
Proof.
  intros v ps len get n H. unfold open_indexes. destruct n; [reflexivity|]. cbv zeta.
  destruct (Z.eqb_spec len (u32 (u32 (len / ps) * ps))) as [E|E]; [|reflexivity].
  exfalso. pose proof (Z.mod_pos_bound (u32 (len / ps) * ps) (2 ^ 32) ltac:(lia)) as Q. unfold u32 at 1 in E. lia.
Qed.
Lemma data_exact : forall len reclen n, 0 < reclen -> 0 <= len < 2 ^ 32 -> (open_data (Some len) reclen = Ok n <-> len = n * reclen) /\ decided (open_data (Some len) reclen).
Proof.
  intros len reclen n H H0. unfold open_data. cbv zeta. pose proof (small_mul len reclen H H0) as SM. rewrite Z.eqb_sym in SM.
  assert (Q : 0 <= len / reclen <= len). { split; [apply Z.div_pos; lia|]. apply Z.div_le_upper_bound; nia. }
  assert (U : u32 (len / reclen) = len / reclen) by (unfold u32; apply Z.mod_small; lia).
  destruct (_ =? len); cbn [negb].
  - split; [|auto]. rewrite U. destruct (proj1 SM eq_refl) as (k & K). split; [intros E; injection E as <-; rewrite K, Z.div_mul; lia|]. intros E. rewrite E, Z.div_mul by lia. reflexivity.
  - split; [|auto]. split; [discriminate|]. intros E. assert (false = true); [|discriminate]. apply SM. exists n. exact E.
Qed.
Lemma data_big : forall len reclen, 2 ^ 32 <= len -> open_data (Some len) reclen = Throw.
Proof.
  intros len reclen H. unfold open_data. cbv zeta. destruct (Z.eqb_spec (u32 (u32 (len / reclen) * reclen)) len) as [E|E]; [|reflexivity].
  exfalso. pose proof (Z.mod_pos_bound (u32 (len / reclen) * reclen) (2 ^ 32) ltac:(lia)) as Q. unfold u32 at 1 in E. lia.
Qed.
(** the number of the first free page is multiplied in 32 bits *)
Lemma free_wraps : forall v ps free bufs rest, 0 < ps -> bufs <> [] -> Forall word (free :: bufs) -> zlen (index_file free bufs rest) < 2 ^ 32 ->
  (ps | zlen (index_file free bufs rest)) -> (free * ps) mod 2 ^ 32 < zlen (index_file free bufs rest) ->
  forall ss, Forall2 (start_ok v ps (zlen (index_file free bufs rest))) bufs ss -> open_indexes v ps (Some (from_bytes (index_file free bufs rest))) (length bufs) = Ok ss.
Proof.
  intros v ps free bufs rest Hp Hne W Hl Hd Hf ss Hs. rewrite indexes_whole by assumption. cbv zeta. set (len := zlen _) in *.
  assert (L0 : 0 <= len) by apply zlen_nonneg. rewrite (proj2 (small_mul len ps Hp ltac:(lia)) Hd). cbn [negb]. unfold u32. destruct (Z.leb_spec len ((free * ps) mod 2 ^ 32)); [lia|].
  inversion W; subst. now apply starts_exact.
Qed.
