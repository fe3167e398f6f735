(** Proofs about the export as XML: the reader, the layout of the document, the values. *)
From Coq Require String Ascii.
From Verif Require Import Prelude Lists Bcd_Model Codec_Model Text_Model Field_Model Rec_Model Bcd_Spec Codec_Spec Text_Spec Field_Spec
  Bcd_Proofs Codec_Proofs Text_Proofs Field_Proofs Xml_Model Xml_Spec.
Import String.StringSyntax.
Ltac Zify.zify_post_hook ::= idtac.

(** ** The reader on parts of a text *)
Fixpoint steps (s : state) (t : list Z) : option (list event * state) :=
  match t with
  | [] => Some ([], s)
  | c :: r => match step s c with
              | Some (es, s) => match steps s r with Some (l, s') => Some (es ++ l, s') | None => None end
              | None => None
              end
  end.
Lemma steps_app a : forall s b, steps s (a ++ b) =
  match steps s a with Some (es, s') => match steps s' b with Some (l, s'') => Some (es ++ l, s'') | None => None end | None => None end.
Proof.
  induction a as [|c a IH]; intros s b; simpl; [destruct (steps s b) as [[? ?]|]; reflexivity|].
  destruct (step s c) as [[es s1]|]; [|reflexivity]. rewrite IH. destruct (steps s1 a) as [[l s2]|]; [|reflexivity].
  destruct (steps s2 b) as [[l' s3]|]; [|reflexivity]. now rewrite app_assoc.
Qed.
Lemma run_steps t : forall s, run s t = match steps s t with Some (es, SText acc) => Some (es ++ flush acc) | _ => None end.
Proof.
  induction t as [|c t IH]; intros s; simpl; [destruct s; reflexivity|].
  destruct (step s c) as [[es s1]|]; [|reflexivity]. rewrite IH. destruct (steps s1 t) as [[l s2]|]; [|reflexivity].
  destruct s2; try reflexivity. now rewrite app_assoc.
Qed.
(** line ends *)
Lemma le_id a : Forall (fun c => c <> 13) a -> line_ends a = a.
Proof. induction 1 as [|c a H _ IH]; [reflexivity|]. cbn [line_ends]. destruct (Z.eqb_spec c 13); [contradiction|]. now rewrite IH. Qed.
Lemma le_app0 n : forall a b, (length a <= n)%nat -> last a 0 <> 13 -> line_ends (a ++ b) = line_ends a ++ line_ends b.
Proof.
  induction n as [|n IH]; intros a b Hn Hl; [destruct a; [reflexivity|cbn in Hn; lia]|].
  destruct a as [|c a]; [reflexivity|]. cbn [app line_ends].
  assert (L : forall d a', a = d :: a' -> last a 0 <> 13) by (intros d a' ->; exact Hl).
  destruct (c =? 13) eqn:E.
  - apply Z.eqb_eq in E. subst c. destruct a as [|d a]; [exfalso; apply Hl; reflexivity|].
    specialize (L d a eq_refl). cbn [app]. cbn in Hn. destruct (d =? 10) eqn:E.
    + cbn [app]. f_equal. apply IH; [lia|]. destruct a as [|x a]; [cbn; lia|exact L].
    + cbn [app]. f_equal. change (d :: a ++ b) with ((d :: a) ++ b). apply IH; [cbn; lia|exact L].
  - cbn [app]. f_equal. apply IH; [cbn in Hn; lia|]. destruct a as [|d a]; [cbn; lia|exact (L d a eq_refl)].
Qed.
Lemma le_app a b : last a 0 <> 13 -> line_ends (a ++ b) = line_ends a ++ line_ends b.
Proof. apply le_app0 with (n := length a). lia. Qed.
Lemma last_not a : Forall (fun c => c <> 13) a -> last a 0 <> 13.
Proof. induction 1 as [|c a H Ha IH]; [cbn; lia|]. destruct a; [exact H|exact IH]. Qed.
Lemma last_app_not a b : b <> [] -> last (a ++ b) 0 = last b 0.
Proof. intros H. induction a as [|x a IH]; [reflexivity|]. cbn [app last]. destruct (a ++ b) eqn:E; [destruct a; [cbn in E; congruence|discriminate]|exact IH]. Qed.
(** names and attribute values *)
Lemma steps_end w : forall n, Forall (fun c => name_char c = true) w -> steps (SEnd n) w = Some ([], SEnd (rev w ++ n)).
Proof.
  induction w as [|c w IH]; intros n H; [reflexivity|]. inversion H; subst. cbn [steps step].
  destruct (Z.eqb_spec c 62) as [->|]; [discriminate|]. rewrite H2, IH by assumption. cbn [rev app]. now rewrite <- app_assoc.
Qed.
Lemma steps_name w : forall n, Forall (fun c => name_char c = true) w -> steps (SName n) w = Some ([], SName (rev w ++ n)).
Proof.
  induction w as [|c w IH]; intros n H; [reflexivity|]. inversion H; subst. cbn [steps step].
  destruct (Z.eqb_spec c 62) as [->|]; [discriminate|]. destruct (Z.eqb_spec c 47) as [->|]; [discriminate|].
  assert (is_space c = false) as ->.
  { unfold is_space. destruct (Z.eqb_spec c 32) as [->|]; [discriminate|]. destruct (Z.eqb_spec c 9) as [->|]; [discriminate|].
    destruct (Z.eqb_spec c 10) as [->|]; [discriminate|]. destruct (Z.eqb_spec c 13) as [->|]; [discriminate|]. reflexivity. }
  rewrite H2, IH by assumption. cbn [rev app]. now rewrite <- app_assoc.
Qed.
Lemma steps_val w : forall n l a v, Forall (fun c => c <> 34 /\ c <> 60 /\ c <> 38) w -> steps (SVal n l a v) w = Some ([], SVal n l a (rev w ++ v)).
Proof.
  induction w as [|c w IH]; intros n l a v H; [reflexivity|]. inversion H; subst. cbn [steps step].
  destruct (Z.eqb_spec c 34); [lia|]. destruct (Z.eqb_spec c 60); [lia|]. destruct (Z.eqb_spec c 38); [lia|]. cbn [orb].
  rewrite IH by assumption. cbn [rev app]. now rewrite <- app_assoc.
Qed.
Lemma name_not c x : name_char c = true -> name_char x = false -> c <> x.
Proof. intros H G E. subst. congruence. Qed.
Lemma steps_open n : xml_name n -> steps SLt n = Some ([], SName (rev n)).
Proof.
  intros [Hn Hf]. destruct n as [|c n]; [congruence|]. inversion Hf; subst. cbn [steps step].
  destruct (Z.eqb_spec c 63) as [->|]; [discriminate|]. destruct (Z.eqb_spec c 33) as [->|]; [discriminate|].
  destruct (Z.eqb_spec c 47) as [->|]; [discriminate|]. rewrite H1, steps_name by assumption. reflexivity.
Qed.

(** ** Parts of a document *)
Definition space (l : list Z) : Prop := forallb is_space l = true.
(** a part that stands inside the elements [open] and holds complete elements with the events [es] and space *)
Definition piece (open : list (list Z)) (w : list Z) (es : list event) : Prop :=
  forall acc, space acc -> exists raw acc', steps (SText acc) w = Some (raw, SText acc') /\ space acc' /\
    (forall r, nested open (raw ++ r) = nested open r) /\
    (forall r, content (length open) (raw ++ r) = match content (length open) r with Some k => Some (es ++ k) | None => None end).
Lemma space_rev l : space l -> space (rev l).
Proof. unfold space. intros H. apply forallb_forall. intros x Hx. apply in_rev in Hx. now apply (proj1 (forallb_forall _ _) H). Qed.
Lemma space_app a b : space a -> space b -> space (a ++ b).
Proof. unfold space. intros. now rewrite forallb_app, H, H0. Qed.
Lemma piece_nil open : piece open [] [].
Proof.
  intros acc H. exists [], acc. repeat split; auto. intros r. cbn [app].
  now destruct (content (length open) r).
Qed.
Lemma piece_app open w1 e1 w2 e2 : piece open w1 e1 -> piece open w2 e2 -> piece open (w1 ++ w2) (e1 ++ e2).
Proof.
  intros P Q acc H. destruct (P acc H) as (r1 & a1 & S1 & A1 & N1 & C1). destruct (Q a1 A1) as (r2 & a2 & S2 & A2 & N2 & C2).
  exists (r1 ++ r2), a2. rewrite steps_app, S1, S2. repeat split; [assumption| |].
  - intros r. now rewrite <- app_assoc, N1, N2.
  - intros r. rewrite <- app_assoc, C1, C2. destruct (content (length open) r); [now rewrite app_assoc|reflexivity].
Qed.
Lemma steps_text w : forall acc, Forall (fun c => c <> 60 /\ c <> 38) w -> steps (SText acc) w = Some ([], SText (rev w ++ acc)).
Proof.
  induction w as [|c w IH]; intros acc H; [reflexivity|]. inversion H; subst. cbn [steps step].
  destruct (Z.eqb_spec c 60); [lia|]. destruct (Z.eqb_spec c 38); [lia|]. rewrite IH by assumption. cbn [rev app]. now rewrite <- app_assoc.
Qed.
Lemma space_text w : space w -> Forall (fun c => c <> 60 /\ c <> 38) w.
Proof.
  intros H. apply Forall_forall. intros c Hc. pose proof (proj1 (forallb_forall _ _) H c Hc) as E. unfold is_space in E.
  split; intros ->; discriminate.
Qed.
Lemma piece_space open w : space w -> piece open w [].
Proof.
  intros H acc A. exists [], (rev w ++ acc). rewrite steps_text by now apply space_text. repeat split.
  - apply space_app; [now apply space_rev|assumption].
  - intros r. cbn [app]. now destruct (content (length open) r).
Qed.
Lemma flush_nested open acc r : space acc -> nested open (flush acc ++ r) = nested open r.
Proof.
  intros H. destruct acc as [|c acc]; [reflexivity|]. cbn [flush app nested].
  destruct open; [|reflexivity]. apply space_rev in H. unfold space in H. now rewrite H.
Qed.
Lemma flush_content d acc r : d <> 4%nat -> space acc -> content d (flush acc ++ r) = content d r.
Proof.
  intros Hd H. destruct acc as [|c acc]; [reflexivity|]. cbn [flush app content].
  destruct (Nat.eqb_spec d 4); [contradiction|]. apply space_rev in H. unfold space in H. now rewrite H.
Qed.
(** an element with the start tag [<n attrs>]: [tag] is what stands between the angle brackets *)
Definition opens (tag n : list Z) (attrs : list (list Z * list Z)) : Prop :=
  forall r, steps SLt (tag ++ 62 :: r) = match steps (SText []) r with Some (l, s) => Some (Start n attrs :: l, s) | None => None end.
Lemma opens_name n : xml_name n -> opens n n [].
Proof.
  intros H r. rewrite steps_app, steps_open by assumption. cbn [steps step]. change (62 =? 62) with true. cbn [steps].
  rewrite rev_involutive. now destruct (steps (SText []) r) as [[l s]|].
Qed.
Lemma steps_close n r : Forall (fun c => name_char c = true) n -> steps SLt (47 :: n ++ 62 :: r) =
  match steps (SText []) r with Some (l, s) => Some (Stop n :: l, s) | None => None end.
Proof.
  intros H. cbn [steps step]. change (47 =? 63) with false. change (47 =? 33) with false. change (47 =? 47) with true. cbv iota.
  rewrite steps_app, steps_end by assumption. cbn [steps step]. change (62 =? 62) with true. cbn [steps].
  rewrite app_nil_r, rev_involutive. now destruct (steps (SText []) r) as [[l s]|].
Qed.
Lemma steps_lt acc r : steps (SText acc) (60 :: r) = match steps SLt r with Some (l, s) => Some (flush acc ++ l, s) | None => None end.
Proof. reflexivity. Qed.
Lemma piece_elem open tag n attrs w es : (length open < 3)%nat -> opens tag n attrs -> xml_name n -> piece (n :: open) w es ->
  piece open (60 :: tag ++ 62 :: w ++ 60 :: 47 :: n ++ [62]) (Start n attrs :: es ++ [Stop n]).
Proof.
  intros D O N P acc A. destruct (P [] eq_refl) as (raw & acc' & S0 & A' & NE & CO).
  exists (flush acc ++ Start n attrs :: raw ++ flush acc' ++ [Stop n]), [].
  split; [|split; [reflexivity|split]].
  - rewrite steps_lt, O, steps_app, S0, steps_lt.
    change (47 :: n ++ [62]) with (47 :: n ++ 62 :: []). rewrite steps_close by apply N. cbn [steps]. reflexivity.
  - intros r. rewrite <- !app_assoc, flush_nested by assumption. cbn [app nested]. rewrite <- !app_assoc, NE, flush_nested by assumption.
    cbn [app nested]. now destruct (list_eq_dec Z.eq_dec n n).
  - intros r. rewrite <- !app_assoc, flush_content by (assumption || lia). cbn [app content].
    rewrite <- !app_assoc. change (S (length open)) with (length (n :: open)). rewrite CO, flush_content by (cbn; lia || assumption).
    cbn [app content length pred]. destruct (content (length open) r); [|reflexivity]. cbn [app]. now rewrite <- app_assoc.
Qed.

(** ** Cells: the value [w] is read as the text [t] *)
Definition good (w t : list Z) : Prop :=
  Forall (fun c => xml_char c = true /\ c <> 13) w /\ forall acc, steps (SText acc) w = Some ([], SText (rev t ++ acc)).
Lemma flush_rev t : flush (rev t) = match t with [] => [] | _ => [Chars t] end.
Proof.
  destruct t as [|c t]; [reflexivity|]. unfold flush. cbn [rev]. destruct (rev t ++ [c]) eqn:E; [destruct (rev t); discriminate|].
  rewrite <- E. now rewrite rev_app_distr, rev_involutive.
Qed.
Lemma piece_cell open n w t : length open = 3%nat -> xml_name n -> good w t ->
  piece open (60 :: n ++ 62 :: w ++ 60 :: 47 :: n ++ [62]) (cell_events (n, t)).
Proof.
  intros D N [_ G] acc A. exists (flush acc ++ cell_events (n, t)), [].
  split; [|split; [reflexivity|split]].
  - rewrite steps_lt, (opens_name n N), steps_app, G, app_nil_r, steps_lt.
    change (47 :: n ++ [62]) with (47 :: n ++ 62 :: []). rewrite steps_close by apply N. cbn [steps app]. rewrite flush_rev. now destruct t.
  - intros r. rewrite <- app_assoc, flush_nested by assumption. unfold cell_events. cbn [fst snd app nested]. rewrite <- app_assoc.
    destruct t; cbn [app nested]; now destruct (list_eq_dec Z.eq_dec n n).
  - intros r. rewrite <- app_assoc, flush_content by (assumption || lia). unfold cell_events. cbn [fst snd app content]. rewrite <- app_assoc, D.
    destruct t; cbn [app content pred Nat.eqb]; now destruct (content 3 r).
Qed.
Lemma steps_empty n r : xml_name n -> steps SLt (n ++ 47 :: 62 :: r) =
  match steps (SText []) r with Some (l, s) => Some (Start n [] :: Stop n :: l, s) | None => None end.
Proof.
  intros H. rewrite steps_app, steps_open by assumption. cbn [steps step]. change (47 =? 62) with false. change (47 =? 47) with true. cbn [steps step].
  change (62 =? 62) with true. cbv iota. rewrite rev_involutive. cbn [app]. now destruct (steps (SText []) r) as [[l s]|].
Qed.
Lemma piece_null open n : length open = 3%nat -> xml_name n -> piece open (60 :: n ++ [47; 62]) (cell_events (n, [])).
Proof.
  intros D N acc A. exists (flush acc ++ cell_events (n, [])), [].
  split; [|split; [reflexivity|split]].
  - rewrite steps_lt. change (n ++ [47; 62]) with (n ++ 47 :: 62 :: []). rewrite steps_empty by assumption. reflexivity.
  - intros r. rewrite <- app_assoc, flush_nested by assumption. unfold cell_events. cbn [fst snd app nested]. now destruct (list_eq_dec Z.eq_dec n n).
  - intros r. rewrite <- app_assoc, flush_content by (assumption || lia). unfold cell_events. cbn [fst snd app content]. rewrite D. cbn [content pred].
    now destruct (content 3 r).
Qed.
(** ** Attributes *)
Definition attr_ok (v : list Z) : Prop := Forall (fun c => c <> 34 /\ c <> 60 /\ c <> 38) v.
Lemma steps_attr n l a v : (forall c, In c a -> name_char c = true) -> a <> [] -> attr_ok v ->
  steps (STag n l) (32 :: a ++ [61; 34] ++ v ++ [34]) = Some ([], STag n (l ++ [(a, v)])).
Proof.
  intros Ha Hn Hv.
  assert (A : forall w x, (forall c, In c w -> name_char c = true) -> steps (SAttr n l x) w = Some ([], SAttr n l (rev w ++ x))).
  { induction w as [|c w IH]; intros x H; [reflexivity|]. cbn [steps step].
    assert (C : name_char c = true) by (apply H; now left).
    destruct (Z.eqb_spec c 61) as [->|]; [discriminate|]. rewrite C, IH by (intros; apply H; now right). cbn [rev app]. now rewrite <- app_assoc. }
  change (32 :: a ++ [61; 34] ++ v ++ [34]) with ([32] ++ a ++ [61; 34] ++ v ++ [34]).
  rewrite steps_app. change (steps (STag n l) [32]) with (Some (@nil event, STag n l)). cbv iota. rewrite steps_app.
  destruct a as [|c a]; [congruence|].
  assert (E : steps (STag n l) (c :: a) = Some ([], SAttr n l (rev (c :: a)))).
  { cbn [steps step]. assert (C : name_char c = true) by (apply Ha; now left).
    destruct (Z.eqb_spec c 62) as [->|]; [discriminate|]. destruct (Z.eqb_spec c 47) as [->|]; [discriminate|].
    assert (is_space c = false) as ->.
    { unfold is_space. destruct (Z.eqb_spec c 32) as [->|]; [discriminate|]. destruct (Z.eqb_spec c 9) as [->|]; [discriminate|].
      destruct (Z.eqb_spec c 10) as [->|]; [discriminate|]. destruct (Z.eqb_spec c 13) as [->|]; [discriminate|]. reflexivity. }
    rewrite C, A by (intros; apply Ha; now right). reflexivity. }
  rewrite E, steps_app. cbn [steps step]. change (61 =? 61) with true. cbn [steps step]. change (34 =? 34) with true. cbn [steps].
  rewrite rev_involutive, steps_app, steps_val by assumption. cbn [steps step]. change (34 =? 34) with true. cbn [steps app].
  now rewrite app_nil_r, rev_involutive.
Qed.
Lemma steps_first n : xml_name n -> steps SLt (n ++ [32]) = Some ([], STag n []).
Proof.
  intros H. rewrite steps_app, steps_open by assumption. cbn [steps step]. change (32 =? 62) with false. change (32 =? 47) with false.
  change (is_space 32) with true. cbn [steps]. now rewrite rev_involutive.
Qed.
(** spaces between name and attributes may be repeated *)
Lemma steps_name_attr n a v r : xml_name n -> (forall c, In c a -> name_char c = true) -> a <> [] -> attr_ok v ->
  steps SLt (n ++ 32 :: a ++ [61; 34] ++ v ++ [34] ++ r) = steps (STag n [(a, v)]) r.
Proof.
  intros Hn Ha Hne Hv. replace (n ++ 32 :: a ++ [61; 34] ++ v ++ [34] ++ r) with ((n ++ [32]) ++ (a ++ [61; 34] ++ v ++ [34]) ++ r) by (rewrite <- !app_assoc; reflexivity).
  rewrite steps_app, steps_first by assumption.
  pose proof (steps_attr n [] a v Ha Hne Hv) as E.
  change (32 :: a ++ [61; 34] ++ v ++ [34]) with ([32] ++ (a ++ [61; 34] ++ v ++ [34])) in E. rewrite steps_app in E.
  change (steps (STag n []) [32]) with (Some (@nil event, STag n [])) in E. cbv iota in E.
  rewrite steps_app. destruct (steps (STag n []) (a ++ [61; 34] ++ v ++ [34])) as [[l s]|]; [|discriminate].
  cbn [app] in E. inversion E; subst. cbn [app]. now destruct (steps (STag n [(a, v)]) r) as [[? ?]|].
Qed.
Lemma steps_more n l a v r : (forall c, In c a -> name_char c = true) -> a <> [] -> attr_ok v ->
  steps (STag n l) (32 :: a ++ [61; 34] ++ v ++ [34] ++ r) = steps (STag n (l ++ [(a, v)])) r.
Proof.
  intros Ha Hne Hv. replace (32 :: a ++ [61; 34] ++ v ++ [34] ++ r) with ((32 :: a ++ [61; 34] ++ v ++ [34]) ++ r) by (cbn [app]; f_equal; rewrite <- app_assoc; cbn [app]; do 3 f_equal; now rewrite <- app_assoc).
  rewrite steps_app, steps_attr by assumption. now destruct (steps (STag n (l ++ [(a, v)])) r) as [[? ?]|].
Qed.

(** ** Text and its form after the treatment of line ends *)
Definition norm (a b : list Z) : Prop := Forall (fun c => xml_char c = true) a /\ forall y, line_ends (a ++ y) = b ++ line_ends y.
Lemma norm_app a b a' b' : norm a b -> norm a' b' -> norm (a ++ a') (b ++ b').
Proof. intros [X N] [X' N']. split; [now apply Forall_app|]. intros y. now rewrite <- app_assoc, N, N', app_assoc. Qed.
Lemma norm_id a : Forall (fun c => xml_char c = true /\ c <> 13) a -> norm a a.
Proof.
  intros H. split; [eapply Forall_impl; [|exact H]; cbn; tauto|].
  induction H as [|c a [_ H] _ IH]; intros y; [reflexivity|]. cbn [app line_ends]. destruct (Z.eqb_spec c 13); [contradiction|]. now rewrite IH.
Qed.
Lemma norm_nil : norm [] [].
Proof. apply norm_id. constructor. Qed.
Definition part_ok (open : list (list Z)) (a : list Z) (es : list event) : Prop := exists b, norm a b /\ piece open b es.
Lemma part_nil open : part_ok open [] [].
Proof. exists []. split; [apply norm_nil|apply piece_nil]. Qed.
Lemma part_app open a es a' es' : part_ok open a es -> part_ok open a' es' -> part_ok open (a ++ a') (es ++ es').
Proof. intros (b & N & P) (b' & N' & P'). exists (b ++ b'). split; [now apply norm_app|now apply piece_app]. Qed.
(** line end, then tabs *)
Lemma part_tabs open k : part_ok open (repeat 9 k) [].
Proof.
  exists (repeat 9 k). split; [apply norm_id; apply Forall_forall; intros c Hc; apply repeat_spec in Hc; subst; split; [reflexivity|lia]|].
  apply piece_space. unfold space. apply forallb_forall. intros c Hc. apply repeat_spec in Hc. now subst.
Qed.
Lemma part_eol open : part_ok open eol [].
Proof.
  exists [10]. split; [split; [repeat constructor|reflexivity]|]. apply piece_space. reflexivity.
Qed.
Lemma name_ok n : Forall (fun c => name_char c = true) n -> Forall (fun c => xml_char c = true /\ c <> 13) n.
Proof.
  intros H. eapply Forall_impl; [|exact H]. cbn. intros c E. split; [|intros ->; discriminate].
  unfold xml_char. destruct (Z.leb_spec 32 c); [reflexivity|]. exfalso. unfold name_char in E.
  destruct (Z.leb_spec 65 c); [lia|]. destruct (Z.leb_spec 97 c); [lia|]. destruct (Z.leb_spec 48 c); [lia|].
  destruct (Z.eqb_spec c 45); [lia|]. destruct (Z.eqb_spec c 46); [lia|]. destruct (Z.eqb_spec c 95); [lia|]. destruct (Z.eqb_spec c 58); [lia|].
  destruct (Z.leb_spec 128 c); [lia|]. discriminate.
Qed.
Ltac chars_ok := repeat (apply Forall_cons; [split; [reflexivity|lia]|]); apply Forall_nil.
Lemma part_elem open tag n attrs a es : (length open < 3)%nat -> opens tag n attrs -> Forall (fun c => xml_char c = true /\ c <> 13) tag ->
  xml_name n -> part_ok (n :: open) a es ->
  part_ok open ([60] ++ tag ++ [62] ++ a ++ [60; 47] ++ n ++ [62]) (Start n attrs :: es ++ [Stop n]).
Proof.
  intros D O T N (b & NO & P). exists ([60] ++ tag ++ [62] ++ b ++ [60; 47] ++ n ++ [62]). split.
  - repeat apply norm_app; try assumption; apply norm_id; try chars_ok; [exact T|apply name_ok, N].
  - now apply piece_elem.
Qed.
Lemma part_cell open n v w : length open = 3%nat -> xml_name n -> good v w ->
  part_ok open ([60] ++ n ++ [62] ++ v ++ [60; 47] ++ n ++ [62]) (cell_events (n, w)).
Proof.
  intros D N G. exists ([60] ++ n ++ [62] ++ v ++ [60; 47] ++ n ++ [62]). split.
  - repeat apply norm_app; apply norm_id; try chars_ok; try (apply name_ok, N). apply G.
  - now apply piece_cell.
Qed.
Lemma part_null open n : length open = 3%nat -> xml_name n -> part_ok open ([60] ++ n ++ [47; 62]) (cell_events (n, [])).
Proof.
  intros D N. exists ([60] ++ n ++ [47; 62]). split.
  - repeat apply norm_app; apply norm_id; try chars_ok; apply name_ok, N.
  - now apply piece_null.
Qed.
(** an element without content *)
Lemma part_single open tag n attrs : length open <> 4%nat -> length open <> 3%nat ->
  Forall (fun c => xml_char c = true /\ c <> 13) tag ->
  steps SLt (tag ++ [47; 62]) = Some ([Start n attrs; Stop n], SText []) -> part_ok open ([60] ++ tag ++ [47; 62]) [Start n attrs; Stop n].
Proof.
  intros D D' T S. exists ([60] ++ tag ++ [47; 62]). split.
  - repeat apply norm_app; apply norm_id; try chars_ok; exact T.
  - intros acc A. exists (flush acc ++ [Start n attrs; Stop n]), []. split; [|split; [reflexivity|split]].
    + cbn [app]. rewrite steps_lt, S. reflexivity.
    + intros r. rewrite <- app_assoc, flush_nested by assumption. cbn [app nested]. now destruct (list_eq_dec Z.eq_dec n n).
    + intros r. rewrite <- app_assoc, flush_content by assumption. cbn [app content pred]. now destruct (content (length open) r).
Qed.
(** ** The document *)
Ltac unlit := repeat match goal with
  | |- context [lit ?s] => let v := eval vm_compute in (lit s) in change (lit s) with v
  | |- context [str ?s] => let v := eval vm_compute in (str s) in change (str s) with v
  end.
Ltac name_tac := split; [discriminate|repeat (apply Forall_cons; [reflexivity|]); apply Forall_nil].
Ltac in_tac := let c := fresh in let H := fresh in intros c H; cbn in H; repeat (destruct H as [<-|H]; [reflexivity|]); contradiction.
Lemma attr_name n : Forall (fun c => name_char c = true) n -> attr_ok n.
Proof. intros H. eapply Forall_impl; [|exact H]. cbn. intros c E. split; [|split]; intros ->; discriminate. Qed.
Lemma part_field open f fd : length open = 2%nat -> xml_name (x_name f) ->
  fd_name fd = x_name f -> fd_type fd = type_name (f_kind (x_f f)) -> fd_len fd = to_str (f_len (x_f f)) -> fd_prec fd = to_str (x_prec f) ->
  attr_ok (fd_len fd) -> attr_ok (fd_prec fd) ->
  Forall (fun c => xml_char c = true /\ c <> 13) (fd_len fd) -> Forall (fun c => xml_char c = true /\ c <> 13) (fd_prec fd) ->
  fd_req fd = negb (f_null (x_f f)) -> part_ok open (field_head f) (field_events fd).
Proof.
  intros D N E1 E2 E3 E4 A3 A4 C3 C4 E5.
  assert (T : attr_ok (type_name (f_kind (x_f f))) /\ Forall (fun c => xml_char c = true /\ c <> 13) (type_name (f_kind (x_f f)))).
  { split; destruct (f_kind (x_f f)); unfold type_name; unlit; unfold attr_ok; repeat (apply Forall_cons; [split; [discriminate || reflexivity|lia]|]); apply Forall_nil. }
  destruct T as [A2 C2].
  set (req := if f_null (x_f f) then lit "false" else lit "true").
  assert (A5 : attr_ok req /\ Forall (fun c => xml_char c = true /\ c <> 13) req).
  { unfold req. destruct (f_null (x_f f)); unlit; split; unfold attr_ok; repeat (apply Forall_cons; [split; [discriminate || reflexivity|lia]|]); apply Forall_nil. }
  destruct A5 as [A5 C5].
  set (tagr := fun r => lit "Field" ++ 32 :: lit "Name" ++ [61; 34] ++ x_name f ++ [34] ++ 32 :: lit "Type" ++ [61; 34] ++ type_name (f_kind (x_f f)) ++ [34] ++
    32 :: lit "Length" ++ [61; 34] ++ fd_len fd ++ [34] ++ 32 :: lit "Precision" ++ [61; 34] ++ fd_prec fd ++ [34] ++
    32 :: lit "NotNull" ++ [61; 34] ++ req ++ [34] ++ r).
  set (tag := tagr []).
  assert (TR : forall r, tag ++ r = tagr r) by (intros r; unfold tag, tagr; unlit; cbn [app]; repeat (f_equal; try rewrite <- app_assoc; cbn [app])).
  assert (EH : field_head f = repeat 9 2 ++ ([60] ++ tag ++ [47; 62]) ++ eol).
  { replace (repeat 9 2 ++ ([60] ++ tag ++ [47; 62]) ++ eol) with (repeat 9 2 ++ [60] ++ tagr ([47; 62] ++ eol))
      by (rewrite <- TR, <- !app_assoc; reflexivity).
    unfold field_head, tagr. fold req. rewrite <- E3, <- E4. unlit. cbn [app repeat eol]. reflexivity. }
  rewrite EH. unfold field_events. change [Start ?a ?b; Stop ?c] with ([] ++ [Start a b; Stop c] ++ []).
  apply part_app; [apply part_tabs|]. apply part_app; [|apply part_eol].
  apply part_single; [lia|lia| |].
  - unfold tag, tagr. unlit.
    repeat first [apply name_ok, N | assumption | apply Forall_app; split | apply Forall_cons; [split; [reflexivity|lia]|] | apply Forall_nil].
  - rewrite TR. unfold tagr. rewrite steps_name_attr; [|unlit; name_tac|unlit; in_tac|unlit; discriminate|apply attr_name, N].
    rewrite !steps_more; try assumption; try (unlit; in_tac); try (unlit; discriminate).
    rewrite E1, E2, E5. cbn [app steps step]. change (47 =? 62) with false. change (47 =? 47) with true. cbn [steps step]. change (62 =? 62) with true.
    cbn [steps app]. unfold req. now destruct (f_null (x_f f)).
Qed.
Definition fdoc_ok (f : xfield) (fd : fdoc) : Prop :=
  xml_name (x_name f) /\ fd_name fd = x_name f /\ fd_type fd = type_name (f_kind (x_f f)) /\ fd_len fd = to_str (f_len (x_f f)) /\ fd_prec fd = to_str (x_prec f) /\
  attr_ok (fd_len fd) /\ attr_ok (fd_prec fd) /\
  Forall (fun c => xml_char c = true /\ c <> 13) (fd_len fd) /\ Forall (fun c => xml_char c = true /\ c <> 13) (fd_prec fd) /\
  fd_req fd = negb (f_null (x_f f)).
Lemma part_fields open fs fds : length open = 2%nat -> Forall2 fdoc_ok fs fds -> part_ok open (flat_map field_head fs) (flat_map field_events fds).
Proof.
  intros D H. induction H as [|f fd fs fds (N & H1 & H2 & H3 & H4 & H5 & H6 & H7 & H8 & H9) _ IH]; [apply part_nil|].
  cbn [flat_map]. apply part_app; [now apply part_field|exact IH].
Qed.
Definition prolog : list Z := lit "<?xml version=""1.0"" encoding=""UTF-8""?>" ++ eol ++ lit "<!--" ++ comment_text ++ lit "-->" ++ eol.
Definition prolog' : list Z := lit "<?xml version=""1.0"" encoding=""UTF-8""?>" ++ [10] ++ lit "<!--" ++ comment_text ++ lit "-->" ++ [10].
Lemma part_prolog : part_ok [] prolog [].
Proof.
  exists prolog'. split.
  - unfold prolog, prolog'. unfold comment_text. repeat apply norm_app; try (apply norm_id; unlit; chars_ok);
    (split; [repeat constructor|reflexivity]).
  - intros acc A. exists (flush acc ++ [Chars [10]]), [10]. split; [|split; [reflexivity|split]].
    + assert (E : prolog' = 60 :: tl prolog') by (vm_compute; reflexivity). rewrite E, steps_lt.
      assert (F : steps SLt (tl prolog') = Some ([Chars [10]], SText [10])) by (vm_compute; reflexivity). rewrite F. reflexivity.
    + intros r. rewrite <- app_assoc, flush_nested by assumption. reflexivity.
    + intros r. rewrite <- app_assoc. cbn [length]. rewrite flush_content by (assumption || lia). cbn [app content Nat.eqb forallb].
      change (forallb is_space [10]) with true. cbv iota. now destruct (content 0 r).
Qed.
Definition whole (name fields o : list Z) : list Z :=
  lit "<?xml version=""1.0"" encoding=""UTF-8""?>" ++ eol ++
      lit "<!--" ++ comment_text ++ lit "-->" ++ eol ++ lit "<Table Name=""" ++ name ++ lit """>" ++ eol ++
      [9] ++ lit "<Fields>" ++ eol ++ fields ++ [9] ++ lit "</Fields>" ++ eol ++
      [9] ++ lit "<Records>" ++ eol ++ o ++ [9] ++ lit "</Records>" ++ eol ++ lit "</Table>" ++ eol.
Lemma part_whole name fs fds o res : Forall (fun c => name_char c = true) name -> Forall2 fdoc_ok fs fds ->
  part_ok [str "Records"; str "Table"] o res ->
  part_ok [] (whole name (flat_map field_head fs) o)
    ([Start (str "Table") [(str "Name", name)]; Start (str "Fields") []] ++ flat_map field_events fds ++
     [Stop (str "Fields"); Start (str "Records") []] ++ res ++ [Stop (str "Records"); Stop (str "Table")]).
Proof.
  intros N F P.
  pose proof (part_fields [str "Fields"; str "Table"] fs fds eq_refl F) as PF.
  set (fh := flat_map field_head fs) in *. set (fe := flat_map field_events fds) in *.
  set (tag := lit "Table" ++ 32 :: lit "Name" ++ [61; 34] ++ name ++ [34]).
  assert (E : whole name fh o = prolog ++ ([60] ++ tag ++ [62] ++
      (eol ++ repeat 9 1 ++ ([60] ++ str "Fields" ++ [62] ++ (eol ++ fh ++ repeat 9 1) ++ [60; 47] ++ str "Fields" ++ [62]) ++ eol ++ repeat 9 1 ++
       ([60] ++ str "Records" ++ [62] ++ (eol ++ o ++ repeat 9 1) ++ [60; 47] ++ str "Records" ++ [62]) ++ eol) ++
      [60; 47] ++ str "Table" ++ [62]) ++ eol).
  { unfold whole, prolog, tag. rewrite <- !app_assoc. do 6 f_equal.
    unlit. cbn [app repeat eol]. repeat (progress (repeat rewrite <- app_assoc; cbn [app])). reflexivity. }
  rewrite E.
  replace ([Start (str "Table") [(str "Name", name)]; Start (str "Fields") []] ++ fe ++
     [Stop (str "Fields"); Start (str "Records") []] ++ res ++ [Stop (str "Records"); Stop (str "Table")])
  with ([] ++ (Start (str "Table") [(str "Name", name)] :: ([] ++ [] ++ (Start (str "Fields") [] :: ([] ++ fe ++ []) ++ [Stop (str "Fields")]) ++ [] ++ [] ++
     (Start (str "Records") [] :: ([] ++ res ++ []) ++ [Stop (str "Records")]) ++ []) ++ [Stop (str "Table")]) ++ []).
  2:{ rewrite !app_nil_r. repeat (progress (repeat rewrite <- app_assoc; cbn [app])). reflexivity. }
  assert (NM : forall x, x = str "Table" \/ x = str "Fields" \/ x = str "Records" -> xml_name x) by (intros x [->|[->| ->]]; unlit; name_tac).
  apply part_app; [apply part_prolog|]. apply part_app; [|apply part_eol].
  apply part_elem; [cbn; lia| |unfold tag|now apply NM; auto|].
  - intros r. unfold tag.
    replace ((lit "Table" ++ 32 :: lit "Name" ++ [61; 34] ++ name ++ [34]) ++ 62 :: r) with (lit "Table" ++ 32 :: lit "Name" ++ [61; 34] ++ name ++ [34] ++ 62 :: r)
      by (unlit; repeat (progress (repeat rewrite <- app_assoc; cbn [app])); reflexivity).
    rewrite steps_name_attr; [|unlit; name_tac|unlit; in_tac|unlit; discriminate|now apply attr_name]. reflexivity.
  - unlit. repeat first [apply name_ok, N | apply Forall_app; split | apply Forall_cons; [split; [reflexivity|lia]|] | apply Forall_nil].
  - apply part_app; [apply part_eol|]. apply part_app; [apply part_tabs|]. apply part_app.
    { apply part_elem; [cbn; lia|apply opens_name; now apply NM; auto|apply name_ok, NM; auto|now apply NM; auto|].
      apply part_app; [apply part_eol|]. apply part_app; [exact PF|apply part_tabs]. }
    apply part_app; [apply part_eol|]. apply part_app; [apply part_tabs|]. apply part_app; [|apply part_eol].
    apply part_elem; [cbn; lia|apply opens_name; now apply NM; auto|apply name_ok, NM; auto|now apply NM; auto|].
    apply part_app; [apply part_eol|]. apply part_app; [exact P|apply part_tabs].
Qed.
Lemma read_part a es : part_ok [] a es -> read_xml ([239; 187; 191] ++ a) = Some es.
Proof.
  intros (b & [X N] & P). cbn [app read_xml].
  assert (forallb xml_char a = true) as ->.
  { apply forallb_forall. intros c Hc. exact (proj1 (Forall_forall _ _) X c Hc). }
  specialize (N []). rewrite app_nil_r in N. cbn [line_ends] in N. rewrite app_nil_r in N. rewrite N, run_steps.
  destruct (P [] eq_refl) as (raw & acc' & S & A & NE & CO). rewrite S, NE.
  pose proof (CO (flush acc')) as C. cbn [length] in C. rewrite C.
  pose proof (flush_nested [] acc' [] A) as F. pose proof (flush_content 0 acc' [] ltac:(lia) A) as G. rewrite app_nil_r in F, G.
  rewrite F, G. cbn [nested content]. now rewrite app_nil_r.
Qed.
