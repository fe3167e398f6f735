(** Proofs about the texts that the graphical program shows and keeps. *)
From Verif Require Import Prelude Lists Text_Model Tree_Model Stream_Model Stream_Spec Stream_Proofs Cf_Model Gui_Model Gui_Spec.
Ltac Zify.zify_post_hook ::= idtac.

(** ** The presentation of a value *)
Lemma find_none s : forall i, ~ In 10 s -> find_from 10 s i = -1.
Proof. induction s as [|x s IH]; intros i N; [reflexivity|]. cbn [find_from]. destruct (Z.eqb_spec x 10) as [->|]; [exfalso; apply N; left; reflexivity|]. apply IH. intros K. apply N. right. exact K. Qed.
Lemma find_some a r : forall i, ~ In 10 a -> find_from 10 (a ++ 10 :: r) i = i + zlen a.
Proof.
  induction a as [|x a IH]; intros i N; cbn [app find_from]; [rewrite Z.eqb_refl; unfold zlen; cbn [length]; lia|].
  destruct (Z.eqb_spec x 10) as [->|]; [exfalso; apply N; left; reflexivity|]. rewrite IH by (intros K; apply N; right; exact K). unfold zlen. cbn [length]. lia.
Qed.
Lemma cut_ok s : (if 40 <? zlen s then q_left s 37 ++ [46;46;46] else s) = cut_line s.
Proof.
  unfold cut_line, q_left. destruct (Nat.leb_spec (length s) 40); [replace (40 <? zlen s) with false by (unfold zlen; lia); reflexivity|].
  replace (40 <? zlen s) with true by (unfold zlen; lia). replace ((37 <? 0) || (zlen s <=? 37)) with false by (unfold zlen; lia). reflexivity.
Qed.
Lemma trim_plain s : ~ In 10 s -> trim_item s = cut_line s.
Proof. intros N. unfold trim_item. rewrite find_none by exact N. cbn zeta. change (-1 =? -1) with true. cbv iota. apply cut_ok. Qed.
Lemma trim_break a c r : ~ In 10 a -> c <> 10 -> trim_item (a ++ c :: 10 :: r) = cut_line a.
Proof.
  intros N C. unfold trim_item. replace (a ++ c :: 10 :: r) with ((a ++ [c]) ++ 10 :: r) by (rewrite <- app_assoc; reflexivity).
  rewrite find_some by (rewrite in_app_iff; intros [K|[K|[]]]; [exact (N K)|congruence]). rewrite zlen_app. change (zlen [c]) with 1. cbn zeta.
  replace (0 + (zlen a + 1) =? -1) with false by (unfold zlen; lia). replace (0 + (zlen a + 1) - 1) with (zlen a) by lia.
  assert (q_left ((a ++ [c]) ++ 10 :: r) (zlen a) = a) as ->; [|apply cut_ok].
  unfold q_left. replace ((zlen a <? 0) || _) with false by (rewrite !zlen_app; unfold zlen; cbn [length]; lia). unfold zlen. rewrite Nat2Z.id, <- app_assoc, firstn_app, Nat.sub_diag, firstn_all. cbn [firstn]. apply app_nil_r.
Qed.
Lemma trim_right s line : first_line s line -> (s = line \/ exists rest, s = line ++ 13 :: 10 :: rest) -> trim_item s = cut_line line.
Proof. intros [N _] [->|[rest ->]]; [exact (trim_plain line N)|exact (trim_break line 13 rest N ltac:(lia))]. Qed.
Lemma trim_loses a c r : ~ In 10 a -> c <> 10 -> c <> 13 -> first_line (a ++ c :: 10 :: r) (a ++ [c]) /\ trim_item (a ++ c :: 10 :: r) = cut_line a /\ ((length a < 40)%nat -> cut_line a <> cut_line (a ++ [c])).
Proof.
  intros N C C13. split; [|split; [exact (trim_break a c r N C)|]].
  - split; [rewrite in_app_iff; intros [K|[K|[]]]; [exact (N K)|congruence]|]. right. left. exists r. rewrite last_last, <- app_assoc. split; [reflexivity|exact C13].
  - intros L E. apply (f_equal (@length Z)) in E. unfold cut_line in E. rewrite app_length in E. cbn [length] in E. replace (Nat.leb (length a) 40) with true in E by (symmetry; apply Nat.leb_le; lia).
    replace (Nat.leb (length a + 1) 40) with true in E by (symmetry; apply Nat.leb_le; lia). rewrite app_length in E. cbn [length] in E. lia.
Qed.
Lemma trim_empty r : first_line (10 :: r) [] /\ trim_item (10 :: r) = cut_line (10 :: r).
Proof.
  split; [split; [intros []|right; left; exists r; split; [reflexivity|cbn; lia]]|]. unfold trim_item. change (find_from 10 (10 :: r) 0) with 0. cbn zeta. change (0 =? -1) with false. cbv iota.
  change (q_left (10 :: r) (0 - 1)) with (10 :: r). apply cut_ok.
Qed.

(** ** A value *)
Lemma unpack_bad c v w n : inflate_stream c v = (w, true) -> unpack c n v = v.
Proof. intros E. destruct n; [reflexivity|]. cbn [unpack]. rewrite E. reflexivity. Qed.
Lemma unpack_step c v w n : inflate_stream c v = (w, false) -> unpack c (S n) v = unpack c n w.
Proof. intros E. cbn [unpack]. rewrite E. reflexivity. Qed.
Lemma unpack_nil c n : unpack c n [] = [].
Proof. induction n as [|n IH]; [reflexivity|]. rewrite (unpack_step c [] []) by reflexivity. exact IH. Qed.
Lemma plain_ok c v w : inflate_stream c v = (w, true) -> unpacked c v = v. Proof. apply unpack_bad. Qed.
Lemma packed_ok c x z w : lossless c -> deflate_stream c x = (z, true) -> inflate_stream c x = (w, true) -> unpacked c z = x.
Proof. intros L D B. destruct (round_trip c x z L D) as [E _]. unfold unpacked. change 12%nat with (S 11). rewrite (unpack_step c z x) by exact E. exact (unpack_bad c x w 11 B). Qed.
Lemma packed_twice c x y z w : lossless c -> deflate_stream c x = (y, true) -> deflate_stream c y = (z, true) -> inflate_stream c x = (w, true) -> unpacked c z = x /\ x <> y.
Proof.
  intros L D1 D2 B. destruct (round_trip c x y L D1) as [E1 _]. destruct (round_trip c y z L D2) as [E2 _]. split; [|intros ->; rewrite B in E1; discriminate].
  unfold unpacked. change 12%nat with (S (S 10)). rewrite (unpack_step c z y) by exact E2. rewrite (unpack_step c y x) by exact E1. exact (unpack_bad c x w 10 B).
Qed.
Lemma nothing_comes c v : inflate_stream c v = ([], false) -> viewed (unpacked c v) = template.
Proof. intros E. unfold unpacked. change 12%nat with (S 11). rewrite (unpack_step c v []) by exact E. rewrite unpack_nil. reflexivity. Qed.
Lemma viewed_ok v : v <> [] -> viewed v = v. Proof. destruct v; [contradiction|reflexivity]. Qed.
Lemma cstr_plain t : ~ In 0 t -> cstr t = t.
Proof. induction t as [|x t IH]; intros N; [reflexivity|]. cbn [cstr]. destruct (Z.eqb_spec x 0) as [->|]; [exfalso; apply N; left; reflexivity|]. f_equal. apply IH. intros K. apply N. right. exact K. Qed.
Lemma cstr_zero a b : ~ In 0 a -> cstr (a ++ 0 :: b) = a.
Proof. induction a as [|x a IH]; intros N; [reflexivity|]. cbn [app cstr]. destruct (Z.eqb_spec x 0) as [->|]; [exfalso; apply N; left; reflexivity|]. f_equal. apply IH. intros K. apply N. right. exact K. Qed.
Lemma text_bom t : text_of ([239;187;191] ++ t) = Some (cstr t).
Proof. unfold text_of. replace (zlen ([239;187;191] ++ t) <? 3) with false by (rewrite zlen_app; unfold zlen; cbn [length]; lia). reflexivity. Qed.
Lemma text_mox h b t : length h = 7%nat -> length b = 3%nat -> text_of ([77;79;88;67;69;76] ++ h ++ b ++ t) = Some (cstr t).
Proof.
  intros H B. unfold text_of. replace (zlen _ <? 3) with false by (rewrite !zlen_app; unfold zlen; cbn [length]; lia).
  change (firstn 3 ([77;79;88;67;69;76] ++ h ++ b ++ t)) with [77;79;88]. change (skipn 3 ([77;79;88;67;69;76] ++ h ++ b ++ t)) with ([67;69;76] ++ h ++ b ++ t).
  change (skipn 6 ([77;79;88;67;69;76] ++ h ++ b ++ t)) with (h ++ b ++ t).
  destruct (list_eq_dec Z.eq_dec [77;79;88] [239;187;191]); [discriminate|]. destruct (list_eq_dec Z.eq_dec [77;79;88] [77;79;88]); [|contradiction].
  replace (zlen ([67;69;76] ++ h ++ b ++ t) <? 3) with false by (rewrite !zlen_app; unfold zlen; cbn [length]; lia).
  change (firstn 3 ([67;69;76] ++ h ++ b ++ t)) with [67;69;76]. destruct (list_eq_dec Z.eq_dec [67;69;76] [67;69;76]); [|contradiction].
  f_equal. f_equal. rewrite app_assoc. rewrite skipn_app. rewrite skipn_all2 by (rewrite app_length; lia). rewrite app_length, H, B. reflexivity.
Qed.
Lemma text_only v t : text_of v = Some t -> (exists r, v = [239;187;191] ++ r) \/ (exists r, v = [77;79;88;67;69;76] ++ r).
Proof.
  unfold text_of. destruct (zlen v <? 3); [discriminate|]. destruct (list_eq_dec Z.eq_dec (firstn 3 v) [239;187;191]) as [E|_].
  - intros _. left. exists (skipn 3 v). rewrite <- E. symmetry. apply firstn_skipn.
  - destruct (list_eq_dec Z.eq_dec (firstn 3 v) [77;79;88]) as [E|_]; [|discriminate]. destruct (zlen (skipn 3 v) <? 3); [discriminate|].
    destruct (list_eq_dec Z.eq_dec (firstn 3 (skipn 3 v)) [67;69;76]) as [E2|_]; [|discriminate]. intros _. right. exists (skipn 3 (skipn 3 v)).
    change ([77;79;88;67;69;76] ++ skipn 3 (skipn 3 v)) with ([77;79;88] ++ [67;69;76] ++ skipn 3 (skipn 3 v)). rewrite <- E2, firstn_skipn, <- E. symmetry. apply firstn_skipn.
Qed.

(** ** The list of databases *)
Definition strip (cur : list Z) : list Z := match cur with 13 :: r => r | _ => cur end.
Lemma lines_line u g : forall cur, ~ In 10 u -> lines (u ++ 10 :: g) cur = rev (strip (rev u ++ cur)) :: lines g [].
Proof.
  induction u as [|x u IH]; intros cur N; cbn [app lines]; [rewrite Z.eqb_refl; reflexivity|].
  destruct (Z.eqb_spec x 10) as [->|]; [exfalso; apply N; left; reflexivity|]. rewrite IH by (intros K; apply N; right; exact K). cbn [rev]. rewrite <- app_assoc. reflexivity.
Qed.
Lemma strip_other cur : hd 0 cur <> 13 -> strip cur = cur.
Proof. unfold strip. destruct cur as [|x r]; [reflexivity|]. intros N. cbn [hd] in N. destruct (Z.eq_dec x 13) as [->|]; [contradiction|]. repeat (match goal with |- context [match ?y with _ => _ end] => is_var y; destruct y; try reflexivity end). contradiction. Qed.
Lemma hd_rev u : hd 0 (rev u) = last u 0.
Proof. induction u as [|x u IH] using rev_ind; [reflexivity|]. rewrite rev_app_distr, last_last. reflexivity. Qed.
Lemma line_plain nl u g : nl = [10] \/ nl = [13; 10] -> ~ In 10 u -> last u 0 <> 13 -> lines (u ++ nl ++ g) [] = u :: lines g [].
Proof.
  intros [-> | ->] N L.
  - cbn [app]. rewrite lines_line by exact N. rewrite app_nil_r, strip_other by (rewrite hd_rev; exact L). rewrite rev_involutive. reflexivity.
  - replace (u ++ [13; 10] ++ g) with ((u ++ [13]) ++ 10 :: g) by (rewrite <- app_assoc; reflexivity).
    rewrite lines_line by (rewrite in_app_iff; intros [K|[K|[]]]; [exact (N K)|discriminate]). rewrite app_nil_r, rev_app_distr. cbn [rev app strip]. rewrite rev_involutive. reflexivity.
Qed.
Definition put (nl name : list Z) : list Z := flat_map (fun c => if c =? 10 then nl else [c]) (name ++ [10]).
Lemma put_plain nl u : ~ In 10 u -> put nl u = u ++ nl.
Proof.
  unfold put. induction u as [|x u IH]; intros N; cbn [app flat_map]; [rewrite app_nil_r; reflexivity|].
  destruct (Z.eqb_spec x 10) as [->|]; [exfalso; apply N; left; reflexivity|]. cbn [app]. f_equal. apply IH. intros K. apply N. right. exact K.
Qed.
Lemma put_split nl a b : ~ In 10 a -> put nl (a ++ 10 :: b) = a ++ nl ++ put nl b.
Proof.
  unfold put. intros N. rewrite <- app_assoc. cbn [app]. rewrite flat_map_app. cbn [flat_map]. change (10 =? 10) with true. cbv iota. f_equal.
  induction a as [|x a IH]; [reflexivity|]. cbn [flat_map]. destruct (Z.eqb_spec x 10) as [->|]; [exfalso; apply N; left; reflexivity|]. cbn [app]. f_equal. apply IH. intros K. apply N. right. exact K.
Qed.
Definition body (f : option (list Z)) : list Z := match f with Some f => f | None => [] end.
Lemma add_body nl f n : body (add_db nl f n) = body f ++ put nl n. Proof. destruct f; reflexivity. Qed.
Lemma cached_body f : cached f = filter (fun l => match l with [] => false | _ => true end) (lines (body f) []). Proof. destruct f; reflexivity. Qed.
Lemma bodies nl ns : forall f, body (fold_left (add_db nl) ns f) = body f ++ flat_map (put nl) ns.
Proof. induction ns as [|n ns IH]; intros f; cbn [fold_left flat_map]; [rewrite app_nil_r; reflexivity|]. rewrite IH, add_body, <- app_assoc. reflexivity. Qed.
Lemma lines_names nl ns g : nl = [10] \/ nl = [13; 10] -> Forall one_line ns -> lines (flat_map (put nl) ns ++ g) [] = ns ++ lines g [].
Proof.
  intros W F. induction F as [|n ns (_ & N & L) F IH]; [reflexivity|]. cbn [flat_map app]. rewrite put_plain by exact N. rewrite <- !app_assoc. rewrite line_plain by assumption. rewrite IH. reflexivity.
Qed.
Lemma filter_names ns : Forall one_line ns -> filter (fun l : list Z => match l with [] => false | _ => true end) ns = ns.
Proof. induction 1 as [|n ns (N & _) F IH]; [reflexivity|]. cbn [filter]. destruct n; [contradiction|]. rewrite IH. reflexivity. Qed.
Lemma names_back nl ns : nl = [10] \/ nl = [13; 10] -> Forall one_line ns -> cached (fold_left (add_db nl) ns None) = ns.
Proof.
  intros W F. rewrite cached_body, bodies. cbn [body app]. rewrite <- (app_nil_r (flat_map _ ns)). rewrite lines_names by assumption. cbn [lines]. rewrite app_nil_r. apply filter_names. exact F.
Qed.
Lemma name_split nl ns a b : nl = [10] \/ nl = [13; 10] -> Forall one_line ns -> one_line a -> one_line b -> cached (fold_left (add_db nl) (ns ++ [a ++ 10 :: b]) None) = ns ++ [a; b].
Proof.
  intros W F (Na & A1 & A2) (Nb & B1 & B2). rewrite cached_body, bodies. cbn [body app]. rewrite flat_map_app. rewrite lines_names by assumption. cbn [flat_map]. rewrite app_nil_r.
  rewrite put_split by exact A1. rewrite line_plain by assumption. rewrite put_plain by exact B1. rewrite <- (app_nil_r nl) at 1. rewrite line_plain by assumption. cbn [lines].
  rewrite filter_app, filter_names by exact F. cbn [filter]. destruct a; [contradiction|]. destruct b; [contradiction|]. reflexivity.
Qed.
