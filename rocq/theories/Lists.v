(** Generic facts about lists used by several topics. *)
From Verif Require Import Prelude.

Lemma concat_len {A} (ll : list (list A)) n : Forall (fun l => length l = n) ll -> length (concat ll) = (length ll * n)%nat.
Proof. induction 1 as [|l ll Hl Hf IH]; [reflexivity|]. cbn [concat length]. rewrite app_length, Hl, IH. reflexivity. Qed.
Lemma concat_nth {A} (ll : list (list A)) n i l : Forall (fun l => length l = n) ll -> nth_error ll i = Some l ->
  sub (concat ll) (i * n) n = l.
Proof.
  intros H. revert i l. induction H as [|x ll Hl Hf IH]; intros i l Hi; [destruct i; discriminate|].
  destruct i as [|i].
  - cbn in Hi. injection Hi as <-. cbn [concat Nat.mul]. unfold sub. cbn [skipn]. rewrite firstn_app, <- Hl, Nat.sub_diag, firstn_O, app_nil_r, firstn_all. reflexivity.
  - cbn [nth_error] in Hi. rewrite <- (IH i l Hi). unfold sub. f_equal. cbn [concat Nat.mul]. rewrite skipn_app.
    rewrite (skipn_all2 x) by lia. cbn [app]. f_equal. lia.
Qed.
Lemma sub_nil {A} (l : list A) o : sub l o 0 = [].
Proof. reflexivity. Qed.
Lemma sub_0_firstn {A} (l : list A) n : sub l 0 n = firstn n l.
Proof. reflexivity. Qed.
Lemma sub_firstn {A} (l : list A) n o k : (o + k <= n)%nat -> sub (firstn n l) o k = sub l o k.
Proof. intros H. rewrite <- (sub_0_firstn l n). rewrite sub_sub by lia. f_equal. Qed.
Lemma nth_error_nth_Z {A} (l : list A) i x d : nth_error l i = Some x -> nth i l d = x.
Proof. intros H. now apply nth_error_nth. Qed.
Lemma splice_nil {A} (l : list A) o : splice l o [] = l.
Proof. unfold splice. cbn [length app]. rewrite Nat.add_0_r. apply firstn_skipn. Qed.
Lemma splice_full {A} (l d : list A) : length d = length l -> splice l 0 d = d.
Proof. intros H. unfold splice. cbn [firstn app Nat.add]. rewrite skipn_all2 by lia. now rewrite app_nil_r. Qed.
(** overwriting in two steps *)
Lemma splice_app {A} (l a b : list A) o : (o + length a + length b <= length l)%nat ->
  splice l o (a ++ b) = splice (splice l o a) (o + length a) b.
Proof.
  intros H. apply nth_error_ext. intros i.
  rewrite !nth_error_splice; rewrite ?app_length, ?splice_length; try lia.
  destruct (Nat.leb_spec o i), (Nat.ltb_spec i (o + (length a + length b))); cbn [andb].
  - destruct (Nat.leb_spec (o + length a) i), (Nat.ltb_spec i (o + length a + length b)); cbn [andb]; try lia.
    + rewrite nth_error_app2 by lia. f_equal. lia.
    + destruct (Nat.ltb_spec i (o + length a)); try lia. cbn [andb]. rewrite nth_error_app1 by lia. reflexivity.
  - destruct (Nat.leb_spec (o + length a) i), (Nat.ltb_spec i (o + length a + length b)); cbn [andb]; try lia.
    destruct (Nat.ltb_spec i (o + length a)); try lia. reflexivity.
  - destruct (Nat.leb_spec (o + length a) i), (Nat.ltb_spec i (o + length a + length b)); cbn [andb]; try lia. reflexivity.
  - lia.
Qed.
Lemma nth_error_splice1 {A} (l : list A) n x i : (n < length l)%nat ->
  nth_error (splice l n [x]) i = if (i =? n)%nat then Some x else nth_error l i.
Proof.
  intros H. rewrite nth_error_splice by (cbn; lia). cbn [length].
  destruct (Nat.leb_spec n i), (Nat.ltb_spec i (n + 1)), (Nat.eqb_spec i n); cbn [andb]; try lia; try reflexivity.
  subst. rewrite Nat.sub_diag. reflexivity.
Qed.
Lemma Forall_splice {A} (P : A -> Prop) l o d : Forall P l -> Forall P d -> Forall P (splice l o d).
Proof. intros H Hd. unfold splice. apply Forall_app. split; [now apply Forall_firstn'|]. apply Forall_app. split; [exact Hd|now apply Forall_skipn']. Qed.
Lemma NoDup_nth_inj {A} (l : list A) i j x : NoDup l -> nth_error l i = Some x -> nth_error l j = Some x -> i = j.
Proof.
  intros H Hi Hj. eapply NoDup_nth_error; eauto; [apply nth_error_Some; congruence|congruence].
Qed.
Lemma concat_splice {A} (ll : list (list A)) n c q : Forall (fun l => length l = n) ll -> (c < length ll)%nat -> length q = n ->
  concat (splice ll c [q]) = splice (concat ll) (c * n) q.
Proof.
  intros H. revert c. induction H as [|l ll Hl Hf IH]; intros c Hc Hq; [cbn in Hc; lia|].
  destruct c as [|c].
  - unfold splice. cbn [firstn app length Nat.add skipn concat Nat.mul]. f_equal. rewrite skipn_app, skipn_all2 by lia. cbn [app]. replace (length q - length l)%nat with 0%nat by lia. reflexivity.
  - replace (splice (l :: ll) (S c) [q]) with (l :: splice ll c [q]) by reflexivity. cbn [concat]. rewrite IH by (cbn in Hc; lia).
    unfold splice. cbn [Nat.mul]. rewrite firstn_app. rewrite (firstn_all2 l) by lia. rewrite <- app_assoc. replace (n + c * n - length l)%nat with (c * n)%nat by lia. f_equal. f_equal. f_equal.
    rewrite skipn_app, (skipn_all2 l) by lia. cbn [app]. f_equal. lia.
Qed.
Lemma splice_inner {A} (l p d : list A) o off : sub l o (length p) = p -> (o + length p <= length l)%nat -> (off + length d <= length p)%nat ->
  splice l o (splice p off d) = splice l (o + off) d.
Proof.
  intros Hp Ho Hd. apply nth_error_ext. intros i. rewrite !nth_error_splice by (rewrite ?splice_length; lia). rewrite splice_length by lia.
  destruct (Nat.leb_spec o i), (Nat.ltb_spec i (o + length p)); cbn [andb].
  - rewrite <- Hp at 1. destruct (Nat.leb_spec off (i - o)), (Nat.ltb_spec (i - o) (off + length d)); cbn [andb];
      destruct (Nat.leb_spec (o + off) i), (Nat.ltb_spec i (o + off + length d)); cbn [andb]; try lia; try (f_equal; lia);
      rewrite nth_error_sub; destruct (Nat.ltb_spec (i - o) (length p)); try lia; f_equal; lia.
  - destruct (Nat.leb_spec (o + off) i), (Nat.ltb_spec i (o + off + length d)); cbn [andb]; try lia; reflexivity.
  - destruct (Nat.leb_spec (o + off) i), (Nat.ltb_spec i (o + off + length d)); cbn [andb]; try lia; reflexivity.
  - lia.
Qed.
Lemma map_splice {A B} (f : A -> B) l o d : map f (splice l o d) = splice (map f l) o (map f d).
Proof. unfold splice. rewrite !map_app, firstn_map, skipn_map, map_length. reflexivity. Qed.
Lemma firstn_splice {A} (l d : list A) o n : (o + length d <= n)%nat -> (n <= length l)%nat -> firstn n (splice l o d) = splice (firstn n l) o d.
Proof.
  intros H Hn. apply nth_error_ext. intros i. rewrite <- !sub_0_firstn. rewrite nth_error_sub.
  rewrite !nth_error_splice by (rewrite ?sub_length; lia). rewrite nth_error_sub. cbn [Nat.add].
  destruct (Nat.ltb_spec i n); [reflexivity|]. destruct (Nat.leb_spec o i), (Nat.ltb_spec i (o + length d)); cbn [andb]; try lia; reflexivity.
Qed.
