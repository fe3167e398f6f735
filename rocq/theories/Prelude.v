(** Shared vocabulary of the model: outcomes of C++ code, byte strings,
    little-endian integers, slices and overwrites of byte strings.
    Nothing here transcribes a particular source file; the notions are those of
    the C++ abstract machine on a little-endian target with 8-bit bytes. *)

From Coq Require Export List ZArith Lia Bool Arith ZifyBool ZifyNat.
Export ListNotations.
Ltac Zify.zify_post_hook ::= Z.div_mod_to_equations.

Global Open Scope Z_scope.

(** Outcome of running a piece of code. *)
Inductive res (A : Type) : Type :=
| Ok (a : A)      (* normal return *)
| Throw           (* exception, or reported error with early return *)
| UB              (* undefined behaviour: bad access, null dereference, ... *)
| Hang.           (* the fuel given to a loop ran out *)
Arguments Ok {A} a. Arguments Throw {A}. Arguments UB {A}. Arguments Hang {A}.

Definition rbind {A B} (r : res A) (f : A -> res B) : res B :=
  match r with Ok a => f a | Throw => Throw | UB => UB | Hang => Hang end.
Notation "'do' x <- r ; k" := (rbind r (fun x => k))
  (at level 200, x pattern, r at level 100, k at level 200).

Definition is_ok {A} (r : res A) : bool :=
  match r with Ok _ => true | _ => false end.

(** Bytes *)
Definition byte_ok (b : Z) : Prop := 0 <= b < 256.
Definition bytes_ok (l : list Z) : Prop := Forall byte_ok l.
Definition byte_okb (b : Z) : bool := (0 <=? b) && (b <? 256).
Definition bytes_okb (l : list Z) : bool := forallb byte_okb l.

(** Length as an integer. *)
Definition zlen {A} (l : list A) : Z := Z.of_nat (length l).

(** Little-endian integers of [n] bytes. *)
Fixpoint le_bytes (n : nat) (v : Z) : list Z :=
  match n with
  | O => []
  | S k => (v mod 256) :: le_bytes k (v / 256)
  end.
Fixpoint le_val (l : list Z) : Z :=
  match l with
  | [] => 0
  | b :: t => b + 256 * le_val t
  end.

(** Slice [off, off+len) of a list, and overwriting a slice. *)
Definition sub {A} (l : list A) (off len : nat) : list A := firstn len (skipn off l).
Definition splice {A} (l : list A) (off : nat) (d : list A) : list A :=
  firstn off l ++ d ++ skipn (off + length d) l.

(** Read with bounds check: outside the buffer is undefined behaviour. *)
Definition rd {A} (l : list A) (i : Z) : res A :=
  if i <? 0 then UB
  else match nth_error l (Z.to_nat i) with Some x => Ok x | None => UB end.

(** [memcpy]-style read of [n] bytes at [i]. *)
Definition rdn {A} (l : list A) (i n : Z) : res (list A) :=
  if (i <? 0) || (n <? 0) || (zlen l <? i + n) then UB
  else Ok (sub l (Z.to_nat i) (Z.to_nat n)).

(** [memcpy]-style write of [d] at [i]. *)
Definition wrn {A} (l : list A) (i : Z) (d : list A) : res (list A) :=
  if (i <? 0) || (zlen l <? i + zlen d) then UB
  else Ok (splice l (Z.to_nat i) d).

Definition u32 (x : Z) : Z := x mod 2^32.
Definition u64 (x : Z) : Z := x mod 2^64.
(** conversion of an integer to a signed 32-bit value (two's complement) *)
Definition i32 (x : Z) : Z := (x + 2^31) mod 2^32 - 2^31.
Definition i16 (x : Z) : Z := (x + 2^15) mod 2^16 - 2^15.

(** ** Lemmas *)

Lemma bytes_okb_spec l : bytes_okb l = true <-> bytes_ok l.
Proof.
  unfold bytes_okb, bytes_ok. rewrite forallb_forall, Forall_forall.
  split; intros H x Hx; specialize (H x Hx); unfold byte_okb, byte_ok in *; lia.
Qed.

Lemma zlen_nonneg {A} (l : list A) : 0 <= zlen l.
Proof. unfold zlen. lia. Qed.
Lemma zlen_app {A} (a b : list A) : zlen (a ++ b) = zlen a + zlen b.
Proof. unfold zlen. rewrite app_length. lia. Qed.
Lemma zlen_cons {A} (x : A) b : zlen (x :: b) = 1 + zlen b.
Proof. unfold zlen. simpl length. lia. Qed.
Lemma zlen_nil {A} : zlen (@nil A) = 0.
Proof. reflexivity. Qed.

Lemma le_bytes_length n v : length (le_bytes n v) = n.
Proof. revert v; induction n as [|n IH]; intros v; simpl; [reflexivity|now rewrite IH]. Qed.

Lemma le_bytes_ok n v : bytes_ok (le_bytes n v).
Proof.
  revert v; induction n as [|n IH]; intros v; simpl; [constructor|].
  constructor; [unfold byte_ok; apply Z.mod_pos_bound; lia | apply IH].
Qed.

Lemma pow256_S n : 256 ^ Z.of_nat (S n) = 256 * 256 ^ Z.of_nat n.
Proof. rewrite Nat2Z.inj_succ, Z.pow_succ_r by lia. reflexivity. Qed.

Lemma le_val_bound l : bytes_ok l -> 0 <= le_val l < 256 ^ zlen l.
Proof.
  unfold zlen. induction 1 as [|b l Hb Hl IH].
  - simpl; lia.
  - cbn [le_val length]. rewrite pow256_S. unfold byte_ok in Hb. nia.
Qed.

Lemma le_val_bytes n v : le_val (le_bytes n v) = v mod 256 ^ Z.of_nat n.
Proof.
  revert v; induction n as [|n IH]; intros v.
  - simpl. now rewrite Z.mod_1_r.
  - cbn [le_bytes le_val]. rewrite IH, pow256_S.
    assert (Hp : 0 < 256 ^ Z.of_nat n) by (apply Z.pow_pos_nonneg; lia).
    rewrite (Z.rem_mul_r v 256) by lia. reflexivity.
Qed.

Lemma le_val_bytes_small n v :
  0 <= v < 256 ^ Z.of_nat n -> le_val (le_bytes n v) = v.
Proof. intros H. rewrite le_val_bytes. now apply Z.mod_small. Qed.

Lemma le_bytes_val l : bytes_ok l -> le_bytes (length l) (le_val l) = l.
Proof.
  induction 1 as [|b l Hb Hl IH]; [reflexivity|].
  cbn [length le_bytes le_val]. unfold byte_ok in Hb.
  replace (b + 256 * le_val l) with (le_val l * 256 + b) by lia.
  rewrite Z.add_comm, Z.mod_add by lia.
  rewrite Z.mod_small by lia.
  replace (b + le_val l * 256) with (le_val l * 256 + b) by lia.
  rewrite Z.div_add_l by lia. rewrite (Z.div_small b) by lia.
  rewrite Z.add_0_r, IH. reflexivity.
Qed.

(** slices *)
Lemma sub_length {A} (l : list A) off len :
  (off + len <= length l)%nat -> length (sub l off len) = len.
Proof. intros H. unfold sub. rewrite firstn_length, skipn_length. lia. Qed.

Lemma sub_all {A} (l : list A) : sub l 0 (length l) = l.
Proof. unfold sub. simpl. apply firstn_all. Qed.

Lemma nth_error_sub {A} (l : list A) off len i :
  nth_error (sub l off len) i = if (i <? len)%nat then nth_error l (off + i) else None.
Proof.
  unfold sub. destruct (Nat.ltb_spec i len) as [H|H].
  - revert l off i H. induction len as [|len IH]; intros l off i H; [lia|].
    destruct (skipn off l) as [|x t] eqn:E.
    + simpl. destruct i; simpl.
      * assert (length (skipn off l) = 0)%nat by now rewrite E.
        rewrite skipn_length in *. symmetry. apply nth_error_None. lia.
      * assert (length (skipn off l) = 0)%nat by now rewrite E.
        rewrite skipn_length in *. symmetry. apply nth_error_None. lia.
    + simpl. destruct i as [|i]; simpl.
      * clear IH. revert l E. induction off as [|off IHo]; intros l E; destruct l; simpl in *; try discriminate.
        -- congruence.
        -- rewrite <- IHo with (l := l); auto.
      * replace t with (skipn (S off) l).
        2:{ clear -E. revert l E. induction off as [|off IHo]; intros l E; destruct l; simpl in *; try discriminate.
            - congruence.
            - apply IHo in E. simpl in E. exact E. }
        replace (off + S i)%nat with (S off + i)%nat by lia.
        apply (IH l (S off) i). lia.
  - apply nth_error_None. rewrite firstn_length. lia.
Qed.

Lemma splice_length {A} (l d : list A) off :
  (off + length d <= length l)%nat -> length (splice l off d) = length l.
Proof.
  intros H. unfold splice. rewrite !app_length, firstn_length, skipn_length. lia.
Qed.

Lemma nth_error_splice {A} (l d : list A) off i :
  (off + length d <= length l)%nat ->
  nth_error (splice l off d) i =
  if ((off <=? i) && (i <? off + length d))%nat then nth_error d (i - off) else nth_error l i.
Proof.
  intros H. unfold splice.
  assert (Hf : length (firstn off l) = off) by (rewrite firstn_length; lia).
  destruct (Nat.leb_spec off i) as [H1|H1]; simpl.
  - rewrite nth_error_app2 by lia. rewrite Hf.
    destruct (Nat.ltb_spec i (off + length d)) as [H2|H2].
    + rewrite nth_error_app1 by lia. reflexivity.
    + rewrite nth_error_app2 by lia.
      rewrite <- (firstn_skipn (off + length d) l) at 2.
      rewrite (nth_error_app2 (firstn _ _)) by (rewrite firstn_length; lia).
      f_equal. rewrite firstn_length. lia.
  - rewrite nth_error_app1 by lia.
    rewrite <- (firstn_skipn off l) at 2. rewrite nth_error_app1 by lia. reflexivity.
Qed.

Lemma nth_error_ext {A} (l1 l2 : list A) :
  (forall i, nth_error l1 i = nth_error l2 i) -> l1 = l2.
Proof.
  revert l2; induction l1 as [|x l1 IH]; intros [|y l2] H.
  - reflexivity.
  - specialize (H 0%nat). discriminate.
  - specialize (H 0%nat). discriminate.
  - f_equal.
    + specialize (H 0%nat). simpl in H. congruence.
    + apply IH. intros i. apply (H (S i)).
Qed.

Lemma sub_splice_same {A} (l d : list A) off :
  (off + length d <= length l)%nat -> sub (splice l off d) off (length d) = d.
Proof.
  intros H. apply nth_error_ext. intros i. rewrite nth_error_sub, nth_error_splice by exact H.
  destruct (Nat.ltb_spec i (length d)) as [H1|H1].
  - destruct (Nat.leb_spec off (off + i)); [|lia].
    destruct (Nat.ltb_spec (off + i) (off + length d)); [|lia]. simpl.
    f_equal. lia.
  - symmetry. apply nth_error_None. lia.
Qed.

Lemma sub_splice_other {A} (l d : list A) off o n :
  (off + length d <= length l)%nat ->
  (o + n <= off \/ off + length d <= o)%nat ->
  sub (splice l off d) o n = sub l o n.
Proof.
  intros H Hd. apply nth_error_ext. intros i.
  rewrite !nth_error_sub, nth_error_splice by exact H.
  destruct (Nat.ltb_spec i n) as [H1|H1]; [|reflexivity].
  destruct (Nat.leb_spec off (o + i)); simpl; [|reflexivity].
  destruct (Nat.ltb_spec (o + i) (off + length d)); [lia|reflexivity].
Qed.

Lemma sub_sub {A} (l : list A) o n o2 n2 :
  (o2 + n2 <= n)%nat -> sub (sub l o n) o2 n2 = sub l (o + o2) n2.
Proof.
  intros H. apply nth_error_ext. intros i. rewrite !nth_error_sub.
  destruct (Nat.ltb_spec i n2); [|reflexivity].
  destruct (Nat.ltb_spec (o2 + i) n); [|lia]. f_equal. lia.
Qed.

Lemma firstn_plus {A} (l : list A) n m :
  firstn (n + m) l = firstn n l ++ firstn m (skipn n l).
Proof.
  revert l; induction n as [|n IH]; intros l; [reflexivity|].
  destruct l as [|x l]; simpl; [now rewrite firstn_nil|]. now rewrite IH.
Qed.

Lemma skipn_plus {A} (l : list A) n m : skipn n (skipn m l) = skipn (m + n) l.
Proof.
  revert l; induction m as [|m IH]; intros l; [reflexivity|].
  destruct l as [|x l]; simpl; [now rewrite skipn_nil|]. apply IH.
Qed.

Lemma sub_app_split {A} (l : list A) o n m :
  sub l o n ++ sub l (o + n) m = sub l o (n + m).
Proof. unfold sub. rewrite firstn_plus, skipn_plus. reflexivity. Qed.

Lemma bytes_ok_app a b : bytes_ok (a ++ b) <-> bytes_ok a /\ bytes_ok b.
Proof. unfold bytes_ok. apply Forall_app. Qed.

Lemma Forall_firstn' {A} (P : A -> Prop) n l : Forall P l -> Forall P (firstn n l).
Proof. intros H. revert n. induction H; intros [|n]; simpl; constructor; auto. Qed.
Lemma Forall_skipn' {A} (P : A -> Prop) n l : Forall P l -> Forall P (skipn n l).
Proof. intros H. revert n. induction H; intros [|n]; simpl; try constructor; auto. Qed.

Lemma bytes_ok_sub l o n : bytes_ok l -> bytes_ok (sub l o n).
Proof. intros H. apply Forall_firstn', Forall_skipn', H. Qed.

Lemma bytes_ok_splice l o d : bytes_ok l -> bytes_ok d -> bytes_ok (splice l o d).
Proof.
  intros H Hd. unfold splice. apply bytes_ok_app. split; [apply Forall_firstn', H|].
  apply bytes_ok_app. split; [exact Hd| apply Forall_skipn', H].
Qed.

Lemma rdn_ok {A} (l : list A) i n :
  0 <= i -> 0 <= n -> i + n <= zlen l -> rdn l i n = Ok (sub l (Z.to_nat i) (Z.to_nat n)).
Proof.
  intros H1 H2 H3. unfold rdn.
  destruct (Z.ltb_spec i 0); [lia|]. destruct (Z.ltb_spec n 0); [lia|].
  destruct (Z.ltb_spec (zlen l) (i + n)); [lia|]. reflexivity.
Qed.

Lemma rd_ok {A} (l : list A) i x :
  0 <= i -> nth_error l (Z.to_nat i) = Some x -> rd l i = Ok x.
Proof.
  intros H1 H2. unfold rd. destruct (Z.ltb_spec i 0); [lia|]. now rewrite H2.
Qed.
