(** What an element with streams is: one array of bytes, and a cursor of its own for each stream. *)
From Verif Require Import Prelude Stream_Model Elem_Model.

Record ideal_elem := IE { ie_bytes : list Z; ie_cur : list nat }.
(** the array after writing [d] from [p] on, [p] not behind the end *)
Definition written (l : list Z) (p : nat) (d : list Z) : list Z := firstn p l ++ d ++ skipn (p + length d) l.
Fixpoint put_cur (l : list nat) (i q : nat) : list nat :=
  match l, i with [], _ => [] | _ :: t, O => q :: t | x :: t, S i => x :: put_cur t i q end.
(** where a seek goes: [o] from the start, from the cursor, or from the end; not behind the end *)
Definition goes (len cur : nat) (o : Z) (w : origin) : Z :=
  Z.min (Z.of_nat len) (match w with Beg => o | Cur => Z.of_nat cur + o | End_ => Z.of_nat len + o end).
Definition ideal_step (s : ideal_elem) (x : eop) : ideal_elem * eout :=
  let cur i := nth i (ie_cur s) 0%nat in
  match x with
  | ERead i n => let d := firstn n (skipn (cur i) (ie_bytes s)) in (IE (ie_bytes s) (put_cur (ie_cur s) i (cur i + length d)), EBytes d)
  | EWrite i d => (IE (written (ie_bytes s) (cur i) d) (put_cur (ie_cur s) i (cur i + length d)), ENum (zlen d))
  | ESeek i o w => let t := goes (length (ie_bytes s)) (cur i) o w in (IE (ie_bytes s) (put_cur (ie_cur s) i (Z.to_nat t)), ENum t)
  | ESize i => (s, ENum (zlen (ie_bytes s)))
  | EAll d | EAllFrom d _ => (IE d (ie_cur s), ENum (zlen d))
  | ENew => (IE (ie_bytes s) (ie_cur s ++ [0%nat]), ENum 0)
  end.
Fixpoint ideal_steps (s : ideal_elem) (xs : list eop) : ideal_elem * list eout :=
  match xs with
  | [] => (s, [])
  | x :: r => let (s1, o) := ideal_step s x in let (s2, os) := ideal_steps s1 r in (s2, o :: os)
  end.
(** operations covered: existing streams; sizes below 2 GiB; seeks from the end only to the end, and never before the
    start; the contents are not replaced by shorter ones than a cursor needs *)
Definition covered (s : ideal_elem) (x : eop) : Prop :=
  match x with
  | ERead i n => (i < length (ie_cur s))%nat /\ Z.of_nat n < 2^31
  | EWrite i d => (i < length (ie_cur s))%nat /\ Z.of_nat (nth i (ie_cur s) 0%nat) + zlen d < 2^31
  | ESeek i o w => (i < length (ie_cur s))%nat /\ 0 <= goes (length (ie_bytes s)) (nth i (ie_cur s) 0%nat) o w /\ (w = End_ -> o = 0) /\ o < 2^61
  | ESize i => True
  | EAll d | EAllFrom d _ => zlen d < 2^31 /\ Forall (fun c => (c <= length d)%nat) (ie_cur s)
  | ENew => True
  end.
Fixpoint all_covered (s : ideal_elem) (xs : list eop) : Prop :=
  match xs with [] => True | x :: r => covered s x /\ all_covered (fst (ideal_step s x)) r end.
