(** What a container with elements holds after a history, and the histories covered. *)
From Verif Require Import Prelude Toc_Model.

(** an element: name, bytes; created and not opened yet; without a place for data *)
Record idl := ID { d_name : list Z; d_bytes : list Z; d_new : bool; d_void : bool }.
Fixpoint change_at {A} (l : list A) (i : nat) (f : A -> A) : list A := match l, i with [], _ => [] | x :: r, O => f x :: r | x :: r, S i => x :: change_at r i f end.
Fixpoint without {A} (l : list A) (i : nat) : list A := match l, i with [], _ => [] | _ :: r, O => r | x :: r, S i => x :: without r i end.
(** the elements, and whether one was created or deleted since the container was opened or flushed *)
Definition iop (s : list idl * bool) (o : top) : list idl * bool :=
  let (l, b) := s in
  match o with
  | TCreate n => (l ++ [ID n [] true true], true)
  | TOpen i => (change_at l i (fun x => ID (d_name x) (d_bytes x) false (d_void x)), b)
  | TWrite i d => (change_at l i (fun x => ID (d_name x) d false false), b)
  | TClose i => (l, b)
  | TFlush => (l, false)
  | TDelete i => (without l i, true)
  end.
Definition iops (s : list idl * bool) (os : list top) : list idl * bool := fold_left iop os s.
(** covered: elements that are there; no created element is left unopened when the container is flushed; an element without a place
    is opened or written only after a creation or deletion that is not flushed yet *)
Definition permitted (s : list idl * bool) (o : top) : Prop :=
  let (l, b) := s in
  match o with
  | TOpen i | TWrite i _ => exists x, nth_error l i = Some x /\ (d_void x = true -> b = true)
  | TClose i | TDelete i => (i < length l)%nat
  | TFlush => Forall (fun x => d_new x = false) l
  | TCreate _ => True
  end.
Fixpoint all_permitted (s : list idl * bool) (os : list top) : Prop :=
  match os with [] => Forall (fun x => d_new x = false) (fst s) | o :: r => permitted s o /\ all_permitted (iop s o) r end.

(** a stored container: each element has a block with its name, and one with its bytes or none (0 or 7FFFFFFF); no block is used twice *)
Definition no_place (a : Z) : Prop := a = 0 \/ a = 2147483647.
Inductive holds_elem (st : blocks) : Z * Z -> idl -> Prop :=
| he_data h d n b : ~ no_place h -> ~ no_place d -> get_block st h = Some n -> get_block st d = Some b -> holds_elem st (h, d) (ID n b false false)
| he_void h d n : ~ no_place h -> no_place d -> get_block st h = Some n -> holds_elem st (h, d) (ID n [] false true).
Definition placed (a : Z) : list Z := if (a =? 0) || (a =? 2147483647) then [] else [a].
Definition in_order (st : blocks) (t : list (Z * Z)) (l : list idl) : Prop :=
  Forall2 (holds_elem st) t l /\ NoDup (flat_map (fun e => placed (fst e) ++ placed (snd e)) t).
(** an address given to a new chain is not in use *)
Definition allocates (alloc : blocks -> Z) : Prop := forall st, ~ no_place (alloc st) /\ get_block st (alloc st) = None.

(** only looking: elements are opened and closed, the container is flushed *)
Definition looking (o : top) : Prop := match o with TOpen _ | TClose _ | TFlush => True | _ => False end.
