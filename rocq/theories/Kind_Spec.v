(** When bytes are a container, and what an element with contents is. *)
From Verif Require Import Prelude Kind_Model.

(** the first number of a file; missing bytes are 255 *)
Definition first_word (l : list Z) : Z := nth 0 l 255 + 256 * nth 1 l 255 + 65536 * nth 2 l 255 + 16777216 * nth 3 l 255.
(** a block header at [p]: three fields of eight characters between line breaks *)
Definition block_at (l : list Z) (p : Z) : Prop := exists before a b c after, l = before ++ [13; 10] ++ a ++ [32] ++ b ++ [32] ++ c ++ [32; 13; 10] ++ after /\
  zlen before = p /\ length a = 8%nat /\ length b = 8%nat /\ length c = 8%nat.
(** an empty container: its header alone; otherwise a block behind the header, and the list of free blocks is empty or begins
    with a block that is not the very end of the file *)
Definition looks (l : list Z) : Prop :=
  l = [255; 255; 255; 127; 0; 2; 0; 0; 0; 0; 0; 0; 0; 0; 0; 0] \/
  block_at l 16 /\ (first_word l = 2147483647 \/ block_at l (first_word l) /\ first_word l + 31 < zlen l).
(** contents for which the question has an answer: the place of the free list does not wrap around 2^32 into the file *)
Definition answerable (l : list Z) : Prop := length l = 16%nat \/ first_word l + 31 < 2^32 \/ zlen l <= first_word l + 31 - 2^32.

(** an element is its bytes, or removed *)
Definition over_at (l : list Z) (p : nat) (d : list Z) : list Z := firstn p l ++ d ++ skipn (p + length d) l.
Definition now_holds (c : option (list Z)) (x : kop) : option (list Z) :=
  match c, x with
  | None, _ | _, KRemove => None
  | Some _, (KAll d | KFrom d _ | KReplace d) => Some d
  | Some l, KPart s d => Some (over_at l s d)
  | Some l, (KAsk | KClose | KGet) => Some l
  end.
(** what may be told: for a question, whether the present bytes are a container (removed: no) *)
Definition told (c : option (list Z)) (x : kop) (o : kout) : Prop :=
  match x, o with
  | KAsk, OBool b => match c with Some l => b = true <-> looks l | None => b = false end
  | KGet, OBytes d => d = match c with Some l => l | None => [] end
  | (KAsk | KGet), _ => False
  | _, ODone => True
  | _, _ => False
  end.
Fixpoint all_told (c : option (list Z)) (xs : list kop) (os : list kout) : Prop :=
  match xs, os with
  | [], [] => True
  | x :: r, o :: os => told c x o /\ all_told (now_holds c x) r os
  | _, _ => False
  end.
Fixpoint finally (c : option (list Z)) (xs : list kop) : option (list Z) := match xs with [] => c | x :: r => finally (now_holds c x) r end.
(** sizes below 2 GiB, parts begin inside, questions about contents that have an answer *)
Definition fits (c : option (list Z)) (x : kop) : Prop :=
  match x with
  | KAll d | KFrom d _ | KReplace d => zlen d < 2^31 /\ Forall byte_ok d
  | KPart s d => Forall byte_ok d /\ Z.of_nat s + zlen d < 2^31 /\ match c with Some l => (s <= length l)%nat | None => True end
  | KAsk => match c with Some l => answerable l | None => True end
  | KClose | KRemove | KGet => True
  end.
Fixpoint all_fit (c : option (list Z)) (xs : list kop) : Prop := match xs with [] => True | x :: r => fits c x /\ all_fit (now_holds c x) r end.
(** no writing between a question and the next closing; [asked] = asked since it was closed last *)
Fixpoint closed_first (asked : bool) (xs : list kop) : Prop :=
  match xs with
  | [] => True
  | KAsk :: r => closed_first true r
  | (KAll _ | KFrom _ _ | KPart _ _) :: r => asked = false /\ closed_first false r
  | (KClose | KReplace _) :: r => closed_first false r
  | KRemove :: _ => True
  | KGet :: r => closed_first asked r
  end.
