(** What a user of the viewer expects. *)
From Verif Require Import Prelude Hex_Model.

(** ** Undo and redo: the versions before (last first), the document, the versions undone *)
Inductive act := AIns (off : nat) (d : list Z) | ADel (off n : nat) | ARep (off : nat) (d : list Z) | AUndo | ARedo.
Definition edited (b : list Z) (a : act) : list Z :=
  match a with
  | AIns o d => firstn o b ++ d ++ skipn o b
  | ADel o n => firstn o b ++ skipn (o + n) b
  | ARep o d => firstn o b ++ d ++ skipn (o + length d) b
  | _ => b
  end.
Definition versions : Type := list (list Z) * list Z * list (list Z).
Definition next (s : versions) (a : act) : versions :=
  let '(past, now, later) := s in
  match a with
  | AUndo => match past with [] => s | p :: t => (t, p, now :: later) end
  | ARedo => match later with [] => s | p :: t => (now :: past, p, t) end
  | _ => (now :: past, edited now a, [])
  end.
(** inside the document *)
Definition inside (b : list Z) (a : act) : Prop :=
  match a with
  | AIns o _ => (o <= length b)%nat
  | ADel o _ => (o <= length b)%nat
  | ARep o d => (o + length d <= length b)%nat
  | _ => True
  end.
Fixpoint all_inside (s : versions) (l : list act) : Prop := match l with [] => True | a :: t => inside (snd (fst s)) a /\ all_inside (next s a) t end.
(** the same calls *)
Definition call (d : doc) (a : act) : doc :=
  match a with
  | AIns o x => d_insert d (Z.of_nat o) x
  | ADel o n => d_remove d (Z.of_nat o) (Z.of_nat n)
  | ARep o x => d_replace d (Z.of_nat o) x
  | AUndo => undo d
  | ARedo => redo d
  end.

(** ** Positions and selections *)
Definition on_grid (p : pos) : Prop := 0 <= line p /\ 0 <= col p <= 15.
(** bytes [i] to [j] are selected, the cursor is at [j] (forwards) or at [i] (backwards) *)
Definition forwards (v : view) (i j : nat) : Prop := on_grid (at_ v) /\ on_grid (sel v) /\ offset (sel v) = Z.of_nat i /\ offset (at_ v) = Z.of_nat j /\ (i < j)%nat.
Definition backwards (v : view) (i j : nat) : Prop := on_grid (at_ v) /\ on_grid (sel v) /\ offset (at_ v) = Z.of_nat i /\ offset (sel v) = Z.of_nat j /\ (i < j)%nat.
Definition bytes (v : view) : list Z := d_bytes (v_doc v).
(** the cursor is at byte [i], at its first digit, nothing is selected *)
Definition stands_at (v : view) (i : nat) : Prop := at_ v = sel v /\ on_grid (at_ v) /\ offset (at_ v) = Z.of_nat i /\ nib (at_ v) = 1.

(** ** Search *)
Definition occurs (b p : list Z) (i : nat) : Prop := exists x y, b = x ++ p ++ y /\ length x = i.

(** ** Digits *)
Definition digit (x : Z) : Z := nth (Z.to_nat x) [48; 49; 50; 51; 52; 53; 54; 55; 56; 57; 97; 98; 99; 100; 101; 102] 0.
Definition digits (b : list Z) : list Z := flat_map (fun x => [digit (x / 16); digit (x mod 16)]) b.
Definition printable (b : list Z) : Prop := Forall (fun c => 32 <= c <= 126) b.
(** the text of the clipboard that stands for bytes [x] *)
Definition text_for (v : view) (x text : list Z) : Prop := if hexa v then text = digits x else text = x.
(** the bytes after typing [d] at [i] *)
Definition typed (insert : bool) (b : list Z) (i : nat) (d : list Z) : list Z := firstn i b ++ d ++ skipn (if insert then i else i + length d)%nat b.
(** the selection, or the cursor when nothing is selected, begins at [s] *)
Definition begins (v : view) (s : nat) : Prop := (at_ v = sel v /\ offset (at_ v) = Z.of_nat s) \/ exists j, forwards v s j \/ backwards v s j.
