(** What a container in memory is: a list of elements in order, found by name without regard to case. *)
From Verif Require Import Prelude Dir_Model.

(** elements by number, with their names *)
Definition elems := list (nat * list Z).
Inductive dop := Create (name : list Z) | Delete (i : nat) | Find (name : list Z) | List.
Inductive dout := Made (i : nat) | Found (i : option nat) | Listed (l : elems) | Gone.
Section Lower.
Variable lower : list Z -> list Z.
Fixpoint find_name (l : elems) (name : list Z) : option nat :=
  match l with [] => None | (i, n) :: t => if key_eq (lower n) (lower name) then Some i else find_name t name end.
(** [k]: how many elements have ever been there *)
Definition ideal_op (s : elems * nat) (o : dop) : (elems * nat) * dout :=
  let (l, k) := s in
  match o with
  | Create name => match find_name l name with Some i => (s, Made i) | None => ((l ++ [(k, name)], S k), Made k) end
  | Delete i => ((filter (fun e => negb (Nat.eqb (fst e) i)) l, k), Gone)
  | Find name => (s, Found (find_name l name))
  | List => (s, Listed l)
  end.
Fixpoint ideal_ops (s : elems * nat) (os : list dop) : (elems * nat) * list dout :=
  match os with [] => (s, []) | o :: t => let (s, r) := ideal_op s o in let (s, rs) := ideal_ops s t in (s, r :: rs) end.
(** only elements that are there are deleted *)
Fixpoint valid (s : elems * nat) (os : list dop) : Prop :=
  match os with [] => True | o :: t => match o with Delete i => In i (map fst (fst s)) | _ => True end /\ valid (fst (ideal_op s o)) t end.
(** the operations as the code runs them; an element is freed after it is deleted *)
Definition dir_op (d : dir) (o : dop) : res (dir * dout) :=
  match o with
  | Create name => do r <- create_file lower d name; Ok (fst r, Made (snd r))
  | Delete i => do d <- delete_file lower d i; do d <- destroy d i; Ok (d, Gone)
  | Find name => Ok (d, Found (get_file lower d name))
  | List => do l <- listing d; Ok (d, Listed l)
  end.
Fixpoint dir_ops (d : dir) (os : list dop) : res (dir * list dout) :=
  match os with [] => Ok (d, []) | o :: t => do r <- dir_op d o; do q <- dir_ops (fst r) t; Ok (fst q, snd r :: snd q) end.
End Lower.
(** the elements of a stored container with these names *)
Definition numbered (names : list (list Z)) : elems := combine (seq 0 (length names)) names.

(** ** What is done with one element, and the name and times that it has then *)
Inductive hop := HRename (n : list Z) | HCreated (t : Z) | HModified (t : Z) | HOpen | HWrite (now : Z) | HClose.
Definition value (v : list Z * Z * Z) (o : hop) : list Z * Z * Z :=
  let '(n, c, m) := v in
  match o with HRename n => (n, c, m) | HCreated c => (n, c, m) | HModified m => (n, c, m) | HWrite m => (n, c, m) | HOpen | HClose => (n, c, m) end.
Definition values (v : list Z * Z * Z) (os : list hop) : list Z * Z * Z := fold_left value os v.
(** the same through the code: what is stored, and the element in memory *)
Definition h_step (s : (list Z * Z * Z) * head) (o : hop) : (list Z * Z * Z) * head :=
  let (st, h) := s in
  match o with
  | HRename n => (st, h_rename h n)
  | HCreated t => (st, h_set_create h t)
  | HModified t => (st, h_set_modify h t)
  | HOpen => (st, h_opens h)
  | HWrite t => (st, h_write h t)
  | HClose => h_close st h
  end.
Definition h_run (s : (list Z * Z * Z) * head) (os : list hop) : (list Z * Z * Z) * head := fold_left h_step os s.
(** an element just read from its container *)
Definition loaded (v : list Z * Z * Z) : (list Z * Z * Z) * head := let '(n, c, m) := v in (v, HD n c m false false).
