(** What adding and removing should do to an index. *)
From Verif Require Import Prelude Leaf_Model Leaf_Spec Idx_Model.

(** ** Contents: records in the order of their keys *)
Fixpoint key_ltb (a b : list Z) : bool :=
  match a, b with
  | x :: a', y :: b' => (x <? y) || ((x =? y) && key_ltb a' b')
  | _, _ => false
  end.
(** with a record added *)
Fixpoint added (key : list Z) (num : Z) (l : list (Z * list Z)) : list (Z * list Z) :=
  match l with
  | [] => [(num, key)]
  | (n, k) :: t => if key_ltb key k then (num, key) :: (n, k) :: t else (n, k) :: added key num t
  end.
(** with the record of a key removed *)
Definition removed (key : list Z) (l : list (Z * list Z)) : list (Z * list Z) :=
  filter (fun r => negb (if list_eq_dec Z.eq_dec (snd r) key then true else false)) l.

(** ** An index in its file *)
Definition t_recs (t : tree) : list (Z * list Z) := concat (map snd (t_leaves t)).
(** the offsets of its pages *)
Fixpoint t_pages (t : tree) : list Z := match t with Leaf o _ => [o] | Node o kids => o :: flat_map t_pages kids end.
(** the branches hold the last record of each child *)
Section keyed.
Variables (f : list Z) (ps len : Z).
Fixpoint keyed (t : tree) : Prop :=
  match t with
  | Leaf _ _ => True
  | Node o kids =>
      (forall i t, nth_error kids i = Some t -> exists num key, last (map Some (t_recs t)) None = Some (num, key) /\
         get f (o + 12 + (len + 8) * Z.of_nat i) len = Ok key /\ get f (o + 12 + (len + 8) * Z.of_nat i + len) 4 = Ok (rev (le_bytes 4 num))) /\
      (fix all l := match l with [] => True | t :: r => keyed t /\ all r end) kids
  end.
End keyed.
(** pages apart from each other and from the description of the index; the first page is not one of them *)
Definition placed (x : ix) (f : list Z) (t : tree) : Prop :=
  NoDup (t_pages t) /\ forall o, In o (t_pages t) -> 0 < o /\ o mod x_ps x = 0 /\ o + x_ps x <= zlen f /\ (x_start x + 8 <= o \/ o + x_ps x <= x_start x).
Record index_ok (x : ix) (f : list Z) (t : tree) : Prop := {
  i_len : 0 < x_len x < 2^15;
  i_ps : 30 < x_ps x <= 2^16;
  i_bytes : bytes_ok f;
  i_stored : stored (get f) (x_ps x) (x_len x) (x_mul x) t;
  i_chained : chained (get f) (x_ps x) (x_mul x) (map fst (t_leaves t));
  i_keyed : keyed f (x_len x) t;
  i_placed : placed x f t;
  i_sorted : sorted (map snd (t_recs t));
  i_recs : Forall (rec_ok (x_len x)) (t_recs t);
  i_root : x_root x = t_off t;
  i_head : exists h, get f (x_start x) 8 = Ok h /\ le_val (sub h 0 4) * x_mul x = t_off t /\ le_val (sub h 4 2) = x_len x
}.

(** ** Where a record belongs: the first leaf that does not end before the key, else the last one *)
Definition ends_before (key : list Z) (r : list (Z * list Z)) : bool :=
  match last (map Some r) None with Some (_, k) => key_ltb k key | None => false end.
Fixpoint at_home (key : list Z) (g : list (Z * list Z) -> list (Z * list Z)) (ls : list (Z * list (Z * list Z))) : list (Z * list (Z * list Z)) :=
  match ls with
  | [] => []
  | (o, r) :: t => match t with [] => [(o, g r)] | _ => if ends_before key r then (o, r) :: at_home key g t else (o, g r) :: t end
  end.
Fixpoint home (key : list Z) (ls : list (Z * list (Z * list Z))) : list (Z * list Z) :=
  match ls with [] => [] | (_, r) :: t => match t with [] => r | _ => if ends_before key r then home key t else r end end.
(** [n] records fit into a page whatever they are *)
Definition fits (x : ix) (n : Z) : Prop := 30 + (x_len x + 8) * n < x_ps x.

(** ** Histories *)
(** (true, r): the record r is added; (false, r): it is removed *)
Definition op_recs (l : list (Z * list Z)) (o : bool * (Z * list Z)) : list (Z * list Z) := if fst o then added (snd (snd o)) (fst (snd o)) l else removed (snd (snd o)) l.
(** each step has a leaf with room: new keys are added, records that are there are removed, and not the last
    one of a leaf *)
Fixpoint roomy (x : ix) (ops : list (bool * (Z * list Z))) (ls : list (Z * list (Z * list Z))) : Prop :=
  match ops with
  | [] => True
  | (true, (n, k)) :: r => rec_ok (x_len x) (n, k) /\ ~ In k (map snd (concat (map snd ls))) /\ fits x (zlen (home k ls) + 1) /\ roomy x r (at_home k (added k n) ls)
  | (false, (n, k)) :: r => In (n, k) (concat (map snd ls)) /\ 2 <= zlen (home k ls) /\ fits x (zlen (home k ls) - 1) /\ roomy x r (at_home k (removed k) ls)
  end.
