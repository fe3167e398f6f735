(** What leaf pages and index trees hold. *)
From Verif Require Import Prelude Leaf_Model.

(** an index record: the number of the table record and its key *)
Definition rec_ok (len : Z) (r : Z * list Z) : Prop := 0 <= fst r < 2^32 /\ zlen (snd r) = len /\ bytes_ok (snd r).
(** the unpacked form: numbers and keys one after another *)
Definition flat (recs : list (Z * list Z)) : list Z := concat (map (fun r => le_bytes 4 (fst r) ++ snd r) recs).
(** byte strings in the order of the index *)
Fixpoint key_lt (a b : list Z) : Prop :=
  match a, b with
  | x :: a', y :: b' => x < y \/ (x = y /\ key_lt a' b')
  | _, _ => False
  end.
Fixpoint sorted (l : list (list Z)) : Prop :=
  match l with
  | a :: ((b :: _) as r) => key_lt a b /\ sorted r
  | _ => True
  end.

(** ** Trees: a leaf holds the records that unpacking its page gives *)
Inductive tree := Leaf (off : Z) (recs : list (Z * list Z)) | Node (off : Z) (kids : list tree).
Definition t_off (t : tree) : Z := match t with Leaf o _ => o | Node o _ => o end.
Fixpoint t_leaves (t : tree) : list (Z * list (Z * list Z)) :=
  match t with Leaf o r => [(o, r)] | Node _ kids => flat_map t_leaves kids end.
Fixpoint height (t : tree) : nat := match t with Leaf _ _ => 0 | Node _ kids => S (fold_right Nat.max 0%nat (map height kids)) end.

Section stored.
Variables (get : Z -> Z -> res (list Z)) (pagesize len mul : Z).
Definition page_at (o : Z) (p : list Z) : Prop := get o pagesize = Ok p /\ zlen p = pagesize /\ bytes_ok p.
(** branch: 12 bytes header, then per child key, record number, and the page of the child big-endian *)
Fixpoint stored (t : tree) : Prop :=
  match t with
  | Leaf o recs => exists p, page_at o p /\ unpack_leafpage len pagesize p = Ok recs /\ zlen recs = hd_field p 2 2 /\ zlen recs < 2^15 /\
      hd_field p 28 2 < 2^15 /\ 30 + hd_field p 28 2 * zlen recs <= pagesize
  | Node o kids => exists p, page_at o p /\ Z.land (nth 0 p 0) 2 = 0 /\ 0 < hd_field p 2 2 < 2^15 /\ hd_field p 2 2 = zlen kids /\
      12 + (len + 8) * zlen kids <= pagesize /\
      (forall i t, nth_error kids i = Some t -> le_val (rev (sub p (Z.to_nat (12 + (len + 8) * Z.of_nat i + len + 4)) 4)) * mul = t_off t) /\
      (fix all l := match l with [] => True | t :: r => stored t /\ all r end) kids
  end.
(** each leaf names the next one, the last none *)
Fixpoint chained (l : list Z) : Prop :=
  match l with
  | [] => True
  | a :: r => (exists p, page_at a p /\ match r with [] => hd_field p 8 4 = 2^32 - 1 | b :: _ => hd_field p 8 4 <> 2^32 - 1 /\ hd_field p 8 4 * mul = b end) /\ chained r
  end.
End stored.
