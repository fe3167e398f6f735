(** What a page store is: a list of pages without any cache. *)
From Verif Require Import Prelude Cache_Model.

(** bytes 12..15 of page 0 hold the number of pages *)
Definition put_count (pages : list (list Z)) (n : nat) : list (list Z) :=
  match pages with h :: r => splice h 12 (le_bytes 4 (Z.of_nat n)) :: r | [] => [] end.

(** one operation on the plain store: [Some d] is the answer of a read.  A write that
    asks not to load the page may start from the page's bytes or from zeros. *)
Inductive plain_op (ps : nat) : list (list Z) -> op -> option (list Z) -> list (list Z) -> Prop :=
| po_read pages n d : nth_error pages n = Some d -> plain_op ps pages (ORead n) (Some d) pages
| po_write pages n rd off d p q :
    nth_error pages n = Some p -> (q = p \/ rd = false /\ q = repeat 0 ps) -> (off + length d <= ps)%nat ->
    plain_op ps pages (OWrite n rd off d) None (splice pages n [splice q off d])
| po_append pages off d : (off + length d <= ps)%nat ->
    plain_op ps pages (OWrite (length pages) false off d) None
      (put_count pages (S (length pages)) ++ [splice (repeat 0 ps) off d])
| po_flush pages : plain_op ps pages OFlush None pages
| po_garbage pages a : plain_op ps pages (OGarbage a) None pages.

Inductive plain_run (ps : nat) : list (list Z) -> list op -> list (list Z) -> list (list Z) -> Prop :=
| pl_nil pages : plain_run ps pages [] [] pages
| pl_some pages o d pages' os ds pages'' :
    plain_op ps pages o (Some d) pages' -> plain_run ps pages' os ds pages'' -> plain_run ps pages (o :: os) (d :: ds) pages''
| pl_none pages o pages' os ds pages'' :
    plain_op ps pages o None pages' -> plain_run ps pages' os ds pages'' -> plain_run ps pages (o :: os) ds pages''.

(** requests a store of [k] pages can serve: pages in range, appends without loading *)
Definition op_fits (ps k : nat) (o : op) : Prop :=
  match o with
  | ORead n => (n < k)%nat
  | OWrite n rd off d => (n < k \/ n = k /\ rd = false)%nat /\ (off + length d <= ps)%nat
  | _ => True
  end.
Definition grow (k : nat) (o : op) : nat :=
  match o with OWrite n _ _ _ => if (n =? k)%nat then S k else k | _ => k end.
Fixpoint ops_fit (ps k : nat) (os : list op) : Prop :=
  match os with [] => True | o :: r => op_fits ps k o /\ ops_fit ps (grow k o) r end.

Fixpoint grow_all (k : nat) (os : list op) : nat := match os with [] => k | o :: r => grow_all (grow k o) r end.

(** cut a file into pages *)
Definition pages_of (ps : nat) (bs : list Z) : list (list Z) := map (fun i => sub bs (i * ps) ps) (seq 0 (length bs / ps)).

(** a file of [k] pages of [ps] bytes with the right count in its header *)
Definition good_file (ps k : nat) (bs : list Z) : Prop :=
  (16 <= ps)%nat /\ (1 <= k)%nat /\ Z.of_nat k < 2^32 /\ length bs = (k * ps)%nat /\ sub bs 12 4 = le_bytes 4 (Z.of_nat k).

(** writes that leave the page count in the header alone *)
Definition spares_count (o : op) : Prop :=
  match o with OWrite 0 rd off d => rd = true /\ (off + length d <= 12 \/ 16 <= off)%nat | _ => True end.
