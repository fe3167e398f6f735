(** A file with a position, as its user sees it. *)
From Verif Require Import Prelude Life_Model.

Definition file := (list Z * nat)%type.
Definition after (f : file) (o : lop) : file :=
  let (d, p) := f in
  match o with
  | ORead n => (d, (p + Z.to_nat n)%nat)
  | OWrite b => (firstn p d ++ b ++ skipn (p + length b) d, (p + length b)%nat)
  | OSeek q => (d, Z.to_nat q)
  | OClose => (d, p)
  end.
Definition answer (f : file) (o : lop) : list Z := match o with ORead n => firstn (Z.to_nat n) (skipn (snd f) (fst f)) | _ => [] end.
Fixpoint answers (f : file) (ops : list lop) : list (list Z) := match ops with [] => [] | o :: t => answer f o :: answers (after f o) t end.
Definition final (f : file) (ops : list lop) : list Z := fst (fold_left after ops f).
(** reads and seeks stay within the file *)
Fixpoint within (f : file) (ops : list lop) : Prop :=
  match ops with
  | [] => True
  | o :: t => match o with
              | ORead n => 0 <= n /\ Z.of_nat (snd f) + n <= zlen (fst f)
              | OSeek q => 0 <= q <= zlen (fst f)
              | _ => True
              end /\ within (after f o) t
  end.
(** whether the stream is closed when it has been used so; Seek does not use the file *)
Definition closed_after (c : bool) (o : lop) : bool := match o with OClose => true | OSeek _ => c | _ => false end.
(** it is closed, or discarded, only while open *)
Fixpoint closed_once (c : bool) (ops : list lop) : Prop :=
  match ops with [] => c = false | o :: t => (o = OClose -> c = false) /\ closed_once (closed_after c o) t end.
