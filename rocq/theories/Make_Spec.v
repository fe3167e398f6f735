(** What a user expects of creating a table from the directory of an export. *)
From Verif Require Import Prelude Tree_Model Descr_Model Descr_Spec Make_Model.

(** the root object of a database with the tables [l] *)
Definition list_of (old : bool) (lang l root : list Z) : Prop :=
  Forall (fun c => c <> 0) lang /\ exists pad rest, zlen lang + 1 + zlen pad = (if old then 8 else 32) /\ root = root_data (if old then 8 else 32) lang pad (zlen l) l rest.
Definition good_list (l : list Z) : Prop := Forall (fun b => 0 <= b < 2 ^ 32) l /\ zlen l < 2 ^ 31 /\ NoDup l.
(** the name at the beginning of a description: the first value of the first list *)
Definition begins_with (text nm : list Z) : Prop :=
  exists a ka b kb k c r s, parse_text text = Ok (Node a ka (Node b kb (Node nm k c :: r) :: s)).
(** the first four bytes of the file root: 1 for a file that the export has *)
Definition brings (root : list Z) (i : nat) : Prop := nth_error root i = Some 1.
Definition whole_root (root : list Z) : Prop := (36 <= length root)%nat /\ forall i, (i < 4)%nat -> nth_error root i = Some 0 \/ nth_error root i = Some 1.
Definition exported (f : mfiles) (root descr : list Z) : Prop := m_root f = Some root /\ m_descr f = Some descr /\ whole_root root.
Definition has_files (f : mfiles) (root : list Z) : Prop :=
  (brings root 0 -> m_data f <> None) /\ (brings root 1 -> m_blob f <> None) /\ (brings root 2 -> m_index f <> None).
(** the part of a description with the numbers of the files *)
Definition has_part (text : list Z) : Prop := exists p q, text = p ++ [123; 34; 70; 105; 108; 101; 115; 34; 44] ++ q.
