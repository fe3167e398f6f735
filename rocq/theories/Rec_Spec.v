(** What scanning and editing a table mean. *)
From Verif Require Import Prelude Rec_Model.

(** ** Live records *)
(** number and bytes of record [i] *)
Definition slot (content : list Z) (reclen : Z) (i : nat) : Z * list Z :=
  (Z.of_nat i, sub content (i * Z.to_nat reclen) (Z.to_nat reclen)).
Definition alive (r : Z * list Z) : bool := match snd r with 0 :: _ => true | _ => false end.
(** all records whose first byte is 0, in the order of the file *)
Definition live (content : list Z) (reclen phys : Z) : list (Z * list Z) :=
  filter alive (map (slot content reclen) (seq 0 (Z.to_nat phys))).
(** the records named by an index, up to the first number that is not in the file *)
Fixpoint known (phys : Z) (idx : list Z) : list Z :=
  match idx with [] => [] | p :: r => if p <? phys then p :: known phys r else [] end.
Definition live_by (idx content : list Z) (reclen phys : Z) : list (Z * list Z) :=
  filter alive (map (fun p => slot content reclen (Z.to_nat p)) (known phys idx)).

(** ** Edits: new records in order, and the stored ones marked as deleted *)
Record view := VW { v_new : list (list Z); v_del : list Z }.
Inductive op :=
  | Insert (i : nat)                          (* a new record at position i of the new ones *)
  | Remove (i : nat)                          (* the new record at position i *)
  | Delete (k : Z)                            (* a stored record *)
  | Restore (k : Z)                           (* a stored record *)
  | SetValue (i : nat) (off : Z) (v : list Z) (* bytes of a new record *).
Definition drop_at {A} (i : nat) (l : list A) : list A := firstn i l ++ skipn (S i) l.
Definition spec_op (reclen : Z) (o : op) (v : view) : view :=
  match o with
  | Insert i => if (i =? length (v_new v))%nat then VW (v_new v ++ [repeat 0 (Z.to_nat reclen)]) (v_del v) else v
  | Remove i => VW (drop_at i (v_new v)) (v_del v)
  | Delete k => VW (v_new v) (k :: v_del v)
  | Restore k => VW (v_new v) (filter (fun x => negb (x =? k)) (v_del v))
  | SetValue i off d => VW (map (fun p => if (fst p =? i)%nat then splice (snd p) (Z.to_nat off) d else snd p) (combine (seq 0 (length (v_new v))) (v_new v))) (v_del v)
  end.
(** operations that make sense in a view *)
Definition op_ok (phys reclen : Z) (o : op) (v : view) : Prop :=
  match o with
  | Insert i => (i <= length (v_new v))%nat
  | Remove i => (i < length (v_new v))%nat
  | Delete k | Restore k => 0 <= k < phys
  | SetValue i off d => (i < length (v_new v))%nat /\ 0 <= off /\ off + zlen d <= reclen
  end.
Fixpoint history_ok (phys reclen : Z) (os : list op) (v : view) : Prop :=
  match os with [] => True | o :: r => op_ok phys reclen o v /\ history_ok phys reclen r (spec_op reclen o v) end.
(** what the operations call *)
Definition do_op (phys reclen : Z) (o : op) (e : edits) : res edits :=
  match o with
  | Insert i => set_rec_type phys reclen (phys + Z.of_nat i) Inserted e
  | Remove i => set_rec_type phys reclen (phys + Z.of_nat i) Deleted e
  | Delete k => set_rec_type phys reclen k Deleted e
  | Restore k => set_rec_type phys reclen k NotChanged e
  | SetValue i off d => set_edit_value phys reclen (phys + Z.of_nat i) off d [] e
  end.
Fixpoint do_ops (phys reclen : Z) (os : list op) (e : edits) : res edits :=
  match os with [] => Ok e | o :: r => do e <- do_op phys reclen o e; do_ops phys reclen r e end.
Definition spec_ops (reclen : Z) (os : list op) (v : view) : view := fold_left (fun v o => spec_op reclen o v) os v.
