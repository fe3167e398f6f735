(** What replacing the numbers of tables should do. *)
From Verif Require Import Prelude Tref_Model.

(** a line: the new number, a tab, the old number *)
Definition ten (t : list Z) : Z := fold_left (fun v c => 10 * v + (c - 48)) t 0.
Definition decimal (t : list Z) (n : Z) : Prop := t <> [] /\ Forall (fun c => 48 <= c <= 57) t /\ ten t = n.
Definition says (s : list Z) (new old : Z) : Prop := exists a b, s = a ++ [9] ++ b /\ decimal a new /\ decimal b old.
Definition paired (ls : list (list Z)) (old new : Z) : Prop :=
  exists p s q, ls = p ++ [s] ++ q /\ says s new old /\ forall s' m, In s' q -> ~ says s' m old.
Definition good_lines (ls : list (list Z)) : Prop := Forall (fun s => exists m n, says s m n /\ m < 2147483647 /\ n < 2147483647) ls.

(** the fields meant: four bytes, the name ends with TREF in either case *)
Definition small (c : Z) : Z := if (65 <=? c) && (c <=? 90) then c + 32 else c.
Definition meant (f : rfield) : Prop := rf_four f = true /\ exists p w, rf_name f = p ++ w /\ map small w = [116; 114; 101; 102].
Definition plain_names (t : rtable) : Prop := Forall (fun f => Forall (fun c => 0 < c < 128) (rf_name f)) (rt_fields t).
Definition live (r : list Z) : Prop := nth_error r 0 = Some 0.
(** the number in a field that has one, the most significant byte first *)
Definition has_number (f : rfield) (r : list Z) (n : Z) : Prop :=
  exists a b c d, sub r (if rf_null f then S (rf_off f) else rf_off f) 4 = [a; b; c; d] /\ n = a * 16777216 + b * 65536 + c * 256 + d /\
    (rf_null f = true -> nth_error r (rf_off f) <> Some 0).
Definition replaced (ls : list (list Z)) (t : rtable) (r r' : list Z) : Prop :=
  length r' = length r /\
  (live r -> forall f old new, In f (rt_fields t) -> meant f -> has_number f r old -> paired ls old new -> has_number f r' new) /\
  (forall i, (forall f, In f (rt_fields t) -> meant f -> (i < rf_off f \/ rf_off f + (if rf_null f then 5 else 4) <= i)%nat) -> nth_error r' i = nth_error r i).
Definition all_replaced (ls : list (list Z)) (db db' : list rtable) : Prop :=
  Forall2 (fun t t' => rt_fields t' = rt_fields t /\ Forall2 (replaced ls t) (rt_recs t) (rt_recs t')) db db'.

(** a table with such a field and a record *)
Definition concerned (t : rtable) : Prop := (exists f, In f (rt_fields t) /\ meant f) /\ exists r, In r (rt_recs t) /\ live r.
(** no number of a live record is above all of the old numbers of the file *)
Definition within (ls : list (list Z)) (t : rtable) : Prop :=
  forall f r n, In f (rt_fields t) -> meant f -> In r (rt_recs t) -> live r -> has_number f r n -> exists s m o, In s ls /\ says s m o /\ n <= o.
Definition shaped (t : rtable) : Prop :=
  forall f r, In f (rt_fields t) -> In r (rt_recs t) -> Forall byte_ok r /\ (rf_off f + (if rf_null f then 5 else 4) <= length r)%nat.
