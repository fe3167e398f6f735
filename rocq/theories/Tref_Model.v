(** Replacing the numbers of tables in the fields ...TREF by a file of pairs.
    Source: /repo/src/tool1cd/Class_1CD.cpp:1631-1702 (replaceTREF), TableIterator.cpp, TableRecord.cpp, TableRecord.h.
    Simplified: a table is its fields and its records with their bytes (Rec_Model, Obj_Model); memory is unlimited (each round
    takes a copy of the record that is not given back, TableRecord.cpp:61-67); flush, 1699, has nothing to write. *)
From Verif Require Import Prelude Text_Model Descr_Model.

(** Field: name, binary of length 4, null_exists, offset *)
Record rfield := RF { rf_name : list Z; rf_four : bool; rf_null : bool; rf_off : nat }.
Record rtable := RT { rt_fields : list rfield; rt_recs : list (list Z) }.

(** str.find and substr, Class_1CD.cpp:1644-1648, 1657-1662 *)
Fixpoint split_tab (s : list Z) : option (list Z * list Z) :=
  match s with [] => None | c :: r => if c =? 9 then Some ([], r) else match split_tab r with None => None | Some (a, b) => Some (c :: a, b) end end.
(** 1641-1652 *)
Fixpoint max_number (ls : list (list Z)) (m : Z) : res Z :=
  match ls with
  | [] => Ok m
  | s :: r => match split_tab s with None => max_number r m | Some (_, b) => do j <- stoi b; max_number r (if m <? j then j else m) end
  end.
(** 1656-1664 *)
Fixpoint fill (ls : list (list Z)) (mp : list Z) : res (list Z) :=
  match ls with
  | [] => Ok mp
  | s :: r => match split_tab s with
              | None => fill r mp
              | Some (a, b) => do i <- stoi a; do j <- stoi b; if (j <? 0) || (zlen mp <=? j) then UB else fill r (splice mp (Z.to_nat j) [i])
              end
  end.
(** max_size + 1 in int, 1654 *)
Definition number_map (ls : list (list Z)) : res (list Z) :=
  do m <- max_number ls 0; if m =? 2147483647 then UB else fill ls (repeat 0 (Z.to_nat (m + 1))).
(** TableRecord::get, TableRecord.h:77-87, reverse_byte_order, Common.cpp:54-62 *)
Definition number_of (f : rfield) (r : list Z) : Z :=
  if rf_null f && (nth (rf_off f) r 0 =? 0) then 0 else le_val (rev (sub r (rf_off f + (if rf_null f then 1 else 0)) 4)).
(** 1682-1692: the record [r] stays the current one *)
Fixpoint rounds (fuel : nat) (mp : list Z) (f : rfield) (r : list Z) : res unit :=
  match fuel with
  | O => Hang
  | S k => let n := number_of f r in
           if n =? 0 then rounds k mp f r
           else match nth_error mp (Z.to_nat n) with None => UB | Some _ => rounds k mp f r end
  end.
(** TableIterator, TableIterator.cpp:26-51; is_removed, TableRecord.cpp:95-98 *)
Definition first_live (rs : list (list Z)) : option (list Z) := find (fun r => nth 0 r 1 =? 0) rs.
Definition of_field (fuel : nat) (mp : list Z) (rs : list (list Z)) (f : rfield) : res unit :=
  do b <- ends_with_ic (rf_name f) [84; 82; 69; 70];
  if negb b then Ok tt else if negb (rf_four f) then Ok tt
  else match first_live rs with None => Ok tt | Some r => rounds fuel mp f r end.
Fixpoint of_fields (fuel : nat) (mp : list Z) (rs : list (list Z)) (fs : list rfield) : res unit :=
  match fs with [] => Ok tt | f :: r => do _ <- of_field fuel mp rs f; of_fields fuel mp rs r end.
Fixpoint of_tables (fuel : nat) (mp : list Z) (ts : list rtable) : res unit :=
  match ts with [] => Ok tt | t :: r => do _ <- of_fields fuel mp (rt_recs t) (rt_fields t); of_tables fuel mp r end.
Definition replace_tref (fuel : nat) (ls : list (list Z)) (db : list rtable) : res (list rtable) :=
  do mp <- number_map ls; do _ <- of_tables fuel mp db; Ok db.
