(** What containers should do, independent of the code. *)
From Verif Require Import Prelude Cf_Model.

(** eight hexadecimal digits, most significant first *)
Definition digit (v : Z) : Z := nth (Z.to_nat v) [48; 49; 50; 51; 52; 53; 54; 55; 56; 57; 97; 98; 99; 100; 101; 102] 0.
Fixpoint digits (k : nat) (v : Z) : list Z := match k with O => [] | S k => digits k (v / 16) ++ [digit (v mod 16)] end.
(** the header of a block *)
Definition hdr (d p n : Z) : list Z := [13; 10] ++ digits 8 d ++ [32] ++ digits 8 p ++ [32] ++ digits 8 n ++ [32; 13; 10].

(** ** Histories: a container as a table of contents and a list of byte strings; [None] = a file
    without block *)
Record store := ST { s_fat : list Z; s_files : list (option (list Z)) }.
Inductive op :=
  | Fat (d : list Z)              (* write the table of contents *)
  | Write (i : nat) (d : list Z)  (* write file i *)
  | Release (i : nat)             (* give the block of file i back *)
  | Reopen (ver : Z)              (* save with this version, open again *).
Definition set_nth {A} (i : nat) (x : A) (l : list A) : list A := firstn i l ++ [x] ++ skipn (S i) l.
Definition spec_op (o : op) (s : store) : store :=
  match o with
  | Fat d => ST d (s_files s)
  | Write i d => ST (s_fat s) (set_nth i (Some d) (s_files s))
  | Release i => ST (s_fat s) (set_nth i None (s_files s))
  | Reopen _ => s
  end.
Definition spec_ops (os : list op) (s : store) : store := fold_left (fun s o => spec_op o s) os s.
(** a file without block must not be written with no bytes (C95) *)
Definition op_ok (o : op) (s : store) : Prop :=
  match o with
  | Fat d => True
  | Write i d => (i < length (s_files s))%nat /\ (d <> [] \/ exists b, nth_error (s_files s) i = Some (Some b))
  | Release i => (i < length (s_files s))%nat
  | Reopen _ => True
  end.
Fixpoint history_ok (os : list op) (s : store) : Prop := match os with [] => True | o :: r => op_ok o s /\ history_ok r (spec_op o s) end.
(** how much a container may grow *)
Definition growth (page : Z) (o : op) : Z :=
  match o with Fat d | Write _ d => 31 + Z.max (zlen d) page | Release _ | Reopen _ => 0 end.
Definition total_growth (page : Z) (os : list op) : Z := fold_right (fun o r => growth page o + r) 0 os.
(** what the operations call: V8Catalog.cpp:700, V8File.cpp:506, 436; the addresses of the blocks
    are kept by the files, 0 = none *)
Record run := RN { r_cat : cat; r_starts : list Z }.
Definition do_op (fuel : nat) (after : list Z) (o : op) (r : run) : res run :=
  match o with
  | Fat d => do w <- write_block fuel after (r_cat r) d 0 16 (-1) true; Ok (RN (fst w) (r_starts r))
  | Write i d => do w <- write_block fuel after (r_cat r) d 0 (nth i (r_starts r) 0) (-1) false; Ok (RN (fst w) (set_nth i (snd w) (r_starts r)))
  | Release i => do c <- free_block fuel after (r_cat r) (nth i (r_starts r) 0); Ok (RN c (set_nth i 0 (r_starts r)))
  | Reopen ver => Ok (RN (open_cat (flush_marks (r_cat r) ver)) (r_starts r))
  end.
Fixpoint do_ops (fuel : nat) (after : list Z) (os : list op) (r : run) : res run :=
  match os with [] => Ok r | o :: t => do r <- do_op fuel after o r; do_ops fuel after t r end.
(** read_datablock, V8Catalog.cpp:455-473, of a container that is not compressed *)
Definition read_file (fuel : nat) (after : list Z) (r : run) (i : nat) : res (list Z) :=
  let s := nth i (r_starts r) 0 in if s =? 0 then Ok [] else read_block fuel after (c_data (r_cat r)) s.
