(** What streams are: an array of bytes with a cursor. *)
From Verif Require Import Prelude Stream_Model.

Inductive sop := SWrite (d : list Z) | SRead (n : nat) | SSeek (o : Z) (w : origin) | SSize (n : nat) | SPos (p : nat).
Inductive out := Num (z : Z) | Bytes (l : list Z) | Error | Unit.

(** byte [i] after writing [d] at [p]; the array reaches at least to the end of what is
    written, unwritten bytes between are zero *)
Definition byte_at (l : list Z) (p : nat) (d : list Z) (i : nat) : Z :=
  if ((p <=? i) && (i <? p + length d))%nat then nth (i - p) d 0 else nth i l 0.
Definition overlay (l : list Z) (p : nat) (d : list Z) : list Z := map (byte_at l p d) (seq 0 (Nat.max (length l) (p + length d))).

(** a seek: the target from the start, from the cursor, or backwards from the end *)
Definition target (size pos : nat) (o : Z) (w : origin) : Z :=
  match w with Beg => o | Cur => Z.of_nat pos + o | End_ => Z.of_nat size - o end.
Definition inside (size : nat) (t : Z) : bool := (0 <=? t) && (t <=? Z.of_nat size).

Definition ideal (s : list Z * nat) (x : sop) : (list Z * nat) * out :=
  let (l, p) := s in
  match x with
  | SWrite d => ((overlay l p d, (p + length d)%nat), Num (zlen d))
  | SRead n => let d := firstn n (skipn p l) in ((l, (p + length d)%nat), Bytes d)
  | SSeek o w => let t := target (length l) p o w in if inside (length l) t then ((l, Z.to_nat t), Num t) else ((l, p), Error)
  | SSize n => ((firstn n l ++ repeat 0 (n - length l), Nat.min p n), Unit)
  | SPos p' => ((l, p'), Unit)
  end.
Fixpoint ideals (s : list Z * nat) (xs : list sop) : (list Z * nat) * list out :=
  match xs with
  | [] => (s, [])
  | x :: r => let (s1, o) := ideal s x in let (s2, os) := ideals s1 r in (s2, o :: os)
  end.

(** the operations of a stream as the code runs them *)
Definition mexec (s : mstream) (x : sop) : res (mstream * out) :=
  match x with
  | SWrite d => do r <- ms_write s d; Ok (fst r, Num (snd r))
  | SRead n => do r <- ms_read s (Z.of_nat n) (Z.of_nat n); Ok (fst r, Bytes (snd r))
  | SSeek o w => do r <- ms_seek s o w; match snd r with Ok z => Ok (fst r, Num z) | _ => Ok (fst r, Error) end
  | SSize n => do s' <- ms_set_size s (Z.of_nat n); Ok (s', Unit)
  | SPos p => Ok (MS (ms_data s) (Z.of_nat p), Unit)
  end.
Fixpoint mexecs (s : mstream) (xs : list sop) : res (mstream * list out) :=
  match xs with
  | [] => Ok (s, [])
  | x :: r => do a <- mexec s x; do b <- mexecs (fst a) r; Ok (fst b, snd a :: snd b)
  end.
Definition fexec (s : fstream) (x : sop) : fstream * out :=
  match x with
  | SWrite d => let (s', n) := fs_write s d in (s', Num n)
  | SRead n => let (s', d) := fs_read s (Z.of_nat n) in (s', Bytes d)
  | SSeek o w => let (s', r) := fs_seek s o w in match r with Ok z => (s', Num z) | _ => (s', Error) end
  | SSize n => (FS (fs_data s) (fs_pos s) (Z.of_nat n) (fs_fail s), Unit)   (* TStream::SetSize, TStream.cpp:42-46 *)
  | SPos p => (FS (fs_data s) (Z.of_nat p) (fs_size s) (fs_fail s), Unit)
  end.
Fixpoint fexecs (s : fstream) (xs : list sop) : fstream * list out :=
  match xs with
  | [] => (s, [])
  | x :: r => let (s1, o) := fexec s x in let (s2, os) := fexecs s1 r in (s2, o :: os)
  end.

(** sizes, positions and arguments stay below 2^62 *)
Definition op_fits (x : sop) : Prop :=
  match x with SWrite d => zlen d < 2^61 | SRead n => Z.of_nat n < 2^61 | SSeek o w => -2^61 < o < 2^61 | SSize n => Z.of_nat n < 2^61 | SPos p => Z.of_nat p < 2^61 end.
Fixpoint run_fits (s : list Z * nat) (xs : list sop) : Prop :=
  zlen (fst s) < 2^62 /\ Z.of_nat (snd s) < 2^62 /\
  match xs with [] => True | x :: r => op_fits x /\ run_fits (fst (ideal s x)) r end.
(** a seek from the start is not negative; a seek from the end stays inside *)
Fixpoint seeks_ok (s : list Z * nat) (xs : list sop) : Prop :=
  match xs with
  | [] => True
  | x :: r => match x with
              | SSeek o Beg => 0 <= o
              | SSeek o End_ => 0 <= o <= zlen (fst s)
              | _ => True
              end /\ seeks_ok (fst (ideal s x)) r
  end.
(** for files: also no writing right after a read that met the end, unless another read came
    between; no size changes and no cursor behind the end *)
Fixpoint file_ok (short : bool) (s : list Z * nat) (xs : list sop) : Prop :=
  match xs with
  | [] => True
  | x :: r =>
      match x with
      | SSize _ => False
      | SPos p => (p <= length (fst s))%nat /\ file_ok short (fst (ideal s x)) r
      | SWrite _ => short = false /\ file_ok false (fst (ideal s x)) r
      | SRead n => file_ok (length (skipn (snd s) (fst s)) <? n)%nat (fst (ideal s x)) r
      | _ => file_ok short (fst (ideal s x)) r
      end
  end.

(** zlib: what deflate gives for a series of buffers, the last one with the finish flag,
    inflate turns back, however it is cut into buffers; it ends with the last of them *)
Fixpoint def_run (c : codec) (st : dst_ c) (bufs : list (list Z)) (last : list Z) : list Z :=
  match bufs with
  | [] => snd (d_step c st last true)
  | b :: r => let (st', o) := d_step c st b false in o ++ def_run c st' r last
  end.
Fixpoint inf_run (c : codec) (st : ist_ c) (bufs : list (list Z)) : option (list Z) :=
  match bufs with
  | [] => None
  | b :: r => let '(st', o, ret) := i_step c st b in
      match ret, r with
      | Done, [] => Some o
      | More, _ :: _ => match inf_run c st' r with Some x => Some (o ++ x) | None => None end
      | _, _ => None
      end
  end.
Definition lossless (c : codec) : Prop :=
  forall bufs last pieces, Forall (fun p => p <> []) pieces -> concat pieces = def_run c (d_init c) bufs last -> inf_run c (i_init c) pieces = Some (concat bufs ++ last).
