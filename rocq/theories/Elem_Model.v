(** Elements of a container in memory, and streams over them.
    Sources: /repo/src/tool1cd/cfapi/V8File.cpp, TV8FileStream.cpp.
    An opened element is the memory stream [data] of V8File (V8Catalog::read_datablock, V8Catalog.cpp:454-473).  The lock does
    nothing (System.Classes.cpp:31-37); marks and times are left out. *)
From Verif Require Import Prelude Stream_Model.

(** data->Seek(Start, soFromBeginning): an exception leaves the call *)
Definition el_seek (m : mstream) (start : Z) : res mstream :=
  do r <- ms_seek m start Beg; do _ <- snd r; Ok (fst r).
(** V8File::read(Buffer, Start, Length), V8File.cpp:133-144: both are int *)
Definition el_read (m : mstream) (start len : Z) : res (mstream * list Z) :=
  do m <- el_seek m (i32 start); ms_read m len (i32 len).
(** V8File::write(Buffer, Start, Length), 169-185 *)
Definition el_write (m : mstream) (start : Z) (buf : list Z) : res (mstream * Z) :=
  do m <- el_seek m (i32 start); do d <- rdn buf 0 (i32 (zlen buf)); ms_write m d.
(** V8File::write(Buffer, Length), 207-224: the whole contents; Length is an int *)
Definition el_write_all (m : mstream) (buf : list Z) : res (mstream * Z) :=
  do m <- (if i32 (zlen buf) <? zlen (ms_data m) then ms_set_size m (i32 (zlen buf)) else Ok m);
  do m <- el_seek m 0; do d <- rdn buf 0 (i32 (zlen buf)); ms_write m d.
(** V8File::write(Stream, Start, Length), 228-244 *)
Definition el_put (m src : mstream) (start len : Z) : res (mstream * mstream * Z) :=
  do m <- el_seek m (i32 start); copy_from m src (i32 len).
(** V8File::write(Stream), 248-265 *)
Definition el_put_all (m src : mstream) : res (mstream * mstream * Z) :=
  do m <- (if zlen (ms_data src) <? zlen (ms_data m) then ms_set_size m (zlen (ms_data src)) else Ok m);
  do m <- el_seek m 0; copy_from m src 0.
(** V8File::read(vector, Start, Length), 148-159, and TV8FileStream::Read(vector, ...), TV8FileStream.cpp:49-54: the vector is
    passed by value; what the caller's vector holds afterwards, and the count *)
Definition el_read_vec (m : mstream) (caller : list Z) (start len : Z) : res (mstream * list Z * Z) :=
  do m <- el_seek m (i32 start); do r <- ms_read_vec m (i32 len); let '(m, _, n) := r in Ok (m, caller, n).

(** TV8FileStream::Seek, TV8FileStream.cpp:77-112: the new position, which is also the result *)
Definition vs_seek (len pos o : Z) (w : origin) : res Z :=
  match w with
  | Beg => if 0 <=? o then (if o <=? len then Ok o else Ok len) else Ok pos
  | Cur => if negb (i64_fits (pos + o)) then UB else if pos + o <? len then Ok (pos + o) else Ok len
  | End_ => if o <=? 0 then
              (if o <=? len then (if negb (i64_fits (len - o)) then UB else Ok (len - o)) else Ok 0)
            else Ok pos
  end.

(** an element and the positions of the streams over it; the whole contents may also be replaced *)
Record open_elem := OE { oe_m : mstream; oe_pos : list Z }.
Inductive eop :=
| ERead (i : nat) (n : nat) | EWrite (i : nat) (d : list Z) | ESeek (i : nat) (o : Z) (w : origin) | ESize (i : nat)
| EAll (d : list Z) | EAllFrom (d : list Z) (p : nat) | ENew.
Inductive eout := EBytes (d : list Z) | ENum (z : Z).
Definition set_pos (l : list Z) (i : nat) (p : Z) : list Z := firstn i l ++ [p] ++ skipn (S i) l.
Definition el_step (s : open_elem) (x : eop) : res (open_elem * eout) :=
  match x with
  | ERead i n =>   (* TV8FileStream::Read, 40-45 *)
      match nth_error (oe_pos s) i with None => UB | Some p =>
        do r <- el_read (oe_m s) p (Z.of_nat n);
        Ok (OE (fst r) (set_pos (oe_pos s) i (p + zlen (snd r))), EBytes (snd r)) end
  | EWrite i d =>   (* TV8FileStream::Write, 58-63 *)
      match nth_error (oe_pos s) i with None => UB | Some p =>
        do r <- el_write (oe_m s) p d;
        Ok (OE (fst r) (set_pos (oe_pos s) i (p + snd r)), ENum (snd r)) end
  | ESeek i o w =>
      match nth_error (oe_pos s) i with None => UB | Some p =>
        do q <- vs_seek (zlen (ms_data (oe_m s))) p o w;
        Ok (OE (oe_m s) (set_pos (oe_pos s) i q), ENum q) end
  | ESize i => Ok (s, ENum (zlen (ms_data (oe_m s))))   (* TV8FileStream::GetSize, 114-117 *)
  | EAll d => do r <- el_write_all (oe_m s) d; Ok (OE (fst r) (oe_pos s), ENum (snd r))
  | EAllFrom d p => do r <- el_put_all (oe_m s) (MS d (Z.of_nat p)); Ok (OE (fst (fst r)) (oe_pos s), ENum (snd r))
  | ENew => Ok (OE (oe_m s) (oe_pos s ++ [0]), ENum 0)   (* V8File::get_stream, V8File.cpp:163-166; TV8FileStream.cpp:25-29 *)
  end.
Fixpoint el_steps (s : open_elem) (xs : list eop) : res (open_elem * list eout) :=
  match xs with
  | [] => Ok (s, [])
  | x :: r => do a <- el_step s x; do b <- el_steps (fst a) r; Ok (fst b, snd a :: snd b)
  end.
