(** Streams in memory and over files, copying, compressing.
    Sources: /repo/src/tool1cd/SystemClasses/TStream.cpp, TMemoryStream.cpp, UZLib.cpp. *)
From Verif Require Import Prelude.

(** values of int64_t; the addition of two of them overflows outside *)
Definition i64_fits (x : Z) : bool := (-2^63 <=? x) && (x <? 2^63).
Definition i64 (x : Z) : Z := (x + 2^63) mod 2^64 - 2^63.

(** ** TMemoryStream: _data and m_position, TMemoryStream.hpp:57; m_size always equals the
    length of _data when read through GetSize (TMemoryStream.cpp:34-37), so it is left out *)
Record mstream := MS { ms_data : list Z; ms_pos : Z }.
Definition ms_new : mstream := MS [] 0.

(** TMemoryStream::Read(Buffer, Count) into a buffer of [cap] bytes, TMemoryStream.cpp:48-60.
    The comparison is unsigned, the sum signed. *)
Definition ms_read (s : mstream) (cap count : Z) : res (mstream * list Z) :=
  let t := ms_pos s + count in
  if negb (i64_fits t) then UB
  else
    let n := if zlen (ms_data s) <=? u64 t then i64 (zlen (ms_data s) - ms_pos s) else count in
    if 0 <? n then
      if cap <? n then UB
      else do d <- rdn (ms_data s) (ms_pos s) n; Ok (MS (ms_data s) (ms_pos s + n), d)
    else Ok (s, []).

(** _data[m_position++] = *buf++, TMemoryStream.cpp:66-68 *)
Fixpoint ms_put (data : list Z) (pos : Z) (buf : list Z) : res (list Z * Z) :=
  match buf with
  | [] => Ok (data, pos)
  | b :: r => do data' <- wrn data pos [b]; ms_put data' (pos + 1) r
  end.
(** EnsureSize, TMemoryStream.cpp:83-89; a vector of more than 2^63-1 bytes is refused *)
Definition ms_ensure (data : list Z) (size : Z) : res (list Z) :=
  if zlen data <? size then (if 2^63 - 1 <? size then Throw else Ok (data ++ repeat 0 (Z.to_nat (size - zlen data)))) else Ok data.
(** TMemoryStream::Write(Buffer, Count) with all of [buf], TMemoryStream.cpp:62-70 *)
Definition ms_write (s : mstream) (buf : list Z) : res (mstream * Z) :=
  let t := ms_pos s + zlen buf in
  if negb (i64_fits t) then UB
  else do data <- ms_ensure (ms_data s) (u64 t); do r <- ms_put data (ms_pos s) buf; Ok (MS (fst r) (snd r), zlen buf).

(** TMemoryStream::SetSize, TMemoryStream.cpp:39-46 *)
Definition ms_set_size (s : mstream) (n : Z) : res mstream :=
  if (n <? 0) || (2^63 - 1 <? n) then Throw
  else
    let data := firstn (Z.to_nat n) (ms_data s) ++ repeat 0 (Z.to_nat (n - zlen (ms_data s))) in
    Ok (MS data (if n <? ms_pos s then n else ms_pos s)).

(** TStream::Seek, TStream.cpp:58-83: the new state and what the call returns (Throw: the
    exception; the state is then what the object holds afterwards) *)
Inductive origin := Beg | Cur | End_.
Definition ms_seek (s : mstream) (o : Z) (w : origin) : res (mstream * res Z) :=
  let size := zlen (ms_data s) in
  match w with
  | Beg => if size <? o then Ok (s, Throw) else Ok (MS (ms_data s) o, Ok o)
  | End_ =>
      if negb (i64_fits (size - o)) then UB
      else let s' := MS (ms_data s) (size - o) in if size <? o then Ok (s', Throw) else Ok (s', Ok (size - o))
  | Cur =>
      if negb (i64_fits (ms_pos s + o)) then UB
      else if (ms_pos s + o <? 0) || (size <? ms_pos s + o) then Ok (s, Throw)
      else Ok (MS (ms_data s) (ms_pos s + o), Ok (ms_pos s + o))
  end.

(** ** Copying *)
(** TStream::Read(vector, Count) on a new vector, TStream.cpp:91-98: the state, the vector
    afterwards, the count *)
Definition ms_read_vec (s : mstream) (count : Z) : res (mstream * list Z * Z) :=
  let n := if count <=? 0 then zlen (ms_data s) else count in
  do r <- ms_read s n n;
  Ok (fst r, snd r ++ repeat 0 (Z.to_nat (n - zlen (snd r))), zlen (snd r)).
(** TStream::Write(vector, Count), TStream.cpp:124-134 *)
Definition ms_write_vec (s : mstream) (buf : list Z) (count : Z) : res (mstream * Z) :=
  if count =? 0 then (if zlen buf =? 0 then Ok (s, 0) else ms_write s buf)
  else do d <- rdn buf 0 count; ms_write s d.
(** TStream::CopyFrom for two different streams, TStream.cpp:100-113 *)
Definition copy_some (dst src : mstream) (count : Z) : res (mstream * mstream * Z) :=
  do r <- ms_read_vec src count;
  let '(src', buf, n) := r in
  do w <- ms_write_vec dst buf n;
  Ok (fst w, src', snd w).
Definition copy_from (dst src : mstream) (count : Z) : res (mstream * mstream * Z) :=
  if count =? 0 then
    do r <- ms_seek src 0 Beg;
    let src := fst r in
    if zlen (ms_data src) =? 0 then Ok (dst, src, 0) else copy_some dst src (zlen (ms_data src))
  else copy_some dst src count.

(** ** TWrapperStream over a file: the bytes of the file, m_position, m_size, and whether the
    iostream is in a failed state.  Opening, closing and system errors are left out; counts
    are not negative.  TStream.cpp:154-226 *)
Record fstream := FS { fs_data : list Z; fs_pos : Z; fs_size : Z; fs_fail : bool }.
Definition fs_open (d : list Z) : fstream := FS d 0 (zlen d) false.
(** clear(); seekg(pos); read: a read that gets fewer bytes than asked sets failbit.
    TStream.cpp:194-207 *)
Definition fs_read (s : fstream) (count : Z) : fstream * list Z :=
  if fs_pos s <? 0 then (FS (fs_data s) (fs_pos s) (fs_size s) true, [])
  else
    let d := firstn (Z.to_nat count) (skipn (Z.to_nat (fs_pos s)) (fs_data s)) in
    (FS (fs_data s) (fs_pos s + zlen d) (fs_size s) (zlen d <? count), d).
(** seekp(pos); write; flush; bad(): without clear(), so that in a failed state nothing is
    written, and bad() tests badbit only.  A write behind the end fills with zeros (POSIX).
    TStream.cpp:209-226 *)
Definition fs_write (s : fstream) (buf : list Z) : fstream * Z :=
  let fail := fs_fail s || (fs_pos s <? 0) in
  let data := if fail then fs_data s
              else let p := Z.to_nat (fs_pos s) in
                   let d := fs_data s ++ repeat 0 (p + length buf - length (fs_data s)) in
                   match buf with [] => fs_data s | _ => splice d p buf end in
  let pos := fs_pos s + zlen buf in
  (FS data pos (Z.max (fs_size s) pos) fail, zlen buf).
(** TStream::Seek with GetSize = m_size, TStream.cpp:58-83 *)
Definition fs_seek (s : fstream) (o : Z) (w : origin) : fstream * res Z :=
  let at_ p := FS (fs_data s) p (fs_size s) (fs_fail s) in
  match w with
  | Beg => if fs_size s <? o then (s, Throw) else (at_ o, Ok o)
  | End_ => if fs_size s <? o then (at_ (fs_size s - o), Throw) else (at_ (fs_size s - o), Ok (fs_size s - o))
  | Cur => if (fs_pos s + o <? 0) || (fs_size s <? fs_pos s + o) then (s, Throw) else (at_ (fs_pos s + o), Ok (fs_pos s + o))
  end.

(** ** Compressing: the loops around zlib.  [codec] stands for deflate and inflate: what one
    pass of the inner loop hands out in total for one buffer of input. *)
Inductive status := More | Done | Bad.
Record codec := Codec {
  dst_ : Type; d_init : dst_; d_step : dst_ -> list Z -> bool -> dst_ * list Z;   (* deflate(input, finish) *)
  ist_ : Type; i_init : ist_; i_step : ist_ -> list Z -> ist_ * list Z * status   (* inflate(input) *)
}.
Definition CHUNK : Z := 16384.   (* CHUNKSIZE, UZLib.cpp:31 *)

(** do { avail_out = CHUNKSIZE; ...; dst->Write(out, have) } while (avail_out == 0) over the
    bytes that deflate has to give; UZLib.cpp:74-88, 130-155 *)
Fixpoint drain (fuel : nat) (pend : list Z) : list Z :=
  match fuel with
  | O => []
  | S k =>
      let piece := firstn (Z.to_nat CHUNK) pend in
      piece ++ (if zlen piece =? CHUNK then drain k (skipn (Z.to_nat CHUNK) pend) else [])
  end.
Definition drained (pend : list Z) : list Z := drain (S (length pend)) pend.

(** ZDeflateStream, UZLib.cpp:42-98: [src] = what the source still gives; the bytes written
    and the result *)
Fixpoint deflate_loop (c : codec) (fuel : nat) (st : dst_ c) (src : list Z) : list Z * bool :=
  match fuel with
  | O => ([], false)
  | S k =>
      let buf := firstn (Z.to_nat CHUNK) src in
      if zlen buf =? 0 then ([], false)
      else
        let finish := zlen buf <? CHUNK in
        let (st', o) := d_step c st buf finish in
        let w := drained o in
        if finish then (w, true)
        else let (r, ok) := deflate_loop c k st' (skipn (Z.to_nat CHUNK) src) in (w ++ r, ok)
  end.
Definition deflate_stream (c : codec) (src : list Z) : list Z * bool := deflate_loop c (S (length src)) (d_init c) src.

(** ZInflateStream, UZLib.cpp:101-163: the bytes written and whether ZError is thrown (after
    they are written).  When inflate meets bad data, the output of that call is not written:
    of [o] only the full buffers before. *)
Fixpoint inflate_loop (c : codec) (fuel : nat) (st : ist_ c) (src : list Z) : list Z * bool :=
  match fuel with
  | O => ([], false)
  | S k =>
      let buf := firstn (Z.to_nat CHUNK) src in
      if zlen buf =? 0 then ([], false)
      else
        let '(st', o, ret) := i_step c st buf in
        match ret with
        | Bad => (firstn (Z.to_nat (CHUNK * (zlen o / CHUNK))) o, true)
        | Done => (drained o, false)
        | More => let (r, e) := inflate_loop c k st' (skipn (Z.to_nat CHUNK) src) in (drained o ++ r, e)
        end
  end.
Definition inflate_stream (c : codec) (src : list Z) : list Z * bool := inflate_loop c (S (length src)) (i_init c) src.

(** ZInflateOrCopy, UZLib.cpp:166-175, from the start of [src] to an empty stream: the error
    is answered by CopyFrom(src, 0), behind what is already written *)
Definition inflate_or_copy (c : codec) (src : list Z) : list Z :=
  let (w, e) := inflate_stream c src in if e then w ++ src else w.
