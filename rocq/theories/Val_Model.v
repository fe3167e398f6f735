(** Unpacking blob values when they are saved to files.
    Source: /repo/src/tool1cd/Field.cpp, Field::save_blob_to_file. *)
From Verif Require Import Prelude Stream_Model.

(** ** The list of users, Field.cpp:262-287 *)
(** _xor_buf[i] ^= _xor_mask[k] within one buffer: the mask begins at 1, the data at 1 + size *)
Definition xor_at (mem : list Z) (size i k : Z) : res (list Z) :=
  do x <- rd mem (1 + size + i); do m <- rd mem (1 + k); wrn mem (1 + size + i) [Z.lxor x m].
(** the loop at 275-281, [n] rounds left *)
Fixpoint xor_loop (n : nat) (mem : list Z) (size i k : Z) : res (list Z) :=
  match n with
  | O => Ok mem
  | S n' => let k := if size <=? k then 0 else k in do mem' <- xor_at mem size i k; xor_loop n' mem' size (i + 1) (k + 1)
  end.
(** size_t xor_mask_size = _bb[0] with a signed char: a byte of 128 and more gives a pointer before
    the mask, or reads the byte behind the buffer; so does a mask longer than the buffer (270-274) *)
Definition decode_users (bb : list Z) : res (list Z) :=
  do b <- rd bb 0;
  if 128 <=? b then UB
  else
    let n := zlen bb - b - 1 in
    if n <? 0 then UB
    else do mem <- xor_loop (Z.to_nat n) bb b 0 0; rdn mem (1 + b) n.

(** ** Values of other tables, Field.cpp:355-427, in memory (blobs up to 10 MB) *)
Definition SIG_ZIP : list Z := [0x53;0x4b;0x6f;0xf4;0x88;0x8d;0xc1;0x4e;0xa0;0xd5;0xeb;0xb6;0xbd;0xa0;0xa7;0x0d].
Definition le64 (b : list Z) : Z := i64 (le_val (firstn 8 b)).
(** 366-392: what is in _s2 when isOK; [inflate] = ZInflateStream on the rest of the blob, None = an
    exception *)
Definition unpack_outer (inflate : list Z -> option (list Z)) (blob : list Z) (kind : Z) : res (option mstream) :=
  let b := MS blob 2 in
  if kind =? 1 then do r <- copy_from ms_new b (zlen blob - 2); let '(s2, _, _) := r in Ok (Some s2)
  else
    do r <- ms_read b 16 16;
    if zlen (snd r) <? 16 then Ok None
    else if negb (if list_eq_dec Z.eq_dec (snd r) SIG_ZIP then true else false) then Ok None
    else match inflate (skipn (Z.to_nat (ms_pos (fst r))) blob) with None => Ok None | Some d => Ok (Some (MS d (zlen d))) end.
(** 393-420: the final _s; [s] = the copy of the whole blob made at 356 *)
Definition unpack_inner (s s2 : mstream) : res mstream :=
  do r <- ms_seek s2 0 Beg;
  do q <- ms_read (fst r) 16 8;
  let '(s2, buf) := q in
  if zlen buf <? 8 then Ok s
  else
    do s <- ms_set_size s 0;
    do c <- copy_from s s2 (zlen (ms_data s2) - 8);
    let '(s, s2, _) := c in
    let len := le64 buf in
    if len <? zlen (ms_data s) then
      do r <- ms_seek s len Beg;
      let s := fst r in
      do s2 <- ms_set_size s2 0;
      do c <- copy_from s2 s (zlen (ms_data s) - len);
      let '(s2, s, _) := c in
      do r <- ms_seek s2 0 Beg;
      do q <- ms_read (fst r) 16 12;
      let '(s2, buf) := q in
      if zlen buf <? 12 then Ok s
      else
        let len := le64 (skipn 4 buf) in
        if len <=? zlen (ms_data s2) - 12 then
          do s <- ms_set_size s 0;
          do c <- copy_from s s2 len;
          let '(s, _, _) := c in Ok s
        else Ok s
    else Ok s.
(** the bytes of the file: _s copied from its start (424-425) *)
Definition unpack_value (inflate : list Z -> option (list Z)) (blob : list Z) : res (list Z) :=
  do c <- copy_from ms_new (MS blob (zlen blob)) 0;
  let '(s, _, _) := c in
  do q <- ms_read (MS blob 0) 16 2;
  let hd := snd q in
  if zlen hd <? 2 then Ok (ms_data s)
  else
    do b0 <- rd hd 0; do b1 <- rd hd 1;
    if ((b0 =? 1) || (b0 =? 2)) && (b1 =? 1) then
      do o <- unpack_outer inflate blob b0;
      match o with None => Ok (ms_data s) | Some s2 => do s <- unpack_inner s s2; Ok (ms_data s) end
    else Ok (ms_data s).
