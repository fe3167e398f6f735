(** Reading, writing and deleting blobs: chains of 256-byte chunks in an object.
    Sources: /repo/src/tool1cd/V8Object.cpp:1415-1476, Table.cpp:729-873, 1721-1759, 1822-1927.
    The object that holds the chunks is used only through get_data(buf, start, length),
    set_data(buf, start, length) and get_len(); the loops below are written over these three,
    so that they can be run on plain bytes and on objects stored in pages alike. *)
From Verif Require Import Prelude Obj_Model Alloc_Model.

Definition BLOB_LEN : Z := 256.      (* BLOB_RECORD_LEN, Table.h *)
Definition BLOB_DATA : Z := 250.     (* BLOB_RECORD_DATA_LEN *)

(** ** A growing byte file: what the code expects of an object (C20, C21 for reads and
    overwrites; C23 for growth).  A write that leaves a gap is not modelled. *)
Definition mem_get (f : list Z) (off n : Z) : res (list Z) := if (off <? 0) || (n <? 0) || (zlen f <? off + n) then Throw else rdn f off n.
Definition mem_put (f : list Z) (off : Z) (d : list Z) : res (list Z) :=
  if (off <? 0) || (zlen f <? off) then UB else Ok (firstn (Z.to_nat off) f ++ d ++ skipn (Z.to_nat (off + zlen d)) f).

Section Blob.
Context {S : Type}.
Variable get : S -> Z -> Z -> res (list Z).
Variable put : S -> Z -> list Z -> res S.
Variable size : S -> Z.

(** *** Reading *)

(** while(_curblock) of the three readBlob functions; [lim] = _length, [cap] = the room the
    destination has (a stream has no limit: None), [total] = bytes written so far.
    V8Object.cpp:1441-1464, Table.cpp:760-783, 829-854 *)
Fixpoint blob_loop (fuel : nat) (s : S) (numblock lim : Z) (cap : option Z) (cur total : Z) : res (list Z) :=
  if cur =? 0 then Ok []
  else match fuel with
  | O => Hang
  | Datatypes.S k =>
      if numblock <=? cur then Throw
      else
        do b <- get s (u32 (cur * 256)) BLOB_LEN;
        do nxt <- u32at b 0;
        do l <- rdn b 4 2;
        let len := le_val l in
        if BLOB_DATA <? len then Throw
        else
          do d <- rdn b 6 len;
          let total := total + len in
          if match cap with Some c => c <? total | None => false end then UB
          else if lim <? total then Ok d
          else do r <- blob_loop k s numblock lim cap nxt total; Ok (d ++ r)
  end.

(** V8Object::readBlob(stream, start, length, rewrite), V8Object.cpp:1415-1476: the bytes
    added to the stream.  [len] is 64 bits, [_numblock] 32 bits. *)
Definition read_blob_object (fuel : nat) (s : S) (start length : Z) : res (list Z) :=
  if (start =? 0) && negb (length =? 0) then Throw
  else
    let numblock := u32 (size s / 256) in
    if negb (u32 (numblock * 256) =? size s) then Throw
    else
      do d <- blob_loop fuel s numblock length None start 0;
      if negb (length =? 2^32 - 1) && negb (zlen d =? length) then Throw else Ok d.

(** Table::readBlob(stream, ...), Table.cpp:729-798: a wrong total is only reported as a
    message (the boolean) and the bytes are returned; the length of the file is cut to 32 bits *)
Definition read_blob_table (fuel : nat) (s : S) (start length : Z) : res (list Z * bool) :=
  if (start =? 0) && negb (length =? 0) then Throw
  else
    let filelen := u32 (size s) in
    let numblock := filelen / 256 in
    if negb (u32 (numblock * 256) =? filelen) then Throw
    else
      do d <- blob_loop fuel s numblock length None start 0;
      Ok (d, negb (zlen d =? length)).

(** Table::readBlob(buf, ...), Table.cpp:801-873, into a buffer of [cap] bytes *)
Definition read_blob_buffer (fuel : nat) (s : S) (start length cap : Z) : res (list Z * bool) :=
  if (start =? 0) && negb (length =? 0) then Throw
  else
    let filelen := u32 (size s) in
    let numblock := filelen / 256 in
    if negb (u32 (numblock * 256) =? filelen) then Throw
    else
      do d <- blob_loop fuel s numblock length (Some cap) start 0;
      Ok (d, negb (zlen d =? length)).

(** *** Writing *)

(** one chunk: the statements of the loop body after the data is at hand.  [prev] = prev_offset.
    Returns the state and next_block.  Table.cpp:1855-1867, 1911-1923 *)
Definition put_chunk (s : S) (cur prev len : Z) (rec : list Z) : res (S * Z) :=
  do s1 <- (if prev =? 0 then Ok s else put s prev (le_bytes 4 cur));
  let off := u32 (cur * 256) in
  do nxt <- (if off <? size s1 then do b <- get s1 off 4; u32at b 0 else Ok 0);
  do s2 <- put s1 off (le_bytes 4 0);
  do s3 <- put s2 (u32 (off + 4)) (le_bytes 2 len);
  do s4 <- put s3 (u32 (off + 6)) rec;
  Ok (s4, if nxt =? 0 then u32 (size s4 / 256) else nxt).

(** the loop of write_blob_record(TStream* ), Table.cpp:1905-1924; [d] = what the stream still
    gives; the record buffer is cleared when fewer than 250 bytes are left *)
Fixpoint put_chunks (fuel : nat) (s : S) (d : list Z) (cur prev : Z) : res (S * Z) :=
  match d with
  | [] => Ok (s, cur)
  | _ =>
      match fuel with
      | O => Hang
      | Datatypes.S k =>
          let len := Z.min (zlen d) BLOB_DATA in
          let rec := firstn (Z.to_nat len) d ++ repeat 0 (Z.to_nat (BLOB_DATA - len)) in
          do r <- put_chunk s cur prev len rec;
          put_chunks k (fst r) (skipn (Z.to_nat len) d) (snd r) (u32 (cur * 256))
      end
  end.

(** the start (Table.cpp:1901-1903) and the end (1925-1926) common to both *)
Definition first_block (s : S) : res Z :=
  do b <- get s 0 4;
  do h <- u32at b 0;
  Ok (if h =? 0 then u32 (size s / 256) else h).
Definition set_free_head (s : S) (nxt : Z) : res S :=
  if u32 (nxt * 256) <? size s then put s 0 (le_bytes 4 nxt) else put s 0 (le_bytes 4 0).

(** Table::write_blob_record(TStream* ), Table.cpp:1874-1927, in edit mode and with the
    blob file present *)
Definition write_blob (s : S) (d : list Z) : res (S * Z) :=
  match d with
  | [] => Ok (s, 0)
  | _ =>
      do first <- first_block s;
      do r <- put_chunks (length d) s d first 0;
      do s' <- set_free_head (fst r) (snd r);
      Ok (s', first)
  end.

(** Table::write_blob_record(char*, len), Table.cpp:1822-1871: [buf] is the caller's memory,
    [pos] the moving pointer, [left] = blob_len; memset clears 250 bytes of the caller's
    memory at [pos] when fewer than 250 are left *)
Fixpoint put_buffer (fuel : nat) (s : S) (buf : list Z) (pos left cur prev : Z) : res (S * Z * list Z) :=
  if left =? 0 then Ok (s, cur, buf)
  else match fuel with
  | O => Hang
  | Datatypes.S k =>
      let len := Z.min left BLOB_DATA in
      do buf <- (if len <? BLOB_DATA then wrn buf pos (repeat 0 (Z.to_nat BLOB_DATA)) else Ok buf);
      do rec <- rdn buf pos BLOB_DATA;
      do r <- put_chunk s cur prev len rec;
      put_buffer k (fst r) buf (pos + len) (left - len) (snd r) (u32 (cur * 256))
  end.
Definition write_blob_buffer (s : S) (buf : list Z) (len : Z) : res (S * Z * list Z) :=
  if len =? 0 then Ok (s, 0, buf)
  else
    do first <- first_block s;
    do r <- put_buffer (Z.to_nat len) s buf 0 len first 0;
    let '(s1, nxt, buf') := r in
    do s' <- set_free_head s1 nxt;
    Ok (s', first, buf').

(** *** Deleting: Table::delete_blob_record, Table.cpp:1721-1759 *)

(** for(i = blob_numrecord; i; get_data(&i, i << 8, 4)) j = i; the variables are signed, a
    shift beyond 31 bits is undefined *)
Fixpoint chain_end (fuel : nat) (s : S) (i j : Z) : res Z :=
  if i =? 0 then Ok j
  else match fuel with
  | O => Hang
  | Datatypes.S k =>
      if (i <? 0) || (2^31 <=? i * 256) then UB
      else
        do b <- get s (i * 256) 4;
        do v <- u32at b 0;
        chain_end k s (i32 v) i
  end.
Definition delete_blob (fuel : nat) (s : S) (n : Z) : res S :=
  if size s <=? u32 (n * 256) then Throw
  else if n =? 0 then Throw
  else
    do b <- get s 0 4;
    do prev <- u32at b 0;
    do j <- chain_end fuel s (i32 n) 0;
    do s1 <- put s (j * 256) (le_bytes 4 prev);
    put s1 0 (le_bytes 4 n).
End Blob.

(** ** The same on an object stored in pages; a write that would grow it is left out (C23) *)
Definition obj_get (ps : Z) (s : store * obj) (off n : Z) : res (list Z) := get_range ps (fst s) (snd s) off n [].
Definition obj_put (cached : Z -> bool) (ps : Z) (s : store * obj) (off : Z) (d : list Z) : res (store * obj) :=
  set_range (fun _ _ _ => UB) false cached ps (fst s) (snd s) off d.
Definition obj_size (s : store * obj) : Z := obj_len (snd s).

(** ** The same with growth: the state also has the list of free pages.  set_data calls
    set_len first when the range ends behind the object, V8Object.cpp:672-673, 975 *)
Definition grow_get (ps : Z) (s : store * obj * obj) (off n : Z) : res (list Z) := get_range ps (fst (fst s)) (snd s) off n [].
Definition grow_put (cached : Z -> bool) (ps : Z) (s : store * obj * obj) (off : Z) (d : list Z) : res (store * obj * obj) :=
  let '(st, fl, o) := s in
  do r <- (if o_len o <? u64 (off + zlen d) then set_len 0 cached ps st fl (set_cached o None) (u64 (off + zlen d)) else Ok (st, fl, o));
  let '(st1, fl1, o1) := r in
  do p <- set_range (fun _ _ _ => UB) false cached ps st1 o1 off d;
  Ok (fst p, fl1, snd p).
Definition grow_size (s : store * obj * obj) : Z := obj_len (snd s).
