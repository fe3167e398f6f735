(** Page cache over the database file.
    Sources under /repo/src/tool1cd: MemBlock.{h,cpp}, Class_1CD.cpp:58-111, 236-323,
    571-574, SystemClasses/TStream.cpp (TStream::Seek, TWrapperStream::Read/Write).
    Page numbers and positions are [nat]; 32-bit wrap-around is explicit where the
    code narrows. *)
From Verif Require Import Prelude.

(** ** The file stream (TFileStream over std::fstream).
    [f_bytes]: physical contents; [f_size]: TStream::m_size, which SetSize changes
    without touching the file (TStream.cpp:41-45); [f_fail]: the failbit left by a
    short read.  Position is implied: every use seeks first. *)
Record fstream := mkf { f_bytes : list Z; f_size : nat; f_fail : bool }.

(** TStream::Seek from the beginning, TStream.cpp:58-65 *)
Definition f_seek (f : fstream) (off : nat) : res unit := if (f_size f <? off)%nat then Throw else Ok tt.

(** TWrapperStream::Read, TStream.cpp:189-202: clears the error state first; bytes not
    delivered leave the caller's buffer [buf] as it was, and set the failbit. *)
Definition f_read (f : fstream) (off n : nat) (buf : list Z) : fstream * list Z :=
  let got := sub (f_bytes f) off n in
  (mkf (f_bytes f) (f_size f) (length got <? n)%nat, got ++ sub buf (length got) (n - length got)).

(** TWrapperStream::Write, TStream.cpp:204-221: the error state is not cleared, so
    after a short read nothing reaches the file although the position and m_size
    advance (only bad() is checked).  Writing past the end fills the gap with zeros. *)
Definition f_write (f : fstream) (off : nat) (d : list Z) : fstream :=
  let b := f_bytes f ++ repeat 0 (off - length (f_bytes f)) in
  mkf (if f_fail f then f_bytes f else firstn off b ++ d ++ skipn (off + length d) b)
      (Nat.max (f_size f) (off + length d)) (f_fail f).

(** ** MemBlock, MemBlock.h:29-57 (block_num is the index in the manager) *)
Record mblock := mkb { mb_data : list Z; mb_last : Z; mb_changed : bool }.

(** MemBlock::create, MemBlock.cpp:26-61.  [junk]: what new char[] contains. *)
Definition mb_create (f : fstream) (ps n : nat) (for_write read : bool) (junk : list Z) : res (fstream * mblock) :=
  if for_write then
    if u32 (Z.of_nat (f_size f / ps)) <=? Z.of_nat n then
      do _ <- f_seek f (n * ps);
      let f1 := f_write f (n * ps) (repeat 0 ps) in
      do _ <- f_seek f1 12;
      Ok (f_write f1 12 (le_bytes 4 (Z.of_nat n)), mkb (repeat 0 ps) 0 false)
    else if read then
      do _ <- f_seek f (n * ps);
      let (f1, d) := f_read f (n * ps) ps junk in Ok (f1, mkb d 0 false)
    else Ok (f, mkb (repeat 0 ps) 0 false)
  else
    do _ <- f_seek f (n * ps);
    let (f1, d) := f_read f (n * ps) ps junk in Ok (f1, mkb d 0 false).

(** MemBlock::get_block(for_write), MemBlock.cpp:188-195; [t] is GetTickCount() *)
Definition mb_touch (b : mblock) (for_write : bool) (t : Z) : mblock :=
  mkb (mb_data b) (u32 t) (mb_changed b || for_write).

(** ** MemBlockManager *)
Record mgr := mkm { m_ps : nat; m_file : fstream; m_blocks : list (option mblock) }.

Definition set_block (bs : list (option mblock)) (n : nat) (b : option mblock) : list (option mblock) := splice bs n [b].

(** memblocks[n] = create(...) if null, then get_block on it *)
Definition mgr_get (m : mgr) (n : nat) (for_write read : bool) (t : Z) (junk : list Z) : res (mgr * list Z) :=
  do fb <- match nth_error (m_blocks m) n with
           | None => UB
           | Some (Some b) => Ok (m_file m, b)
           | Some None => mb_create (m_file m) (m_ps m) n for_write read junk
           end;
  let (f, b) := fb in
  let b' := mb_touch b for_write t in
  Ok (mkm (m_ps m) f (set_block (m_blocks m) n (Some b')), mb_data b').

(** MemBlockManager::get_block, MemBlock.cpp:91-98; a null pointer is dereferenced by
    every caller *)
Definition mgr_get_block (m : mgr) (n : nat) (t : Z) (junk : list Z) : res (mgr * list Z) :=
  if (length (m_blocks m) <=? n)%nat then UB else mgr_get m n false true t junk.

(** get_block_for_write, MemBlock.cpp:101-115 *)
Definition mgr_get_block_for_write (m : mgr) (n : nat) (read : bool) (t : Z) (junk : list Z) : res (mgr * list Z) :=
  if (length (m_blocks m) <? n)%nat then UB
  else
    let m1 := if (n =? length (m_blocks m))%nat then mkm (m_ps m) (m_file m) (m_blocks m ++ [None]) else m in
    mgr_get m1 n true read t junk.

(** garbage, MemBlock.cpp:70-88; LIVE_CASH * 60 * 1000 = 300000, unsigned arithmetic *)
Definition garbage_block (aggressive : bool) (curt : Z) (b : option mblock) : option mblock :=
  match b with
  | None => None
  | Some x => if mb_changed x then b
              else if aggressive || (u32 (mb_last x + 5 * 60 * 1000) <=? curt) then None else b
  end.
Definition mgr_garbage (m : mgr) (aggressive : bool) (t : Z) : mgr :=
  mkm (m_ps m) (m_file m) (map (garbage_block aggressive (u32 t)) (m_blocks m)).

(** flush, MemBlock.cpp:138-151 and MemBlock::write, 154-162 *)
Fixpoint flush_blocks (ps : nat) (f : fstream) (n : nat) (bs : list (option mblock)) : res (fstream * list (option mblock)) :=
  match bs with
  | [] => Ok (f, [])
  | b :: r =>
      do fb <- match b with
               | Some x =>
                   if mb_changed x then
                     do _ <- f_seek f (n * length (mb_data x));
                     Ok (f_write f (n * length (mb_data x)) (mb_data x), Some (mkb (mb_data x) (mb_last x) false))
                   else Ok (f, b)
               | None => Ok (f, None)
               end;
      let (f1, b1) := fb in
      do fr <- flush_blocks ps f1 (S n) r;
      let (f2, r') := fr in Ok (f2, b1 :: r')
  end.
Definition mgr_flush (m : mgr) : res mgr :=
  do fb <- flush_blocks (m_ps m) (m_file m) 0 (m_blocks m);
  let (f, bs) := fb in Ok (mkm (m_ps m) f bs).

(** ** T_1CD: page count and cache *)
Record base := mkbase { c_len : Z; c_mgr : mgr }.

(** overwriting bytes through the returned pointer *)
Definition poke (m : mgr) (n off : nat) (d : list Z) : res mgr :=
  match nth_error (m_blocks m) n with
  | Some (Some b) =>
      if (length (mb_data b) <? off + length d)%nat then UB
      else Ok (mkm (m_ps m) (m_file m) (set_block (m_blocks m) n (Some (mkb (splice (mb_data b) off d) (mb_last b) (mb_changed b)))))
  | _ => UB
  end.

(** get_block, Class_1CD.cpp:73-85 *)
Definition base_read (c : base) (n : nat) (t : Z) (junk : list Z) : res (base * list Z) :=
  if c_len c <=? Z.of_nat n then Throw
  else do r <- mgr_get_block (c_mgr c) n t junk; let (m, d) := r in Ok (mkbase (c_len c) m, d).

(** get_block_for_write, Class_1CD.cpp:88-111, followed by the caller's write of [d] at
    [off] through the returned pointer.  bc->length is at offset 12 of page 0. *)
Definition base_write (c : base) (n : nat) (read : bool) (off : nat) (d : list Z) (t : Z) (junk : list Z) : res base :=
  if c_len c <? Z.of_nat n then Throw
  else
    do c1 <- (if Z.of_nat n =? c_len c then
                let len' := u32 (c_len c + 1) in
                let m := c_mgr c in
                let f := m_file m in
                let m1 := mkm (m_ps m) (mkf (f_bytes f) (f_size f + m_ps m) (f_fail f)) (m_blocks m) in
                do r <- mgr_get_block_for_write m1 0 true t junk;
                do m2 <- poke (fst r) 0 12 (le_bytes 4 len');
                Ok (mkbase len' m2)
              else Ok c);
    do r <- mgr_get_block_for_write (c_mgr c1) n read t junk;
    do m3 <- poke (fst r) n off d;
    Ok (mkbase (c_len c1) m3).

Definition base_flush (c : base) : res base := do m <- mgr_flush (c_mgr c); Ok (mkbase (c_len c) m).
Definition base_garbage (c : base) (aggressive : bool) (t : Z) : base := mkbase (c_len c) (mgr_garbage (c_mgr c) aggressive t).

(** T_1CD::open, Class_1CD.cpp:236-330, as far as the cache is concerned: page count
    from the file size, compared with the count in the header.  [bs] is the file. *)
Definition base_open (ps : nat) (bs : list Z) : res base :=
  let length_ := u32 (Z.of_nat (length bs / ps)) in
  if negb (length_ * Z.of_nat ps =? Z.of_nat (length bs)) then Throw
  else if negb (length_ =? le_val (sub bs 12 4)) then Throw
  else Ok (mkbase length_ (mkm ps (mkf bs (length bs) false) (repeat None (Z.to_nat length_)))).

(** ~T_1CD, Class_1CD.cpp:190-227: the cache is dropped (delete_memblocks,
    MemBlock.cpp:126-129); what remains is the file *)
Definition base_close (c : base) : list Z := f_bytes (m_file (c_mgr c)).

(** ** Histories *)
Inductive op :=
| ORead (n : nat)
| OWrite (n : nat) (read : bool) (off : nat) (d : list Z)
| OFlush
| OGarbage (aggressive : bool).

(** every step has its own clock reading and its own uninitialised memory *)
Definition event : Type := (op * Z * list Z)%type.
Definition run_op (c : base) (e : event) : res (base * option (list Z)) :=
  let '(o, t, junk) := e in
  match o with
  | ORead n => do r <- base_read c n t junk; Ok (fst r, Some (snd r))
  | OWrite n rd off d => do c' <- base_write c n rd off d t junk; Ok (c', None)
  | OFlush => do c' <- base_flush c; Ok (c', None)
  | OGarbage a => Ok (base_garbage c a t, None)
  end.
(** a whole history with the results of its reads *)
Fixpoint run (c : base) (es : list event) : res (base * list (list Z)) :=
  match es with
  | [] => Ok (c, [])
  | e :: r =>
      do x <- run_op c e;
      let (c', o) := x in
      do y <- run c' r;
      let (c'', os) := y in
      Ok (c'', match o with Some d => d :: os | None => os end)
  end.
