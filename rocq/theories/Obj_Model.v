(** Objects stored in pages of the database file: opening, reading, overwriting.
    Sources: /repo/src/tool1cd/V8Object.{h,cpp}, Class_1CD.cpp:58-111.
    The page layer is a list of pages: that the page cache behaves like one is C16.
    A pointer into a cached page that the code keeps across calls is modelled by the
    page number and looked up again at each use. *)
From Verif Require Import Prelude.

Definition store := list (list Z).

(** T_1CD::get_block(block_number), Class_1CD.cpp:75-86; [length] is the number of pages *)
Definition get_page (st : store) (n : Z) : res (list Z) :=
  if n <? 0 then Throw else match nth_error st (Z.to_nat n) with Some p => Ok p | None => Throw end.
(** T_1CD::get_block(buf, block_number, blocklen), Class_1CD.cpp:59-72 *)
Definition get_part (st : store) (n len : Z) : res (list Z) := do p <- get_page st n; rdn p 0 len.

(** T_1CD::get_block_for_write followed by a write of [d] at [off] through the returned
    pointer, Class_1CD.cpp:89-111.  [cached n]: page [n] is in the cache, so that asking
    for it without loading gives its bytes, otherwise zeros (see C61; simplified: one
    oracle per call of a modelled function).  Loading a page that is being appended
    yields uninitialised memory. *)
Definition write_page (cached : Z -> bool) (ps : Z) (st : store) (n : Z) (read : bool) (off : Z) (d : list Z) : res store :=
  if (n <? 0) || (zlen st <? n) then Throw
  else if n =? zlen st then
    if read then UB
    else
      do h <- rd st 0;
      do h' <- wrn h 12 (le_bytes 4 (zlen st + 1));
      do q <- wrn (repeat 0 (Z.to_nat ps)) off d;
      Ok (splice st 0 [h'] ++ [q])
  else
    do p <- rd st n;
    do q <- wrn (if read || cached n then p else repeat 0 (Z.to_nat ps)) off d;
    Ok (splice st (Z.to_nat n) [q]).

(** ** V8Object, V8Object.h:94-167.  The list of live objects, the clock and the locale
    of data (lastdataget, lockinmemory) are not modelled. *)
Inductive otype := Data80 | Free80 | Data838 | Free838.
Record obj := mko {
  o_ty : otype; o_fat : Z; o_len : Z; o_num : Z; o_real : Z; o_blocks : list Z; o_block : Z;
  o_data : option (list Z); o_v1 : Z; o_v2 : Z; o_newver : bool }.

Definition set_cached (o : obj) (d : option (list Z)) : obj :=
  mko (o_ty o) (o_fat o) (o_len o) (o_num o) (o_real o) (o_blocks o) (o_block o) d (o_v1 o) (o_v2 o) (o_newver o).

(** a 32-bit number of a page *)
Definition u32at (p : list Z) (off : Z) : res Z := do b <- rdn p off 4; Ok (le_val b).
(** element [i] of an array of 32-bit numbers starting at [off] *)
Definition entry (p : list Z) (off i : Z) : res Z := u32at p (off + 4 * i).
(** the first [n] elements of such an array (std::copy into a vector) *)
Fixpoint entries (p : list Z) (off : Z) (n : nat) : res (list Z) :=
  match n with O => Ok [] | S k => do x <- u32at p off; do r <- entries p (off + 4) k; Ok (x :: r) end.
(** while(t->blocks[k]) k++ : the numbers before the first zero *)
Fixpoint until_zero (fuel : nat) (p : list Z) (off : Z) : res (list Z) :=
  match fuel with
  | O => Hang
  | S k => do x <- u32at p off; if x =? 0 then Ok [] else do r <- until_zero k p (off + 4); Ok (x :: r)
  end.

(** SIG_OBJ = 1CDBOBV8 (Constants.h) *)
Definition sig_obj : list Z := [49; 67; 68; 66; 79; 66; 86; 56].
Definition bytes_eqb (a b : list Z) : bool := if list_eq_dec Z.eq_dec a b then true else false.

(** V8Object::init(base, blockNum), V8Object.cpp:77-271 *)
Definition obj_open (ps : Z) (v838 : bool) (st : store) (bn : Z) : res obj :=
  do t <- get_page st bn;
  let fuel := S (Z.to_nat ps) in
  if v838 then
    if bn =? 1 then
      do sg <- rdn t 0 2;
      if negb (bytes_eqb sg [28; 255]) then Throw
      else
        do v <- u32at t 4;
        do bl <- until_zero fuel t 8;
        Ok (mko Free838 0 0 0 (zlen bl) bl bn None v 0 false)
    else
      do sg <- rdn t 0 2;
      if negb (bytes_eqb sg [28; 253]) then Throw
      else
        do lb <- rdn t 16 8;
        do fb <- rdn t 2 2;
        let len := le_val lb in
        let fat := i16 (le_val fb) in
        if (fat =? 0) && (u32 (u32 (ps / 4 - 6) * ps) <? len) then Throw
        else
          do v1 <- u32at t 4;
          do v2 <- u32at t 8;
          let num := if len =? 0 then 0
                     else if fat =? 0 then (len - 1) / ps + 1
                     else (len - 1) / u32 (ps / 4 * ps) + 1 in
          do bl <- entries t 24 (Z.to_nat num);
          Ok (mko Data838 fat len num 0 bl bn None v1 v2 false)
  else
    do sg <- rdn t 0 8;
    if negb (bytes_eqb sg sig_obj) then Throw
    else
      do len <- u32at t 8;
      do v1 <- u32at t 12;
      do v2 <- u32at t 16;
      if bn =? 1 then
        do bl <- until_zero fuel t 24;
        Ok (mko Free80 1 len (if len =? 0 then 0 else (len - 1) / 1024 + 1) (zlen bl) bl bn None v1 v2 false)
      else
        let num := if len =? 0 then 0 else (len - 1) / 4190208 + 1 in
        do bl <- entries t 24 (Z.to_nat num);
        Ok (mko Data80 1 len num 0 bl bn None v1 v2 false).

(** V8Object::get_len, V8Object.cpp:562-566 *)
Definition obj_len (o : obj) : Z := match o_ty o with Free80 => u64 (o_len o * 4) | _ => o_len o end.

(** ** Reading a range: V8Object::get_data(buf, start, length), V8Object.cpp:399-559 *)

(** while(_length) over data pages listed directly *)
Fixpoint read1 (fuel : nat) (st : store) (ps : Z) (blocks : list Z) (cur off len : Z) : res (list Z) :=
  if len =? 0 then Ok []
  else match fuel with
  | O => Hang
  | S k =>
      do b <- rd blocks cur;
      do p <- get_page st b;
      let curlen := Z.min (ps - off) len in
      do c <- rdn p off curlen;
      do r <- read1 k st ps blocks (cur + 1) 0 (len - curlen);
      Ok (c ++ r)
  end.

(** while(_length) through table pages: [tb] the current table page, [co] the index of the
    next table, [e] the index in the table, [per] entries per table starting at [hdr] *)
Fixpoint read2 (fuel : nat) (st : store) (ps per hdr : Z) (blocks : list Z) (tb co e off len : Z) : res (list Z) :=
  if len =? 0 then Ok []
  else match fuel with
  | O => Hang
  | S k =>
      do t <- get_page st tb;
      do b <- entry t hdr e;
      do p <- get_page st b;
      let curlen := Z.min (ps - off) len in
      do c <- rdn p off curlen;
      let len' := len - curlen in
      do r <- (if (0 <? len') && (per <=? e + 1) then
                 do tb' <- rd blocks co;
                 do _ <- get_page st tb';
                 read2 k st ps per hdr blocks tb' (co + 1) 0 0 len'
               else read2 k st ps per hdr blocks tb co (e + 1) 0 len');
      Ok (c ++ r)
  end.
(** entry into the two-level loop *)
Definition start2 (st : store) (ps per hdr : Z) (blocks : list Z) (cur off len : Z) : res (list Z) :=
  let co := cur / per in
  do tb <- rd blocks co;
  do _ <- get_page st tb;
  read2 (S (Z.to_nat len)) st ps per hdr blocks tb (co + 1) (cur - co * per) off len.

(** [buf]: the caller's buffer before the call, returned unchanged for Free838 *)
Definition get_range (ps : Z) (st : store) (o : obj) (start len : Z) (buf : list Z) : res (list Z) :=
  match o_data o with
  | Some d => rdn d start len
  | None =>
      match o_ty o with
      | Free80 =>
          if u64 (o_len o * 4) <? u64 (start + len) then Throw
          else let cur := u32 (start / 4096) in
               read1 (S (Z.to_nat len)) st 4096 (o_blocks o) cur (u32 (start - u32 (cur * 4096))) len
      | Data80 =>
          if o_len o <? u64 (start + len) then Throw
          else let cur := u32 (start / 4096) in
               start2 st 4096 1023 4 (o_blocks o) cur (u32 (start - u32 (cur * 4096))) len
      | Data838 =>
          if o_len o <? u64 (start + len) then Throw
          else let cur := u32 (start / ps) in
               let off := u32 (start - u32 (cur * ps)) in
               if o_fat o =? 0 then read1 (S (Z.to_nat len)) st ps (o_blocks o) cur off len
               else start2 st ps (ps / 4) 0 (o_blocks o) cur off len
      | Free838 => Ok buf
      end
  end.

(** ** Reading everything: V8Object::get_data(), V8Object.cpp:309-396 *)

(** new char[n] of which only [acc] has been filled *)
Definition fill (n : Z) (acc junk : list Z) : list Z := acc ++ sub junk (length acc) (Z.to_nat n - length acc).

(** one table page: for(j = 0; j < n; j++); returns the bytes, the length left and curlen *)
Fixpoint whole_in (n : nat) (st : store) (ps : Z) (t : list Z) (hdr j l curlen : Z) : res (list Z * Z * Z) :=
  match n with
  | O => Ok ([], l, curlen)
  | S k =>
      let cl := Z.min ps l in
      do b <- entry t hdr j;
      do c <- get_part st b cl;
      if l <=? cl then Ok (c, l, cl)
      else do r <- whole_in k st ps t hdr (j + 1) (l - cl) cl;
           let '(acc, l', cl') := r in Ok (c ++ acc, l', cl')
  end.
(** for(i = 0; i < numblocks; i++); [cnt t] entries in table page [t] *)
Fixpoint whole_out (n : nat) (st : store) (ps : Z) (cnt : list Z -> res Z) (hdr : Z) (blocks : list Z) (i l curlen : Z) : res (list Z) :=
  match n with
  | O => Ok []
  | S k =>
      do tb <- rd blocks i;
      do t <- get_page st tb;
      do c <- cnt t;
      do r <- whole_in (Z.to_nat c) st ps t hdr 0 l curlen;
      let '(acc, l', cl') := r in
      if l' <=? cl' then Ok acc
      else do r' <- whole_out k st ps cnt hdr blocks (i + 1) l' cl'; Ok (acc ++ r')
  end.
(** pages listed directly *)
Fixpoint whole_dir (n : nat) (st : store) (ps : Z) (blocks : list Z) (i l : Z) : res (list Z) :=
  match n with
  | O => Ok []
  | S k =>
      let cl := Z.min ps l in
      do b <- rd blocks i;
      do c <- get_part st b cl;
      if l <=? cl then Ok c
      else do r <- whole_dir k st ps blocks (i + 1) (l - cl); Ok (c ++ r)
  end.
(** while(l > 4096) of the free page list *)
Fixpoint whole_free (fuel : nat) (st : store) (blocks : list Z) (i l : Z) : res (list Z) :=
  match fuel with
  | O => Hang
  | S k =>
      do b <- rd blocks i;
      if 4096 <? l then
        do c <- get_part st b 4096;
        do r <- whole_free k st blocks (i + 1) (l - 4096); Ok (c ++ r)
      else get_part st b l
  end.

(** [None]: null pointer.  The object keeps the buffer. *)
Definition get_all (ps : Z) (st : store) (o : obj) (junk : list Z) : res (obj * option (list Z)) :=
  if o_len o =? 0 then Ok (o, None)
  else match o_data o with
  | Some d => Ok (o, Some d)
  | None =>
      match o_ty o with
      | Free80 =>
          let l := u32 (o_len o * 4) in
          do acc <- whole_free (S (Z.to_nat l)) st (o_blocks o) 0 l;
          let d := fill l acc junk in Ok (set_cached o (Some d), Some d)
      | Data80 =>
          let l := u32 (o_len o) in
          do acc <- whole_out (Z.to_nat (o_num o)) st 4096 (fun t => do c <- u32at t 0; Ok (i32 c)) 4 (o_blocks o) 0 l 0;
          let d := fill l acc junk in Ok (set_cached o (Some d), Some d)
      | Data838 =>
          let l := o_len o in
          do acc <- (if o_fat o =? 0 then whole_dir (Z.to_nat (o_num o)) st ps (o_blocks o) 0 l
                     else whole_out (Z.to_nat (o_num o)) st ps (fun _ => Ok (ps / 4)) 0 (o_blocks o) 0 l 0);
          let d := fill l acc junk in Ok (set_cached o (Some d), Some d)
      | Free838 => Ok (o, None)
      end
  end.

(** V8Object::savetofile, V8Object.cpp:569-584: the bytes written; remain_size -= pagesize
    in 64 bits, size_of_block is 32-bit *)
Fixpoint save_loop (fuel : nat) (ps : Z) (st : store) (o : obj) (buf : list Z) (total off remain : Z) : res (list Z) :=
  if total <=? off then Ok []
  else match fuel with
  | O => Hang
  | S k =>
      let sz := u32 (Z.min remain ps) in
      do c <- get_range ps st o off sz (sub buf 0 (Z.to_nat sz));
      do r <- save_loop k ps st o buf total (u64 (off + ps)) (u64 (remain - ps));
      Ok (c ++ r)
  end.
Definition save_file (ps : Z) (st : store) (o : obj) (buf : list Z) : res (list Z) :=
  save_loop (S (Z.to_nat (obj_len o))) ps st o buf (obj_len o) 0 (obj_len o).

(** ** V8Object::get_fileoffset, V8Object.cpp:587-642 *)
Definition fileoffset (ps : Z) (st : store) (o : obj) (offset : Z) : res Z :=
  let start := u32 offset in
  match o_ty o with
  | Free80 =>
      let cur := start / 4096 in
      do b <- rd (o_blocks o) cur; Ok (b * 4096 + (start - cur * 4096))
  | Data80 =>
      let cur := start / 4096 in
      do tb <- rd (o_blocks o) (cur / 1023);
      do t <- get_page st tb;
      do b <- entry t 4 (cur - cur / 1023 * 1023);
      Ok (b * 4096 + (start - cur * 4096))
  | Data838 =>
      let cur := start / ps in
      let off := start - cur * ps in
      if o_fat o =? 0 then do b <- rd (o_blocks o) cur; Ok (b * ps + off)
      else
        let per := ps / 4 in
        do tb <- rd (o_blocks o) (cur / per);
        do t <- get_page st tb;
        do b <- entry t 0 (cur - cur / per * per);
        Ok (b * ps + off)
  | Free838 => Ok 0
  end.

(** ** Overwriting *)

(** V8Object::write_new_version, V8Object.cpp:1373-1383 *)
Definition write_version (cached : Z -> bool) (ps : Z) (st : store) (o : obj) : res (store * obj) :=
  if o_newver o then Ok (st, o)
  else
    let vo := match o_ty o with Data80 | Free80 => 12 | _ => 4 end in
    do st' <- write_page cached ps st (o_block o) true vo (le_bytes 4 (u32 (o_v1 o + 1)) ++ le_bytes 4 (o_v2 o));
    Ok (st', mko (o_ty o) (o_fat o) (o_len o) (o_num o) (o_real o) (o_blocks o) (o_block o) (o_data o) (o_v1 o) (o_v2 o) true).

(** while(_length) of set_data, pages listed directly; [d] is what remains of the buffer *)
Fixpoint write1 (fuel : nat) (cached : Z -> bool) (st : store) (ps : Z) (blocks : list Z) (cur off : Z) (d : list Z) : res store :=
  match d with
  | [] => Ok st
  | _ =>
      match fuel with
      | O => Hang
      | S k =>
          let curlen := Z.min (ps - off) (zlen d) in
          do b <- rd blocks cur;
          do st' <- write_page cached ps st b (negb (curlen =? ps)) off (firstn (Z.to_nat curlen) d);
          write1 k cached st' ps blocks (cur + 1) 0 (skipn (Z.to_nat curlen) d)
      end
  end.
Fixpoint write2 (fuel : nat) (cached : Z -> bool) (st : store) (ps per hdr : Z) (blocks : list Z) (tb co e off : Z) (d : list Z) : res store :=
  match d with
  | [] => Ok st
  | _ =>
      match fuel with
      | O => Hang
      | S k =>
          let curlen := Z.min (ps - off) (zlen d) in
          do t <- get_page st tb;
          do b <- entry t hdr e;
          do st' <- write_page cached ps st b (negb (curlen =? ps)) off (firstn (Z.to_nat curlen) d);
          let d' := skipn (Z.to_nat curlen) d in
          if (0 <? zlen d') && (per <=? e + 1) then
            do tb' <- rd blocks co;
            do _ <- get_page st' tb';
            write2 k cached st' ps per hdr blocks tb' (co + 1) 0 0 d'
          else write2 k cached st' ps per hdr blocks tb co (e + 1) 0 d'
      end
  end.
Definition wstart2 (cached : Z -> bool) (st : store) (ps per hdr : Z) (blocks : list Z) (cur off : Z) (d : list Z) : res store :=
  let co := cur / per in
  do tb <- rd blocks co;
  do _ <- get_page st tb;
  write2 (S (length d)) cached st ps per hdr blocks tb (co + 1) (cur - co * per) off d.

(** V8Object::set_data(buf, start, length), V8Object.cpp:645-753, and
    set_data(stream, start, length), 949-1050, whose loops are the same with
    ReadBuffer in place of memcpy ([d]: the bytes the stream delivers).
    [grow] is set_len, modelled in Alloc_Model. *)
Definition set_range (grow : store -> obj -> Z -> res (store * obj)) (ro : bool) (cached : Z -> bool) (ps : Z)
    (st : store) (o : obj) (start : Z) (d : list Z) : res (store * obj) :=
  if ro then Throw
  else match o_ty o with
  | Free80 | Free838 => Throw
  | _ =>
      do so <- (if o_len o <? u64 (start + zlen d) then grow st (set_cached o None) (u64 (start + zlen d)) else Ok (st, set_cached o None));
      let (st, o) := so in
      do st' <- match o_ty o with
                | Data80 =>
                    let cur := u32 (start / 4096) in
                    wstart2 cached st 4096 1023 4 (o_blocks o) cur (u32 (start - u32 (cur * 4096))) d
                | _ =>
                    let cur := u32 (start / ps) in
                    let off := u32 (start - u32 (cur * ps)) in
                    if o_fat o =? 0 then write1 (S (length d)) cached st ps (o_blocks o) cur off d
                    else wstart2 cached st ps (ps / 4) 0 (o_blocks o) cur off d
                end;
      write_version cached ps st' o
  end.
