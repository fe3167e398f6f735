(** Index leaf pages and the walk over an index.  Source: /repo/src/tool1cd/Index.cpp, Index.h. *)
From Verif Require Import Prelude.

(** ** Bit widths and masks *)
(** for(i = v, n = 0; i; i >>= 1, n++), Index.cpp:498, 558 (32-bit values) *)
Fixpoint bits_loop (fuel : nat) (i n : Z) : Z :=
  match fuel with O => n | S k => if i =? 0 then n else bits_loop k (Z.shiftr i 1) (n + 1) end.
Definition bits (v : Z) : Z := bits_loop 32 v 0.
(** for(i = 0, m = 0; i < k; i++, m = (m << 1) | 1), Index.cpp:573-575; uint32_t *)
Fixpoint mask_loop (k : nat) (m : Z) : Z :=
  match k with O => m | S k' => mask_loop k' (u32 (Z.lor (Z.shiftl m 1) 1)) end.
Definition mask (k : Z) : Z := mask_loop (Z.to_nat k) 0.

(** ** Packing: pack_leafpage, Index.cpp:471-602 *)
(** for(j = 0; cur[j] == cur[j - step] && j < length; j++), Index.cpp:518: the bytes are read
    before j is tested *)
Fixpoint prefix_loop (fuel : nat) (buf : list Z) (cur step len j : Z) : res Z :=
  match fuel with
  | O => Hang
  | S k => do a <- rd buf (cur + j); do b <- rd buf (cur + j - step);
           if (a =? b) && (j <? len) then prefix_loop k buf cur step len (j + 1) else Ok j
  end.
(** for(j = 1; cur[length - j] == 0 && j <= length; j++), Index.cpp:523 *)
Fixpoint zeros_loop (fuel : nat) (buf : list Z) (cur len j : Z) : res Z :=
  match fuel with
  | O => Hang
  | S k => do a <- rd buf (cur + len - j);
           if (a =? 0) && (j <=? len) then zeros_loop k buf cur len (j + 1) else Ok j
  end.
(** _pack_index_record, Index.h:82-87 *)
Record prec := PR { pr_num : Z; pr_lft : Z; pr_rgt : Z }.

(** the first loop, Index.cpp:511-557: [n] records to go, [cur] and [curp] as offsets in the
    two buffers; None = return false *)
Fixpoint pack_recs (n : nat) (first primary : bool) (len datasize : Z) (buf : list Z) (cur : Z) (page : list Z) (curp plen maxn : Z)
  : res (option (list prec * list Z * Z * Z)) :=
  match n with
  | O => Ok (Some ([], page, plen, maxn))
  | S k =>
      do nb <- rdn buf cur 4;
      let numrec := le_val nb in
      let cur := cur + 4 in
      do lft <- (if first then Ok 0 else prefix_loop (S (Z.to_nat len)) buf cur (len + 4) len 0);
      do j <- zeros_loop (S (Z.to_nat len)) buf cur len 1;
      let rgt := j - 1 in
      do rgt <- (if len <? lft + rgt then (if (lft <? len) || primary then Throw else Ok (len - lft)) else Ok rgt);
      let j := len - lft - rgt in
      let curp := curp - j in
      let plen := u32 (plen + j) in
      if datasize <=? plen then Ok None
      else
        do d <- rdn buf (cur + lft) j;
        do page <- wrn page curp d;
        do r <- pack_recs k false primary len datasize buf (cur + len) page curp plen (if maxn <? numrec then numrec else maxn);
        match r with
        | None => Ok None
        | Some (ps, page, plen, maxn) => Ok (Some (PR numrec lft rgt :: ps, page, plen, maxn))
        end
  end.
(** the entries, Index.cpp:589-598: int64_t as its 64 bits *)
Definition entry (lb nb : Z) (p : prec) : Z :=
  u64 (Z.lor (u64 (Z.shiftl (Z.lor (u64 (Z.shiftl (pr_rgt p) lb)) (pr_lft p)) nb)) (pr_num p)).
Fixpoint put_entries (ps : list prec) (page : list Z) (curp recbytes lb nb : Z) : res (list Z) :=
  match ps with
  | [] => Ok page
  | p :: r => do e <- rdn (le_bytes 8 (entry lb nb p)) 0 recbytes; do page <- wrn page curp e; put_entries r page (curp + recbytes) recbytes lb nb
  end.
(** LeafPageHeader, Index.h:66-79: prev_page and next_page (offsets 4-11) stay as they are *)
Definition header (page : list Z) (n free nmask lmask rmask nb lb rb recbytes : Z) : list Z :=
  le_bytes 2 2 ++ le_bytes 2 n ++ sub page 4 8 ++ le_bytes 2 free ++ le_bytes 4 nmask ++ le_bytes 2 lmask ++ le_bytes 2 rmask ++
  le_bytes 2 nb ++ le_bytes 2 lb ++ le_bytes 2 rb ++ le_bytes 2 recbytes.
(** [buf]: the unpacked records (4 bytes number, key); the new page and the result *)
Definition pack_leafpage (primary : bool) (len pagesize : Z) (buf : list Z) (n : nat) (page : list Z) : res (list Z * bool) :=
  let datasize := pagesize - 30 in
  let rb := bits len in
  let lb := rb in
  do page <- wrn page 30 (repeat 0 (Z.to_nat datasize));
  do r <- pack_recs n true primary len datasize buf 0 page pagesize 0 0;
  match r with
  | None => Ok (page, false)
  | Some (ps, page, plen, maxn) =>
      let recbytes := (bits maxn + lb + rb + 7) / 8 in
      if datasize <? u32 (u32 (recbytes * Z.of_nat n) + plen) then Ok (page, false)
      else
        let free := u32 (datasize - recbytes * Z.of_nat n - plen) in
        let nb := recbytes * 8 - lb - rb in
        do page <- wrn page 0 (header page (Z.of_nat n) free (mask nb) (mask lb) (mask rb) nb lb rb recbytes);
        do page <- put_entries ps page 30 recbytes lb nb;
        Ok (page, true)
  end.

(** ** Unpacking: unpack_leafpage, Index.cpp:399-468 *)
(** int64_t from 8 bytes *)
Definition s64 (x : Z) : Z := if x <? 2^63 then x else x - 2^64.
(** the loop, Index.cpp:445-465, giving number and key of each record; [prev] = the key before
    (in the output buffer), None for the first record: copying from there is out of bounds.
    lft + rgt above the key length makes j wrap: out of bounds. *)
Fixpoint unpack_recs (n : nat) (page : list Z) (rbuf ibuf len recbytes nmask lmask rmask nb lb : Z) (prev : option (list Z)) : res (list (Z * list Z)) :=
  match n with
  | O => Ok []
  | S k =>
      do e <- rdn page rbuf 8;
      let indrec := s64 (le_val e) in
      let numrec := Z.land indrec nmask in
      let indrec := Z.shiftr indrec nb in
      let lft := Z.land indrec lmask in
      let indrec := Z.shiftr indrec lb in
      let rgt := Z.land indrec rmask in
      if len <? lft + rgt then UB
      else
        let j := len - lft - rgt in
        let ibuf := ibuf - j in
        do a <- (if lft =? 0 then Ok [] else match prev with None => UB | Some p => rdn p 0 lft end);
        do b <- rdn page ibuf j;
        let key := a ++ b ++ repeat 0 (Z.to_nat rgt) in
        do r <- unpack_recs k page (rbuf + recbytes) ibuf len recbytes nmask lmask rmask nb lb (Some key);
        Ok ((numrec, key) :: r)
  end.
Definition hd_field (page : list Z) (o n : nat) : Z := le_val (sub page o n).
Definition unpack_leafpage (len pagesize : Z) (page : list Z) : res (list (Z * list Z)) :=
  if len =? 0 then Ok []
  else if Z.land (hd_field page 0 2) 2 =? 0 then Throw
  else
    unpack_recs (Z.to_nat (hd_field page 2 2)) page 30 pagesize len (hd_field page 28 2) (hd_field page 14 4) (hd_field page 18 2) (hd_field page 20 2)
                (hd_field page 22 2) (hd_field page 24 2) None.

(** ** The walk over the tree: create_recordsindex, Index.cpp:86-152 *)
(** [get off n]: V8Object::get_data on the index file, filling the buffer *)
Section walk.
Variable get : Z -> Z -> res (list Z).
(** down to the first leaf, Index.cpp:114-123; [mul] = pagesize from 8.3.8 on, 1 before;
    reverse_byte_order (Common.cpp:54) makes the number big-endian;
    a read of the number outside the page is out of bounds *)
Fixpoint first_leaf (fuel : nat) (pagesize len mul : Z) (buf : list Z) : res (list Z) :=
  match fuel with
  | O => Hang
  | S k =>
      if Z.land (nth 0 buf 0) 2 =? 0 then
        do b <- rdn buf (16 + len) 4;
        do buf <- get (le_val (rev b) * mul) pagesize;
        first_leaf k pagesize len mul buf
      else Ok buf
  end.
(** the numbers of one leaf, Index.cpp:128-140; [room] = what recordsindex still has space for;
    a store behind it is out of bounds *)
Fixpoint leaf_nums (n : nat) (buf : list Z) (rbuf rlen msk : Z) (room : Z) : res (list Z) :=
  match n with
  | O => Ok []
  | S k => do b <- rdn buf rbuf 4;
           if room <=? 0 then UB
           else do r <- leaf_nums k buf (rbuf + rlen) rlen msk (room - 1); Ok (Z.land (le_val b) msk :: r)
  end.
(** along the leaves, Index.cpp:125-144; int16_t counts: a negative one means no records *)
Fixpoint leaves (fuel : nat) (pagesize mul : Z) (buf : list Z) (room : Z) : res (list Z) :=
  match fuel with
  | O => Hang
  | S k =>
      let curlen := i16 (hd_field buf 2 2) in
      let next := hd_field buf 8 4 in
      do a <- leaf_nums (Z.to_nat curlen) buf 30 (i16 (hd_field buf 28 2)) (hd_field buf 14 4) room;
      if next =? 2^32 - 1 then Ok a
      else do buf <- get (next * mul) pagesize;
           do r <- leaves k pagesize mul buf (room - zlen a); Ok (a ++ r)
  end.
(** [room]: recordsindex.resize(data length / record length), Index.cpp:113; rootblock
    (Index.h:148) and curblock are 64-bit, so the products with the page size do not wrap *)
Definition create_recordsindex (fuel : nat) (start pagesize : Z) (v838 : bool) (room : Z) : res (list Z) :=
  let mul := if v838 then pagesize else 1 in
  do h <- get start 8;
  let rootblock := le_val (sub h 0 4) * mul in
  let len := i16 (le_val (sub h 4 2)) in
  do buf <- get rootblock pagesize;
  if i16 (hd_field buf 2 2) =? 0 then Ok []
  else do buf <- first_leaf fuel pagesize len mul buf; leaves fuel pagesize mul buf room.
End walk.
