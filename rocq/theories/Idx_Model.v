(** Adding records to an index and removing them.  Source: /repo/src/tool1cd/Index.cpp, Index.h. *)
From Verif Require Import Prelude Leaf_Model.

(** Index.h:136-155: what of an index matters here; [x_ov] = memcpy between overlapping places acts like
    memmove (it is undefined otherwise) *)
Record ix := IX { x_primary : bool; x_len : Z; x_ps : Z; x_838 : bool; x_start : Z; x_root : Z; x_ov : bool }.
Definition x_mul (x : ix) : Z := if x_838 x then x_ps x else 1.
(** version < ver8_3_8_0 ? block : block / pagesize, e.g. Index.cpp:842 *)
Definition page_no (x : ix) (block : Z) : Z := if x_838 x then block / x_ps x else block.

(** ** The index file: the bytes of a V8Object *)
(** V8Object::get_data (modelled in Obj_Model): bytes behind the end raise an exception *)
Definition get (f : list Z) (off n : Z) : res (list Z) :=
  if (off <? 0) || (n <? 0) || (zlen f <? off + n) then Throw else Ok (sub f (Z.to_nat off) (Z.to_nat n)).
(** V8Object::set_data: bytes behind the end make the object longer *)
Definition put (f : list Z) (off : Z) (d : list Z) : list Z :=
  splice (f ++ repeat 0 (Z.to_nat (off + zlen d - zlen f))) (Z.to_nat off) d.
Fixpoint memcmp (a b : list Z) : Z :=
  match a, b with
  | x :: a', y :: b' => if x <? y then -1 else if y <? x then 1 else memcmp a' b'
  | _, _ => 0
  end.
(** reverse_byte_order of 32 bits as bytes, Common.cpp:54 *)
Definition be4 (v : Z) : list Z := rev (le_bytes 4 v).
(** memcpy(p + dst, p + src, n) *)
Definition move (x : ix) (p : list Z) (dst src n : Z) : res (list Z) :=
  if (Z.abs (dst - src) <? n) && negb (x_ov x) then UB else do d <- rdn p src n; wrn p dst d.
(** a page for new use: the first of the list of free pages, whose numbers are in the first four bytes of the
    file and of each free page; else a page at the end, Index.cpp:820-829, 972-979; 32-bit product *)
Definition take_page (x : ix) (f : list Z) : res (list Z * Z) :=
  do b <- get f 0 4;
  let k := le_val b in
  if k =? 0 then Ok (f, zlen f)
  else let block := u32 (k * x_ps x) in do b <- get f block 4; Ok (put f 0 b, block).

(** ** Adding: write_index_record, Index.cpp:863-1180 *)
(** result, new_last_index_buf and the others: 0 = nothing to do, 1 = the last record is another now,
    2 = two pages, with the last record of each and the offset of the second *)
Inductive out := O0 | O1 (key : list Z) (num : Z) | O2 (key1 : list Z) (num1 : Z) (key2 : list Z) (num2 block2 : Z).
(** 919-938: the place in a leaf *)
Fixpoint find_leaf (primary : bool) (key : list Z) (num : Z) (recs : list (Z * list Z)) (i : nat) : res nat :=
  match recs with
  | [] => Ok i
  | (n, k) :: t =>
      let j := memcmp key k in
      if j =? 0 then if primary || (n =? num) then Throw else Ok i
      else if j <? 0 then Ok i else find_leaf primary key num t (S i)
  end.
(** the buffer with the unpacked records *)
Definition unpacked (recs : list (Z * list Z)) : list Z := concat (map (fun r => le_bytes 4 (fst r) ++ snd r) recs).
(** flags, prev_page and next_page of a page *)
Definition set_links (p : list Z) (flags prev next : Z) : res (list Z) :=
  do p <- wrn p 0 (le_bytes 2 flags); do p <- wrn p 4 (le_bytes 4 prev); wrn p 8 (le_bytes 4 next).
(** a leaf, 913-1006; [junk] = the memory of page2; the results of packing the halves are not looked at *)
Definition write_leaf (x : ix) (junk : list Z) (f : list Z) (block : Z) (page key : list Z) (num : Z) : res (list Z * out) :=
  let len := x_len x in let ps := x_ps x in
  do recs <- unpack_leafpage len ps page;
  do i <- find_leaf (x_primary x) key num recs 0;
  let recs' := firstn i recs ++ (num, key) :: skipn i recs in
  let n := length recs' in
  let flags := hd_field page 0 2 in let prev := hd_field page 4 4 in let next := hd_field page 8 4 in
  let buf := unpacked recs' in
  do r <- pack_leafpage (x_primary x) len ps buf n page;
  let (p, ok) := r : list Z * bool in
  if ok then
    do p <- set_links p flags prev next;
    Ok (put f block p, if Nat.eqb i (length recs) then O1 (snd (last recs' (0, []))) (fst (last recs' (0, []))) else O0)
  else
    let n1 := Nat.div2 n in
    do r1 <- pack_leafpage (x_primary x) len ps buf n1 p;
    do r2 <- pack_leafpage (x_primary x) len ps (skipn (n1 * Z.to_nat (len + 4)) buf) (n - n1) junk;
    do t <- take_page x f;
    let (f, block2) := t : list Z * Z in
    let flags := Z.ldiff flags 1 in
    do p1 <- set_links (fst r1) flags prev (page_no x block2);
    do p2 <- set_links (fst r2) flags (page_no x block) next;
    let f := put f block2 p2 in
    let l1 := nth (n1 - 1) recs' (0, []) in let l2 := last recs' (0, []) in
    Ok (put f block p1, O2 (snd l1) (fst l1) (snd l2) (fst l2) block2).
(** 1015-1037: the place in a branch; [at_] = the offset of the entry *)
Fixpoint find_branch (n : nat) (primary : bool) (len : Z) (key page : list Z) (i at_ : Z) : res Z :=
  match n with
  | O => Ok i
  | S k =>
      do e <- rdn page at_ len;
      let j := memcmp key e in
      if j =? 0 then if primary then Throw else Ok i
      else if j <? 0 then Ok i else find_branch k primary len key page (i + 1) (at_ + len + 8)
  end.
(** an entry of a branch, e.g. 837-848: key, number, page, numbers big-endian *)
Definition set_entry (p : list Z) (at_ : Z) (key : list Z) (num no : Z) : res (list Z) :=
  do p <- wrn p at_ key; do p <- wrn p (at_ + zlen key) (be4 num); wrn p (at_ + zlen key + 4) (be4 no).
(** 863-1180.  A branch that is full is copied entry by entry into a buffer of [number_indexes] entries,
    one more than fits (1061, 1063, 1078-1102): undefined.  In the other case the new count is not stored
    in the page (1063), and 1139-1146 moves the entries the wrong way. *)
Fixpoint write_rec (fuel : nat) (x : ix) (junk f : list Z) (block : Z) (key : list Z) (num : Z) : res (list Z * out) :=
  match fuel with
  | O => Hang
  | S fuel =>
      let len := x_len x in
      do page <- get f block (x_ps x);
      if negb (Z.land (hd_field page 0 2) 2 =? 0) then write_leaf x junk f block page key num
      else
        let n := hd_field page 2 2 in
        let delta := len + 8 in
        do i <- find_branch (Z.to_nat n) (x_primary x) len key page 0 12;
        let i := if i =? n then i - 1 else i in
        let at_ := 12 + i * delta in
        do b <- rdn page (at_ + len + 4) 4;
        let block1 := le_val (rev b) * x_mul x in
        do r <- write_rec fuel x junk f block1 key num;
        let (f, o) := r : list Z * out in
        match o with
        | O0 => Ok (f, O0)
        | O1 k m =>
            do page <- wrn page at_ k;
            do page <- wrn page (at_ + len) (be4 m);
            Ok (put f block page, if i =? n - 1 then O1 k m else O0)
        | O2 k1 m1 k2 m2 b2 =>
            if (x_ps x - 12) / delta <? n + 1 then UB
            else
              do page <- (if n - 1 - i =? 0 then Ok page else move x page (at_ + delta) (at_ + 2 * delta) ((n - 1 - i) * delta));
              do page <- set_entry page at_ k1 m1 (page_no x block1);
              do page <- set_entry page (at_ + delta) k2 m2 (page_no x b2);
              Ok (put f block page, if i =? n - 1 then O1 k2 m2 else O0)
        end
  end.
(** 799-859.  The new root is marked as a leaf, and its offset is stored, in four bytes, whatever the version. *)
Definition write_index (fuel : nat) (x : ix) (junk f key : list Z) (num : Z) : res (list Z * ix) :=
  do r <- write_rec fuel x junk f (x_root x) key num;
  let (f, o) := r : list Z * out in
  match o with
  | O2 k1 m1 k2 m2 b2 =>
      do t <- take_page x f;
      let (f, block) := t : list Z * Z in
      do p <- wrn (repeat 0 (Z.to_nat (x_ps x))) 0 (le_bytes 2 3 ++ le_bytes 2 2 ++ le_bytes 4 (2^32 - 1) ++ le_bytes 4 (2^32 - 1));
      do p <- set_entry p 12 k1 m1 (page_no x (x_root x));
      do p <- set_entry p (12 + x_len x + 8) k2 m2 (page_no x b2);
      let f := put f block p in
      Ok (put f (x_start x) (le_bytes 4 block), IX (x_primary x) (x_len x) (x_ps x) (x_838 x) (x_start x) block (x_ov x))
  | _ => Ok (f, x)
  end.

(** ** Removing: delete_index_record, Index.cpp:645-785 *)
(** the record that is the last one now, if it is another (is_last_record, new_last_index_buf and
    new_last_phys_num), and whether the page is empty *)
Record dout := DO { d_last : option (list Z * Z); d_empty : bool }.
(** 685-701, 751-766: the neighbours of an empty page are linked and the page becomes the first free one; the
    offsets of the neighbours are 32-bit *)
Definition free_page (x : ix) (f : list Z) (block : Z) (page : list Z) : res (list Z) :=
  let prev := hd_field page 4 4 in let next := hd_field page 8 4 in
  let f := if prev =? 2^32 - 1 then f else put f (u32 (prev * x_mul x + 8)) (le_bytes 4 next) in
  let f := if next =? 2^32 - 1 then f else put f (u32 (next * x_mul x + 4)) (le_bytes 4 prev) in
  do k <- get f 0 4;
  let f := put f 0 (le_bytes 4 (block / x_ps x)) in
  Ok (put f block (k ++ repeat 0 (Z.to_nat (x_ps x - 4)))).
(** 669-718: the record is looked for by key and number *)
Fixpoint find_rec (key : list Z) (num : Z) (recs : list (Z * list Z)) (i : nat) : option nat :=
  match recs with
  | [] => None
  | (n, k) :: t => if (memcmp key k =? 0) && (n =? num) then Some i else find_rec key num t (S i)
  end.
Definition delete_leaf (x : ix) (f : list Z) (block : Z) (page key : list Z) (num : Z) : res (list Z * dout) :=
  do recs <- unpack_leafpage (x_len x) (x_ps x) page;
  match find_rec key num recs 0 with
  | None => Ok (f, DO None false)
  | Some i =>
      let recs' := firstn i recs ++ skipn (S i) recs in
      let is_last := Nat.eqb i (length recs - 1) in
      let flags := hd_field page 0 2 in
      match recs' with
      | [] => do f <- free_page x f block page; Ok (f, DO (if is_last then Some ([], 0) else None) true)
      | _ =>
          (* the buffer keeps its size: the last record is in it twice *)
          let buf := unpacked (recs' ++ [last recs (0, [])]) in
          do page <- wrn page 2 (le_bytes 2 (zlen recs'));
          do r <- pack_leafpage (x_primary x) (x_len x) (x_ps x) buf (length recs') page;
          do p <- wrn (fst r) 0 (le_bytes 2 flags);
          Ok (put f block p, DO (if is_last then Some (snd (last recs' (0, [])), fst (last recs' (0, []))) else None) false)
      end
  end.
(** 728-733: the first entry that is not before the key, and whether it is equal *)
Fixpoint find_entry (n : nat) (len : Z) (key page : list Z) (i at_ : Z) : res (option (Z * bool)) :=
  match n with
  | O => Ok None
  | S k =>
      do e <- rdn page at_ len;
      let j := memcmp key e in
      if j <=? 0 then Ok (Some (i, j =? 0)) else find_entry k len key page (i + 1) (at_ + len + 8)
  end.
Fixpoint delete_rec (fuel : nat) (x : ix) (f : list Z) (block : Z) (key : list Z) (num : Z) : res (list Z * dout) :=
  match fuel with
  | O => Hang
  | S fuel =>
      let len := x_len x in
      do page <- get f block (x_ps x);
      if negb (Z.land (hd_field page 0 2) 2 =? 0) then delete_leaf x f block page key num
      else
        let n := hd_field page 2 2 in
        let delta := len + 8 in
        do e <- find_entry (Z.to_nat n) len key page 0 12;
        match e with
        | None => Ok (f, DO None false)
        | Some (i, eq) =>
            let is_last := (i =? n - 1) && eq in
            let at_ := 12 + i * delta in
            do b <- rdn page (at_ + len + 4) 4;
            do r <- delete_rec fuel x f (le_val (rev b) * x_mul x) key num;
            let (f, d) := r : list Z * dout in
            do q <- (if d_empty d then
                       do page <- wrn page 2 (le_bytes 2 (n - 1));
                       do page <- (if i <? n - 1 then move x page at_ (at_ + delta) ((n - 1 - i) * delta) else Ok page);
                       do page <- wrn page (12 + (n - 1) * delta) (repeat 0 (Z.to_nat delta));
                       Ok (page, n - 1)
                     else match d_last d with
                          | Some (k, m) => do page <- wrn page at_ k; do page <- wrn page (at_ + len) (be4 m); Ok (page, n)
                          | None => Ok (page, n)
                          end);
            let (page, n') := q : list Z * Z in
            if n' =? 0 then do f <- free_page x f block page; Ok (f, DO (if is_last then Some ([], 0) else None) true)
            else
              do l <- (if is_last then
                         let at_ := 12 + (n' - 1) * delta in
                         do k <- rdn page at_ len; do m <- rdn page (at_ + len) 4; Ok (Some (k, le_val (rev m)))
                       else Ok None);
              Ok (if d_empty d || (match d_last d with Some _ => true | None => false end) || is_last then put f block page else f, DO l false)
        end
  end.
(** 635-642 *)
Definition delete_index (fuel : nat) (x : ix) (f key : list Z) (num : Z) : res (list Z) :=
  do r <- delete_rec fuel x f (x_root x) key num; Ok (fst r).

(** several calls one after another *)
Fixpoint run (fuel : nat) (x : ix) (junk f : list Z) (ops : list (bool * (Z * list Z))) : res (list Z * ix) :=
  match ops with
  | [] => Ok (f, x)
  | (true, (n, k)) :: r => do y <- write_index fuel x junk f k n; run fuel (snd y) junk (fst y) r
  | (false, (n, k)) :: r => do f <- delete_index fuel x f k n; run fuel x junk f r
  end.
