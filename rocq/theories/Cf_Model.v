(** Containers (.cf files): block headers, reading, writing and releasing blocks, headers of files.
    Sources: /repo/src/tool1cd/cfapi/APIcfBase.{h,cpp}, V8Catalog.cpp, V8File.cpp. *)
From Verif Require Import Prelude Codec_Model Text_Model.

(** LAST_BLOCK, APIcfBase.h:39 *)
Definition LAST : Z := 2147483647.

(** ** The header of a block: 31 bytes, APIcfBase.h:75-133 *)
(** a header made by the constructor, APIcfBase.h:79-83, 122-131 *)
Definition blank : list Z := [13; 10] ++ repeat 0 8 ++ [32] ++ repeat 0 8 ++ [32] ++ repeat 0 8 ++ [32; 13; 10].
(** to_hex_string(int32_t, false), Common.h:51-60: at least eight digits; int32_t is printed as
    unsigned in base 16 *)
Definition hex8 (v : Z) : list Z := map (fun i => hexdigit (Z.land (Z.shiftr (u32 v) (4 * i)) 15)) [7; 6; 5; 4; 3; 2; 1; 0].
(** set_data_size, set_page_size, set_next_page_addr, APIcfBase.cpp:41-80: the digits are copied
    to offset 2, 11 or 20 *)
Definition set_hex (off : nat) (h : list Z) (v : Z) : list Z := splice h off (hex8 v).
Definition o_data : nat := 2%nat.
Definition o_page : nat := 11%nat.
Definition o_next : nat := 20%nat.
(** string::append of a char pointer: the bytes up to the first zero.  [after] = the memory behind the
    header (reading it is undefined in C++, see C94); undefined without any zero *)
Fixpoint c_string (s : list Z) : res (list Z) :=
  match s with [] => UB | c :: r => if c =? 0 then Ok [] else do t <- c_string r; Ok (c :: t) end.
(** strtol of "0x" and a text in base 16: the longest run of digits; 0 without digits *)
Fixpoint hex_prefix (s : list Z) (acc : Z) : Z :=
  match s with [] => acc | c :: r => match hexval c with Some v => hex_prefix r (acc * 16 + v) | None => acc end end.
(** get_data_size, get_page_size, get_next_page_addr, APIcfBase.cpp:34-39, 50-55, 66-71: std::stoi
    throws for values outside int *)
Definition get_hex (after : list Z) (off : nat) (h : list Z) : res Z :=
  do s <- c_string (skipn off h ++ after);
  let v := hex_prefix s 0 in if LAST <? v then Throw else Ok v.
(** stBlockHeader::create, APIcfBase.cpp:83-92 *)
Definition create (d p n : Z) : list Z := set_hex o_next (set_hex o_page (set_hex o_data blank d) p) n.

(** ** Streams: [data] = the bytes of the stream of the container (TMemoryStream, C41) *)
(** Seek(start) and Read(&header, 31): a short read leaves the other bytes of the header; Seek
    behind the end throws (TStream.cpp:58-66), a negative position is undefined when used *)
Definition read_header (data : list Z) (start : Z) (h : list Z) : res (list Z) :=
  if zlen data <? start then Throw
  else if start <? 0 then UB
  else let got := firstn 31 (skipn (Z.to_nat start) data) in Ok (got ++ skipn (length got) h).
(** CopyFrom(Source, Count), TStream.cpp:100-113: the bytes written and the new position of the
    source, which has the bytes [src] and the position [pos]; see C42, C76 *)
Definition copied (src : list Z) (pos count : Z) : list Z * Z :=
  if count =? 0 then (src, zlen src)
  else
    let n := if count <? 0 then zlen src else count in
    let got := firstn (Z.to_nat n) (skipn (Z.to_nat pos) src) in
    (match got with [] => repeat 0 (Z.to_nat n) | _ => got end, pos + zlen got).
(** Write at a position not behind the end *)
Definition over (data : list Z) (pos : Z) (d : list Z) : list Z :=
  firstn (Z.to_nat pos) data ++ d ++ skipn (Z.to_nat pos + length d) data.

(** ** read_block, V8Catalog.cpp:34-83 *)
(** the loop 67-79: [out] = the bytes in stream_to *)
Fixpoint rb_loop (fuel : nat) (after data : list Z) (start len pos : Z) (h out : list Z) : res (list Z) :=
  match fuel with
  | O => Hang
  | S k =>
      if start =? LAST then Ok out
      else
        do h <- read_header data start h;
        do cur <- get_hex after o_page h;
        do nxt <- get_hex after o_next h;
        let n := Z.min (len - pos) cur in
        rb_loop k after data nxt len (pos + n) h (out ++ fst (copied data (Z.min (start + 31) (zlen data)) n))
  end.
Definition read_block (fuel : nat) (after data : list Z) (start : Z) : res (list Z) :=
  if (start <? 0) || (start =? LAST) || (zlen data <? start) then Ok []
  else
    do h <- read_header data start blank;
    do len <- get_hex after o_data h;
    if len =? 0 then Ok []
    else
      do cur <- get_hex after o_page h;
      do nxt <- get_hex after o_next h;
      let n := Z.min len cur in
      rb_loop fuel after data nxt len n h (fst (copied data (Z.min (start + 31) (zlen data)) n)).

(** ** Writing *)
(** the stream, file_header.next_page_addr and file_header.page_size *)
Record cat := CT { c_data : list Z; c_free : Z; c_page : Z }.
(** get_nextblock, V8Catalog.cpp:560-573, and the conversion to int *)
Definition next_block (c : cat) (start : Z) : Z :=
  i32 (if (start =? 0) || (start =? LAST) then (if c_free c =? LAST then zlen (c_data c) else c_free c) else start).
(** free_block, V8Catalog.cpp:477-510; the header is one object that keeps its bytes *)
Fixpoint free_loop (fuel : nat) (after data : list Z) (start prev : Z) (h : list Z) : res (list Z) :=
  match fuel with
  | O => Hang
  | S k =>
      do h <- read_header data start h;
      do nxt <- get_hex after o_next h;
      let h := set_hex o_data h LAST in
      let h := if nxt =? LAST then set_hex o_next h prev else h in
      let data := over data start h in
      if nxt =? LAST then Ok data else free_loop k after data nxt prev h
  end.
Definition free_block (fuel : nat) (after : list Z) (c : cat) (start : Z) : res cat :=
  if (start =? 0) || (start =? LAST) then Ok c
  else do d <- free_loop fuel after (c_data c) start (c_free c) blank; Ok (CT d start (c_page c)).
(** write_block, the loop 596-660: [block] and [bpos] = the bytes and the position of the stream
    that is written, [len] = what is left; gives the container and the next address *)
Fixpoint wb_loop (fuel : nat) (after : list Z) (c : cat) (block : list Z) (bpos start len : Z) (usep isfirst : bool) (h : list Z) : res (cat * Z) :=
  match fuel with
  | O => Hang
  | S k =>
      let data := c_data c in
      do r <- (if start =? c_free c then
                 do h <- read_header data start h;
                 do bl <- get_hex after o_page h;
                 do nxt <- get_hex after o_next h;
                 Ok (CT data nxt (c_page c), h, bl, nxt, false)
               else if start =? zlen data then
                 let bl := if usep then (if c_page c <? len then len else c_page c) else len in
                 Ok (c, set_hex o_page (create 0 0 0) bl, bl, 0, len <? bl)
               else
                 do h <- read_header data start h;
                 do bl <- get_hex after o_page h;
                 do nxt <- get_hex after o_next h;
                 Ok (c, h, bl, nxt, false));
      let '(c, h, bl, nxt, add) := r in
      let h := set_hex o_data h (if isfirst then len else 0) in
      let cur := Z.min bl len in
      let nxt := if nxt =? 0 then i32 (zlen data + 31 + bl) else next_block c nxt in
      let h := set_hex o_next h (if len <=? bl then LAST else nxt) in
      if (start <? 0) || (zlen data <? start) then Throw
      else
        let '(d, bpos) := copied block bpos cur in
        let data := over data start (h ++ d ++ (if add then repeat 0 (Z.to_nat (bl - len)) else [])) in
        let c := CT data (c_free c) (c_page c) in
        let len := len - cur in
        if 0 <? len then wb_loop k after c block bpos nxt len usep false h
        else Ok (c, nxt)
  end.
(** write_block without the check for an empty container, 593-668 *)
Definition wb_main (fuel : nat) (after : list Z) (c : cat) (block : list Z) (bpos start len : Z) (usep : bool) : res (cat * Z) :=
  let '(bpos, len) := if len =? -1 then (0, zlen block) else (bpos, len) in
  let start := next_block c start in
  do r <- wb_loop fuel after c block bpos start len usep true blank;
  let '(c, nxt) := r in
  do c <- (if (nxt <? zlen (c_data c)) && negb (nxt =? c_free c) then free_block fuel after c nxt else Ok c);
  Ok (c, start).
(** write_block, V8Catalog.cpp:577-668: an empty container gets its first block before *)
Definition write_block (fuel : nat) (after : list Z) (c : cat) (block : list Z) (bpos start len : Z) (usep : bool) : res (cat * Z) :=
  do c <- (if (zlen (c_data c) =? 16) && negb (start =? 16) then do r <- wb_main fuel after c [] 0 16 (-1) true; Ok (fst r) else Ok c);
  wb_main fuel after c block bpos start len usep.

(** ** Recognising a container: V8Catalog::is_catalog, V8Catalog.cpp:86-151 *)
Definition template : list Z := [255; 255; 255; 127; 0; 2; 0; 0; 0; 0; 0; 0; 0; 0; 0; 0].
(** the seven bytes tested at 131, 143; a short read leaves unknown bytes [junk] *)
Definition marks_ok (h : list Z) : bool :=
  (nth 0 h 0 =? 13) && (nth 1 h 0 =? 10) && (nth 10 h 0 =? 32) && (nth 19 h 0 =? 32) && (nth 28 h 0 =? 32) && (nth 29 h 0 =? 13) && (nth 30 h 0 =? 10).
Definition is_catalog (junk data : list Z) : res bool :=
  if zlen data =? 16 then Ok (if list_eq_dec Z.eq_dec data template then true else false)
  else
    let e := if zlen data <? 4 then le_val (data ++ skipn (length data) [255; 255; 255; 255]) else le_val (firstn 4 data) in
    do ok <- (if e =? LAST then Ok true
              else if zlen data <=? u32 (e + 31) then Ok false
              else do h <- read_header data e junk; Ok (marks_ok h));
    if negb ok then Ok false
    else if zlen data <? 47 then Ok false
    else do h <- read_header data 16 junk; Ok (marks_ok h).

(** ** Headers of files *)
(** V8File::close, V8File.cpp:510-516 (the same in flush and write_and_close): the block written
    for the header; [name] = UTF-8 *)
Definition file_header (create modify : Z) (name : list Z) : res (list Z) :=
  do u <- ucs2_from_utf8 name;
  Ok (le_bytes 8 create ++ le_bytes 8 modify ++ le_bytes 4 0 ++ u ++ le_bytes 4 0).
(** V8Catalog::initialize, V8Catalog.cpp:331-341: the two times and the name; a header of less than
    20 bytes gives an inverted range *)
Definition read_file_header (b : list Z) : res (Z * Z * list Z) :=
  if zlen b <? 20 then UB
  else
    do name <- ucs2_to_utf8 (skipn 20 b);
    let t := le_val (firstn 8 b) in
    Ok (t, t + 8, name).
(** stElemAddr, APIcfBase.h:49-60, written at V8Catalog.cpp:691-698: addresses of header and data *)
Definition elem (header data : Z) : list Z := le_bytes 4 header ++ le_bytes 4 data ++ le_bytes 4 LAST.

(** ** Saving and opening a container *)
(** Flush and the destructor, V8Catalog.cpp:865-877, 705-717: the address of the first free page and
    the version [ver] are written over the beginning.  Simplified: both are written whenever the
    container has blocks (the code tests is_emptymodified, is_modified, which are set by every
    change of the two; an address that did not change has the same bytes) *)
Definition flush_marks (c : cat) (ver : Z) : list Z :=
  if zlen (c_data c) =? 16 then c_data c else over (over (c_data c) 0 (le_bytes 4 (c_free c))) 8 (le_bytes 4 ver).
(** initialize, V8Catalog.cpp:315-316: the header of the container *)
Definition open_cat (data : list Z) : cat := CT data (i32 (le_val (sub data 0 4))) (i32 (le_val (sub data 4 4))).
(** initialize, 320-352: the files named by a table of contents, in its order: name, creation time,
    modification time, address of the data *)
Fixpoint entries (k : nat) (fuel : nat) (after data fat : list Z) : res (list (list Z * Z * Z * Z)) :=
  match k with
  | O => Ok []
  | S k =>
      do b <- read_block fuel after data (i32 (le_val (firstn 4 fat)));
      do h <- read_file_header b;
      do r <- entries k fuel after data (skipn 12 fat);
      let '(t, m, name) := h in Ok ((name, t, m, i32 (le_val (sub fat 4 4))) :: r)
  end.
Definition open_files (fuel : nat) (after data : list Z) : res (list (list Z * Z * Z * Z)) :=
  if zlen data <=? 16 then Ok [] else do fat <- read_block fuel after data 16; entries (Z.to_nat (zlen fat / 12)) fuel after data fat.

(** ** Deleting by name: V8Catalog::delete_file, V8Catalog.cpp:385-398 *)
(** [same f] = EqualIC of the name of file f and the name given (C13); the file found is freed and
    then asked for its successor *)
Fixpoint delete_walk {F} (same : F -> bool) (files : list F) : res (list F) :=
  match files with [] => Ok [] | f :: r => if same f then UB else do t <- delete_walk same r; Ok (f :: t) end.

(** ** Compressed data: write_datablock, read_datablock, V8Catalog.cpp:514-556, 455-473 *)
(** the bytes given to write_block for the data [d] and made of the bytes [b] of read_block;
    [zipped] = of the container, [self] = of the file; [deflate], [inflate] = ZDeflateStream,
    ZInflateStream (see C43) *)
Definition stored_as (deflate : list Z -> list Z) (zipped self : bool) (d : list Z) : list Z := if zipped || self then deflate d else d.
Definition shown_as (inflate : list Z -> list Z) (zipped : bool) (b : list Z) : list Z := if zipped then inflate b else b.
