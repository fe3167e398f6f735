(** Fields of a record: sizes, offsets, setters, index keys, conversion from and to text.
    Source: /repo/src/tool1cd/FieldType.cpp, Field.cpp, Table.cpp, TableRecord.cpp, Index.cpp. *)
From Verif Require Import Prelude.

(** type_fields, Constants.h; the deprecated aliases are left out *)
Inductive kind := KBin | KBool | KNum | KChar | KVarchar | KVersion | KString | KText | KImage | KDate | KVersion8 | KVarbin.
(** Field with its FieldType, Field.h:74-84, FieldType.cpp:88-102: kind, null_exists, length,
    offset.  Precision and case sensitivity play no part here. *)
Record field := FD { f_kind : kind; f_null : bool; f_len : Z; f_off : Z }.

(** CommonFieldType::get_size, FieldType.cpp:138-158; the cached [len] is this value once the
    table has been read (Table.cpp:426, 435 call get_size for every counted field); sizes
    beyond int32_t are left out *)
Definition type_size (k : kind) (length : Z) : Z :=
  match k with
  | KBin => length | KBool => 1 | KNum => Z.shiftr (length + 2) 1 | KChar => length * 2 | KVarchar => length * 2 + 2
  | KVersion => 16 | KString => 8 | KText => 8 | KImage => 8 | KDate => 7 | KVersion8 => 8 | KVarbin => length + 2
  end.
(** Field::get_size, Field.cpp:65-68 *)
Definition field_size (f : field) : Z := (if f_null f then 1 else 0) + type_size (f_kind f) (f_len f).

(** ** Offsets: Table::init, Table.cpp:418-438 *)
Definition is_version (k : kind) : bool := match k with KVersion | KVersion8 => true | _ => false end.
Definition set_off (f : field) (o : Z) : field := FD (f_kind f) (f_null f) (f_len f) o.
(** one of the two loops over the fields with index below num_fields ([n]): those with
    is_version = [w] get the next offset; also the record length so far *)
Fixpoint place (n : nat) (w : bool) (fs : list field) (reclen : Z) : list field * Z :=
  match n, fs with
  | S k, f :: r =>
      if Bool.eqb (is_version (f_kind f)) w
      then let '(r', l) := place k w r (reclen + field_size f) in (set_off f reclen :: r', l)
      else let '(r', l) := place k w r reclen in (f :: r', l)
  | _, _ => (fs, reclen)
  end.
Definition layout (n : nat) (fs : list field) : list field * Z :=
  let '(fs, l) := place n true fs 1 in
  let '(fs, l) := place n false fs l in
  (fs, if l <? 5 then 5 else l).
(** the fields of a table: num_fields is the number of declared fields (Table.cpp:198); with
    record locks and no declared version a field VERSION is appended without changing
    num_fields (Table.cpp:295-301).  [decl]: as declared, offsets 0 (Field.h:79) *)
Definition table_fields (decl : list field) (recordlock : bool) : list field * Z :=
  let has_version := existsb (fun f => match f_kind f with KVersion => true | _ => false end) decl in
  let fs := if recordlock && negb has_version then decl ++ [FD KVersion8 false 0 0] else decl in
  layout (length decl) fs.

(** ** Records: TableRecord.cpp *)
(** is_null_value, 82-88 *)
Definition is_null (f : field) (rec : list Z) : res bool :=
  if f_null f then do b <- rd rec (f_off f); Ok (b =? 0) else Ok false.
(** get_data, 111-114, as the bytes of the value *)
Definition get_value (f : field) (rec : list Z) : res (list Z) :=
  rdn rec (f_off f + (if f_null f then 1 else 0)) (type_size (f_kind f) (f_len f)).
(** set_null, 142-148 *)
Definition set_null (f : field) (rec : list Z) : res (list Z) :=
  if f_null f then wrn rec (f_off f) [0] else Throw.
(** set_data, 150-158: get_size() bytes are copied from [d] to behind the mark *)
Definition set_data (f : field) (d : list Z) (rec : list Z) : res (list Z) :=
  if f_null f then
    do rec <- wrn rec (f_off f) [1]; do b <- rdn d 0 (field_size f); wrn rec (f_off f + 1) b
  else do b <- rdn d 0 (field_size f); wrn rec (f_off f) b.
(** Assign, 127-140: same table and size; all bytes, from the last one *)
Fixpoint assign_loop (n : nat) (src dst : list Z) : res (list Z) :=
  match n with
  | O => Ok dst
  | S k => do b <- rd src (Z.of_nat k); do dst <- wrn dst (Z.of_nat k) [b]; assign_loop k src dst
  end.
Definition assign (src dst : list Z) (same_table : bool) : res (list Z) :=
  if negb (zlen src =? zlen dst) || negb same_table then Throw else assign_loop (length dst) src dst.

(** ** Index keys *)
(** the digits of a negative number, FieldType.cpp:493-527; [i] counts down from the declared
    length; unsigned char arithmetic *)
Fixpoint comp_loop (i : nat) (nb : list Z) (k : bool) : res (list Z * bool) :=
  match i with
  | O => Ok (nb, k)
  | S i' =>
      let j := Z.of_nat (Nat.div2 i) in
      do b <- rd nb j;
      let c := if Nat.odd i then Z.land b 15 else Z.land (Z.shiftr b 4) 15 in
      let '(c, k) := if k then ((9 - c) mod 256, true) else if c =? 0 then (c, false) else ((10 - c) mod 256, true) in
      do nb <- wrn nb j [if Nat.odd i then Z.lor (Z.land b 240) c else Z.lor (Z.land b 15) (Z.shiftl c 4) mod 256];
      comp_loop i' nb k
  end.
(** NumericFieldType::get_sort_key, FieldType.cpp:471-536 *)
Definition num_key (length : Z) (bs : list Z) : res (list Z) :=
  do b0 <- rd bs 0;
  if Z.land b0 240 =? 0 then
    do r <- comp_loop (Z.to_nat length) bs false;
    if snd r then Ok (fst r) else wrn (fst r) 0 [16]
  else Ok bs.
(** get_sort_key of the field types, FieldType.cpp:418-444 (binary), 471-536, 591-612 (date),
    774-808 (logical; text and the rest are refused): the bytes stored at SortKey, their number
    is returned.  nbuf has 64 bytes. *)
Definition type_key (k : kind) (length : Z) (rec : list Z) (fr maxlen : Z) : res (list Z) :=
  let len := type_size k length in
  if maxlen =? 0 then Throw
  else match k with
  | KBin | KDate | KBool => if maxlen <? len then Throw else rdn rec fr len
  | KNum => if 64 <? len then UB else do bs <- rdn rec fr len; do key <- num_key length bs; if maxlen <? len then Throw else Ok key
  | _ => Throw
  end.
(** Field::null_index, Field.cpp:35, 42-47 *)
Definition null_index (n : Z) : list Z := firstn (Z.to_nat n) (1 :: repeat 0 (Z.to_nat 4095)).
(** Field::get_sort_key, Field.cpp:169-193: [base] = where the pointer [rec] points to in the
    record, SortKey = position [pos] of [buf]; the new buffer and the returned number.
    Exceptions are shown and 0 is returned. *)
Definition field_key (f : field) (rec : list Z) (base : Z) (buf : list Z) (pos maxlen : Z) : res (list Z * Z) :=
  let fr := base + f_off f in
  let value fr buf pos :=
    match type_key (f_kind f) (f_len f) rec fr maxlen with
    | Ok key => do buf <- wrn buf pos key; Ok (buf, zlen key)
    | Throw => Ok (buf, 0)
    | UB => UB | Hang => Hang
    end in
  if f_null f then
    do m <- rd rec fr;
    if m =? 0 then
      do buf <- wrn buf pos [0];
      if 4096 <? field_size f then UB
      else do buf <- wrn buf (pos + 1) (null_index (field_size f)); Ok (buf, 0)
    else do buf <- wrn buf pos [1]; value (fr + 1) buf (pos + 1)
  else value fr buf pos.
(** Index::calcRecordIndex, Index.cpp:610-622: [buf] = indexBuf of [length] bytes; get_raw
    (TableRecord.cpp:100-103) already points to the field; index_buf_size is int32_t *)
Fixpoint calc_fields (fs : list field) (rec buf : list Z) (pos size : Z) : res (list Z * Z * Z) :=
  match fs with
  | [] => Ok (buf, pos, size)
  | f :: r => do k <- field_key f rec (f_off f) buf pos size; calc_fields r rec (fst k) (pos + snd k) (size - snd k)
  end.
Definition calc_record_index (fs : list field) (rec buf : list Z) : res (list Z) :=
  do r <- calc_fields fs rec buf 0 (zlen buf);
  let '(buf, pos, size) := r in
  if 0 <? size then wrn buf pos (repeat 0 (Z.to_nat size)) else Ok buf.

(** ** Text to value *)
(** from_hex_digit, Common.cpp:164-170 *)
Definition hex_digit (c : Z) : Z :=
  if (48 <=? c) && (c <=? 57) then c - 48 else if (97 <=? c) && (c <=? 102) then c - 87 else if (65 <=? c) && (c <=? 70) then c - 55 else 0.
(** value[j] of a std::string: the terminating 0 may be read *)
Definition ch (t : list Z) (j : Z) : res Z := if j =? zlen t then Ok 0 else rd t j.
(** for(ind = 0; ind < length; ind++) fr[ind] = (digit << 4) + digit, FieldType.cpp:346-348, the
    two j++ taken from left to right *)
Fixpoint hex_loop (n : nat) (t : list Z) (j : Z) : res (list Z) :=
  match n with
  | O => Ok []
  | S k => do a <- ch t j; do b <- ch t (j + 1); do r <- hex_loop k t (j + 2); Ok (Z.land (Z.shiftl (hex_digit a) 4 + hex_digit b) 255 :: r)
  end.
(** BinaryFieldType::get_binary_value for a binary field that is not shown as GUID,
    FieldType.cpp:306-359 *)
Definition bin_of_text (length : Z) (t : list Z) : res (list Z) :=
  if (zlen t =? 0) || (zlen t <? length * 2) then Ok (repeat 0 (Z.to_nat length)) else hex_loop (Z.to_nat length) t 1.
(** Convert::from_binary, FieldType.cpp:40-61: the string has (length + 1) * 2 characters *)
Definition hex_char (d : Z) : Z := if 9 <? d then 48 + d + 39 else 48 + d.
Definition text_of_bin (bs : list Z) : list Z :=
  flat_map (fun b => [hex_char (Z.shiftr b 4); hex_char (Z.land b 15)]) bs ++ [0; 0].
(** Convert::from_varbinary, FieldType.cpp:63-85: the count is a signed 16-bit number *)
Fixpoint varbin_loop (n : nat) (i : Z) (fr : list Z) (out : list Z) : res (list Z) :=
  match n with
  | O => Ok out
  | S k => do b <- rd fr (i + 2);
           do out <- wrn out (2 * i) [hex_char (Z.shiftr b 4)]; do out <- wrn out (2 * i + 1) [hex_char (Z.land b 15)];
           varbin_loop k (i + 1) fr out
  end.
Definition text_of_varbin (length : Z) (fr : list Z) : res (list Z) :=
  do c <- rdn fr 0 2;
  let m := i16 (le_val c) in
  do out <- varbin_loop (Z.to_nat m) 0 fr (repeat 0 (Z.to_nat ((length + 1) * 2)));
  wrn out (2 * m) [0].

(** CommonFieldType::get_binary_value, FieldType.cpp:615-669, for logical and text fields: the
    bytes of [t] are the UTF-8 text; c_str() gives them and a 0.  WCHART is 16 bits. *)
Definition blanks (n : Z) : list Z := concat (repeat [32; 0] (Z.to_nat n)).
Definition char_of_text (length : Z) (t : list Z) : res (list Z) :=
  let i := Z.min (zlen t) length in
  do d <- rdn (t ++ [0]) 0 (2 * i); Ok (d ++ blanks (length - i)).
Definition varchar_of_text (length : Z) (t : list Z) : res (list Z) :=
  let i := Z.min (zlen t) length in
  do d <- rdn (t ++ [0]) 0 (2 * i); Ok (le_bytes 2 i ++ d ++ blanks (length - i)).
Definition bool_of_text (t : list Z) : list Z := if list_eq_dec Z.eq_dec t [116; 114; 117; 101] then [1] else [0].
(** CommonFieldType::get_presentation, FieldType.cpp:671-716: the UTF-16 bytes of a text field
    (converted to UTF-8 afterwards) read from [rec] at [fr] *)
Definition text_of_bool (b : Z) : list Z := if b =? 0 then [102; 97; 108; 115; 101] else [116; 114; 117; 101].
Definition char_bytes (length : Z) (rec : list Z) (fr : Z) : res (list Z) := rdn rec fr (length * 2).
Definition varchar_bytes (length : Z) (rec : list Z) (fr : Z) : res (list Z) :=
  do c <- rdn rec fr 2;
  let full := u64 (i16 (le_val c) * 2) in
  let size := type_size KVarchar length in
  rdn rec (fr + 2) (if size <? full then size else full).
