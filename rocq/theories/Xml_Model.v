(** Export of a table as XML.
    Sources: /repo/src/tool1cd/Table.cpp, FieldType.cpp, Field.cpp, TableRecord.cpp, Common.cpp. *)
From Coq Require String Ascii.
From Verif Require Import Prelude Bcd_Model Codec_Model Text_Model Field_Model Rec_Model.
Import String.StringSyntax.
Delimit Scope string_scope with string.

(** text of string literals *)
Definition lit (s : String.string) : list Z := map (fun a => Z.of_nat (Ascii.nat_of_ascii a)) (String.list_ascii_of_string s).
Arguments lit _%string_scope.
(** "\r\n" *)
Definition eol : list Z := [13; 10].

(** std::to_string of an int32_t: at most ten digits *)
Fixpoint udec (k : nat) (v : Z) : list Z :=
  match k with
  | O => []
  | S k => if v <? 10 then [48 + v] else udec k (v / 10) ++ [48 + v mod 10]
  end.
Definition to_str (v : Z) : list Z := if v <? 0 then 45 :: udec 10 (- v) else udec 10 v.
(** s02, FieldType.cpp:562-569 *)
Definition s02 (s : list Z) : list Z := if zlen s <? 2 then 48 :: s else s.

(** ** Values *)
(** Field with its name, precision and whether its type is GuidFieldType: a binary field of 16 bytes
    whose name ends with REF or ID, Field.cpp:458-463, FieldType.cpp:895-904 *)
Record xfield := XF { x_name : list Z; x_f : field; x_prec : Z; x_ref : bool }.
(** FieldType::showGUID and showGUIDasMS *)
Record gset := GS { g_show : bool; g_ms : bool }.
Definition after (rec : list Z) (p : Z) : list Z := skipn (Z.to_nat p) rec.
(** address of the value: Field::get_presentation and get_XML_presentation, Field.cpp:72-86, 104-114, skip the mark
    of a nullable field *)
Definition vpos (f : field) : Z := f_off f + (if f_null f then 1 else 0).

(** BinaryDecimalDate::get_year .. get_second, BinaryDecimalNumber.cpp:253-284; DatetimeFieldType::get_XML_presentation,
    FieldType.cpp:571-589 *)
Definition two (n : bdn) (i : nat) : Z := nth i (b_data n) 0 * 10 + nth (S i) (b_data n) 0.
Definition date_xml (n : bdn) : list Z :=
  to_str (nth 0 (b_data n) 0 * 1000 + nth 1 (b_data n) 0 * 100 + nth 2 (b_data n) 0 * 10 + nth 3 (b_data n) 0) ++ [45] ++
  s02 (to_str (two n 4)) ++ [45] ++ s02 (to_str (two n 6)) ++ [84] ++
  s02 (to_str (two n 8)) ++ [58] ++ s02 (to_str (two n 10)) ++ [58] ++ s02 (to_str (two n 12)).
(** the numbers of tf_version and tf_version8, FieldType.cpp:695-705 *)
Definition int_at (v : list Z) (i : nat) : Z := i32 (le_val (sub v i 4)).
Definition version_text (n : nat) (v : list Z) : list Z :=
  match n with
  | O => []
  | S k => to_str (int_at v 0) ++ flat_map (fun i => 58 :: to_str (int_at v (4 * i))) (seq 1 k)
  end.
(** get_presentation without details, FieldType.cpp:361-389, 460-464, 557-560, 671-717, 809-814 *)
Definition show (g : gset) (f : xfield) (rec : list Z) : res (list Z) :=
  let fd := x_f f in
  let p := vpos fd in
  match f_kind fd with
  | KBin =>
      do v <- rdn rec p (f_len fd);
      if x_ref f then guid_as_1C v
      else if (f_len fd =? 16) && g_show g then (if g_ms g then guid_as_MS v else guid_as_1C v)
      else Ok (text_of_bin v)
  | KVarbin => text_of_varbin (f_len fd) (after rec p)
  | KNum => numeric_show (after rec p) (f_len fd) (x_prec f)
  | KDate => do n <- date_of_raw (after rec p); Ok (date_show n)
  | KBool => do b <- rd rec p; Ok (text_of_bool b)
  | KChar => do b <- char_bytes (f_len fd) rec p; ucs2_to_utf8 b
  | KVarchar => do b <- varchar_bytes (f_len fd) rec p; ucs2_to_utf8 b
  | KVersion => do v <- rdn rec p 16; Ok (version_text 4 v)
  | KVersion8 => do v <- rdn rec p 8; Ok (version_text 2 v)
  | KString => Ok (lit "{MEMO}")
  | KText => Ok (lit "{TEXT}")
  | KImage => Ok (lit "{IMAGE}")
  end.
(** start and length of a blob: table_blob_file *)
Definition blob_ref (rec : list Z) (p : Z) : res (Z * Z) :=
  do v <- rdn rec p 8; Ok (le_val (sub v 0 4), le_val (sub v 4 4)).
(** get_XML_presentation, FieldType.cpp:391-416, 466-469, 571-589, 720-775, 817-820.  [blob] = Table::readBlob into
    an empty stream.  The line break of base64_encode is the first four bytes of L"\r\n": [nl] are its
    characters, [13; 10] where wchar_t has two bytes and [13; 0] where it has four; all characters of the
    text are below 128, so that its UTF-16 and UTF-8 forms are the list of its characters *)
Definition xml_value (blob : Z -> Z -> res (list Z)) (nl : list Z) (g : gset) (f : xfield) (rec : list Z) : res (list Z) :=
  let fd := x_f f in
  let p := vpos fd in
  match f_kind fd with
  | KBin | KVarbin | KNum | KBool => show g f rec
  | KDate => do n <- date_of_raw (after rec p); Ok (date_xml n)
  | KChar | KVarchar | KVersion | KVersion8 => do t <- show g f rec; to_xml t
  | KString => do b <- blob_ref rec p; do d <- blob (fst b) (snd b); do t <- ucs2_to_utf8 d; to_xml t
  | KText => do b <- blob_ref rec p; do d <- blob (fst b) (snd b); to_xml d
  | KImage => do b <- blob_ref rec p; do d <- blob (fst b) (snd b); Ok (base64_encode nl 72 d)
  end.
(** get_presentation_type, FieldType.cpp:118-136 *)
Definition type_name (k : kind) : list Z :=
  match k with
  | KBin => lit "binary" | KBool => lit "bool" | KNum => lit "number" | KChar => lit "fixed string"
  | KVarchar => lit "string" | KVersion => lit "version" | KString => lit "memo" | KText => lit "text"
  | KImage => lit "image" | KDate => lit "datetime" | KVersion8 => lit "hidden version" | KVarbin => lit "var binary"
  end.
Definition is_image (f : xfield) : bool := match f_kind (x_f f) with KImage => true | _ => false end.

(** ** The table *)
(** Index: is_primary, its fields, the numbers of its records in order *)
Record xindex := XI { i_primary : bool; i_fields : list xfield; i_recs : list Z }.
(** [t_found] = recordsindex up to numrecords_found; [t_get] = get_record *)
Record xtable := XT { t_name : list Z; t_fields : list xfield; t_indexes : list xindex; t_found : list Z;
  t_get : Z -> res (list Z) }.
(** 914-917, 943-944: all records of the first primary index, or the records found *)
Definition numbers (t : xtable) : list Z :=
  match find i_primary (t_indexes t) with Some i => i_recs i | None => t_found t end.
(** get_file_name_for_record, 2362-2394; a NULL throws in TableRecord::get_string, TableRecord.cpp:69-75 *)
Fixpoint join_keys (g : gset) (ks : list xfield) (rec s : list Z) : res (list Z) :=
  match ks with
  | [] => Ok s
  | k :: r =>
      do z <- is_null (x_f k) rec;
      if z then Throw
      else do v <- show g k rec; join_keys g r rec ((match s with [] => s | _ => s ++ [95] end) ++ v)
  end.
Definition file_name (g : gset) (t : xtable) (rec : list Z) : res (list Z) :=
  match t_indexes t with
  | [] => Ok []
  | i0 :: _ => join_keys g (i_fields (match find i_primary (t_indexes t) with Some i => i | None => i0 end)) rec []
  end.

(** ** export_to_xml, Table.cpp:876-1044 *)
(** what surrounds the export: readBlob; the line break of base64; the settings; EqualIC; the junk in the
    uninitialised image_count (920); whether the directory exists or can be created (directory_exists, called again
    for each value while it fails; taken to answer the same each time); which paths below the directory can be
    created as files.  With unpack, save_blob_to_file (Field.cpp:216-436) inflates the value: not modelled, unpack
    is false here *)
Record xenv := XE { e_blob : Z -> Z -> res (list Z); e_nl : list Z; e_g : gset; e_same : list Z -> list Z -> bool;
  e_junk : Z; e_dir : bool; e_can : list (list Z) -> bool }.
(** recname, repeat_count, the components of dir behind the directory, the files written with their bytes *)
Record xst := XS { s_name : list Z; s_rep : Z; s_path : list (list Z); s_files : list (list (list Z) * list Z) }.

(** 922-938 *)
Definition field_head (f : xfield) : list Z :=
  [9; 9] ++ lit "<Field Name=""" ++ x_name f ++ lit """ Type=""" ++ type_name (f_kind (x_f f)) ++
  lit """ Length=""" ++ to_str (f_len (x_f f)) ++ lit """ Precision=""" ++ to_str (x_prec f) ++
  lit """ NotNull=""" ++ (if f_null (x_f f) then lit "false" else lit "true") ++ lit """/>" ++ eol.
Definition images (e : xenv) (t : xtable) : Z := e_junk e + zlen (filter is_image (t_fields t)).
(** 1003-1013: the name of the file of a value; [outputvalue += repeat_count + 1] appends one char *)
Definition blob_name (e : xenv) (t : xtable) (s : xst) (f : xfield) : list Z :=
  let v := s_name s in
  let v := if 1 <? images e t then (match v with [] => v | _ => v ++ [95] end) ++ x_name f else v in
  if s_rep s =? 0 then v else v ++ [95] ++ [(s_rep s + 1) mod 256].
(** boost path::operator/= of a name; an empty one adds nothing *)
Definition append (p : list (list Z)) (n : list Z) : list (list Z) := match n with [] => p | _ => p ++ [n] end.
(** Field::save_blob_to_file, Field.cpp:216-238, without unpack.  TFileStream on a path that cannot be created is
    a failed stream: Write (TStream.cpp:209-226) looks at bad() only, so that nothing is written and nothing is
    reported *)
Definition save_blob (e : xenv) (f : xfield) (rec : list Z) (s : xst) : res (bool * xst) :=
  do z <- is_null (x_f f) rec;
  if z then Ok (false, s)
  else
    do b <- blob_ref rec (vpos (x_f f));
    if (fst b =? 0) || (snd b =? 0) then Ok (false, s)
    else
      do d <- e_blob e (fst b) (snd b);
      Ok (true, XS (s_name s) (s_rep s) (s_path s)
        (if e_can e (s_path s) then s_files s ++ [(s_path s, d)] else s_files s)).
(** 969-1032: the text of one value; [None] = NULL *)
Definition cell (e : xenv) (t : xtable) (to_file : bool) (f : xfield) (rec : list Z) (s : xst) : res (option (list Z) * xst) :=
  if to_file && is_image f then
    if e_dir e then
      let v := blob_name e t s f in
      do q <- save_blob e f rec (XS (s_name s) (s_rep s) (append (s_path s) v) (s_files s));
      Ok (if fst q then Some v else None, snd q)
    else Ok (Some (lit "{ERROR}"), s)
  else
    do z <- is_null (x_f f) rec;
    if z then Ok (None, s)
    else do v <- xml_value (e_blob e) (e_nl e) (e_g e) f rec; Ok (Some v, s).
Definition cell_text (f : xfield) (v : option (list Z)) : list Z :=
  [9; 9; 9; 60] ++ x_name f ++
  (match v with None => [47; 62] | Some v => [62] ++ v ++ [60; 47] ++ x_name f ++ [62] end) ++ eol.
Fixpoint cells (e : xenv) (t : xtable) (to_file : bool) (fs : list xfield) (rec : list Z) (s : xst) : res (list Z * xst) :=
  match fs with
  | [] => Ok ([], s)
  | f :: r =>
      do q <- cell e t to_file f rec s; let (v, s) := q in
      do q <- cells e t to_file r rec s; let (o, s) := q in
      Ok (cell_text f v ++ o, s)
  end.
(** 953-1037 *)
Fixpoint rows (e : xenv) (t : xtable) (to_file : bool) (ns : list Z) (s : xst) : res (list Z * xst) :=
  match ns with
  | [] => Ok ([], s)
  | n :: r =>
      do rec <- t_get t n;
      do s <- (if images e t =? 0 then Ok s
               else do fn <- file_name (e_g e) t rec;
                    Ok (if e_same e fn (s_name s) then XS (s_name s) (s_rep s + 1) (s_path s) (s_files s)
                        else XS fn 0 (s_path s) (s_files s)));
      do q <- cells e t to_file (t_fields t) rec s; let (o, s) := q in
      do q <- rows e t to_file r s; let (o', s) := q in
      Ok ([9; 9] ++ lit "<Record>" ++ eol ++ o ++ [9; 9] ++ lit "</Record>" ++ eol ++ o', s)
  end.
(** the bytes of the comment are the UTF-8 text of the source file: "Файл сформирован программой Tool_1CD" *)
Definition comment_text : list Z := lit "Файл сформирован программой Tool_1CD".
Definition export_to_xml (e : xenv) (t : xtable) (to_file : bool) : res (list Z * list (list (list Z) * list Z)) :=
  do q <- rows e t to_file (numbers t) (XS [] 0 [] []); let (o, s) := q in
  Ok ([239; 187; 191] ++ lit "<?xml version=""1.0"" encoding=""UTF-8""?>" ++ eol ++
      lit "<!--" ++ comment_text ++ lit "-->" ++ eol ++ lit "<Table Name=""" ++ t_name t ++ lit """>" ++ eol ++
      [9] ++ lit "<Fields>" ++ eol ++ flat_map field_head (t_fields t) ++ [9] ++ lit "</Fields>" ++ eol ++
      [9] ++ lit "<Records>" ++ eol ++ o ++ [9] ++ lit "</Records>" ++ eol ++ lit "</Table>" ++ eol, s_files s).
