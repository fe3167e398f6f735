(** From the file of a database to the exported document of a table: opening the file, its list of tables and the
    tables, and the commands that export them.  This file puts the parts together that are modelled one by one
    elsewhere: header, list of tables and description (Descr), objects in pages (Obj), blobs (Blob), places of
    fields (Field), index trees (Leaf), the document (Xml).
    Sources: /repo/src/tool1cd/Class_1CD.cpp, Table.cpp, Field.cpp, FieldType.cpp, Index.cpp, /repo/src/ctool1cd/App.cpp. *)
From Verif Require Import Prelude Text_Model Tree_Model Field_Model Obj_Model Blob_Model Leaf_Model Rec_Model Descr_Model Xml_Model.
Import String.StringSyntax.

(** the file as pages; MemBlock reads page [i] at [i * ps], Class_1CD.cpp:75-86 and C16 *)
Definition pages_of_file (ps n : Z) (file : list Z) : store :=
  map (fun i => sub file (i * Z.to_nat ps) (Z.to_nat ps)) (seq 0 (Z.to_nat n)).
Definition is_838 (v : dbver) : bool := match v with V8380 => true | _ => false end.

(** ** A table *)
(** Table, Table.h: what init leaves behind *)
Record otab := OT { ot_decl : tdecl; ot_fields : list xfield; ot_reclen : Z; ot_phys : Z;
  ot_data : obj; ot_blob : option obj; ot_index : option obj; ot_starts : list Z }.

(** Field.cpp:458-459: || does not look at the second ending if the first is there *)
Definition can_be_guid (name : list Z) : res bool :=
  do a <- ends_with_ic name (bs "REF"); if a then Ok true else ends_with_ic name (bs "ID").
Fixpoint guid_marks (fs : list fdecl) : res (list bool) :=
  match fs with [] => Ok [] | f :: r => do g <- can_be_guid (fd_name f); do gs <- guid_marks r; Ok (g :: gs) end.
(** create_type_manager, FieldType.cpp:895-904 *)
Definition guid_type (f : fdecl) (g : bool) : bool := match fd_kind f with KBin => g && (fd_len f =? 16) | _ => false end.
Definition plain_field (f : fdecl) : field := FD (fd_kind f) (fd_null f) (fd_len f) 0.
(** names and types for the fields with their places; the hidden field is the last one, Table.cpp:295-301 *)
Fixpoint with_names (ds : list fdecl) (gs : list bool) (fs : list field) : list xfield :=
  match fs with
  | [] => []
  | f :: r =>
      match ds, gs with
      | d :: ds, g :: gs => XF (fd_name d) f (fd_prec d) (guid_type d g) :: with_names ds gs r
      | _, _ => XF (bs "VERSION") f 0 false :: with_names [] [] r
      end
  end.
(** 331-339: a number of zero means that there is no such file *)
Definition open_file (ps : Z) (v838 : bool) (st : store) (n : Z) : res (option obj) :=
  if n =? 0 then Ok None else do o <- obj_open ps v838 st n; Ok (Some o).
(** Index::get_length for every index, Table.cpp:455, Index.cpp:326-339: the values are read again when needed *)
Fixpoint index_heads (get : Z -> Z -> res (list Z)) (ss : list Z) : res unit :=
  match ss with [] => Ok tt | s :: r => if s =? 0 then index_heads get r else do _ <- get s 8; index_heads get r end.
(** Table::init, Table.cpp:140-461, behind the description; every error is an exception, so that their order does
    not matter *)
Definition open_table (ps : Z) (v838 : bool) (st : store) (d : tdecl) : res otab :=
  do gs <- guid_marks (td_fields d);
  let '(fs, reclen) := table_fields (map plain_field (td_fields d)) (td_lock d) in
  do dat <- open_file ps v838 st (td_data d);
  do blb <- open_file ps v838 st (td_blob d);
  do ix <- open_file ps v838 st (td_index d);
  do ss <- open_indexes v838 ps (option_map (fun o => (obj_len o, obj_get ps (st, o))) ix) (length (td_indexes d));
  do phys <- open_data (option_map obj_len dat) reclen;
  do _ <- (match ix with None => Ok tt | Some o => index_heads (obj_get ps (st, o)) ss end);
  match dat with
  | None => Throw
  | Some o => Ok (OT d (with_names (td_fields d) gs fs) reclen phys o blb ix ss)
  end.

(** ** The database *)
(** the text of the description: the constructors of Table, Table.cpp:464-504, and Class_1CD.cpp:377-390.  [junk] =
    the memory get_data() allocates.  No blob is longer than the bytes of the object, which bounds the loop *)
Definition descr_text (ps : Z) (v838 : bool) (st : store) (root : obj) (junk : list Z) (b : Z) : res (list Z) :=
  if v838 then read_blob_object (obj_get ps) obj_size (S (Z.to_nat (obj_len root))) (st, root) b (2 ^ 32 - 1)
  else do o <- obj_open ps v838 st (i32 b);
       do r <- get_all ps st o junk;
       match snd r with None => Ok [] | Some t => ucs2_to_utf8 t end.
Fixpoint open_tables (ps : Z) (v838 : bool) (st : store) (same : list Z -> list Z -> bool) (root : obj) (junk : list Z) (bl : list Z) : res (list otab) :=
  match bl with
  | [] => Ok []
  | b :: r =>
      do t <- descr_text ps v838 st root junk b;
      do d <- table_of_text same t;
      do o <- (match d with None => Ok [] | Some d => do t <- open_table ps v838 st d; Ok [t] end);
      do ts <- open_tables ps v838 st same root junk r;
      Ok (o ++ ts)
  end.
Record db := DBase { db_ps : Z; db_838 : bool; db_st : store; db_tables : list otab; db_what : dbkind }.
(** T_1CD::open, Class_1CD.cpp:250-476; [same] = EqualIC.  The first table of a name counts nowhere here *)
Definition open_db (same : list Z -> list Z -> bool) (hjunk junk file : list Z) (monopoly : bool) : res db :=
  do h <- open_header hjunk file monopoly;
  let ps := h_page h in
  let v838 := is_838 (h_ver h) in
  let st := pages_of_file ps (h_pages h) file in
  do _ <- obj_open ps v838 st 1;
  do root <- obj_open ps v838 st 2;
  do data <- (if v838 then read_blob_object (obj_get ps) obj_size (S (Z.to_nat (obj_len root))) (st, root) 1 (2 ^ 32 - 1)
              else do r <- get_all ps st root junk; match snd r with None => UB | Some d => Ok d end);
  do lt <- root_tables (old_ver (h_ver h)) data;
  do ts <- open_tables ps v838 st same root junk (snd lt);
  do k <- db_kind (fun n => existsb (fun t => same (td_name (ot_decl t)) n) ts);
  Ok (DBase ps v838 st ts k).

(** ** Export *)
(** Table::readBlob(stream, start, length, true), Table.cpp:729-798 *)
Definition table_blob (ps : Z) (st : store) (o : option obj) (start len : Z) : res (list Z) :=
  if (start =? 0) && negb (len =? 0) then Throw
  else match o with
  | None => Throw
  | Some o => do r <- read_blob_table (obj_get ps) obj_size (S (Z.to_nat (obj_len o))) (st, o) start len; Ok (fst r)
  end.
(** Table::get_record, Table.cpp:646-656 *)
Definition record_at (ps : Z) (st : store) (t : otab) (i : Z) : res (list Z) :=
  obj_get ps (st, ot_data t) (u32 (i * ot_reclen t)) (ot_reclen t).
(** fill_records_index, Table.cpp:2303-2321 *)
Fixpoint found (get : Z -> res (list Z)) (n : nat) (i : Z) : res (list Z) :=
  match n with
  | O => Ok []
  | S k => do rec <- get i; do r <- is_removed rec; do rest <- found get k (i + 1); Ok (if r then rest else i :: rest)
  end.
(** Index::get_numrecords and get_numrec, Index.cpp:70-83: only the first primary index is asked *)
Fixpoint views (walk : Z -> res (list Z)) (seen : bool) (fs : list xfield) (is : list idecl) (ss : list Z) : res (list xindex) :=
  match is, ss with
  | i :: is, s :: ss =>
      do rs <- (if id_primary i && negb seen then if s =? 0 then Ok [] else walk s else Ok []);
      do r <- views walk (seen || id_primary i) fs is ss;
      Ok (XI (id_primary i) (map (fun c => nth (fst c) fs (XF [] (FD KBin false 0 0) 0 false)) (id_cols i)) rs :: r)
  | _, _ => Ok []
  end.
Definition set_blob (e : xenv) (f : Z -> Z -> res (list Z)) : xenv := XE f (e_nl e) (e_g e) (e_same e) (e_junk e) (e_dir e) (e_can e).
(** export_to_xml on a table of the database; [fill] = whether fill_records_index was called before *)
Definition export_table (e : xenv) (b : db) (t : otab) (fill to_file : bool) : res (list Z * list (list (list Z) * list Z)) :=
  let ps := db_ps b in
  let st := db_st b in
  let get := record_at ps st t in
  do ns <- (if fill then found get (Z.to_nat (ot_phys t)) 0 else Ok []);
  do is <- views (fun s => match ot_index t with
                           | None => UB
                           | Some o => create_recordsindex (obj_get ps (st, o)) (S (Z.to_nat (obj_len o))) s ps (db_838 b) (obj_len (ot_data t) / ot_reclen t)
                           end) false (ot_fields t) (td_indexes (ot_decl t)) (ot_starts t);
  export_to_xml (set_blob e (table_blob ps st (ot_blob t))) (XT (td_name (ot_decl t)) (ot_fields t) is ns get) to_file.
(** App::export_to_xml for a table that was named, App.cpp:151-155 *)
Definition export_named (e : xenv) (b : db) (t : otab) (to_file : bool) := export_table e b t true to_file.
(** App::export_all_to_xml, App.cpp:80-92: records are looked for only in tables without any index *)
Definition export_one_of_all (e : xenv) (b : db) (t : otab) (to_file : bool) :=
  export_table e b t (match td_indexes (ot_decl t) with [] => true | _ => false end) to_file.
Fixpoint export_all (e : xenv) (b : db) (ts : list otab) (to_file : bool) : res (list (list Z * list Z)) :=
  match ts with
  | [] => Ok []
  | t :: r => do x <- export_one_of_all e b t to_file; do xs <- export_all e b r to_file; Ok ((td_name (ot_decl t), fst x) :: xs)
  end.
