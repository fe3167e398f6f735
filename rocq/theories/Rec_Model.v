(** Scanning a table, pending edits, writing and deleting records.
    Source: /repo/src/tool1cd/TableIterator.cpp, Table.cpp, TableRecord.cpp, TableRecord.h. *)
From Verif Require Import Prelude Field_Model.

(** ** Reading records *)
(** Table::get_record, Table.cpp:639-656: uint32_t times int32_t, 32 bits.  [content] = the bytes
    of the file of records (read as in C20). *)
Definition get_record (content : list Z) (reclen i : Z) : res (list Z) := rdn content (u32 (i * reclen)) reclen.
(** TableRecord::is_removed, TableRecord.cpp:95-98 *)
Definition is_removed (rec : list Z) : res bool := do b <- rd rec 0; Ok (negb (b =? 0)).

(** TableIterator, TableIterator.h:30-50: phys_record_num, _eof, the buffer *)
Record iter := It { it_num : Z; it_eof : bool; it_buf : list Z }.
(** find_first_not_removed, TableIterator.cpp:32-50 *)
Fixpoint find_first (fuel : nat) (content : list Z) (reclen phys : Z) (it : iter) : res iter :=
  match fuel with
  | O => Hang
  | S k =>
      if phys <=? it_num it then Ok (It (it_num it) true (it_buf it))
      else if it_eof it then Ok it
      else do buf <- get_record content reclen (it_num it);
           do r <- is_removed buf;
           if r then find_first k content reclen phys (It (u32 (it_num it + 1)) false buf)
           else Ok (It (it_num it) false buf)
  end.
(** the constructor, 25-30, with a buffer of unknown bytes; next, 67-72 *)
Definition it_start (fuel : nat) (content : list Z) (reclen phys : Z) (junk : list Z) : res iter :=
  find_first fuel content reclen phys (It 0 false junk).
Definition it_next (fuel : nat) (content : list Z) (reclen phys : Z) (it : iter) : res iter :=
  find_first fuel content reclen phys (It (u32 (it_num it + 1)) (it_eof it) (it_buf it)).
Fixpoint it_run (n : nat) (fuel : nat) (content : list Z) (reclen phys : Z) (it : iter) : res iter :=
  match n with O => Ok it | S m => do it <- it_next fuel content reclen phys it; it_run m fuel content reclen phys it end.

(** IndexedTableIterator::find_first_not_removed, TableIterator.cpp:81-106; [idx] = the numbers
    given by Index::get_numrec (C32), get_numrecords of them *)
Fixpoint ix_find (fuel : nat) (idx : list Z) (content : list Z) (reclen phys : Z) (it : iter) : res iter :=
  match fuel with
  | O => Hang
  | S k =>
      if zlen idx <=? it_num it then Ok (It (it_num it) true (it_buf it))
      else do p <- rd idx (it_num it);
           if phys <=? p then Ok (It (it_num it) true (it_buf it))
           else if it_eof it then Ok it
           else do buf <- get_record content reclen p;
                do r <- is_removed buf;
                if r then ix_find k idx content reclen phys (It (u32 (it_num it + 1)) false buf)
                else Ok (It (it_num it) false buf)
  end.
Definition ix_start (fuel : nat) (idx content : list Z) (reclen phys : Z) (junk : list Z) : res iter :=
  ix_find fuel idx content reclen phys (It 0 false junk).
Definition ix_next (fuel : nat) (idx content : list Z) (reclen phys : Z) (it : iter) : res iter :=
  ix_find fuel idx content reclen phys (It (u32 (it_num it + 1)) (it_eof it) (it_buf it)).
Fixpoint ix_run (n : nat) (fuel : nat) (idx content : list Z) (reclen phys : Z) (it : iter) : res iter :=
  match n with O => Ok it | S m => do it <- ix_next fuel idx content reclen phys it; ix_run m fuel idx content reclen phys it end.

(** Table::fill_records_index, Table.cpp:2303-2321: [n] = records left, [i] the next *)
Fixpoint fill_index (n : nat) (i : Z) (content : list Z) (reclen : Z) : res (list Z) :=
  match n with
  | O => Ok []
  | S k => do rec <- get_record content reclen i;
           do r <- is_removed rec;
           do rest <- fill_index k (i + 1) content reclen;
           Ok (if r then rest else i :: rest)
  end.

(** ** Pending edits: Table.cpp *)
Inductive crt := NotChanged | Changed | Inserted | Deleted.
(** changed_rec, Table.h:56-81, without the marks of changed fields (they only matter for
    stored records); the list ch_rec, newest first (Table.cpp:42-61) *)
Record pend := PD { p_num : Z; p_typ : crt; p_rec : list Z }.
(** added_numrecords and ch_rec *)
Record edits := ED { e_added : Z; e_ch : list pend }.
Fixpoint find_pend (n : Z) (ch : list pend) : option pend :=
  match ch with [] => None | c :: r => if p_num c =? n then Some c else find_pend n r end.
Fixpoint remove_pend (n : Z) (ch : list pend) : list pend :=
  match ch with [] => [] | c :: r => if p_num c =? n then r else c :: remove_pend n r end.
(** get_rec_type, 1065-1078, in edit mode *)
Definition get_rec_type (n : Z) (e : edits) : crt := match find_pend n (e_ch e) with Some c => p_typ c | None => NotChanged end.
(** set_rec_type, 1476-1569: numbers below [phys] are stored records.  A stored record that has
    an entry already is marked again; that its buffers were freed plays no part as these entries
    have none here (a changed stored record does not exist, see [set_edit_value]). *)
Definition set_rec_type (phys reclen n : Z) (t : crt) (e : edits) : res edits :=
  let cr := find_pend n (e_ch e) in
  if n <? phys then
    match t with
    | Changed | Inserted => Throw
    | Deleted =>
        match cr with
        | Some _ => Ok (ED (e_added e) (map (fun c => if p_num c =? n then PD n Deleted (p_rec c) else c) (e_ch e)))
        | None => Ok (ED (e_added e) (PD n Deleted [] :: e_ch e))
        end
    | NotChanged => Ok (ED (e_added e) (remove_pend n (e_ch e)))
    end
  else
    match t with
    | Changed | NotChanged => Throw
    | Inserted =>
        match cr with
        | Some _ => Ok (ED (e_added e) (map (fun c => if p_num c =? n then PD n Inserted (p_rec c) else c) (e_ch e)))
        | None => if phys + e_added e <? n then Throw
                  else Ok (ED (e_added e + 1) (PD n Inserted (repeat 0 (Z.to_nat reclen)) :: e_ch e))
        end
    | Deleted =>
        let '(a, ch) := match cr with Some _ => (e_added e - 1, remove_pend n (e_ch e)) | None => (e_added e, e_ch e) end in
        Ok (ED a (map (fun c => if n <? p_num c then PD (p_num c - 1) (p_typ c) (p_rec c) else c) ch))
    end.
(** set_edit_value, 1326-1423, for a field that is neither a version nor kept in the blob file:
    [v] = the new bytes of the field at [off], [raw] = the bytes stored for a stored record.
    Undefined steps: memcpy from the TableRecord object and delete[] of a single object for a
    changed stored record (1381, 1421), fields of a record marked as deleted (1387, null), memcpy
    from a null pointer for the number just behind the stored records (1379-1381). *)
Definition set_edit_value (phys reclen n off : Z) (v raw : list Z) (e : edits) : res edits :=
  let cr := find_pend n (e_ch e) in
  if n <? phys then
    match cr with
    | Some _ => UB
    | None => if list_eq_dec Z.eq_dec v raw then Ok e else UB
    end
  else
    let put ch := fold_right (fun c r => do r <- r; if p_num c =? n then do d <- wrn (p_rec c) off v; Ok (PD n (p_typ c) d :: r) else Ok (c :: r)) (Ok []) ch in
    match cr with
    | Some _ => do ch <- put (e_ch e); Ok (ED (e_added e) ch)
    | None => if n =? phys then UB
              else do ch <- put (PD n Inserted (repeat 0 (Z.to_nat reclen)) :: e_ch e); Ok (ED (e_added e) ch)
    end.
(** get_phys_numrec, 1589-1628, in edit mode without an index: [log] = log_numrecords,
    [rows] = recordsindex; uint32_t *)
Definition get_phys_numrec (phys log : Z) (rows : list Z) (row : Z) (e : edits) : res Z :=
  if row =? 0 then Throw
  else if u32 (log + e_added e) <? u32 row then Throw
  else if log <? u32 row then Ok (u32 (row - 1 - log + phys))
  else rd rows (row - 1).
(** cancel_edit, 1943-1957 *)
Definition cancel_edit (e : edits) : edits := ED 0 [].
(** the record shown for a number, get_edit_record, 1572-1587 *)
Definition get_edit_record (content : list Z) (reclen n : Z) (e : edits) : res (list Z) :=
  match find_pend n (e_ch e) with
  | Some c => match p_typ c with Deleted => get_record content reclen n | _ => Ok (p_rec c) end
  | None => get_record content reclen n
  end.

(** ** Writing records *)
(** a TableRecord in memory, TableRecord.h:130-132: the address of the buffer, of the table, the
    size, four unused bytes; and the bytes in the buffer *)
Record trec := TR { t_ptr : Z; t_table : Z; t_size : Z; t_pad : list Z; t_data : list Z }.
Definition object_bytes (r : trec) : list Z := le_bytes 8 (t_ptr r) ++ le_bytes 8 (t_table r) ++ le_bytes 4 (t_size r) ++ t_pad r.
(** V8Object::set_data(buf, start, length) on the bytes of the file (C21, C23): the file grows
    with zeros if needed *)
Definition put (content : list Z) (pos : Z) (d : list Z) : list Z :=
  let n := Z.to_nat pos in firstn n (content ++ repeat 0 (n - length content)) ++ d ++ skipn (n + length d) content.
(** write_data_record, Table.cpp:1782-1819, with a file of records: the object itself is handed
    to set_data(const void *, ...) (1818) *)
Definition write_data_record (content : list Z) (reclen phys n : Z) (r : list Z) : res (list Z) :=
  if (phys <? n) && negb ((n =? 1) && (phys =? 0)) then Throw
  else if n =? 0 then Throw
  else
    let content := if phys =? 0 then put content 0 (1 :: repeat 0 (Z.to_nat (reclen - 1))) else content in
    do d <- rdn r 0 reclen;
    Ok (put content (u32 (n * reclen)) d).
(** delete_data_record, Table.cpp:1666-1718: the new content and number of records *)
Definition delete_data_record (content : list Z) (reclen phys n : Z) (r : trec) : res (list Z * Z) :=
  if phys <=? n then Throw
  else if n =? 0 then Throw
  else if n =? phys - 1 then Ok (firstn (Z.to_nat (u32 (n * reclen))) content, phys - 1)
  else
    do first <- rdn content 0 4;
    do r <- wrn (object_bytes r) 0 first;
    do content <- write_data_record (put content 0 first) reclen phys n r;
    Ok (content, phys).
(** insert_record, Table.cpp:2074-2096, for a table without version fields and without fields kept
    in the blob file; the indexes are left out.  The new content and the number of the record;
    phys_numrecords is not changed. *)
Definition insert_record (content : list Z) (reclen phys : Z) (r : trec) : res (list Z * Z) :=
  if zlen content =? 0 then
    let content := put content 0 (1 :: repeat 0 (Z.to_nat (reclen - 1))) in
    do c <- write_data_record content reclen phys 1 (object_bytes r); Ok (c, 1)
  else
    do first <- rdn content 1 4;
    let n := le_val first in
    if n =? 0 then
      let n := zlen content / reclen in
      do c <- write_data_record content reclen phys n (object_bytes r); Ok (c, n)
    else
      do next <- rdn content (u32 (n * reclen + 1)) 4;
      do c <- write_data_record (put content 1 next) reclen phys n (object_bytes r); Ok (c, n).
(** update_record, Table.cpp:2164 for a changed field outside the blob file: orec + offset counts
    objects of 24 bytes *)
Definition update_field (f : field) (orec rec : trec) : res trec :=
  do d <- rdn (object_bytes rec) (24 * f_off f) (field_size f);
  do o <- wrn (object_bytes orec) (24 * f_off f) d;
  Ok orec.

(** ** Blobs of deleted and changed records *)
(** delete_record, Table.cpp:2002-2005: the chunk released for a blob field, if any; get_raw
    (TableRecord.cpp:100-103) *)
Definition deleted_chunk (f : field) (rec : list Z) : res (option Z) :=
  do b <- rdn rec (f_off f) 4;
  let s := le_val b in Ok (if s =? 0 then None else Some s).
(** TableRecord::get<table_blob_file>, TableRecord.h:79-89: zeros for NULL; blob_start *)
Definition get_start (f : field) (rec : list Z) : res Z :=
  do n <- is_null f rec;
  if n then Ok 0 else do b <- get_value f rec; do s <- rdn b 0 4; Ok (le_val s).
(** update_record, Table.cpp:2117-2150: the chunk released for a changed blob field, if any *)
Definition replaced_chunk (f : field) (orec : list Z) : res (option Z) :=
  if f_null f then
    do n <- is_null f orec;
    if n then do s <- get_start f orec; Ok (if s =? 0 then None else Some s) else Ok None
  else do s <- get_start f orec; Ok (if s =? 0 then None else Some s).
