(** Adding a record: the fields of the record.
    Source: /repo/src/tool1cd/Table.cpp:2019-2096 (insert_record), 1631-1636 (create_file_data), V8Object.cpp:1343-1349,
    TableRecord.cpp:127-158.  The rest of insert_record is Rec_Model.insert_record.
    Simplified: the indices are left out (Idx); 64-bit pointers; a TableRecord takes 24 bytes (Rec_Model.object_bytes). *)
From Verif Require Import Prelude Field_Model Rec_Model.

(** version_rec of the file of records *)
Record ver := VE { v_1 : Z; v_2 : Z }.
(** get_version_rec_and_increase, V8Object.cpp:1343-1349 *)
Definition next_ver (v : ver) : ver := VE (v_1 v) (u32 (v_2 v + 1)).
Definition ver_bytes (v : ver) : list Z := le_bytes 4 (v_1 v) ++ le_bytes 4 (v_2 v).

(** create_file_data, 1631-1636: returns at once when there is no file, and is called only then *)
Definition create_file_data (file : option (list Z)) : res (option (list Z)) := match file with None => Ok None | Some _ => Throw end.
(** through a null pointer *)
Definition through {A} (file : option (list Z)) (k : list Z -> res A) : res A := match file with None => UB | Some c => k c end.

(** the versions of the file are taken and stored, 2049-2060 and 2061-2066 *)
Definition with_ver (twice : bool) (file : option (list Z)) (f : field) (r : trec) (v : ver) : res (trec * ver) :=
  through file (fun _ =>
    let b := ver_bytes v in
    do d <- set_data f (if twice then b ++ b else b) (t_data r);
    Ok (TR (t_ptr r) (t_table r) (t_size r) (t_pad r) d, next_ver v)).
(** one field, 2033-2067: rec + offset counts records, not bytes (2037); the pointer found there is no stream unless it is null;
    the case of blobs has no break and goes on with the case of versions (2049) *)
Definition ins_field (file : option (list Z)) (f : field) (r : trec) (v : ver) : res (trec * ver) :=
  match f_kind f with
  | KImage | KString | KText =>
      do p <- rdn (object_bytes r) (24 * (f_off f + (if f_null f then 1 else 0))) 8;
      if le_val p =? 0 then
        do d <- (if f_null f then set_null f (t_data r) else set_data f (repeat 0 8) (t_data r));
        with_ver true file f (TR (t_ptr r) (t_table r) (t_size r) (t_pad r) d) v
      else UB
  | KVersion => with_ver true file f r v
  | KVersion8 => with_ver false file f r v
  | _ => Ok (r, v)
  end.
Fixpoint ins_fields (file : option (list Z)) (fs : list field) (r : trec) (v : ver) : res (trec * ver) :=
  match fs with [] => Ok (r, v) | f :: fs => do x <- ins_field file f r v; ins_fields file fs (fst x) (snd x) end.
(** the file, the number of the record, the record in memory, the version of the file *)
Definition ins_record (file : option (list Z)) (reclen phys : Z) (fs : list field) (r : trec) (v : ver) : res (list Z * Z * trec * ver) :=
  do file <- (match file with None => create_file_data file | Some c => Ok (Some c) end);
  do x <- ins_fields file fs r v;
  through file (fun c => do y <- insert_record c reclen phys (fst x); Ok (fst y, snd y, fst x, snd x)).

(** ** update_record: the fields, Table.cpp:2109-2181 *)
(** one field that was not changed, 2167-2179: orec + offset counts records of 24 bytes. Simplified: a write that stays inside of the
    object (only possible at offset 0 with tf_version8, where no field lies) leaves the record as it is *)
Definition keep_field (f : field) (orec : trec) (v : ver) : res (trec * ver) :=
  let off := f_off f + (if f_null f then 1 else 0) in
  match f_kind f with
  | KVersion => do _ <- wrn (object_bytes orec) (24 * (off + 8)) (ver_bytes v); Ok (orec, next_ver v)
  | KVersion8 => do _ <- wrn (object_bytes orec) (24 * off) (ver_bytes v); Ok (orec, next_ver v)
  | _ => Ok (orec, v)
  end.
(** [blob] = what a changed field with text or binary data does to the record, 2117-2163 (see Rec_Model.replaced_chunk): left open *)
Fixpoint upd_fields (blob : field -> trec -> trec -> res trec) (fs : list (bool * field)) (orec rec : trec) (v : ver) : res (trec * ver) :=
  match fs with
  | [] => Ok (orec, v)
  | (true, f) :: r =>
      do o <- (match f_kind f with KImage | KString | KText => blob f orec rec | _ => update_field f orec rec end);
      upd_fields blob r o rec v
  | (false, f) :: r => do x <- keep_field f orec v; upd_fields blob r (fst x) rec (snd x)
  end.
