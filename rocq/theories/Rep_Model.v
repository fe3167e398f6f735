(** A configuration depot from the bytes of its file to the container a version is exported to.  This file puts the parts
    together that are modelled one by one elsewhere: opening the database (Full), values of fields (Xml, Conf), versions
    and the walk over HISTORY and EXTERNALS (Depot), snapshots (Snap), the lists and the container (Out).
    Sources: /repo/src/tool1cd/save_depot_config.cpp, Class_1CD.cpp:1899-1960, 2317-2337, Table.cpp:2397-2445, TableRecord.h:72-85,
    TableRecord.cpp:82-119, 173-199, TableIterator.cpp, PackDirectory.cpp:66-77.
    Parameters: [store] = the pack directory by hash (C50), [snapshot] = what try_save_snapshot leaves when it succeeds (Snap),
    for the maker, the version and the root object, and those of Out and Old. *)
From Verif Require Import Prelude Text_Model Tree_Model Codec_Model Field_Model Obj_Model Blob_Model Leaf_Model Rec_Model Descr_Model Xml_Model Full_Model Conf_Model Depot_Model Snap_Model Out_Model Old_Model.
Import String.StringSyntax.

(** ** Tables, fields, indexes *)
(** Class_1CD.cpp:392-417: the last table of the name *)
Definition table_named (same : list Z -> list Z -> bool) (b : db) (name : list Z) : res otab :=
  match fold_left (fun r t => if same (td_name (ot_decl t)) name then Some t else r) (db_tables b) None with Some t => Ok t | None => Throw end.
(** Table::get_field, find_field, Table.cpp:2397-2419 *)
Definition field_named (same : list Z -> list Z -> bool) (t : otab) (name : list Z) : res xfield :=
  match find (fun f => same (x_name f) name) (ot_fields t) with Some f => Ok f | None => Throw end.
(** Table::get_index, find_index, 2421-2445, and the numbers it gives, Index.cpp:70-83 *)
Fixpoint index_start (same : list Z -> list Z -> bool) (name : list Z) (is : list idecl) (ss : list Z) : res Z :=
  match is, ss with
  | i :: is, s :: ss => if same (id_name i) name then Ok s else index_start same name is ss
  | _, _ => Throw
  end.
Definition index_numbers (same : list Z -> list Z -> bool) (b : db) (t : otab) (name : list Z) : res (list Z) :=
  do s <- index_start same name (td_indexes (ot_decl t)) (ot_starts t);
  if s =? 0 then Ok []
  else match ot_index t with
  | None => UB
  | Some o => create_recordsindex (obj_get (db_ps b) (db_st b, o)) (S (Z.to_nat (obj_len o))) s (db_ps b) (db_838 b) (obj_len (ot_data t) / ot_reclen t)
  end.

(** ** Values *)
(** TableRecord::get, TableRecord.h:72-85: NULL gives the default *)
Definition get_guid (f : xfield) (rec : list Z) : res (list Z) :=
  do z <- is_null (x_f f) rec; if z then Ok (repeat 0 16) else rdn rec (vpos (x_f f)) 16.
(** a bool of another value than 0 and 1 is undefined *)
Definition get_bool (f : xfield) (rec : list Z) : res bool :=
  do z <- is_null (x_f f) rec;
  if z then Ok false else do b <- rd rec (vpos (x_f f)); if b =? 0 then Ok false else if b =? 1 then Ok true else UB.
Definition get_int (g : gset) (dflt : Z) (f : xfield) (rec : list Z) : res Z := do t <- get_string g f rec; to_int_def t dflt.
(** TableRecord::try_store_blob_data, TableRecord.cpp:173-199: no data if NULL or 0, 0.  Simplified: all data is read, not only
    that of the version *)
Definition get_data (b : db) (t : otab) (f : xfield) (rec : list Z) : res (option (list Z)) :=
  do a <- get_blob f rec;
  if (fst a =? 0) && (snd a =? 0) then Ok None else do d <- table_blob (db_ps b) (db_st b) (ot_blob t) (fst a) (snd a); Ok (Some d).
(** binary_datahash, PackDirectory.cpp:66-77 *)
Fixpoint binary_hash (n : nat) (t : list Z) : res (list Z) :=
  match n with
  | O => Ok []
  | S k => match t with
           | a :: c :: r => do l <- binary_hash k r; Ok (Z.lor (Z.shiftl (from_hex_digit a) 4) (from_hex_digit c) mod 256 :: l)
           | _ => UB
           end
  end.
(** the hash; a NULL is an exception where the hash is needed: no hash, and no data is found *)
Definition get_hash (g : gset) (f : option xfield) (rec : list Z) : res (list Z) :=
  match f with
  | None => Ok []
  | Some f => do z <- is_null (x_f f) rec; if z then Ok [] else do t <- show g f rec; binary_hash 20 t
  end.
Definition by_hash (store : list Z -> option (list Z)) (h : list Z) : option (list Z) := match h with [] => None | _ => store h end.

(** ** Rows *)
Fixpoint rmap {A B} (f : A -> res B) (l : list A) : res (list B) :=
  match l with [] => Ok [] | x :: r => do y <- f x; do ys <- rmap f r; Ok (y :: ys) end.
(** save_depot_config.cpp:186-212, 272-300, 368-380.  Simplified: all fields of a row are read *)
Definition history_row same g b (v6 : bool) (t : otab) (rec : list Z) : res vrow :=
  do fo <- field_named same t (bs "OBJID"); do fv <- field_named same t (bs "VERNUM"); do fi <- field_named same t (bs "OBJVERID");
  do fr <- field_named same t (bs "REMOVED"); do fp <- field_named same t (bs "DATAPACKED"); do fd <- field_named same t (bs "OBJDATA");
  do fh <- (if v6 then do f <- field_named same t (bs "DATAHASH"); Ok (Some f) else Ok None);
  do o <- get_guid fo rec; do v <- get_int g (2 ^ 31 - 1) fv rec; do i <- get_guid fi rec; do r <- get_bool fr rec; do p <- get_bool fp rec;
  do d <- get_data b t fd rec; do h <- get_hash g fh rec;
  Ok (VR (HR o v r p d h) i).
Definition history_rows same g b v6 (t : otab) : res (list vrow) :=
  do ns <- index_numbers same b t (bs "PK");
  rmap (fun n => do rec <- record_at (db_ps b) (db_st b) t n; history_row same g b v6 t rec) ns.
(** 193-212, 314-357 *)
Definition external_row same g b (v6 : bool) (t : otab) (rec : list Z) : res xrow :=
  do fo <- field_named same t (bs "OBJID"); do fv <- field_named same t (bs "VERNUM"); do fn <- field_named same t (bs "EXTNAME");
  do fi <- field_named same t (bs "EXTVERID"); do fp <- field_named same t (bs "DATAPACKED"); do fd <- field_named same t (bs "EXTDATA");
  do fh <- (if v6 then do f <- field_named same t (bs "DATAHASH"); Ok (Some f) else Ok None);
  do o <- get_guid fo rec; do v <- get_int g (2 ^ 31 - 1) fv rec; do n <- get_string g fn rec; do i <- get_guid fi rec; do p <- get_bool fp rec;
  do d <- get_data b t fd rec; do h <- get_hash g fh rec;
  Ok (XR (ER o v n p d h) i).
(** IndexedTableIterator, TableIterator.cpp:73-122: a number beyond the table ends it, removed records are skipped *)
Fixpoint indexed (get : Z -> res (list Z)) (phys : Z) (ns : list Z) : res (list (list Z)) :=
  match ns with
  | [] => Ok []
  | n :: r => if phys <=? n then Ok []
              else do rec <- get n; do z <- is_removed rec; do l <- indexed get phys r; Ok (if z then l else rec :: l)
  end.
Definition external_rows same g b v6 (t : otab) : res (list xrow) :=
  do ns <- index_numbers same b t (bs "PK");
  do recs <- indexed (record_at (db_ps b) (db_st b) t) (ot_phys t) ns;
  rmap (external_row same g b v6 t) recs.
(** the records that are not removed, in the order of the file: TableIterator.cpp:25-71 *)
Definition live_records b (t : otab) : res (list (list Z)) :=
  do ns <- found (record_at (db_ps b) (db_st b) t) (Z.to_nat (ot_phys t)) 0;
  rmap (record_at (db_ps b) (db_st b) t) ns.

(** ** The version *)
(** get_depot_version, Class_1CD.cpp:2317-2337 *)
Definition depot_version (same : list Z -> list Z -> bool) (t : list Z) : res Z :=
  if same t (bs "0300000000000000") then Ok 3
  else if same t (bs "0500000000000000") then Ok 5
  else if same t (bs "0600000000000000") then Ok 6
  else if same t (bs "0700000000000000") then Ok 7 else Throw.
(** get_ver_depot_config, 1899-1932; [Depot_Model.resolve] takes the numbers *)
Definition version_asked same g b (t : otab) (ver : Z) : res Z :=
  if 0 <? ver then Ok ver
  else
    do ns <- index_numbers same b t (bs "PK");
    do f <- field_named same t (bs "VERNUM");
    do vs <- rmap (fun n => do rec <- record_at (db_ps b) (db_st b) t n; do s <- get_string g f rec; stoi s) ns;
    resolve vs ver.
(** save_depot_config.cpp:137-153 *)
Fixpoint version_record (g : gset) (f : xfield) (ver : Z) (recs : list (list Z)) : res (list Z) :=
  match recs with
  | [] => Throw
  | rec :: r => do v <- get_int g 0 f rec; if v =? ver then Ok rec else version_record g f ver r
  end.

(** T_1CD::save_depot_config, save_depot_config.cpp:82-475; that the file is no depot is the answer false, here Throw *)
Definition save_repo lower same g fuel after now now' uuid deflate unpack store snapshot (v : dbver) (b : db) (ver : Z) : res (list Z) :=
  match db_what b with
  | Depot =>
      do td <- table_named same b (bs "DEPOT"); do tv <- table_named same b (bs "VERSIONS");
      do th <- table_named same b (bs "HISTORY"); do te <- table_named same b (bs "EXTERNALS");
      do fr <- field_named same td (bs "ROOTOBJID");
      do ds <- live_records b td;
      match ds with
      | [] => Throw
      | drec :: _ =>
          do fd <- field_named same td (bs "DEPOTVER");
          do s <- get_string g fd drec; do dv <- depot_version same s;
          do root <- get_guid fr drec;
          do ver <- version_asked same g b tv ver;
          do fv <- field_named same tv (bs "VERNUM");
          do vs <- live_records b tv;
          do vrec <- version_record g fv ver vs;
          do fm <- field_named same tv (bs "SNAPSHOTMAKER"); do maker <- get_guid fm vrec;
          match (if guid_empty maker then None else snapshot maker vrec ver root) with
          | Some d => Ok d
          | None =>
              do mm <- (if 5 <=? dv then do f <- field_named same tv (bs "CVERSION"); config_version true (skipn (Z.to_nat (f_off (x_f f))) vrec) v
                        else config_version false [] v);
              do rows <- history_rows same g b (6 <=? dv) th;
              do exts <- external_rows same g b (6 <=? dv) te;
              if fst mm <? 100 then save_old lower same fuel after now now' uuid deflate unpack (if 6 <=? dv then Some (by_hash store) else None) ver (fst mm) (snd mm) root rows exts
              else save_version lower same fuel after now uuid deflate (if 6 <=? dv then Some (by_hash store) else None) ver (fst mm) (snd mm) root rows exts
          end
      end
  | _ => Throw
  end.
(** the command -drc of ctool1cd: open the file, export the version *)
Definition export_of_file lower same g fuel after now now' uuid deflate unpack store snapshot (hjunk junk file : list Z) (monopoly : bool) (ver : Z) : res (list Z) :=
  do h <- open_header hjunk file monopoly;
  do b <- open_db same hjunk junk file monopoly;
  save_repo lower same g fuel after now now' uuid deflate unpack store snapshot (Descr_Model.h_ver h) b ver.
