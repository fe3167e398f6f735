(** The configuration of a database from the bytes of the file to the container it is saved in.  This file puts the parts
    together that are modelled one by one elsewhere: opening the database (Full), values of fields (Xml), tables of files
    and updates (Cfg), the saved container (Save).
    Sources: /repo/src/tool1cd/TableFiles.cpp:36-203, ConfigStorage.cpp:516-689, Class_1CD.cpp:392-417, 492-503,
    Table.cpp:727-798, Parse_tree.cpp:521-525.
    Parameters: [lower] = LowerCase, [same] = EqualIC, [stamp] = the time of a container for the seven bytes of a date (C198). *)
From Verif Require Import Prelude Bcd_Model Text_Model Tree_Model Field_Model Obj_Model Rec_Model Descr_Model Xml_Model Full_Model Cf_Model Cfg_Model Save_Model Chk_Model.

(** ** The table *)
(** TableFiles::test_table, TableFiles.cpp:146-203: six or seven fields with these names; otherwise the table is not
    ready, and save_config gives up: Throw.  The names and the comparison are those of Chk_Model *)
Definition test_table (fs : list xfield) : res unit :=
  if (zlen fs <? 6) || (7 <? zlen fs) then Throw else named seven (map x_name fs).
Definition fld (fs : list xfield) (i : nat) : xfield := nth i fs (XF [] (FD KBin false 0 0) 0 false).
(** TableRecord::get_string, TableRecord.cpp: NULL is an exception *)
Definition get_string (g : gset) (f : xfield) (rec : list Z) : res (list Z) :=
  do z <- is_null (x_f f) rec; if z then Throw else show g f rec.
(** TableRecord::get, TableRecord.h:80-89, of a blob address: NULL gives the address 0, 0 *)
Definition get_blob (f : xfield) (rec : list Z) : res (Z * Z) :=
  do z <- is_null (x_f f) rec; if z then Ok (0, 0) else blob_ref rec (vpos (x_f f)).
(** time1CD_to_FileTime reads the date at get_data(), which does not look at the mark of NULL; the bytes of the date are kept *)
Definition get_date (f : xfield) (rec : list Z) : res (list Z) :=
  do _ <- date_of_raw (after rec (vpos (x_f f))); rdn rec (vpos (x_f f)) 7.
(** the loop, TableFiles.cpp:88-114; a record that is skipped gives a row that Cfg_Model.taken skips *)
Definition row_of (g : gset) (fs : list xfield) (rec : list Z) : res frow :=
  do r <- is_removed rec;
  if r then Ok (FR true [] 0 0 0 0)
  else
    do b <- get_blob (fld fs 5) rec;
    if (fst b =? 0) || (snd b =? 0) then Ok (FR false [] (fst b) (snd b) 0 0)
    else
      do n <- get_string g (fld fs 0) rec;
      match n with
      | [] => Ok (FR false [] (fst b) (snd b) 0 0)
      | _ =>
          do p <- (if 6 <? zlen fs then do t <- get_string g (fld fs 6) rec; to_int_def t 0 else Ok 0);
          do c <- get_date (fld fs 1) rec;
          do m <- get_date (fld fs 2) rec;
          Ok (FR false n (fst b) (snd b) p (le_val (c ++ m)))
      end.
Fixpoint table_rows (g : gset) (fs : list xfield) (get : Z -> res (list Z)) (n : nat) (i : Z) : res (list frow) :=
  match n with
  | O => Ok []
  | S k => do rec <- get i; do r <- row_of g fs rec; do rest <- table_rows g fs get k (i + 1); Ok (r :: rest)
  end.
Definition files_of (lower : list Z -> list Z) (g : gset) (b : db) (t : otab) : res (smap tfile) :=
  do _ <- test_table (ot_fields t);
  do rows <- table_rows g (ot_fields t) (record_at (db_ps b) (db_st b) t) (Z.to_nat (ot_phys t)) 0;
  table_files lower rows.

(** ** The configuration *)
(** the times of a row in the form of a container *)
Definition two_times (stamp : list Z -> Z) (v : Z) : Z * Z := let d := le_bytes 14 v in (stamp (firstn 7 d), stamp (skipn 7 d)).
(** ContainerFile::ropen, ConfigStorage.cpp:290-319: the parts one after another; an address 0, 0 gives nothing *)
Fixpoint read_parts (blob : Z -> Z -> res (list Z)) (l : list (Z * Z)) : res (list Z) :=
  match l with [] => Ok [] | (s, n) :: t => do d <- blob s n; do r <- read_parts blob t; Ok (d ++ r) end.
(** ConfigStorage.cpp:590-603: DynamicallyUpdated is never packed *)
Definition updates_of (lower : list Z -> list Z) (blob : Z -> Z -> res (list Z)) (m : smap tfile) : res (list (list Z)) :=
  match get_file lower m s_DynamicallyUpdated with
  | None => Ok []
  | Some f => do d <- read_parts blob (t_addr f); do t <- parse_stream d; dynup_of t
  end.
Fixpoint read_all (blob : Z -> Z -> res (list Z)) (m : smap cfile) : res unit :=
  match m with [] => Ok tt | (_, f) :: t => do _ <- read_parts blob (t_addr (c_file f)); read_all blob t end.
(** Class_1CD.cpp:392-417: the last table of the name is the configuration *)
Definition config_table (same : list Z -> list Z -> bool) (b : db) : option otab :=
  fold_left (fun r t => if same (td_name (ot_decl t)) [67;79;78;70;73;71] then Some t else r) (db_tables b) None.
(** T_1CD::save_config, Class_1CD.cpp:492-503, with the constructor of ConfigStorageTableConfig, ConfigStorage.cpp:577-685,
    and ConfigStorageTable::save_config, 516-555.  Simplified: a blob that cannot be read is found before the container is
    begun *)
Definition save_base (lower : list Z -> list Z) (same : list Z -> list Z -> bool) (g : gset) (stamp : list Z -> Z) (fuel : nat) (after : list Z) (b : db) : res (list Z) :=
  match db_what b with
  | Infobase =>
      match config_table same b with
      | None => Throw
      | Some t =>
          let blob := table_blob (db_ps b) (db_st b) (ot_blob t) in
          do m <- files_of lower g b t;
          do u <- updates_of lower blob m;
          do c <- config_files lower u m;
          do _ <- read_all blob c;
          save_catalog lower fuel after (fun s n => match blob s n with Ok d => d | _ => [] end) (two_times stamp) c
      end
  | _ => Throw
  end.
(** the command -dc of ctool1cd: open the file, save the configuration *)
Definition save_of_file (lower : list Z -> list Z) (same : list Z -> list Z -> bool) (g : gset) (stamp : list Z -> Z) (fuel : nat) (after hjunk junk file : list Z) (monopoly : bool) : res (list Z) :=
  do b <- open_db same hjunk junk file monopoly;
  save_base lower same g stamp fuel after b.
