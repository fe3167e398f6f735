(** Exporting from a configuration depot.
    Sources: /repo/src/tool1cd/Class_1CD.cpp, save_depot_config.cpp, save_part_depot_config.cpp,
    Packdata.cpp, PackDirectory.cpp, TableRecord.cpp. *)
From Verif Require Import Prelude Codec_Model Stream_Model.

(** ** T_1CD::get_ver_depot_config, Class_1CD.cpp:1899-1932 *)
(** [vs] = the VERNUM values in the order of index PK; stoi of a number outside int throws, and so
    does the function *)
Definition resolve (vs : list Z) (ver : Z) : res Z :=
  if 0 <? ver then Ok ver
  else if negb (- ver <? 2^31) then UB                    (* -ver of the smallest int *)
  else
    let n := u32 (zlen vs) in
    if n <=? u32 (- ver) then Throw
    else do v <- rd vs (u32 (n + ver - 1)); if (-2^31 <=? v) && (v <? 2^31) then Ok v else Throw.
(** the search for the row of the version, save_depot_config.cpp:140-153: [rows] = the VERNUM values
    of the rows of VERSIONS that are not removed *)
Fixpoint find_version (rows : list Z) (ver : Z) : res Z :=
  match rows with [] => Throw | v :: t => if v =? ver then Ok v else find_version t ver end.

(** ** Packs *)
(** Packdata::Packdata, Packdata.cpp:30-46, the index file: a count that is not read in full is an
    uninitialised variable (UB); records behind the end of the file are zeros *)
Fixpoint take_records (n : nat) (d : list Z) : list (list Z * Z) :=
  match n with
  | O => []
  | S k => let r := firstn 28 d ++ repeat 0 (28 - length (firstn 28 d)) in (firstn 20 r, i64 (le_val (skipn 20 r))) :: take_records k (skipn 28 d)
  end.
Definition read_index (file : list Z) : res (list (list Z * Z)) :=
  let (s, r) := fs_seek (fs_open file) 8 Beg in
  do _ <- r;
  let (s, c) := fs_read s 4 in
  if zlen c <? 4 then UB
  else Ok (take_records (Z.to_nat (le_val c)) (snd (fs_read s (28 * le_val c)))).
(** TStream::CopyFrom of a file stream into a new stream: the bytes of the new stream; TStream.cpp:100-113 *)
Definition copy_new (src : fstream) (count : Z) : fstream * list Z :=
  let copy (src : fstream) (count : Z) :=
    let n := if count <=? 0 then fs_size src else count in
    let (src', d) := fs_read src n in
    (src', match d with [] => repeat 0 (Z.to_nat n) | _ => d end) in
  if count =? 0 then
    let (src, _) := fs_seek src 0 Beg in
    if fs_size src =? 0 then (src, []) else copy src (fs_size src)
  else copy src count.
(** Packdata::get_data, Packdata.cpp:58-75: every record is looked at *)
Fixpoint pack_get (recs : list (list Z * Z)) (pack : fstream) (hash : list Z) (found : option (list Z)) : res (option (list Z)) :=
  match recs with
  | [] => Ok found
  | (h, off) :: t =>
      if (if list_eq_dec Z.eq_dec hash h then true else false) then
        let (p, r) := fs_seek pack off Beg in
        do _ <- r;
        let (p, l) := fs_read p 8 in
        let len := i64 (le_val (l ++ repeat 0 (8 - length l))) in
        let (p, d) := copy_new p len in
        pack_get t p hash (Some d)
      else pack_get t pack hash found
  end.
(** PackDirectory::get_data, PackDirectory.cpp:73-103: [packs] in the order of the directory, each an
    index file and a pack file; [loose] = the files below data/objects, by hash.  The position of a pack
    file stays from call to call but every use seeks first, so packs are taken as just opened. *)
Fixpoint dir_get (packs : list (list Z * list Z)) (loose : list Z -> option (list Z)) (hash : list Z) : res (option (list Z)) :=
  match packs with
  | [] => Ok (loose hash)
  | (ind, pck) :: t =>
      do recs <- read_index ind;
      do r <- pack_get recs (fs_open pck) hash None;
      match r with Some d => Ok (Some d) | None => dir_get t loose hash end
  end.

(** ** Rows of HISTORY and EXTERNALS: VERNUM as ToIntDef gives it (C58); DATAPACKED false when null;
    the data kept in the row, None when null or 0/0 *)
Record hrow := HR { h_obj : list Z; h_ver : Z; h_removed : bool; h_packed : bool; h_data : option (list Z); h_hash : list Z }.
Record erow := ER { e_obj : list Z; e_ver : Z; e_name : list Z; e_packed : bool; e_data : option (list Z); e_hash : list Z }.

(** ** T_1CD::save_depot_config, the loop over HISTORY: save_depot_config.cpp:272-384.
    [same] = EqualIC (C13), [oname] = as_MS (C07), [pack] = the pack directory, present from depot
    version 6 on.  The files are given as the log of the assignments to the map they are sorted in;
    the version identifiers and the two lists made of them are left out.  Expanding the data (old
    format) is left out too: the data is what try_store_blob_data leaves in its stream. *)
Definition fetch (pack : option (list Z -> option (list Z))) (data : option (list Z)) (hash : list Z) : res (list Z) :=
  match data with
  | Some d => Ok d
  | None => match pack with None => Throw | Some p => match p hash with Some d => Ok d | None => Throw end end
  end.
Fixpoint put_rece (same : list Z -> list Z -> bool) (e : erow) (l : list erow) : list erow :=
  match l with [] => [e] | x :: t => if same (e_name e) (e_name x) then e :: t else x :: put_rece same e t end.
(** the while loop over EXTERNALS, 314-342: rows left, reces, extnames *)
Fixpoint ext_scan (same : list Z -> list Z -> bool) (ver lastver : Z) (cur : list Z) (exts reces : list erow) (names : list (list Z)) : list erow * list erow * list (list Z) :=
  match exts with
  | [] => ([], reces, names)
  | e :: t =>
      if guid_gtb (e_obj e) cur then (exts, reces, names)
      else if guid_eqb (e_obj e) cur then
        ext_scan same ver lastver cur t
          (if (e_ver e <=? ver) && e_packed e then put_rece same e reces else reces)
          (if e_ver e =? lastver then names ++ [e_name e] else names)
      else ext_scan same ver lastver cur t reces names
  end.
(** 343-358 *)
Fixpoint ext_store (same : list Z -> list Z -> bool) pack (names : list (list Z)) (reces : list erow) : res (list (list Z * list Z)) :=
  match reces with
  | [] => Ok []
  | e :: t =>
      if existsb (fun n => same n (e_name e)) names then
        do d <- fetch pack (e_data e) (e_hash e); do r <- ext_store same pack names t; Ok ((e_name e, d) :: r)
      else ext_store same pack names t
  end.
Record dstate := DS { d_rech1 : option hrow; d_lastver : Z; d_lastremoved : bool; d_cur : list Z; d_exts : list erow; d_log : list (list Z * list Z) }.
(** a new object or the end of the table, 288-366; [next] = the object of rech2 *)
Definition flush_object (same : list Z -> list Z -> bool) (oname : list Z -> list Z) pack (ver : Z) (st : dstate) (next : list Z) : res dstate :=
  if d_lastremoved st then Ok (DS (d_rech1 st) (d_lastver st) true next (d_exts st) (d_log st))
  else
    match d_rech1 st with
    | None => UB
    | Some r =>
        do d <- fetch pack (h_data r) (h_hash r);
        let '(exts, reces, names) := ext_scan same ver (d_lastver st) (d_cur st) (d_exts st) [] [] in
        do es <- ext_store same pack names reces;
        Ok (DS (Some r) (d_lastver st) true next exts (d_log st ++ (oname (h_obj r), d) :: es))
    end.
(** 368-392 *)
Definition take_row (ver : Z) (st : dstate) (r : hrow) : dstate :=
  if h_ver r <=? ver then
    if h_removed r then DS (d_rech1 st) (d_lastver st) true (d_cur st) (d_exts st) (d_log st)
    else if h_packed r then DS (Some r) (h_ver r) false (d_cur st) (d_exts st) (d_log st)
    else st
  else st.
Fixpoint export_loop same oname pack (ver : Z) (rows : list hrow) (rech2 : option hrow) (st : dstate) : res dstate :=
  match rows with
  | [] => match rech2 with None => UB | Some r => flush_object same oname pack ver st (h_obj r) end
  | r :: t =>
      do st <- (if negb (guid_eqb (h_obj r) (d_cur st)) then flush_object same oname pack ver st (h_obj r) else Ok st);
      export_loop same oname pack ver t (Some r) (take_row ver st r)
  end.
Definition export same oname pack ver (rows : list hrow) (exts : list erow) : res (list (list Z * list Z)) :=
  do st <- export_loop same oname pack ver rows None (DS None (-1) true (repeat 0 16) exts []); Ok (d_log st).
(** std::map::operator[] = over the log: what the map holds for a key *)
Definition map_get (log : list (list Z * list Z)) (k : list Z) : option (list Z) :=
  fold_left (fun a '(k', d) => if list_eq_dec Z.eq_dec k k' then Some d else a) log None.

(** ** T_1CD::save_part_depot_config, the loop over HISTORY, for a depot without rows in EXTERNALS:
    save_part_depot_config.cpp:246-507.  [v6] = depot version 6 and above; [inflate] = ZInflateStream,
    None = an exception; p_in = the bytes of the stream [in], which stays from object to object. *)
Record pstate := PS { p_r1 : option hrow; p_r2 : option hrow; p_cur : list Z; p_in : list Z; p_files : list (list Z * list Z); p_deleted : list (list Z) }.
(** 283-321: changed and inreaded *)
Definition compare_rows (v6 : bool) (inb : list Z) (r1 : option hrow) (r2 : hrow) : res (bool * bool) :=
  match r1 with
  | None => Ok (true, false)
  | Some q =>
      if negb (h_packed q) then Ok (true, false)
      else match h_data q with
      | None => Ok (true, false)
      | Some _ =>
          let '(changed, inreaded) := match h_data r2 with
                                      | Some out => (negb (if list_eq_dec Z.eq_dec inb out then true else false), true)
                                      | None => (true, false)
                                      end in
          if negb v6 then UB                     (* fldh_datahash is a null pointer *)
          else Ok (if list_eq_dec Z.eq_dec (h_hash r2) (h_hash q) then false else changed, inreaded)
      end
  end.
(** 256-353 *)
Definition part_object (v6 : bool) (pack : list Z -> option (list Z)) (inflate : list Z -> option (list Z)) (st : pstate) (next : list Z) : res pstate :=
  match p_r2 st with
  | None => Ok (PS None None next (p_in st) (p_files st) (p_deleted st))
  | Some r2 =>
      if h_removed r2 then
        Ok (PS None None next (p_in st) (p_files st) (match p_r1 st with Some _ => p_deleted st ++ [h_obj r2] | None => p_deleted st end))
      else if negb (h_packed r2) then Ok (PS None None next (p_in st) (p_files st) (p_deleted st))
      else
        do c <- compare_rows v6 (p_in st) (p_r1 st) r2;
        let '(changed, inreaded) := c in
        if negb changed then Ok (PS None None next (p_in st) (p_files st) (p_deleted st))
        else
          do q <- (if inreaded then Ok (p_in st, p_in st)
                   else match h_data r2 with
                        | Some d => Ok (d, d)
                        | None => if v6 then match pack (h_hash r2) with Some d => Ok (d, p_in st) | None => Throw end else Throw
                        end);
          let '(sobj, inb) := q in
          match inflate sobj with
          | None => Throw
          | Some x => Ok (PS None None next inb (p_files st ++ [(h_obj r2, x)]) (p_deleted st))
          end
  end.
(** 484-497 *)
Definition part_take (b e : Z) (st : pstate) (r : hrow) : pstate :=
  if h_ver r <? b then PS (Some r) (p_r2 st) (p_cur st) (p_in st) (p_files st) (p_deleted st)
  else if h_ver r <=? e then PS (p_r1 st) (Some r) (p_cur st) (p_in st) (p_files st) (p_deleted st)
  else st.
Fixpoint part_loop v6 pack inflate (b e : Z) (rows : list hrow) (rech : option hrow) (st : pstate) : res pstate :=
  match rows with
  | [] => match rech with None => UB | Some r => part_object v6 pack inflate st (h_obj r) end
  | r :: t =>
      do st <- (if negb (guid_eqb (h_obj r) (p_cur st)) then part_object v6 pack inflate st (h_obj r) else Ok st);
      part_loop v6 pack inflate b e t (Some r) (part_take b e st r)
  end.
(** the files written and the list of deleted objects; [b] and [e] ordered as in 116-122 *)
Definition export_part v6 pack inflate (b e : Z) (rows : list hrow) : res (list (list Z * list Z) * list (list Z)) :=
  let '(b, e) := if e <? b then (e, b) else (b, e) in
  do st <- part_loop v6 pack inflate b e rows None (PS None None (repeat 0 16) [] [] []); Ok (p_files st, p_deleted st).
