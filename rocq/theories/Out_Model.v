(** The configuration exported from a depot as a whole: its files, the lists root, version and versions, the container.
    Sources: /repo/src/tool1cd/save_depot_config.cpp:43-55, 162-183, 226-470, SystemClasses/TStreamWriter.cpp:36-45.
    Parameters: [uuid] = the bytes random_generator gives, one after another, [deflate] = ZDeflateStream, [now] = the clock when the
    j-th file is created, [pack] = the pack directory (Depot).  The old format (structure versions below 100), where
    the objects are in a container of their own, is in Old_Model. *)
From Verif Require Import Prelude Codec_Model Tree_Model Cf_Model Cfg_Model Run_Model Descr_Model Depot_Model Save_Model.

(** rows with OBJVERID and EXTVERID *)
Record vrow := VR { v_row : hrow; v_id : list Z }.
Record xrow := XR { x_row : erow; x_id : list Z }.
(** BinaryGuid::as_MS and GUIDasMS; sixteen bytes always have a text (C07) *)
Definition ms (g : list Z) : list Z := match guid_as_MS g with Ok t => t | _ => [] end.
(** 162-183: the structure version; [raw] = the bytes at CVERSION, read when the depot has version 5 or more *)
Definition config_version (ver5 : bool) (raw : list Z) (v : dbver) : res (Z * Z) :=
  if ver5 then
    do a <- rd raw 0; do b <- rd raw 1; do c <- rd raw 2; do d <- rd raw 3; Ok (256 * a + b, 256 * c + d)
  else Ok (match v with V8030 | V8050 => 6 | V8100 => 106 | _ => 216 end, 0).
Definition number (n : Z) : tree := Node (to_string n) nd_number [].
(** serialize_version, 43-55 *)
Definition version_text (major minor : Z) : list Z := outtext (Node [] nd_list [Node [] nd_list [number major; number minor]]) [].
(** the byte order mark and the text, 240-247, 418-432, 447-458; TStreamWriter::Write writes the bytes of the text *)
Definition marked (text : list Z) : list Z := [239; 187; 191] ++ text.
(** std::map::operator[] = for one pair after another *)
Definition puts {A} (l : list (list Z * A)) : smap A := fold_left (fun m '(k, v) => mput k v m) l [].
Definition s_root := [114;111;111;116].
Definition s_version := [118;101;114;115;105;111;110].
Definition s_versions := [118;101;114;115;105;111;110;115].
(** the loop over HISTORY and EXTERNALS (Depot_Model.export) assigns to vermap where it assigns to extmap, 297-308 and
    356-357: the same loop with the identifiers in the place of the data *)
Definition id_row (r : vrow) : hrow := let h := v_row r in HR (h_obj h) (h_ver h) (h_removed h) (h_packed h) (Some (v_id r)) (h_hash h).
Definition id_ext (x : xrow) : erow := let e := x_row x in ER (e_obj e) (e_ver e) (e_name e) (e_packed e) (Some (x_id x)) (e_hash e).
Definition ids_of same (ver : Z) (rows : list vrow) (exts : list xrow) : res (list (list Z * list Z)) := export same ms None ver (map id_row rows) (map id_ext exts).
(** vermap, 233, 248, 297-308, 356, 396-407 *)
Definition vermap (uuid : nat -> list Z) (ids : list (list Z * list Z)) : smap (list Z) :=
  puts ([([], ms (uuid 0%nat)); (s_version, ms (uuid 1%nat))] ++ map (fun '(k, i) => (k, ms i)) ids ++ [(s_versions, ms (uuid 2%nat)); (s_root, ms (uuid 3%nat))]).
(** 230-231, 405, 437-443 *)
Definition versions_text (m : smap (list Z)) : list Z :=
  outtext (Node [] nd_list (Node [49] nd_number [] :: number (zlen m) :: flat_map (fun '(k, i) => [Node k nd_string []; Node i nd_guid []]) m)) [].
(** 260-262, 415: rootmap is empty *)
Definition root_text (root : list Z) : list Z := outtext (Node [] nd_list [Node [50] nd_number []; Node (ms root) nd_guid []]) [].
(** extmap, 246, 309, 357, 429, 457 *)
Definition extmap (deflate : list Z -> list Z) (major minor : Z) (root : list Z) (m : smap (list Z)) (data : list (list Z * list Z)) : smap (list Z) :=
  puts ([(s_version, deflate (marked (version_text major minor)))] ++ data ++ [(s_root, deflate (marked (root_text root))); (s_versions, deflate (marked (versions_text m)))]).
(** 464-470: createFile and write_and_close for one file after another, then the destructor: the loop of Save_Model, for
    which the files are numbered *)
Definition numbered (m : smap (list Z)) : smap cfile := map (fun '((k, _), j) => (k, CF (TF k [(Z.of_nat (S j), 1)] (Z.of_nat j)) k (-1))) (combine m (seq 0 (length m))).
Definition write_files (lower : list Z -> list Z) (fuel : nat) (after : list Z) (now : nat -> Z) (m : smap (list Z)) : res (list Z) :=
  save_catalog lower fuel after (fun s _ => nth (Z.to_nat s - 1) (map snd m) []) (fun t => (now (Z.to_nat t), now (Z.to_nat t))) (numbered m).
(** the part of T_1CD::save_depot_config behind the choice of the version, in the new format *)
Definition save_version lower same fuel after now uuid deflate pack (ver major minor : Z) (root : list Z) (rows : list vrow) (exts : list xrow) : res (list Z) :=
  do data <- export same ms pack ver (map v_row rows) (map x_row exts);
  do ids <- ids_of same ver rows exts;
  write_files lower fuel after now (extmap deflate major minor root (vermap uuid ids) data).
