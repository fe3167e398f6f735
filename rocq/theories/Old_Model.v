(** A version exported from a depot in the old format (structure versions below 100): the objects are in a container of their own,
    the element metadata of the configuration.
    Sources: /repo/src/tool1cd/save_depot_config.cpp:226-475, 575-593, TableRecord.cpp:173-199, cfapi/V8Catalog.cpp:265-294, 421-440,
    500-541, 670-762, 773-790, cfapi/V8File.cpp:214-232, 386-402, 488-580.
    Parameters as in Out_Model; [unpack] = what the stream holds after the data of an object was expanded, TableRecord.cpp:184-193
    (data that cannot be expanded is appended to what was expanded before the error). *)
From Verif Require Import Prelude Codec_Model Tree_Model Cf_Model Cfg_Model Run_Model Depot_Model Save_Model Out_Model.

Definition s_metadata := [109;101;116;97;100;97;116;97].
(** try_store_blob_data with inflate_stream, save_depot_config.cpp:575-593: only data kept in the row is expanded, not that of
    the pack directory.  291: asked for the objects, not for the external files (before 353) *)
Definition open_row (unpack : list Z -> list Z) (r : vrow) : vrow :=
  let h := v_row r in VR (HR (h_obj h) (h_ver h) (h_removed h) (h_packed h) (option_map unpack (h_data h)) (h_hash h)) (v_id r).
(** 298-307, 353-354: the loop of Depot_Model assigns the objects to metamap and rootmap, the external files to extmap and vermap;
    here the assignments get a mark before the name: 0 = an object, 1 = an external file *)
Definition marked_name (g : list Z) : list Z := 0 :: ms g.
Definition marked_ext (x : xrow) : xrow := let e := x_row x in XR (ER (e_obj e) (e_ver e) (1 :: e_name e) (e_packed e) (e_data e) (e_hash e)) (x_id x).
Definition marked_same (same : list Z -> list Z -> bool) (a b : list Z) : bool := same (tl a) (tl b).
Definition of_mark (z : Z) (log : list (list Z * list Z)) : list (list Z * list Z) :=
  flat_map (fun '(k, d) => match k with c :: n => if c =? z then [(n, d)] else [] | [] => [] end) log.
Definition old_export same pack ver (rows : list vrow) (exts : list xrow) : res (list (list Z * list Z)) :=
  export (marked_same same) marked_name pack ver (map v_row rows) (map (fun x => x_row (marked_ext x)) exts).
Definition old_ids same ver (rows : list vrow) (exts : list xrow) : res (list (list Z * list Z)) :=
  export (marked_same same) marked_name None ver (map id_row rows) (map (fun x => id_ext (marked_ext x)) exts).
(** rootmap, 300, and the text of root, 259-261, 406, 415-420 *)
Definition rootmap (ids : list (list Z * list Z)) : smap (list Z) := puts (map (fun '(k, i) => (k, ms i)) ids).
Definition old_root_text (root : list Z) (m : smap (list Z)) : list Z :=
  outtext (Node [] nd_list (Node [49] nd_number [] :: Node (ms root) nd_guid [] :: number (zlen m) :: flat_map (fun '(k, i) => [Node k nd_string []; Node i nd_guid []]) m)) [].
(** metamap, 301, 422-430: root is not packed *)
Definition metamap (root : list Z) (rm : smap (list Z)) (data : list (list Z * list Z)) : smap (list Z) := puts (data ++ [(s_root, marked (old_root_text root rm))]).
(** vermap, 243, 255, 353, 401 *)
Definition old_vermap (uuid : nat -> list Z) (ids : list (list Z * list Z)) : smap (list Z) :=
  puts ([([], ms (uuid 0%nat)); (s_version, ms (uuid 1%nat))] ++ map (fun '(k, i) => (k, ms i)) ids ++ [(s_versions, ms (uuid 2%nat))]).
(** extmap, 253, 354, 457 *)
Definition old_extmap (deflate : list Z -> list Z) (major minor : Z) (vm : smap (list Z)) (data : list (list Z * list Z)) : smap (list Z) :=
  puts ([(s_version, deflate (marked (version_text major minor)))] ++ data ++ [(s_versions, deflate (marked (versions_text vm)))]).

(** ** The two containers.  CreateCatalog, V8Catalog.cpp:773-790, makes the element metadata, packed as a whole; it is open until
    the configuration is closed: V8File::close, V8File.cpp:488-530, with the destructor of the inner container writes its bytes,
    [meta] (packed).  [held]: the element is still open *)
Definition close_first (fuel : nat) (after : list Z) (tc tm : Z) (meta : list Z) (held : bool) (c : cat) (l : list slot) : res (cat * list slot) :=
  if held then
    do w <- write_and_close fuel after c (nth 0 l (SL [] 0 0)) tc tm meta;
    Ok (fst w, put_slot 0 (snd w) l)
  else Ok (c, l).
(** 469-473: an external file with the name of the inner container is written to its element, V8File.cpp:535-580: first the
    inner container is closed, then what is written is packed and takes its place *)
Fixpoint old_loop (lower : list Z -> list Z) (fuel : nat) (after : list Z) (deflate : list Z -> list Z) (blob : Z -> Z -> list Z) (times : Z -> Z * Z) (tc tm : Z) (meta : list Z)
  (m : smap cfile) (held : bool) (c : cat) (l : list slot) : res (bool * cat * list slot) :=
  match m with
  | [] => Ok (held, c, l)
  | (_, f) :: t =>
      let '(i, l) := create_slot lower (c_name f) l in
      match i with
      | O =>
          do x <- close_first fuel after tc tm meta held c l;
          do w <- write_and_close fuel after (fst x) (nth 0 (snd x) (SL [] 0 0)) tc tm (deflate (raw_file blob (c_file f)));
          old_loop lower fuel after deflate blob times tc tm meta t false (fst w) (put_slot 0 (snd w) (snd x))
      | S _ =>
          let '(create, modify) := times (t_time (c_file f)) in
          do w <- write_and_close fuel after c (nth i l (SL [] 0 0)) create modify (raw_file blob (c_file f));
          old_loop lower fuel after deflate blob times tc tm meta t held (fst w) (put_slot i (snd w) l)
      end
  end.
(** the destructor of the outer container, V8Catalog.cpp:670-762; [now] = the clock at the elements, 0 and 1 for metadata *)
Definition old_catalog (lower : list Z -> list Z) (fuel : nat) (after : list Z) (deflate : list Z -> list Z) (now : nat -> Z) (meta : list Z) (m : smap (list Z)) : res (list Z) :=
  let packed := deflate meta in
  do r <- old_loop lower fuel after deflate (fun s _ => nth (Z.to_nat s - 1) (map snd m) []) (fun t => (now (S (S (Z.to_nat t))), now (S (S (Z.to_nat t))))) (now 0%nat) (now 1%nat) packed
            (numbered m) true (open_cat template) [SL s_metadata 0 0];
  let '(held, c, l) := r in
  do x <- close_first fuel after (now 0%nat) (now 1%nat) packed held c l;
  do w <- write_block fuel after (fst x) (flat_map (fun s => elem (s_header s) (s_data s)) (snd x)) 0 16 (-1) true;
  Ok (flush_marks (fst w) 1).
(** the part of T_1CD::save_depot_config behind the choice of the version, in the old format; [now'] = the clock at the files of
    the inner container *)
Definition save_old lower same fuel after now now' uuid deflate unpack pack (ver major minor : Z) (root : list Z) (rows : list vrow) (exts : list xrow) : res (list Z) :=
  do log <- old_export same pack ver (map (open_row unpack) rows) exts;
  do ids <- old_ids same ver rows exts;
  do meta <- write_files lower fuel after now' (metamap root (rootmap (of_mark 0 ids)) (of_mark 0 log));
  old_catalog lower fuel after deflate now meta (old_extmap deflate major minor (old_vermap uuid (of_mark 1 ids)) (of_mark 1 log)).
