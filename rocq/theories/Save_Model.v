(** Saving a configuration to a container on disk.
    Sources: /repo/src/tool1cd/ConfigStorage.cpp:516-555, cfapi/V8Catalog.cpp:210-238, 421-440, 455-473, 670-717,
    cfapi/V8File.cpp:535-580, Class_1CD.cpp:492-517, /repo/src/ctool1cd/App.cpp:291-346. *)
From Verif Require Import Prelude Codec_Model Text_Model Tree_Model Cf_Model Cfg_Model Run_Model.

(** ** The container *)
(** V8File as far as it is written: name, start_header, start_data (0 = no block) *)
Record slot := SL { s_name : list Z; s_header : Z; s_data : Z }.
(** createFile, V8Catalog.cpp:421-440: an element whose lower-cased name is the same is used again; otherwise a new
    one comes last *)
Fixpoint find_slot (lower : list Z -> list Z) (name : list Z) (l : list slot) : option nat :=
  match l with
  | [] => None
  | s :: t => if eq_list (lower name) (lower (s_name s)) then Some O else option_map S (find_slot lower name t)
  end.
Definition create_slot (lower : list Z -> list Z) (name : list Z) (l : list slot) : nat * list slot :=
  match find_slot lower name l with Some i => (i, l) | None => (length l, l ++ [SL name 0 0]) end.
Definition put_slot (i : nat) (s : slot) (l : list slot) : list slot := firstn i l ++ s :: skipn (S i) l.
(** V8File::write_and_close, V8File.cpp:535-580, of a whole stream in a container that is not compressed: the data
    before the header *)
Definition write_and_close (fuel : nat) (after : list Z) (c : cat) (s : slot) (create modify : Z) (raw : list Z) : res (cat * slot) :=
  do h <- file_header create modify (s_name s);
  do d <- write_block fuel after c raw 0 (s_data s) (-1) false;
  do w <- write_block fuel after (fst d) h 0 (s_header s) (-1) false;
  Ok (fst w, SL (s_name s) (snd w) (snd d)).
(** the loop of save_config, ConfigStorage.cpp:529-549: ropen gives the bytes as they are stored ([raw_file]); [times] =
    ft_create and ft_modify *)
Fixpoint save_loop (lower : list Z -> list Z) (fuel : nat) (after : list Z) (blob : Z -> Z -> list Z) (times : Z -> Z * Z) (m : smap cfile) (c : cat) (l : list slot) : res (cat * list slot) :=
  match m with
  | [] => Ok (c, l)
  | (_, f) :: t =>
      let '(i, l) := create_slot lower (c_name f) l in
      let '(create, modify) := times (t_time (c_file f)) in
      do w <- write_and_close fuel after c (nth i l (SL [] 0 0)) create modify (raw_file blob (c_file f));
      save_loop lower fuel after blob times t (fst w) (put_slot i (snd w) l)
  end.
(** save_config, 516-555, in a new container and its destructor, V8Catalog.cpp:670-717: the file that is left.  The
    version is 0 in the template and counted up once.  Simplified: an error while the table of contents is written is
    not swallowed *)
Definition save_catalog (lower : list Z -> list Z) (fuel : nat) (after : list Z) (blob : Z -> Z -> list Z) (times : Z -> Z * Z) (m : smap cfile) : res (list Z) :=
  do r <- save_loop lower fuel after blob times m (open_cat template) [];
  let '(c, l) := r in
  match l with
  | [] => Ok template
  | _ => do w <- write_block fuel after c (flat_map (fun s => elem (s_header s) (s_data s)) l) 0 16 (-1) true; Ok (flush_marks (fst w) 1)
  end.
(** read_datablock, V8Catalog.cpp:455-473, of a container that is not compressed *)
Definition read_data (fuel : nat) (after data : list Z) (start : Z) : res (list Z) := if start =? 0 then Ok [] else read_block fuel after data start.

(** ** The file on disk *)
(** ConfigStorageTable::save_config, ConfigStorage.cpp:521-523, and the constructor, V8Catalog.cpp:217-222: what is at
    the path is removed, then a file is made; [bytes] = what the container leaves in it.  A file that cannot be made
    is left out: the directory above has to be there *)
Definition save_to (cwd : path) (d : fs) (s : list Z) (bytes : list Z) : fs :=
  let p := full_path cwd s in
  let d := if file_exists d p then remove_all d p else d in
  match look d (removelast p) with Some None => (p, Some bytes) :: d | _ => d end.
(** App.cpp:291-346 with Class_1CD.cpp:492-517: [ready] = the configuration could be read; true = success is reported *)
Definition save_command (infobase ready : bool) (cwd : path) (d : fs) (name s : list Z) (bytes : list Z) : fs * bool :=
  match config_path infobase cwd d name s with
  | None => (d, false)
  | Some t => if ready then (save_to cwd d t bytes, true) else (d, false)
  end.
