(** Exporting a table to a directory and importing it back: /repo/src/tool1cd/Table.cpp:1101-1323,
    export_import_table_root in Table.h:91-105, directory_exists in Common.cpp:172-188. *)
From Verif Require Import Prelude Obj_Model Alloc_Model Text_Model.

(** The directory of the table: a path that is absent, something else, or a directory with the
    files root, data, blob, index and descr (numbers 0 to 4). *)
Definition files := nat -> option (list Z).
Inductive place_of := Absent | NotDir | Dir (d : files).
Definition put_in_dir (d : files) (i : nat) (b : list Z) : files := fun j => if Nat.eqb j i then Some b else d j.

(** ** Table::export_table, Table.cpp:1101-1158.  [fs]: file_data, file_blob, file_index and
    descr_table (null pointers are [None]); get_current_version is the version read when the
    object was opened (V8Object.cpp:1385-1388).  Versions of absent files are uninitialised
    ([junk]); reading the page buffer before it is filled is [buf]. *)
Definition flag_byte (f : option obj) : Z := match f with Some _ => 1 | None => 0 end.
Definition version_bytes (f : option obj) (junk : list Z) : list Z :=
  match f with Some o => le_bytes 4 (u32 (o_v1 o)) ++ le_bytes 4 (u32 (o_v2 o)) | None => firstn 8 (junk ++ repeat 0 8) end.
Definition export_root (fs : list (option obj)) (junk : list Z) : list Z :=
  map flag_byte fs ++ concat (map (fun f => version_bytes f junk) fs).

(** savetofile for each file that is there, 1144-1155.  A TFileStream whose file cannot be created
    ([can] is false) takes what is written and loses it (TFileStream.cpp:41-52, TStream.cpp:209-226) *)
Fixpoint export_files (can : nat -> bool) (ps : Z) (buf : list Z) (st : store) (i : nat) (fs : list (option obj)) (d : files) : res files :=
  match fs with
  | [] => Ok d
  | None :: r => export_files can ps buf st (S i) r d
  | Some o :: r =>
      do b <- save_file ps st o buf; export_files can ps buf st (S i) r (if can i then put_in_dir d i b else d)
  end.
(** [mk]: boost::filesystem::create_directory succeeds; the file root is written inside
    try { } catch(...) { }, 1138-1142 *)
Definition export_table (mk : bool) (can : nat -> bool) (ps : Z) (junk buf : list Z) (st : store) (fs : list (option obj)) (p : place_of) : res place_of :=
  match p with
  | NotDir => Ok p
  | Absent | Dir _ =>
      let d := match p with Dir d => d | _ => fun _ => None end in
      if (match p with Absent => negb mk | _ => false end) then Throw
      else
        let d0 := if can 0%nat then put_in_dir d 0 (export_root fs junk) else d in
        do d1 <- export_files can ps buf st 1 fs d0; Ok (Dir d1)
  end.

(** ** Table::import_table, Table.cpp:1161-1323 *)
(** a bool of the record read from the file: another byte than 0 and 1 is not a bool *)
Definition to_flag (b : Z) : res bool := if b =? 0 then Ok false else if b =? 1 then Ok true else UB.
(** f->Read(&root, sizeof root): what the file lacks stays uninitialised *)
Definition read_root (junk b : list Z) : list Z := let r := firstn 36 b in r ++ sub (junk ++ repeat 0 36) (length r) (36 - length r).

Section Base.
Variable slack : Z.
Variable cached : Z -> bool.
Variable ps : Z.
Variable v838 ro : bool.

(** ob->version.version_1 = ..., version_2 = ... through v8ob*, whose version is at byte 12
    (V8Object.h:55-61), whatever the format of the object *)
Definition put_version (st : store) (o : obj) (v : list Z) : res store := poke cached ps st (o_block o) 12 v.

(** A TFileStream of a file that is not there or cannot be opened ([None]) is empty: nothing is
    thrown, and the handlers of the try blocks are never reached *)
Definition in_file (f : option (list Z)) : list Z := match f with Some b => b | None => [] end.
(** one of the blocks 1192-1214, 1216-1238, 1240-1262: the contents of the file of the export,
    and whether the object was created *)
Definition import_one (st : store) (fl : obj) (slot : option obj) (file : option (list Z)) (v : list Z) : res (store * obj * obj * bool) :=
  let b := in_file file in
  do r <- match slot with Some o => Ok (st, fl, o, false) | None => do x <- new_obj cached ps v838 st fl; Ok (x, true) end;
  let '(st1, fl1, o, made) := r in
  do w <- put_all slack cached ps ro st1 fl1 o b;
  let '(st2, fl2, o2) := w in
  do st3 <- put_version st2 o2 v;
  Ok (st3, fl2, o2, made).
(** the three of them; [i]: number of the file *)
Fixpoint import_files (root : list Z) (d : files) (i : nat) (st : store) (fl : obj) (slots : list (option obj)) : res (store * obj * list (option obj) * bool) :=
  match slots with
  | [] => Ok (st, fl, [], false)
  | s :: r =>
      do f <- rd root (Z.of_nat i - 1);
      do has <- to_flag f;
      do x <- if (has : bool) then
                do v <- rdn root (4 + 8 * (Z.of_nat i - 1)) 8;
                do y <- import_one st fl s (d i) v;
                let '(st1, fl1, o, made) := y in Ok (st1, fl1, Some o, made)
              else Ok (st, fl, s, false);
      let '(st1, fl1, s1, made) := x in
      do y <- import_files root d (S i) st1 fl1 r;
      let '(st2, fl2, r2, made2) := y in
      Ok (st2, fl2, s1 :: r2, made || made2)
  end.

(** string::find *)
Fixpoint find_text (p s : list Z) : option nat :=
  if starts_with p s then Some 0%nat else match s with [] => None | _ :: t => option_map S (find_text p t) end.
(** std::to_string of a page number *)
Fixpoint decimal (fuel : nat) (n : Z) : list Z :=
  match fuel with O => [] | S k => (if n <? 10 then [] else decimal k (n / 10)) ++ [48 + n mod 10] end.
Definition page_text (s : option obj) : list Z := match s with Some o => decimal 20 (o_block o) | None => [48] end.
(** the text {"Files", *)
Definition files_mark : list Z := [123; 34; 70; 105; 108; 101; 115; 34; 44].
Fixpoint joined (l : list (list Z)) : list Z := match l with [] => [] | [x] => x | x :: r => x ++ [44] ++ joined r end.

(** the description, 1264-1318: only if an object was created; its version is set before its
    contents, then set_data records version_1 of the opened object plus one *)
Definition import_descr (root : list Z) (d : files) (st : store) (fl : obj) (descr : option obj) (slots : list (option obj)) : res (store * obj * option obj) :=
  do f <- rd root 3;
  do has <- to_flag f;
  if (has : bool) then
    do r <- match descr with Some o => Ok (st, fl, o) | None => new_obj cached ps v838 st fl end;
    let '(st1, fl1, o) := r in
    do v <- rdn root 28 8;
    do st2 <- put_version st1 o v;
    do str <- ucs2_to_utf8 (in_file (d 4%nat));
    match find_text files_mark str with
    | None => Throw
    | Some k =>
        do data <- ucs2_from_utf8 (firstn k str ++ files_mark ++ joined (map page_text slots) ++ [125; 10; 125]);
        do w <- put_all slack cached ps ro st2 fl1 o data;
        let '(st3, fl2, o2) := w in Ok (st3, fl2, Some o2)
    end
  else Ok (st, fl, descr).

(** [slots]: file_data, file_blob, file_index; base->flush() at the end does not change what
    the pages hold (C17) *)
Definition import_table (junk : list Z) (st : store) (fl : obj) (slots : list (option obj)) (descr : option obj) (p : place_of) : res (store * obj * list (option obj) * option obj) :=
  match p with
  | Absent | NotDir => Ok (st, fl, slots, descr)
  | Dir d =>
      let root := read_root junk (in_file (d 0%nat)) in
      do x <- import_files root d 1 st fl slots;
      let '(st1, fl1, slots1, made) := x in
      if (made : bool) then
        do y <- import_descr root d st1 fl1 descr slots1;
        let '(st2, fl2, descr2) := y in Ok (st2, fl2, slots1, descr2)
      else Ok (st1, fl1, slots1, descr)
  end.
End Base.
