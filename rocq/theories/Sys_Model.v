(** Writing a value of a system table to a file, expanded.
    Sources: /repo/src/tool1cd/Field.cpp:216-358, cfapi/V8Catalog.cpp:242-268, 794-814, cfapi/V8File.cpp:94-104. *)
From Verif Require Import Prelude Codec_Model Cf_Model Val_Model Life_Model Save_Model.

Section Sys.
(** ZInflateStream: None = an exception *)
Variable inflate : list Z -> option (list Z).
(** EqualIC (C13) *)
Variable same : list Z -> list Z -> bool.
(** steps, the memory behind a block header, the buffer of is_catalog (Cf_Model) *)
Variables (fuel : nat) (after junk : list Z).

Definition s_params := [80;65;82;65;77;83].
Definition s_users := [117;115;101;114;115;46;117;115;114].
Definition s_v8users := [86;56;85;83;69;82;83].
Definition s_config := [67;79;78;70;73;71].
Definition s_configsave := [67;79;78;70;73;71;83;65;86;69].
(** 255-266: [name] = the table, [key] = the text of its first field *)
Definition is_users (name key : list Z) : bool := if same name s_params then same key s_users else same name s_v8users.
(** 268-272: GUID_LEN * 2 = 72 *)
Definition maybe_twice (name key : list Z) : bool := if same name s_config || same name s_configsave then 72 <? zlen key else true.
(** 296-341: the bytes, and whether the files of a container in them are taken to be compressed *)
Definition expand (twice : bool) (d : list Z) : list Z * bool :=
  match inflate d with
  | None => (d, false)
  | Some x => if twice then match inflate x with Some y => (y, true) | None => (x, false) end else (x, false)
  end.
(** V8Catalog over a stream, V8Catalog.cpp:242-268, 321-374: the elements; none when the bytes are not a container or
    reading them raises an exception.  An empty stream gets the template *)
Definition filled (d : list Z) : list Z := match d with [] => template | _ => d end.
Definition elements (d : list Z) : res (list (list Z * Z * Z * Z)) :=
  do c <- is_catalog junk (filled d);
  if c then match open_files fuel after (filled d) with Throw => Ok [] | r => r end else Ok [].
(** SaveToDir, 794-814: the directories made; [sub] = SaveToDir of a container inside.  A file of the container is
    saved with save_to_file (Life_Model, C108) *)
Fixpoint save_list (sub : list Z -> list (list Z) -> res (list (list (list Z)))) (zipped : bool) (d : list Z) (dir : list (list Z)) (xs : list (list Z * Z * Z * Z)) : res (list (list (list Z))) :=
  match xs with
  | [] => Ok []
  | (name, _, _, start) :: t =>
      do b <- read_data fuel after d start;
      do b <- (if zipped then match inflate b with Some x => Ok x | None => Throw end else Ok b);
      do c <- is_catalog junk b;
      do r <- (if c then sub b (dir ++ [name]) else do _ <- save_to_file [] b; Ok []);
      do s <- save_list sub zipped d dir t;
      Ok (r ++ s)
  end.
Fixpoint save_dir (n : nat) (zipped : bool) (d : list Z) (dir : list (list Z)) : res (list (list (list Z))) :=
  match n with
  | O => Hang
  | S n =>
      do xs <- elements d;
      do r <- save_list (fun b p => save_dir n false b p) zipped (filled d) dir xs;
      Ok (dir :: r)
  end.
(** 216-358 for a value that is not NULL with an address: [d] = the bytes of the blob; a file, directories, or nothing *)
Inductive saved := Nothing | File (b : list Z) | Dirs (l : list (list (list Z))).
Definition save_system (name key d : list Z) : res saved :=
  match d with
  | [] => Ok Nothing
  | _ =>
      if is_users name key then do x <- decode_users d; Ok (File x)
      else
        let '(x, zc) := expand (maybe_twice name key) d in
        do xs <- elements x;
        match xs with
        | [] => Ok (File (filled x))
        | _ => do l <- save_dir fuel zc (filled x) []; Ok (Dirs l)
        end
  end.
End Sys.
