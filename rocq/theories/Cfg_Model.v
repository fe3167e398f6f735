(** Tables of files and configurations kept in them.
    Sources: /repo/src/tool1cd/TableFiles.cpp, ConfigStorage.cpp.
    Names are byte strings.  [lower] stands for LowerCase (C13) and EqualIC is equality of the
    lower-cased names; messages and file times beyond being copied are left out. *)
From Verif Require Import Prelude Codec_Model Text_Model Tree_Model.

(** ** std::map<string, T>: an association list in the order of the keys *)
Fixpoint str_ltb (a b : list Z) : bool :=
  match a, b with
  | _, [] => false
  | [], _ => true
  | x :: s, y :: t => if x <? y then true else if y <? x then false else str_ltb s t
  end.
Definition smap (A : Type) := list (list Z * A).
Fixpoint mget {A} (k : list Z) (m : smap A) : option A :=
  match m with [] => None | (k', v) :: t => if eq_list k k' then Some v else mget k t end.
Fixpoint mput {A} (k : list Z) (v : A) (m : smap A) : smap A :=
  match m with
  | [] => [(k, v)]
  | (k', v') :: t => if eq_list k k' then (k, v) :: t else if str_ltb k k' then (k, v) :: m else (k', v') :: mput k v t
  end.

(** ** TableFiles::TableFiles, TableFiles.cpp:65-134 *)
(** a row: FILENAME, the blob address, PARTNO as ToIntDef gives it (0 without the field), the two times *)
Record frow := FR { r_removed : bool; r_name : list Z; r_start : Z; r_len : Z; r_part : Z; r_time : Z }.
(** the rows that are not skipped, 92-105 *)
Definition taken (r : frow) : bool := negb (r_removed r) && negb ((r_start r =? 0) || (r_len r =? 0)) && match r_name r with [] => false | _ => true end.
(** maxpartnos, 115-118 *)
Fixpoint max_parts (lower : list Z -> list Z) (rows : list frow) (m : smap Z) : smap Z :=
  match rows with
  | [] => m
  | r :: t =>
      let k := lower (r_name r) in
      max_parts lower t (match mget k m with None => mput k (r_part r) m | Some p => if p <? r_part r then mput k (r_part r) m else m end)
  end.
Record tfile := TF { t_name : list Z; t_addr : list (Z * Z); t_time : Z }.
(** TableFile::TableFile, 36-52: the greatest part number is taken as uint32_t.  -1 gives an empty array
    and a loop over 2^32 elements; other negative numbers ask for more than 2^31 elements, and the
    element -1, -2, ... is written later (or the allocation fails): UB for all of them *)
Definition new_file (name : list Z) (maxpart : Z) : res tfile :=
  if maxpart <? 0 then UB else Ok (TF name (repeat (0, 0) (Z.to_nat (maxpart + 1))) 0).
Fixpoint new_files (m : smap Z) : res (smap tfile) :=
  match m with [] => Ok [] | (k, p) :: t => do f <- new_file k p; do r <- new_files t; Ok ((k, f) :: r) end.
(** 125-134 *)
Fixpoint fill_files (lower : list Z -> list Z) (rows : list frow) (m : smap tfile) : res (smap tfile) :=
  match rows with
  | [] => Ok m
  | r :: t =>
      let k := lower (r_name r) in
      match mget k m with
      | None => UB
      | Some f =>
          do addr <- wrn (t_addr f) (r_part r) [(r_start r, r_len r)];
          fill_files lower t (mput k (if r_part r =? 0 then TF (r_name r) addr (r_time r) else TF (t_name f) addr (t_time f)) m)
      end
  end.
Definition table_files (lower : list Z -> list Z) (rows : list frow) : res (smap tfile) :=
  let all := filter taken rows in
  do m <- new_files (max_parts lower all []);
  fill_files lower all m.
(** TableFiles::get_file, 205-214 *)
Definition get_file (lower : list Z -> list Z) (m : smap tfile) (name : list Z) : option tfile := mget (lower name) m.

(** ** ContainerFile, ConfigStorage.cpp:213-368 *)
(** the blobs of all parts one after another, 266-268 and 310; [blob] = Table::readBlob (C25, C70): an
    unused part has the address 0, 0, for which nothing is read *)
Definition raw_file (blob : Z -> Z -> list Z) (f : tfile) : list Z := concat (map (fun '(s, l) => if s =? 0 then [] else blob s l) (t_addr f)).
(** ContainerFile::isPacked, 334-358.  [name.front()] of an empty name is undefined *)
Fixpoint rfind_char (c : Z) (s : list Z) : option nat :=
  match s with [] => None | x :: t => match rfind_char c t with Some i => Some (S i) | None => if x =? c then Some 0%nat else None end end.
Definition s_DynamicallyUpdated := [68;121;110;97;109;105;99;97;108;108;121;85;112;100;97;116;101;100].
Definition s_SprScndInfo := [83;112;114;83;99;110;100;73;110;102;111].
Definition s_DBNamesVersion := [68;66;78;97;109;101;115;86;101;114;115;105;111;110].
Definition s_siVersions := [115;105;86;101;114;115;105;111;110;115].
Definition s_fo_version := [102;111;95;118;101;114;115;105;111;110].
Definition s_INF := [73;78;70].
Definition s_PF := [80;70].
Definition is_packed (lower : list Z -> list Z) (name : list Z) : res bool :=
  let same a := eq_list (lower name) (lower a) in
  if same s_DynamicallyUpdated || same s_SprScndInfo || same s_DBNamesVersion || same s_siVersions then Ok false
  else match name with
  | [] => UB
  | c :: _ =>
      if c =? 123 then Ok false
      else match sfind (lower name) s_fo_version with
      | Some _ => Ok false
      | None =>
          match rfind_char 46 name with
          | None => Ok true
          | Some i => let ext := lower (skipn (S i) name) in Ok (negb (eq_list ext (lower s_INF) || eq_list ext (lower s_PF)))
          end
      end
  end.
(** the two streams of a file, which may be the same one: open 233-287, ropen 290-319, close 322-333.
    [raw] = the stored bytes, [inflate] = ZInflateStream, None = an exception, which leaves the new
    stream behind with what was written so far ([part]) *)
Record cstate := CS { c_stream : option (list Z); c_raw : option (list Z); c_alias : bool }.
Inductive cop := COpen | CRaw | CClose.
Definition c_open (packed : bool) (raw : list Z) (inflate : list Z -> option (list Z)) (part : list Z) (s : cstate) : cstate * res (list Z) :=
  match c_stream s with
  | Some d => (s, Ok d)
  | None =>
      match c_raw s with
      | Some r => if packed then match inflate r with Some d => (CS (Some d) (Some r) false, Ok d) | None => (CS (Some part) (Some r) false, Throw) end
                  else (CS (Some r) (Some r) true, Ok r)
      | None => if packed then match inflate raw with Some d => (CS (Some d) None false, Ok d) | None => (CS (Some part) None false, Throw) end
                else (CS (Some raw) None false, Ok raw)
      end
  end.
Definition c_ropen (packed : bool) (raw : list Z) (s : cstate) : cstate * res (list Z) :=
  match c_raw s with
  | Some r => (s, Ok r)
  | None => match c_stream s with
            | Some d => if packed then (CS (c_stream s) (Some raw) false, Ok raw) else (CS (Some d) (Some d) true, Ok d)
            | None => (CS None (Some raw) false, Ok raw)
            end
  end.
Definition c_step packed raw inflate part (s : cstate) (o : cop) : cstate * res (list Z) :=
  match o with COpen => c_open packed raw inflate part s | CRaw => c_ropen packed raw s | CClose => (CS None None false, Ok []) end.
Fixpoint c_run packed raw inflate part (s : cstate) (ops : list cop) : list (res (list Z)) :=
  match ops with [] => [] | o :: t => let (s, r) := c_step packed raw inflate part s o in r :: c_run packed raw inflate part s t end.

(** ** Paths *)
(** std::string::substr: the count is size_t, so that -1 means the rest *)
Definition substr (s : list Z) (pos count : Z) : res (list Z) :=
  if zlen s <? pos then Throw else Ok (firstn (Z.to_nat (u64 count)) (skipn (Z.to_nat pos) s)).
(** a container: its files in the order of the map, each with its data and, if it can be opened as one,
    the container in it; V8Catalog::get_file looks up the lower-cased name, V8Catalog.cpp:402-411 *)
Inductive node := Nd (data : list Z) (sub : option (list (list Z * node))).
Definition nd_data (n : node) : list Z := match n with Nd d _ => d end.
Definition nd_sub (n : node) : option (list (list Z * node)) := match n with Nd _ c => c end.
Definition cat_get (lower : list Z -> list Z) (c : list (list Z * node)) (name : list Z) : option node := mget (lower name) c.
(** the loop and the last file of ConfigStorageCFFile::readfile, ConfigStorage.cpp:118-150; None = nullptr.
    Every round shortens the name; [fuel] is its length. *)
Fixpoint walk (fuel : nat) (lower : list Z -> list Z) (c : list (list Z * node)) (fname : list Z) : res (option (list Z)) :=
  match sfind fname [92] with
  | None => Ok (option_map nd_data (cat_get lower c fname))
  | Some i =>
      match fuel with
      | O => Hang
      | S k =>
          let i := Z.of_nat i in
          do top <- substr fname 0 (i - 1);
          match cat_get lower c top with
          | None => Ok None
          | Some f => match nd_sub f with
                      | None => Ok None
                      | Some c => do rest <- substr fname (i + 1) (zlen fname - i - 1); walk k lower c rest
                      end
          end
      end
  end.
Definition cf_readfile (lower : list Z -> list Z) (c : list (list Z * node)) (path : list Z) : res (option (list Z)) :=
  do fname <- string_replace path [47] [92] true;
  walk (length fname) lower c fname.
(** ConfigStorageCFFile::fileexists, 190-208 *)
Definition cf_fileexists (lower : list Z -> list Z) (c : list (list Z * node)) (path : list Z) : res bool :=
  do fname <- string_replace path [47] [92] true;
  do top <- match sfind fname [92] with Some i => substr fname 0 (Z.of_nat i - 1) | None => Ok fname end;
  Ok (match cat_get lower c top with Some _ => true | None => false end).

(** ** Updates: ConfigStorageTableConfig, ConfigStorage.cpp:571-689 *)
(** parse_dynamically_updated_tree, 1129-1167: fewer identifiers than announced is a null pointer;
    a negative count makes vector::reserve throw *)
Fixpoint take_guids (n : nat) (l : list tree) : res (list (list Z)) :=
  match n with
  | O => Ok []
  | S k => match l with [] => UB | Node v _ _ :: t => do g <- guid_of_text v; do r <- take_guids k t; Ok (g :: r) end
  end.
Definition dynup_of (tt : tree) : res (list (list Z)) :=
  match tt with
  | Node _ _ (Node _ _ (_ :: Node v nd_number _ :: rest) :: _) => do n <- to_int_def v 0; if n <? 0 then Throw else take_guids (Z.to_nat n) rest
  | _ => Throw
  end.
Definition s_dynupdate := [95;100;121;110;117;112;100;97;116;101;95].
Definition s_new := [110;101;119].
Fixpoint rfind (pat s : list Z) : option nat :=
  match (match s with [] => None | _ :: t => rfind pat t end) with
  | Some i => Some (S i)
  | None => if eq_list (firstn (length pat) s) pat then Some 0%nat else None
  end.
Fixpoint index_of (g : list Z) (l : list (list Z)) : option Z :=
  match l with [] => None | x :: t => if guid_eqb x g then Some 0 else option_map (fun i => i + 1) (index_of g t) end.
Record cfile := CF { c_file : tfile; c_name : list Z; c_dyn : Z }.
(** the name and the rank of a file, 614-665 *)
Definition rank_file (lower : list Z -> list Z) (dynup : list (list Z)) (file_name : list Z) : res (list Z * Z) :=
  let '(name, ext) := match rfind_char 46 file_name with Some m => (firstn m file_name, skipn (S m) file_name) | None => (file_name, []) end in
  let '(ext, dyn) := if eq_list (lower ext) (lower s_new) then ([], -2) else (ext, -1) in
  do q <- match rfind s_dynupdate name with
          | None => Ok (name, dyn)
          | Some m =>
              let m := Z.of_nat m in
              do id <- substr name (m + 11 - 1) (zlen name - m - 11);
              do name' <- substr name 0 m;
              do g <- guid_of_text id;
              Ok (name', match index_of g dynup with Some i => i | None => -2 end)
          end;
  let '(name, dyn) := q in
  Ok (match ext with [] => name | _ => name ++ 46 :: ext end, dyn).
(** 667-684 *)
Definition offer (lower : list Z -> list Z) (m : smap cfile) (f : tfile) (name : list Z) (dyn : Z) : smap cfile :=
  match mget (lower name) m with
  | None => mput (lower name) (CF f name dyn) m
  | Some p => if c_dyn p <? dyn then mput (lower name) (CF f (c_name p) dyn) m else m
  end.
(** the length of the first part, 611: [tf->addr->blob_length] *)
Definition first_len (f : tfile) : Z := snd (nth 0 (t_addr f) (0, 0)).
(** the loop, 606-685: [updated] = the key of DynamicallyUpdated *)
Fixpoint config_loop (lower : list Z -> list Z) (dynup : list (list Z)) (files : smap tfile) (m : smap cfile) : res (smap cfile) :=
  match files with
  | [] => Ok m
  | (k, f) :: t =>
      if eq_list k (lower s_DynamicallyUpdated) then config_loop lower dynup t m
      else if first_len f =? 0 then config_loop lower dynup t m
      else do q <- rank_file lower dynup (t_name f); let '(name, dyn) := q in config_loop lower dynup t (offer lower m f name dyn)
  end.
Definition config_files lower dynup files := config_loop lower dynup files [].

(** ** ConfigStorageTableConfigSave, 700-842 *)
(** the name and the rank of a file of CONFIG, 786-824; here the text of the identifier is right, but
    the last letter of the name is dropped, and find takes the first mark.  [g] keeps the identifier of
    an earlier file when a text is not one (string_to_GUID) *)
Definition rank_save (lower : list Z -> list Z) (dynup : list (list Z)) (g : list Z) (s : list Z) : res (list Z * Z * list Z) :=
  do ne <- match rfind_char 46 s with
           | Some m => let m := Z.of_nat m in do a <- substr s 0 (m - 1); do e <- substr s (m + 1) (zlen s - m); Ok (a, e)
           | None => Ok (s, [])
           end;
  let '(name, ext) := ne in
  let '(ext, dyn) := if eq_list (lower ext) (lower s_new) then ([], zlen dynup + 1) else (ext, -1) in
  do q <- match sfind name s_dynupdate with
          | None => Ok (name, dyn, g)
          | Some m =>
              let m := Z.of_nat m in
              do id <- substr name (m + 11) (zlen name - m - 11 + 1);
              do name' <- substr name 0 (m - 1);
              do g <- match guid_of_text id with Ok x => Ok x | Throw => Ok g | UB => UB | Hang => Hang end;
              Ok (name', match index_of g dynup with Some i => i | None => -2 end, g)
          end;
  let '(name, dyn, g) := q in
  Ok (match ext with [] => name | _ => name ++ 46 :: ext end, dyn, g).
(** 752-771: the saved files; a name twice throws *)
Fixpoint save_first (lower : list Z -> list Z) (top : Z) (files : smap tfile) (m : smap cfile) : res (smap cfile) :=
  match files with
  | [] => Ok m
  | (k, f) :: t =>
      if eq_list k (lower [100;101;108;101;116;101;100]) then save_first lower top t m
      else if first_len f =? 0 then save_first lower top t m
      else match mget (lower (t_name f)) m with
           | None => save_first lower top t (mput (lower (t_name f)) (CF f (t_name f) top) m)
           | Some _ => Throw
           end
  end.
(** 773-841: [del] = the lower-cased names of the deleted objects *)
Fixpoint save_second (lower : list Z -> list Z) (dynup : list (list Z)) (del : list (list Z)) (g : list Z) (files : smap tfile) (m : smap cfile) : res (smap cfile) :=
  match files with
  | [] => Ok m
  | (k, f) :: t =>
      if eq_list k (lower s_DynamicallyUpdated) then save_second lower dynup del g t m
      else if first_len f =? 0 then save_second lower dynup del g t m
      else if existsb (eq_list (lower (t_name f))) del then save_second lower dynup del g t m
      else do q <- rank_save lower dynup g (t_name f); let '(name, dyn, g) := q in save_second lower dynup del g t (offer lower m f name dyn)
  end.
Definition save_files lower dynup del (config saved : smap tfile) : res (smap cfile) :=
  do m <- save_first lower (zlen dynup + 2) saved [];
  save_second lower dynup del (repeat 0 16) config m.

(** ** ConfigStorageTableConfigCas, 853-968, after configinfo is parsed: [items] = the nodes after the
    count.  The stream for the hash is not emptied: a shorter hash leaves the end of the one before. *)
Fixpoint cas_loop (n : nat) (lower : list Z -> list Z) (tab : smap tfile) (hash : list Z) (items : list tree) (m : smap tfile) : res (smap tfile) :=
  match n with
  | O => Ok m
  | S k =>
      match items with
      | Node name nd_string _ :: Node value nd_binary2 _ :: t =>
          let d := base64_decode value in
          let hash := d ++ skipn (length d) hash in
          match get_file lower tab (hexstring hash) with
          | Some f => cas_loop k lower tab hash t (mput (lower name) f m)
          | None => Throw
          end
      | _ => Throw
      end
  end.

(** ** ConfigStorageTableConfigCasSave, 998-1010: the files of a user; [uid] = the text and two underscores *)
Fixpoint cas_user (lower : list Z -> list Z) (uid : list Z) (files : smap tfile) (m : smap cfile) : res (smap cfile) :=
  match files with
  | [] => Ok m
  | (k, f) :: t =>
      if eq_list (lower (firstn (length uid) k)) (lower uid) then
        do name <- substr (t_name f) (zlen uid) (zlen (t_name f) - zlen uid - 1);
        cas_user lower uid t (mput (lower name) (CF f name (-3)) m)
      else cas_user lower uid t m
  end.
(** 1012-1034: Some = the file configinfo of the user, None = that of the configuration is used *)
Definition cas_info (lower : list Z -> list Z) (uid : list Z) (files : smap tfile) : res (option cfile) :=
  do m <- cas_user lower uid files [];
  match find (fun '(_, c) => eq_list (lower (c_name c)) (lower [99;111;110;102;105;103;105;110;102;111])) m with
  | Some (_, c) => Ok (Some c)
  | None => match m with [] => Ok None | _ => Throw end
  end.
