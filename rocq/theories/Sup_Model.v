(** Configurations of vendors kept in an infobase.
    Sources: /repo/src/tool1cd/SupplierConfigBuilder.cpp, SupplierConfig.cpp, Class_1CD.cpp:520-545 and
    2339-2345, cfapi/V8File.cpp:681-700, ctool1cd/App.cpp:356-375.
    [s_lower] stands for LowerCase (C13), EqualIC is equality of the lower-cased texts; [s_inflate] for ZInflateStream
    (None = ZError); [s_cat] for V8Catalog over a stream: its elements by lower-cased name, each with its content and,
    if the content is a container, the elements of that (C38, C153); messages are left out. *)
From Verif Require Import Prelude Codec_Model Text_Model Tree_Model Cfg_Model Descr_Model.

Record senv := SE { s_lower : list Z -> list Z; s_inflate : list Z -> option (list Z); s_cat : list Z -> list (list Z * node) }.
(** TableFile: its name and the blobs of its parts one after another (Cfg_Model.raw_file) *)
Record vfile := VF { vf_name : list Z; vf_raw : list Z }.

(** ContainerFile::open on a fresh object, ConfigStorage.cpp:236-287 *)
Definition content (e : senv) (f : vfile) : res (list Z) :=
  do p <- is_packed (s_lower e) (vf_name f);
  if p then match s_inflate e (vf_raw f) with Some d => Ok d | None => Throw end else Ok (vf_raw f).
(** SupplierConfigBuilder's constructor, 38-60 *)
Definition main_catalog (e : senv) (f : vfile) : res (list (list Z * node)) :=
  do d <- content e f;
  match s_inflate e d with None => Throw | Some d => Ok (s_cat e d) end.

(** V8File::get_tree, V8File.cpp:681-700: the encoding from the first bytes, the text without them *)
Definition get_tree (d : list Z) : res tree :=
  match buffer_encoding d with
  | (1, _) => parse_text (skipn 3 d)
  | (2, _) => do t <- ucs2_to_utf8 (skipn 2 d); parse_text t
  | _ => Throw
  end.
(** Tree::operator[], Parse_tree.cpp:178-189: a reference made of a null pointer when there is no such node *)
Definition sub_node (t : tree) (i : nat) : res tree :=
  match t with Node _ _ l => match nth_error l i with Some c => Ok c | None => UB end end.
Definition node_value (t : tree) : list Z := match t with Node v _ _ => v end.

Definition s_version := [118;101;114;115;105;111;110].
Definition s_metadata := [109;101;116;97;100;97;116;97].
Definition s_root := [114;111;111;116].
(** get_version, 152-176; stoi throws *)
Definition get_version (e : senv) (c : list (list Z * node)) : res Z :=
  match cat_get (s_lower e) c s_version with
  | None => Throw
  | Some f => do t <- get_tree (nd_data f); do a <- sub_node t 0; do b <- sub_node a 0; do v <- sub_node b 0; stoi (node_value v)
  end.
(** get_file, 178-204 *)
Definition get_file (e : senv) (c : list (list Z * node)) (name : list Z) : res (option node) :=
  do v <- get_version e c;
  if v <? 100 then
    match cat_get (s_lower e) c s_metadata with
    | None => Throw
    | Some f => match nd_sub f with None => Throw | Some c2 => Ok (cat_get (s_lower e) c2 name) end
    end
  else Ok (cat_get (s_lower e) c name).

(** NODE_GENERAL, 34-36: 9cd510cd-abfc-11d4-9434-004095e12fc7 *)
Definition s_general := [57;99;100;53;49;48;99;100;45;97;98;102;99;45;49;49;100;52;45;57;52;51;52;45;48;48;52;48;57;53;101;49;50;102;99;55].
(** the cases of verconfinfo, 100-125: 15, and all others *)
Definition conf_info (c : tree) : res (list Z * list Z * list Z) :=
  do k <- sub_node c 0; do ver <- stoi (node_value k);
  do a <- sub_node c 1; do b <- sub_node a 1; do n <- sub_node b 2;
  if ver =? 15 then do s <- sub_node c 11; do v <- sub_node c 12; Ok (node_value n, node_value s, node_value v)
  else do s <- sub_node c 14; do v <- sub_node c 15; Ok (node_value n, node_value s, node_value v).
(** the loop over the nodes, 93-129: [n] nodes are left, the next one is number 3 + [i] *)
Fixpoint scan (e : senv) (n i : nat) (top : tree) : res (option (list Z * list Z * list Z)) :=
  match n with
  | O => Ok None
  | S n =>
      do nd <- sub_node top (3 + i);
      do ty <- sub_node nd 0;
      if eq_list (s_lower e (node_value ty)) (s_lower e s_general) then
        do a <- sub_node nd 1; do c <- sub_node a 1; do r <- conf_info c; Ok (Some r)
      else scan e n (S i) top
  end.
Record vendor := VC { v_file : vfile; v_name : list Z; v_supplier : list Z; v_version : list Z }.
(** build, 62-150.  Without the node "General" the texts stay empty, 131-139 *)
Definition build (e : senv) (f : vfile) : res vendor :=
  do c <- main_catalog e f;
  do r <- get_file e c s_root;
  match r with
  | None => Throw
  | Some r =>
      do t <- get_tree (nd_data r); do a <- sub_node t 0; do b <- sub_node a 1;
      do m <- get_file e c (node_value b);
      match m with
      | None => Throw
      | Some m =>
          do t <- get_tree (nd_data m); do top <- sub_node t 0; do cnt <- sub_node top 2;
          do n <- stoi (node_value cnt);
          do q <- scan e (Z.to_nat n) 0 top;
          match q with
          | Some (nm, s, v) => Ok (VC f nm s v)
          | None => Ok (VC f [] [] [])
          end
      end
  end.

(** T_1CD::find_supplier_configs and supplier_configs, Class_1CD.cpp:520-545, 2339-2345: the vendors found so far
    stay in the list when an exception leaves the loop.  [files] = TableFiles::files(), by key *)
Record dbst := DS { ds_list : list vendor; ds_defined : bool }.
Fixpoint add_all (e : senv) (fs : list (list Z * vfile)) (l : list vendor) : list vendor * res unit :=
  match fs with
  | [] => (l, Ok tt)
  | (k, f) :: t =>
      if zlen k =? 73 then
        match build e f with
        | Ok v => add_all e t (l ++ [v])
        | Throw => (l, Throw) | UB => (l, UB) | Hang => (l, Hang)
        end
      else add_all e t l
  end.
Definition supplier_configs (e : senv) (configsave config : list (list Z * vfile)) (s : dbst) : dbst * res (list vendor) :=
  if ds_defined s then (s, Ok (ds_list s))
  else let (l, r) := add_all e (configsave ++ config) (ds_list s) in
       match r with
       | Ok _ => (DS l true, Ok l)
       | Throw => (DS l false, Throw) | UB => (DS l false, UB) | Hang => (DS l false, Hang)
       end.

(** SupplierConfig::save_to_file, SupplierConfig.cpp:38-70, into the directory [d]: name to content.  [can] = the
    file can be created; a TFileStream that could not be opened takes the data without complaint (Port_Model).
    [part] = what ZInflateStream had written when it failed *)
Definition dir := list Z -> option (list Z).
Definition put (d : dir) (n : list Z) (x : list Z) : dir := fun m => if eq_list m n then Some x else d m.
Definition save_to_file (e : senv) (can : list Z -> bool) (part : list Z -> list Z) (v : vendor) (n : list Z) (d : dir) : res (bool * dir) :=
  do c <- content e (v_file v);
  match s_inflate e c with
  | Some x => Ok (true, if can n then put d n x else d)
  | None => Ok (false, if can n then put d n (part c) else d)
  end.
(** App::save_vendors_configs, App.cpp:356-375: the name of the file, whether it is said to have been saved *)
Definition cf_name (v : vendor) : list Z := v_name v ++ [32] ++ v_version v ++ [46; 99; 102].
Fixpoint save_all (e : senv) (can : list Z -> bool) (part : list Z -> list Z) (vs : list vendor) (d : dir) : res (list (list Z * bool) * dir) :=
  match vs with
  | [] => Ok ([], d)
  | v :: t =>
      do r <- save_to_file e can part v (cf_name v) d;
      do q <- save_all e can part t (snd r);
      Ok ((cf_name v, fst r) :: fst q, snd q)
  end.
Definition save_vendors (e : senv) (can : list Z -> bool) (part : list Z -> list Z) (configsave config : list (list Z * vfile)) (s : dbst) (d : dir) : res (list (list Z * bool) * dir) :=
  do vs <- snd (supplier_configs e configsave config s);
  save_all e can part vs d.
