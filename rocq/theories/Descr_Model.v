(** Opening a database: the header of the file, the list of tables, the description of a table.
    Sources: /repo/src/tool1cd/Class_1CD.{h,cpp}, Table.cpp, Field.cpp, FieldType.cpp, Index.cpp. *)
From Coq Require String Ascii.
From Verif Require Import Prelude Text_Model Tree_Model Field_Model.
Import String.StringSyntax.
Delimit Scope string_scope with string.

(** text of string literals *)
Definition bs (s : String.string) : list Z := map (fun a => Z.of_nat (Ascii.nat_of_ascii a)) (String.list_ascii_of_string s).
Arguments bs _%string_scope.
Definition teq (a b : list Z) : bool := if list_eq_dec Z.eq_dec a b then true else false.

(** ** The first page: v8con, Class_1CD.h:61-82, and T_1CD::open, Class_1CD.cpp:258-326 *)
Inductive dbver := V8030 | V8050 | V8100 | V8200 | V82140 | V8380.
Record header := HD { h_ver : dbver; h_page : Z; h_pages : Z; h_readonly : bool }.
(** the texts compared at 269-300; getver is the four numbers with dots, so that the numbers are compared here.
    char is signed *)
Definition ver_of (a b c d : Z) : option dbver :=
  match a, b, c, d with
  | 8, 0, 3, 0 => Some V8030 | 8, 0, 5, 0 => Some V8050 | 8, 1, 0, 0 => Some V8100 | 8, 2, 0, 0 => Some V8200
  | 8, 2, 14, 0 => Some V82140 | 8, 3, 8, 0 => Some V8380 | _, _, _, _ => None
  end.
Definition old_ver (v : dbver) : bool := match v with V8030 | V8050 => true | _ => false end.
(** [junk] = the memory of the structure before it is read; it has 24 bytes.  Division by a page size of
    zero is undefined.  The order of the length checks and the creation of the cache does not matter here *)
Definition open_header (junk file : list Z) (monopoly : bool) : res header :=
  let h := firstn 24 file ++ skipn (length (firstn 24 file)) junk in
  if negb (teq (firstn 8 h) (bs "1CDBMSV8")) then Throw
  else
    match ver_of (nth 8 h 0) (nth 9 h 0) (nth 10 h 0) (nth 11 h 0) with
    | None => Throw
    | Some v =>
        let readonly := if old_ver v then true else negb monopoly in
        let ps := match v with V8380 => le_val (sub h 20 4) | _ => 4096 end in
        if ps =? 0 then UB
        else
          let pages := u32 (zlen file / ps) in
          if negb (pages * ps =? zlen file) then Throw
          else if negb (pages =? le_val (sub h 12 4)) then Throw
          else Ok (HD v ps pages readonly)
    end.

(** ** The root object: root_80, root_81, Class_1CD.h:96-108, and open, 332-393 *)
(** strlen of the language *)
Fixpoint c_str (s : list Z) : res (list Z) :=
  match s with [] => UB | c :: r => if c =? 0 then Ok [] else do t <- c_str r; Ok (c :: t) end.
(** [data] = the bytes of the object (of the first blob from version 8.3.8 on); a negative number of tables
    makes new[] throw; the numbers behind the end of the data are not there *)
Fixpoint u32s (n : nat) (d : list Z) (pos : Z) : res (list Z) :=
  match n with O => Ok [] | S k => do b <- rdn d pos 4; do r <- u32s k d (pos + 4); Ok (le_val b :: r) end.
Definition root_tables (old : bool) (data : list Z) : res (list Z * list Z) :=
  let n := if old then 8 else 32 in
  do lang <- c_str data;
  do b <- rdn data n 4;
  let num := i32 (le_val b) in
  if num <? 0 then Throw
  else do t <- u32s (Z.to_nat num) data (n + 4); Ok (lang, t).
(** what kind of database it is, 413-468: [has] = whether a table of the name was read *)
Inductive dbkind := Infobase | Depot | Other.
Definition infobase_tables := [bs "CONFIG"; bs "CONFIGSAVE"; bs "PARAMS"; bs "FILES"; bs "DBSCHEMA"].
Definition depot_tables := [bs "DEPOT"; bs "USERS"; bs "OBJECTS"; bs "VERSIONS"; bs "LABELS"; bs "HISTORY"; bs "LASTESTVERSIONS"; bs "EXTERNALS"; bs "SELFREFS"; bs "OUTREFS"].
Definition db_kind (has : list Z -> bool) : res dbkind :=
  if forallb (fun n => negb (has n)) infobase_tables then
    if forallb (fun n => negb (has n)) depot_tables then Ok Other
    else if forallb has depot_tables then Ok Depot else Throw
  else if forallb has infobase_tables then Ok Infobase else Throw.

(** ** Table::init, Table.cpp:140-461.  Every error is an exception, so that their order does not matter *)
Record fdecl := FDc { fd_name : list Z; fd_kind : kind; fd_null : bool; fd_len : Z; fd_prec : Z; fd_cs : bool }.
Record idecl := IDc { id_name : list Z; id_primary : bool; id_cols : list (nat * Z) }.
Record tdecl := TDc { td_name : list Z; td_fields : list fdecl; td_indexes : list idecl; td_lock : bool; td_data : Z; td_blob : Z; td_index : Z }.
(** std::stoi *)
Definition stoi (v : list Z) : res Z :=
  match strtol10 v with None => Throw | Some x => if (x <? -2147483648) || (2147483647 <? x) then Throw else Ok x end.
(** field_type_declaration::parse_tree, FieldType.cpp:823-886 *)
Definition kind_of (v : list Z) : res kind :=
  if teq v (bs "B") then Ok KBin
  else if teq v (bs "L") then Ok KBool
  else if teq v (bs "N") then Ok KNum
  else if teq v (bs "NC") then Ok KChar
  else if teq v (bs "NVC") then Ok KVarchar
  else if teq v (bs "RV") then Ok KVersion
  else if teq v (bs "NT") then Ok KString
  else if teq v (bs "T") then Ok KText
  else if teq v (bs "I") then Ok KImage
  else if teq v (bs "DT") then Ok KDate
  else if teq v (bs "VB") then Ok KVarbin
  else Throw.
Definition flag_of (no yes : list Z) (v : list Z) : res bool := if teq v no then Ok false else if teq v yes then Ok true else Throw.
(** Table.cpp:207-231, Field::field_from_tree, Field.cpp:438-469 *)
Definition field_of (n : tree) : res fdecl :=
  match n with
  | Node _ _ [Node nm nd_string _; Node ty nd_string _; Node nl nd_number _; Node ln nd_number _; Node pr nd_number _; Node cs nd_string _] =>
      do k <- kind_of ty;
      do u <- flag_of (bs "0") (bs "1") nl;
      do l <- stoi ln;
      do p <- stoi pr;
      do c <- flag_of (bs "CI") (bs "CS") cs;
      Ok (FDc nm k u l p c)
  | _ => Throw
  end.
Fixpoint fields_of (l : list tree) : res (list fdecl) :=
  match l with [] => Ok [] | n :: t => do f <- field_of n; do r <- fields_of t; Ok (f :: r) end.
(** Table::find_field, Table.cpp:2409-2419: [same] = EqualIC; the position of the field *)
Fixpoint find_field (same : list Z -> list Z -> bool) (fs : list fdecl) (name : list Z) : option nat :=
  match fs with [] => None | f :: t => if same (fd_name f) name then Some 0%nat else option_map S (find_field same t name) end.
(** Index::index_from_tree, Index.cpp:1197-1264 *)
Definition col_of (same : list Z -> list Z -> bool) (fs : list fdecl) (n : tree) : res (nat * Z) :=
  match n with
  | Node _ _ [Node nm nd_string _; Node ln nd_number _] =>
      match find_field same fs nm with None => Throw | Some i => do l <- stoi ln; Ok (i, l) end
  | _ => Throw
  end.
Fixpoint cols_of same fs (l : list tree) : res (list (nat * Z)) :=
  match l with [] => Ok [] | n :: t => do c <- col_of same fs n; do r <- cols_of same fs t; Ok (c :: r) end.
Definition index_of_tree same fs (n : tree) : res idecl :=
  match n with
  | Node _ nd_list (Node nm nd_string _ :: Node pr nd_number _ :: ((_ :: _) as l)) =>
      do p <- flag_of (bs "0") (bs "1") pr;
      do c <- cols_of same fs l;
      Ok (IDc nm p c)
  | _ => Throw
  end.
Fixpoint indexes_of same fs (l : list tree) : res (list idecl) :=
  match l with [] => Ok [] | n :: t => do f <- index_of_tree same fs n; do r <- indexes_of same fs t; Ok (f :: r) end.
(** the list of indexes, 240-267: its first node is looked at only when there are others *)
Definition index_list same fs (n : tree) : res (list idecl) :=
  match n with
  | Node _ nd_list [_] => Ok []
  | Node _ nd_list (Node w nd_string _ :: l) => if teq w (bs "Indexes") then indexes_of same fs l else Throw
  | _ => Throw
  end.
Definition table_of same (rt : tree) : res tdecl :=
  match rt with
  | Node _ _ [Node name nd_string _; _; Node _ nd_list (Node w1 nd_string _ :: ((_ :: _) as fl)); ix;
              Node _ _ [Node w2 nd_string _; Node lk nd_string _];
              Node _ _ [Node w3 nd_string _; Node f0 nd_number _; Node f1 nd_number _; Node f2 nd_number _]] =>
      if negb (teq w1 (bs "Fields") && teq w2 (bs "Recordlock") && teq w3 (bs "Files")) then Throw
      else
        do fs <- fields_of fl;
        do is <- index_list same fs ix;
        do k <- flag_of (bs "0") (bs "1") lk;
        do a <- stoi f0; do b <- stoi f1; do c <- stoi f2;
        Ok (TDc name fs is k a b c)
  | _ => Throw
  end.
(** 154-171: None = an empty description, a table that is left out *)
Definition table_of_text same (descr : list Z) : res (option tdecl) :=
  match descr with
  | [] => Ok None
  | _ => do root <- parse_text descr;
         match root with Node _ _ [rt] => do t <- table_of same rt; Ok (Some t) | _ => Throw end
  end.

(** ** The files of a table, Table.cpp:323-452 *)
(** [idx] = the length of the index file and get_data on it, None without one; [ps] = page size; [v838] =
    version 8.3.8.  The numbers are uint32_t, the length uint64_t.  Gives the offsets of the indexes *)
Fixpoint index_starts (v838 : bool) (ps len : Z) (bufs : list Z) : res (list Z) :=
  match bufs with
  | [] => Ok []
  | b :: t =>
      do s <- (if v838 then if len <=? b * ps then Throw else Ok (b * ps)
               else if len <=? b then Throw else if negb (Z.land b 4095 =? 0) then Throw else Ok b);
      do r <- index_starts v838 ps len t;
      Ok (s :: r)
  end.
Definition open_indexes (v838 : bool) (ps : Z) (idx : option (Z * (Z -> Z -> res (list Z)))) (n : nat) : res (list Z) :=
  match idx with
  | None => match n with O => Ok [] | _ => Throw end
  | Some (len, get) =>
      match n with
      | O => Throw
      | _ =>
          let m := u32 (len / ps) in
          if negb (len =? u32 (m * ps)) then Throw
          else
            do buf <- get 0 (Z.of_nat n * 4 + 4);
            do bufs <- u32s (S n) buf 0;
            match bufs with
            | [] => UB
            | free :: bufs => if len <=? u32 (free * ps) then Throw else index_starts v838 ps len bufs
            end
      end
  end.
(** get_data(buf, start, length) on an object with the bytes [d] (C20, C62): a range that ends behind them throws *)
Definition from_bytes (d : list Z) : Z * (Z -> Z -> res (list Z)) :=
  (zlen d, fun off n => if zlen d <? off + n then Throw else rdn d off n).
(** the number of records, 435-452: [data] = the length of the data file *)
Definition open_data (data : option Z) (reclen : Z) : res Z :=
  match data with
  | None => Throw
  | Some len => let n := u32 (len / reclen) in if negb (u32 (n * reclen) =? len) then Throw else Ok n
  end.
