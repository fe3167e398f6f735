(** The test of the format of a configuration.
    Source: /repo/src/tool1cd/Class_1CD.cpp:609-1190 (test_stream_format and its recursion).
    Left out: messages; values of more than 10 MiB, which go through temporary files; what delete does. *)
From Verif Require Import Prelude Text_Model Tree_Model Descr_Model.

(** an element of a container: V8File::get_catalog gives a container, throws, or gives none, and then get_stream its content *)
Inductive elem := EData (name data : list Z) | ECat (name : list Z) (l : list elem) | EBad (name : list Z).
(** [z] = ZInflateStream on a whole value, None = an exception; [cat p s] = the elements of V8Catalog(s, p), none if [s] is
    not a container; Throw = the constructor throws *)
Record cenv := CE { z : list Z -> option (list Z); cat : bool -> list Z -> res (list elem) }.

Definition users_usr : list Z := [80;65;82;65;77;83;47;117;115;101;114;115;46;117;115;114].
Definition n_module : list Z := [109;111;100;117;108;101].
Definition n_text : list Z := [116;101;120;116].
Definition moxcel : list Z := [77;79;88;67;69;76;0].
Definition skd : list Z := [0;0;0;0;1;0;0;0].
(** _EMPTY_CATALOG_TEMPLATE, which the constructor of V8Catalog writes to an empty stream, V8Catalog.cpp:253-254 *)
Definition template : list Z := [255;255;255;127;0;2;0;0;0;0;0;0;0;0;0;0].
(** the literal of line 1129 in the encoding of the source file, UTF-8 *)
Definition features : list Z := [123;208;165;208;144;208;160;208;144;208;154;208;162;208;149;208;160;208;152;208;161;208;162;208;152;208;154;208;152].
Definition same_bytes (a b : list Z) : bool := if list_eq_dec Z.eq_dec a b then true else false.

(** 1037-1067: a failed unpacking is replaced by what was there before; the second result is zipped2 *)
Definition unpacked (e : cenv) (twice : bool) (v : list Z) : list Z * bool :=
  match z e v with
  | None => (v, false)
  | Some s => if twice then match z e s with Some t => (t, true) | None => (s, false) end else (s, false)
  end.
(** 1083-1104: the headers of spreadsheets and of data composition schemes are taken off; Seek beyond the end throws,
    CopyFrom(_s, 0) copies all *)
Definition headless (s : list Z) : res (list Z) :=
  if zlen s <? 16 then Ok s
  else if same_bytes (firstn 7 s) moxcel then Ok (skipn 13 s)
  else if same_bytes (firstn 8 s) skd then (if zlen s <? 24 then Throw else if zlen s =? 24 then Ok s else Ok (skipn 24 s))
  else Ok s.
(** 1118-1128: the text from its first character that is no white space; all of it white space: nothing left *)
Definition blank (c : Z) : bool := (c =? 13) || (c =? 10) || (c =? 9) || (c =? 32).
Fixpoint trimmed (t : list Z) : list Z := match t with [] => [] | c :: r => if blank c then trimmed r else t end.
(** 1129-1138; parse_1Ctext throws and never gives a null pointer (Parse_tree.cpp:486-532) *)
Definition check_text (t : list Z) : res bool :=
  match trimmed t with
  | 123 :: r => do f <- equal_ic (firstn 15 (123 :: r)) features; if f then Ok true else do _ <- parse_text t; Ok true
  | _ => Ok true
  end.
(** 1106-1140: an encoding without a mark throws *)
Definition check_bytes (s : list Z) : res bool :=
  do b <- headless s;
  match buffer_encoding b with
  | (1, o) => if 0 <? zlen b - o then check_text (skipn 3 b) else Ok true
  | (2, o) => if 0 <? zlen b - o then do t <- ucs2_to_utf8 (skipn 2 b); check_text t else Ok true
  | _ => Throw
  end.
Definition under (path name : list Z) : list Z := path ++ 47 :: name.
(** 1156-1190; [check] = the test of a value that is not zipped twice; [r] = result so far *)
Fixpoint check_elem (check : list Z -> list Z -> res bool) (path : list Z) (r : bool) (x : elem) : res bool :=
  match x with
  | EBad _ => Throw
  | EData n d => if same_bytes n n_module || same_bytes n n_text then Ok r else check (under path n) d
  | ECat n l => (fix go (l : list elem) (r : bool) : res bool := match l with [] => Ok r | y :: l => do r <- check_elem check (under path n) r y; go l r end) l true
  end.
Fixpoint check_elems (check : list Z -> list Z -> res bool) (path : list Z) (l : list elem) (r : bool) : res bool :=
  match l with [] => Ok r | x :: l => do r <- check_elem check path r x; check_elems check path l r end.
(** 1007-1154; containers in containers bound the depth only as far as packing does: a value can unpack to a container
    that holds the value (fuel) *)
Fixpoint check_value (e : cenv) (fuel : nat) (path v : list Z) (twice : bool) : res bool :=
  match fuel with
  | O => Hang
  | S k =>
      if same_bytes path users_usr then Ok true
      else match v with
      | [] => Ok true
      | _ =>
          let (s, p) := unpacked e twice v in
          let s := match s with [] => template | _ => s end in
          do l <- cat e p s;
          match l with [] => check_bytes s | _ => check_elems (fun q d => check_value e k q d false) path l true end
      end
  end.

(** ** Records *)
(** a record of CONFIG, CONFIGSAVE or PARAMS: removed or not, FILENAME, DATASIZE as text, the blob (C27) *)
Record trow := TR { r_removed : bool; r_name : list Z; r_size : list Z; r_value : res (list Z) }.
Record ttab := TT { tt_name : list Z; tt_fields : list (list Z); tt_rows : list trow }.
(** 923-975; 2 * GUID_LEN = 72 *)
Definition check_row (e : cenv) (fuel : nat) (table : list Z) (r : trow) : res bool :=
  if r_removed r then Ok true
  else
    do v <- r_value r;
    do n <- stoi (r_size r);
    if n =? zlen v then check_value e fuel (under table (r_name r)) v (72 <? zlen (r_name r)) else Throw.
(** 979-1003 *)
Definition check_schema (e : cenv) (fuel : nat) (table : list Z) (r : trow) : res bool :=
  if r_removed r then Ok true else do v <- r_value r; check_value e fuel table v false.
Fixpoint check_rows (f : trow -> res bool) (l : list trow) (result : bool) : res bool :=
  match l with [] => Ok result | r :: l => do x <- f r; check_rows f l (result && x) end.
(** 617-886: the fields of a table; CompareIC *)
Fixpoint named (names fields : list (list Z)) : res unit :=
  match names, fields with
  | n :: names, f :: fields => do c <- compare_ic f n; if c =? 0 then named names fields else Throw
  | _, _ => Ok tt
  end.
Definition seven : list (list Z) :=
  [[70;73;76;69;78;65;77;69]; [67;82;69;65;84;73;79;78]; [77;79;68;73;70;73;69;68]; [65;84;84;82;73;66;85;84;69;83]; [68;65;84;65;83;73;90;69];
   [66;73;78;65;82;89;68;65;84;65]; [80;65;82;84;78;79]].
Definition file_table (t : option ttab) : res ttab :=
  match t with
  | None => Throw
  | Some t => if (zlen (tt_fields t) <? 6) || (7 <? zlen (tt_fields t)) then Throw else do _ <- named seven (tt_fields t); Ok t
  end.
Definition schema_table (t : option ttab) : res ttab :=
  match t with
  | None => Throw
  | Some t => if negb (zlen (tt_fields t) =? 1) then Throw else do _ <- named [[83;69;82;73;65;76;73;90;69;68;68;65;84;65]] (tt_fields t); Ok t
  end.
Record tbase := TB { tb_config : option ttab; tb_configsave : option ttab; tb_params : option ttab; tb_files : option ttab; tb_schema : option ttab }.
(** test_stream_format, 609-920 *)
Definition test_format (e : cenv) (fuel : nat) (b : tbase) : res bool :=
  do c <- file_table (tb_config b);
  do s <- file_table (tb_configsave b);
  do p <- file_table (tb_params b);
  do _ <- file_table (tb_files b);
  do d <- schema_table (tb_schema b);
  do r <- check_rows (check_row e fuel (tt_name c)) (tt_rows c) true;
  do r <- check_rows (check_row e fuel (tt_name s)) (tt_rows s) r;
  do r <- check_rows (check_row e fuel (tt_name p)) (tt_rows p) r;
  if zlen (tt_rows d) <? 2 then Throw
  else check_rows (check_schema e fuel (tt_name d)) (tt_rows d) r.
