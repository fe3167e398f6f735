(** Model of the lists and trees of the graphical program: src/gtool1cd/models/tables_list_model.cpp,
    skobka_tree_model.cpp, v8catalog_tree_model.cpp, table_data_model.cpp (values), BlobViewer/blob_viewer.cpp (text)
    and cache.cpp.  Not modelled: the widgets, the translation of the words shown, the threads. *)
From Verif Require Import Prelude Lists Text_Model Tree_Model Stream_Model Cf_Model.

(** ** Sizes in the list of tables, tables_list_model.cpp *)
(** int of the 64-bit length of a stored object; a missing object has none.  object_size, 23-29.  The conversion to
    int keeps the low 32 bits (as every compiler the project is built with does). *)
Definition as_int (n : Z) : Z := let m := n mod 2^32 in if m <? 2^31 then m else m - 2^32.
Definition object_size (len : option Z) : Z := match len with None => 0 | Some n => as_int n end.
(** B, KiB, MiB, GiB, TiB; 34-36 *)
Definition suffixes : list (list Z) := [[66]; [75;105;66]; [77;105;66]; [71;105;66]; [84;105;66]].
(** the loop of 39-44: (modified_size, frac_part, suffix_index) *)
Fixpoint shrink (fuel : nat) (size frac idx : Z) : Z * Z * Z :=
  match fuel with
  | O => (size, frac, idx)
  | S k => if (idx <? zlen suffixes) && (1000 <? size)
           then let new := Z.shiftr size 10 in shrink k new (size - Z.shiftl new 10) (idx + 1)
           else (size, frac, idx)
  end.
(** human_size, 31-47: the number of 1024ths handed to QString::number(value, 'f', 2), and the suffix;
    [suffix[5]] is out of range.  The value is a sum of an integer of at most 2^24 and a multiple of 1/1024 below 1 or
    an integer alone: the float and double arithmetic is exact. *)
Definition human_size (size : Z) : res (Z * list Z) :=
  let '(m, f, i) := shrink 6 (size mod 2^64) 0 0 in
  match nth_error suffixes (Z.to_nat i) with Some s => Ok (1024 * m + f, s) | None => UB end.
(** the decimal digits of a number that is not negative *)
Fixpoint number (fuel : nat) (n : Z) : list Z :=
  match fuel with O => [] | S k => (if n <? 10 then [] else number k (n / 10)) ++ [48 + n mod 10] end.
(** QString::number(v / 1024, 'f', 2): [round2 v] = the hundredths that are printed; the digits printed are the
    integer part of the hundredths, a dot and two digits *)
Definition digits2 (r : Z) : list Z := number 25 (r / 100) ++ [46; 48 + r mod 100 / 10; 48 + r mod 10].
Definition shown_size (round2 : Z -> Z) (size : Z) : res (list Z) :=
  do p <- human_size size; Ok (digits2 (round2 (fst p)) ++ [32] ++ snd p).
(** columns 3 to 6 of a row, 86-95; the sum of ints of column 6 may overflow *)
Definition columns (round2 : Z -> Z) (d b i : option Z) : list (res (list Z)) :=
  let n := object_size d + object_size b in let m := n + object_size i in
  [shown_size round2 (object_size d); shown_size round2 (object_size b); shown_size round2 (object_size i);
   if (-2^31 <=? n) && (n <? 2^31) && (-2^31 <=? m) && (m <? 2^31) then shown_size round2 m else UB].

(** ** The tree of a parsed text, skobka_tree_model.cpp *)
(** A node of the tree is named by the numbers of the subnodes on the way from the root: the pointers of the code are
    in bijection with these.  An index of the view: row, column and node; [None] is the invalid index. *)
Definition index := option (Z * Z * list nat).
Definition kids_of (t : tree) : list tree := match t with Node _ _ k => k end.
Fixpoint at_ (t : tree) (p : list nat) : option tree :=
  match p with [] => Some t | i :: q => match nth_error (kids_of t) i with Some k => at_ k q | None => None end end.
Definition subnodes (t : tree) (p : list nat) : Z := match at_ t p with Some n => zlen (kids_of n) | None => 0 end.
Definition ptr (x : index) : list nat := match x with Some (_, _, p) => p | None => [] end.
(** rowCount, 34-53 *)
Definition rowCount (t : tree) (x : index) : Z :=
  match x with Some (_, c, p) => if 0 <? c then 0 else subnodes t p | None => subnodes t [] end.
(** columnCount, 55-58 *)
Definition columnCount : Z := 2.
(** QAbstractItemModel::hasIndex *)
Definition hasIndex (t : tree) (r c : Z) (x : index) : bool :=
  (0 <=? r) && (r <? rowCount t x) && (0 <=? c) && (c <? columnCount).
(** Tree::get_subnode, Parse_tree.cpp:127-137: nullptr behind the last one *)
Definition get_subnode (t : tree) (p : list nat) (r : Z) : option (list nat) :=
  if subnodes t p <=? r then None else Some (p ++ [Z.to_nat r]).
(** index, 73-94 *)
Definition index_at (t : tree) (r c : Z) (x : index) : index :=
  if hasIndex t r c x then match get_subnode t (ptr x) r with Some q => Some (r, c, q) | None => None end else None.
(** index_of, 60-71: the first subnode of [p] that is [q] *)
Fixpoint find_row (n : nat) (p q : list nat) (i : nat) : Z :=
  match n with O => -1 | S k => if list_eq_dec Nat.eq_dec (p ++ [i]) q then Z.of_nat i else find_row k p q (S i) end.
(** parent, 96-107.  get_parent of a node that is not the root is the node without the last number. *)
Definition parent_of (t : tree) (x : index) : index :=
  match x with
  | None => None
  | Some (_, _, p) =>
      match p with
      | [] => None
      | _ => let q := removelast p in
             match q with [] => None | _ => let g := removelast q in Some (find_row (Z.to_nat (subnodes t g)) g q 0, 0, q) end
      end
  end.
(** Tree::path, Parse_tree.cpp:240-253, the first column: the number of a node among its brothers is its place as long
    as no node has been removed, and the views remove none *)
Definition path_text (p : list nat) : list Z := flat_map (fun i => 58 :: number 11 (Z.of_nat i)) p.
(** everything the view shows when each row is opened: the rows below [x] in the order of the screen, by the calls of
    rowCount and index *)
Fixpoint expand (fuel : nat) (t : tree) (x : index) : list index :=
  match fuel with
  | O => []
  | S k => flat_map (fun r => let y := index_at t (Z.of_nat r) 0 x in y :: expand k t y) (seq 0 (Z.to_nat (rowCount t x)))
  end.

(** QString::left: the whole string for a count that is negative or too large *)
Definition q_left (s : list Z) (n : Z) : list Z := if (n <? 0) || (zlen s <=? n) then s else firstn (Z.to_nat n) s.
Fixpoint find_from (c : Z) (s : list Z) (i : Z) : Z := match s with [] => -1 | x :: t => if x =? c then i else find_from c t (i + 1) end.
(** trim_item_presentation, 109-124; [s] = the UTF-16 units *)
Definition trim_item (s : list Z) : list Z :=
  let k := find_from 10 s 0 in
  let s := if k =? -1 then s else q_left s (k - 1) in
  if 40 <? zlen s then q_left s 37 ++ [46;46;46] else s.

(** ** The tree of a container, v8catalog_tree_model.cpp *)
(** An element: its name and, when it is itself a container, its elements in the order of the file *)
Inductive elem := Elem (name : list Z) (inner : option (list elem)).
Definition e_name (e : elem) : list Z := match e with Elem n _ => n end.
Definition e_inner (e : elem) : option (list elem) := match e with Elem _ k => k end.
(** v8files(): the map from the name in lower case to the element, V8File.cpp:60; its size *)
Fixpoint map_size (low : list Z -> list Z) (seen : list (list Z)) (l : list elem) : nat :=
  match l with
  | [] => O
  | e :: t => if in_dec (list_eq_dec Z.eq_dec) (low (e_name e)) seen then map_size low seen t else S (map_size low (low (e_name e) :: seen) t)
  end.
(** An index: [inl tt] = the row of the container itself (null pointer), [inr p] = the element reached by the places [p] *)
Definition cindex := option (Z * option (list nat)).
Fixpoint below (l : list elem) (p : list nat) : option (list elem) :=
  match p with [] => Some l | i :: q => match nth_error l i with Some e => match e_inner e with Some k => below k q | None => None end | None => None end end.
Definition path_of (x : option (list nat)) : list nat := match x with None => [] | Some p => p end.
(** rowCount, 33-51 (the only column is 0) *)
Definition crows (low : list Z -> list Z) (root : list elem) (x : cindex) : Z :=
  match x with
  | None => 1
  | Some (_, p) => match below root (path_of p) with Some k => Z.of_nat (map_size low [] k) | None => 0 end
  end.
(** get_file, 58-68: down the list of elements; index, 70-89 *)
Definition cindex_at low (root : list elem) (r : Z) (x : cindex) : cindex :=
  if (0 <=? r) && (r <? crows low root x) then
    match x with
    | None => Some (r, None)
    | Some (_, p) => match below root (path_of p) with
                     | Some k => match nth_error k (Z.to_nat r) with Some _ => Some (r, Some (path_of p ++ [Z.to_nat r])) | None => None end
                     | None => None
                     end
    end
  else None.
(** parent, 109-127; index_of, 92-106 finds the place of the element in the list of its container *)
Definition cparent (root : list elem) (x : cindex) : cindex :=
  match x with
  | None | Some (_, None) => None
  | Some (_, Some p) =>
      match removelast p with
      | [] => Some (0, None)
      | q => let g := removelast q in
             Some (match below root g with Some k => find_row (length k) g q 0 | None => -1 end, Some q)
      end
  end.
Fixpoint cexpand (fuel : nat) low (root : list elem) (x : cindex) : list cindex :=
  match fuel with
  | O => []
  | S k => flat_map (fun r => let y := cindex_at low root (Z.of_nat r) x in y :: cexpand k low root y) (seq 0 (Z.to_nat (crows low root x)))
  end.

(** ** A value of a table in the viewer *)
(** inflate_stream, table_data_model.cpp:190-206: unpacked again and again until an error; [counter++ > 10] ends it *)
Fixpoint unpack (c : codec) (n : nat) (v : list Z) : list Z :=
  match n with
  | O => v
  | S k => let (w, bad) := inflate_stream c v in if bad then v else unpack c k w
  end.
Definition unpacked (c : codec) (v : list Z) : list Z := unpack c 12 v.
(** BlobViewer::setStream, blob_viewer.cpp:116-160: V8Catalog over the stream, V8Catalog.cpp:230-262, writes the 16
    bytes of an empty container into a stream without data; then the bytes are shown *)
Definition viewed (v : list Z) : list Z := match v with [] => template | _ => v end.
(** extract_text_data, blob_viewer.cpp:87-113: [None] = no text.  QString(QByteArray) takes the bytes up to the first
    zero (Qt 5), read as UTF-8, which is left out. *)
Definition text_of (v : list Z) : option (list Z) :=
  if zlen v <? 3 then None
  else if list_eq_dec Z.eq_dec (firstn 3 v) [239;187;191] then Some (cstr (skipn 3 v))
  else if list_eq_dec Z.eq_dec (firstn 3 v) [77;79;88] then
         if zlen (skipn 3 v) <? 3 then None
         else if list_eq_dec Z.eq_dec (firstn 3 (skipn 3 v)) [67;69;76] then Some (cstr (skipn 10 (skipn 6 v)))
         else None
  else None.

(** ** The list of databases opened before, cache.cpp *)
(** addDbToList, 72-82: at the end of the file, a line; [file] = [None] when there is none.  (On Windows the text mode
    writes 13 10 for 10; [nl] is what is written.) *)
Definition add_db (nl : list Z) (file : option (list Z)) (name : list Z) : option (list Z) :=
  Some ((match file with Some f => f | None => [] end) ++ flat_map (fun c => if c =? 10 then nl else [c]) (name ++ [10])).
(** QTextStream::readLine: up to 10, without it and without a 13 before it; null at the end.  (A 13 at the end of the file
    stands before no 10: addDbToList leaves no such file.) *)
Fixpoint lines (f cur : list Z) : list (list Z) :=
  match f with
  | [] => match cur with [] => [] | _ => [rev cur] end
  | c :: t => if c =? 10 then rev (match cur with 13 :: r => r | _ => cur end) :: lines t [] else lines t (c :: cur)
  end.
(** getCachedList, 50-70 *)
Definition cached (file : option (list Z)) : list (list Z) :=
  match file with None => [] | Some f => filter (fun l => match l with [] => false | _ => true end) (lines f []) end.
