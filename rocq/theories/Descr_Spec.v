(** What a database file, its list of tables and the description of a table look like. *)
From Verif Require Import Prelude Text_Spec Tree_Model Tree_Spec Field_Model Descr_Model.
Import String.StringSyntax.

(** ** The file *)
Definition versions : list (list Z * dbver) :=
  [([8; 0; 3; 0], V8030); ([8; 0; 5; 0], V8050); ([8; 1; 0; 0], V8100); ([8; 2; 0; 0], V8200); ([8; 2; 14; 0], V82140); ([8; 3; 8; 0], V8380)].
(** signature, version, number of pages, a number not used here, and the page size, which counts from version 8.3.8 on *)
Definition opened (file : list Z) (monopoly : bool) (h : header) : Prop :=
  firstn 8 file = bs "1CDBMSV8" /\ In (sub file 8 4, h_ver h) versions /\
  h_page h = (match h_ver h with V8380 => le_val (sub file 20 4) | _ => 4096 end) /\
  zlen file = h_pages h * h_page h /\ h_pages h = le_val (sub file 12 4) /\
  (h_readonly h = true <-> monopoly = false \/ h_ver h = V8030 \/ h_ver h = V8050).
Definition no_page_size (file : list Z) : Prop := sub file 8 4 = [8; 3; 8; 0] /\ le_val (sub file 20 4) = 0.
(** language, ended by a zero, in a field of [n] bytes; number of tables; their numbers *)
Definition root_data (n : Z) (lang pad : list Z) (num : Z) (blocks rest : list Z) : list Z :=
  lang ++ 0 :: pad ++ le_bytes 4 num ++ concat (map (le_bytes 4) blocks) ++ rest.

(** ** The description of a table *)
Definition str (v : list Z) : tree := Node v nd_string [].
(** the text of a number *)
Definition int_text (v : list Z) (x : Z) : Prop :=
  -2 ^ 31 <= x < 2 ^ 31 /\ exists ds, ds <> [] /\ Forall (fun d => 0 <= d <= 9) ds /\
  ((v = map (fun d => d + 48) ds /\ x = digits_value ds) \/ (v = 45 :: map (fun d => d + 48) ds /\ x = - digits_value ds)).
Definition num (t : tree) (x : Z) : Prop := exists v, t = Node v nd_number [] /\ int_text v x.
Definition flag (b : bool) : list Z := if b then bs "1" else bs "0".
Definition codes : list (list Z * kind) :=
  [(bs "B", KBin); (bs "L", KBool); (bs "N", KNum); (bs "NC", KChar); (bs "NVC", KVarchar); (bs "RV", KVersion);
   (bs "NT", KString); (bs "T", KText); (bs "I", KImage); (bs "DT", KDate); (bs "VB", KVarbin)].
Definition field_descr (f : fdecl) (t : tree) : Prop :=
  exists code l p, t = Node [] nd_list [str (fd_name f); str code; Node (flag (fd_null f)) nd_number []; l; p; str (if fd_cs f then bs "CS" else bs "CI")] /\
  In (code, fd_kind f) codes /\ num l (fd_len f) /\ num p (fd_prec f).
(** the first field of the name *)
Definition first_named (same : list Z -> list Z -> bool) (fs : list fdecl) (name : list Z) (i : nat) : Prop :=
  exists f, nth_error fs i = Some f /\ same (fd_name f) name = true /\ forall j g, (j < i)%nat -> nth_error fs j = Some g -> same (fd_name g) name = false.
Definition col_descr same fs (c : nat * Z) (t : tree) : Prop :=
  exists name l, t = Node [] nd_list [str name; l] /\ first_named same fs name (fst c) /\ num l (snd c).
Definition index_descr same fs (i : idecl) (t : tree) : Prop :=
  exists cols, t = Node [] nd_list (str (id_name i) :: Node (flag (id_primary i)) nd_number [] :: cols) /\ cols <> [] /\ Forall2 (col_descr same fs) (id_cols i) cols.
(** name, a number that is not looked at, fields, indexes, lock, files *)
Definition describes same (d : tdecl) (t : tree) : Prop :=
  exists x fs w is a b c,
    t = Node [] nd_list [str (td_name d); x; Node [] nd_list (str (bs "Fields") :: fs); Node [] nd_list (w :: is);
                         Node [] nd_list [str (bs "Recordlock"); str (flag (td_lock d))]; Node [] nd_list [str (bs "Files"); a; b; c]] /\
    fs <> [] /\ Forall2 field_descr (td_fields d) fs /\
    (is <> [] -> w = str (bs "Indexes")) /\ Forall2 (index_descr same (td_fields d)) (td_indexes d) is /\
    num a (td_data d) /\ num b (td_blob d) /\ num c (td_index d).

(** ** The files of a table *)
(** the index file begins with the number of the first free page and the place of each index: an offset, from
    version 8.3.8 on the number of a page *)
Definition index_file (free : Z) (places rest : list Z) : list Z := le_bytes 4 free ++ concat (map (le_bytes 4) places) ++ rest.
Definition start_ok (v838 : bool) (ps len b s : Z) : Prop :=
  s < len /\ if v838 then s = b * ps else s = b /\ (4096 | b).
(** a result that is a value or an exception *)
Definition decided {A} (r : res A) : Prop := r = Throw \/ exists x, r = Ok x.
