(** What a database file contains, from its pages to the documents of its tables. *)
From Coq Require String Ascii.
From Verif Require Import Prelude Text_Spec Tree_Model Tree_Spec Field_Model Field_Spec Obj_Model Obj_Spec Blob_Spec Leaf_Spec Xml_Model Xml_Spec Descr_Model Descr_Spec.
Import String.StringSyntax.

(** ** Pages and objects *)
Definition pages_are (file : list Z) (ps : nat) (st : list (list Z)) : Prop := concat st = file /\ Forall (fun p => length p = ps) st.
(** the object at page [n] has the bytes [c] *)
Definition object (ps : nat) (v838 : bool) (st : list (list Z)) (n : Z) (c : list Z) : Prop :=
  exists f len tabs dp, f <> FFree /\ is838 f = v838 /\ Obj_Spec.stored ps f st n len tabs dp /\ Obj_Spec.content st dp len = c.
(** page 1: the list of free pages *)
Definition free_list (ps : nat) (v838 : bool) (st : list (list Z)) : Prop :=
  if v838 then exists p l, page_is st 1 p /\ sub p 0 2 = [28; 255] /\ array_at p 8 (l ++ [0]) /\ Forall (fun x => x <> 0) l
  else exists len tabs dp, Obj_Spec.stored ps FFree st 1 len tabs dp.
(** one table page of the older format *)
Definition one_table : Z := 1023 * 4096.

(** ** Where the fields are *)
Definition is_ver (k : kind) : bool := match k with KVersion | KVersion8 => true | _ => false end.
Definition size_of (f : fdecl) : Z := (if fd_null f then 1 else 0) + width (fd_kind f) (fd_len f).
Definition sizes (w : bool) (fs : list fdecl) : Z := fold_right Z.add 0 (map size_of (filter (fun f => Bool.eqb (is_ver (fd_kind f)) w) fs)).
(** the mark of removed records, the versions, the other fields *)
Definition offset (fs : list fdecl) (i : nat) (f : fdecl) : Z :=
  1 + if is_ver (fd_kind f) then sizes true (firstn i fs) else sizes true fs + sizes false (firstn i fs).
Definition record_size (fs : list fdecl) : Z := Z.max 5 (1 + sizes true fs + sizes false fs).
(** fields for identifiers: sixteen bytes and a name that ends with ref or id *)
Definition low (c : Z) : Z := if (65 <=? c) && (c <=? 90) then c + 32 else c.
Definition has_end (w n : list Z) : bool := if list_eq_dec Z.eq_dec (map low (skipn (length n - length w) n)) w then true else false.
Definition for_ids (f : fdecl) : bool :=
  match fd_kind f with KBin => (fd_len f =? 16) && (has_end [114; 101; 102] (fd_name f) || has_end [105; 100] (fd_name f)) | _ => false end.
Definition the_field (fs : list fdecl) (x : nat * fdecl) : xfield :=
  XF (fd_name (snd x)) (FD (fd_kind (snd x)) (fd_null (snd x)) (fd_len (snd x)) (offset fs (fst x) (snd x))) (fd_prec (snd x)) (for_ids (snd x)).
Definition the_fields (fs : list fdecl) : list xfield := map (the_field fs) (combine (seq 0 (length fs)) fs).

(** ** What a table contains: its declaration, the bytes of all its records, those of its blob file, the numbers of its
    records in order *)
Record cont := CT { c_decl : tdecl; c_recs : list (list Z); c_blob : option (list Z); c_order : list Z }.
(** a blob of [n] bytes *)
Definition blob_in (bf : option (list Z)) (s n : Z) (d : list Z) : Prop :=
  exists c bl, bf = Some c /\ blob c s bl d /\ zlen d = n /\ (length bl <= length c)%nat.
(** the numbers of the records that are not removed *)
Definition live_numbers (recs : list (list Z)) : list Z :=
  map (fun x => Z.of_nat (fst x)) (filter (fun x => match snd x with 0 :: _ => true | _ => false end) (combine (seq 0 (length recs)) recs)).
(** [n] bytes of a file *)
Definition in_file (c : list Z) (off n : Z) : res (list Z) :=
  if (0 <=? off) && (off + n <=? zlen c) then Ok (sub c (Z.to_nat off) (Z.to_nat n)) else Throw.
(** the index at [s] lists the records [order] *)
Definition index_at (ps : Z) (v838 : bool) (c : list Z) (s : Z) (order : list Z) : Prop :=
  let mul := if v838 then ps else 1 in
  exists h t len, 0 < len < 2 ^ 15 /\ Leaf_Spec.stored (in_file c) ps len mul t /\ chained (in_file c) ps mul (map fst (t_leaves t)) /\
    in_file c s 8 = Ok h /\ le_val (sub h 0 4) * mul = t_off t /\ le_val (sub h 4 2) = len /\
    (height t <= length c)%nat /\ (length (t_leaves t) <= length c)%nat /\ order = map fst (concat (map snd (t_leaves t))).
Definition no_primary_index (d : tdecl) : Prop := Forall (fun i => id_primary i = false) (td_indexes d).
(** the first primary index and its place *)
Definition primary_index (d : tdecl) (starts : list Z) (s : Z) : Prop :=
  exists a i b, td_indexes d = a ++ i :: b /\ id_primary i = true /\ Forall (fun j => id_primary j = false) a /\ nth_error starts (length a) = Some s.
Definition index_part (ps : nat) (v838 : bool) (st : list (list Z)) (x : cont) : Prop :=
  let d := c_decl x in
  (td_indexes d = [] /\ td_index d = 0 /\ c_order x = live_numbers (c_recs x)) \/
  (td_indexes d <> [] /\ td_index d <> 0 /\ exists free places rest starts,
     let c := index_file free places rest in
     object ps v838 st (td_index d) c /\ length places = length (td_indexes d) /\ Forall (fun b => 0 <= b < 2 ^ 32) (free :: places) /\ zlen c < 2 ^ 32 /\
     (Z.of_nat ps | zlen c) /\ free * Z.of_nat ps < zlen c /\ Forall2 (start_ok v838 (Z.of_nat ps) (zlen c)) places starts /\
     ((no_primary_index d /\ c_order x = live_numbers (c_recs x)) \/
      (exists s, primary_index d starts s /\ 0 < s /\ index_at (Z.of_nat ps) v838 c s (c_order x) /\ zlen (c_order x) <= zlen (c_recs x)))).
Definition has_files (ps : nat) (v838 : bool) (st : list (list Z)) (x : cont) : Prop :=
  let d := c_decl x in
  td_data d <> 0 /\ object ps v838 st (td_data d) (concat (c_recs x)) /\ Forall (fun r => zlen r = record_size (td_fields d)) (c_recs x) /\ zlen (concat (c_recs x)) < 2 ^ 32 /\
  (match c_blob x with None => td_blob d = 0 | Some c => td_blob d <> 0 /\ object ps v838 st (td_blob d) c /\ (256 | zlen c) /\ zlen c < 2 ^ 32 end) /\
  index_part ps v838 st x.
(** the part of the tables that can be opened: names in ASCII; a version field if records can be locked (C82) *)
Definition openable (d : tdecl) : Prop :=
  Forall (fun f => Forall (fun c => 0 < c < 128) (fd_name f)) (td_fields d) /\ (td_lock d = true -> exists f, In f (td_fields d) /\ fd_kind f = KVersion).

(** ** The database *)
(** the description [d] at the place [b]: a blob of the root object from version 8.3.8 on, an object in UTF-16 before *)
Definition described (same : list Z -> list Z -> bool) (ps : nat) (v838 : bool) (st : list (list Z)) (root : list Z) (d : tdecl) (b : Z) : Prop :=
  exists t, printable t /\ describes same d t /\
  if v838 then exists bl, 0 < b < 2 ^ 32 /\ blob root b bl (outtext t []) /\ zlen (outtext t []) < 2 ^ 32 /\ (length bl <= length root)%nat
  else exists cps, 0 < b < 2 ^ 31 /\ Forall scalar cps /\ outtext t [] = utf8_of cps /\ object ps v838 st b (le16 (utf16_of cps)) /\ zlen (le16 (utf16_of cps)) <= one_table.
(** the root object has the bytes [root], the list of tables is [data] *)
Definition root_is (ps : nat) (v838 : bool) (st : list (list Z)) (root data : list Z) : Prop :=
  object ps v838 st 2 root /\
  if v838 then (256 | zlen root) /\ zlen root < 2 ^ 32 /\ zlen data < 2 ^ 32 /\ exists bl, blob root 1 bl data /\ (length bl <= length root)%nat
  else root = data /\ zlen root <= one_table.
Definition v838_of (v : dbver) : bool := match v with V8380 => true | _ => false end.
Definition old_of (v : dbver) : bool := match v with V8030 | V8050 => true | _ => false end.
(** an infobase with its five tables, a repository with its ten, or neither *)
Definition five : list (list Z) := map Descr_Model.bs ["CONFIG"; "CONFIGSAVE"; "PARAMS"; "FILES"; "DBSCHEMA"]%string.
Definition ten : list (list Z) := map Descr_Model.bs ["DEPOT"; "USERS"; "OBJECTS"; "VERSIONS"; "LABELS"; "HISTORY"; "LASTESTVERSIONS"; "EXTERNALS"; "SELFREFS"; "OUTREFS"]%string.
Definition consistent (has : list Z -> Prop) : Prop :=
  (forall n, In n five -> has n) \/ ((forall n, In n five -> ~ has n) /\ ((forall n, In n ten -> has n) \/ (forall n, In n ten -> ~ has n))).
(** header, pages, list of tables and their descriptions *)
Definition base (same : list Z -> list Z -> bool) (file : list Z) (mono : bool) (h : header) (st : list (list Z)) (ds : list tdecl) : Prop :=
  let ps := Z.to_nat (h_page h) in
  let v := v838_of (h_ver h) in
  bytes_ok file /\ 24 <= zlen file /\ Descr_Spec.opened file mono h /\ pages_are file ps st /\ free_list ps v st /\
  (exists root lang pad blocks rest,
     Forall (fun c => c <> 0) lang /\ zlen lang + 1 + zlen pad = (if old_of (h_ver h) then 8 else 32) /\ zlen blocks < 2 ^ 31 /\
     root_is ps v st root (root_data (if old_of (h_ver h) then 8 else 32) lang pad (zlen blocks) blocks rest) /\
     Forall2 (fun d b => described same ps v st root d b) ds blocks).
Definition whole_table (h : header) (st : list (list Z)) (x : cont) : Prop := has_files (Z.to_nat (h_page h)) (v838_of (h_ver h)) st x /\ openable (c_decl x).
Definition database (same : list Z -> list Z -> bool) (file : list Z) (mono : bool) (h : header) (st : list (list Z)) (xs : list cont) : Prop :=
  base same file mono h st (map c_decl xs) /\ Forall (whole_table h st) xs /\
  consistent (fun n => exists x, In x xs /\ same (td_name (c_decl x)) n = true).
(** a name in any script whose last three bytes begin inside a character *)
Definition cut_inside (name : list Z) : Prop :=
  exists cps, Forall scalar cps /\ name = utf8_of cps /\ (3 <= length name)%nat /\ ~ exists p q, cps = p ++ q /\ length (utf8_of q) = 3%nat.

(** ** Its documents *)
Definition cell_is (bf : option (list Z)) (f : xfield) (rec : list Z) (c : list Z * list Z) : Prop :=
  let fd := x_f f in
  fst c = x_name f /\ 0 <= f_off fd /\ 0 <= f_len fd /\
  value_at fd + width (f_kind fd) (f_len fd) + (match f_kind fd with KDate => 3 | _ => 0 end) <= zlen rec /\
  if is_missing fd rec then snd c = []
  else let v := part rec (value_at fd) (width (f_kind fd) (f_len fd)) in
       exists d, (match f_kind fd with KString | KText | KImage => blob_in bf (le_val (firstn 4 v)) (le_val (skipn 4 v)) d | _ => True end) /\
         means (f_kind fd) (f_len fd) (x_prec f) (x_ref f) v d (snd c).
(** the document without its records *)
Definition heads (d : tdecl) (doc : tdoc) : Prop :=
  Xml_Spec.td_name doc = td_name d /\ Forall2 (fun f fd => field_doc (x_name f) (x_f f) (x_prec f) fd) (the_fields (td_fields d)) (Xml_Spec.td_fields doc).
Definition document (x : cont) (doc : tdoc) : Prop :=
  heads (c_decl x) doc /\
  Forall2 (fun n r => exists rec, 0 <= n /\ nth_error (c_recs x) (Z.to_nat n) = Some rec /\ Forall2 (fun f c => cell_is (c_blob x) f rec c) (the_fields (td_fields (c_decl x))) r) (c_order x) (td_rows doc).
(** names that can be element names *)
Definition good_names (d : tdecl) : Prop :=
  Forall (fun c => name_char c = true) (td_name d) /\ Forall (fun f => xml_name (fd_name f)) (td_fields d).
(** the fields that name a record: those of the first primary index, otherwise of the first index *)
Definition keys_of (d : tdecl) (cols : list (nat * Z)) : Prop :=
  (exists a i b, td_indexes d = a ++ i :: b /\ id_primary i = true /\ Forall (fun j => id_primary j = false) a /\ cols = id_cols i) \/
  (no_primary_index d /\ cols = match td_indexes d with [] => [] | i :: _ => id_cols i end).
(** they are not NULL in any record shown *)
Definition keys_there (x : cont) : Prop :=
  forall cols c n rec f, keys_of (c_decl x) cols -> In c cols -> In n (c_order x) -> nth_error (c_recs x) (Z.to_nat n) = Some rec ->
    nth_error (the_fields (td_fields (c_decl x))) (fst c) = Some f -> is_missing (x_f f) rec = false.
Definition no_pictures (d : tdecl) : Prop := Forall (fun f => fd_kind f <> KImage) (td_fields d).
(** no lost branch of the names (C126) *)
Definition ready (e : xenv) (x : cont) : Prop := (e_junk e = 0 /\ no_pictures (c_decl x)) \/ keys_there x.
(** what the export of all tables shows of a table: the records only if there is a primary index or no index at all *)
Definition listed (x : cont) (doc : tdoc) : Prop :=
  heads (c_decl x) doc /\ (td_indexes (c_decl x) <> [] /\ no_primary_index (c_decl x) -> td_rows doc = []) /\
  (td_indexes (c_decl x) = [] \/ ~ no_primary_index (c_decl x) -> document x doc).
