(** Property theorems C125-C130: export of a table as XML. *)
From Coq Require String Ascii.
From Verif Require Import Prelude Codec_Model Field_Model Rec_Model Bcd_Spec Codec_Spec Text_Spec Field_Spec Xml_Model Xml_Spec Xml_Proofs Xml_Values Xml_Rows Xml_More Xml_Demo.
Import String.StringSyntax.

(** C125: where names are plain and the values are among those the export can show, a reader of XML finds in the file the
    name of the table, its fields with type, length, precision and whether a value is required, and then for each
    record in order each value. *)
Theorem C125_document_partial :
  forall e t d, table_doc (e_blob e) t d -> writable t ->
    (e_junk e = 0 /\ Forall (fun f => f_kind (x_f f) <> KImage) (t_fields t)) \/ all_named t ->
    exists o, export_to_xml e t false = Ok (o, []) /\ read_xml o = Some (doc_events d).
Proof. exact export_reads. Qed.
Print Assumptions C125_document_partial.
Example C125_ex : table_doc (e_blob d_env) d_table d_doc /\ writable d_table /\ all_named d_table /\ shows d_table = Some (doc_events d_doc).
Proof. split; [exact d_is_doc|]. split; [exact d_writable|]. split; [exact d_named|vm_compute; reflexivity]. Qed.
(** C125 is false in general: one binary value that is not shown as an identifier makes the file unreadable, ... *)
Theorem C125_binary_refuted :
  forall e t ns n f rec o fs, shown t ns -> In n ns -> In f (t_fields t) -> t_get t n = Ok rec ->
    f_kind (x_f f) = KBin -> x_ref f = false -> (f_len (x_f f) <> 16 \/ g_show (e_g e) = false) ->
    0 <= f_off (x_f f) -> 0 <= f_len (x_f f) -> value_at (x_f f) + f_len (x_f f) <= zlen rec -> is_missing (x_f f) rec = false ->
    export_to_xml e t false = Ok (o, fs) -> read_xml o = None.
Proof. exact bin_unreadable. Qed.
Print Assumptions C125_binary_refuted.
Example C125_ex_binary : exists o, export_to_xml d_env (one KBin 2 [1; 171; 205]) false = Ok (o, []) /\ read_xml o = None.
Proof. eexists. split; [vm_compute; reflexivity|vm_compute; reflexivity]. Qed.
(** ... and so do texts with two ampersands or two opening brackets *)
Theorem C125_twice_refuted :
  exists o1 o2, export_to_xml d_env (one KVarchar 3 ([1] ++ [3; 0] ++ le16 [60; 97; 60])) false = Ok (o1, []) /\ read_xml o1 = None /\
    export_to_xml d_env (one KVarchar 2 ([1] ++ [2; 0] ++ le16 [38; 38])) false = Ok (o2, []) /\ read_xml o2 = None.
Proof. do 2 eexists. split; [vm_compute; reflexivity|]. split; [vm_compute; reflexivity|]. split; vm_compute; reflexivity. Qed.
Print Assumptions C125_twice_refuted.

(** C126 is false: a record where a text is NULL and one where it is empty read the same. *)
Theorem C126_null_refuted :
  forall e nm f rec0 rec1, e_junk e = 0 -> f_kind (x_f f) = KVarchar -> f_null (x_f f) = true -> 0 <= f_off (x_f f) -> 0 <= f_len (x_f f) < 10 ^ 10 ->
    - 10 ^ 10 < x_prec f < 10 ^ 10 -> (exists tl tp, is_int tl (f_len (x_f f)) /\ is_int tp (x_prec f)) ->
    xml_name (x_name f) -> Forall (fun c => name_char c = true) nm ->
    value_at (x_f f) + (2 + 2 * f_len (x_f f)) <= zlen rec0 -> value_at (x_f f) + (2 + 2 * f_len (x_f f)) <= zlen rec1 ->
    is_missing (x_f f) rec0 = true -> is_missing (x_f f) rec1 = false -> part rec1 (value_at (x_f f)) 2 = [0; 0] ->
    exists o0 o1 es, export_to_xml e (XT nm [f] [] [0] (fun _ => Ok rec0)) false = Ok (o0, []) /\ read_xml o0 = Some es /\
      export_to_xml e (XT nm [f] [] [0] (fun _ => Ok rec1)) false = Ok (o1, []) /\ read_xml o1 = Some es.
Proof. exact null_as_empty. Qed.
Print Assumptions C126_null_refuted.
Example C126_ex : exists es, shows (one KVarchar 2 [0; 0; 0; 0; 0; 0; 0]) = Some es /\ shows (one KVarchar 2 [1; 0; 0; 0; 0; 0; 0]) = Some es /\
  In (Start (str "V") []) es.
Proof. eexists. split; [vm_compute; reflexivity|]. split; [vm_compute; reflexivity|vm_compute; tauto]. Qed.

(** C127 is false: all files of pictures are meant to lie inside each other, so that at most one of them is written. *)
Theorem C127_one_path_refuted :
  forall e t o fs, (forall p, e_can e p = true -> length p = 1%nat) -> export_to_xml e t true = Ok (o, fs) ->
    forall p q, In p fs -> In q fs -> fst p = fst q.
Proof. exact one_path. Qed.
Print Assumptions C127_one_path_refuted.
(** two records with a picture each: one file *)
Example C127_ex_refuted :
  match export_to_xml d_env (XT (str "T") [d_id; d_pic] [XI true [d_id] [0; 1]] [0; 1]
    (fun n => Ok ([0; 16; 16; 16 * n; 0; 0; 0; 0; 0; 0; 0; 0; 0; 0; 0; 0; 0; 0; 0; 0; 1; 3; 0; 0; 0; 2; 0; 0; 0]))) true with
  | Ok (_, fs) => fs = [([str "10"], [1; 2])] | _ => False end.
Proof. vm_compute. reflexivity. Qed.
(** C127: with one picture field, and one record the picture is written under the
    texts of the naming fields with _ between them *)
Theorem C127_single_partial :
  forall e t n rec a f b ra rb k ks kn kns name d, shown t [n] -> t_get t n = Ok rec -> t_fields t = a ++ f :: b ->
    f_kind (x_f f) = KImage -> Forall not_image a -> Forall not_image b -> e_junk e = 0 -> e_dir e = true ->
    Forall (fun f => xml_name (x_name f)) (t_fields t) -> row_doc (e_blob e) a rec ra -> row_doc (e_blob e) b rec rb ->
    named_by t (k :: ks) -> Forall2 (key_text (e_blob e) rec) (k :: ks) (kn :: kns) -> kn <> [] -> name = kn ++ flat_map (fun x => 95 :: x) kns ->
    e_same e name [] = false -> e_can e [name] = true ->
    0 <= f_off (x_f f) -> value_at (x_f f) + 8 <= zlen rec -> is_missing (x_f f) rec = false ->
    (let v := part rec (value_at (x_f f)) 8 in le_val (firstn 4 v) <> 0 /\ le_val (skipn 4 v) <> 0 /\ e_blob e (le_val (firstn 4 v)) (le_val (skipn 4 v)) = Ok d) ->
    exists o, export_to_xml e t true = Ok (o, [([name], d)]).
Proof. exact one_file. Qed.
Print Assumptions C127_single_partial.
(** C127: a picture that is not there gives an empty element and no file *)
Theorem C127_absent_partial :
  forall e t f rec s, f_kind (x_f f) = KImage -> e_dir e = true -> 0 <= f_off (x_f f) -> value_at (x_f f) + 8 <= zlen rec ->
    (is_missing (x_f f) rec = true \/ le_val (part rec (value_at (x_f f)) 4) = 0 \/ le_val (part rec (value_at (x_f f) + 4) 4) = 0) ->
    exists s', cell e t true f rec s = Ok (None, s') /\ s_files s' = s_files s /\ s_name s' = s_name s /\ s_rep s' = s_rep s.
Proof. exact cell_absent. Qed.
Print Assumptions C127_absent_partial.
Example C127_absent_ex :
  match export_to_xml d_env (XT (str "T") [d_id; d_pic] [XI true [d_id] [0]] [0]
    (fun n => Ok ([0; 16; 16; 16 * n; 0; 0; 0; 0; 0; 0; 0; 0; 0; 0; 0; 0; 0; 0; 0; 0; 1; 0; 0; 0; 0; 2; 0; 0; 0]))) true with
  | Ok (_, fs) => fs = [] | _ => False end.
Proof. vm_compute. reflexivity. Qed.
Example C127_ex :
  match export_to_xml d_env (XT (str "T") [d_id; d_name; d_day; d_pic] [XI true [d_id] [0]] [0] d_get) true with
  | Ok (_, fs) => fs = [([str "12.5"], [1; 2])] | _ => False end.
Proof. vm_compute. reflexivity. Qed.
Example C127_ex_two :
  match export_to_xml d_env (XT (str "T") [d_id; d_name; d_day; d_pic] [XI true [d_id; d_name] [0]] [0] d_get) true with
  | Ok (_, fs) => map fst fs = [[str "12.5_" ++ match show (GS true true) d_name d_rec0 with Ok v => v | _ => [] end]] | _ => False end.
Proof. vm_compute. reflexivity. Qed.

(** C128: dates from the year 1000 on are written as ISO 8601 wants it (the text of a cell is fixed by [means]; the whole
    document is in C125_document_partial) *)
Theorem C128_dates_partial :
  forall blob nl g f rec t, f_kind (x_f f) = KDate ->
    cell_doc blob (x_name f) (x_f f) (x_prec f) (x_ref f) rec (x_name f, t) -> is_missing (x_f f) rec = false ->
    xml_value blob nl g f rec = Ok t /\ t = iso (nibs (part rec (value_at (x_f f)) 7)).
Proof. exact date_exact. Qed.
Print Assumptions C128_dates_partial.
Example C128_ex : xml_value d_blob [] (GS true true) d_day d_rec0 = Ok (str "2016-02-29T12:00:05").
Proof. vm_compute. reflexivity. Qed.
(** C128 is false for earlier years, among them the empty date 0001-01-01: the year has fewer than four digits. *)
Theorem C128_early_refuted :
  forall blob nl g f rec w, f_kind (x_f f) = KDate -> 0 <= f_off (x_f f) -> value_at (x_f f) + 10 <= zlen rec ->
    date_ok (part rec (value_at (x_f f)) 7) -> hd 0 (nibs (part rec (value_at (x_f f)) 7)) = 0 ->
    xml_value blob nl g f rec = Ok w -> (length w < 19)%nat.
Proof. exact date_early. Qed.
Print Assumptions C128_early_refuted.
Example C128_ex_early : xml_value d_blob [] (GS true true) (XF (str "D") (FD KDate false 0 0) 0 false) ([0; 1; 1; 1; 0; 0; 0] ++ [0; 0; 0]) = Ok (str "1-01-01T00:00:00").
Proof. vm_compute. reflexivity. Qed.

(** C129: pictures of up to 54 bytes are written in base64, whatever the line break is ... *)
Theorem C129_base64_partial :
  forall nl d, bytes_ok d -> zlen d <= 54 -> base64_encode nl 72 d = b64 d.
Proof. exact image_exact. Qed.
Print Assumptions C129_base64_partial.
Example C129_ex : bytes_ok [0; 255; 16; 7] /\ base64_encode [13; 0] 72 [0; 255; 16; 7] = str "AP8QBw==".
Proof. split; [repeat constructor; unfold byte_ok; lia|vm_compute; reflexivity]. Qed.
(** ... but a longer one makes the file unreadable where the line break contains a NUL character. *)
Theorem C129_long_refuted :
  forall e t ns n f rec d o fs, shown t ns -> In n ns -> In f (t_fields t) -> t_get t n = Ok rec ->
    f_kind (x_f f) = KImage -> 0 <= f_off (x_f f) -> value_at (x_f f) + 8 <= zlen rec -> is_missing (x_f f) rec = false ->
    (let v := part rec (value_at (x_f f)) 8 in e_blob e (le_val (firstn 4 v)) (le_val (skipn 4 v)) = Ok d) -> 54 < zlen d -> In 0 (e_nl e) ->
    export_to_xml e t false = Ok (o, fs) -> read_xml o = None.
Proof. exact image_unreadable. Qed.
Print Assumptions C129_long_refuted.
Example C129_ex_long : exists o,
  export_to_xml (XE (fun _ _ => Ok (repeat 7 55)) [13; 0] (GS true true) (fun _ _ => false) 0 true (fun _ => true)) (one KImage 0 [1; 3; 0; 0; 0; 55; 0; 0; 0]) false = Ok (o, []) /\
  read_xml o = None.
Proof. eexists. split; vm_compute; reflexivity. Qed.

(** C130 is false: with a NULL in the first naming field the export fails, in tables with pictures and, depending on what
    the uninitialised counter of pictures happens to contain, in all others. *)
Theorem C130_null_key_refuted :
  forall e t ns n rec k ks to_file, shown t (n :: ns) -> t_get t n = Ok rec -> named_by t (k :: ks) ->
    0 <= f_off (x_f k) -> f_off (x_f k) + 1 <= zlen rec -> is_missing (x_f k) rec = true ->
    e_junk e + zlen (filter (fun f => match f_kind (x_f f) with KImage => true | _ => false end) (t_fields t)) <> 0 ->
    export_to_xml e t to_file = Throw.
Proof. exact null_key_stops. Qed.
Print Assumptions C130_null_key_refuted.
Example C130_ex : let t := XT (str "T") [d_name] [XI true [d_name] [0]] [0] (fun _ => Ok d_rec1) in
  export_to_xml (XE d_blob [13; 0] (GS true false) (fun _ _ => false) 32767 true (fun _ => true)) t false = Throw /\
  (exists o, export_to_xml d_env t false = Ok (o, [])).
Proof. split; [vm_compute; reflexivity|]. eexists. vm_compute. reflexivity. Qed.
(** C130: otherwise it succeeds *)
Theorem C130_succeeds_partial :
  forall e t d, table_doc (e_blob e) t d -> writable t ->
    (e_junk e = 0 /\ Forall (fun f => f_kind (x_f f) <> KImage) (t_fields t)) \/ all_named t ->
    exists o, export_to_xml e t false = Ok (o, []).
Proof. exact export_succeeds. Qed.
Print Assumptions C130_succeeds_partial.
