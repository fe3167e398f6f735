(** Properties C192 to C194: a table from the file to its document, all tables, names of fields. *)
From Coq Require String Ascii.
From Verif Require Import Prelude Text_Spec Field_Model Xml_Model Xml_Spec Xml_Demo Descr_Model Descr_Spec Full_Model Full_Spec Full_Proofs Full_Open Full_Export Full_Demo.
Ltac Zify.zify_post_hook ::= idtac.

(** ** C192: the document of a table that is named *)
(** the tables of a database are opened with their declarations, and the document of each of them can be read back
    as its records in order.  Missing: names of fields outside ASCII (C194), locked records without a version (C82),
    descriptions of more than one table page before 8.3.8 *)
Theorem C192_export_partial : forall same hjunk junk file mono h st xs, database same file mono h st xs ->
  exists b, open_db same hjunk junk file mono = Ok b /\ map ot_decl (db_tables b) = map c_decl xs /\
    forall e k x doc, nth_error xs k = Some x -> document x doc -> good_names (c_decl x) -> ready e x ->
      exists t o, nth_error (db_tables b) k = Some t /\ export_named e b t false = Ok (o, []) /\ read_xml o = Some (doc_events doc).
Proof. exact named_ok. Qed.
Print Assumptions C192_export_partial.

(** two tables in a file of 21 pages: a primary index that lists the records 2 and 1, a removed record, a text *)
Example C192_file : database beq t_file false t_head t_pages [t_cont; u_cont] /\ document t_cont t_doc /\ document u_cont u_doc.
Proof. split; [exact t_database|]. split; [exact t_document|exact u_document]. Qed.
Definition ex_env : xenv := XE (fun _ _ => Throw) [13; 0] (GS true false) beq 0 true (fun _ => false).
Lemma t_good : good_names t_decl /\ good_names u_decl.
Proof. split; (split; [repeat constructor|]); repeat (apply Forall_cons; [split; [discriminate|repeat constructor]|]); apply Forall_nil. Qed.
Lemma t_ready : ready ex_env t_cont /\ ready ex_env u_cont.
Proof. split; left; (split; [reflexivity|]); repeat constructor; discriminate. Qed.
Example C192_case : (do b <- open_db beq [] [] t_file false; match db_tables b with t :: _ => do r <- export_named ex_env b t false; Ok (read_xml (fst r)) | [] => Throw end) = Ok (Some (doc_events t_doc)).
Proof. vm_compute. reflexivity. Qed.

(** ** C193: the documents of all tables *)
(** exactly what they show: tables that have indexes, none of them primary, are shown without any record *)
Theorem C193_all_refuted : forall same hjunk junk file mono h st xs, database same file mono h st xs ->
  exists b, open_db same hjunk junk file mono = Ok b /\
    forall e docs, Forall2 listed xs docs -> Forall (fun x => good_names (c_decl x) /\ ready e x) xs ->
      exists outs, export_all e b (db_tables b) false = Ok outs /\ map fst outs = map (fun x => td_name (c_decl x)) xs /\ Forall2 (fun o doc => read_xml (snd o) = Some (doc_events doc)) outs docs.
Proof. exact all_ok. Qed.
Print Assumptions C193_all_refuted.

(** every other table is shown with its records *)
Theorem C193_all_partial : forall same hjunk junk file mono h st xs, database same file mono h st xs -> Forall (fun x => td_indexes (c_decl x) = [] \/ ~ no_primary_index (c_decl x)) xs ->
  exists b, open_db same hjunk junk file mono = Ok b /\
    forall e docs, Forall2 document xs docs -> Forall (fun x => good_names (c_decl x) /\ ready e x) xs ->
      exists outs, export_all e b (db_tables b) false = Ok outs /\ map fst outs = map (fun x => td_name (c_decl x)) xs /\ Forall2 (fun o doc => read_xml (snd o) = Some (doc_events doc)) outs docs.
Proof. exact all_with_primary. Qed.
Print Assumptions C193_all_partial.

(** the second table has the records 0 and 2, but its document has none *)
Example C193_case : listed t_cont t_doc /\ listed u_cont (TDoc (Xml_Spec.td_name u_doc) (Xml_Spec.td_fields u_doc) []) /\ c_order u_cont = [0; 2] /\
  (do b <- open_db beq [] [] t_file false; do r <- export_all ex_env b (db_tables b) false; Ok (map (fun o => read_xml (snd o)) r)) =
    Ok [Some (doc_events t_doc); Some (doc_events (TDoc (Xml_Spec.td_name u_doc) (Xml_Spec.td_fields u_doc) []))].
Proof.
  split; [split; [exact (proj1 t_document)|]; split; [intros (_ & N); inversion N; discriminate|intros _; exact t_document]|].
  split; [split; [exact (proj1 u_document)|]; split; [reflexivity|intros [Q|Q]; [discriminate|exfalso; apply Q; repeat constructor]]|].
  split; [reflexivity|]. vm_compute. reflexivity.
Qed.

(** ** C194: names of fields in any script *)
(** one field of one table whose name cannot be cut before its last three bytes, and the database is not opened *)
Theorem C194_names_refuted : forall same hjunk junk file mono h st xs d r a f z, base same file mono h st (map c_decl xs ++ d :: r) -> Forall (whole_table h st) xs ->
  td_fields d = a ++ f :: z -> Forall (fun g => Forall (fun c => 0 < c < 128) (fd_name g)) a -> cut_inside (fd_name f) -> open_db same hjunk junk file mono = Throw.
Proof. exact cut_db. Qed.
Print Assumptions C194_names_refuted.

(** every name that ends with two letters of two bytes each *)
Theorem C194_letters_refuted : forall p a b, Forall scalar p -> 128 <= a < 2048 -> 128 <= b < 2048 -> cut_inside (utf8_of (p ++ [a; b])).
Proof. exact two_letters. Qed.
Print Assumptions C194_letters_refuted.

(** names in ASCII *)
Theorem C194_ascii_partial : forall same hjunk junk file mono h st xs, database same file mono h st xs -> exists b, open_db same hjunk junk file mono = Ok b.
Proof. intros same hjunk junk file mono h st xs D. destruct (named_ok same hjunk junk file mono h st xs D) as (b & E & _). exists b. exact E. Qed.
Print Assumptions C194_ascii_partial.

Example C194_case : base beq (concat w_pages) false t_head w_pages (map c_decl [t_cont] ++ [w_decl]) /\ Forall (whole_table t_head w_pages) [t_cont] /\
  cut_inside (fd_name (FDc w_name Field_Model.KBool false 0 0 true)) /\ td_fields w_decl = [] ++ [FDc w_name Field_Model.KBool false 0 0 true].
Proof.
  split; [exact w_base|]. split; [constructor; [split; [exact w_files|split; [repeat constructor; vm_compute; discriminate|discriminate]]|constructor]|]. split; [|reflexivity].
  change (fd_name _) with (utf8_of ([1048] ++ [1084; 1103])). apply two_letters; [repeat constructor; unfold scalar; lia|lia|lia].
Qed.
