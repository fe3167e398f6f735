(** Theorems about adding a record. *)
From Verif Require Import Prelude Field_Model Field_Spec Rec_Model Ins_Model Ins_Spec Ins_Proofs.
Ltac Zify.zify_post_hook ::= idtac.

(** ** C212: a record can be added to any table *)
(** C212 is false: in a table that has no file of records yet the file is not created, and a null pointer is used *)
Theorem C212_no_file_refuted : forall reclen phys fs r v, ins_record None reclen phys fs r v = UB.
Proof. exact no_file. Qed.
Print Assumptions C212_no_file_refuted.
(** with a field for text or binary data, wherever it lies behind the mark of the record: memory outside of the record is read *)
Theorem C212_blob_refuted : forall file reclen phys fs r v, length (t_pad r) = 4%nat -> Exists (fun f => blob_kind f /\ 1 <= f_off f) fs ->
  ins_record file reclen phys fs r v = UB.
Proof. exact blob_ub. Qed.
Print Assumptions C212_blob_refuted.
(** what holds: in other tables with a file, whatever insertion does to the file without versions (C36, C90) it does with them; each
    version field of the record in memory gets its own version, the version of the file goes on by as many, the other fields
    keep their values *)
Theorem C212_versions_partial : forall c reclen phys fs r v c' n, simple_fields (zlen (t_data r)) fs -> 0 <= v_2 v < 2 ^ 32 -> insert_record c reclen phys r = Ok (c', n) ->
  exists x w, ins_record (Some c) reclen phys fs r v = Ok (c', n, x, w) /\ v_1 w = v_1 v /\ v_2 w = (v_2 v + versions_in fs) mod 2 ^ 32 /\
  (forall a f b, fs = a ++ [f] ++ b -> version_kind f -> exists d, get_value f (t_data x) = Ok d /\ holds_version f (v_1 v) ((v_2 v + versions_in a) mod 2 ^ 32) d) /\
  (forall f, In f fs -> ~ version_kind f -> get_value f (t_data x) = get_value f (t_data r) /\ is_null f (t_data x) = is_null f (t_data r)).
Proof. exact versions. Qed.
Print Assumptions C212_versions_partial.

(** ** C89, continued: storing a changed record *)
(** C89 is false: whatever is done for blobs, storing a changed record is not defined when a field of another kind was changed or
    the table has a version field that was not *)
Theorem C89_versions_refuted : forall blob fs o r v x, (forall f a b c, blob f a b = Ok c -> t_pad c = t_pad a) -> length (t_pad o) = 4%nat -> length (t_pad r) = 4%nat ->
  Exists (fun e => 1 <= f_off (snd e) /\ (fst e = false /\ version_kind (snd e) \/ fst e = true /\ ~ blob_kind (snd e) /\ 0 < extent (snd e))) fs -> upd_fields blob fs o r v <> Ok x.
Proof. exact update_bad. Qed.
Print Assumptions C89_versions_refuted.

Definition ex_ifields : list field := [FD KVersion false 0 1; FD KBool true 0 17].
Definition ex_irec : trec := TR 4096 8192 20 [0; 0; 0; 0] (repeat 7 20).
Definition ex_ifile : list Z := (1 :: repeat 0 19) ++ repeat 5 20.
Example C212_case : simple_fields (zlen (t_data ex_irec)) ex_ifields /\ (exists c', insert_record ex_ifile 20 2 ex_irec = Ok (c', 2)) /\ version_kind (FD KVersion false 0 1) /\
  Exists (fun f => blob_kind f /\ 1 <= f_off f) (ex_ifields ++ [FD KImage true 0 19]) /\ length (t_pad ex_irec) = 4%nat.
Proof.
  split; [|split; [eexists; vm_compute; reflexivity|]; split; [now left|]; split; [right; right; left; split; [now left|cbn; lia]|reflexivity]]. split.
  - constructor; [|constructor; [|constructor]].
    + split; [intros [Q|[Q|Q]]; discriminate|]. split; [intros _; split; [reflexivity|]; cbn; lia|cbn; lia].
    + split; [intros [Q|[Q|Q]]; discriminate|]. split; [intros [Q|Q]; discriminate|cbn; lia].
  - constructor; [|constructor; [constructor|constructor]]. constructor; [|constructor]. left. cbn. lia.
Qed.
Example C212_run : exists c', ins_record (Some ex_ifile) 20 2 ex_ifields ex_irec (VE 3 258) = Ok (c', 2, TR 4096 8192 20 [0; 0; 0; 0] ([7] ++ [3; 0; 0; 0; 2; 1; 0; 0; 3; 0; 0; 0; 2; 1; 0; 0] ++ [7; 7; 7]), VE 3 259).
Proof. eexists. vm_compute. reflexivity. Qed.
Example C89_versions_case : Exists (fun e => 1 <= f_off (snd e) /\ (fst e = false /\ version_kind (snd e) \/ fst e = true /\ ~ blob_kind (snd e) /\ 0 < extent (snd e))) [(true, FD KImage true 0 17); (false, FD KVersion false 0 1)] /\
  upd_fields (fun _ o _ => Ok o) [(true, FD KImage true 0 17); (false, FD KBool false 0 1)] ex_irec ex_irec (VE 3 258) = Ok (ex_irec, VE 3 258).
Proof. split; [|reflexivity]. right. left. split; [cbn; lia|]. left. split; [reflexivity|now left]. Qed.
