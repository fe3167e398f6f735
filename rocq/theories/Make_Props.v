(** Theorems about creating a table from the directory of an export. *)
From Verif Require Import Prelude Tree_Model Descr_Model Descr_Spec Make_Model Make_Spec Make_Proofs.
Ltac Zify.zify_post_hook ::= idtac.

(** ** C210: creating a table from an export replaces or adds that table, or fails and leaves the list of tables as it was *)
(** C210 is false: whatever is exported and whatever is returned, no table is ever added, in memory and in the root object *)
Theorem C210_nothing_added_refuted : forall old same decode names pg lang l root fopen dir junk l' root' o, list_of old lang l root -> good_list l ->
  create_table old false same decode names pg fopen junk dir l root = Ok (l', root', o) -> root_tables old root' = Ok (lang, l') /\ incl l' l.
Proof. exact nothing_added. Qed.
Print Assumptions C210_nothing_added_refuted.
(** a whole export of a table that is there already: the table is deleted, none is put in its place, and true is returned *)
Theorem C210_lost_refuted : forall old same decode names pg lang nm a x b root f r d text junk,
  list_of old lang (a ++ [x] ++ b) root -> good_list (a ++ [x] ++ b) -> same (names x) nm = true -> Forall (fun y => same (names y) nm = false) (a ++ b) ->
  exported f r d -> has_files f r -> decode d = Ok text -> begins_with text nm ->
  exists root', create_table old false same decode names pg false junk (Some f) (a ++ [x] ++ b) root = Ok (a ++ b, root', Some true) /\ root_tables old root' = Ok (lang, a ++ b).
Proof. intros. now apply created with (nm := nm) (x := x) (r := r) (d := d) (text := text). Qed.
Print Assumptions C210_lost_refuted.
(** of a new table: true is returned and nothing is done *)
Theorem C210_new_refuted : forall old same decode names pg nm l root f r d text junk, Forall (fun y => same (names y) nm = false) l ->
  exported f r d -> has_files f r -> decode d = Ok text -> begins_with text nm ->
  create_table old false same decode names pg false junk (Some f) l root = Ok (l, root, Some true).
Proof. intros. now apply not_there with (nm := nm) (r := r) (d := d) (text := text). Qed.
Print Assumptions C210_new_refuted.
(** an export that lacks a file: it fails, and the table of that name is gone *)
Theorem C210_failed_refuted : forall old same decode names pg lang nm a x b root fopen f r d text junk,
  list_of old lang (a ++ [x] ++ b) root -> good_list (a ++ [x] ++ b) -> same (names x) nm = true -> Forall (fun y => same (names y) nm = false) (a ++ b) ->
  exported f r d -> ~ has_files f r -> decode d = Ok text -> begins_with text nm ->
  exists root', create_table old false same decode names pg fopen junk (Some f) (a ++ [x] ++ b) root = Ok (a ++ b, root', None) /\ root_tables old root' = Ok (lang, a ++ b).
Proof. intros. now apply failed with (nm := nm) (x := x) (r := r) (d := d) (text := text). Qed.
Print Assumptions C210_failed_refuted.
(** where the variable that nobody sets is true: memory after the description is read *)
Theorem C210_outside_refuted : forall old same decode names pg lang nm l root f r d text junk, list_of old lang l root -> good_list l ->
  exported f r d -> has_files f r -> brings r 3 -> decode d = Ok text -> begins_with text nm -> has_part text ->
  create_table old false same decode names pg true junk (Some f) l root = UB.
Proof. intros. now apply described with (lang := lang) (nm := nm) (r := r) (d := d) (text := text). Qed.
Print Assumptions C210_outside_refuted.
(** from version 8.3.8 on, with a table of that name: the description of the old table, which is not there, is used (C167) *)
Theorem C210_newer_refuted : forall old same decode names pg nm l root fopen f r d text junk, Exists (fun y => same (names y) nm = true) l ->
  exported f r d -> decode d = Ok text -> begins_with text nm -> create_table old true same decode names pg fopen junk (Some f) l root = UB.
Proof. intros. now apply newer with (nm := nm) (r := r) (d := d) (text := text). Qed.
Print Assumptions C210_newer_refuted.
(** what holds: without the directory false is returned, without root or descr or with a descr that cannot be decoded or read it
    fails; each time nothing is changed *)
Theorem C210_unchanged_partial : forall old v838 same decode names pg fopen junk l root,
  create_table old v838 same decode names pg fopen junk None l root = Ok (l, root, Some false) /\
  forall f, (m_root f = None \/ m_descr f = None \/ exists d, m_descr f = Some d /\ (decode d = Throw \/ exists text, decode d = Ok text /\ parse_text text = Throw)) ->
    create_table old v838 same decode names pg fopen junk (Some f) l root = Ok (l, root, None).
Proof.
  intros. split; [reflexivity|]. intros f H. unfold create_table. destruct H as [-> |[-> |(d & -> & H)]]; [reflexivity|now destruct (m_root f)|].
  destruct (m_root f); [|reflexivity]. destruct H as [-> |(text & -> & H)]; [reflexivity|]. cbn [going]. unfold name_in. now rewrite H.
Qed.
Print Assumptions C210_unchanged_partial.
(** and the tables of other names stay in any case *)
Theorem C210_others_partial : forall old same decode names pg lang l root fopen f junk l' root' o r d text nm, list_of old lang l root -> good_list l ->
  exported f r d -> decode d = Ok text -> begins_with text nm ->
  create_table old false same decode names pg fopen junk (Some f) l root = Ok (l', root', o) -> forall y, In y l -> same (names y) nm = false -> In y l'.
Proof. exact others_kept. Qed.
Print Assumptions C210_others_partial.

Definition ex_eqs (a b : list Z) : bool := if list_eq_dec Z.eq_dec a b then true else false.
(* {"T",{"Files",0,0,0}} *)
Definition ex_mtext : list Z := [123; 34; 84; 34; 44; 123; 34; 70; 105; 108; 101; 115; 34; 44; 48; 44; 48; 44; 48; 125; 125].
Definition ex_mroot : list Z := [1; 0; 0; 1] ++ repeat 0 32.
Definition ex_mfiles (data : option (list Z)) : mfiles := MFS (Some ex_mroot) (Some ex_mtext) data None None.
Definition ex_mnames (n : Z) : list Z := if n =? 5 then [84] else [65; n].
Definition ex_mdb : list Z := root_data 32 [114; 117] (repeat 0 29) 3 [3; 5; 7] [].
Example C210_case : list_of false [114; 117] ([3] ++ [5] ++ [7]) ex_mdb /\ good_list [3; 5; 7] /\ ex_eqs (ex_mnames 5) [84] = true /\ Forall (fun y => ex_eqs (ex_mnames y) [84] = false) ([3] ++ [7]) /\
  exported (ex_mfiles (Some [1])) ex_mroot ex_mtext /\ has_files (ex_mfiles (Some [1])) ex_mroot /\ ~ has_files (ex_mfiles None) ex_mroot /\ brings ex_mroot 3 /\ begins_with ex_mtext [84] /\ has_part ex_mtext.
Proof.
  split; [split; [repeat constructor; lia|]; exists (repeat 0 29), []; split; reflexivity|].
  split; [split; [repeat constructor; lia|]; split; [reflexivity|]; repeat constructor; cbn [In]; intuition lia|].
  split; [reflexivity|]. split; [repeat constructor; reflexivity|].
  assert (W : whole_root ex_mroot) by (split; [vm_compute; lia|]; intros [|[|[|[|i]]]] Hi; [now right|now left|now left|now right|lia]).
  split; [split; [reflexivity|]; split; [reflexivity|exact W]|].
  split; [split; [discriminate|]; split; discriminate|]. split; [intros (H & _); now apply H|]. split; [reflexivity|].
  split; [|exists [123; 34; 84; 34; 44], [48; 44; 48; 44; 48; 125; 125]; reflexivity].
  unfold begins_with. do 8 eexists. vm_compute. reflexivity.
Qed.
Example C210_run : create_table false false ex_eqs Ok ex_mnames (fun _ => 9) false [] (Some (ex_mfiles (Some [1]))) [3; 5; 7] ex_mdb = Ok ([3; 7], root_data 32 [114; 117] (repeat 0 29) 2 [3; 7] [], Some true).
Proof. vm_compute. reflexivity. Qed.
