(** Theorems about opening a database. *)
From Verif Require Import Prelude Text_Spec Tree_Model Tree_Spec Field_Model Descr_Model Descr_Spec Descr_Proofs.
Import String.StringSyntax.

(** C118: a file is opened exactly when it begins with the signature and a known version and consists of as many
    whole pages as it says; the version, page size and access are those of the file. *)
Theorem C118_open_exact : forall junk file mono h, bytes_ok file -> 24 <= zlen file -> ~ no_page_size file ->
  (open_header junk file mono = Ok h <-> opened file mono h) /\ decided (open_header junk file mono).
Proof. exact open_exact. Qed.
Print Assumptions C118_open_exact.
Definition sample_file : list Z := bs "1CDBMSV8" ++ [8; 3; 8; 0] ++ [3; 0; 0; 0] ++ [0; 0; 0; 0] ++ [8; 0; 0; 0].
Example C118_case : bytes_ok sample_file /\ 24 <= zlen sample_file /\ ~ no_page_size sample_file /\ open_header [] sample_file true = Ok (HD V8380 8 3 false) /\
  open_header [] (sample_file ++ [0]) true = Throw.
Proof.
  split; [repeat constructor; lia|]. split; [vm_compute; discriminate|]. split; [intros (_ & H); vm_compute in H; discriminate|]. split; vm_compute; reflexivity.
Qed.

(** C119: the language and the tables are those the root object lists, in this order; a negative number of tables is refused. *)
Theorem C119_root_exact : forall (old : bool) lang pad blocks rest, Forall (fun c => c <> 0) lang -> zlen lang + 1 + zlen pad = (if old then 8 else 32) ->
  zlen blocks < 2 ^ 31 -> Forall (fun b => 0 <= b < 2 ^ 32) blocks ->
  root_tables old (root_data (if old then 8 else 32) lang pad (zlen blocks) blocks rest) = Ok (lang, blocks).
Proof. exact root_ok. Qed.
Print Assumptions C119_root_exact.
Theorem C119_root_negative : forall (old : bool) lang pad num blocks rest, Forall (fun c => c <> 0) lang -> zlen lang + 1 + zlen pad = (if old then 8 else 32) ->
  2 ^ 31 <= num < 2 ^ 32 -> root_tables old (root_data (if old then 8 else 32) lang pad num blocks rest) = Throw.
Proof. exact root_negative. Qed.
Print Assumptions C119_root_negative.
Example C119_case : root_tables true (root_data 8 (bs "ru") [0; 0; 7; 0; 0] 3 [5; 70000; 9] [1; 2]) = Ok (bs "ru", [5; 70000; 9]) /\ zlen (bs "ru") + 1 + zlen [0; 0; 7; 0; 0] = 8.
Proof. split; vm_compute; reflexivity. Qed.

(** C120: an infobase has all of its five tables, a repository none of them and all of its ten; a file with none of
    the fifteen is something else; every other combination is refused. *)
Theorem C120_kind_exact : forall has,
  (db_kind has = Ok Infobase <-> forall n, In n [bs "CONFIG"; bs "CONFIGSAVE"; bs "PARAMS"; bs "FILES"; bs "DBSCHEMA"] -> has n = true) /\
  (db_kind has = Ok Depot <-> (forall n, In n [bs "CONFIG"; bs "CONFIGSAVE"; bs "PARAMS"; bs "FILES"; bs "DBSCHEMA"] -> has n = false) /\
     (forall n, In n [bs "DEPOT"; bs "USERS"; bs "OBJECTS"; bs "VERSIONS"; bs "LABELS"; bs "HISTORY"; bs "LASTESTVERSIONS"; bs "EXTERNALS"; bs "SELFREFS"; bs "OUTREFS"] -> has n = true)) /\
  (db_kind has = Ok Other <-> forall n, In n ([bs "CONFIG"; bs "CONFIGSAVE"; bs "PARAMS"; bs "FILES"; bs "DBSCHEMA"] ++
     [bs "DEPOT"; bs "USERS"; bs "OBJECTS"; bs "VERSIONS"; bs "LABELS"; bs "HISTORY"; bs "LASTESTVERSIONS"; bs "EXTERNALS"; bs "SELFREFS"; bs "OUTREFS"]) -> has n = false) /\
  decided (db_kind has).
Proof. exact kind_exact. Qed.
Print Assumptions C120_kind_exact.
Example C120_case : db_kind (fun n => if teq n (bs "CONFIG") then true else false) = Throw.
Proof. reflexivity. Qed.

(** C121: the description of a table is read exactly: the fields, indexes, lock and files are those written, and
    every other text is refused with an exception. *)
Theorem C121_tree_exact : forall same d t, wf_tree t -> (table_of same t = Ok d <-> describes same d t) /\ decided (table_of same t).
Proof. exact table_exact. Qed.
Print Assumptions C121_tree_exact.
Theorem C121_text_read : forall same t d, printable t -> describes same d t -> table_of_text same (outtext t []) = Ok (Some d).
Proof. exact text_complete. Qed.
Print Assumptions C121_text_read.
Theorem C121_text_sound : forall same text d, ~ In 0 text -> table_of_text same text = Ok (Some d) -> exists t, parse_text text = Ok (Node [] nd_list [t]) /\ describes same d t.
Proof. exact text_sound. Qed.
Print Assumptions C121_text_sound.
Theorem C121_text_decided : forall same text, ~ In 0 text -> decided (table_of_text same text) /\ (table_of_text same text = Ok None <-> text = []).
Proof. exact text_decided. Qed.
Print Assumptions C121_text_decided.
Definition sample_descr : list Z := bs "{""T1"",0,{""Fields"",{""ID"",""B"",0,16,0,""CS""},{""N"",""NVC"",1,25,-3,""CI""}},{""Indexes"",{""BYN"",1,{""N"",25},{""ID"",16}}},{""Recordlock"",""1""},{""Files"",5,0,17}}".
Definition sample_decl : tdecl :=
  TDc (bs "T1") [FDc (bs "ID") KBin false 16 0 true; FDc (bs "N") KVarchar true 25 (-3) false] [IDc (bs "BYN") true [(1%nat, 25); (0%nat, 16)]] true 5 0 17.
Example C121_case : table_of_text teq sample_descr = Ok (Some sample_decl) /\ ~ In 0 sample_descr.
Proof. split; [vm_compute; reflexivity|]. intros H. repeat (destruct H as [H|H]; [discriminate H|]). destruct H. Qed.
Example C121_described : exists t, parse_text sample_descr = Ok (Node [] nd_list [t]) /\ describes teq sample_decl t.
Proof. apply C121_text_sound; [exact (proj2 C121_case)|exact (proj1 C121_case)]. Qed.

(** C122: the files of a table are taken exactly when the index file is made of whole pages, its first free page and
    every index lie inside it and the data file is made of whole records; files below 4 GiB. *)
Theorem C122_indexes_exact : forall v ps free bufs rest, 0 < ps -> bufs <> [] -> Forall (fun b => 0 <= b < 2 ^ 32) (free :: bufs) -> free * ps < 2 ^ 32 ->
  zlen (index_file free bufs rest) < 2 ^ 32 ->
  decided (open_indexes v ps (Some (from_bytes (index_file free bufs rest))) (length bufs)) /\
  forall ss, open_indexes v ps (Some (from_bytes (index_file free bufs rest))) (length bufs) = Ok ss <->
    (ps | zlen (index_file free bufs rest)) /\ free * ps < zlen (index_file free bufs rest) /\ Forall2 (start_ok v ps (zlen (index_file free bufs rest))) bufs ss.
Proof. exact indexes_exact. Qed.
Print Assumptions C122_indexes_exact.
Theorem C122_presence : forall v ps n d, (open_indexes v ps None n = Ok [] <-> n = 0%nat) /\ open_indexes v ps (Some d) 0 = Throw /\ forall len, open_data None len = Throw.
Proof. intros v ps n d. split; [|split; [destruct d|]; reflexivity]. destruct n; cbn; split; intros; try reflexivity; discriminate. Qed.
Print Assumptions C122_presence.
(** an index file without room for all places is refused *)
Theorem C122_too_many : forall v ps d n, (0 < n)%nat -> zlen d < 4 * Z.of_nat n + 4 -> open_indexes v ps (Some (from_bytes d)) n = Throw.
Proof. exact indexes_short. Qed.
Print Assumptions C122_too_many.
Theorem C122_data_exact : forall len reclen n, 0 < reclen -> 0 <= len < 2 ^ 32 -> (open_data (Some len) reclen = Ok n <-> len = n * reclen) /\ decided (open_data (Some len) reclen).
Proof. exact data_exact. Qed.
Print Assumptions C122_data_exact.
Example C122_case : open_indexes true 8 (Some (from_bytes (index_file 1 [1; 0] [7; 7; 7; 7]))) 2 = Ok [8; 0] /\ open_indexes true 8 (Some (from_bytes (index_file 1 [1; 2] [7; 7; 7; 7]))) 2 = Throw /\
  open_indexes false 8 (Some (from_bytes (index_file 1 [8; 0] [7; 7; 7; 7]))) 2 = Throw /\ open_data (Some 30) 5 = Ok 6 /\ open_data (Some 31) 5 = Throw.
Proof. repeat apply conj; vm_compute; reflexivity. Qed.

(** C123: a damaged file is refused with an exception (REFUTED). *)
Theorem C123_page_size_zero_refuted : forall junk file mono, 24 <= zlen file -> firstn 8 file = bs "1CDBMSV8" -> no_page_size file -> open_header junk file mono = UB.
Proof. exact no_page_size_ub. Qed.
Print Assumptions C123_page_size_zero_refuted.
Theorem C123_any_page_size_refuted : forall junk mono ps, 24 <= ps < 2 ^ 32 -> exists file, zlen file = ps /\ open_header junk file mono = Ok (HD V8380 ps 1 (negb mono)).
Proof.
  intros junk mono ps H. pose proof (any_page_size junk mono ps H) as Q. exists (one_page ps). split; [|exact Q].
  apply open_exact in Q; [|apply one_page_ok| |].
  - destruct Q as (_ & _ & _ & Q & _). cbn [h_pages h_page] in Q. lia.
  - unfold one_page. rewrite !zlen_app. unfold zlen. rewrite repeat_length, !le_bytes_length. cbn [bs length String.list_ascii_of_string map]. lia.
  - intros (_ & P). change (le_val (sub (one_page ps) 20 4)) with (le_val (le_bytes 4 ps)) in P. rewrite le_val_bytes_small in P by (cbn; lia). lia.
Qed.
Print Assumptions C123_any_page_size_refuted.
Theorem C123_short_file_refuted : forall mono, exists junk1 junk2 h, length junk1 = 24%nat /\ length junk2 = 24%nat /\ open_header junk1 [] mono = Ok h /\ open_header junk2 [] mono = Throw.
Proof. intros mono. exists (good_head 0 4096), (repeat 0 24), (HD V8380 4096 0 (negb mono)). split; [reflexivity|]. split; [reflexivity|]. apply short_file. Qed.
Print Assumptions C123_short_file_refuted.
Theorem C123_root_truncated_refuted : forall (old : bool) lang pad num blocks rest, Forall (fun c => c <> 0) lang -> zlen lang + 1 + zlen pad = (if old then 8 else 32) ->
  4 * zlen blocks + zlen rest < 4 * num -> num < 2 ^ 31 -> root_tables old (root_data (if old then 8 else 32) lang pad num blocks rest) = UB.
Proof. exact root_short. Qed.
Print Assumptions C123_root_truncated_refuted.
Theorem C123_free_page_outside_refuted : forall v ps free bufs rest, 0 < ps -> bufs <> [] -> Forall (fun b => 0 <= b < 2 ^ 32) (free :: bufs) ->
  zlen (index_file free bufs rest) < 2 ^ 32 -> (ps | zlen (index_file free bufs rest)) -> (free * ps) mod 2 ^ 32 < zlen (index_file free bufs rest) ->
  forall ss, Forall2 (start_ok v ps (zlen (index_file free bufs rest))) bufs ss -> open_indexes v ps (Some (from_bytes (index_file free bufs rest))) (length bufs) = Ok ss.
Proof. exact free_wraps. Qed.
Print Assumptions C123_free_page_outside_refuted.
Example C123_free_case : open_indexes true 4096 (Some (from_bytes (index_file 1048576 [0] (repeat 0 4088)))) 1 = Ok [0] /\ zlen (index_file 1048576 [0] (repeat 0 4088)) = 4096.
Proof. split; vm_compute; reflexivity. Qed.

(** C124: a table whose files hold together can be opened (REFUTED from 4 GiB on). *)
Theorem C124_index_4gib_refuted : forall v ps len get n, 2 ^ 32 <= len -> open_indexes v ps (Some (len, get)) n = Throw.
Proof. exact indexes_big. Qed.
Print Assumptions C124_index_4gib_refuted.
Theorem C124_data_4gib_refuted : forall len reclen, 2 ^ 32 <= len -> open_data (Some len) reclen = Throw.
Proof. exact data_big. Qed.
Print Assumptions C124_data_4gib_refuted.
Theorem C124_data_partial : forall len reclen n, 0 < reclen -> 0 <= len < 2 ^ 32 -> len = n * reclen -> open_data (Some len) reclen = Ok n.
Proof. intros len reclen n H H0. apply (data_exact len reclen n H H0). Qed.
Print Assumptions C124_data_partial.
