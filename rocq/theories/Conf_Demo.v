(** A small infobase for the examples: a configuration of two files, one of them in two parts, a part of a third file whose part 0 is missing, and a removed record. *)
From Coq Require String Ascii Sorted.
From Verif Require Import Prelude Codec_Model Text_Model Text_Spec Text_Proofs Tree_Model Tree_Spec Tree_Proofs Field_Model Field_Spec Obj_Model Obj_Spec Blob_Spec Bcd_Spec Codec_Spec
  Xml_Model Xml_Spec Cfg_Model Cfg_Spec Save_Model Save_Spec Chk_Model Chk_Spec Descr_Model Descr_Spec Full_Model Full_Spec Full_Demo Conf_Model Conf_Spec.
Import String.StringSyntax.

Definition fnode (name code len : String.string) : Tree_Model.tree :=
  Tree_Model.Node [] nd_list [Descr_Spec.str (bs name); Descr_Spec.str (bs code); Tree_Model.Node (bs "0") nd_number []; Tree_Model.Node (bs len) nd_number []; Tree_Model.Node (bs "0") nd_number []; Descr_Spec.str (bs "CS")].
Arguments fnode (name code len)%string_scope.
Definition tnode (name : list Z) (fields : list Tree_Model.tree) (data blob : String.string) : Tree_Model.tree :=
  Tree_Model.Node [] nd_list [Descr_Spec.str name; Tree_Model.Node (bs "0") nd_number []; Tree_Model.Node [] nd_list (Descr_Spec.str (bs "Fields") :: fields);
    Tree_Model.Node [] nd_list [Descr_Spec.str (bs "Indexes")]; Tree_Model.Node [] nd_list [Descr_Spec.str (bs "Recordlock"); Descr_Spec.str (bs "0")];
    Tree_Model.Node [] nd_list [Descr_Spec.str (bs "Files"); Tree_Model.Node (bs data) nd_number []; Tree_Model.Node (bs blob) nd_number []; Tree_Model.Node (bs "0") nd_number []]].
Arguments tnode name fields (data blob)%string_scope.
Definition k_tree := tnode (bs "CONFIG") [fnode "FILENAME" "NVC" "7"; fnode "CREATION" "DT" "0"; fnode "Modified" "DT" "0"; fnode "ATTRIBUTES" "N" "5"; fnode "DATASIZE" "N" "5"; fnode "BINARYDATA" "I" "0"; fnode "PARTNO" "N" "3"] "12" "14".
Definition k_decl : tdecl := TDc (bs "CONFIG")
  [FDc (bs "FILENAME") KVarchar false 7 0 true; FDc (bs "CREATION") KDate false 0 0 true; FDc (bs "Modified") KDate false 0 0 true; FDc (bs "ATTRIBUTES") KNum false 5 0 true;
   FDc (bs "DATASIZE") KNum false 5 0 true; FDc (bs "BINARYDATA") KImage false 0 0 true; FDc (bs "PARTNO") KNum false 3 0 true] [] false 12 14 0.
Definition s_tree (name : list Z) := tnode name [fnode "B" "L" "0"] "19" "0".
Definition s_decl (name : list Z) : tdecl := TDc name [FDc (bs "B") KBool false 0 0 true] [] false 19 0 0.
(** the records: name, creation, modification, attributes, size, data, part *)
Definition k_rec (m : Z) (name made changed size : list Z) (blob n part : Z) : list Z :=
  m :: (le_bytes 2 (zlen name) ++ le16 name ++ repeat 0 (14 - 2 * length name)) ++ made ++ changed ++ [16; 0; 0] ++ size ++ le_bytes 4 blob ++ le_bytes 4 n ++ [16; part].
Definition day1 : list Z := [32; 24; 5; 20; 18; 52; 86].
Definition day2 : list Z := [32; 24; 5; 21; 0; 0; 1].
Definition k_recs : list (list Z) := Eval vm_compute in
  [k_rec 0 [98] day2 day2 [16; 0; 1] 3 1 1; k_rec 1 [98] day1 day1 [16; 0; 1] 3 1 0; k_rec 0 [65] day1 day2 [16; 0; 3] 1 3 0; k_rec 0 [66] day2 day1 [16; 0; 2] 2 2 0; k_rec 0 [67] day2 day1 [16; 0; 2] 4 2 2].
Definition s_recs : list (list Z) := [[0; 1; 0; 0; 0]].
Definition k_pieces : list (option piece) := [Some (PC [98] 1 day2 day2 [30]); None; Some (PC [65] 0 day1 day2 [7; 8; 9]); Some (PC [66] 0 day2 day1 [1; 2]); Some (PC [67] 2 day2 day1 [4; 5])].
Definition k_stamp (d : list Z) : Z := le_val d mod 2 ^ 64.
Definition k_entries : list entry := [EN [66] (k_stamp day2) (k_stamp day1) [1; 2; 30]; EN [65] (k_stamp day1) (k_stamp day2) [7; 8; 9]].
(** the file *)
Definition k_text : list Z := Eval vm_compute in outtext k_tree [].
Definition k_names : list (list Z) := [bs "CONFIGSAVE"; bs "PARAMS"; bs "FILES"; bs "DBSCHEMA"].
Definition k_root : list Z := root_data 32 (bs "ru") (repeat 0 29) 5 [2; 4; 5; 6; 7] [].
Definition k_root_obj : list Z := Eval vm_compute in
  repeat 0 256 ++ chunk_page 0 k_root ++ chunk_page 3 (firstn 250 k_text) ++ chunk_page 0 (skipn 250 k_text) ++ concat (map (fun n => chunk_page 0 (outtext (s_tree n) [])) k_names).
Definition k_blob_obj : list Z := Eval vm_compute in repeat 0 256 ++ chunk_page 0 [7; 8; 9] ++ chunk_page 0 [1; 2] ++ chunk_page 0 [30] ++ chunk_page 0 [4; 5].
Definition k_pages : list (list Z) := Eval vm_compute in
  [fill_page (bs "1CDBMSV8" ++ [8; 3; 8; 0] ++ [22; 0; 0; 0] ++ [0; 0; 0; 0] ++ [0; 1; 0; 0]); fill_page [28; 255];
   obj_page 2048 [3; 4; 5; 6; 7; 8; 9; 10]; sub k_root_obj 0 256; sub k_root_obj 256 256; sub k_root_obj 512 256; sub k_root_obj 768 256; sub k_root_obj 1024 256; sub k_root_obj 1280 256; sub k_root_obj 1536 256; sub k_root_obj 1792 256;
   fill_page [];
   obj_page 235 [13]; fill_page (concat k_recs); obj_page 1280 [15; 16; 17; 18; 21]; sub k_blob_obj 0 256; sub k_blob_obj 256 256; sub k_blob_obj 512 256; sub k_blob_obj 768 256;
   obj_page 5 [20]; fill_page (concat s_recs); sub k_blob_obj 1024 256].
Definition k_file : list Z := concat k_pages.
Definition k_cont := CT k_decl k_recs (Some k_blob_obj) [0; 2; 3; 4].
Definition s_cont (n : list Z) := CT (s_decl n) s_recs None [0].
Definition k_conts : list cont := k_cont :: map s_cont k_names.
Definition k_head := HD V8380 256 22 true.

Lemma k_printable : printable k_tree /\ Forall (fun n => printable (s_tree n)) k_names.
Proof. split; [unfold k_tree, tnode, fnode, Descr_Spec.str; pr1|]. repeat (apply Forall_cons; [unfold s_tree, tnode, fnode, Descr_Spec.str; pr1|]). apply Forall_nil. Qed.
Tactic Notation "fd" integer(i) constr(d) := apply Forall2_cons; [eapply one_field; [reflexivity|do i right; left; reflexivity|nm d|nm [0]]|].
Lemma k_describes : describes beq k_decl k_tree.
Proof.
  do 7 eexists. split; [reflexivity|]. split; [discriminate|]. split; [|split; [reflexivity|split; [constructor|]]].
  - fd 4 [7]. fd 9 [0]. fd 9 [0]. fd 2 [5]. fd 2 [5]. fd 8 [0]. fd 2 [3]. constructor.
  - split; [nm [1; 2]|]. split; [nm [1; 4]|nm [0]].
Qed.
Lemma s_describes n : describes beq (s_decl n) (s_tree n).
Proof.
  do 7 eexists. split; [reflexivity|]. split; [discriminate|]. split; [|split; [reflexivity|split; [constructor|]]].
  - fd 1 [0]. constructor.
  - split; [nm [1; 9]|]. split; nm [0].
Qed.
Ltac kobj dp len := apply (flat_object 256 k_pages _ dp len); vm_compute; reflexivity.
Lemma ko_root : object 256 true k_pages 2 k_root_obj. Proof. kobj [3; 4; 5; 6; 7; 8; 9; 10] 2048%nat. Qed.
Lemma ko_data : object 256 true k_pages 12 (concat k_recs). Proof. kobj [13] 235%nat. Qed.
Lemma ko_blob : object 256 true k_pages 14 k_blob_obj. Proof. kobj [15; 16; 17; 18; 21] 1280%nat. Qed.
Lemma ko_small : object 256 true k_pages 19 (concat s_recs). Proof. kobj [20] 5%nat. Qed.
Lemma two_blob f b c d : 0 < b -> 256 * b + 256 <= zlen f -> 0 < c < 2 ^ 32 -> (250 <= length d)%nat -> sub f (Z.to_nat (256 * b)) 256 = chunk_page c (firstn 250 d) -> blob f c [c] (skipn 250 d) -> blob f b [b; c] d.
Proof.
  intros H1 H2 H3 H4 H5 (ds & L & E). exists (firstn 250 d :: ds). split; [|cbn [concat]; rewrite E; apply firstn_skipn]. cbn [linked]. split; [reflexivity|]. exists c. split; [|exact L]. assert (L2 : length (firstn 250 d) = 250%nat) by (rewrite firstn_length; lia).
  split; [exact H1|]. split; [exact H2|]. split; [lia|]. split; [lia|]. exists []. split; [rewrite L2; reflexivity|]. rewrite H5. unfold chunk_page, fill_page. rewrite !app_length, !le_bytes_length, L2. cbn [Nat.add Nat.sub repeat]. rewrite app_nil_r. now rewrite app_nil_r.
Qed.
Lemma k_blobs : blob k_root_obj 1 [1] k_root /\ blob k_root_obj 2 [2; 3] (outtext k_tree []) /\ blob k_blob_obj 1 [1] [7; 8; 9] /\ blob k_blob_obj 2 [2] [1; 2] /\ blob k_blob_obj 3 [3] [30] /\ blob k_blob_obj 4 [4] [4; 5].
Proof.
  split; [bl|]. split; [|split; [bl|]; split; [bl|]; split; bl]. change (outtext k_tree []) with k_text. apply two_blob; [lia|vm_compute; discriminate|lia|apply Nat.leb_le; vm_compute; reflexivity|vm_compute; reflexivity|]. bl.
Qed.
Lemma k_files : has_files 256 true k_pages k_cont.
Proof.
  split; [discriminate|]. split; [exact ko_data|]. split; [repeat (apply Forall_cons; [vm_compute; reflexivity|]); apply Forall_nil|]. split; [vm_compute; reflexivity|]. split.
  - cbn [c_blob k_cont]. split; [discriminate|]. split; [exact ko_blob|]. split; [exists 5; vm_compute; reflexivity|vm_compute; reflexivity].
  - left. split; [reflexivity|]. split; [reflexivity|vm_compute; reflexivity].
Qed.
Lemma s_files n : has_files 256 true k_pages (s_cont n).
Proof.
  split; [discriminate|]. split; [exact ko_small|]. split; [repeat (apply Forall_cons; [vm_compute; reflexivity|]); apply Forall_nil|]. split; [vm_compute; reflexivity|]. split; [reflexivity|].
  left. split; [reflexivity|]. split; [reflexivity|vm_compute; reflexivity].
Qed.
Lemma k_base : base beq k_file false k_head k_pages (map c_decl k_conts).
Proof.
  unfold base. change (Z.to_nat (h_page k_head)) with 256%nat. change (v838_of (h_ver k_head)) with true. change (old_of (h_ver k_head)) with false. cbv zeta.
  split; [apply bytes_okb_spec; vm_compute; reflexivity|]. split; [vm_compute; discriminate|].
  split; [split; [vm_compute; reflexivity|]; split; [vm_compute; tauto|]; split; [vm_compute; reflexivity|]; split; [vm_compute; reflexivity|]; split; [vm_compute; reflexivity|]; cbn [h_readonly k_head]; split; auto|].
  split; [split; [reflexivity|]; repeat (apply Forall_cons; [vm_compute; reflexivity|]); apply Forall_nil|].
  split; [exists (nth 1 k_pages []), []; split; [split; [lia|vm_compute; reflexivity]|]; split; [vm_compute; reflexivity|]; split; [|constructor]; intros [|[|i]] v Hi; [injection Hi as <-|discriminate|discriminate]; split; [lia|vm_compute; reflexivity]|].
  destruct k_blobs as (B1 & B2 & _). destruct k_printable as (P1 & P2). repeat match goal with P : Forall _ (_ :: _) |- _ => inversion P; subst; clear P | P : Forall _ k_names |- _ => unfold k_names in P end.
  exists k_root_obj, (bs "ru"), (repeat 0 29), [2; 4; 5; 6; 7], []. split; [repeat constructor; discriminate|]. split; [reflexivity|]. split; [reflexivity|]. split.
  - split; [exact ko_root|]. split; [exists 8; vm_compute; reflexivity|]. split; [vm_compute; reflexivity|]. split; [vm_compute; reflexivity|]. exists [1]. split; [exact B1|apply Nat.leb_le; vm_compute; reflexivity].
  - apply Forall2_cons; [exists k_tree; split; [assumption|]; split; [exact k_describes|]; exists [2; 3]; split; [lia|]; split; [exact B2|]; split; [vm_compute; reflexivity|apply Nat.leb_le; vm_compute; reflexivity]|].
    Local Ltac small n b := apply Forall2_cons; [exists (s_tree n); split; [assumption|]; split; [apply s_describes|]; exists [b]; split; [lia|]; split; [bl|]; split; [vm_compute; reflexivity|apply Nat.leb_le; vm_compute; reflexivity]|].
    small (bs "CONFIGSAVE") 4. small (bs "PARAMS") 5. small (bs "FILES") 6. small (bs "DBSCHEMA") 7. constructor.
Qed.
Lemma k_infobase : infobase beq k_conts.
Proof.
  intros n Hn. vm_compute in Hn. repeat (destruct Hn as [<- |Hn]; [|]); [..|contradiction].
  - exists k_cont. split; [now left|vm_compute; reflexivity].
  - exists (s_cont (bs "CONFIGSAVE")). split; [right; now left|vm_compute; reflexivity].
  - exists (s_cont (bs "PARAMS")). split; [do 2 right; now left|vm_compute; reflexivity].
  - exists (s_cont (bs "FILES")). split; [do 3 right; now left|vm_compute; reflexivity].
  - exists (s_cont (bs "DBSCHEMA")). split; [do 4 right; now left|vm_compute; reflexivity].
Qed.
Lemma k_database : database beq k_file false k_head k_pages k_conts.
Proof.
  split; [exact k_base|]. split.
  - apply Forall_cons; [split; [exact k_files|split; [repeat constructor; vm_compute; discriminate|discriminate]]|].
    repeat (apply Forall_cons; [split; [apply s_files|split; [repeat constructor; vm_compute; discriminate|discriminate]]|]). apply Forall_nil.
  - left. exact k_infobase.
Qed.

Lemma k_config : config_of beq k_conts k_cont.
Proof. exists [], (map s_cont k_names). split; [reflexivity|]. split; [vm_compute; reflexivity|]. repeat (apply Forall_cons; [vm_compute; reflexivity|]). apply Forall_nil. Qed.
Lemma ascii_name (a b : list Z) : Forall scalar a -> Forall scalar b -> ~ In 0 a -> ~ In 0 b -> Forall2 same_letter a b -> utf8_of a = a -> utf8_of b = b -> same_name a b.
Proof. intros H1 H2 H3 H4 H5 <- <-. exists a, b. repeat (split; [first [reflexivity | assumption]|]). assumption. Qed.
Ltac all_of := repeat (first [apply Forall_cons|apply Forall_nil|apply Forall2_cons|apply Forall2_nil]); unfold scalar, same_letter, case_pair; try lia.
Ltac no_zero := let H := fresh in intros H; cbn in H; repeat (destruct H as [H|H]; [discriminate H|]); exact H.
Ltac name_ok := apply ascii_name; [all_of|all_of|no_zero|no_zero|all_of|reflexivity|reflexivity].
Lemma k_names_ok : file_fields (map fd_name (td_fields k_decl)).
Proof.
  assert (E : map fd_name (td_fields k_decl) = [[70;73;76;69;78;65;77;69]; [67;82;69;65;84;73;79;78]; [77;111;100;105;102;105;101;100]; [65;84;84;82;73;66;85;84;69;83]; [68;65;84;65;83;73;90;69]; [66;73;78;65;82;89;68;65;84;65]] ++ [[80;65;82;84;78;79]]) by (vm_compute; reflexivity). rewrite E.
  eexists. split; [|right; eexists; split; [reflexivity|name_ok]]. repeat (apply Forall2_cons; [name_ok|]). constructor.
Qed.
Ltac within := split; [vm_compute; discriminate|]; split; [vm_compute; discriminate|vm_compute; discriminate].
Ltac name1 := split; [reflexivity|]; split; [within|]; split; [reflexivity|]; split; [repeat constructor; unfold scalar; lia|]; split; [vm_compute; reflexivity|]; exists (repeat 0 12); vm_compute; reflexivity.
Ltac date1 := split; [reflexivity|]; split; [within|vm_compute; reflexivity].
Ltac addr1 s := exists s; split; [discriminate|]; split; [split; [reflexivity|]; split; [within|]; split; [reflexivity|]; split; vm_compute; reflexivity|];
  exists k_blob_obj, [s]; split; [reflexivity|]; split; [apply k_blobs|]; split; [vm_compute; reflexivity|apply Nat.leb_le; vm_compute; reflexivity].
Ltac part1 d ip k := split; [reflexivity|]; split; [within|]; split; [reflexivity|]; split; [cbn; lia|]; exists [d + 48]; split;
  [split; [cbn; lia|]; split; [cbn; lia|]; split; [vm_compute; repeat split; repeat constructor; discriminate|]; exists k, 0%nat, ip, []; split; [vm_compute; reflexivity|]; split; [reflexivity|]; split; [first [now left|right; cbn; lia]|]; split; [now left|vm_compute; reflexivity]
  |exists [d]; split; [repeat constructor; unfold digit; lia|]; split; [discriminate|]; split; [cbn; intros; first [reflexivity|discriminate]|]; left; split; reflexivity].
Ltac piece1 s d ip k := split; [eexists; reflexivity|]; split; [discriminate|]; split; [discriminate|]; do 7 eexists; split; [vm_compute; reflexivity|]; split; [name1|]; split; [date1|]; split; [date1|]; split; [addr1 s|part1 d ip k].
Lemma k_holds : table_holds k_cont k_pieces.
Proof.
  split; [exact k_names_ok|].
  apply Forall2_cons; [piece1 3 1 [1] 2%nat|]. apply Forall2_cons; [left; eexists 1, _; split; [reflexivity|discriminate]|]. apply Forall2_cons; [piece1 1 0 (@nil Z) 3%nat|]. apply Forall2_cons; [piece1 2 0 (@nil Z) 3%nat|]. apply Forall2_cons; [piece1 4 2 [2] 2%nat|]. constructor.
Qed.
Lemma k_no_first : no_first ascii_lower k_pieces (PC [67] 2 day2 day1 [4; 5]).
Proof. intros q H E. cbn [k_pieces In] in H. destruct H as [H|[H|[H|[H|[H|[]]]]]]; try discriminate; injection H as <-; vm_compute in E; discriminate. Qed.
Lemma k_files_are : files_are ascii_lower k_stamp k_pieces k_entries.
Proof.
  split; [|split; [|split]].
  - apply Forall_cons; [|apply Forall_cons; [|apply Forall_nil]].
    + exists (PC [66] 0 day2 day1 [1; 2]), [PC [98] 1 day2 day2 [30]]. split; [repeat constructor|]. split; [|repeat split; reflexivity]. intros p. split.
      * intros [<- |[<- |[]]]; (split; [cbn [k_pieces In]; tauto|reflexivity]).
      * intros (H & E). cbn [k_pieces In] in H. destruct H as [H|[H|[H|[H|[H|[]]]]]]; try discriminate; injection H as <-; [right; now left|vm_compute in E; discriminate|now left|vm_compute in E; discriminate].
    + exists (PC [65] 0 day1 day2 [7; 8; 9]), []. split; [repeat constructor|]. split; [|repeat split; reflexivity]. intros p. split.
      * intros [<- |[]]; (split; [cbn [k_pieces In]; tauto|reflexivity]).
      * intros (H & E). cbn [k_pieces In] in H. destruct H as [H|[H|[H|[H|[H|[]]]]]]; try discriminate; injection H as <-; [vm_compute in E; discriminate|now left|vm_compute in E; discriminate|vm_compute in E; discriminate].
  - vm_compute. constructor; [intros [H|[]]; discriminate|]. constructor; [intros []|constructor].
  - intros p H. cbn [k_pieces In] in H. destruct H as [H|[H|[H|[H|[H|[]]]]]]; try discriminate; injection H as <-; [left; exists (EN [66] (k_stamp day2) (k_stamp day1) [1; 2; 30])|left; exists (EN [65] (k_stamp day1) (k_stamp day2) [7; 8; 9])|left; exists (EN [66] (k_stamp day2) (k_stamp day1) [1; 2; 30])|right; exact k_no_first]; (split; [cbn [k_entries In]; tauto|reflexivity]).
  - intros [|[|[|[|[|i]]]]] [|[|[|[|[|j]]]]] a b Ha Hb E1 E2; cbn [k_pieces nth_error] in Ha, Hb; try discriminate; try reflexivity; try (destruct i; discriminate); try (destruct j; discriminate); injection Ha as <-; injection Hb as <-; vm_compute in E1, E2; discriminate.
Qed.
Lemma k_ordinary : Forall (ordinary ascii_lower) k_entries.
Proof.
  assert (N : forall c, ~ has s_dynupdate (utf8_of [c])).
  { intros c (a & b & E). apply (f_equal (@length Z)) in E. rewrite !app_length in E. unfold utf8_of, enc8 in E. cbn [flat_map] in E. rewrite app_nil_r in E. change (length s_dynupdate) with 11%nat in E.
    repeat match type of E with context [if ?q then _ else _] => destruct q end; cbn [length] in E; lia. }
  repeat (apply Forall_cons; [apply M_plain; [vm_compute; intros [H|[]]; discriminate|vm_compute; discriminate|apply N]|]). apply Forall_nil.
Qed.
Lemma k_no_updates : no_updates ascii_lower k_pieces.
Proof. intros p H. cbn [k_pieces In] in H. destruct H as [H|[H|[H|[H|[H|[]]]]]]; try discriminate; injection H as <-; vm_compute; discriminate. Qed.
