(** A small depot for the examples: two versions, two objects, an external file, removed records; the data of one object is in the pack directory. *)
From Coq Require String Ascii.
From Coq Require Import Sorted.
From Verif Require Import Prelude Codec_Model Text_Model Text_Spec Text_Proofs Tree_Model Tree_Spec Tree_Proofs Field_Model Field_Spec Obj_Model Obj_Spec Blob_Spec Leaf_Model Leaf_Spec Bcd_Spec Codec_Spec
  Xml_Model Xml_Spec Cfg_Spec Descr_Model Descr_Spec Full_Model Full_Spec Full_Demo Conf_Spec Conf_Demo Depot_Model Depot_Spec Out_Model Out_Spec Out_Proofs Rep_Model Rep_Spec.
Import String.StringSyntax.
Ltac Zify.zify_post_hook ::= idtac.

(** names are compared without letter case and up to U+0000 *)
Fixpoint until_nul (l : list Z) : list Z := match l with [] => [] | c :: r => if c =? 0 then [] else c :: until_nul r end.
Definition d_same (a b : list Z) : bool := beq (map low (until_nul a)) (map low (until_nul b)).
Lemma beq_iff a b : beq a b = true <-> a = b.
Proof. split; [apply beq_eq|]. intros ->. unfold beq. destruct (list_eq_dec Z.eq_dec b b); congruence. Qed.
Lemma d_equiv : equiv d_same.
Proof. unfold d_same. split; [|split]; intros *; rewrite !beq_iff; congruence. Qed.
Lemma until_plain l r : Forall (fun c => 0 < c < 128) l -> until_nul (l ++ 0 :: r) = l /\ until_nul l = l.
Proof. induction 1 as [|c l Hc _ (A & B)]; [split; reflexivity|]. cbn [app until_nul]. destruct (Z.eqb_spec c 0); [lia|]. now rewrite A, B. Qed.
Lemma d_up_to_nul : up_to_nul d_same.
Proof. intros a b Ha Hb. unfold d_same. rewrite beq_iff. now rewrite (proj1 (until_plain a [0] Ha)), (proj2 (until_plain b [] Hb)). Qed.

(** ** Descriptions *)
Definition num_node (s : list Z) : Tree_Model.tree := Tree_Model.Node s nd_number [].
Definition f_node (name code len null : String.string) : Tree_Model.tree :=
  Tree_Model.Node [] nd_list [Descr_Spec.str (bs name); Descr_Spec.str (bs code); num_node (bs null); num_node (bs len); num_node (bs "0"); Descr_Spec.str (bs "CS")].
Arguments f_node (name code len null)%string_scope.
Definition pk_node (name : String.string) : Tree_Model.tree :=
  Tree_Model.Node [] nd_list [Descr_Spec.str (bs "PK"); num_node (bs "1"); Tree_Model.Node [] nd_list [Descr_Spec.str (bs name); num_node (bs "2")]].
Arguments pk_node name%string_scope.
Definition d_tree (name : String.string) (fields is : list Tree_Model.tree) (data blob index : String.string) : Tree_Model.tree :=
  Tree_Model.Node [] nd_list [Descr_Spec.str (bs name); num_node (bs "0"); Tree_Model.Node [] nd_list (Descr_Spec.str (bs "Fields") :: fields);
    Tree_Model.Node [] nd_list (Descr_Spec.str (bs "Indexes") :: is); Tree_Model.Node [] nd_list [Descr_Spec.str (bs "Recordlock"); Descr_Spec.str (bs "0")];
    Tree_Model.Node [] nd_list [Descr_Spec.str (bs "Files"); num_node (bs data); num_node (bs blob); num_node (bs index)]].
Arguments d_tree name%string_scope fields is (data blob index)%string_scope.
Definition dd_tree := d_tree "Depot" [f_node "DEPOTVER" "B" "8" "0"; f_node "ROOTOBJID" "B" "16" "0"] [] "3" "0" "0".
Definition dd_decl := TDc (bs "Depot") [FDc (bs "DEPOTVER") KBin false 8 0 true; FDc (bs "ROOTOBJID") KBin false 16 0 true] [] false 3 0 0.
Definition dv_tree := d_tree "VERSIONS" [f_node "VERNUM" "N" "3" "0"; f_node "SNAPSHOTMAKER" "B" "16" "0"; f_node "CVERSION" "B" "4" "0"] [pk_node "VERNUM"] "5" "0" "22".
Definition dv_decl := TDc (bs "VERSIONS") [FDc (bs "VERNUM") KNum false 3 0 true; FDc (bs "SNAPSHOTMAKER") KBin false 16 0 true; FDc (bs "CVERSION") KBin false 4 0 true] [IDc (bs "PK") true [(0%nat, 2)]] false 5 0 22.
Definition dh_tree := d_tree "HISTORY" [f_node "OBJID" "B" "16" "0"; f_node "VERNUM" "N" "3" "0"; f_node "OBJVERID" "B" "16" "0"; f_node "REMOVED" "L" "0" "0"; f_node "DATAPACKED" "L" "0" "0"; f_node "OBJDATA" "I" "0" "1"; f_node "DATAHASH" "B" "20" "0"] [pk_node "OBJID"] "7" "14" "26".
Definition dh_decl := TDc (bs "HISTORY") [FDc (bs "OBJID") KBin false 16 0 true; FDc (bs "VERNUM") KNum false 3 0 true; FDc (bs "OBJVERID") KBin false 16 0 true; FDc (bs "REMOVED") KBool false 0 0 true;
  FDc (bs "DATAPACKED") KBool false 0 0 true; FDc (bs "OBJDATA") KImage true 0 0 true; FDc (bs "DATAHASH") KBin false 20 0 true] [IDc (bs "PK") true [(0%nat, 2)]] false 7 14 26.
Definition de_tree := d_tree "EXTERNALS" [f_node "OBJID" "B" "16" "0"; f_node "VERNUM" "N" "3" "0"; f_node "EXTNAME" "NVC" "3" "0"; f_node "EXTVERID" "B" "16" "0"; f_node "DATAPACKED" "L" "0" "0"; f_node "EXTDATA" "I" "0" "0"; f_node "DATAHASH" "B" "20" "1"] [pk_node "OBJID"] "10" "18" "30".
Definition de_decl := TDc (bs "EXTERNALS") [FDc (bs "OBJID") KBin false 16 0 true; FDc (bs "VERNUM") KNum false 3 0 true; FDc (bs "EXTNAME") KVarchar false 3 0 true; FDc (bs "EXTVERID") KBin false 16 0 true;
  FDc (bs "DATAPACKED") KBool false 0 0 true; FDc (bs "EXTDATA") KImage false 0 0 true; FDc (bs "DATAHASH") KBin true 20 0 true] [IDc (bs "PK") true [(0%nat, 2)]] false 10 18 30.
Definition ds_names : list String.string := ["USERS"; "OBJECTS"; "LABELS"; "LASTESTVERSIONS"; "SELFREFS"; "OUTREFS"]%string.
Definition ds_tree (name : String.string) := d_tree name [f_node "B" "L" "0" "0"] [] "12" "0" "0".
Definition ds_decl (name : String.string) : tdecl := TDc (bs name) [FDc (bs "B") KBool false 0 0 true] [] false 12 0 0.
Arguments ds_tree name%string_scope.
Arguments ds_decl name%string_scope.

(** ** Records *)
Definition gid (n : Z) : list Z := repeat 0 15 ++ [n].
Definition hash9 : list Z := 9 :: repeat 170 19.
Definition no_hash : list Z := repeat 0 20.
Definition dd_recs : list (list Z) := [1 :: [5; 0; 0; 0; 0; 0; 0; 0] ++ gid 9; 0 :: [6; 0; 0; 0; 0; 0; 0; 0] ++ gid 3].
Definition dv_recs : list (list Z) := [0 :: [16; 4] ++ gid 0 ++ [0; 216; 0; 1]; 1 :: [16; 9] ++ gid 0 ++ [0; 0; 0; 0]; 0 :: [16; 1] ++ gid 7 ++ [0; 6; 0; 0]].
Definition dh_rec (m o v i r p nul s n : Z) (h : list Z) : list Z := m :: gid o ++ [16; v] ++ gid i ++ [r; p; nul] ++ le_bytes 4 s ++ le_bytes 4 n ++ h.
Definition dh_recs : list (list Z) := Eval vm_compute in
  [dh_rec 0 3 4 102 0 1 0 0 0 hash9; dh_rec 0 5 2 104 0 1 1 1 1 no_hash; dh_rec 0 3 1 101 0 1 1 2 2 no_hash; dh_rec 1 8 8 8 0 1 1 1 1 no_hash; dh_rec 0 7 1 105 1 0 1 0 0 no_hash].
Definition de_rec (m o v c i p s n nul : Z) : list Z := m :: gid o ++ [16; v] ++ ([1; 0] ++ [c; 0] ++ [0; 0; 0; 0]) ++ gid i ++ [p] ++ le_bytes 4 s ++ le_bytes 4 n ++ nul :: no_hash.
Definition de_recs : list (list Z) := Eval vm_compute in [de_rec 0 3 4 65 107 1 1 1 0; de_rec 0 3 1 65 106 1 2 2 1].
Definition d_rows : list vrow :=
  [VR (HR (gid 3) 1 false true (Some [30; 31]) no_hash) (gid 101); VR (HR (gid 3) 4 false true None hash9) (gid 102); VR (HR (gid 5) 2 false true (Some [50]) no_hash) (gid 104); VR (HR (gid 7) 1 true false None no_hash) (gid 105)].
Definition d_exts : list xrow := [XR (ER (gid 3) 1 [65] true (Some [34; 35]) no_hash) (gid 106); XR (ER (gid 3) 4 [65] true (Some [33]) []) (gid 107)].
Definition d_vers : list version := [VN 1 (gid 7) 6 0; VN 4 (gid 0) 216 1].
Definition d_repo := RP 6 (gid 3) d_vers d_rows d_exts.
Definition d_store (h : list Z) : option (list Z) := if list_eq_dec Z.eq_dec h hash9 then Some [32] else None.

(** ** The file *)
Definition v_leaf : list (Z * list Z) := [(2, [0; 1]); (0, [0; 4])].
Definition h_leaf : list (Z * list Z) := [(2, [3; 1]); (0, [3; 4]); (1, [5; 2]); (4, [7; 1])].
Definition e_leaf : list (Z * list Z) := [(1, [3; 1]); (0, [3; 4])].
Definition leaf_of (l : list (Z * list Z)) : list Z :=
  match pack_leafpage true 2 256 (Leaf_Spec.flat l) (length l) ([2; 0; zlen l; 0] ++ repeat 255 8 ++ repeat 0 244) with Ok (p, _) => p | _ => [] end.
Definition v_page : list Z := Eval vm_compute in leaf_of v_leaf.
Definition h_page' : list Z := Eval vm_compute in leaf_of h_leaf.
Definition e_page : list Z := Eval vm_compute in leaf_of e_leaf.
Definition index_rest (p : list Z) : list Z := repeat 0 248 ++ fill_page (le_bytes 4 2 ++ le_bytes 2 2) ++ p.
Definition v_index : list Z := Eval vm_compute in Descr_Spec.index_file 0 [1] (index_rest v_page).
Definition h_index : list Z := Eval vm_compute in Descr_Spec.index_file 0 [1] (index_rest h_page').
Definition e_index : list Z := Eval vm_compute in Descr_Spec.index_file 0 [1] (index_rest e_page).
Definition h_blob : list Z := Eval vm_compute in repeat 0 256 ++ chunk_page 0 [50] ++ chunk_page 0 [30; 31].
Definition e_blob : list Z := Eval vm_compute in repeat 0 256 ++ chunk_page 0 [33] ++ chunk_page 0 [34; 35].
Definition d_root : list Z := Eval vm_compute in root_data 32 (bs "ru") (repeat 0 29) 10 [2; 3; 4; 6; 8; 9; 10; 11; 12; 13] [].
Definition dd_text : list Z := Eval vm_compute in outtext dd_tree [].
Definition dv_text : list Z := Eval vm_compute in outtext dv_tree [].
Definition dh_text : list Z := Eval vm_compute in outtext dh_tree [].
Definition de_text : list Z := Eval vm_compute in outtext de_tree [].
Definition d_root_obj : list Z := Eval vm_compute in
  repeat 0 256 ++ chunk_page 0 d_root ++ chunk_page 0 dd_text ++ chunk_page 0 dv_text ++ chunk_page 5 (firstn 250 dh_text) ++ chunk_page 0 (skipn 250 dh_text) ++ chunk_page 7 (firstn 250 de_text) ++ chunk_page 0 (skipn 250 de_text) ++
  concat (map (fun n => chunk_page 0 (outtext (ds_tree n) [])) ds_names).
Definition cut (f : list Z) (n : nat) : list (list Z) := map (fun i => sub f (256 * i) 256) (seq 0 n).
Definition root_pages : list Z := map (fun i => 34 + Z.of_nat i) (seq 0 14).
Definition d_pages : list (list Z) := Eval vm_compute in
  [fill_page (bs "1CDBMSV8" ++ [8; 3; 8; 0] ++ [48; 0; 0; 0] ++ [0; 0; 0; 0] ++ [0; 1; 0; 0]); fill_page [28; 255]; obj_page 3584 root_pages;
   obj_page 50 [4]; fill_page (concat dd_recs); obj_page 69 [6]; fill_page (concat dv_recs); obj_page 330 [8; 9]; firstn 256 (concat dh_recs); fill_page (skipn 256 (concat dh_recs));
   obj_page 146 [11]; fill_page (concat de_recs); obj_page 5 [13]; fill_page (concat s_recs)] ++
  obj_page 768 [15; 16; 17] :: cut h_blob 3 ++ obj_page 768 [19; 20; 21] :: cut e_blob 3 ++ obj_page 768 [23; 24; 25] :: cut v_index 3 ++ obj_page 768 [27; 28; 29] :: cut h_index 3 ++ obj_page 768 [31; 32; 33] :: cut e_index 3 ++ cut d_root_obj 14.
Definition d_file : list Z := concat d_pages.
Definition dd_cont := CT dd_decl dd_recs None [1].
Definition dv_cont := CT dv_decl dv_recs None [2; 0].
Definition dh_cont := CT dh_decl dh_recs (Some h_blob) [2; 0; 1; 4].
Definition de_cont := CT de_decl de_recs (Some e_blob) [1; 0].
Definition ds_cont (n : String.string) := CT (ds_decl n) s_recs None [0].
Definition d_conts : list cont := [dd_cont; dv_cont; dh_cont; de_cont] ++ map ds_cont ds_names.
Definition d_head := HD V8380 256 48 true.

Lemma d_printable : printable dd_tree /\ printable dv_tree /\ printable dh_tree /\ printable de_tree /\ Forall (fun n => printable (ds_tree n)) ds_names.
Proof.
  unfold dd_tree, dv_tree, dh_tree, de_tree, ds_tree, d_tree, f_node, pk_node, num_node, Descr_Spec.str. split; [pr1|]. split; [pr1|]. split; [pr1|]. split; [pr1|]. repeat (apply Forall_cons; [pr1|]). apply Forall_nil.
Qed.
Ltac d_des := do 7 eexists; split; [reflexivity|]; split; [discriminate|]; split; [|split; [reflexivity|split]].
Ltac d_pk := apply Forall2_cons; [|constructor]; eexists; split; [reflexivity|]; split; [discriminate|]; apply Forall2_cons; [|constructor]; do 2 eexists; split; [reflexivity|]; split; [|nm [2]];
  eexists; split; [reflexivity|]; split; [vm_compute; reflexivity|]; intros j g Hj; cbn in Hj; lia.
Ltac d_fl a b c := split; [nm a|]; split; [nm b|nm c].
Lemma d_describes : describes d_same dd_decl dd_tree /\ describes d_same dv_decl dv_tree /\ describes d_same dh_decl dh_tree /\ describes d_same de_decl de_tree.
Proof.
  split; [|split; [|split]]; d_des.
  - fd 0 [8]. fd 0 [1; 6]. constructor.
  - constructor.
  - d_fl [3] [0] [0].
  - fd 2 [3]. fd 0 [1; 6]. fd 0 [4]. constructor.
  - d_pk.
  - d_fl [5] [0] [2; 2].
  - fd 0 [1; 6]. fd 2 [3]. fd 0 [1; 6]. fd 1 [0]. fd 1 [0]. fd 8 [0]. fd 0 [2; 0]. constructor.
  - d_pk.
  - d_fl [7] [1; 4] [2; 6].
  - fd 0 [1; 6]. fd 2 [3]. fd 4 [3]. fd 0 [1; 6]. fd 1 [0]. fd 8 [0]. fd 0 [2; 0]. constructor.
  - d_pk.
  - d_fl [1; 0] [1; 8] [3; 0].
Qed.
Lemma ds_describes n : describes d_same (ds_decl n) (ds_tree n).
Proof. d_des; [fd 1 [0]; constructor|constructor|d_fl [1; 2] [0] [0]]. Qed.
Ltac dobj dp len := apply (flat_object 256 d_pages _ dp len); vm_compute; reflexivity.
Lemma do_root : object 256 true d_pages 2 d_root_obj. Proof. dobj root_pages 3584%nat. Qed.
Lemma do_depot : object 256 true d_pages 3 (concat dd_recs). Proof. dobj [4] 50%nat. Qed.
Lemma do_versions : object 256 true d_pages 5 (concat dv_recs). Proof. dobj [6] 69%nat. Qed.
Lemma do_history : object 256 true d_pages 7 (concat dh_recs). Proof. dobj [8; 9] 330%nat. Qed.
Lemma do_externals : object 256 true d_pages 10 (concat de_recs). Proof. dobj [11] 146%nat. Qed.
Lemma do_small : object 256 true d_pages 12 (concat s_recs). Proof. dobj [13] 5%nat. Qed.
Lemma do_hblob : object 256 true d_pages 14 h_blob. Proof. dobj [15; 16; 17] 768%nat. Qed.
Lemma do_eblob : object 256 true d_pages 18 e_blob. Proof. dobj [19; 20; 21] 768%nat. Qed.
Lemma do_vindex : object 256 true d_pages 22 v_index. Proof. dobj [23; 24; 25] 768%nat. Qed.
Lemma do_hindex : object 256 true d_pages 26 h_index. Proof. dobj [27; 28; 29] 768%nat. Qed.
Lemma do_eindex : object 256 true d_pages 30 e_index. Proof. dobj [31; 32; 33] 768%nat. Qed.
Lemma d_blobs : blob d_root_obj 1 [1] d_root /\ blob d_root_obj 2 [2] (outtext dd_tree []) /\ blob d_root_obj 3 [3] (outtext dv_tree []) /\ blob d_root_obj 4 [4; 5] (outtext dh_tree []) /\ blob d_root_obj 6 [6; 7] (outtext de_tree []) /\
  blob h_blob 1 [1] [50] /\ blob h_blob 2 [2] [30; 31] /\ blob e_blob 1 [1] [33] /\ blob e_blob 2 [2] [34; 35].
Proof.
  split; [bl|]. split; [bl|]. split; [bl|]. split; [change (outtext dh_tree []) with dh_text|split; [change (outtext de_tree []) with de_text|split; [bl|]; split; [bl|]; split; bl]];
  (apply two_blob; [lia|vm_compute; discriminate|lia|apply Nat.leb_le; vm_compute; reflexivity|vm_compute; reflexivity|]; bl).
Qed.
Ltac index1 idx leaf page := 
  exists (sub idx 256 8), (Leaf 512 leaf), 2; split; [lia|];
  assert (PA : page_at (in_file idx) 256 512 page) by (split; [vm_compute; reflexivity|]; split; [vm_compute; reflexivity|]; apply bytes_okb_spec; vm_compute; reflexivity);
  split; [exists page; split; [exact PA|]; split; [vm_compute; reflexivity|]; split; [vm_compute; reflexivity|]; split; [vm_compute; reflexivity|]; split; [vm_compute; reflexivity|vm_compute; discriminate]|];
  split; [cbn [t_leaves map fst chained]; split; [exists page; split; [exact PA|vm_compute; reflexivity]|exact Logic.I]|];
  split; [vm_compute; reflexivity|]; split; [vm_compute; reflexivity|]; split; [vm_compute; reflexivity|]; split; [apply Nat.leb_le; vm_compute; reflexivity|]; split; [apply Nat.leb_le; vm_compute; reflexivity|reflexivity].
Lemma d_indexes : index_at 256 true v_index 256 [2; 0] /\ index_at 256 true h_index 256 [2; 0; 1; 4] /\ index_at 256 true e_index 256 [1; 0].
Proof. split; [index1 v_index v_leaf v_page|split; [index1 h_index h_leaf h_page'|index1 e_index e_leaf e_page]]. Qed.
Ltac hf_data H := split; [discriminate|]; split; [exact H|]; split; [repeat (apply Forall_cons; [vm_compute; reflexivity|]); apply Forall_nil|]; split; [vm_compute; reflexivity|]; split.
Ltac hf_blob H := cbn [c_blob]; split; [discriminate|]; split; [exact H|]; split; [exists 3; vm_compute; reflexivity|vm_compute; reflexivity].
Ltac hf_index page idx H K := right; split; [discriminate|]; split; [discriminate|]; exists 0, [1], (index_rest page), [256]; cbv zeta; change (Descr_Spec.index_file 0 [1] (index_rest page)) with idx; split; [exact H|]; split; [reflexivity|];
  split; [repeat constructor; lia|]; split; [vm_compute; reflexivity|]; split; [exists 3; vm_compute; reflexivity|]; split; [vm_compute; reflexivity|]; split; [constructor; [split; [vm_compute; reflexivity|reflexivity]|constructor]|];
  right; exists 256; split; [exists [], (IDc (bs "PK") true [(0%nat, 2)]), []; repeat (split; [first [reflexivity|constructor]|]); reflexivity|]; split; [lia|]; split; [apply d_indexes|vm_compute; discriminate].
Lemma d_files : has_files 256 true d_pages dd_cont /\ has_files 256 true d_pages dv_cont /\ has_files 256 true d_pages dh_cont /\ has_files 256 true d_pages de_cont.
Proof.
  split; [|split; [|split]].
  - hf_data do_depot; [reflexivity|]. left. split; [reflexivity|]. split; [reflexivity|vm_compute; reflexivity].
  - hf_data do_versions; [reflexivity|]. hf_index v_page v_index do_vindex d_indexes.
  - hf_data do_history; [hf_blob do_hblob|]. hf_index h_page' h_index do_hindex d_indexes.
  - hf_data do_externals; [hf_blob do_eblob|]. hf_index e_page e_index do_eindex d_indexes.
Qed.
Lemma ds_files n : has_files 256 true d_pages (ds_cont n).
Proof. hf_data do_small; [reflexivity|]. left. split; [reflexivity|]. split; [reflexivity|vm_compute; reflexivity]. Qed.
Lemma d_base : base d_same d_file false d_head d_pages (map c_decl d_conts).
Proof.
  unfold base. change (Z.to_nat (h_page d_head)) with 256%nat. change (v838_of (Descr_Model.h_ver d_head)) with true. change (old_of (Descr_Model.h_ver d_head)) with false. cbv zeta.
  split; [apply bytes_okb_spec; vm_compute; reflexivity|]. split; [vm_compute; discriminate|].
  split; [split; [vm_compute; reflexivity|]; split; [vm_compute; tauto|]; split; [vm_compute; reflexivity|]; split; [vm_compute; reflexivity|]; split; [vm_compute; reflexivity|]; cbn [h_readonly d_head]; split; auto|].
  split; [split; [reflexivity|]; repeat (apply Forall_cons; [vm_compute; reflexivity|]); apply Forall_nil|].
  split; [exists (nth 1 d_pages []), []; split; [split; [lia|vm_compute; reflexivity]|]; split; [vm_compute; reflexivity|]; split; [|constructor]; intros [|[|i]] v Hi; [injection Hi as <-|discriminate|discriminate]; split; [lia|vm_compute; reflexivity]|].
  destruct d_blobs as (B1 & B2 & B3 & B4 & B5 & _). destruct d_printable as (P1 & P2 & P3 & P4 & P5). destruct d_describes as (D1 & D2 & D3 & D4). repeat match goal with P : Forall _ (_ :: _) |- _ => inversion P; subst; clear P | P : Forall _ ds_names |- _ => unfold ds_names in P end.
  exists d_root_obj, (bs "ru"), (repeat 0 29), [2; 3; 4; 6; 8; 9; 10; 11; 12; 13], []. split; [repeat constructor; discriminate|]. split; [reflexivity|]. split; [reflexivity|]. split.
  - split; [exact do_root|]. split; [exists 14; vm_compute; reflexivity|]. split; [vm_compute; reflexivity|]. split; [vm_compute; reflexivity|]. exists [1]. split; [exact B1|apply Nat.leb_le; vm_compute; reflexivity].
  - Local Ltac big t l B := apply Forall2_cons; [exists t; split; [assumption|]; split; [assumption|]; exists l; split; [lia|]; split; [exact B|]; split; [vm_compute; reflexivity|apply Nat.leb_le; vm_compute; reflexivity]|].
    big dd_tree [2] B2. big dv_tree [3] B3. big dh_tree [4; 5] B4. big de_tree [6; 7] B5.
    Local Ltac small n b := apply Forall2_cons; [exists (ds_tree n); split; [assumption|]; split; [apply ds_describes|]; exists [b]; split; [lia|]; split; [bl|]; split; [vm_compute; reflexivity|apply Nat.leb_le; vm_compute; reflexivity]|].
    small "USERS"%string 8. small "OBJECTS"%string 9. small "LABELS"%string 10. small "LASTESTVERSIONS"%string 11. small "SELFREFS"%string 12. small "OUTREFS"%string 13. constructor.
Qed.
Lemma d_ten : forall n, In n ten -> exists x, In x d_conts /\ d_same (td_name (c_decl x)) n = true.
Proof.
  intros n Hn. assert (X : existsb (fun x => d_same (td_name (c_decl x)) n) d_conts = true).
  { assert (E : forallb (fun n => existsb (fun x => d_same (td_name (c_decl x)) n) d_conts) ten = true) by (vm_compute; reflexivity). rewrite forallb_forall in E. now apply E. }
  apply existsb_exists in X. exact X.
Qed.
Lemma d_five : forall n, In n five -> forall x, In x d_conts -> d_same (td_name (c_decl x)) n = false.
Proof.
  intros n Hn x Hx. assert (E : forallb (fun n => forallb (fun x => negb (d_same (td_name (c_decl x)) n)) d_conts) five = true) by (vm_compute; reflexivity). rewrite forallb_forall in E. specialize (E n Hn). rewrite forallb_forall in E. specialize (E x Hx). now apply negb_true_iff.
Qed.
Lemma d_database : database d_same d_file false d_head d_pages d_conts.
Proof.
  split; [exact d_base|]. split.
  - destruct d_files as (F1 & F2 & F3 & F4). unfold d_conts, ds_names. cbn [map app].
    repeat (apply Forall_cons; [split; [first [assumption|apply ds_files]|split; [repeat constructor; vm_compute; discriminate|discriminate]]|]). apply Forall_nil.
  - right. split; [|left; exact d_ten]. intros n Hn (x & Hx & E). rewrite (d_five n Hn x Hx) in E. discriminate.
Qed.

(** ** What it holds *)
Lemma with_at same fs name i f (P : xfield -> Prop) : nth_error fs i = Some f -> same (x_name f) name && forallb (fun x => negb (same (x_name x) name)) (firstn i fs) = true -> P f -> with_field same fs name P.
Proof.
  intros H1 H2 H3. apply andb_true_iff in H2. destruct H2 as (H2 & H4). destruct (nth_error_split _ _ H1) as (a & b & -> & L). exists f. split; [|exact H3]. exists a, b. split; [reflexivity|]. split; [exact H2|].
  rewrite <- L, firstn_app, Nat.sub_diag, firstn_all, app_nil_r in H4. rewrite forallb_forall in H4. apply Forall_forall. intros x Hx. apply negb_true_iff. now apply H4.
Qed.
Ltac at_field i := eapply (with_at _ _ _ i); [vm_compute; reflexivity|vm_compute; reflexivity|].
Ltac guid1 := split; [reflexivity|]; split; [reflexivity|]; split; [within|]; split; vm_compute; reflexivity.
Ltac flag1 := split; [reflexivity|]; split; [within|]; vm_compute; reflexivity.
Ltac hash1 := split; [reflexivity|]; split; [reflexivity|]; split; [within|]; vm_compute; reflexivity.
Ltac number1 d := part1 d [d] 2%nat.
Ltac data1 s B := exists s; split; [split; [reflexivity|]; split; [within|]; split; [vm_compute; reflexivity|]; split; vm_compute; reflexivity|]; split; [left; discriminate|]; exists B, [s]; split; [reflexivity|]; split; [apply d_blobs|]; split; [vm_compute; reflexivity|apply Nat.leb_le; vm_compute; reflexivity].
Ltac nodata1 := split; [reflexivity|]; split; [within|]; first [left; vm_compute; reflexivity | right; split; [reflexivity|]; split; [within|]; split; [vm_compute; reflexivity|]; split; vm_compute; reflexivity].
Ltac history1 d data := split; [at_field 0%nat; guid1|]; split; [at_field 1%nat; number1 d|]; split; [at_field 2%nat; guid1|]; split; [at_field 3%nat; flag1|]; split; [at_field 4%nat; flag1|]; split; [at_field 5%nat; data|at_field 6%nat; hash1].
Ltac external1 d s := split; [at_field 0%nat; guid1|]; split; [at_field 1%nat; number1 d|]; split; [at_field 2%nat; exists [65]; split; [split; [reflexivity|]; split; [within|]; split; [reflexivity|]; split; [repeat constructor; unfold scalar; lia|]; split; [vm_compute; reflexivity|]; exists (repeat 0 4); vm_compute; reflexivity|reflexivity]|];
  split; [at_field 3%nat; guid1|]; split; [at_field 4%nat; flag1|]; split; [at_field 5%nat; data1 s e_blob|at_field 6%nat; hash1].
Ltac version1 d := split; [at_field 0%nat; number1 d|]; split; [at_field 1%nat; guid1|]; intros _; split; [cbn; lia|]; split; [cbn; lia|]; at_field 2%nat; split; [reflexivity|]; split; [reflexivity|]; split; [reflexivity|]; split; [within|vm_compute; reflexivity].
Ltac rec1 := apply Forall2_cons; [eexists; split; [lia|]; split; [reflexivity|]; split; [eexists; reflexivity|]|].
Ltac lrec1 := eapply lo_row; [lia|reflexivity|eexists; reflexivity| |].
Ltac pk1 := exists [], (IDc (bs "PK") true [(0%nat, 2)]), []; split; [reflexivity|]; split; [vm_compute; reflexivity|]; split; [reflexivity|constructor].
Ltac the_table i := exists (firstn i d_conts), (skipn (S i) d_conts); split; [reflexivity|]; split; [vm_compute; reflexivity|]; repeat (apply Forall_cons; [vm_compute; reflexivity|]); apply Forall_nil.
Lemma d_repository : repository d_same d_conts d_repo.
Proof.
  split; [exact d_five|]. split; [exact d_ten|]. exists dd_cont, dv_cont, dh_cont, de_cont. split; [the_table 0%nat|]. split; [the_table 1%nat|]. split; [the_table 2%nat|]. split; [the_table 3%nat|].
  split; [right; right; left; reflexivity|]. split.
  { eexists [_], _, []. split; [reflexivity|]. split; [eexists; reflexivity|]. split; [apply Forall_cons; [intros (q & Q); discriminate Q|apply Forall_nil]|].
    split; [at_field 0%nat; split; [reflexivity|]; split; [reflexivity|]; split; [within|]; split; [reflexivity|vm_compute; reflexivity]|at_field 1%nat; guid1]. }
  split; [pk1|]. split.
  { change (5 <=? r_dv d_repo) with true. unfold in_order. change (r_vers d_repo) with d_vers. change (c_order dv_cont) with [2; 0]. unfold d_vers. rec1; [version1 1|]. rec1; [version1 4|]. constructor. }
  split. { assert (E : live_numbers (c_recs dv_cont) = [0; 2]) by (vm_compute; reflexivity). rewrite E. cbn. tauto. }
  split; [pk1|]. split.
  { change (6 <=? r_dv d_repo) with true. unfold in_order. change (r_rows d_repo) with d_rows. change (c_order dh_cont) with [2; 0; 1; 4]. unfold d_rows.
    rec1; [history1 1 ltac:(data1 2 h_blob)|]. rec1; [history1 4 ltac:(nodata1)|]. rec1; [history1 2 ltac:(data1 1 h_blob)|]. rec1; [history1 1 ltac:(nodata1)|]. constructor. }
  split; [pk1|].
  change (6 <=? r_dv d_repo) with true. change (r_exts d_repo) with d_exts. change (c_order de_cont) with [1; 0]. unfold d_exts. lrec1; [external1 1 2|]. lrec1; [external1 4 1|]. apply lo_nil.
Qed.
Lemma gid_guid n : 0 <= n < 256 -> is_guid (gid n).
Proof. intros H. split; [reflexivity|]. unfold gid. apply Forall_app. split; [apply Forall_forall; intros x Hx; apply repeat_spec in Hx; subst x; unfold byte_ok; lia|]. constructor; [unfold byte_ok; lia|constructor]. Qed.
Lemma d_sound : depot_sound d_same d_rows d_exts.
Proof.
  unfold depot_sound, d_rows, d_exts. cbn [map v_row x_row]. split; [|split; [discriminate|]].
  - constructor; [exact d_equiv| | | |].
    + repeat (apply Forall_cons; [apply gid_guid; lia|]). constructor.
    + repeat (apply Forall_cons; [apply gid_guid; lia|]). constructor.
    + repeat (apply SSorted_cons || apply Forall_cons || apply SSorted_nil || apply Forall_nil); ((left; reflexivity) || (right; split; reflexivity)).
    + repeat (apply SSorted_cons || apply Forall_cons || apply SSorted_nil || apply Forall_nil); ((left; reflexivity) || (right; split; [reflexivity|]; left; reflexivity) || (right; split; [reflexivity|]; right; split; reflexivity)).
  - split; [repeat (apply Forall_cons; [apply gid_guid; lia|]); constructor|]. split; [repeat (apply Forall_cons; [apply gid_guid; lia|]); constructor|].
    assert (P : forall c, 0 <= c < 128 -> exists cps, Forall scalar cps /\ [c] = utf8_of cps).
    { intros c H. destruct (plain_utf8 [c]) as (E & F); [constructor; [exact H|constructor]|]. exists [c]. auto. }
    repeat (apply Forall_cons; [apply P; lia|]). constructor.
Qed.
Lemma d_complete : complete d_same (packs 6 d_store) 4 (map v_row d_rows) (map x_row d_exts).
Proof.
  intros r (I1 & _ & RM & _). cbn [map In d_rows v_row] in I1. split.
  - repeat (destruct I1 as [<- |I1]; [first [discriminate RM | eexists; left; reflexivity | exists [32]; right; split; [reflexivity|]; eexists; split; reflexivity]|]). destruct I1.
  - intros e (I2 & _). cbn [map In d_exts x_row] in I2. repeat (destruct I2 as [<- |I2]; [eexists; left; reflexivity|]). destruct I2.
Qed.
Definition oid (n : Z) : list Z := repeat 48 8 ++ [45] ++ repeat 48 4 ++ [45] ++ repeat 48 4 ++ [45] ++ repeat 48 4 ++ [45] ++ repeat 48 11 ++ [n].
Definition d_log : list (list Z * list Z) := [(oid 51, [32]); ([65], [33]); (oid 53, [50])].
Lemma d_holds k d : holds_file d_same (packs 6 d_store) 4 d_rows d_exts k d <-> In (k, d) d_log.
Proof.
  destruct (export_log d_same ms (packs 6 d_store) 4 _ _ (proj1 d_sound)) as (log & E & H); [discriminate|exact d_complete|].
  assert (E2 : export d_same ms (packs 6 d_store) 4 (map v_row d_rows) (map x_row d_exts) = Ok d_log) by (vm_compute; reflexivity).
  assert (Q : log = d_log) by congruence. rewrite <- Q, H. symmetry. apply exported_name.
Qed.
Definition d_idlog : list (list Z * list Z) := [(oid 51, gid 102); ([65], gid 107); (oid 53, gid 104)].
Lemma d_ids k i : holds_id d_same 4 d_rows d_exts k i <-> In (k, i) d_idlog.
Proof.
  destruct (export_log d_same ms None 4 _ _ (depot_id d_same d_rows d_exts (proj1 d_sound))) as (log & E & H); [discriminate|apply complete_id|].
  assert (E2 : export d_same ms None 4 (map id_row d_rows) (map id_ext d_exts) = Ok d_idlog) by (vm_compute; reflexivity).
  assert (Q : log = d_idlog) by congruence. rewrite <- Q, H. symmetry. apply exported_id. apply (proj1 d_sound).
Qed.
Lemma d_clear : names_clear ascii_lower d_same (packs 6 d_store) 4 d_rows d_exts.
Proof.
  split; [|split].
  - intros k d k' d' H H' E. apply d_holds in H. apply d_holds in H'. unfold d_log in H, H'. cbn [In] in H, H'.
    destruct H as [H|[H|[H|[]]]], H' as [H'|[H'|[H'|[]]]]; injection H as <- <-; injection H' as <- <-; first [split; reflexivity | discriminate E].
  - intros k i i' H H'. apply d_ids in H. apply d_ids in H'. unfold d_idlog in H, H'. cbn [In] in H, H'.
    destruct H as [H|[H|[H|[]]]], H' as [H'|[H'|[H'|[]]]]; injection H as <- <-; first [discriminate H' | injection H' as <-; reflexivity].
  - intros k d H. apply d_holds in H. unfold d_log in H. cbn [In] in H. destruct H as [H|[H|[H|[]]]]; injection H as <- <-; (split; [discriminate|]; split; [discriminate|]; intros n Hn; cbn [In] in Hn; destruct Hn as [<- |[<- |[<- |[]]]]; discriminate).
Qed.
Lemma d_asked : asked d_vers 0 (VN 4 (gid 0) 216 1) /\ asked d_vers (-1) (VN 1 (gid 7) 6 0) /\ asked d_vers 4 (VN 4 (gid 0) 216 1).
Proof. split; [|split]; (split; [first [right; now left | now left]|]); [split; [right; now left|reflexivity]|split; [now left|reflexivity]|reflexivity]. Qed.
