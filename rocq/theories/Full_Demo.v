(** A small database for the examples: two tables, one with a primary index, a text and a removed record. *)
From Coq Require String Ascii.
From Verif Require Import Prelude Codec_Model Text_Model Text_Spec Text_Proofs Tree_Model Tree_Spec Tree_Proofs Field_Model Field_Spec Obj_Model Obj_Spec Blob_Spec Leaf_Model Leaf_Spec Bcd_Spec Codec_Spec
  Xml_Model Xml_Spec Xml_Demo Descr_Model Descr_Spec Full_Model Full_Spec.
Import String.StringSyntax.

(** ** A check for objects whose pages are listed in the header *)
Definition beq (a b : list Z) : bool := if list_eq_dec Z.eq_dec a b then true else false.
Lemma beq_eq a b : beq a b = true -> a = b.
Proof. unfold beq. destruct (list_eq_dec Z.eq_dec a b); [trivial|discriminate]. Qed.
Definition flat_ok (ps : nat) (st : list (list Z)) (n : Z) (dp : list Z) (len : nat) : bool :=
  forallb (fun p => Nat.eqb (length p) ps) st && forallb bytes_okb st && (32 <=? Z.of_nat ps) && Nat.eqb (ps mod 4) 0 && (Z.of_nat ps <? 2 ^ 17) && Nat.eqb (length dp) (groups len ps) && (zlen st <? 2 ^ 32) &&
  forallb (fun b => (0 <=? b) && (b <? zlen st)) dp && (0 <=? n) && negb (n =? 1) && Nat.leb (length dp) (ps / 4 - 6) &&
  match nth_error st (Z.to_nat n) with
  | None => false
  | Some h => beq (sub h 0 4) [28; 253; 0; 0] && beq (sub h 16 8) (le_bytes 8 (Z.of_nat len)) &&
      forallb (fun x => beq (sub h (24 + 4 * fst x) 4) (le_bytes 4 (snd x))) (combine (seq 0 (length dp)) dp)
  end.
Lemma in_combine_seq {A} (x : A) : forall l k i, nth_error l i = Some x -> In ((k + i)%nat, x) (combine (seq k (length l)) l).
Proof.
  induction l as [|y l IH]; intros k [|i] H; try discriminate; cbn [length seq combine nth_error] in *; [left; f_equal; [lia|congruence]|right]. replace (k + S i)%nat with (S k + i)%nat by lia. now apply IH.
Qed.
Lemma flat_object ps st n dp len c : flat_ok ps st n dp len = true -> Obj_Spec.content st dp len = c -> object ps true st n c.
Proof.
  unfold flat_ok. intros H Hc. destruct (nth_error st (Z.to_nat n)) as [h|] eqn:Eh; [|rewrite andb_false_r in H; discriminate]. repeat (apply andb_true_iff in H; destruct H as (H & ?)). rename H into Hl.
  repeat match goal with X : (_ && _)%bool = true |- _ => apply andb_true_iff in X; destruct X as (X & ?) end.
  repeat match goal with X : beq _ _ = true |- _ => apply beq_eq in X end.
  assert (Hin : forall b, (0 <=? b) && (b <? zlen st) = true -> exists p, page_is st b p).
  { intros b Hb. unfold zlen in *. destruct (nth_error st (Z.to_nat b)) as [p|] eqn:Ep; [|apply nth_error_None in Ep; lia]. exists p. split; [lia|exact Ep]. }
  assert (Hn : page_is st n h). { split; [|exact Eh]. assert (Z.to_nat n < length st)%nat by (apply nth_error_Some; congruence). unfold zlen in *. lia. }
  exists F838_flat, len, [], dp. split; [discriminate|]. split; [reflexivity|]. split; [|exact Hc]. unfold Obj_Spec.stored.
  repeat match goal with X : forallb _ _ = true |- _ => rewrite forallb_forall in X end.
  split; [apply Forall_forall; intros p Hp; now apply Nat.eqb_eq, Hl|]. split; [apply Forall_forall; intros p Hp; apply bytes_okb_spec; auto|]. split; [lia|]. split; [now apply Nat.eqb_eq|]. split; [lia|]. split; [now apply Nat.eqb_eq|].
  split; [apply Forall_forall; intros b Hb; apply Hin; auto|]. exists h. split; [exact Hn|]. split; [lia|]. split; [assumption|]. split; [assumption|]. split; [now apply Nat.leb_le|]. split; [|reflexivity].
  intros i v Hi. split; [apply nth_error_In in Hi; match goal with X : forall x, In x dp -> _ |- _ => specialize (X v Hi) end; lia|].
  match goal with X : forall x, In x (combine _ _) -> _ |- _ => specialize (X (i, v) (in_combine_seq v dp 0 i Hi)) end. now apply beq_eq.
Qed.

(** ** The file *)
Definition fill_page (l : list Z) : list Z := l ++ repeat 0 (256 - length l).
Definition obj_page (len : Z) (dp : list Z) : list Z := fill_page ([28; 253; 0; 0] ++ repeat 0 12 ++ le_bytes 8 len ++ concat (map (le_bytes 4) dp)).
Definition chunk_page (nxt : Z) (d : list Z) : list Z := fill_page (le_bytes 4 nxt ++ le_bytes 2 (zlen d) ++ d).
Definition t_tree : Tree_Model.tree :=
  Tree_Model.Node [] nd_list [Descr_Spec.str (bs "T"); Tree_Model.Node (bs "0") nd_number [];
    Tree_Model.Node [] nd_list [Descr_Spec.str (bs "Fields");
      Tree_Model.Node [] nd_list [Descr_Spec.str (bs "N"); Descr_Spec.str (bs "N"); Tree_Model.Node (bs "0") nd_number []; Tree_Model.Node (bs "3") nd_number []; Tree_Model.Node (bs "0") nd_number []; Descr_Spec.str (bs "CS")];
      Tree_Model.Node [] nd_list [Descr_Spec.str (bs "S"); Descr_Spec.str (bs "NT"); Tree_Model.Node (bs "1") nd_number []; Tree_Model.Node (bs "0") nd_number []; Tree_Model.Node (bs "0") nd_number []; Descr_Spec.str (bs "CI")]];
    Tree_Model.Node [] nd_list [Descr_Spec.str (bs "Indexes"); Tree_Model.Node [] nd_list [Descr_Spec.str (bs "I"); Tree_Model.Node (bs "1") nd_number []; Tree_Model.Node [] nd_list [Descr_Spec.str (bs "N"); Tree_Model.Node (bs "2") nd_number []]]];
    Tree_Model.Node [] nd_list [Descr_Spec.str (bs "Recordlock"); Descr_Spec.str (bs "0")];
    Tree_Model.Node [] nd_list [Descr_Spec.str (bs "Files"); Tree_Model.Node (bs "7") nd_number []; Tree_Model.Node (bs "9") nd_number []; Tree_Model.Node (bs "12") nd_number []]].
Definition t_decl : tdecl := TDc (bs "T") [FDc (bs "N") KNum false 3 0 true; FDc (bs "S") KString true 0 0 false] [IDc (bs "I") true [(0%nat, 2)]] false 7 9 12.
(** the other table: an index that is not primary *)
Definition u_tree : Tree_Model.tree :=
  Tree_Model.Node [] nd_list [Descr_Spec.str (bs "U"); Tree_Model.Node (bs "0") nd_number [];
    Tree_Model.Node [] nd_list [Descr_Spec.str (bs "Fields");
      Tree_Model.Node [] nd_list [Descr_Spec.str (bs "B"); Descr_Spec.str (bs "L"); Tree_Model.Node (bs "0") nd_number []; Tree_Model.Node (bs "0") nd_number []; Tree_Model.Node (bs "0") nd_number []; Descr_Spec.str (bs "CS")]];
    Tree_Model.Node [] nd_list [Descr_Spec.str (bs "Indexes"); Tree_Model.Node [] nd_list [Descr_Spec.str (bs "J"); Tree_Model.Node (bs "0") nd_number []; Tree_Model.Node [] nd_list [Descr_Spec.str (bs "B"); Tree_Model.Node (bs "1") nd_number []]]];
    Tree_Model.Node [] nd_list [Descr_Spec.str (bs "Recordlock"); Descr_Spec.str (bs "0")];
    Tree_Model.Node [] nd_list [Descr_Spec.str (bs "Files"); Tree_Model.Node (bs "16") nd_number []; Tree_Model.Node (bs "0") nd_number []; Tree_Model.Node (bs "18") nd_number []]].
Definition u_decl : tdecl := TDc (bs "U") [FDc (bs "B") KBool false 0 0 true] [IDc (bs "J") false [(0%nat, 1)]] false 16 0 18.
Definition t_recs : list (list Z) := [[1; 0; 0; 0; 0; 0; 0; 0; 0; 0; 0; 0]; [0; 16; 18; 1; 1; 0; 0; 0; 4; 0; 0; 0]; [0; 0; 7; 0; 0; 0; 0; 0; 0; 0; 0; 0]].
Definition u_recs : list (list Z) := [[0; 1; 0; 0; 0]; [1; 0; 0; 0; 0]; [0; 0; 0; 0; 0]].
Definition t_leaf : list (Z * list Z) := [(2, [0; 7]); (1, [16; 18])].
Definition leaf_page : list Z :=
  match pack_leafpage true 2 256 (Leaf_Spec.flat t_leaf) 2 ([2; 0; 2; 0] ++ repeat 255 8 ++ repeat 0 244) with Ok (p, _) => p | _ => [] end.
Definition t_root : list Z := root_data 32 (bs "ru") (repeat 0 29) 2 [2; 3] [].
Definition t_root_obj : list Z := repeat 0 256 ++ chunk_page 0 t_root ++ chunk_page 0 (outtext t_tree []) ++ chunk_page 0 (outtext u_tree []).
Definition t_blob_obj : list Z := repeat 0 256 ++ chunk_page 0 (le16 [72; 105]).
Definition t_index_obj : list Z := index_file 0 [1] (repeat 0 248 ++ fill_page (le_bytes 4 2 ++ le_bytes 2 2) ++ leaf_page).
Definition u_index_obj : list Z := index_file 0 [1] (repeat 0 248 ++ fill_page (le_bytes 4 1 ++ le_bytes 2 1)).
Definition t_pages : list (list Z) := Eval vm_compute in
  [fill_page (bs "1CDBMSV8" ++ [8; 3; 8; 0] ++ [21; 0; 0; 0] ++ [0; 0; 0; 0] ++ [0; 1; 0; 0]); fill_page [28; 255];
   obj_page 1024 [3; 4; 5; 6]; sub t_root_obj 0 256; sub t_root_obj 256 256; sub t_root_obj 512 256; sub t_root_obj 768 256;
   obj_page 36 [8]; fill_page (concat t_recs); obj_page 512 [10; 11]; sub t_blob_obj 0 256; sub t_blob_obj 256 256;
   obj_page 768 [13; 14; 15]; sub t_index_obj 0 256; sub t_index_obj 256 256; sub t_index_obj 512 256;
   obj_page 15 [17]; fill_page (concat u_recs); obj_page 512 [19; 20]; sub u_index_obj 0 256; sub u_index_obj 256 256].
Definition t_file : list Z := concat t_pages.
Definition t_cont := CT t_decl t_recs (Some t_blob_obj) [2; 1].
Definition u_cont := CT u_decl u_recs None [0; 2].
Definition t_head := HD V8380 256 21 true.

Lemma number_leaf v : forallb (fun c => negb (c =? 0)) v = true -> classify v = nd_number -> match v with c :: _ => c <> 13 /\ c <> 10 | [] => False end -> printable (Tree_Model.Node v nd_number []).
Proof.
  intros H K N. apply pr_leaf. split; [|exact N]. rewrite <- K. apply classify_kind. intros X. rewrite forallb_forall in H. specialize (H 0 X). discriminate.
Qed.
Ltac pr1 := first [apply pr_leaf; exact Logic.I | apply number_leaf; [reflexivity|vm_compute; reflexivity|cbn; lia] | apply pr_list; [discriminate|discriminate|repeat (apply Forall_cons; [pr1|]); apply Forall_nil]].
Lemma t_printable : printable t_tree /\ printable u_tree.
Proof. split; unfold t_tree, u_tree, Descr_Spec.str; pr1. Qed.
Lemma num_small v x d : v = map (fun d => d + 48) d -> x = digits_value d -> d <> [] -> Forall (fun d => 0 <= d <= 9) d -> -2 ^ 31 <= x < 2 ^ 31 -> num (Tree_Model.Node v nd_number []) x.
Proof. intros A B C D E. exists v. split; [reflexivity|]. split; [exact E|]. exists d. auto. Qed.
Ltac nm d := apply (num_small _ _ d); [reflexivity|reflexivity|discriminate|repeat (apply Forall_cons; [lia|]); apply Forall_nil|cbn; lia].
Lemma one_field f t code l p : t = Tree_Model.Node [] nd_list [Descr_Spec.str (fd_name f); Descr_Spec.str code; Tree_Model.Node (flag (fd_null f)) nd_number []; l; p; Descr_Spec.str (if fd_cs f then bs "CS" else bs "CI")] ->
  In (code, fd_kind f) codes -> num l (fd_len f) -> num p (fd_prec f) -> field_descr f t.
Proof. intros A B C D. exists code, l, p. auto. Qed.
Lemma t_describes : describes beq t_decl t_tree /\ describes beq u_decl u_tree.
Proof.
  split; do 7 eexists; (split; [reflexivity|]); (split; [discriminate|]); (split; [|split; [reflexivity|split]]).
  - apply Forall2_cons; [eapply one_field; [reflexivity|right; right; left; reflexivity|nm [3]|nm [0]]|]. apply Forall2_cons; [eapply one_field; [reflexivity|do 6 right; left; reflexivity|nm [0]|nm [0]]|constructor].
  - apply Forall2_cons; [|constructor]. eexists. split; [reflexivity|]. split; [discriminate|]. apply Forall2_cons; [|constructor]. do 2 eexists. split; [reflexivity|]. split; [|nm [2]].
    eexists. split; [reflexivity|]. split; [reflexivity|]. intros j g Hj. cbn in Hj. lia.
  - split; [nm [7]|]. split; [nm [9]|nm [1; 2]].
  - apply Forall2_cons; [eapply one_field; [reflexivity|right; left; reflexivity|nm [0]|nm [0]]|constructor].
  - apply Forall2_cons; [|constructor]. eexists. split; [reflexivity|]. split; [discriminate|]. apply Forall2_cons; [|constructor]. do 2 eexists. split; [reflexivity|]. split; [|nm [1]].
    eexists. split; [reflexivity|]. split; [reflexivity|]. intros j g Hj. cbn in Hj. lia.
  - split; [nm [1; 6]|]. split; [nm [0]|nm [1; 8]].
Qed.
Ltac obj dp len := apply (flat_object 256 t_pages _ dp len); vm_compute; reflexivity.
Lemma o_root : object 256 true t_pages 2 t_root_obj. Proof. obj [3; 4; 5; 6] 1024%nat. Qed.
Lemma o_tdata : object 256 true t_pages 7 (concat t_recs). Proof. obj [8] 36%nat. Qed.
Lemma o_tblob : object 256 true t_pages 9 t_blob_obj. Proof. obj [10; 11] 512%nat. Qed.
Lemma o_tindex : object 256 true t_pages 12 t_index_obj. Proof. obj [13; 14; 15] 768%nat. Qed.
Lemma o_udata : object 256 true t_pages 16 (concat u_recs). Proof. obj [17] 15%nat. Qed.
Lemma o_uindex : object 256 true t_pages 18 u_index_obj. Proof. obj [19; 20] 512%nat. Qed.
Lemma one_blob f b d : 0 < b -> 256 * b + 256 <= zlen f -> (length d <= 250)%nat -> sub f (Z.to_nat (256 * b)) 256 = chunk_page 0 d -> blob f b [b] d.
Proof.
  intros H1 H2 H3 H4. exists [d]. split; [|cbn [concat]; apply app_nil_r]. cbn [linked]. split; [reflexivity|]. exists 0. split; [|reflexivity]. split; [exact H1|]. split; [exact H2|]. split; [exact H3|]. split; [lia|].
  exists (repeat 0 (250 - length d)). split; [apply repeat_length|]. rewrite H4. unfold chunk_page, fill_page. rewrite !app_length, !le_bytes_length, <- !app_assoc. replace (256 - (4 + (2 + length d)))%nat with (250 - length d)%nat by lia. reflexivity.
Qed.
Ltac bl := apply one_blob; [lia|vm_compute; discriminate|apply Nat.leb_le; vm_compute; reflexivity|vm_compute; reflexivity].
Lemma t_blobs : blob t_root_obj 1 [1] t_root /\ blob t_root_obj 2 [2] (outtext t_tree []) /\ blob t_root_obj 3 [3] (outtext u_tree []) /\ blob t_blob_obj 1 [1] (le16 [72; 105]).
Proof. split; [bl|]. split; [bl|]. split; bl. Qed.
Lemma t_index_at : index_at 256 true t_index_obj 256 [2; 1].
Proof.
  exists (sub t_index_obj 256 8), (Leaf 512 t_leaf), 2. split; [lia|].
  assert (PA : page_at (in_file t_index_obj) 256 512 leaf_page) by (split; [vm_compute; reflexivity|]; split; [vm_compute; reflexivity|]; apply bytes_okb_spec; vm_compute; reflexivity).
  split; [exists leaf_page; split; [exact PA|]; split; [vm_compute; reflexivity|]; split; [vm_compute; reflexivity|]; split; [vm_compute; reflexivity|]; split; [vm_compute; reflexivity|vm_compute; discriminate]|].
  split; [cbn [t_leaves map fst chained]; split; [exists leaf_page; split; [exact PA|vm_compute; reflexivity]|exact Logic.I]|].
  split; [vm_compute; reflexivity|]. split; [vm_compute; reflexivity|]. split; [vm_compute; reflexivity|]. split; [apply Nat.leb_le; vm_compute; reflexivity|]. split; [apply Nat.leb_le; vm_compute; reflexivity|reflexivity].
Qed.
Lemma t_files : has_files 256 true t_pages t_cont /\ has_files 256 true t_pages u_cont.
Proof.
  split.
  - split; [discriminate|]. split; [exact o_tdata|]. split; [repeat (apply Forall_cons; [vm_compute; reflexivity|]); apply Forall_nil|]. split; [vm_compute; reflexivity|]. split.
    + cbn [c_blob t_cont]. split; [discriminate|]. split; [exact o_tblob|]. split; [exists 2; vm_compute; reflexivity|vm_compute; reflexivity].
    + right. split; [discriminate|]. split; [discriminate|]. exists 0, [1], (repeat 0 248 ++ fill_page (le_bytes 4 2 ++ le_bytes 2 2) ++ leaf_page), [256]. cbv zeta. fold t_index_obj. split; [exact o_tindex|]. split; [reflexivity|].
      split; [repeat constructor; lia|]. split; [vm_compute; reflexivity|]. split; [exists 3; vm_compute; reflexivity|]. split; [vm_compute; reflexivity|]. split; [constructor; [split; [vm_compute; reflexivity|reflexivity]|constructor]|].
      right. exists 256. split; [exists [], (IDc (bs "I") true [(0%nat, 2)]), []; repeat (split; [first [reflexivity|constructor]|]); reflexivity|]. split; [lia|]. split; [exact t_index_at|vm_compute; discriminate].
  - split; [discriminate|]. split; [exact o_udata|]. split; [repeat (apply Forall_cons; [vm_compute; reflexivity|]); apply Forall_nil|]. split; [vm_compute; reflexivity|]. split; [reflexivity|].
    right. split; [discriminate|]. split; [discriminate|]. exists 0, [1], (repeat 0 248 ++ fill_page (le_bytes 4 1 ++ le_bytes 2 1)), [256]. cbv zeta. fold u_index_obj. split; [exact o_uindex|]. split; [reflexivity|].
    split; [repeat constructor; lia|]. split; [vm_compute; reflexivity|]. split; [exists 2; vm_compute; reflexivity|]. split; [vm_compute; reflexivity|]. split; [constructor; [split; [vm_compute; reflexivity|reflexivity]|constructor]|].
    left. split; [repeat constructor|vm_compute; reflexivity].
Qed.
Lemma t_base : base beq t_file false t_head t_pages [t_decl; u_decl].
Proof.
  unfold base. change (Z.to_nat (h_page t_head)) with 256%nat. change (v838_of (h_ver t_head)) with true. change (old_of (h_ver t_head)) with false. cbv zeta.
  split; [apply bytes_okb_spec; vm_compute; reflexivity|]. split; [vm_compute; discriminate|].
  split; [split; [vm_compute; reflexivity|]; split; [vm_compute; tauto|]; split; [vm_compute; reflexivity|]; split; [vm_compute; reflexivity|]; split; [vm_compute; reflexivity|]; cbn [h_readonly t_head]; split; auto|].
  split; [split; [reflexivity|]; repeat (apply Forall_cons; [vm_compute; reflexivity|]); apply Forall_nil|].
  split; [exists (nth 1 t_pages []), []; split; [split; [lia|vm_compute; reflexivity]|]; split; [vm_compute; reflexivity|]; split; [|constructor]; intros [|[|i]] v Hi; [injection Hi as <-|discriminate|discriminate]; split; [lia|vm_compute; reflexivity]|].
  destruct t_blobs as (B1 & B2 & B3 & _). destruct t_printable as (P1 & P2). destruct t_describes as (D1 & D2).
  exists t_root_obj, (bs "ru"), (repeat 0 29), [2; 3], []. split; [repeat constructor; discriminate|]. split; [reflexivity|]. split; [reflexivity|]. split.
  - split; [exact o_root|]. split; [exists 4; vm_compute; reflexivity|]. split; [vm_compute; reflexivity|]. split; [vm_compute; reflexivity|]. exists [1]. split; [exact B1|apply Nat.leb_le; vm_compute; reflexivity].
  - constructor; [exists t_tree|constructor; [exists u_tree|constructor]]; (split; [assumption|]); (split; [assumption|]); eexists; (split; [lia|]); (split; [eassumption|]); (split; [vm_compute; reflexivity|apply Nat.leb_le; vm_compute; reflexivity]).
Qed.
Lemma t_database : database beq t_file false t_head t_pages [t_cont; u_cont].
Proof.
  destruct t_files as (F1 & F2). split; [exact t_base|]. split.
  - constructor; [|constructor; [|constructor]]; (split; [assumption|]); (split; [repeat constructor; vm_compute; discriminate|discriminate]).
  - right. split; [|right]; intros n Hn (x & Hx & E); vm_compute in Hn; cbn [In] in Hx; (destruct Hx as [<- |[<- |[]]]); repeat (destruct Hn as [<- |Hn]; [vm_compute in E; discriminate|]); contradiction.
Qed.
(** ** Its documents *)
Definition t_doc := TDoc (Xml_Spec.str "T")
  [FDoc (Xml_Spec.str "N") (Xml_Spec.str "number") (Xml_Spec.str "3") (Xml_Spec.str "0") true; FDoc (Xml_Spec.str "S") (Xml_Spec.str "memo") (Xml_Spec.str "0") (Xml_Spec.str "0") false]
  [[(Xml_Spec.str "N", Xml_Spec.str "-7"); (Xml_Spec.str "S", [])]; [(Xml_Spec.str "N", Xml_Spec.str "12"); (Xml_Spec.str "S", Xml_Spec.str "Hi")]].
Definition u_doc := TDoc (Xml_Spec.str "U")
  [FDoc (Xml_Spec.str "B") (Xml_Spec.str "bool") (Xml_Spec.str "0") (Xml_Spec.str "0") true]
  [[(Xml_Spec.str "B", Xml_Spec.str "true")]; [(Xml_Spec.str "B", Xml_Spec.str "false")]].
(** the same file, but the field of the second table has a name in Cyrillic letters *)
Definition w_name : list Z := utf8_of [1048; 1084; 1103].
Definition w_tree : Tree_Model.tree :=
  Tree_Model.Node [] nd_list [Descr_Spec.str (bs "W"); Tree_Model.Node (bs "0") nd_number [];
    Tree_Model.Node [] nd_list [Descr_Spec.str (bs "Fields");
      Tree_Model.Node [] nd_list [Descr_Spec.str w_name; Descr_Spec.str (bs "L"); Tree_Model.Node (bs "0") nd_number []; Tree_Model.Node (bs "0") nd_number []; Tree_Model.Node (bs "0") nd_number []; Descr_Spec.str (bs "CS")]];
    Tree_Model.Node [] nd_list [Descr_Spec.str (bs "Indexes")];
    Tree_Model.Node [] nd_list [Descr_Spec.str (bs "Recordlock"); Descr_Spec.str (bs "0")];
    Tree_Model.Node [] nd_list [Descr_Spec.str (bs "Files"); Tree_Model.Node (bs "16") nd_number []; Tree_Model.Node (bs "0") nd_number []; Tree_Model.Node (bs "0") nd_number []]].
Definition w_decl : tdecl := TDc (bs "W") [FDc w_name KBool false 0 0 true] [] false 16 0 0.
Definition w_pages : list (list Z) := Eval vm_compute in firstn 6 t_pages ++ chunk_page 0 (outtext w_tree []) :: skipn 7 t_pages.
Definition w_root_obj : list Z := repeat 0 256 ++ chunk_page 0 t_root ++ chunk_page 0 (outtext t_tree []) ++ chunk_page 0 (outtext w_tree []).
Lemma w_base : base beq (concat w_pages) false t_head w_pages [t_decl; w_decl].
Proof.
  unfold base. change (Z.to_nat (h_page t_head)) with 256%nat. change (v838_of (h_ver t_head)) with true. change (old_of (h_ver t_head)) with false. cbv zeta.
  split; [apply bytes_okb_spec; vm_compute; reflexivity|]. split; [vm_compute; discriminate|].
  split; [split; [vm_compute; reflexivity|]; split; [vm_compute; tauto|]; split; [vm_compute; reflexivity|]; split; [vm_compute; reflexivity|]; split; [vm_compute; reflexivity|]; cbn [h_readonly t_head]; split; auto|].
  split; [split; [reflexivity|]; repeat (apply Forall_cons; [vm_compute; reflexivity|]); apply Forall_nil|].
  split; [exists (nth 1 w_pages []), []; split; [split; [lia|vm_compute; reflexivity]|]; split; [vm_compute; reflexivity|]; split; [|constructor]; intros [|[|i]] v Hi; [injection Hi as <-|discriminate|discriminate]; split; [lia|vm_compute; reflexivity]|].
  assert (B1 : blob w_root_obj 1 [1] t_root) by bl. assert (B2 : blob w_root_obj 2 [2] (outtext t_tree [])) by bl. assert (B3 : blob w_root_obj 3 [3] (outtext w_tree [])) by bl.
  destruct t_printable as (P1 & _). assert (P2 : printable w_tree) by (unfold w_tree, Descr_Spec.str; pr1). destruct t_describes as (D1 & _).
  assert (D2 : describes beq w_decl w_tree).
  { do 7 eexists. split; [reflexivity|]. split; [discriminate|]. split; [|split; [reflexivity|split; [constructor|]]].
    - apply Forall2_cons; [eapply one_field; [reflexivity|right; left; reflexivity|nm [0]|nm [0]]|constructor].
    - split; [nm [1; 6]|]. split; nm [0]. }
  exists w_root_obj, (bs "ru"), (repeat 0 29), [2; 3], []. split; [repeat constructor; discriminate|]. split; [reflexivity|]. split; [reflexivity|]. split.
  - split; [apply (flat_object 256 w_pages _ [3; 4; 5; 6] 1024); vm_compute; reflexivity|]. split; [exists 4; vm_compute; reflexivity|]. split; [vm_compute; reflexivity|]. split; [vm_compute; reflexivity|]. exists [1]. split; [exact B1|apply Nat.leb_le; vm_compute; reflexivity].
  - constructor; [exists t_tree|constructor; [exists w_tree|constructor]]; (split; [assumption|]); (split; [assumption|]); eexists; (split; [lia|]); (split; [eassumption|]); (split; [vm_compute; reflexivity|apply Nat.leb_le; vm_compute; reflexivity]).
Qed.
Lemma w_files : has_files 256 true w_pages t_cont.
Proof.
  split; [discriminate|]. split; [apply (flat_object 256 w_pages _ [8] 36); vm_compute; reflexivity|]. split; [repeat (apply Forall_cons; [vm_compute; reflexivity|]); apply Forall_nil|]. split; [vm_compute; reflexivity|]. split.
  + cbn [c_blob t_cont]. split; [discriminate|]. split; [apply (flat_object 256 w_pages _ [10; 11] 512); vm_compute; reflexivity|]. split; [exists 2; vm_compute; reflexivity|vm_compute; reflexivity].
  + right. split; [discriminate|]. split; [discriminate|]. exists 0, [1], (repeat 0 248 ++ fill_page (le_bytes 4 2 ++ le_bytes 2 2) ++ leaf_page), [256]. cbv zeta. fold t_index_obj. split; [apply (flat_object 256 w_pages _ [13; 14; 15] 768); vm_compute; reflexivity|]. split; [reflexivity|].
    split; [repeat constructor; lia|]. split; [vm_compute; reflexivity|]. split; [exists 3; vm_compute; reflexivity|]. split; [vm_compute; reflexivity|]. split; [constructor; [split; [vm_compute; reflexivity|reflexivity]|constructor]|].
    right. exists 256. split; [exists [], (IDc (bs "I") true [(0%nat, 2)]), []; repeat (split; [first [reflexivity|constructor]|]); reflexivity|]. split; [lia|]. split; [exact t_index_at|vm_compute; discriminate].
Qed.
Lemma t_document : document t_cont t_doc.
Proof.
  Local Ltac int1 n := exists [n]; split; [repeat constructor; unfold digit; lia|]; split; [discriminate|]; split; [cbn; intros; first [reflexivity|discriminate]|]; left; split; reflexivity.
  split; [split; [reflexivity|repeat (apply Forall2_cons; [split; [reflexivity|]; split; [reflexivity|]; split; [first [int1 3|int1 0]|]; split; [int1 0|reflexivity]|]); constructor]|].
  apply Forall2_cons; [eexists; split; [lia|]; split; [reflexivity|]|apply Forall2_cons; [eexists; split; [lia|]; split; [reflexivity|]|constructor]];
  (repeat (apply Forall2_cons; [split; [reflexivity|]; split; [vm_compute; discriminate|]; split; [vm_compute; discriminate|]; split; [vm_compute; discriminate|]|]); [..|constructor]).
  - exists []. split; [exact Logic.I|]. split; [cbn; lia|]. split; [cbn; lia|]. split; [vm_compute; repeat split; repeat constructor; try discriminate|].
    exists 2%nat, 0%nat, [7], []. repeat split; try (now left); [right; cbn; lia].
  - reflexivity.
  - exists []. split; [exact Logic.I|]. split; [cbn; lia|]. split; [cbn; lia|]. split; [vm_compute; repeat split; repeat constructor; try discriminate|].
    exists 1%nat, 0%nat, [1; 2], []. repeat split; try (now left); [right; cbn; lia].
  - exists (le16 [72; 105]). split.
    + exists t_blob_obj, [1]. split; [reflexivity|]. split; [exact (proj2 (proj2 (proj2 t_blobs)))|]. split; [reflexivity|apply Nat.leb_le; vm_compute; reflexivity].
    + split; [split; [repeat constructor; discriminate|]; unfold xml_special; intros c [-> | [-> | [-> | [-> | ->]]]]; vm_compute; lia|]. exists [72; 105]. split; [repeat constructor; unfold scalar; lia|]. split; reflexivity.
Qed.
Lemma u_document : document u_cont u_doc.
Proof.
  split; [split; [reflexivity|repeat (apply Forall2_cons; [split; [reflexivity|]; split; [reflexivity|]; split; [int1 0|]; split; [int1 0|reflexivity]|]); constructor]|].
  apply Forall2_cons; [eexists; split; [lia|]; split; [reflexivity|]|apply Forall2_cons; [eexists; split; [lia|]; split; [reflexivity|]|constructor]];
  (repeat (apply Forall2_cons; [split; [reflexivity|]; split; [vm_compute; discriminate|]; split; [vm_compute; discriminate|]; split; [vm_compute; discriminate|]|]); [..|constructor]);
  exists []; (split; [exact Logic.I|]); eexists; (split; [reflexivity|reflexivity]).
Qed.
