(** Theorems about what the graphical program shows. *)
From Verif Require Import Prelude Lists Text_Model Tree_Model Stream_Model Stream_Spec Stream_Proofs Cf_Model Gui_Model Gui_Spec Gui_Proofs Gui_Trees Gui_More.
Ltac Zify.zify_post_hook ::= idtac.

(** ** C186: the sizes in the list of tables *)
Theorem C186_sizes_partial : forall round2 d b i, rounds round2 -> len_ok d -> len_ok b -> len_ok i -> bytes_of d + bytes_of b + bytes_of i < 2^31 ->
  exists td tb ti ts, columns round2 d b i = [Ok td; Ok tb; Ok ti; Ok ts] /\ names_size td (bytes_of d) /\ names_size tb (bytes_of b) /\ names_size ti (bytes_of i) /\
    names_size ts (bytes_of d + bytes_of b + bytes_of i).
Proof. exact columns_ok. Qed.
Print Assumptions C186_sizes_partial.
Definition ex_round (v : Z) : Z := (100 * v + 512) / 1024.
Lemma ex_rounds : rounds ex_round.
Proof. intros v H. unfold ex_round. Z.div_mod_to_equations. lia. Qed.
Example C186_sizes_nonvacuous : len_ok (Some 5242880) /\ len_ok None /\ len_ok (Some 1001) /\ rounds ex_round /\
  columns ex_round (Some 5242880) None (Some 1001) = [Ok [53;46;48;48;32;77;105;66]; Ok [48;46;48;48;32;66]; Ok [48;46;57;56;32;75;105;66]; Ok [53;46;48;48;32;77;105;66]] /\
  shown_size ex_round 1000 = Ok [49;48;48;48;46;48;48;32;66] /\ shown_size ex_round 2147483647 = Ok [50;46;48;48;32;71;105;66].
Proof. split; [cbn; lia|]. split; [exact Logic.I|]. split; [cbn; lia|]. split; [exact ex_rounds|]. repeat apply conj; vm_compute; reflexivity. Qed.
Theorem C186_two_gib_refuted : forall round2 n b i, 2^31 <= n mod 2^32 ->
  nth_error (columns round2 (Some n) b i) 0 = Some UB /\ nth_error (columns round2 b (Some n) i) 1 = Some UB /\ nth_error (columns round2 b i (Some n)) 2 = Some UB.
Proof. intros round2 n b i H. unfold columns. cbn [nth_error]. rewrite (two_gib round2 n H). repeat split. Qed.
Print Assumptions C186_two_gib_refuted.
Theorem C186_four_gib_refuted : forall round2 n k b i, columns round2 (Some (n + k * 2^32)) b i = columns round2 (Some n) b i.
Proof. intros round2 n k b i. unfold columns. rewrite four_gib. reflexivity. Qed.
Print Assumptions C186_four_gib_refuted.
Theorem C186_sum_refuted : forall round2 d b i, len_ok d -> len_ok b -> len_ok i -> 2^31 <= bytes_of d + bytes_of b + bytes_of i -> nth_error (columns round2 d b i) 3 = Some UB.
Proof. exact sum_over. Qed.
Print Assumptions C186_sum_refuted.
Example C186_refuted_nonvacuous : 2^31 <= 2147483648 mod 2^32 /\ nth_error (columns ex_round (Some 2147483648) None None) 0 = Some UB /\
  nth_error (columns ex_round (Some 4294968296) None None) 0 = Some (Ok [49;48;48;48;46;48;48;32;66]) /\
  (len_ok (Some 1500000000) /\ nth_error (columns ex_round (Some 1500000000) (Some 1500000000) None) 3 = Some UB).
Proof. split; [vm_compute; discriminate|]. split; [vm_compute; reflexivity|]. split; [vm_compute; reflexivity|]. split; [cbn; lia|vm_compute; reflexivity]. Qed.

(** ** C187: the tree of a parsed text *)
Theorem C187_tree_complete : forall t, NoDup (places t) /\ exists n, forall k, (n <= k)%nat -> map ptr (expand k t None) = places t /\ Forall (fun x => x <> None) (expand k t None).
Proof. intros t. split; [exact (places_nodup t)|exact (expand_all t)]. Qed.
Print Assumptions C187_tree_complete.
Theorem C187_tree_rows : forall t x r c, on_screen t x ->
  (0 <= r < rowCount t x -> 0 <= c < 2 -> exists p, index_at t r c x = Some (r, c, p) /\ In p (places t) /\ parent_of t (index_at t r c x) = x) /\
  (~ (0 <= r < rowCount t x /\ 0 <= c < 2) -> index_at t r c x = None).
Proof. intros t x r c S. split; [intros R C; exact (screen_ok t x r c S R C)|exact (index_out t r c x)]. Qed.
Print Assumptions C187_tree_rows.
Theorem C187_tree_paths : forall t, narrow t -> NoDup (map path_text (places t)).
Proof. exact paths_nodup. Qed.
Print Assumptions C187_tree_paths.
Definition ex_tree : tree := Node [] nd_list [Node [] nd_list [Node [49] nd_number []; Node [] nd_list [Node [50] nd_number []]]; Node [51] nd_number []].
Example C187_nonvacuous : places ex_tree = [[0];[0;0];[0;1];[0;1;0];[1]]%nat /\ map ptr (expand 9 ex_tree None) = places ex_tree /\ narrow ex_tree /\
  index_at ex_tree 1 0 (Some (0, 0, [0]%nat)) = Some (1, 0, [0; 1]%nat) /\ parent_of ex_tree (Some (1, 0, [0; 1]%nat)) = Some (0, 0, [0]%nat) /\ rowCount ex_tree (Some (0, 0, [0]%nat)) = 2 /\
  map path_text (places ex_tree) = [[58;48];[58;48;58;48];[58;48;58;49];[58;48;58;49;58;48];[58;49]].
Proof. split; [reflexivity|]. split; [reflexivity|]. split; [cbn; repeat split; lia|]. repeat apply conj; vm_compute; reflexivity. Qed.
Example C187_screen_nonvacuous : on_screen ex_tree (Some (1, 0, [0; 1]%nat)).
Proof.
  pose proof (os_row ex_tree None 0 (os_root _)) as A. change (index_at ex_tree 0 0 None) with (Some (0, 0, [0]%nat) : index) in A.
  pose proof (os_row ex_tree _ 1 (A ltac:(cbn; lia))) as B. apply B. cbn. lia.
Qed.

(** ** C188: the tree of a container *)
Theorem C188_container_partial : forall low name root, distinct low (Elem name (Some root)) -> exists n, forall k, (n <= k)%nat ->
  map (fun x => match x with Some (_, p) => path_of p | None => [] end) (cexpand k low root None) = [] :: elem_places (Elem name (Some root)) /\ Forall (fun x => x <> None) (cexpand k low root None).
Proof. exact cexpand_all. Qed.
Print Assumptions C188_container_partial.
Theorem C188_rows_partial : forall low root x r, con_screen low root x -> 0 <= r < crows low root x -> cindex_at low root r x <> None /\ cparent root (cindex_at low root r x) = x.
Proof. exact cparent_ok. Qed.
Print Assumptions C188_rows_partial.
Theorem C188_same_names_refuted : forall low root p l, below root p = Some l -> ~ NoDup (map (fun e => low (e_name e)) l) ->
  exists e, nth_error l (length l - 1) = Some e /\ forall r, ~ con_screen low root (Some (r, Some (p ++ [length l - 1]%nat))).
Proof. exact last_never. Qed.
Print Assumptions C188_same_names_refuted.
Definition ex_low (s : list Z) : list Z := map (fun c => if (65 <=? c) && (c <=? 90) then c + 32 else c) s.
Definition ex_con : list elem := [Elem [97] None; Elem [98] (Some [Elem [99] None; Elem [67] None; Elem [100] None]); Elem [66; 66] None].
Definition ex_con2 : list elem := [Elem [97] None; Elem [98] (Some [Elem [99] None; Elem [100] None]); Elem [66; 66] None].
Example C188_nonvacuous : distinct ex_low (Elem [] (Some ex_con2)) /\ elem_places (Elem [] (Some ex_con2)) = [[0];[1];[1;0];[1;1];[2]]%nat /\ length (cexpand 9 ex_low ex_con2 None) = 6%nat /\
  below ex_con [1]%nat = Some [Elem [99] None; Elem [67] None; Elem [100] None] /\ ~ NoDup (map (fun e => ex_low (e_name e)) [Elem [99] None; Elem [67] None; Elem [100] None]) /\
  cexpand 9 ex_low ex_con None = [Some (0, None); Some (0, Some [0]%nat); Some (1, Some [1]%nat); Some (0, Some [1;0]%nat); Some (1, Some [1;1]%nat); Some (2, Some [2]%nat)].
Proof.
  split; [cbn; repeat apply conj; try exact Logic.I; repeat (constructor; [cbn; intuition discriminate|]); constructor|]. split; [reflexivity|]. split; [reflexivity|]. split; [reflexivity|].
  split; [|reflexivity]. cbn. intros N. inversion N as [|? ? K _]. apply K. left. reflexivity.
Qed.

(** ** C189: the presentation of a value in the tree *)
Theorem C189_first_line_partial : forall s line, first_line s line -> (s = line \/ exists rest, s = line ++ 13 :: 10 :: rest) -> trim_item s = cut_line line.
Proof. exact trim_right. Qed.
Print Assumptions C189_first_line_partial.
Theorem C189_last_character_refuted : forall a c r, ~ In 10 a -> c <> 10 -> c <> 13 ->
  first_line (a ++ c :: 10 :: r) (a ++ [c]) /\ trim_item (a ++ c :: 10 :: r) = cut_line a /\ ((length a < 40)%nat -> cut_line a <> cut_line (a ++ [c])).
Proof. exact trim_loses. Qed.
Print Assumptions C189_last_character_refuted.
Theorem C189_empty_line_refuted : forall r, first_line (10 :: r) [] /\ trim_item (10 :: r) = cut_line (10 :: r).
Proof. exact trim_empty. Qed.
Print Assumptions C189_empty_line_refuted.
Example C189_nonvacuous : trim_item [97;98;13;10;99] = [97;98] /\ trim_item [97;98;10;99] = [97] /\ trim_item [10;97] = [10;97] /\ trim_item (repeat 97 41) = repeat 97 37 ++ [46;46;46] /\ trim_item (repeat 97 40) = repeat 97 40 /\
  first_line [97;98;13;10;99] [97;98].
Proof.
  split; [reflexivity|]. split; [reflexivity|]. split; [reflexivity|]. split; [reflexivity|]. split; [reflexivity|].
  split; [cbn; intuition discriminate|]. right. right. exists [99]. reflexivity.
Qed.

(** ** C190: a value in the viewer *)
Theorem C190_value_partial : forall c x w, inflate_stream c x = (w, true) -> unpacked c x = x /\ (lossless c -> forall z, deflate_stream c x = (z, true) -> unpacked c z = x) /\ (x <> [] -> viewed x = x).
Proof. intros c x w H. split; [exact (plain_ok c x w H)|]. split; [intros L z D; exact (packed_ok c x z w L D H)|exact (viewed_ok x)]. Qed.
Print Assumptions C190_value_partial.
Theorem C190_text_partial : forall t, ~ In 0 t -> text_of ([239;187;191] ++ t) = Some t /\ forall h b, length h = 7%nat -> length b = 3%nat -> text_of ([77;79;88;67;69;76] ++ h ++ b ++ t) = Some t.
Proof. intros t N. rewrite text_bom, (cstr_plain t N). split; [reflexivity|]. intros h b H B. rewrite (text_mox h b t H B), (cstr_plain t N). reflexivity. Qed.
Print Assumptions C190_text_partial.
Theorem C190_text_only_partial : forall v t, text_of v = Some t -> (exists r, v = [239;187;191] ++ r) \/ (exists r, v = [77;79;88;67;69;76] ++ r).
Proof. exact text_only. Qed.
Print Assumptions C190_text_only_partial.
Theorem C190_twice_refuted : forall c x y z w, lossless c -> deflate_stream c x = (y, true) -> deflate_stream c y = (z, true) -> inflate_stream c x = (w, true) -> unpacked c z = x /\ x <> y.
Proof. exact packed_twice. Qed.
Print Assumptions C190_twice_refuted.
Theorem C190_nothing_refuted : forall c v, inflate_stream c v = ([], false) -> viewed (unpacked c v) = [255;255;255;127;0;2;0;0;0;0;0;0;0;0;0;0].
Proof. exact nothing_comes. Qed.
Print Assumptions C190_nothing_refuted.
Theorem C190_zero_refuted : forall a b, ~ In 0 a -> text_of ([239;187;191] ++ a ++ 0 :: b) = Some a.
Proof. intros a b N. rewrite text_bom, (cstr_zero a b N). reflexivity. Qed.
Print Assumptions C190_zero_refuted.
Example C190_nonvacuous : lossless toy /\ inflate_stream toy [5;6] = ([], true) /\ deflate_stream toy [5;6] = ([0;5;0;6;1], true) /\ unpacked toy [0;5;0;6;1] = [5;6] /\
  deflate_stream toy [0;5;0;6;1] = ([0;0;0;5;0;0;0;6;0;1;1], true) /\ unpacked toy [0;0;0;5;0;0;0;6;0;1;1] = [5;6] /\
  inflate_stream toy [] = ([], false) /\ inflate_stream toy [0] = ([], false) /\ viewed (unpacked toy [0]) = template /\ text_of [239;187;191;97;0;98] = Some [97].
Proof. split; [exact toy_lossless|]. repeat apply conj; vm_compute; reflexivity. Qed.

(** ** C191: the list of databases opened before *)
Theorem C191_list_partial : forall nl ns, nl = [10] \/ nl = [13; 10] -> Forall one_line ns -> cached (fold_left (add_db nl) ns None) = ns.
Proof. exact names_back. Qed.
Print Assumptions C191_list_partial.
Theorem C191_again_refuted : forall nl ns n, nl = [10] \/ nl = [13; 10] -> Forall one_line (ns ++ [n]) -> cached (fold_left (add_db nl) ((ns ++ [n]) ++ [n]) None) = ns ++ [n; n].
Proof.
  intros nl ns n W F. rewrite names_back; [rewrite <- app_assoc; reflexivity|exact W|]. apply Forall_app. split; [exact F|]. apply Forall_app in F. apply F.
Qed.
Print Assumptions C191_again_refuted.
Theorem C191_line_break_refuted : forall nl ns a b, nl = [10] \/ nl = [13; 10] -> Forall one_line ns -> one_line a -> one_line b ->
  cached (fold_left (add_db nl) (ns ++ [a ++ 10 :: b]) None) = ns ++ [a; b].
Proof. exact name_split. Qed.
Print Assumptions C191_line_break_refuted.
Example C191_nonvacuous : Forall one_line [[47;97]; [47;98;32;99]] /\ cached (fold_left (add_db [13; 10]) [[47;97]; [47;98;32;99]] None) = [[47;97]; [47;98;32;99]] /\
  fold_left (add_db [10]) [[47;97]; [47;98;32;99]] None = Some [47;97;10;47;98;32;99;10] /\ cached (add_db [10] (Some [47;97;10]) [98;10;99]) = [[47;97];[98];[99]].
Proof.
  split; [|repeat apply conj; vm_compute; reflexivity].
  repeat (constructor; [split; [discriminate|]; split; [cbn; intuition discriminate|cbn; lia]|]). constructor.
Qed.
