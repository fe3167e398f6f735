(** Property theorems about adding and removing index records (C132-C139). *)
From Verif Require Import Prelude Lists Leaf_Model Leaf_Spec Idx_Model Idx_Spec Idx_Order Idx_Proofs Idx_Tree Idx_Add Idx_Del Idx_Ex Idx_Refute Idx_Split.

(** the file of the examples: page 0, a branch with two leaves *)
Definition ex_x : ix := IX true 2 64 true 16 64 false.
Definition ex_l1 : list (Z * list Z) := [(5, [1; 1]); (6, [1; 2])].
Definition ex_l2 : list (Z * list Z) := [(4, [2; 0])].
Definition ex_f : list Z := p0 64 2 1 ++ br 64 [([1; 2], 6, 2); ([2; 0], 4, 3)] ++ lf 2 64 (2^32 - 1) 3 ex_l1 ++ lf 2 64 2 (2^32 - 1) ex_l2.
Definition ex_t : tree := Node 64 [Leaf 128 ex_l1; Leaf 192 ex_l2].
(** eight records, as many as fit into a page of 64 bytes *)
Definition ex_8 : list (Z * list Z) := map (fun i => (Z.of_nat i + 10, [7 * (Z.of_nat i + 1); (37 * (Z.of_nat i * 3 + 1)) mod 256])) (seq 0 8).

(** ** C132: adding a record to a leaf with room *)
Theorem C132_add : forall x junk f t key num fuel, index_ok x f t -> (height t < fuel)%nat -> rec_ok (x_len x) (num, key) -> ~ In key (map snd (t_recs t)) -> fits x (zlen (home key (t_leaves t)) + 1) ->
  exists f' t', write_index fuel x junk f key num = Ok (f', x) /\ index_ok x f' t' /\ t_leaves t' = at_home key (added key num) (t_leaves t) /\ t_recs t' = added key num (t_recs t) /\
    height t' = height t /\ zlen f' = zlen f /\ (forall off n, 0 <= n -> (forall o, In o (t_pages t) -> off + n <= o \/ o + x_ps x <= off) -> get f' off n = get f off n).
Proof. exact add_ok. Qed.
Print Assumptions C132_add.
Theorem C132_listed : forall x f t fuel room, index_ok x f t -> (height t < fuel)%nat -> (length (t_leaves t) <= fuel)%nat -> zlen (t_recs t) <= room ->
  create_recordsindex (get f) fuel (x_start x) (x_ps x) (x_838 x) room = Ok (map fst (t_recs t)).
Proof. exact index_walk. Qed.
Print Assumptions C132_listed.
Theorem C132_histories : forall fuel x junk ops f t, index_ok x f t -> (height t < fuel)%nat -> roomy x ops (t_leaves t) ->
  exists f' t', run fuel x junk f ops = Ok (f', x) /\ index_ok x f' t' /\ t_recs t' = fold_left op_recs ops (t_recs t) /\ map fst (t_leaves t') = map fst (t_leaves t) /\ height t' = height t.
Proof. exact history_ok. Qed.
Print Assumptions C132_histories.
Example C132_nonvacuous : index_ok ex_x ex_f ex_t /\ (height ex_t < 2)%nat /\ rec_ok 2 (9, [1; 5]) /\ ~ In [1; 5] (map snd (t_recs ex_t)) /\ fits ex_x (zlen (home [1; 5] (t_leaves ex_t)) + 1) /\
  home [1; 5] (t_leaves ex_t) = ex_l2 /\ added [1; 5] 9 (t_recs ex_t) = [(5, [1; 1]); (6, [1; 2]); (9, [1; 5]); (4, [2; 0])] /\
  (do r <- write_index 2 ex_x [] ex_f [1; 5] 9; create_recordsindex (get (fst r)) 2 16 64 true 4) = Ok [5; 6; 9; 4] /\
  roomy ex_x [(true, (9, [1; 5])); (true, (8, [3; 0])); (false, (4, [2; 0])); (false, (9, [1; 5]))] (t_leaves ex_t) /\
  (do r <- run 2 ex_x [] ex_f [(true, (9, [1; 5])); (true, (8, [3; 0])); (false, (4, [2; 0])); (false, (9, [1; 5]))]; create_recordsindex (get (fst r)) 2 16 64 true 4) = Ok [5; 6; 8].
Proof.
  assert (R1 : rec_ok 2 (9, [1; 5])) by (split; [cbn; lia|split; [reflexivity|repeat constructor; unfold byte_ok; lia]]).
  assert (R2 : rec_ok 2 (8, [3; 0])) by (split; [cbn; lia|split; [reflexivity|repeat constructor; unfold byte_ok; lia]]).
  split; [apply idx_chk_ok; vm_compute; reflexivity|]. split; [vm_compute; lia|]. split; [exact R1|]. split; [vm_compute; intuition discriminate|]. split; [vm_compute; reflexivity|]. split; [reflexivity|]. split; [reflexivity|]. split; [vm_compute; reflexivity|].
  split; [|vm_compute; reflexivity]. cbn [roomy].
  repeat (first [exact R1|exact R2|exact I|split]); vm_compute; first [reflexivity|discriminate|intuition discriminate|tauto].
Qed.

(** ** C133: a full root page becomes two pages without records getting lost *)
Theorem C133_root_refuted : forall x junk f o recs key num fuel, index_ok x f (Leaf o recs) -> rec_ok (x_len x) (num, key) -> ~ In key (map snd recs) -> overflows x f o (added key num recs) -> get f 0 4 = Ok [0; 0; 0; 0] ->
  zlen junk = x_ps x -> 12 + 2 * (x_len x + 8) <= x_ps x -> zlen f + 2 * x_ps x <= 2^32 -> 2 <= zlen recs -> (0 < fuel)%nat ->
  exists f' x', write_index fuel x junk f key num = Ok (f', x') /\ zlen f' = zlen f + 2 * x_ps x /\
    forall fuel' room nums, create_recordsindex (get f') fuel' (x_start x) (x_ps x) (x_838 x) room = Ok nums -> zlen nums = 2 /\ 3 <= zlen (added key num recs).
Proof. exact root_split. Qed.
Print Assumptions C133_root_refuted.
Example C133_nonvacuous : let x v := IX true 2 64 v 16 64 false in let f v := p0 64 2 (if v : bool then 1 else 64) ++ lf 2 64 (2^32 - 1) (2^32 - 1) ex_8 in
  index_ok (x true) (f true) (Leaf 64 ex_8) /\ index_ok (x false) (f false) (Leaf 64 ex_8) /\ overflows (x true) (f true) 64 (added [100; 1] 3 ex_8) /\ get (f true) 0 4 = Ok [0; 0; 0; 0] /\
  create_recordsindex (get (f false)) 2 16 64 false 9 = Ok [10; 11; 12; 13; 14; 15; 16; 17] /\
  (do r <- write_index 1 (x false) (repeat 0 64) (f false) [100; 1] 3; create_recordsindex (get (fst r)) 2 16 64 false 9) = Ok [0; 0] /\
  (do r <- write_index 1 (x true) (repeat 0 64) (f true) [100; 1] 3; create_recordsindex (get (fst r)) 2 16 64 true 9) = Throw.
Proof.
  cbv zeta. split; [apply idx_chk_ok; vm_compute; reflexivity|]. split; [apply idx_chk_ok; vm_compute; reflexivity|]. split; [do 2 eexists; split; [vm_compute; reflexivity|vm_compute; reflexivity]|]. split; [vm_compute; reflexivity|]. split; [vm_compute; reflexivity|]. split; vm_compute; reflexivity.
Qed.

(** ** C134: a full page below a branch becomes two pages, and its records can be removed again *)
Theorem C134_last_refuted : forall x junk f key num o c a b recs, index_ok x f (Node o (a ++ Leaf c recs :: b)) -> rec_ok (x_len x) (num, key) -> ~ In key (map snd (t_recs (Node o (a ++ Leaf c recs :: b)))) ->
  Forall (fun t => ends_before key (t_recs t) = true) a -> b = [] \/ ends_before key recs = false -> overflows x f c (added key num recs) -> get f 0 4 = Ok [0; 0; 0; 0] -> zlen junk = x_ps x -> forall fuel,
  b = [] -> zlen a + 2 <= (x_ps x - 12) / (x_len x + 8) -> exists f', write_index (S (S fuel)) x junk f key num = Ok (f', x) /\
  forall fuel' n k, In (n, k) (skipn (Nat.div2 (length (added key num recs))) (added key num recs)) -> delete_index (S fuel') x f' k n = Ok f'.
Proof. exact last_child. Qed.
Print Assumptions C134_last_refuted.
Theorem C134_last_but_one_refuted : forall x junk f key num o c a b recs, index_ok x f (Node o (a ++ Leaf c recs :: b)) -> rec_ok (x_len x) (num, key) -> ~ In key (map snd (t_recs (Node o (a ++ Leaf c recs :: b)))) ->
  Forall (fun t => ends_before key (t_recs t) = true) a -> b = [] \/ ends_before key recs = false -> overflows x f c (added key num recs) -> get f 0 4 = Ok [0; 0; 0; 0] -> zlen junk = x_ps x -> forall fuel k0,
  b = [k0] -> zlen a + 3 <= (x_ps x - 12) / (x_len x + 8) -> exists f', write_index (S (S fuel)) x junk f key num = Ok (f', x) /\
  forall fuel' n k, In (n, k) (t_recs k0) -> delete_index (S fuel') x f' k n = Ok f'.
Proof. exact last_but_one. Qed.
Print Assumptions C134_last_but_one_refuted.
Theorem C134_middle_refuted : forall x junk f key num o c a b recs, index_ok x f (Node o (a ++ Leaf c recs :: b)) -> rec_ok (x_len x) (num, key) -> ~ In key (map snd (t_recs (Node o (a ++ Leaf c recs :: b)))) ->
  Forall (fun t => ends_before key (t_recs t) = true) a -> b = [] \/ ends_before key recs = false -> overflows x f c (added key num recs) -> get f 0 4 = Ok [0; 0; 0; 0] -> zlen junk = x_ps x -> forall fuel,
  2 <= zlen b -> x_ov x = false -> write_index (S (S fuel)) x junk f key num = UB.
Proof. exact middle_child. Qed.
Print Assumptions C134_middle_refuted.
Theorem C134_full_refuted : forall x junk f key num o c a b recs, index_ok x f (Node o (a ++ Leaf c recs :: b)) -> rec_ok (x_len x) (num, key) -> ~ In key (map snd (t_recs (Node o (a ++ Leaf c recs :: b)))) ->
  Forall (fun t => ends_before key (t_recs t) = true) a -> b = [] \/ ends_before key recs = false -> overflows x f c (added key num recs) -> get f 0 4 = Ok [0; 0; 0; 0] -> zlen junk = x_ps x -> forall fuel,
  (x_ps x - 12) / (x_len x + 8) < zlen a + 2 + zlen b -> write_index (S (S fuel)) x junk f key num = UB.
Proof. exact full_branch. Qed.
Print Assumptions C134_full_refuted.
(** the record with the key [100; 1] goes to the full leaf, which is the last, last but one, ... of the leaves *)
Example C134_nonvacuous :
  let f := p0 64 2 1 ++ br 64 [([1; 2], 6, 2); (snd (last ex_8 (0, [])), 17, 3)] ++ lf 2 64 (2^32 - 1) 3 ex_l1 ++ lf 2 64 2 (2^32 - 1) ex_8 in
  let t := Node 64 ([Leaf 128 ex_l1] ++ Leaf 192 ex_8 :: []) in let j := repeat 0 64 in
  index_ok ex_x f t /\ overflows ex_x f 192 (added [100; 1] 3 ex_8) /\ Forall (fun t => ends_before [100; 1] (t_recs t) = true) [Leaf 128 ex_l1] /\ 1 + 2 <= (64 - 12) / (2 + 8) /\
  (do r <- write_index 2 ex_x j f [100; 1] 3; create_recordsindex (get (fst r)) 4 16 64 true 11) = Ok [5; 6; 10; 11; 12; 13; 14; 15; 16; 17; 3] /\
  (do r <- write_index 2 ex_x j f [100; 1] 3; do f' <- delete_index 3 ex_x (fst r) [100; 1] 3; create_recordsindex (get f') 4 16 64 true 11) = Ok [5; 6; 10; 11; 12; 13; 14; 15; 16; 17; 3].
Proof.
  cbv zeta. split; [apply idx_chk_ok; vm_compute; reflexivity|]. split; [do 2 eexists; split; [vm_compute; reflexivity|vm_compute; reflexivity]|]. split; [repeat constructor|]. split; [vm_compute; discriminate|]. split; vm_compute; reflexivity.
Qed.
(** what is right: with room in the branch, and where the moved places do not overlap, the walk along the
    leaves meets every record and the new one, in the order of the keys *)
Theorem C134_walk_partial : forall x junk f key num o c a b recs, index_ok x f (Node o (a ++ Leaf c recs :: b)) -> rec_ok (x_len x) (num, key) -> ~ In key (map snd (t_recs (Node o (a ++ Leaf c recs :: b)))) ->
  Forall (fun t => ends_before key (t_recs t) = true) a -> b = [] \/ ends_before key recs = false -> overflows x f c (added key num recs) -> get f 0 4 = Ok [0; 0; 0; 0] -> zlen junk = x_ps x -> bytes_ok junk ->
  let rs := added key num recs in let n1 := Nat.div2 (length rs) in
  fits x (zlen (firstn n1 rs)) -> fits x (zlen (skipn n1 rs)) -> zlen f mod x_ps x = 0 -> page_no x (zlen f) < 2^32 - 1 ->
  zlen a + 2 + zlen b <= (x_ps x - 12) / (x_len x + 8) -> zlen b <= 1 \/ x_ov x = true ->
  forall fuel, exists f', write_index (S (S fuel)) x junk f key num = Ok (f', x) /\
  forall fuel' room, (height (Node o (a ++ Leaf c recs :: b)) < fuel')%nat -> (S (length (t_leaves (Node o (a ++ Leaf c recs :: b)))) <= fuel')%nat -> zlen (t_recs (Node o (a ++ Leaf c recs :: b))) + 1 <= room ->
  create_recordsindex (get f') fuel' (x_start x) (x_ps x) (x_838 x) room = Ok (map fst (added key num (t_recs (Node o (a ++ Leaf c recs :: b))))).
Proof. exact split_walk. Qed.
Print Assumptions C134_walk_partial.
Example C134_walk_nonvacuous :
  let x := IX true 2 128 true 16 128 false in let r := map (fun i => (2^31 + Z.of_nat i, [7 * (Z.of_nat i + 1); 1])) (seq 0 14) in
  let f := p0 128 2 1 ++ br 128 [([1; 2], 6, 2); (snd (last r (0, [])), fst (last r (0, [])), 3); ([200; 1], 20, 4)] ++ lf 2 128 (2^32 - 1) 3 ex_l1 ++ lf 2 128 2 4 r ++ lf 2 128 3 (2^32 - 1) [(20, [200; 1])] in
  let t := Node 128 ([Leaf 256 ex_l1] ++ Leaf 384 r :: [Leaf 512 [(20, [200; 1])]]) in let rs := added [50; 1] 3 r in let n1 := Nat.div2 (length rs) in
  index_ok x f t /\ overflows x f 384 rs /\ Forall (fun t => ends_before [50; 1] (t_recs t) = true) [Leaf 256 ex_l1] /\ ends_before [50; 1] r = false /\ get f 0 4 = Ok [0; 0; 0; 0] /\
  fits x (zlen (firstn n1 rs)) /\ fits x (zlen (skipn n1 rs)) /\ zlen f mod 128 = 0 /\ page_no x (zlen f) < 2^32 - 1 /\ 1 + 2 + 1 <= (128 - 12) / (2 + 8) /\
  (do r <- write_index 2 x (repeat 0 128) f [50; 1] 3; create_recordsindex (get (fst r)) 5 16 128 true 18) = Ok (map fst (added [50; 1] 3 (t_recs t))) /\ zlen (added [50; 1] 3 (t_recs t)) = 18.
Proof.
  cbv zeta. split; [apply idx_chk_ok; vm_compute; reflexivity|]. split; [do 2 eexists; split; [vm_compute; reflexivity|vm_compute; reflexivity]|]. split; [repeat constructor|]. split; [vm_compute; reflexivity|].
  split; [vm_compute; reflexivity|]. split; [vm_compute; reflexivity|]. split; [vm_compute; reflexivity|]. split; [vm_compute; reflexivity|]. split; [vm_compute; reflexivity|]. split; [vm_compute; discriminate|]. split; vm_compute; reflexivity.
Qed.
Example C134_others :
  let e8 := map (fun i => (Z.of_nat i + 10, [7 * (Z.of_nat i + 1); (37 * (Z.of_nat i * 3 + 1)) mod 256])) (seq 0 8) in
  let f n := p0 64 2 1 ++ br 64 (firstn n [([1; 2], 6, 2); (snd (last ex_8 (0, [])), 17, 3); ([200; 1], 20, 4); ([200; 2], 21, 5); ([200; 3], 22, 6)]) ++ lf 2 64 (2^32 - 1) 3 ex_l1 ++ lf 2 64 2 4 ex_8 ++
     lf 2 64 3 (if Nat.eqb n 3 then 2^32 - 1 else 5) [(20, [200; 1])] ++ (if Nat.eqb n 3 then [] else lf 2 64 4 6 [(21, [200; 2])] ++ lf 2 64 5 (2^32 - 1) [(22, [200; 3])]) in
  let t n := Node 64 ([Leaf 128 ex_l1] ++ Leaf 192 ex_8 :: firstn n [Leaf 256 [(20, [200; 1])]; Leaf 320 [(21, [200; 2])]; Leaf 384 [(22, [200; 3])]]) in
  index_ok ex_x (f 3%nat) (t 1%nat) /\ index_ok ex_x (f 5%nat) (t 3%nat) /\ ends_before [10; 1] ex_8 = false /\ overflows ex_x (f 3%nat) 192 (added [10; 1] 3 ex_8) /\ overflows ex_x (f 5%nat) 192 (added [10; 1] 3 ex_8) /\
  (do r <- write_index 2 ex_x (repeat 0 64) (f 3%nat) [10; 1] 3; do f' <- delete_index 3 ex_x (fst r) [200; 1] 20; create_recordsindex (get f') 5 16 64 true 12) = Ok [5; 6; 10; 3; 11; 12; 13; 14; 15; 16; 17; 20] /\
  write_index 2 ex_x (repeat 0 64) (f 5%nat) [10; 1] 3 = UB.
Proof.
  cbv zeta. split; [apply idx_chk_ok; vm_compute; reflexivity|]. split; [apply idx_chk_ok; vm_compute; reflexivity|]. split; [vm_compute; reflexivity|]. split; [do 2 eexists; split; [vm_compute; reflexivity|vm_compute; reflexivity]|]. split; [do 2 eexists; split; [vm_compute; reflexivity|vm_compute; reflexivity]|]. split; vm_compute; reflexivity.
Qed.

(** ** C135: removing a record that is not the only one of its leaf *)
Theorem C135_remove : forall x f t key num fuel, index_ok x f t -> (height t < fuel)%nat -> In (num, key) (t_recs t) -> 2 <= zlen (home key (t_leaves t)) -> fits x (zlen (home key (t_leaves t)) - 1) ->
  exists f' t', delete_index fuel x f key num = Ok f' /\ index_ok x f' t' /\ t_leaves t' = at_home key (removed key) (t_leaves t) /\ t_recs t' = removed key (t_recs t) /\
    height t' = height t /\ zlen f' = zlen f /\ (forall off n, 0 <= n -> (forall o, In o (t_pages t) -> off + n <= o \/ o + x_ps x <= off) -> get f' off n = get f off n).
Proof. exact remove_ok. Qed.
Print Assumptions C135_remove.
Example C135_nonvacuous : index_ok ex_x ex_f ex_t /\ In (6, [1; 2]) (t_recs ex_t) /\ 2 <= zlen (home [1; 2] (t_leaves ex_t)) /\ fits ex_x (zlen (home [1; 2] (t_leaves ex_t)) - 1) /\
  (do f' <- delete_index 2 ex_x ex_f [1; 2] 6; create_recordsindex (get f') 2 16 64 true 3) = Ok [5; 4] /\ removed [1; 2] (t_recs ex_t) = [(5, [1; 1]); (4, [2; 0])].
Proof. split; [apply idx_chk_ok; vm_compute; reflexivity|]. split; [vm_compute; tauto|]. split; [vm_compute; discriminate|]. split; [vm_compute; reflexivity|]. split; vm_compute; reflexivity. Qed.

(** ** C136: a key that is there already is refused *)
Theorem C136_refused : forall x junk f t key num n0 fuel, index_ok x f t -> (height t < fuel)%nat -> In (n0, key) (t_recs t) -> x_primary x = true \/ n0 = num -> write_index fuel x junk f key num = Throw.
Proof. exact dup_refused. Qed.
Print Assumptions C136_refused.
Example C136_nonvacuous : index_ok ex_x ex_f ex_t /\ In (6, [1; 2]) (t_recs ex_t) /\ x_primary ex_x = true /\ write_index 2 ex_x [] ex_f [1; 2] 77 = Throw /\ write_index 2 ex_x [] ex_f [1; 3] 77 <> Throw.
Proof. split; [apply idx_chk_ok; vm_compute; reflexivity|]. split; [vm_compute; tauto|]. split; [reflexivity|]. split; vm_compute; [reflexivity|discriminate]. Qed.

(** ** C137: removing a record that is not there changes nothing *)
Theorem C137_absent : forall x f t key num fuel, index_ok x f t -> (height t < fuel)%nat -> zlen key = x_len x -> ~ In (num, key) (t_recs t) -> delete_index fuel x f key num = Ok f.
Proof. exact absent_ok. Qed.
Print Assumptions C137_absent.
Example C137_nonvacuous : index_ok ex_x ex_f ex_t /\ ~ In (7, [1; 2]) (t_recs ex_t) /\ In [1; 2] (map snd (t_recs ex_t)) /\ delete_index 2 ex_x ex_f [1; 2] 7 = Ok ex_f /\ delete_index 2 ex_x ex_f [1; 2] 6 <> Ok ex_f.
Proof. split; [apply idx_chk_ok; vm_compute; reflexivity|]. split; [vm_compute; intuition discriminate|]. split; [vm_compute; tauto|]. split; vm_compute; [reflexivity|discriminate]. Qed.

(** ** C138: an index whose last record was removed can be filled again *)
Theorem C138_emptied_refuted : forall x f o n k fuel, index_ok x f (Leaf o [(n, k)]) -> get f (o + 4) 4 = Ok [255; 255; 255; 255] -> get f 0 4 = Ok [0; 0; 0; 0] -> get f 8 4 = Ok [0; 0; 0; 0] -> o / x_ps x < 2^16 -> 4 < x_len x -> x_len x + 20 <= x_ps x -> (0 < fuel)%nat ->
  exists f', delete_index fuel x f k n = Ok f' /\ forall fuel' junk key num r, write_index fuel' x junk f' key num <> Ok r.
Proof. exact emptied. Qed.
Print Assumptions C138_emptied_refuted.
Example C138_nonvacuous : let x := IX true 5 64 true 16 64 false in let k := [1; 2; 3; 4; 5] in let f := p0 64 5 1 ++ lf 5 64 (2^32 - 1) (2^32 - 1) [(7, k)] in
  index_ok x f (Leaf 64 [(7, k)]) /\ get f (64 + 4) 4 = Ok [255; 255; 255; 255] /\ get f 0 4 = Ok [0; 0; 0; 0] /\ get f 8 4 = Ok [0; 0; 0; 0] /\
  (do f' <- delete_index 1 x f k 7; write_index 50 x (repeat 0 64) f' k 7) = Hang.
Proof. cbv zeta. split; [apply idx_chk_ok; vm_compute; reflexivity|]. split; [vm_compute; reflexivity|]. split; [vm_compute; reflexivity|]. split; vm_compute; reflexivity. Qed.

(** ** C139: removing a record leaves the others in the index *)
Theorem C139_remove_refuted : exists x f t key num f', index_ok x f t /\ In (num, key) (t_recs t) /\ zlen (t_recs t) = 3 /\ delete_index 1 x f key num = Ok f' /\
  create_recordsindex (get f) 1 (x_start x) (x_ps x) (x_838 x) 3 = Ok [1; 2; 3] /\ create_recordsindex (get f') 1 (x_start x) (x_ps x) (x_838 x) 3 = Ok [0; 0] /\ map fst (removed key (t_recs t)) = [1; 3].
Proof.
  exists (IX true 30 60 true 16 60 true), (p0 60 30 1 ++ lf 30 60 (2^32 - 1) (2^32 - 1) [(1, repeat 0 30); (2, 1 :: repeat 0 29); (3, 1 :: repeat 0 28 ++ [1])]), (Leaf 60 [(1, repeat 0 30); (2, 1 :: repeat 0 29); (3, 1 :: repeat 0 28 ++ [1])]), (1 :: repeat 0 29), 2.
  eexists. split; [apply idx_chk_ok; vm_compute; reflexivity|]. split; [vm_compute; tauto|]. split; [reflexivity|]. split; [vm_compute; reflexivity|]. split; [vm_compute; reflexivity|]. split; vm_compute; reflexivity.
Qed.
Print Assumptions C139_remove_refuted.
