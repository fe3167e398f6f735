(** Property theorems about index leaf pages and the walk over the index (C29, C32, C78, C79). *)
From Verif Require Import Prelude Lists Leaf_Model Leaf_Spec Leaf_Proofs Leaf_More Leaf_Walk.

(** ** C29: unpacking a packed leaf gives the records back *)
Theorem C29_round_trip : forall primary len pagesize recs extra page page',
  0 < len < 2^15 -> 30 < pagesize <= 2^16 -> zlen page = pagesize -> bytes_ok page -> Forall (rec_ok len) recs -> zlen recs < 2^28 ->
  pack_leafpage primary len pagesize (flat recs ++ extra) (length recs) page = Ok (page', true) ->
  30 + hd_field page' 28 2 * (zlen recs - 1) + 8 <= pagesize ->
  unpack_leafpage len pagesize page' = Ok recs /\ sub page' 4 8 = sub page 4 8 /\ zlen page' = pagesize /\ hd_field page' 2 2 = zlen recs.
Proof. exact round_trip. Qed.
Print Assumptions C29_round_trip.
Theorem C29_sorted_total : forall primary len pagesize recs extra page,
  0 < len < 2^15 -> 30 < pagesize <= 2^16 -> zlen page = pagesize -> bytes_ok page -> Forall (rec_ok len) recs -> zlen recs < 2^28 -> sorted (map snd recs) ->
  exists page' b, pack_leafpage primary len pagesize (flat recs ++ extra) (length recs) page = Ok (page', b) /\ (30 + (len + 8) * zlen recs < pagesize -> b = true).
Proof. exact pack_total. Qed.
Print Assumptions C29_sorted_total.
Example C29_nonvacuous :
  let recs := [(5, [1;1;0]); (300, [1;2;0]); (7, [1;2;9]); (8, [2;0;0])] in
  let page := repeat 0 4 ++ [1;2;3;4;5;6;7;8] ++ repeat 9 52 in
  match pack_leafpage true 3 64 (flat recs) 4 page with
  | Ok (page', b) => b = true /\ unpack_leafpage 3 64 page' = Ok recs /\ hd_field page' 28 2 = 2 /\ 30 + hd_field page' 28 2 * (zlen recs - 1) + 8 <= 64 /\
      skipn 59 page' = [2; 9; 2; 1; 1]
  | _ => False
  end /\ Forall (rec_ok 3) recs /\ sorted (map snd recs).
Proof.
  cbv zeta. split; [vm_compute; repeat split; discriminate|]. split; [|cbn; lia].
  repeat constructor; unfold byte_ok; cbn; lia.
Qed.

(** ** C78: records with equal keys can be packed *)
Theorem C78_equal_keys_refuted : forall primary len pagesize n1 n2 key page, 0 < len < 2^15 -> 30 + len < pagesize <= 2^16 -> zlen page = pagesize ->
  rec_ok len (n1, key) -> rec_ok len (n2, key) -> pack_leafpage primary len pagesize (flat [(n1, key); (n2, key)]) 2 page = UB.
Proof. exact equal_keys. Qed.
Print Assumptions C78_equal_keys_refuted.
Example C78_nonvacuous : pack_leafpage false 2 64 (flat [(1, [3;4]); (2, [3;4])]) 2 (repeat 0 64) = UB /\
  snd (match pack_leafpage false 2 64 (flat [(1, [3;4]); (2, [3;5])]) 2 (repeat 0 64) with Ok r => r | _ => ([], false) end) = true.
Proof. split; vm_compute; reflexivity. Qed.

(** ** C79: every page that packing produced can be unpacked *)
Theorem C79_full_page_refuted : forall primary len pagesize recs extra page page',
  0 < len < 2^15 -> 30 < pagesize <= 2^16 -> zlen page = pagesize -> bytes_ok page -> Forall (rec_ok len) recs -> zlen recs < 2^28 -> recs <> [] ->
  pack_leafpage primary len pagesize (flat recs ++ extra) (length recs) page = Ok (page', true) ->
  pagesize < 30 + hd_field page' 28 2 * (zlen recs - 1) + 8 -> unpack_leafpage len pagesize page' = UB.
Proof. exact full_page. Qed.
Print Assumptions C79_full_page_refuted.
(** a full page of 4096 bytes: 2032 records with one key byte *)
Example C79_nonvacuous :
  let recs := map (fun i => (Z.of_nat i, [1])) (seq 0 (Z.to_nat 2032)) in
  match pack_leafpage false 1 4096 (flat recs ++ [0]) (Z.to_nat 2032) (repeat 0 (Z.to_nat 4096)) with
  | Ok (page', b) => b = true /\ 4096 < 30 + hd_field page' 28 2 * (zlen recs - 1) + 8 /\ unpack_leafpage 1 4096 page' = UB
  | _ => False
  end.
Proof. vm_compute. repeat split; reflexivity. Qed.

(** ** C32: walking the index visits the records of all leaves in order *)
Theorem C32_walk : forall get fuel start pagesize (v838 : bool) room len t h,
  0 < len < 2^15 -> 30 <= pagesize -> let mul := if v838 then pagesize else 1 in
  stored get pagesize len mul t -> chained get pagesize mul (map fst (t_leaves t)) ->
  get start 8 = Ok h -> le_val (sub h 0 4) * mul = t_off t -> le_val (sub h 4 2) = len ->
  (height t < fuel)%nat -> (length (t_leaves t) <= fuel)%nat -> zlen (concat (map snd (t_leaves t))) <= room ->
  create_recordsindex get fuel start pagesize v838 room = Ok (map fst (concat (map snd (t_leaves t)))).
Proof. exact walk_ok. Qed.
Print Assumptions C32_walk.
(** a root with two leaves, in pages of 64 bytes; the header of the index is in the last page *)
Example C32_nonvacuous :
  let r1 := [(5, [1;1]); (6, [1;2])] in let r2 := [(4, [2;0])] in
  let lk b := repeat 0 4 ++ repeat 255 4 ++ b ++ repeat 0 52 in
  let pg r b := match pack_leafpage true 2 64 (flat r) (length r) (lk b) with Ok (p, true) => p | _ => [] end in
  let root := [0;0;2;0] ++ repeat 255 8 ++ [1;2;0;0;0;6;0;0;0;1] ++ [2;0;0;0;0;4;0;0;0;2] ++ repeat 0 32 in
  let file := root ++ pg r1 [2;0;0;0] ++ pg r2 [255;255;255;255] ++ [0;0;0;0;2;0;0;0] in
  let t := Node 0 [Leaf 64 r1; Leaf 128 r2] in let get := rdn file in
  stored get 64 2 64 t /\ chained get 64 64 (map fst (t_leaves t)) /\ create_recordsindex get 3 192 64 true 3 = Ok [5; 6; 4] /\ map fst (concat (map snd (t_leaves t))) = [5; 6; 4].
Proof.
  cbv zeta. match goal with |- context [rdn (?a ++ ?b)] => set (file := a ++ b) end.
  assert (PA : forall o p, rdn file o 64 = Ok p -> zlen p = 64 -> forallb (fun b => (0 <=? b) && (b <? 256)) p = true -> page_at (rdn file) 64 o p).
  { intros o p H1 H2 H3. split; [exact H1|]. split; [exact H2|]. apply Forall_forall. intros x Hx. rewrite forallb_forall in H3. specialize (H3 x Hx). unfold byte_ok. lia. }
  assert (P0 : page_at (rdn file) 64 0 (sub file 0 64)) by (apply PA; vm_compute; reflexivity).
  assert (P1 : page_at (rdn file) 64 64 (sub file 64 64)) by (apply PA; vm_compute; reflexivity).
  assert (P2 : page_at (rdn file) 64 128 (sub file 128 64)) by (apply PA; vm_compute; reflexivity).
  split; [|split; [|split; vm_compute; reflexivity]].
  - cbn [stored]. exists (sub file 0 64). split; [exact P0|]. split; [vm_compute; reflexivity|]. split; [split; vm_compute; reflexivity|].
    split; [vm_compute; reflexivity|]. split; [vm_compute; discriminate|]. split; [|split; [|split; [|exact I]]].
    + intros [|[|i]] t H; [injection H as <-; vm_compute; reflexivity|injection H as <-; vm_compute; reflexivity|destruct i; discriminate].
    + exists (sub file 64 64). split; [exact P1|]. repeat apply conj; vm_compute; first [reflexivity|discriminate].
    + exists (sub file 128 64). split; [exact P2|]. repeat apply conj; vm_compute; first [reflexivity|discriminate].
  - cbn [t_leaves flat_map app map fst chained]. split; [|split; [|exact I]].
    + exists (sub file 64 64). split; [exact P1|]. split; vm_compute; [discriminate|reflexivity].
    + exists (sub file 128 64). split; [exact P2|]. vm_compute. reflexivity.
Qed.
