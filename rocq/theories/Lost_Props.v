(** Properties C164-C167: objects that nothing refers to, and the list of tables. *)
From Verif Require Import Prelude Lists Obj_Model Obj_Spec Obj_Make Obj_Facts Alloc_Facts Descr_Model Descr_Spec Lost_Model Lost_Spec Lost_Proofs Lost_Tables.
Import String.StringSyntax.

(** a database of the older format whose page 2 is an object of six bytes, in page 4, that nothing refers to *)
Definition d_page : list Z := pad p4096 [123; 0; 34; 0; 65; 0].
Definition d_st : store := mk_store F80 p4096 6 [d_page].
Lemma d_stored : stored p4096 F80 d_st 2 6 [3] [4].
Proof.
  assert (G : groups 6 p4096 = 1%nat) by (vm_compute; reflexivity). assert (T : ntabs F80 p4096 1 = 1%nat) by (vm_compute; reflexivity).
  change [3] with (mk_tabs F80 p4096 (length [d_page])). change [4] with (mk_dp F80 p4096 (length [d_page])). apply mk_stored.
  - pose proof p4096_Z. lia.
  - vm_compute. reflexivity.
  - rewrite p4096_Z. lia.
  - constructor; [|constructor]. apply pad_len. cbn [length]. pose proof p4096_Z. lia.
  - constructor; [|constructor]. apply pad_ok. apply bytes_okb_spec. reflexivity.
  - rewrite G. reflexivity.
  - cbn [fits length]. rewrite T, p4096_Z. lia.
  - cbn [length]. rewrite T. cbn. lia.
Qed.
Lemma d_pages : pages d_st.
Proof. destruct d_stored as [H _]. unfold pages. eapply Forall_impl; [|exact H]. cbn beta. intros p ->. pose proof p4096_Z. lia. Qed.
Lemma d_len : zlen d_st = 5.
Proof. vm_compute. reflexivity. Qed.
Lemma d_unused : unused d_st [] 2.
Proof. split; [lia|]. split; [easy|]. eexists. split; [reflexivity|]. vm_compute. reflexivity. Qed.
Lemma d_only : forall known i, unused d_st known i -> i = 2.
Proof.
  intros known i U. pose proof (unused_range _ _ _ U) as R. rewrite d_len in R. destruct U as (_ & _ & p & E & Q).
  assert (C : i = 1 \/ i = 2 \/ i = 3 \/ i = 4) by lia. destruct C as [-> | [-> | [-> | ->]]]; [|reflexivity| |]; exfalso.
  - assert (F : option_map (firstn 8) (nth_error d_st (Z.to_nat 1)) = Some [0; 0; 0; 0; 0; 0; 0; 0]) by (vm_compute; reflexivity). rewrite E in F. cbn [option_map] in F. unfold starts_object in Q. rewrite Q in F. discriminate.
  - assert (F : option_map (firstn 8) (nth_error d_st (Z.to_nat 3)) = Some [1; 0; 0; 0; 4; 0; 0; 0]) by (vm_compute; reflexivity). rewrite E in F. cbn [option_map] in F. unfold starts_object in Q. rewrite Q in F. discriminate.
  - assert (F : option_map (firstn 8) (nth_error d_st (Z.to_nat 4)) = Some [123; 0; 34; 0; 65; 0; 0; 0]) by (vm_compute; reflexivity). rewrite E in F. cbn [option_map] in F. unfold starts_object in Q. rewrite Q in F. discriminate.
Qed.
Lemma d_all : forall i, unused d_st [] i -> exists len tabs dp, stored p4096 F80 d_st i len tabs dp.
Proof. intros i U. rewrite (d_only _ _ U). exists 6%nat, [3], [4]. exact d_stored. Qed.

(** C164: below version 8.3.8, with every such object in order and every file creatable, saving succeeds, the file of
    each object has its bytes and no other file changes *)
Theorem C164_saved_partial can buf ps st known dir d : pages st -> 0 < zlen st <= 2 ^ 32 -> (forall p, can p = true) ->
  (forall i, unused st known i -> exists len tabs dp, stored ps F80 st i len tabs dp) ->
  exists d', save_lost_objects can buf (Z.of_nat ps) false st known dir d = Ok d' /\
    (forall i len tabs dp path, unused st known i -> stored ps F80 st i len tabs dp -> file_of dir i path -> d' path = Some (content st dp len)) /\
    (forall path, (forall i, unused st known i -> ~ file_of dir i path) -> d' path = d path).
Proof. exact (saved can buf ps st known dir d). Qed.
Print Assumptions C164_saved_partial.
(** C164: the numbers reported are those of all such objects, in order *)
Theorem C164_reported_partial st known : pages st -> 0 < zlen st ->
  exists l, find_lost_objects st known = Ok l /\ ascending l /\ (forall j, In j l <-> unused st known j).
Proof. exact (found st known). Qed.
Print Assumptions C164_reported_partial.
Example C164_case : pages d_st /\ 0 < zlen d_st <= 2 ^ 32 /\ unused d_st [] 2 /\ (forall i, unused d_st [] i -> exists len tabs dp, stored p4096 F80 d_st i len tabs dp) /\
  file_of (bs "out") 2 (bs "outblock2") /\ find_lost_objects d_st [] = Ok [2] /\ find_lost_objects d_st [2] = Ok [] /\
  (do d <- save_lost_objects (fun _ => true) [] 4096 false d_st [] (bs "out") (fun _ => None); Ok (d (bs "outblock2"), d (bs "outblock3"))) = Ok (Some [123; 0; 34; 0; 65; 0], None).
Proof.
  split; [exact d_pages|]. split; [rewrite d_len; lia|]. split; [exact d_unused|]. split; [exact d_all|]. split; [|split; [vm_compute; reflexivity|split; vm_compute; reflexivity]].
  exists [50]. split; [|reflexivity]. exists [2]. split; [discriminate|]. split; [constructor; [lia|constructor]|]. split; [reflexivity|]. split; [reflexivity|]. discriminate.
Qed.
(** C164 is false from version 8.3.8 on: a run that ends has saved nothing, whatever the database has *)
Theorem C164_newer_refuted can buf ps st known dir d d' : pages st -> 0 < zlen st <= 2 ^ 32 ->
  save_lost_objects can buf (Z.of_nat ps) true st known dir d = Ok d' -> forall path, d' path = d path.
Proof. exact (new_nothing can buf ps st known dir d d'). Qed.
Print Assumptions C164_newer_refuted.
(** an object of the newer format that nothing refers to; the run ends *)
Example C164_newer_case : let st := mk_store F838_flat 64 100 (ex_pages 2) in
  stored 64 F838_flat st 2 100 (mk_tabs F838_flat 64 2) (mk_dp F838_flat 64 2) /\ Forall (fun p => length p = 64%nat) st /\
  (do d <- save_lost_objects (fun _ => true) [] 64 true st [] (bs "out") (fun _ => None); Ok (d (bs "outblock2"))) = Ok None.
Proof.
  cbv zeta. assert (S : stored 64 F838_flat (mk_store F838_flat 64 100 (ex_pages 2)) 2 100 (mk_tabs F838_flat 64 2) (mk_dp F838_flat 64 2)) by (apply ex_stored; [lia|reflexivity|left; split; [reflexivity|lia]]).
  split; [exact S|]. split; [exact (proj1 S)|vm_compute; reflexivity].
Qed.
(** C164 is false: one such object with a page number behind the end of the file, and the run fails *)
Theorem C164_one_bad_refuted can buf st known dir d d' j p len t : pages st -> 0 < zlen st <= 2 ^ 32 -> 1 < j -> unused st known j -> nth_error st (Z.to_nat j) = Some p ->
  num_at p 8 len -> num_at p 24 t -> 0 < len -> zlen st <= t -> save_lost_objects can buf 4096 false st known dir d <> Ok d'.
Proof. exact (one_bad can buf st known dir d d' j p len t). Qed.
Print Assumptions C164_one_bad_refuted.
Definition bad_page : list Z := pad p4096 (sig_obj ++ le_bytes 4 6 ++ repeat 0 12 ++ le_bytes 4 9).
Example C164_one_bad_case : let st := d_st ++ [bad_page] in pages st /\ zlen st = 6 /\ unused st [] 2 /\ unused st [] 5 /\ nth_error st 5 = Some bad_page /\ num_at bad_page 8 6 /\ num_at bad_page 24 9.
Proof.
  cbv zeta. split; [apply Forall_app; split; [exact d_pages|constructor; [|constructor]]; unfold bad_page; rewrite pad_len; pose proof p4096_Z; [|cbn [length app sig_obj]]; [lia|]; rewrite !app_length, !le_bytes_length, repeat_length; cbn [length sig_obj]; lia|].
  split; [vm_compute; reflexivity|]. split; [split; [lia|]; split; [easy|]; eexists; split; [reflexivity|vm_compute; reflexivity]|].
  split; [split; [lia|]; split; [easy|]; eexists; split; [reflexivity|vm_compute; reflexivity]|]. split; [vm_compute; reflexivity|]. split; (split; [lia|vm_compute; reflexivity]).
Qed.

(** C165 is false: nothing below the directory changes, whatever is saved; the files are beside it (C164) *)
Theorem C165_beside_refuted can buf ps v838 st known dir d d' path : pages st -> 0 < zlen st <= 2 ^ 32 ->
  save_lost_objects can buf (Z.of_nat ps) v838 st known dir d = Ok d' -> below dir path -> d' path = d path.
Proof. exact (beside can buf ps v838 st known dir d d' path). Qed.
Print Assumptions C165_beside_refuted.
(** C165: when the text of the directory ends with a separator, every file that changes is directly below it *)
Theorem C165_inside_partial can buf ps v838 st known base c d d' path : pages st -> 0 < zlen st <= 2 ^ 32 ->
  save_lost_objects can buf (Z.of_nat ps) v838 st known (base ++ [c]) d = Ok d' -> d' path <> d path ->
  exists name, path = base ++ c :: name /\ ~ In 47 name /\ ~ In 92 name.
Proof. exact (inside can buf ps v838 st known base c d d' path). Qed.
Print Assumptions C165_inside_partial.
Example C165_case : below (bs "out") (bs "out/block2") /\
  (do d <- save_lost_objects (fun _ => true) [] 4096 false d_st [] (bs "out") (fun _ => None); Ok (d (bs "out/block2"), d (bs "outblock2"))) = Ok (None, Some [123; 0; 34; 0; 65; 0]) /\
  (do d <- save_lost_objects (fun _ => true) [] 4096 false d_st [] (bs "out" ++ [47]) (fun _ => None); Ok (d (bs "out/block2"))) = Ok (Some [123; 0; 34; 0; 65; 0]).
Proof. split; [exists 47, (bs "block2"); split; [now left|reflexivity]|]. split; vm_compute; reflexivity. Qed.

(** C166: below version 8.3.8, with every such object in order, the list of tables that is read afterwards is the one
    before followed by the objects that begin like the description of a table, in order *)
Theorem C166_restored_partial (old : bool) ps st known junk lang pad blocks rest : pages st -> 0 < zlen st ->
  (forall i, unused st known i -> exists len tabs dp, stored ps F80 st i len tabs dp) ->
  Forall (fun c => c <> 0) lang -> zlen lang + 1 + zlen pad = (if old then 8 else 32) -> Forall (fun b => 0 <= b < 2 ^ 32) blocks ->
  zlen blocks + zlen st < 2 ^ 31 -> 4 * zlen st <= zlen junk ->
  exists l root', ascending l /\
    (forall j, In j l <-> unused st known j /\ exists len tabs dp, stored ps F80 st j len tabs dp /\ table_like (content st dp len)) /\
    create_lost_tables old junk (Z.of_nat ps) false st known (root_data (if old then 8 else 32) lang pad (zlen blocks) blocks rest) = Ok root' /\
    root_tables old root' = Ok (lang, blocks ++ l).
Proof. exact (restored old ps st known junk lang pad blocks rest). Qed.
Print Assumptions C166_restored_partial.
Example C166_case : pages d_st /\ zlen [7; 9] + zlen d_st < 2 ^ 31 /\ 4 * zlen d_st <= zlen (repeat 77 20) /\ table_like (content d_st [4] 6) /\
  (do r <- create_lost_tables true (repeat 77 20) 4096 false d_st [] (root_data 8 (bs "ru_RU") [1; 1] 2 [7; 9] []); root_tables true r) = Ok (bs "ru_RU", [7; 9; 2]) /\
  (do r <- create_lost_tables true (repeat 77 20) 4096 false d_st [2] (root_data 8 (bs "ru_RU") [1; 1] 2 [7; 9] []); root_tables true r) = Ok (bs "ru_RU", [7; 9]).
Proof. split; [exact d_pages|]. rewrite d_len. split; [cbn; lia|]. split; [cbn; lia|]. split; [vm_compute; reflexivity|]. split; vm_compute; reflexivity. Qed.
(** C166 is false from version 8.3.8 on: a run that ends leaves the list as it is *)
Theorem C166_newer_refuted old junk ps st known root root' : pages st -> 0 < zlen st -> create_lost_tables old junk ps true st known root = Ok root' -> root' = root.
Proof. exact (new_unrestored old junk ps st known root root'). Qed.
Print Assumptions C166_newer_refuted.
Example C166_newer_case : create_lost_tables false [] 64 true (mk_store F838_flat 64 100 [123 :: 0 :: 34 :: 0 :: repeat 0 60; repeat 0 64]) [] [1; 2; 3] = Ok [1; 2; 3].
Proof. vm_compute. reflexivity. Qed.

(** C167: below version 8.3.8 deleting a table takes exactly it out of the tables that are open and out of the list that
    is read afterwards; the others stay in order *)
Theorem C167_deleted_partial (old : bool) lang pad a x b rest ta tb : Forall (fun c => c <> 0) lang -> zlen lang + 1 + zlen pad = (if old then 8 else 32) ->
  Forall (fun b => 0 <= b < 2 ^ 32) (a ++ x :: b) -> zlen (a ++ x :: b) < 2 ^ 31 -> ~ In x a -> ~ In x ta ->
  exists root', delete_table old false (ta ++ x :: tb) (root_data (if old then 8 else 32) lang pad (zlen (a ++ x :: b)) (a ++ x :: b) rest) x = Ok (ta ++ tb, root') /\
    root_tables old root' = Ok (lang, a ++ b) /\
    zlen root' = zlen (root_data (if old then 8 else 32) lang pad (zlen (a ++ x :: b)) (a ++ x :: b) rest) - 4.
Proof. exact (deleted old lang pad a x b rest ta tb). Qed.
Print Assumptions C167_deleted_partial.
Example C167_case : zlen (bs "ru_RU") + 1 + zlen (repeat 0 26) = 32 /\
  (do r <- delete_table false false [7; 9; 11] (root_data 32 (bs "ru_RU") (repeat 0 26) 3 [7; 9; 11] []) 9; do t <- root_tables false (snd r); Ok (fst r, t)) = Ok ([7; 11], (bs "ru_RU", [7; 11])) /\
  (do r <- delete_table false false [7] (root_data 32 (bs "ru_RU") (repeat 0 26) 1 [7] []) 7; do t <- root_tables false (snd r); Ok (fst r, t)) = Ok ([], (bs "ru_RU", [])).
Proof. split; [reflexivity|]. split; vm_compute; reflexivity. Qed.
(** C167 is false from version 8.3.8 on: there the table has no object for its description, and deleting uses it *)
Theorem C167_newer_refuted old tables root x : delete_table old true tables root x = UB.
Proof. reflexivity. Qed.
Print Assumptions C167_newer_refuted.
