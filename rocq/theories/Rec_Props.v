(** Property theorems about scanning tables, pending edits and writing records (C35-C37, C87-C92). *)
From Verif Require Import Prelude Lists Field_Model Field_Spec Field_Keys Field_Proofs Rec_Model Rec_Spec Rec_Proofs Rec_Edit.

(** ** C35: scanning yields exactly the live records in order *)
Theorem C35_scan : forall content reclen phys, 0 < reclen -> 0 <= phys -> phys * reclen <= zlen content -> phys * reclen <= 2^32 ->
  forall fuel junk k, (Z.to_nat phys < fuel)%nat -> phys < 2^32 - 1 ->
  exists it, (do it <- it_start fuel content reclen phys junk; it_run k fuel content reclen phys it) = Ok it /\
    match nth_error (live content reclen phys) k with
    | Some (n, rec) => it_eof it = false /\ it_num it = n /\ it_buf it = rec
    | None => it_eof it = true
    end.
Proof.
  intros content reclen phys H1 H2 H3 H4 fuel junk k Hf Hp. destruct (scan_ok content reclen phys H1 H2 H3 H4 fuel junk k Hf Hp) as (it & A & B). exists it. split; [exact A|].
  unfold shows in B. destruct (nth_error (live content reclen phys) k) as [[n rec]|]; exact B.
Qed.
Print Assumptions C35_scan.
Theorem C35_index : forall content reclen phys, 0 < reclen -> 0 <= phys -> phys * reclen <= zlen content -> phys * reclen <= 2^32 ->
  fill_index (Z.to_nat phys) 0 content reclen = Ok (map fst (live content reclen phys)).
Proof. exact fill_all. Qed.
Print Assumptions C35_index.
Definition three : list Z := [1;0;0;0] ++ [0;10;11;12] ++ [1;20;21;22] ++ [0;30;31;32].
Example C35_nonvacuous :
  (do it <- it_start 9 three 4 4 []; it_run 0 9 three 4 4 it) = Ok (It 1 false [0;10;11;12]) /\
  (do it <- it_start 9 three 4 4 []; it_run 1 9 three 4 4 it) = Ok (It 3 false [0;30;31;32]) /\
  (do it <- it_start 9 three 4 4 []; it_run 2 9 three 4 4 it) = Ok (It 4 true [0;30;31;32]) /\
  live three 4 4 = [(1, [0;10;11;12]); (3, [0;30;31;32])].
Proof. repeat apply conj; vm_compute; reflexivity. Qed.

(** ** C87: scanning works whatever the size of the file is *)
Theorem C87_alias_refuted : forall content reclen m i, reclen * m = 2^32 -> get_record content reclen (i + m) = get_record content reclen i.
Proof. exact record_alias. Qed.
Print Assumptions C87_alias_refuted.
Theorem C87_wrap_refuted : forall content reclen i, 0 <= i -> 0 < reclen -> 2^32 <= i * reclen ->
  exists o, get_record content reclen i = rdn content o reclen /\ o <= i * reclen - 2^32.
Proof. exact record_wrap. Qed.
Print Assumptions C87_wrap_refuted.
Example C87_nonvacuous : get_record three 4 (2^30 + 3) = Ok [0;30;31;32] /\ get_record three 4 3 = Ok [0;30;31;32] /\ 4 * 2^30 = 2^32.
Proof. repeat apply conj; vm_compute; reflexivity. Qed.

(** ** C88: iterating through an index *)
Theorem C88_indexed_scan : forall content reclen phys, 0 < reclen -> 0 <= phys -> phys * reclen <= zlen content -> phys * reclen <= 2^32 ->
  forall idx, Forall (fun p => 0 <= p) idx -> forall fuel junk k, (length idx < fuel)%nat -> zlen idx < 2^32 ->
  exists it, (do it <- ix_start fuel idx content reclen phys junk; ix_run k fuel idx content reclen phys it) = Ok it /\
    match nth_error (live_by idx content reclen phys) k with
    | Some (_, rec) => it_eof it = false /\ it_buf it = rec
    | None => it_eof it = true
    end.
Proof.
  intros content reclen phys H1 H2 H3 H4 idx Hi fuel junk k Hf Hp. destruct (ix_scan content reclen phys H1 H2 H3 H4 idx Hi fuel junk k Hf Hp) as (it & A & B). exists it. split; [exact A|].
  unfold ishows in B. destruct (nth_error (live_by idx content reclen phys) k) as [[n rec]|]; exact B.
Qed.
Print Assumptions C88_indexed_scan.
Example C88_nonvacuous :
  (do it <- ix_start 9 [3;2;1] three 4 4 []; ix_run 1 9 [3;2;1] three 4 4 it) = Ok (It 2 false [0;10;11;12]) /\
  live_by [3;2;1] three 4 4 = [(3, [0;30;31;32]); (1, [0;10;11;12])] /\ live_by [3;9;1] three 4 4 = [(3, [0;30;31;32])].
Proof. repeat apply conj; vm_compute; reflexivity. Qed.

(** ** C37: pending edits *)
Theorem C37_edits : forall phys reclen os content log rows, 0 <= phys -> 0 < reclen -> history_ok phys reclen os (VW [] []) -> let v := spec_ops reclen os (VW [] []) in
  zlen rows = log -> log + zlen (v_new v) < 2^31 -> phys + zlen (v_new v) < 2^32 ->
  exists e, do_ops phys reclen os (ED 0 []) = Ok e /\
    (forall i r, nth_error (v_new v) i = Some r -> get_phys_numrec phys log rows (log + 1 + Z.of_nat i) e = Ok (phys + Z.of_nat i) /\ get_rec_type (phys + Z.of_nat i) e = Inserted /\ get_edit_record content reclen (phys + Z.of_nat i) e = Ok r) /\
    (forall row, 0 < row <= log -> get_phys_numrec phys log rows row e = rd rows (row - 1)) /\
    (forall row, log + zlen (v_new v) < row < 2^31 -> get_phys_numrec phys log rows row e = Throw) /\
    (forall k, 0 <= k < phys -> (get_rec_type k e = Deleted <-> In k (v_del v)) /\ (get_rec_type k e = NotChanged <-> ~ In k (v_del v)) /\ get_edit_record content reclen k e = get_record content reclen k).
Proof. exact edits_ok. Qed.
Print Assumptions C37_edits.
Example C37_nonvacuous :
  let os := [Insert 0; SetValue 0 1 [7;8]; Insert 1; SetValue 1 2 [9]; Insert 2; Delete 3; Delete 1; Remove 0; Restore 3; SetValue 1 0 [5]] in
  history_ok 4 4 os (VW [] []) /\ spec_ops 4 os (VW [] []) = VW [[0;0;9;0]; [5;0;0;0]] [1] /\
  match do_ops 4 4 os (ED 0 []) with
  | Ok e => get_phys_numrec 4 2 [1;3] 3 e = Ok 4 /\ get_edit_record three 4 4 e = Ok [0;0;9;0] /\ get_phys_numrec 4 2 [1;3] 4 e = Ok 5 /\ get_edit_record three 4 5 e = Ok [5;0;0;0] /\
      get_phys_numrec 4 2 [1;3] 5 e = Throw /\ get_phys_numrec 4 2 [1;3] 1 e = Ok 1 /\ get_rec_type 1 e = Deleted /\ get_rec_type 3 e = NotChanged
  | _ => False
  end.
Proof. split; [cbn; unfold zlen; cbn; lia|]. split; [vm_compute; reflexivity|]. cbv zeta. vm_compute. repeat apply conj; reflexivity. Qed.

(** ** C89: a value of a stored record can be edited *)
Theorem C89_stored_refuted : forall phys reclen n off v raw e, n < phys -> v <> raw -> set_edit_value phys reclen n off v raw e = UB.
Proof. exact edit_stored. Qed.
Print Assumptions C89_stored_refuted.
Theorem C89_new_refuted : forall phys reclen off v raw, set_edit_value phys reclen phys off v raw (ED 0 []) = UB.
Proof. exact edit_first_new. Qed.
Print Assumptions C89_new_refuted.
Theorem C89_update_refuted : forall f orec rec, 1 <= f_off f -> 0 < extent f -> length (t_pad rec) = 4%nat -> update_field f orec rec = UB.
Proof. intros f o r. rewrite <- Field_Proofs.size_extent. apply update_outside. Qed.
Print Assumptions C89_update_refuted.
Example C89_nonvacuous : set_edit_value 4 4 1 1 [7] [10] (ED 0 []) = UB /\ set_edit_value 4 4 1 1 [10] [10] (ED 0 []) = Ok (ED 0 []) /\
  set_edit_value 4 4 4 1 [7] [] (ED 1 [PD 4 Inserted [0;0;0;0]]) = Ok (ED 1 [PD 4 Inserted [0;7;0;0]]).
Proof. repeat apply conj; vm_compute; reflexivity. Qed.

(** ** C36: records written, inserted and deleted *)
(** what is stored does not depend on the values of the record *)
Theorem C36_large_refuted : forall content reclen phys n r, 0 < n <= phys -> 24 < reclen -> length (t_pad r) = 4%nat -> write_data_record content reclen phys n (object_bytes r) = UB.
Proof. exact write_over. Qed.
Print Assumptions C36_large_refuted.
Theorem C36_small_refuted : forall content reclen phys n r, 0 < n < phys -> 0 < reclen <= 24 -> length (t_pad r) = 4%nat -> phys * reclen = zlen content -> phys * reclen <= 2^32 ->
  exists content', write_data_record content reclen phys n (object_bytes r) = Ok content' /\ get_record content' reclen n = Ok (firstn (Z.to_nat reclen) (object_bytes r)).
Proof. exact write_object. Qed.
Print Assumptions C36_small_refuted.
Theorem C36_write_partial : forall content reclen phys n d, 0 < n < phys -> 0 < reclen <= zlen d -> phys * reclen = zlen content -> phys * reclen <= 2^32 ->
  exists content', write_data_record content reclen phys n d = Ok content' /\ zlen content' = zlen content /\ get_record content' reclen n = Ok (firstn (Z.to_nat reclen) d) /\
    (forall i, 0 <= i < phys -> i <> n -> get_record content' reclen i = get_record content reclen i).
Proof. exact write_bytes. Qed.
Print Assumptions C36_write_partial.
(** a deleted record keeps the others but is not put on the chain of free ones *)
Theorem C36_delete_middle_partial : forall content reclen phys n r, 0 < n < phys - 1 -> 5 <= reclen <= 24 -> length (t_pad r) = 4%nat -> phys * reclen = zlen content -> phys * reclen <= 2^32 ->
  exists content', delete_data_record content reclen phys n r = Ok (content', phys) /\ zlen content' = zlen content /\
    (forall i, 0 <= i < phys -> i <> n -> get_record content' reclen i = get_record content reclen i) /\
    (forall m, rd content 0 = Ok m -> m <> 0 -> (do rec <- get_record content' reclen n; is_removed rec) = Ok true) /\
    rdn content' 1 4 = rdn content 1 4.
Proof. exact delete_middle. Qed.
Print Assumptions C36_delete_middle_partial.
Theorem C36_delete_last_partial : forall content reclen phys r, 1 < phys -> 0 < reclen -> phys * reclen = zlen content -> phys * reclen <= 2^32 ->
  exists content', delete_data_record content reclen phys (phys - 1) r = Ok (content', phys - 1) /\ zlen content' = (phys - 1) * reclen /\
    (forall i, 0 <= i < phys - 1 -> get_record content' reclen i = get_record content reclen i).
Proof. exact delete_last. Qed.
Print Assumptions C36_delete_last_partial.
Definition five : list Z := [1;0;0;0;0] ++ [0;10;11;12;13] ++ [0;20;21;22;23] ++ [0;30;31;32;33].
Definition obj (d : list Z) : trec := TR 4660 8192 5 [9;9;9;9] d.
Example C36_nonvacuous :
  write_data_record five 5 4 2 (object_bytes (obj [0;1;2;3;4])) = Ok ([1;0;0;0;0] ++ [0;10;11;12;13] ++ [52;18;0;0;0] ++ [0;30;31;32;33]) /\
  write_data_record five 5 4 2 (object_bytes (obj [0;6;7;8;9])) = write_data_record five 5 4 2 (object_bytes (obj [0;1;2;3;4])) /\
  delete_data_record five 5 4 2 (obj []) = Ok ([1;0;0;0;0] ++ [0;10;11;12;13] ++ [1;0;0;0;0] ++ [0;30;31;32;33], 4) /\
  delete_data_record five 5 4 3 (obj []) = Ok (firstn 15 five, 3) /\
  write_data_record (repeat 0 60) 30 2 1 (object_bytes (obj (repeat 1 30))) = UB.
Proof. repeat apply conj; vm_compute; reflexivity. Qed.

(** ** C90: several records can be inserted *)
Theorem C90_second_refuted : forall content reclen phys r r2, 0 < phys -> 5 <= reclen <= 24 -> length (t_pad r) = 4%nat -> phys * reclen = zlen content -> (phys + 1) * reclen <= 2^32 -> rdn content 1 4 = Ok [0; 0; 0; 0] ->
  insert_record content reclen phys r = Ok (content ++ firstn (Z.to_nat reclen) (object_bytes r), phys) /\
  insert_record (content ++ firstn (Z.to_nat reclen) (object_bytes r)) reclen phys r2 = Throw.
Proof. exact insert_twice. Qed.
Print Assumptions C90_second_refuted.
Example C90_nonvacuous : insert_record five 5 4 (obj []) = Ok (five ++ [52;18;0;0;0], 4) /\ insert_record (five ++ [52;18;0;0;0]) 5 4 (obj []) = Throw /\
  insert_record (five ++ [52;18;0;0;0]) 5 5 (obj []) = Ok (five ++ [52;18;0;0;0] ++ [52;18;0;0;0], 5).
Proof. repeat apply conj; vm_compute; reflexivity. Qed.

(** ** C91: deleting a record releases its blobs *)
Theorem C91_nullable_refuted : forall f rec s, f_null f = true -> 0 <= s < 2^32 -> at_ rec (f_off f) (1 :: le_bytes 4 s) ->
  deleted_chunk f rec = Ok (Some (1 + 256 * (s mod 2^24))) /\ (1 + 256 * (s mod 2^24) = s <-> s = 16843009).
Proof. intros f rec s H1 H2 H3. split; [now apply deleted_wrong|now apply fixed_point]. Qed.
Print Assumptions C91_nullable_refuted.
Theorem C91_plain_partial : forall f rec s, f_null f = false -> 0 < s < 2^32 -> at_ rec (f_off f) (le_bytes 4 s) -> deleted_chunk f rec = Ok (Some s).
Proof. exact deleted_plain. Qed.
Print Assumptions C91_plain_partial.
(** ** C92: replacing a value releases the old blob *)
Theorem C92_nullable_refuted : forall f rec m, f_null f = true -> rd rec (f_off f) = Ok m -> replaced_chunk f rec = Ok None.
Proof. exact replaced_none. Qed.
Print Assumptions C92_nullable_refuted.
Theorem C92_plain_partial : forall f rec s, In (f_kind f) [KString; KText; KImage] -> f_null f = false -> 0 < s < 2^32 -> f_off f + 8 <= zlen rec -> at_ rec (f_off f) (le_bytes 4 s) -> replaced_chunk f rec = Ok (Some s).
Proof.
  intros f rec s Hk Hn Hs Hl Ha. assert (E : type_size (f_kind f) (f_len f) = 8) by (destruct Hk as [<-|[<-|[<-|[]]]]; reflexivity). apply replaced_plain; try assumption; rewrite E; [discriminate|exact Hl].
Qed.
Print Assumptions C92_plain_partial.
Example C91_C92_nonvacuous :
  let rec := [0; 1] ++ le_bytes 4 70000 ++ [9;9;9;9] in
  at_ rec 1 (1 :: le_bytes 4 70000) /\ at_ rec 2 (le_bytes 4 70000) /\ deleted_chunk (FD KImage true 0 1) rec = Ok (Some 17920001) /\ deleted_chunk (FD KImage false 0 2) rec = Ok (Some 70000) /\ replaced_chunk (FD KImage true 0 1) rec = Ok None /\ replaced_chunk (FD KImage false 0 2) rec = Ok (Some 70000).
Proof. cbv zeta. split; [split; [lia|vm_compute; reflexivity]|]. split; [split; [lia|vm_compute; reflexivity]|]. repeat apply conj; vm_compute; reflexivity. Qed.
