(** Property theorems about containers (C38-C40, C93-C99). *)
From Verif Require Import Prelude Lists Text_Model Text_Spec Text_Proofs Cf_Model Cf_Spec Cf_Proofs Cf_Write Cf_Hist Cf_Extra Cf_Cycle Cf_Empty.

(** ** C38: container files round-trip *)
(** [after] = the memory behind the headers, which has a zero somewhere (see C94); the container has
    [n] blocks beside the table of contents *)
Theorem C38_histories : forall after fuel n os, In 0 after -> history_ok os (empty_store n) ->
  559 + total_growth 512 os < 2147483647 -> 559 + total_growth 512 os <= Z.of_nat fuel ->
  exists r, do_ops fuel after os (empty_run n) = Ok r /\
    (if zlen (c_data (r_cat r)) <=? 16 then Ok [] else read_block fuel after (c_data (r_cat r)) 16) = Ok (s_fat (spec_ops os (empty_store n))) /\
    (forall i, (i < n)%nat -> read_file fuel after r i = Ok (match nth i (s_files (spec_ops os (empty_store n))) None with Some b => b | None => [] end)).
Proof. intros after fuel n os. exact (history_read after fuel n os). Qed.
Print Assumptions C38_histories.
Example C38_nonvacuous : let os := [Write 0 [1; 2; 3; 4]; Write 1 [5]; Fat [9; 9]; Release 0; Write 1 [6; 7; 8]; Reopen 3; Write 0 [10; 11]; Write 1 []] in
  history_ok os (empty_store 2) /\ 559 + total_growth 512 os < 2147483647 /\
  match do_ops 60 [0] os (empty_run 2) with
  | Ok r => r_starts r = [626; 594] /\ read_file 60 [0] r 0 = Ok [10; 11] /\ read_file 60 [0] r 1 = Ok [] /\ read_block 60 [0] (c_data (r_cat r)) 16 = Ok [9; 9]
  | _ => False
  end.
Proof.
  cbv zeta. split; [|split; [reflexivity|vm_compute; repeat apply conj; reflexivity]]. cbn [history_ok op_ok spec_op empty_store s_files s_fat repeat length set_nth firstn skipn app nth_error].
  repeat (split; [first [exact I|lia|split; [lia|first [left; discriminate|right; eexists; reflexivity]]]|]). exact I.
Qed.

(** ** C39: block headers *)
Theorem C39_headers : forall after d p n, In 0 after -> 0 <= d <= 2147483647 -> 0 <= p <= 2147483647 -> 0 <= n <= 2147483647 ->
  let h := create d p n in
  length h = 31%nat /\ h = hdr d p n /\ get_hex after o_data h = Ok d /\ get_hex after o_page h = Ok p /\ get_hex after o_next h = Ok n /\
  (forall v, 0 <= v <= 2147483647 -> set_hex o_data h v = hdr v p n /\ set_hex o_page h v = hdr d v n /\ set_hex o_next h v = hdr d p v).
Proof. intros after d p n. exact (header_roundtrip after d p n). Qed.
Print Assumptions C39_headers.
Example C39_nonvacuous : create 1000 512 2147483647 = [13; 10; 48; 48; 48; 48; 48; 51; 101; 56; 32; 48; 48; 48; 48; 48; 50; 48; 48; 32; 55; 102; 102; 102; 102; 102; 102; 102; 32; 13; 10].
Proof. reflexivity. Qed.

(** ** C97: a header with a negative value is rejected when it is read *)
Theorem C97_negative_rejected : forall after d p n v, In 0 after -> - 2^31 <= v < 0 ->
  get_hex after o_data (set_hex o_data (hdr d p n) v) = Throw /\ get_hex after o_page (set_hex o_page (hdr d p n) v) = Throw /\ get_hex after o_next (set_hex o_next (hdr d p n) v) = Throw.
Proof. intros after d p n v. exact (header_negative after d p n v). Qed.
Print Assumptions C97_negative_rejected.
Example C97_nonvacuous : set_hex o_next (hdr 1 2 3) (-1) = [13; 10; 48; 48; 48; 48; 48; 48; 48; 49; 32; 48; 48; 48; 48; 48; 48; 48; 50; 32; 102; 102; 102; 102; 102; 102; 102; 102; 32; 13; 10].
Proof. reflexivity. Qed.

(** ** C40: names and times *)
Theorem C40_times_refuted : forall create modify cps, Forall scalar cps -> 0 <= create < 2^64 ->
  exists h, file_header create modify (utf8_of cps) = Ok h /\ read_file_header h = Ok (create, create + 8, utf8_of cps ++ [0; 0]).
Proof. exact file_header_read. Qed.
Print Assumptions C40_times_refuted.
(** the creation time is kept; the name is followed by two characters U+0000; the order of the
    files and their data are kept *)
Theorem C40_reopen_partial : forall fuel after n os infos ver, In 0 after -> n = length infos -> (0 < n)%nat -> history_ok os (empty_store (2 * n)) ->
  let s := spec_ops os (empty_store (2 * n)) in
  (forall j, (j < n)%nat -> exists h, nth (2 * j) (s_files s) None = Some h /\ read_file_header h = Ok (nth j infos (0, 0, []))) ->
  let size := 559 + total_growth 512 os + 31 + Z.max (12 * Z.of_nat n) 512 in size < 2147483647 -> size <= Z.of_nat fuel ->
  exists r r2, do_ops fuel after os (empty_run (2 * n)) = Ok r /\ do_op fuel after (Fat (table (r_starts r) n)) r = Ok r2 /\
    let d := flush_marks (r_cat r2) ver in
    (forall junk, length junk = 31%nat -> is_catalog junk d = Ok true) /\
    open_files fuel after d = Ok (map (fun '((t, m, name), k) => (name, t, m, nth (2 * k + 1) (r_starts r2) 0)) (combine infos (seq 0 n))) /\
    (forall i, (i < 2 * n)%nat -> read_file fuel after (RN (open_cat d) (r_starts r2)) i = Ok (match nth i (s_files s) None with Some b => b | None => [] end)).
Proof. exact reopen_ok. Qed.
Print Assumptions C40_reopen_partial.
Example C40_nonvacuous :
  match file_header 5 77 [97; 98], file_header 6 78 [99] with
  | Ok h1, Ok h2 =>
      read_file_header h1 = Ok (5, 13, [97; 98; 0; 0]) /\
      match do_ops 60 [0] [Write 0 h1; Write 1 [1; 2]; Write 2 h2; Write 3 [4]; Write 1 [1; 2; 3]] (empty_run 4) with
      | Ok r => match do_op 60 [0] (Fat (table (r_starts r) 2)) r with
                | Ok r2 => open_files 60 [0] (flush_marks (r_cat r2) 1) = Ok [([97; 98; 0; 0], 5, 13, 618); ([99; 0; 0], 6, 14, 708)]
                | _ => False end
      | _ => False end
  | _, _ => False end.
Proof. vm_compute. split; reflexivity. Qed.

(** ** C93: a saved container is recognised *)
Theorem C93_recognised : forall after fuel n os junk ver, In 0 after -> length junk = 31%nat -> history_ok os (empty_store n) -> 559 + total_growth 512 os < 2147483647 -> 559 + total_growth 512 os <= Z.of_nat fuel ->
  exists r, do_ops fuel after os (empty_run n) = Ok r /\ is_catalog junk (flush_marks (r_cat r) ver) = Ok true.
Proof. exact history_catalog. Qed.
Print Assumptions C93_recognised.

Example C93_nonvacuous : is_catalog (repeat 7 31) template = Ok true /\ is_catalog (repeat 7 31) (repeat 0 16) = Ok false /\
  match do_ops 60 [0] [Write 0 [1; 2]; Release 0] (empty_run 1) with Ok r => c_free (r_cat r) = 559 /\ is_catalog (repeat 7 31) (flush_marks (r_cat r) 1) = Ok true /\ is_catalog (repeat 7 31) (over (flush_marks (r_cat r) 1) 559 [14]) = Ok false | _ => False end.
Proof. vm_compute. repeat apply conj; reflexivity. Qed.

(** ** C94: decoding a header uses the header only *)
Theorem C94_overread_refuted : forall d p n off, get_hex [] off (hdr d p n) = UB.
Proof. exact header_overread. Qed.
Print Assumptions C94_overread_refuted.

(** the value read from a damaged header depends on the memory behind it; from a header as it is
    written it does not *)
Theorem C94_depends_refuted : exists h, length h = 31%nat /\ forall v, 1 <= v <= 9 -> get_hex [48 + v; 0] o_next h = Ok v /\ get_hex [0] o_next h = Ok 0.
Proof.
  exists (repeat 48 31). split; [reflexivity|]. intros v HV. assert (C : v = 1 \/ v = 2 \/ v = 3 \/ v = 4 \/ v = 5 \/ v = 6 \/ v = 7 \/ v = 8 \/ v = 9) by lia.
  destruct C as [->|[->|[->|[->|[->|[->|[->|[->| ->]]]]]]]]; split; reflexivity.
Qed.
Print Assumptions C94_depends_refuted.
Theorem C94_written_partial : forall d p n after after', In 0 after -> In 0 after' -> 0 <= d <= 2147483647 -> 0 <= p <= 2147483647 -> 0 <= n <= 2147483647 ->
  forall off, In off [o_data; o_page; o_next] -> get_hex after off (hdr d p n) = get_hex after' off (hdr d p n).
Proof.
  intros d p n after after' HA HA' HD HP HN off [<-|[<-|[<-|[]]]].
  - rewrite !hdr_data by assumption. reflexivity.
  - rewrite !hdr_page by assumption. reflexivity.
  - rewrite !hdr_next by assumption. reflexivity.
Qed.
Print Assumptions C94_written_partial.
Example C94_nonvacuous : get_hex [49; 0] o_next (hdr 1 2 3) = get_hex [0] o_next (hdr 1 2 3).
Proof. reflexivity. Qed.

(** ** C95: files that were written with no bytes *)
(** C95 is false: in every container with no free page, bytes written to a file that was last written with no bytes (the sizes of its
    block are 0) are put over whatever follows its block *)
Theorem C95_overwrites_refuted : forall fuel after c d start, In 0 after -> c_free c = 2147483647 -> 16 < start -> block_at (c_data c) start 0 0 2147483647 -> d <> [] ->
  start + 31 + zlen d <= zlen (c_data c) -> zlen (c_data c) + 31 + zlen d < 2147483647 ->
  exists c', write_block (S (S fuel)) after c d 0 start (-1) false = Ok (c', start) /\ sub (c_data c') (Z.to_nat start + 31) (length d) = d.
Proof. exact empty_overwrites. Qed.
Print Assumptions C95_overwrites_refuted.
Example C95_overwrites_case : exists r, do_ops 60 [0] [Write 0 []; Write 1 [1; 2; 3]] (empty_run 2) = Ok r /\ c_free (r_cat r) = 2147483647 /\ nth 0 (r_starts r) 0 = 559 /\ block_at (c_data (r_cat r)) 559 0 0 2147483647 /\ zlen (c_data (r_cat r)) = 559 + 31 + 31 + 3.
Proof.
  destruct (do_ops 60 [0] [Write 0 []; Write 1 [1; 2; 3]] (empty_run 2)) as [r| | |] eqn:E; [|vm_compute in E; discriminate..].
  exists r. split; [reflexivity|]. vm_compute in E. injection E as <-. split; [reflexivity|]. split; [reflexivity|]. split; [|reflexivity].
  split; [lia|]. split; [lia|]. split; [lia|]. match goal with |- exists pre post, ?l = _ /\ _ => exists (firstn 559 l), (skipn 590 l) end. split; vm_compute; reflexivity.
Qed.
(** so another file is lost *)
Theorem C95_other_file_refuted : exists r, do_ops 60 [0] [Write 0 []; Write 1 [1; 2; 3]; Write 0 [9; 9; 9; 9; 9; 9; 9; 9; 9]] (empty_run 2) = Ok r /\ read_file 60 [0] r 1 = Ok [] /\ (forall b, read_file 60 [0] r 0 = Ok b -> 600 < zlen b).
Proof. eexists. split; [vm_compute; reflexivity|]. split; [vm_compute; reflexivity|]. intros b H. vm_compute in H. injection H as <-. reflexivity. Qed.
Print Assumptions C95_other_file_refuted.
Example C95_before : match do_ops 60 [0] [Write 0 []; Write 1 [1; 2; 3]] (empty_run 2) with Ok r => read_file 60 [0] r 1 = Ok [1; 2; 3] /\ read_file 60 [0] r 0 = Ok [] | _ => False end.
Proof. vm_compute. split; reflexivity. Qed.

(** ** C99: a file that was created and never written *)
(** C99 is false: a container with no free page, or one within the first 64 KB, whose table of contents has, at any place, an entry
    without a header (address 0, as a created file has it) cannot be opened *)
Theorem C99_created_refuted : forall fuel after data pre d post k l, plain_mark data -> (31 <= length data)%nat ->
  read_block fuel after data 16 = Ok (pre ++ (le_bytes 4 0 ++ le_bytes 4 d ++ le_bytes 4 2147483647) ++ post) -> length pre = (12 * k)%nat -> open_files fuel after data <> Ok l.
Proof. exact created_bad. Qed.
Print Assumptions C99_created_refuted.
Example C99_created_case : forall fuel, exists r, do_op (S fuel) [0] (Fat (table [0; 0] 1)) (empty_run 2) = Ok r /\ open_files (S fuel) [0] (flush_marks (r_cat r) 1) = UB /\
  plain_mark (flush_marks (r_cat r) 1) /\ read_block (S fuel) [0] (flush_marks (r_cat r) 1) 16 = Ok ([] ++ (le_bytes 4 0 ++ le_bytes 4 0 ++ le_bytes 4 2147483647) ++ []).
Proof. intros fuel. eexists. split; [vm_compute; reflexivity|]. split; [vm_compute; reflexivity|]. split; [right; vm_compute; reflexivity|vm_compute; reflexivity]. Qed.

(** ** C96: reading a block of any container ends *)
(** C96 is false: whatever blocks a container has that lead back to each other, in cycles of any length, reading a block with data
    that leads into them does not end *)
Theorem C96_cycle_refuted : forall after data addr a d p n, In 0 after -> no_end data addr -> block_at data a d p n -> a <> 2147483647 -> d <> 0 -> addr n ->
  forall fuel, read_block fuel after data a = Hang.
Proof. exact cycle. Qed.
Print Assumptions C96_cycle_refuted.
(* two blocks that lead to each other *)
Definition ex_cycle : list Z := repeat 0 16 ++ hdr 5 1 48 ++ [7] ++ hdr 0 2 16 ++ [8; 9].
Example C96_cycle_case : no_end ex_cycle (fun a => a = 16 \/ a = 48) /\ block_at ex_cycle 16 5 1 48 /\ forall fuel, read_block fuel [0] loop_file 16 = Hang.
Proof.
  assert (B1 : block_at ex_cycle 16 5 1 48) by (split; [lia|]; split; [lia|]; split; [lia|]; exists (repeat 0 16), ([7] ++ hdr 0 2 16 ++ [8; 9]); split; reflexivity).
  assert (B2 : block_at ex_cycle 48 0 2 16) by (split; [lia|]; split; [lia|]; split; [lia|]; exists (repeat 0 16 ++ hdr 5 1 48 ++ [7]), [8; 9]; split; [unfold ex_cycle; now rewrite <- !app_assoc|reflexivity]).
  split; [|split; [exact B1|exact read_hang]]. intros a [-> | ->]; (split; [lia|]); [exists 5, 1, 48|exists 0, 2, 16]; (split; [assumption|auto]).
Qed.

(** an address outside the container ends at once with no bytes *)
Theorem C96_outside_partial : forall fuel after data start, start < 0 \/ start = 2147483647 \/ zlen data < start -> read_block fuel after data start = Ok [].
Proof.
  intros fuel after data start H. unfold read_block. replace ((start <? 0) || (start =? LAST) || (zlen data <? start)) with true; [reflexivity|].
  symmetry. unfold LAST. rewrite !Bool.orb_true_iff, !Z.ltb_lt, Z.eqb_eq. tauto.
Qed.
Print Assumptions C96_outside_partial.
Example C96_nonvacuous : read_block 5 [0] loop_file 1000 = Ok [] /\ zlen loop_file < 1000.
Proof. split; vm_compute; reflexivity. Qed.

(** ** C98: deleting a file by name *)
Theorem C98_delete_refuted : forall F (same : F -> bool) files, existsb same files = true -> delete_walk same files = UB.
Proof. intros F same files. exact (delete_found same files). Qed.
Print Assumptions C98_delete_refuted.
Theorem C98_absent_partial : forall F (same : F -> bool) files, existsb same files = false -> delete_walk same files = Ok files.
Proof. intros F same files. exact (delete_absent same files). Qed.
Print Assumptions C98_absent_partial.
Example C98_nonvacuous : existsb (Z.eqb 2) [1; 2; 3] = true /\ delete_walk (Z.eqb 2) [1; 2; 3] = UB /\ delete_walk (Z.eqb 4) [1; 2; 3] = Ok [1; 2; 3].
Proof. repeat apply conj; reflexivity. Qed.

(** ** C100: files that are stored compressed *)
Theorem C100_self_refuted : forall deflate inflate d, deflate d <> d -> shown_as inflate false (stored_as deflate false true d) <> d.
Proof. intros deflate inflate d H. exact H. Qed.
Print Assumptions C100_self_refuted.
Theorem C100_container_partial : forall deflate inflate zipped self d, (forall b, inflate (deflate b) = b) -> zipped = true \/ self = false -> shown_as inflate zipped (stored_as deflate zipped self d) = d.
Proof. intros deflate inflate zipped self d H [->| ->]; [apply H|]. destruct zipped; [apply H|reflexivity]. Qed.
Print Assumptions C100_container_partial.
Example C100_nonvacuous : shown_as (@tl Z) false (stored_as (cons 7) false true [1; 2]) = [7; 1; 2] /\ shown_as (@tl Z) true (stored_as (cons 7) true true [1; 2]) = [1; 2].
Proof. split; reflexivity. Qed.
