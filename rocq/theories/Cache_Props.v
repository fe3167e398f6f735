(** Theorems about the page cache (MemBlock.cpp, Class_1CD.cpp). *)
From Verif Require Import Prelude Cache_Model Cache_Spec Cache_Proofs Cache_Close.

(** C16: every history of reads, writes, clean-ups and flushes, with any clock readings
    and any uninitialised memory, answers exactly as a plain list of pages would. *)
Theorem C16_cache_transparent ps k bs es :
  good_file ps k bs -> ops_fit ps k (map evop es) -> Z.of_nat (grow_all k (map evop es)) < 2^32 ->
  exists c c' outs pages, base_open ps bs = Ok c /\ run c es = Ok (c', outs) /\
    plain_run ps (pages_of ps bs) (map evop es) outs pages.
Proof.
  intros Hg Hf Hm. destruct (history ps k bs es Hg Hf Hm) as (c & c' & outs & pages & E1 & E2 & Hp & _). eauto 10.
Qed.
Print Assumptions C16_cache_transparent.

(** a request outside the file is refused with an exception *)
Theorem C16_out_of_range ps k bs es c c' outs n t junk :
  good_file ps k bs -> base_open ps bs = Ok c -> ops_fit ps k (map evop es) ->
  Z.of_nat (grow_all k (map evop es)) < 2^32 -> run c es = Ok (c', outs) ->
  ((grow_all k (map evop es) <= n)%nat -> base_read c' n t junk = Throw) /\
  (forall rd off d, (grow_all k (map evop es) < n)%nat -> base_write c' n rd off d t junk = Throw).
Proof. exact (history_out_of_range ps k bs es c c' outs n t junk). Qed.
Print Assumptions C16_out_of_range.

(** two pages of 16 bytes; write, aggressive clean-up, append, timed clean-up, reads *)
Definition file2 : list Z := repeat 7 12 ++ [2;0;0;0] ++ repeat 9 16.
Definition hist : list event :=
  [(OWrite 1 true 3 [1;2], 5, []); (ORead 0, 6, []); (OGarbage true, 7, []); (OWrite 2 false 0 [8], 4294967295, repeat 55 16);
   (OGarbage false, 3, []); (OFlush, 0, []); (OGarbage true, 9, []); (ORead 1, 9, repeat 77 16); (ORead 2, 9, []); (ORead 0, 9, [])].
Example C16_hyp : good_file 16 2 file2 /\ ops_fit 16 2 (map evop hist) /\ grow_all 2 (map evop hist) = 3%nat.
Proof. unfold good_file. cbn. repeat split; try lia. Qed.
Example C16_run : (do c <- base_open 16 file2; do r <- run c hist; Ok (snd r)) =
  Ok [repeat 7 12 ++ [2;0;0;0]; [9;9;9;1;2] ++ repeat 9 11; [8] ++ repeat 0 15; repeat 7 12 ++ [3;0;0;0]].
Proof. vm_compute. reflexivity. Qed.

(** C17: after a flush the file is the concatenation of the pages readers see, and
    another flush changes nothing at all. *)
Theorem C17_flush_writes_view ps k bs es :
  good_file ps k bs -> ops_fit ps k (map evop es) -> Z.of_nat (grow_all k (map evop es)) < 2^32 ->
  exists c c' c'' outs pages, base_open ps bs = Ok c /\ run c es = Ok (c', outs) /\
    plain_run ps (pages_of ps bs) (map evop es) outs pages /\
    base_flush c' = Ok c'' /\ base_close c'' = concat pages /\ base_flush c'' = Ok c''.
Proof. exact (history_flush ps k bs es). Qed.
Print Assumptions C17_flush_writes_view.
Example C17_run : (do c <- base_open 16 file2; do r <- run c hist; do f <- base_flush (fst r); Ok (base_close f)) =
  Ok (repeat 7 12 ++ [3;0;0;0] ++ [9;9;9;1;2] ++ repeat 9 11 ++ [8] ++ repeat 0 15).
Proof. vm_compute. reflexivity. Qed.

(** C18 is false: destroying the object writes nothing.  Whatever was written to pages of the file, and seen by readers, in a
    history without a flush and without new pages, the file closed is the file opened. *)
Theorem C18_close_loses_changes_refuted ps k bs es : good_file ps k bs -> ops_fit ps k (map evop es) -> Forall (still_op k) (map evop es) ->
  exists c c' outs pages, base_open ps bs = Ok c /\ run c es = Ok (c', outs) /\ plain_run ps (pages_of ps bs) (map evop es) outs pages /\ base_close c' = bs.
Proof. exact (closed_unchanged ps k bs es). Qed.
Print Assumptions C18_close_loses_changes_refuted.
Example C18_lost_case :
  good_file 16 2 file2 /\ ops_fit 16 2 [OWrite 1 true 3 [1;2]; ORead 1] /\ Forall (still_op 2) [OWrite 1 true 3 [1;2]; ORead 1] /\
  exists c c', base_open 16 file2 = Ok c /\
    run c [(OWrite 1 true 3 [1;2], 0, []); (ORead 1, 0, [])] = Ok (c', [[9;9;9;1;2] ++ repeat 9 11]) /\
    base_close c' = file2.
Proof.
  split; [apply C16_hyp|]. split; [cbn; lia|]. split; [repeat constructor|]. do 2 eexists. split; [vm_compute; reflexivity|]. split; vm_compute; reflexivity.
Qed.

(** C18, what holds: when the last operation is a flush, closing keeps everything. *)
Theorem C18_flush_then_close_partial ps k bs es t junk :
  good_file ps k bs -> ops_fit ps k (map evop es) -> Z.of_nat (grow_all k (map evop es)) < 2^32 ->
  exists c c' outs pages, base_open ps bs = Ok c /\ run c (es ++ [(OFlush, t, junk)]) = Ok (c', outs) /\
    plain_run ps (pages_of ps bs) (map evop es) outs pages /\ base_close c' = concat pages.
Proof. exact (flush_close ps k bs es t junk). Qed.
Print Assumptions C18_flush_then_close_partial.

(** C19: as long as callers do not overwrite the count themselves, the count in the
    header of the flushed file equals its number of pages and the file opens again. *)
Theorem C19_header_count ps k bs es :
  good_file ps k bs -> ops_fit ps k (map evop es) -> Z.of_nat (grow_all k (map evop es)) < 2^32 ->
  Forall spares_count (map evop es) ->
  exists c c' c'' outs, base_open ps bs = Ok c /\ run c es = Ok (c', outs) /\ base_flush c' = Ok c'' /\
    good_file ps (grow_all k (map evop es)) (base_close c'') /\ exists c3, base_open ps (base_close c'') = Ok c3.
Proof. exact (header_count ps k bs es). Qed.
Print Assumptions C19_header_count.
Example C19_hyp : Forall spares_count (map evop hist).
Proof. cbn. repeat (apply Forall_cons; [cbn; try exact I; lia|]). constructor. Qed.

(** opening accepts exactly the files made of whole pages whose header count is right,
    and refuses every other file with an exception *)
Theorem C19_open_exact ps bs : (16 <= ps)%nat -> bytes_ok bs -> (length bs <> 0)%nat ->
  ((exists c, base_open ps bs = Ok c) <-> exists k, good_file ps k bs) /\ (base_open ps bs = Throw \/ exists c, base_open ps bs = Ok c).
Proof. exact (open_exact ps bs). Qed.
Print Assumptions C19_open_exact.
Example C19_bad_count : base_open 16 (repeat 7 12 ++ [3;0;0;0] ++ repeat 9 16) = Throw /\ exists c, base_open 16 file2 = Ok c.
Proof. split; [vm_compute; reflexivity|eexists; vm_compute; reflexivity]. Qed.

(** C61 is false: a page already in the cache is not cleared when it is taken for writing without loading; for every page of
    every file, whether it is depends on whether it was read before. *)
Theorem C61_cached_page_not_cleared_refuted ps k bs n off d t1 t2 t3 j1 j2 j3 : good_file ps k bs -> (n < k)%nat -> (off + length d <= ps)%nat ->
  exists c, base_open ps bs = Ok c /\
    (exists c', run c [(OWrite n false off d, t1, j1); (ORead n, t2, j2)] = Ok (c', [splice (repeat 0 ps) off d])) /\
    (exists c', run c [(ORead n, t1, j1); (OWrite n false off d, t2, j2); (ORead n, t3, j3)] = Ok (c', [sub bs (n * ps) ps; splice (sub bs (n * ps) ps) off d])).
Proof. exact (clear_depends ps k bs n off d t1 t2 t3 j1 j2 j3). Qed.
Print Assumptions C61_cached_page_not_cleared_refuted.
Example C61_case : good_file 16 2 file2 /\ splice (repeat 0 16) 0 [8] <> splice (sub file2 (1 * 16) 16) 0 [8].
Proof. split; [apply C16_hyp|vm_compute; discriminate]. Qed.

(** C61, what holds: a page appended to the file starts from zeros. *)
Theorem C61_appended_page_partial ps k bs es off d t junk t' junk' c c' outs : good_file ps k bs -> ops_fit ps k (map evop es) ->
  Z.of_nat (grow_all k (map evop es)) + 1 < 2^32 -> base_open ps bs = Ok c -> run c es = Ok (c', outs) -> (off + length d <= ps)%nat ->
  exists c2 c3, base_write c' (grow_all k (map evop es)) false off d t junk = Ok c2 /\
    base_read c2 (grow_all k (map evop es)) t' junk' = Ok (c3, splice (repeat 0 ps) off d).
Proof. exact (append_zero ps k bs es off d t junk t' junk' c c' outs). Qed.
Print Assumptions C61_appended_page_partial.
