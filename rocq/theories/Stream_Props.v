(** Theorems about streams: copying, seeking, files, compression. *)
From Verif Require Import Prelude Lists Stream_Model Stream_Spec Stream_Proofs.

(** ** C41: a stream in memory is an array of bytes with a cursor *)
Theorem C41_memory_stream : forall s xs, run_fits s xs -> seeks_ok s xs ->
  mexecs (of_ideal s) xs = Ok (of_ideal (fst (ideals s xs)), snd (ideals s xs)).
Proof. intros s xs H1 H2. exact (mexecs_ok xs s H1 H2). Qed.
Print Assumptions C41_memory_stream.
Definition demo_ops : list sop := [SWrite [1;2;3;4]; SSeek (-2) Cur; SWrite [9;9;9]; SPos 7; SWrite [5]; SSeek 0 Beg; SRead 6; SRead 9; SSeek 3 End_; SRead 1; SSeek 99 Beg; SSeek (-99) Cur; SSize 4; SRead 2; SSeek 2 End_; SRead 5].
Example C41_nonvacuous : run_fits ([], 0%nat) demo_ops /\ seeks_ok ([], 0%nat) demo_ops /\
  mexecs ms_new demo_ops = Ok (MS [1;2;9;9] 4,
    [Num 4; Num 2; Num 3; Unit; Num 1; Num 0; Bytes [1;2;9;9;9;0]; Bytes [0;5]; Num 5; Bytes [0]; Error; Error; Unit; Bytes []; Num 2; Bytes [9;9]]).
Proof. split; [vm_compute; intuition (reflexivity || discriminate)|]. split; [vm_compute; intuition discriminate|]. vm_compute. reflexivity. Qed.

(** ** C72: seeking never leaves the stream, and a rejected seek leaves the cursor *)
Theorem C72_negative_refuted : forall l p o n, -2^61 < o < 0 -> zlen l < 2^62 -> 0 <= n < 2^61 ->
  ms_seek (MS l p) o Beg = Ok (MS l o, Ok o) /\ ms_read (MS l o) n n = UB.
Proof. intros l p o n [H1 H2] H3 H4. exact (seek_negative l p o n H2 H1 H3 H4). Qed.
Print Assumptions C72_negative_refuted.
Example C72_negative_nonvacuous : ms_seek (MS [1;2;3] 0) (-1) Beg = Ok (MS [1;2;3] (-1), Ok (-1)) /\ ms_read (MS [1;2;3] (-1)) 2 2 = UB.
Proof. split; reflexivity. Qed.
Theorem C72_rejected_moves_refuted : forall l p o, zlen l < o < 2^61 -> ms_seek (MS l p) o End_ = Ok (MS l (zlen l - o), Throw) /\ zlen l - o < 0.
Proof. exact seek_end_moves. Qed.
Print Assumptions C72_rejected_moves_refuted.
Example C72_rejected_nonvacuous : ms_seek (MS [1;2;3] 2) 4 End_ = Ok (MS [1;2;3] (-1), Throw). Proof. reflexivity. Qed.
Theorem C72_beyond_end_refuted : forall l p o, -2^61 < o < 0 -> zlen l < 2^62 -> ms_seek (MS l p) o End_ = Ok (MS l (zlen l - o), Ok (zlen l - o)) /\ zlen l < zlen l - o.
Proof. exact seek_end_beyond. Qed.
Print Assumptions C72_beyond_end_refuted.
Example C72_beyond_nonvacuous : ms_seek (MS [1;2;3] 2) (-4) End_ = Ok (MS [1;2;3] 7, Ok 7). Proof. reflexivity. Qed.

(** ** C42: copying between streams *)
Theorem C42_copy_count : forall dl dp sl sp n, zlen dl < 2^62 -> Z.of_nat dp < 2^62 -> zlen sl < 2^62 -> Z.of_nat sp < 2^62 -> Z.of_nat n < 2^62 ->
  (0 < n)%nat -> (sp < length sl)%nat ->
  copy_from (of_ideal (dl, dp)) (of_ideal (sl, sp)) (Z.of_nat n) =
  let d := firstn n (skipn sp sl) in Ok (of_ideal (overlay dl dp d, dp + length d), of_ideal (sl, sp + length d), zlen d)%nat.
Proof. exact copy_n_ok. Qed.
Print Assumptions C42_copy_count.
Theorem C42_copy_all : forall dl dp sl sp, zlen dl < 2^62 -> Z.of_nat dp < 2^62 -> zlen sl < 2^62 -> (sl = [] -> (dp <= length dl)%nat) ->
  copy_from (of_ideal (dl, dp)) (of_ideal (sl, sp)) 0 = Ok (of_ideal (overlay dl dp sl, dp + length sl), of_ideal (sl, length sl), zlen sl)%nat.
Proof. exact copy_all_ok. Qed.
Print Assumptions C42_copy_all.
Example C42_nonvacuous : copy_from (MS [9;9;9;9] 1) (MS [1;2;3;4] 2) 5 = Ok (MS [9;3;4;9] 3, MS [1;2;3;4] 4, 2) /\
  copy_from (MS [9;9;9;9] 1) (MS [1;2;3;4] 2) 0 = Ok (MS [9;1;2;3;4] 5, MS [1;2;3;4] 4, 4) /\ (2 < length [1;2;3;4])%nat.
Proof. split; [reflexivity|]. split; [reflexivity|]. cbn. lia. Qed.

(** ** C76: copying when the source has nothing left writes nothing *)
Theorem C76_copy_at_end_refuted : forall dl dp sl sp n, zlen dl < 2^62 -> Z.of_nat dp < 2^62 -> zlen sl < 2^62 -> Z.of_nat sp < 2^62 -> Z.of_nat n < 2^62 ->
  (0 < n)%nat -> (length sl <= sp)%nat ->
  copy_from (of_ideal (dl, dp)) (of_ideal (sl, sp)) (Z.of_nat n) =
  Ok (of_ideal (overlay dl dp (repeat 0%Z n), dp + n), of_ideal (sl, sp), Z.of_nat n)%nat.
Proof. exact copy_at_end. Qed.
Print Assumptions C76_copy_at_end_refuted.
Example C76_nonvacuous : copy_from (MS [9;9;9] 1) (MS [1;2;3;4] 4) 5 = Ok (MS [9;0;0;0;0;0] 6, MS [1;2;3;4] 4, 5). Proof. reflexivity. Qed.

(** ** C73: a stream over a file is an array of bytes with a cursor *)
Theorem C73_write_lost_refuted : forall l p n d, (p <= length l)%nat -> (length l - p < n)%nat ->
  let s1 := fst (fs_read (of_file (l, p) false) (Z.of_nat n)) in
  fs_data (fst (fs_write s1 d)) = l /\ snd (fs_write s1 d) = zlen d /\ fs_size (fst (fs_write s1 d)) = zlen l + zlen d.
Proof. exact write_lost. Qed.
Print Assumptions C73_write_lost_refuted.
Example C73_lost_nonvacuous : fexecs (fs_open [1;2;3]) [SRead 4; SWrite [7;8]; SSeek 0 Beg; SRead 9] = (FS [1;2;3] 3 5 true, [Bytes [1;2;3]; Num 2; Num 0; Bytes [1;2;3]]).
Proof. reflexivity. Qed.
Theorem C73_file_stream_partial : forall l p xs, (p <= length l)%nat -> file_ok false (l, p) xs -> seeks_ok (l, p) xs ->
  exists short, fexecs (of_file (l, p) false) xs = (of_file (fst (ideals (l, p) xs)) short, snd (ideals (l, p) xs)).
Proof. intros l p xs. exact (fexecs_ok xs l p false). Qed.
Print Assumptions C73_file_stream_partial.
Definition file_ops : list sop := [SWrite [1;2;3;4]; SSeek (-2) Cur; SWrite [9;9;9]; SSeek 0 Beg; SRead 6; SRead 0; SPos 1; SWrite [7]; SSeek 1 End_; SRead 9; SSeek 3 End_; SRead 1].
Example C73_nonvacuous : file_ok false ([], 0%nat) file_ops /\ seeks_ok ([], 0%nat) file_ops /\
  fexecs (fs_open []) file_ops = (FS [1;7;9;9;9] 3 5 false, [Num 4; Num 2; Num 3; Num 0; Bytes [1;2;9;9;9]; Bytes []; Unit; Num 1; Num 4; Bytes [9]; Num 2; Bytes [9]]).
Proof. split; [vm_compute; intuition lia|]. split; [vm_compute; intuition discriminate|]. vm_compute. reflexivity. Qed.

(** ** C43: what is compressed with success expands to the same bytes *)
Theorem C43_round_trip : forall c src z, lossless c -> deflate_stream c src = (z, true) -> inflate_stream c z = (src, false) /\ inflate_or_copy c z = src.
Proof. exact round_trip. Qed.
Print Assumptions C43_round_trip.
Theorem C43_success : forall c src, snd (deflate_stream c src) = true <-> zlen src mod CHUNK <> 0.
Proof.
  intros c src. rewrite deflate_fails. destruct (Z.eqb_spec (zlen src mod CHUNK) 0); cbn [negb]; split; intros H; congruence.
Qed.
Print Assumptions C43_success.
Example C43_nonvacuous : lossless toy /\ deflate_stream toy [5;6;7] = ([0;5;0;6;0;7;1], true) /\ inflate_stream toy [0;5;0;6;0;7;1] = ([5;6;7], false) /\
  snd (deflate_stream toy (repeat 3 (Z.to_nat 40000))) = true.
Proof. split; [exact toy_lossless|]. repeat apply conj; vm_compute; reflexivity. Qed.

(** ** C77: compression succeeds for every stream *)
Theorem C77_multiple_refuted : forall c src, zlen src mod CHUNK = 0 -> snd (deflate_stream c src) = false.
Proof. intros c src H. rewrite deflate_fails, H. reflexivity. Qed.
Print Assumptions C77_multiple_refuted.
Example C77_nonvacuous : zlen (@nil Z) mod CHUNK = 0 /\ zlen (repeat 3 (Z.to_nat 32768)) mod CHUNK = 0 /\ snd (deflate_stream toy (repeat 3 (Z.to_nat 32768))) = false.
Proof. repeat apply conj; vm_compute; reflexivity. Qed.

(** ** C74: incomplete compressed data is reported *)
Theorem C74_truncated_refuted : forall c src a b, lossless c -> deflate_stream c src = (a ++ b, true) -> b <> [] ->
  exists o o2, inflate_stream c a = (o, false) /\ src = o ++ o2.
Proof. exact truncated. Qed.
Print Assumptions C74_truncated_refuted.
Example C74_nonvacuous : deflate_stream toy [5;6;7] = ([0;5;0;6] ++ [0;7;1], true) /\ inflate_stream toy [0;5;0;6] = ([5;6], false).
Proof. split; reflexivity. Qed.

(** ** C75: expand-or-copy gives the expanded data, or the bytes as they are *)
Theorem C75_rubbish_refuted : forall c a b st' o o2 st2, length a = Z.to_nat CHUNK -> b <> [] -> (length b <= Z.to_nat CHUNK)%nat ->
  i_step c (i_init c) a = (st', o, More) -> i_step c st' b = (st2, o2, Bad) -> zlen o2 < CHUNK ->
  inflate_or_copy c (a ++ b) = o ++ a ++ b.
Proof. exact partial_then_copy. Qed.
Print Assumptions C75_rubbish_refuted.
Example C75_nonvacuous : let a := flat_map (fun _ => [0; 7]) (seq 0 (Z.to_nat 8192)) in
  Nat.eqb (length a) (Z.to_nat CHUNK) = true /\ snd (i_step toy (i_init toy) a) = More /\ fst (fst (i_step toy (i_init toy) a)) = false /\ i_step toy false [5] = (false, [], Bad) /\
  zlen (inflate_or_copy toy (a ++ [5])) = 8192 + 16385.
Proof. repeat apply conj; vm_compute; reflexivity. Qed.
Theorem C75_copy_partial : forall c z st' o, z <> [] -> i_step c (i_init c) (firstn (Z.to_nat CHUNK) z) = (st', o, Bad) -> zlen o < CHUNK -> inflate_or_copy c z = z.
Proof. exact bad_first. Qed.
Print Assumptions C75_copy_partial.
Example C75_copy_nonvacuous : i_step toy (i_init toy) (firstn (Z.to_nat CHUNK) [0;4;9;9]) = (false, [4], Bad) /\ inflate_or_copy toy [0;4;9;9] = [0;4;9;9].
Proof. split; vm_compute; reflexivity. Qed.
