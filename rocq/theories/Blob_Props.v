(** Properties C25-C28, C70, C71: blobs. *)
From Verif Require Import Prelude Lists Obj_Model Obj_Spec Obj_Proofs Obj_Make Obj_Facts Alloc_Model Alloc_Spec Alloc_Facts Blob_Model Blob_Spec Blob_Proofs Blob_Read Blob_Hist Blob_More Blob_Obj.

(** C25: reading a blob through the object that holds it, on a file of any content: it never
    leaves the object; what it returns for a given length is a blob of exactly that length
    chained from the given start; for the length that means "any" it is a whole blob; every
    blob that is there is returned; no start but a length, even the one that means "any", is
    refused. *)
Theorem C25_read_blob ps fm st o n len tabs dp : stored ps fm st n len tabs dp -> fm <> FFree -> opened fm o n len tabs dp -> forall fuel start lim, 0 <= start ->
  read_blob_object (obj_get (Z.of_nat ps)) obj_size fuel (st, o) start lim <> UB /\
  (forall d, read_blob_object (obj_get (Z.of_nat ps)) obj_size fuel (st, o) start lim = Ok d -> lim <> 2^32 - 1 -> zlen d = lim /\ exists bs, blob (content st dp len) start bs d) /\
  (forall d, read_blob_object (obj_get (Z.of_nat ps)) obj_size fuel (st, o) start lim = Ok d -> zlen d <= lim -> exists bs, blob (content st dp len) start bs d) /\
  (forall bs d, blob (content st dp len) start bs d -> Z.of_nat len < 2^32 -> (len mod 256 = 0)%nat -> (length bs <= fuel)%nat -> zlen d = lim \/ lim = 2^32 - 1 /\ 0 < start /\ zlen d <= lim ->
     read_blob_object (obj_get (Z.of_nat ps)) obj_size fuel (st, o) start lim = Ok d) /\
  (start = 0 -> lim <> 0 -> read_blob_object (obj_get (Z.of_nat ps)) obj_size fuel (st, o) start lim = Throw).
Proof.
  intros A B C fuel start lim D. destruct (read_stored ps fm st o n len tabs dp A B C fuel start lim D) as (E1 & E2 & E3 & E4).
  split; [exact E1|]. split; [exact E2|]. split; [exact E3|]. split; [exact E4|]. intros -> H. unfold read_blob_object. now rewrite (proj2 (Z.eqb_neq lim 0) H).
Qed.
Print Assumptions C25_read_blob.
(** three chunks; the blob of 300 bytes starts at chunk 2 and goes on at chunk 1 *)
Definition ex_chunk (nxt : Z) (d : list Z) : list Z := le_bytes 4 nxt ++ le_bytes 2 (zlen d) ++ d ++ repeat 0 (250 - length d).
Definition ex_two : list Z := repeat 0 256 ++ ex_chunk 0 (repeat 7 50) ++ ex_chunk 1 (repeat 5 250).
Example C25_case : exists tabs dp o, stored 256 F838_flat (mk_blobs ex_two) 2 768 tabs dp /\ opened F838_flat o 2 768 tabs dp /\ content (mk_blobs ex_two) dp 768 = ex_two /\
  blob ex_two 2 [2; 1] (repeat 5 250 ++ repeat 7 50) /\
  match obj_open 256 true (mk_blobs ex_two) 2 with
  | Ok o' => read_blob_object (obj_get 256) obj_size 3 (mk_blobs ex_two, o') 2 300 = Ok (repeat 5 250 ++ repeat 7 50) /\ read_blob_object (obj_get 256) obj_size 3 (mk_blobs ex_two, o') 2 299 = Throw
  | _ => False
  end.
Proof.
  destruct (blobs_stored ex_two 3) as (tabs & dp & o & A & B & C & D & E); [apply bytes_okb_spec; reflexivity|reflexivity|lia|]. exists tabs, dp, o. change (length ex_two) with 768%nat in *. split; [exact A|]. split; [exact E|]. split; [exact C|]. split.
  - exists [repeat 5 250; repeat 7 50]. split; [|reflexivity]. split; [reflexivity|]. exists 1. split; [|split; [reflexivity|]; exists 0; split; [|reflexivity]].
    + split; [lia|]. split; [vm_compute; discriminate|]. split; [apply Nat.leb_le; reflexivity|]. split; [lia|]. exists []. split; reflexivity.
    + split; [lia|]. split; [vm_compute; discriminate|]. split; [apply Nat.leb_le; reflexivity|]. split; [lia|]. exists (repeat 0 200). split; reflexivity.
  - vm_compute. auto.
Qed.

(** C70 is false: read through the table, a blob shorter than the length asked for is
    returned as if it were right (only a message is given); read into memory of the length
    asked for, a longer blob is written behind it *)
Theorem C70_short_refuted ps fm st o n len tabs dp : stored ps fm st n len tabs dp -> fm <> FFree -> opened fm o n len tabs dp -> Z.of_nat len < 2^32 -> (len mod 256 = 0)%nat -> forall start bs d, 0 < start -> blob (content st dp len) start bs d ->
  forall fuel, (length bs <= fuel)%nat ->
  (forall lim, zlen d <= lim -> read_blob_table (obj_get (Z.of_nat ps)) obj_size fuel (st, o) start lim = Ok (d, negb (zlen d =? lim))) /\
  (forall lim, 0 <= lim -> lim < zlen d -> read_blob_buffer (obj_get (Z.of_nat ps)) obj_size fuel (st, o) start lim lim = UB).
Proof. exact (table_stored ps fm st o n len tabs dp). Qed.
Print Assumptions C70_short_refuted.
Example C70_case : match obj_open 256 true (mk_blobs ex_two) 2 with
  | Ok o => read_blob_table (obj_get 256) obj_size 3 (mk_blobs ex_two, o) 2 1000 = Ok (repeat 5 250 ++ repeat 7 50, true) /\ read_blob_buffer (obj_get 256) obj_size 3 (mk_blobs ex_two, o) 2 299 299 = UB
  | _ => False
  end.
Proof. vm_compute. auto. Qed.
(** what holds: without a message, the bytes are a blob of exactly the length asked for *)
Theorem C70_table_read_partial ps fm st o n len tabs dp : stored ps fm st n len tabs dp -> fm <> FFree -> opened fm o n len tabs dp -> Z.of_nat len < 2^32 -> forall fuel start lim d, 0 <= start ->
  read_blob_table (obj_get (Z.of_nat ps)) obj_size fuel (st, o) start lim = Ok (d, false) -> zlen d = lim /\ exists bs, blob (content st dp len) start bs d.
Proof. exact (table_stored_sound ps fm st o n len tabs dp). Qed.
Print Assumptions C70_table_read_partial.
Example C70_partial_case : match obj_open 256 true (mk_blobs ex_two) 2 with Ok o => read_blob_table (obj_get 256) obj_size 3 (mk_blobs ex_two, o) 2 300 = Ok (repeat 5 250 ++ repeat 7 50, false) | _ => False end.
Proof. vm_compute. reflexivity. Qed.

(** C26 is false: reading does not end exactly when the chain reaches, before the length is
    used up, a chunk that leads back to itself through chunks without data.  Otherwise it
    ends within (number of chunks) * (length + 1) steps. *)
Theorem C26_cycle_refuted ps fm st o n len tabs dp : stored ps fm st n len tabs dp -> fm <> FFree -> opened fm o n len tabs dp -> Z.of_nat len < 2^32 -> (len mod 256 = 0)%nat -> forall start lim b k, 0 < start -> 0 <= lim ->
  reached (content st dp len) start b k -> Z.of_nat k <= lim -> zero_path (content st dp len) b b ->
  forall fuel, read_blob_object (obj_get (Z.of_nat ps)) obj_size fuel (st, o) start lim = Hang.
Proof. intros A B C D E start lim b k F G H I J. apply (proj1 (hang_stored ps fm st o n len tabs dp A B C D E start lim F G)). exists b, k. auto. Qed.
Print Assumptions C26_cycle_refuted.
(** chunk 1 is empty and followed by chunk 2, which is empty and followed by chunk 1 *)
Definition ex_cycle : list Z := repeat 0 256 ++ ex_chunk 2 [] ++ ex_chunk 1 [].
Example C26_case : exists tabs dp o, stored 256 F838_flat (mk_blobs ex_cycle) 2 768 tabs dp /\ opened F838_flat o 2 768 tabs dp /\ content (mk_blobs ex_cycle) dp 768 = ex_cycle /\ reached ex_cycle 1 1 0 /\ zero_path ex_cycle 1 1.
Proof.
  destruct (blobs_stored ex_cycle 3) as (tabs & dp & o & A & B & C & D & E); [apply bytes_okb_spec; reflexivity|reflexivity|lia|]. exists tabs, dp, o. change (length ex_cycle) with 768%nat in *. split; [exact A|]. split; [exact E|]. split; [exact C|]. split; [constructor|].
  apply (zero_more _ 1 2 1); [|apply zero_one]; (split; [lia|]); (split; [vm_compute; discriminate|]); (split; [apply Nat.leb_le; reflexivity|]); (split; [lia|]); exists (repeat 0 250); split; reflexivity.
Qed.
Theorem C26_terminates_partial ps fm st o n len tabs dp : stored ps fm st n len tabs dp -> fm <> FFree -> opened fm o n len tabs dp -> Z.of_nat len < 2^32 -> (len mod 256 = 0)%nat -> forall start lim, 0 < start -> 0 <= lim ->
  ((forall fuel, read_blob_object (obj_get (Z.of_nat ps)) obj_size fuel (st, o) start lim = Hang) <-> exists b k, reached (content st dp len) start b k /\ Z.of_nat k <= lim /\ zero_path (content st dp len) b b) /\
  ((forall b, ~ zero_path (content st dp len) b b) -> forall fuel, Z.of_nat (len / 256) * (lim + 1) < Z.of_nat fuel -> read_blob_object (obj_get (Z.of_nat ps)) obj_size fuel (st, o) start lim <> Hang).
Proof. exact (hang_stored ps fm st o n len tabs dp). Qed.
Print Assumptions C26_terminates_partial.
(** a chunk that leads back to itself but has data: reading ends with an error *)
Definition ex_loop : list Z := repeat 0 256 ++ ex_chunk 1 [3; 4].
Example C26_partial_case : (exists tabs dp o, stored 256 F838_flat (mk_blobs ex_loop) 2 512 tabs dp /\ opened F838_flat o 2 512 tabs dp /\ content (mk_blobs ex_loop) dp 512 = ex_loop /\ forall b, ~ zero_path ex_loop b b) /\
  match obj_open 256 true (mk_blobs ex_loop) 2 with Ok o => read_blob_object (obj_get 256) obj_size 20 (mk_blobs ex_loop, o) 1 7 = Throw | _ => False end.
Proof.
  split; [|vm_compute; reflexivity]. destruct (blobs_stored ex_loop 2) as (tabs & dp & o & A & B & C & D & E); [apply bytes_okb_spec; reflexivity|reflexivity|lia|]. exists tabs, dp, o. change (length ex_loop) with 512%nat in *. split; [exact A|]. split; [exact E|]. split; [exact C|].
  assert (H : forall b c, ~ chunk ex_loop b c []).
  { intros b c (H1 & H2 & _ & _ & pad & _ & H). change (zlen ex_loop) with 512 in H2. assert (b = 1) by lia. subst b. apply (f_equal (fun l => sub l 4 2)) in H. rewrite sub_app_r, sub_app_l in H by (rewrite le_bytes_length; cbn; lia). rewrite le_bytes_length in H. vm_compute in H. discriminate. }
  intros b Q. inversion Q; eapply H; eassumption.
Qed.

(** C27: any history of writing and deleting blobs for which the blob file has free chunks,
    on a file kept in pages: it completes; the live blobs are those of the history on plain
    lists; every live blob reads back; no chunk belongs to two blobs or to a blob and the
    free chain; no page but those of the file changes. *)
Theorem C27_histories cached ps fm st o n len tabs dp live own free xs : stored ps fm st n len tabs dp -> NoDup (pages_of n tabs dp) -> fm <> FFree -> opened fm o n len tabs dp ->
  blob_file (content st dp len) live own free -> Z.of_nat len <= 2^31 -> Forall bop_ok xs -> bfits (length free) (map (@length Z) own) xs ->
  exists st' o' live' own' free', bexecs (obj_get (Z.of_nat ps)) (obj_put cached (Z.of_nat ps)) obj_size ((st, o), live) xs = Ok ((st', o'), live') /\
    map snd live' = bplains (map snd live) xs /\ stored ps fm st' n len tabs dp /\ opened fm o' n len tabs dp /\ blob_file (content st' dp len) live' own' free' /\
    (forall s d, In (s, d) live' -> read_blob_object (obj_get (Z.of_nat ps)) obj_size len (st', o') s (zlen d) = Ok d) /\
    (forall m, ~ In m dp -> m <> n -> 0 <= m -> nth_error st' (Z.to_nat m) = nth_error st (Z.to_nat m)).
Proof. exact (history_stored cached ps fm st o n len tabs dp live own free xs). Qed.
Print Assumptions C27_histories.
(** four free chunks; two blobs are written, the older one deleted, its chunks reused *)
Definition ex_room : list Z := le_bytes 4 1 ++ repeat 0 252 ++ (le_bytes 4 3 ++ repeat 9 252) ++ (le_bytes 4 0 ++ repeat 9 252) ++ (le_bytes 4 4 ++ repeat 9 252) ++ (le_bytes 4 2 ++ repeat 9 252).
Definition ex_hist : list bop := [BWrite (repeat 5 300); BWrite [1; 2; 3]; BDelete 1; BWrite (repeat 6 501)].
Lemma ex_room_file : blob_file ex_room [] [] [1; 3; 4; 2].
Proof.
  split; [apply bytes_okb_spec; reflexivity|]. split; [exists 5%nat; split; [lia|reflexivity]|]. split; [exists 1; split; [lia|]; split; [reflexivity|]|].
  - cbn [free_chain]. repeat (split; [first [reflexivity|lia|vm_compute; discriminate]|]). exists 3. split; [lia|]. split; [reflexivity|]. repeat (split; [first [reflexivity|lia|vm_compute; discriminate]|]). exists 4. split; [lia|]. split; [reflexivity|].
    repeat (split; [first [reflexivity|lia|vm_compute; discriminate]|]). exists 2. split; [lia|]. split; [reflexivity|]. repeat (split; [first [reflexivity|lia|vm_compute; discriminate]|]). exists 0. split; [lia|]. split; reflexivity.
  - split; [constructor|]. cbn [concat app]. repeat (apply NoDup_cons; [cbn [In]; intuition lia|]). constructor.
Qed.
Example C27_case : (exists tabs dp o, stored 256 F838_flat (mk_blobs ex_room) 2 1280 tabs dp /\ NoDup (pages_of 2 tabs dp) /\ opened F838_flat o 2 1280 tabs dp /\ blob_file (content (mk_blobs ex_room) dp 1280) [] [] [1; 3; 4; 2] /\ Forall bop_ok ex_hist /\ bfits 4 [] ex_hist) /\
  match obj_open 256 true (mk_blobs ex_room) 2 with
  | Ok o => match bexecs (obj_get 256) (obj_put (fun _ => false) 256) obj_size ((mk_blobs ex_room, o), []) ex_hist with
            | Ok (s, live) => live = [(1, repeat 6 501); (4, [1; 2; 3])] /\ read_blob_object (obj_get 256) obj_size 5 s 1 501 = Ok (repeat 6 501)
            | _ => False end
  | _ => False end.
Proof.
  split; [|vm_compute; auto]. destruct (blobs_stored ex_room 5) as (tabs & dp & o & A & B & C & D & E); [apply bytes_okb_spec; reflexivity|reflexivity|lia|]. exists tabs, dp, o. change (length ex_room) with 1280%nat in *. split; [exact A|]. split; [exact B|]. split; [exact E|]. rewrite C. split; [exact ex_room_file|].
  split; [unfold ex_hist; repeat (apply Forall_cons; [first [exact I|apply bytes_okb_spec; reflexivity]|]); apply Forall_nil|]. cbn [bfits ex_hist length]. split; [apply Nat.leb_le; reflexivity|]. split; [apply Nat.leb_le; reflexivity|]. split; [apply Nat.leb_le; reflexivity|exact I].
Qed.
(** the same on a byte file that grows when written at its end, for any history up to 2 GiB:
    the bookkeeping of chunks is right; what fails when the file must grow is C71 *)
Theorem C27_growing xs f live own free : blob_file f live own free -> Forall bop_ok xs -> zlen f + 256 * Z.of_nat (list_sum (map bop_chunks xs)) <= 2^31 ->
  exists f' live' own' free', bexecs mem_get mem_put (@zlen Z) (f, live) xs = Ok (f', live') /\ blob_file f' live' own' free' /\ map snd live' = bplains (map snd live) xs /\ zlen f' <= zlen f + 256 * Z.of_nat (list_sum (map bop_chunks xs)).
Proof. exact (history_ok xs f live own free). Qed.
Print Assumptions C27_growing.
Theorem C27_growing_reads f live own free s d : blob_file f live own free -> zlen f < 2^32 -> In (s, d) live -> forall fuel, zlen f <= 256 * Z.of_nat fuel ->
  read_blob_object mem_get (@zlen Z) fuel f s (zlen d) = Ok d /\ (s <> 0 -> read_blob_table mem_get (@zlen Z) fuel f s (zlen d) = Ok (d, false)).
Proof. exact (live_reads f live own free s d). Qed.
Print Assumptions C27_growing_reads.
Example C27_growing_case : blob_file blob_empty [] [] [] /\ match bexecs mem_get mem_put (@zlen Z) (blob_empty, []) ex_hist with Ok (f, live) => live = [(1, repeat 6 501); (3, [1; 2; 3])] /\ zlen f = 1280 | _ => False end.
Proof. split; [exact empty_file|]. vm_compute. auto. Qed.

(** C71 is false: no blob can be written to a blob file without free chunks, in the older
    format and in the newer one as long as one level of pages is enough *)
Theorem C71_no_room_refuted cached ps fm st fl o n len tabs dp live own d r : stored ps fm st n len tabs dp -> good ps st -> fm = F80 \/ fm = F838_flat -> opened fm o n len tabs dp ->
  blob_file (content st dp len) live own [] -> Z.of_nat len + 4 < 2^32 -> d <> [] -> write_blob (grow_get (Z.of_nat ps)) (grow_put cached (Z.of_nat ps)) grow_size (st, fl, o) d <> Ok r.
Proof. exact (full_file cached ps fm st fl o n len tabs dp live own d r). Qed.
Print Assumptions C71_no_room_refuted.
Example C71_case : exists tabs dp o, stored 256 F838_flat (mk_blobs blob_empty) 2 256 tabs dp /\ good 256 (mk_blobs blob_empty) /\ opened F838_flat o 2 256 tabs dp /\ blob_file (content (mk_blobs blob_empty) dp 256) [] [] [].
Proof.
  destruct (blobs_stored blob_empty 1) as (tabs & dp & o & A & B & C & D & E); [apply bytes_okb_spec; reflexivity|reflexivity|lia|]. exists tabs, dp, o. change (length blob_empty) with 256%nat in *. split; [exact A|]. split; [|split; [exact E|rewrite C; exact empty_file]].
  destruct A as (A1 & A2 & _). split; [exact A1|]. split; [exact A2|]. change (zlen (mk_blobs blob_empty)) with 4. lia.
Qed.

(** C28 is false: a buffer whose length is not a multiple of 250 is written behind its end;
    if the memory there happens to be usable, the last bytes of the blob are stored as zeros
    and the buffer is overwritten by zeros *)
Theorem C28_overrun_refuted f live own free buf : blob_file f live own free -> bytes_ok buf -> zlen buf mod 250 <> 0 -> zlen f + 256 * Z.of_nat (chunks_for (length buf)) < 2^32 ->
  write_blob_buffer mem_get mem_put (@zlen Z) f buf (zlen buf) = UB.
Proof. exact (write_tight f live own free buf). Qed.
Print Assumptions C28_overrun_refuted.
Example C28_case : blob_file ex_room [] [] [1; 3; 4; 2] /\ zlen (repeat 5 300) mod 250 <> 0 /\ zlen ex_room + 256 * Z.of_nat (chunks_for (length (repeat 5 300))) < 2^32.
Proof. split; [exact ex_room_file|]. vm_compute. split; [discriminate|reflexivity]. Qed.
Theorem C28_zeros_refuted {T} (get : T -> Z -> Z -> res (list Z)) put size s buf len : 0 < len -> len mod 250 <> 0 -> 250 * (len / 250) + 250 <= zlen buf ->
  write_blob_buffer get put size s buf len = do r <- write_blob get put size s (firstn (Z.to_nat (250 * (len / 250))) buf ++ repeat 0 (Z.to_nat (len mod 250)));
    Ok (fst r, snd r, splice buf (Z.to_nat (250 * (len / 250))) (repeat 0 250)).
Proof. exact (write_tail get put size s buf len). Qed.
Print Assumptions C28_zeros_refuted.
Example C28_zeros_case : match write_blob_buffer mem_get mem_put (@zlen Z) ex_room (repeat 5 500) 300 with
  | Ok (f, s, buf) => s = 1 /\ buf = repeat 5 250 ++ repeat 0 250 /\ read_blob_object mem_get (@zlen Z) 5 f 1 300 = Ok (repeat 5 250 ++ repeat 0 50) | _ => False end.
Proof. vm_compute. auto. Qed.
(** what holds: a multiple of 250 is stored as from a stream, and the buffer is kept *)
Theorem C28_whole_chunks_partial {T} (get : T -> Z -> Z -> res (list Z)) put size s buf : zlen buf mod 250 = 0 ->
  write_blob_buffer get put size s buf (zlen buf) = do r <- write_blob get put size s buf; Ok (fst r, snd r, buf).
Proof. exact (write_full get put size s buf). Qed.
Print Assumptions C28_whole_chunks_partial.
Example C28_partial_case : zlen (repeat 5 500) mod 250 = 0 /\ match write_blob_buffer mem_get mem_put (@zlen Z) ex_room (repeat 5 500) 500 with Ok (f, s, buf) => s = 1 /\ read_blob_object mem_get (@zlen Z) 5 f 1 500 = Ok (repeat 5 500) | _ => False end.
Proof. vm_compute. auto. Qed.
