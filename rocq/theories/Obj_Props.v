(** Properties C20-C22, C62-C64: objects stored in pages. *)
From Verif Require Import Prelude Lists Obj_Model Obj_Spec Obj_Proofs Obj_Write Obj_More Obj_Hist Obj_Make Obj_Facts Obj_Wrap.

(** C20: opening a stored object of any format gives its length; reading a non-empty range
    inside gives exactly those bytes; a range that ends beyond the object is rejected;
    saving it to a file writes all its bytes. *)
Theorem C20_range_read ps f st n len tabs dp : stored ps f st n len tabs dp ->
  exists o, obj_open (Z.of_nat ps) (is838 f) st n = Ok o /\ obj_len o = Z.of_nat len /\
    (forall start m buf, (0 < m)%nat -> (start + m <= len)%nat ->
       get_range (Z.of_nat ps) st o (Z.of_nat start) (Z.of_nat m) buf = Ok (sub (content st dp len) start m)) /\
    (forall start m buf, 0 <= start -> 0 <= m -> start + m < 2^64 -> Z.of_nat len < start + m ->
       get_range (Z.of_nat ps) st o start m buf = Throw) /\
    (forall buf, save_file (Z.of_nat ps) st o buf = Ok (content st dp len)).
Proof. exact (read_facts ps f st n len tabs dp). Qed.
Print Assumptions C20_range_read.
(** a two-level object of 1100 bytes in 18 pages listed by 2 table pages, read across the
    boundary of the tables; the hypothesis holds for it *)
Example C20_case : let st := mk_store F838_deep 64 1100 (ex_pages 18) in
  stored 64 F838_deep st 2 1100 (mk_tabs F838_deep 64 18) (mk_dp F838_deep 64 18) /\
  match obj_open 64 true st 2 with
  | Ok o => get_range 64 st o 1022 4 [] = Ok [16; 16; 17; 17] /\ get_range 64 st o 1099 2 [] = Throw
  | _ => False
  end.
Proof. cbv zeta. split; [apply ex_stored; [lia|reflexivity|right; split; [reflexivity|lia]]|vm_compute; auto]. Qed.
(** objects of the older format with more than one table page, and of more than 4 GiB, exist *)
Example C20_large : exists ps st n len tabs dp, stored ps F838_deep st n len tabs dp /\ 2^32 < Z.of_nat len.
Proof. destruct large_object as (ps & st & n & len & tabs & dp & A & _ & B). exists ps, st, n, len, tabs, dp. auto. Qed.

(** C21: any history of overwrites, range reads and whole reads through an open object
    returns what the same history gives on a plain sequence of bytes; afterwards the file
    still holds the object (so it can be opened again) with those bytes; no page but its
    data pages and its header changes; every other object is as before. *)
Theorem C21_histories ps f st n len tabs dp xs :
  stored ps f st n len tabs dp -> NoDup (pages_of n tabs dp) -> Forall (fun x => in_range f ps len (fst x)) xs ->
  exists o st' o', obj_open (Z.of_nat ps) (is838 f) st n = Ok o /\
    execs ps (st, o) xs = Ok ((st', o'), snd (plains (content st dp len) xs)) /\
    stored ps f st' n len tabs dp /\ content st' dp len = fst (plains (content st dp len) xs) /\
    (forall m, ~ In m dp -> m <> n -> 0 <= m -> nth_error st' (Z.to_nat m) = nth_error st (Z.to_nat m)) /\
    (forall f2 n2 len2 tabs2 dp2, stored ps f2 st n2 len2 tabs2 dp2 -> (forall m, In m (pages_of n2 tabs2 dp2) -> ~ In m (n :: dp)) ->
       stored ps f2 st' n2 len2 tabs2 dp2 /\ content st' dp2 len2 = content st dp2 len2).
Proof. exact (history_ok ps f st n len tabs dp xs). Qed.
Print Assumptions C21_histories.
Definition ex_ops : list (op * (Z -> bool)) :=
  [(Read 1020 6 [], fun _ => false); (Write 1000 (repeat 99 40), fun _ => false); (Whole [], fun _ => true); (Read 1020 6 [], fun _ => false);
   (Write 1023 [1; 2], fun _ => true); (Read 1020 6 [], fun _ => true)].
Example C21_case : let st := mk_store F838_deep 64 1100 (ex_pages 18) in
  stored 64 F838_deep st 2 1100 (mk_tabs F838_deep 64 18) (mk_dp F838_deep 64 18) /\ NoDup (pages_of 2 (mk_tabs F838_deep 64 18) (mk_dp F838_deep 64 18)) /\
  Forall (fun x => in_range F838_deep 64 1100 (fst x)) ex_ops /\
  match obj_open 64 true st 2 with
  | Ok o => match execs 64 (st, o) ex_ops with Ok (_, r) => nth 0 r [] = [16; 16; 16; 16; 17; 17] /\ nth 3 r [] = [99; 99; 99; 99; 99; 99] /\ nth 5 r [] = [99; 99; 99; 1; 2; 99] | _ => False end
  | _ => False
  end.
Proof.
  cbv zeta. assert (H : bytes_ok (repeat 99 40)) by (apply bytes_okb_spec; reflexivity). assert (H' : bytes_ok [1; 2]) by (apply bytes_okb_spec; reflexivity).
  split; [|split; [|split]].
  - apply ex_stored; [lia|reflexivity|right; split; [reflexivity|lia]].
  - apply (ex_stored F838_deep 1100); [lia|reflexivity|right; split; [reflexivity|lia]].
  - unfold ex_ops. repeat apply Forall_cons; try apply Forall_nil; cbn [in_range fst]; rewrite ?repeat_length; cbn [length]; try (split; [discriminate|]); try (split; [assumption|]); try lia.
    intros (k & Hk & Hl). change (64 / 4)%nat with 16%nat in Hl. lia.
  - vm_compute. auto.
Qed.

(** C22: below 4 GiB the file offset reported for a position is where the byte is *)
Theorem C22_file_offset ps f st n len tabs dp : stored ps f st n len tabs dp ->
  exists o, obj_open (Z.of_nat ps) (is838 f) st n = Ok o /\
    forall off, (off < len)%nat -> Z.of_nat off < 2^32 ->
      exists fo, fileoffset (Z.of_nat ps) st o (Z.of_nat off) = Ok (Z.of_nat fo) /\
        nth_error (concat st) fo = nth_error (content st dp len) off /\ (fo < length (concat st))%nat.
Proof. exact (offset_facts ps f st n len tabs dp). Qed.
Print Assumptions C22_file_offset.
Example C22_case : let st := mk_store F838_deep 64 1100 (ex_pages 18) in
  stored 64 F838_deep st 2 1100 (mk_tabs F838_deep 64 18) (mk_dp F838_deep 64 18) /\
  match obj_open 64 true st 2 with
  | Ok o => fileoffset 64 st o 1030 = Ok 1350 /\ nth_error (concat st) 1350 = Some 17
  | _ => False
  end.
Proof. cbv zeta. split; [apply ex_stored; [lia|reflexivity|right; split; [reflexivity|lia]]|vm_compute; auto]. Qed.

(** C62 is false: when the last table page lists a single data page, reading the object
    whole leaves that last page as uninitialised memory, for every such object *)
Theorem C62_last_page_lost_refuted ps f st n len tabs dp : stored ps f st n len tabs dp -> lone_page f ps len ->
  exists o q, obj_open (Z.of_nat ps) (is838 f) st n = Ok o /\ (q < len)%nat /\
    forall junk, exists o' d, get_all (Z.of_nat ps) st o junk = Ok (o', Some d) /\
      firstn q d = firstn q (content st dp len) /\ skipn q d = sub junk q (len - q).
Proof. exact (whole_lost ps f st n len tabs dp). Qed.
Print Assumptions C62_last_page_lost_refuted.
Example C62_exists_80 : exists ps st n len tabs dp, stored ps F80 st n len tabs dp /\ lone_page F80 ps len.
Proof. destruct lone_object as (ps & st & n & len & tabs & dp & A & _ & B). exists ps, st, n, len, tabs, dp. auto. Qed.
Example C62_case : let st := mk_store F838_deep 64 1026 (ex_pages 17) in
  stored 64 F838_deep st 2 1026 (mk_tabs F838_deep 64 17) (mk_dp F838_deep 64 17) /\ lone_page F838_deep 64 1026 /\
  match obj_open 64 true st 2 with
  | Ok o => match get_all 64 st o (repeat 255 1026) with Ok (_, Some d) => skipn 1022 d = [16; 16; 255; 255] | _ => False end
  | _ => False
  end.
Proof.
  cbv zeta. split; [apply ex_stored; [lia|reflexivity|right; split; [reflexivity|lia]]|]. split; [|vm_compute; auto].
  exists 1%nat. change (64 / 4)%nat with 16%nat. lia.
Qed.
(** at every other length the whole object is returned *)
Theorem C62_whole_read_partial ps f st n len tabs dp junk : stored ps f st n len tabs dp -> (0 < len)%nat -> ~ lone_page f ps len ->
  exists o o', obj_open (Z.of_nat ps) (is838 f) st n = Ok o /\ get_all (Z.of_nat ps) st o junk = Ok (o', Some (content st dp len)).
Proof. exact (whole_facts ps f st n len tabs dp junk). Qed.
Print Assumptions C62_whole_read_partial.
Example C62_partial_case : stored 64 F838_deep (mk_store F838_deep 64 1100 (ex_pages 18)) 2 1100 (mk_tabs F838_deep 64 18) (mk_dp F838_deep 64 18) /\ ~ lone_page F838_deep 64 1100.
Proof. split; [apply ex_stored; [lia|reflexivity|right; split; [reflexivity|lia]]|]. intros (k & Hk & Hl). change (64 / 4)%nat with 16%nat in Hl. lia. Qed.

(** C63 is false: an empty read at the end of an object that fills its table pages reads
    outside the list of table pages, ... *)
Theorem C63_empty_read_refuted ps f st n len tabs dp buf k : stored ps f st n len tabs dp -> f = F80 \/ f = F838_deep -> (len = k * (per_of f ps * ps))%nat ->
  exists o, obj_open (Z.of_nat ps) (is838 f) st n = Ok o /\ get_range (Z.of_nat ps) st o (Z.of_nat len) 0 buf = UB.
Proof. exact (end_facts ps f st n len tabs dp buf k). Qed.
Print Assumptions C63_empty_read_refuted.
Example C63_case : stored 64 F838_deep (mk_store F838_deep 64 1024 (ex_pages 16)) 2 1024 (mk_tabs F838_deep 64 16) (mk_dp F838_deep 64 16) /\ 1024%nat = (1 * (per_of F838_deep 64 * 64))%nat.
Proof. split; [apply ex_stored; [lia|reflexivity|right; split; [reflexivity|lia]]|reflexivity]. Qed.
(** ... after the object has been read whole a range beyond its end is not rejected, ... *)
Theorem C63_after_whole_read_refuted ps f st n len tabs dp junk start m buf :
  stored ps f st n len tabs dp -> (0 < len)%nat -> 0 <= start -> 0 <= m -> Z.of_nat len < start + m -> ~ lone_page f ps len ->
  exists o o' d, obj_open (Z.of_nat ps) (is838 f) st n = Ok o /\ get_all (Z.of_nat ps) st o junk = Ok (o', d) /\ get_range (Z.of_nat ps) st o' start m buf = UB.
Proof. exact (memory_facts ps f st n len tabs dp junk start m buf). Qed.
Print Assumptions C63_after_whole_read_refuted.
(** ... and, in every object with a page size that is a power of two, offset + length may wrap around. *)
Theorem C63_wrap_refuted ps f st n len tabs dp k d m buf : stored ps f st n len tabs dp -> f <> FFree -> Z.of_nat ps = 2 ^ k -> 0 <= k -> 1 <= d <= 2 ^ k -> d <= m -> m - d <= Z.of_nat len ->
  exists o, obj_open (Z.of_nat ps) (is838 f) st n = Ok o /\ get_range (Z.of_nat ps) st o (2 ^ 64 - d) m buf = UB.
Proof. exact (wrap_bad ps f st n len tabs dp k d m buf). Qed.
Print Assumptions C63_wrap_refuted.
Example C63_wrap_case : stored 64 F838_flat (mk_store F838_flat 64 100 (ex_pages 2)) 2 100 (mk_tabs F838_flat 64 2) (mk_dp F838_flat 64 2) /\ Z.of_nat 64 = 2 ^ 6 /\ 1 - 1 <= Z.of_nat 100.
Proof. split; [apply ex_stored; [lia|reflexivity|left; split; [reflexivity|lia]]|]. split; [reflexivity|lia]. Qed.
(** an empty read before the end is harmless *)
Theorem C63_empty_inside_partial ps f st n len tabs dp start buf : stored ps f st n len tabs dp -> (start < len)%nat ->
  exists o, obj_open (Z.of_nat ps) (is838 f) st n = Ok o /\ get_range (Z.of_nat ps) st o (Z.of_nat start) 0 buf = Ok [].
Proof. exact (inside_facts ps f st n len tabs dp start buf). Qed.
Print Assumptions C63_empty_inside_partial.

(** C64 is false: at and beyond 4 GiB the offset reported is never that of the byte *)
Theorem C64_offset_refuted ps f st n len tabs dp off : stored ps f st n len tabs dp -> NoDup dp -> 2^32 <= Z.of_nat off -> (off < len)%nat ->
  exists o x, obj_open (Z.of_nat ps) (is838 f) st n = Ok o /\ fileoffset (Z.of_nat ps) st o (Z.of_nat off) = Ok x /\ x <> place ps dp off.
Proof. exact (offset_wrong_facts ps f st n len tabs dp off). Qed.
Print Assumptions C64_offset_refuted.
(** where [place] is the position of the byte *)
Theorem C64_place ps f st n len tabs dp off : stored ps f st n len tabs dp -> (off < len)%nat ->
  0 <= place ps dp off /\ nth_error (concat st) (Z.to_nat (place ps dp off)) = nth_error (content st dp len) off.
Proof. exact (place_facts ps f st n len tabs dp off). Qed.
Print Assumptions C64_place.
Example C64_case : exists ps st n len tabs dp, stored ps F838_deep st n len tabs dp /\ NoDup dp /\ 2^32 < Z.of_nat len.
Proof.
  destruct large_object as (ps & st & n & len & tabs & dp & A & N & B). exists ps, st, n, len, tabs, dp. split; [exact A|]. split; [|exact B].
  unfold pages_of in N. inversion_clear N as [|x l _ Hl]. clear - Hl. induction tabs as [|t ts IH]; [exact Hl|]. apply IH. now inversion Hl.
Qed.
