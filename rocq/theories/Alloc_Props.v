(** Properties C23, C24, C65-C69: taking and releasing pages, lengths, deletion. *)
From Coq Require Import Permutation.
From Verif Require Import Prelude Lists Obj_Model Obj_Spec Obj_Proofs Obj_Make Alloc_Model Alloc_Spec Alloc_Proofs Alloc_More Alloc_Len Alloc_Whole Alloc_Del Alloc_Bad Alloc_New Alloc_Facts.

(** C23 is false: changing the length of an object of the older format never completes (a
    copy into a vector overruns it, or the loop does not end), for every object and every
    different length *)
Theorem C23_older_refuted cached ps st fl o n len tabs dp nlen r : stored ps F80 st n len tabs dp -> good ps st -> opened F80 (set_cached o None) n len tabs dp ->
  nlen <> len -> Z.of_nat nlen < 2^32 -> set_len 0 cached (Z.of_nat ps) st fl o (Z.of_nat nlen) <> Ok r.
Proof. intros A B C D E H. now destruct (set_len_bad cached ps F80 st fl o n len tabs dp nlen r A B ltac:(discriminate) C D E H). Qed.
Print Assumptions C23_older_refuted.
Example C23_older_case : exists st n tabs dp o, stored p4096 F80 st n 4500 tabs dp /\ good p4096 st /\ opened F80 (set_cached o None) n 4500 tabs dp.
Proof. destruct (made_4096 1 4500) as (st & fl & fb & n & tabs & dp & o & A); [lia|lia|]. exists st, n, tabs, dp, o. tauto. Qed.
(** newer formats: only growth of a non-empty object to at least 4 pages that one level can
    list completes; for a one-level object the pages must at least be fourfold *)
Theorem C23_newer_refuted cached ps f st fl o n len tabs dp nlen r : stored ps f st n len tabs dp -> good ps st -> f <> FFree -> opened f (set_cached o None) n len tabs dp ->
  nlen <> len -> Z.of_nat nlen < 2^32 -> set_len 0 cached (Z.of_nat ps) st fl o (Z.of_nat nlen) = Ok r ->
  f <> F80 /\ (0 < len)%nat /\ (groups len ps <= groups nlen ps)%nat /\ (4 <= groups nlen ps <= ps / 4 - 6)%nat /\ (f = F838_flat -> (4 * groups len ps <= groups nlen ps)%nat).
Proof. exact (set_len_bad cached ps f st fl o n len tabs dp nlen r). Qed.
Print Assumptions C23_newer_refuted.
(** and then the object may be wrong: grown from 1 page to 6, it sends byte 256 to page 0 *)
Theorem C23_page_zero_refuted : exists st n fl o st1 fl1 o1 st2 o2,
  stored 64 F838_flat st n 60 [] [3] /\ obj_open 64 true st 1 = Ok fl /\ obj_open 64 true st n = Ok o /\
  set_len 0 (fun _ => true) 64 st fl o 384 = Ok (st1, fl1, o1) /\ fileoffset 64 st1 o1 256 = Ok 0 /\
  set_range (fun _ _ _ => UB) false (fun _ => true) 64 st1 o1 256 [1; 2; 3] = Ok (st2, o2) /\ page st2 0 <> page st1 0.
Proof.
  exists ex838, 2. do 7 eexists. split; [apply ex838_stored|]. split; [vm_compute; reflexivity|]. split; [vm_compute; reflexivity|]. split; [vm_compute; reflexivity|].
  split; [vm_compute; reflexivity|]. split; [vm_compute; reflexivity|]. vm_compute. discriminate.
Qed.
Print Assumptions C23_page_zero_refuted.
(** what holds when the overrun of the vector is harmless ([slack] elements behind it can be
    overwritten): an older-format object grows to any length needing at most 254 table pages;
    it keeps its bytes, its new pages are taken from the free ones or from the end of the
    file, and no other page in use changes.
    Missing: shrinking, more table pages, the newer formats. *)
Theorem C23_grow_partial cached ps slack st fl fb stk n len tabs dp R o nlen : (32 <= ps)%nat -> stored ps F80 st n len tabs dp -> good ps st -> free_list ps st fl fb stk ->
  apart st fb stk (pages_of n tabs dp ++ R) -> opened F80 (set_cached o None) n len tabs dp -> (len < nlen)%nat -> Z.of_nat nlen < 2^32 -> (4 * ntab80 ps nlen <= 1018)%nat ->
  3 * Z.of_nat (ntab80 ps nlen) <= slack -> zlen st + 2 * Z.of_nat (groups nlen ps) < 2^32 ->
  exists st' fl' o' stk' new tabs' dp', set_len slack cached (Z.of_nat ps) st fl o (Z.of_nat nlen) = Ok (st', fl', o') /\
    stored ps F80 st' n nlen (tabs ++ tabs') (dp ++ dp') /\ good ps st' /\ opened F80 o' n nlen (tabs ++ tabs') (dp ++ dp') /\
    takes (length tabs' + length dp') (stk, zlen st) = ((stk', zlen st'), new) /\
    free_list ps st' fl' fb stk' /\ apart st' fb stk' (pages_of n (tabs ++ tabs') (dp ++ dp') ++ R) /\
    firstn len (content st' (dp ++ dp') nlen) = content st dp len /\ (forall m, In m R -> page st' m = page st m).
Proof. intros H. exact (grow_len_ok cached ps H slack st fl fb stk n len tabs dp R o nlen). Qed.
Print Assumptions C23_grow_partial.
Example C23_grow_case : exists st fl fb n tabs dp o, stored p4096 F80 st n 100 tabs dp /\ good p4096 st /\ free_list p4096 st fl fb [] /\
  apart st fb [] (pages_of n tabs dp ++ []) /\ opened F80 (set_cached o None) n 100 tabs dp /\ (4 * ntab80 p4096 4500 <= 1018)%nat /\ zlen st + 2 * Z.of_nat (groups 4500 p4096) < 2^32.
Proof.
  destruct (made_4096 1 100) as (st & fl & fb & n & tabs & dp & o & A1 & A2 & A3 & A4 & A5 & _ & _ & A6 & _); [lia|lia|]. exists st, fl, fb, n, tabs, dp, o. rewrite app_nil_r.
  repeat (split; [assumption|]). assert (E : groups 4500 p4096 = 2%nat) by (symmetry; apply groups_unique; pose proof p4096_Z; lia). unfold ntab80. rewrite E.
  assert (E2 : groups 2 per80 = 1%nat) by (symmetry; apply groups_unique; pose proof per80_Z; lia). rewrite E2. lia.
Qed.

(** C24 is false: deleting an empty object releases no page; deleting one with more than one
    table page releases its header page once for each, so that it is then handed out twice *)
Theorem C24_empty_refuted slack cached ps st fl fb stk n tabs dp R o : (32 <= ps)%nat -> stored ps F80 st n 0 tabs dp -> good ps st -> free_list ps st fl fb stk -> apart st fb stk (pages_of n tabs dp ++ R) ->
  opened F80 (set_cached o None) n 0 tabs dp -> n <> 2 ->
  exists fl', delete_object slack cached (Z.of_nat ps) st fl o = Ok (st, fl') /\ free_list ps st fl' fb stk /\ ~ In n stk.
Proof. intros H. exact (delete_empty slack cached ps H st fl fb stk n tabs dp R o). Qed.
Print Assumptions C24_empty_refuted.
Example C24_empty_case : exists st fl fb n o, stored p4096 F80 st n 0 [] [] /\ good p4096 st /\ free_list p4096 st fl fb [] /\ apart st fb [] (pages_of n [] [] ++ []) /\ opened F80 (set_cached o None) n 0 [] [] /\ n <> 2.
Proof.
  destruct (base_ok p4096 1 p4096_Z ltac:(lia)) as (G & F & A & Z0). destruct (new_obj_ok (fun _ => true) p4096 _ _ _ _ _ G F A ltac:(lia)) as (st & fl & o & n & stk & _ & T & S1 & O1 & G1 & F1 & A1 & _).
  rewrite take_nil in T. assert (n = zlen (base p4096 1)) by congruence. assert (stk = []) by congruence. subst stk. exists st, fl, (zseq 2 1), n, o. repeat (split; [assumption|]). split; [|lia].
  destruct O1 as (P1 & P2 & P3). split; [exact P1|]. split; [reflexivity|exact P3].
Qed.
Theorem C24_double_refuted slack cached ps st fl fb stk n len tabs dp R o : (32 <= ps)%nat -> stored ps F80 st n len tabs dp -> good ps st -> free_list ps st fl fb stk -> apart st fb stk (pages_of n tabs dp ++ R) ->
  opened F80 (set_cached o None) n len tabs dp -> n <> 2 -> zlen stk + zlen dp + 2 * zlen tabs <= 1024 * zlen fb -> (per80 * ps < len)%nat -> forall c1 c2,
  exists st1 fl1 st2 fl2 st3 fl3, delete_object slack cached (Z.of_nat ps) st fl o = Ok (st1, fl1) /\ pop_free c1 (Z.of_nat ps) st1 fl1 = Ok (st2, fl2, n) /\ pop_free c2 (Z.of_nat ps) st2 fl2 = Ok (st3, fl3, n).
Proof. intros H. exact (delete_many slack cached ps H st fl fb stk n len tabs dp R o). Qed.
Print Assumptions C24_double_refuted.
Example C24_double_case : exists len st fl fb n tabs dp o, stored p4096 F80 st n len tabs dp /\ good p4096 st /\ free_list p4096 st fl fb [] /\ apart st fb [] (pages_of n tabs dp ++ []) /\ opened F80 (set_cached o None) n len tabs dp /\
  n <> 2 /\ zlen (@nil Z) + zlen dp + 2 * zlen tabs <= 1024 * zlen fb /\ (per80 * p4096 < len)%nat.
Proof.
  destruct (made_4096 2 (Z.to_nat 4500000)) as (st & fl & fb & n & tabs & dp & o & A1 & A2 & A3 & A4 & A5 & A6 & A7 & A8 & A9 & A10); [lia|lia|]. exists (Z.to_nat 4500000), st, fl, fb, n, tabs, dp, o. rewrite app_nil_r.
  repeat (split; [assumption|]). rewrite Z2Nat.id in A9, A10 by lia. change ((4500000 + 4095) / 4096) with 1099 in *. change ((1099 + 1022) / 1023) with 2 in *. change (zlen (@nil Z)) with 0. split; [lia|]. split; [lia|]. pose proof p4096_Z. pose proof per80_Z. nia.
Qed.
(** what holds: deleting an object of the older format with one table page (up to 1023 data
    pages) makes exactly its pages free, each once; the other pages in use keep their bytes.
    Missing: other sizes (refuted above), a list of free pages without room (C67), the newer formats. *)
Theorem C24_delete_partial slack cached ps st fl fb stk n len tabs dp R o : (32 <= ps)%nat -> stored ps F80 st n len tabs dp -> good ps st -> free_list ps st fl fb stk -> apart st fb stk (pages_of n tabs dp ++ R) ->
  opened F80 (set_cached o None) n len tabs dp -> n <> 2 -> (0 < len <= per80 * ps)%nat -> zlen stk + zlen (pages_of n tabs dp) <= 1024 * zlen fb ->
  exists st' fl' stk', delete_object slack cached (Z.of_nat ps) st fl o = Ok (st', fl') /\ good ps st' /\ free_list ps st' fl' fb stk' /\ Permutation stk' (stk ++ pages_of n tabs dp) /\ apart st' fb stk' R /\
    zlen st' = zlen st /\ (forall m, In m R -> page st' m = page st m).
Proof. intros H. exact (delete_one slack cached ps H st fl fb stk n len tabs dp R o). Qed.
Print Assumptions C24_delete_partial.
Example C24_delete_case : exists st fl fb n tabs dp o, stored p4096 F80 st n 4500 tabs dp /\ good p4096 st /\ free_list p4096 st fl fb [] /\ apart st fb [] (pages_of n tabs dp ++ []) /\ opened F80 (set_cached o None) n 4500 tabs dp /\
  n <> 2 /\ (0 < 4500 <= per80 * p4096)%nat /\ zlen (@nil Z) + zlen (pages_of n tabs dp) <= 1024 * zlen fb.
Proof.
  destruct (made_4096 1 4500) as (st & fl & fb & n & tabs & dp & o & A1 & A2 & A3 & A4 & A5 & A6 & A7 & A8 & A9 & A10); [lia|lia|]. exists st, fl, fb, n, tabs, dp, o. rewrite app_nil_r.
  repeat (split; [assumption|]). change (Z.of_nat 4500) with 4500 in *. change ((4500 + 4095) / 4096) with 2 in *. change ((2 + 1022) / 1023) with 1 in *. change (zlen (@nil Z)) with 0. unfold pages_of. rewrite zlen_cons, zlen_app. split; [lia|]. split; [pose proof p4096_Z; pose proof per80_Z; nia|lia].
Qed.

(** C65: any history of releasing and taking pages gives the pages that a stack gives, with
    new pages at the end of the file when it is empty; the list can be read again from the
    file at any time; only page 0, page 1 and the pages of the list change *)
Theorem C65_free_pages slack ps xs st fl fb stk : (32 <= ps)%nat -> good ps st -> free_list ps st fl fb stk -> zlen st + zlen xs < 2^32 -> within (1024 * zlen fb) (stk, zlen st) xs ->
  exists st' fl' o, fexecs slack (Z.of_nat ps) (st, fl) xs = Ok ((st', fl'), snd (fplains (stk, zlen st) xs)) /\ good ps st' /\
    zlen st' = snd (fst (fplains (stk, zlen st) xs)) /\
    obj_open (Z.of_nat ps) false st' 1 = Ok o /\ free_list ps st' o fb (fst (fst (fplains (stk, zlen st) xs))) /\
    (forall m, 1 < m < zlen st -> ~ In m fb -> page st' m = page st m).
Proof.
  intros H A B C D. destruct (fexecs_ok slack ps H xs st fl fb stk A B C D) as (st' & fl' & E & G & F & L & O & _). destruct (free_reopen ps H st' fl' fb _ G F) as (o & Eo & Fo).
  exists st', fl', o. auto 6.
Qed.
Print Assumptions C65_free_pages.
(** in such a history no page is handed out that is still held *)
Theorem C65_no_page_twice xs s U : NoDup (fst s ++ U) -> Forall (fun b => b < snd s) (fst s ++ U) -> held s U xs -> new_only s U xs.
Proof. exact (no_double xs s U). Qed.
Print Assumptions C65_no_page_twice.
Example C65_case : good p4096 (base p4096 1) /\ free_list p4096 (base p4096 1) (base_free 1) [2] [] /\ within (1024 * 1) ([], 3) ex_hist /\ held ([], 3) [] ex_hist /\ snd (fplains ([], 3) ex_hist) = [3; 4; 3; 4; 5].
Proof. destruct (base_ok p4096 1 p4096_Z ltac:(lia)) as (G & F & A & Z0). split; [exact G|]. split; [exact F|]. split; [cbn; lia|]. split; [cbn; tauto|reflexivity]. Qed.

(** C66: replacing the contents of an object of any format by data of the same length stores
    exactly that data and changes no other page (objects of the older format whose last table
    page lists a single data page: see C69) *)
Theorem C66_replace slack cached ps f st fl o n len tabs dp D : stored ps f st n len tabs dp -> good ps st -> NoDup (pages_of n tabs dp) -> f <> FFree ->
  opened f (set_cached o None) n len tabs dp -> bytes_ok D -> length D = len -> (f = F838_deep -> (0 < len)%nat) -> ~ (f = F80 /\ lone_page F80 ps len) ->
  exists st' o', put_all slack cached (Z.of_nat ps) false st fl o D = Ok (st', fl, o') /\ stored ps f st' n len tabs dp /\ opened f o' n len tabs dp /\ good ps st' /\ zlen st' = zlen st /\
    content st' dp len = D /\ (forall m, 0 <= m -> m <> n -> ~ In m dp -> page st' m = page st m).
Proof. exact (whole_put slack cached ps f st fl o n len tabs dp D). Qed.
Print Assumptions C66_replace.
Example C66_case : stored 64 F838_flat ex838 2 60 [] [3] /\ good 64 ex838 /\ NoDup (pages_of 2 [] [3]) /\
  match obj_open 64 true ex838 2, obj_open 64 true ex838 1 with
  | Ok o, Ok fl => match put_all 0 (fun _ => true) 64 false ex838 fl o (repeat 5 60) with Ok (st, _, _) => content st [3] 60 = repeat 5 60 /\ page st 3 = repeat 5 60 ++ repeat 7 4 | _ => False end
  | _, _ => False
  end.
Proof. split; [apply ex838_stored|]. split; [apply ex838_stored|]. split; [repeat constructor; cbn; intuition lia|vm_compute; auto]. Qed.

(** C69 is false: in that case the last page keeps its old bytes *)
Theorem C69_last_page_kept_refuted slack cached ps st fl o n len tabs dp D : stored ps F80 st n len tabs dp -> good ps st -> NoDup (pages_of n tabs dp) ->
  opened F80 (set_cached o None) n len tabs dp -> bytes_ok D -> length D = len -> lone_page F80 ps len ->
  exists st' o', put_all slack cached (Z.of_nat ps) false st fl o D = Ok (st', fl, o') /\ stored ps F80 st' n len tabs dp /\
    exists c, (c < len <= c + ps)%nat /\ content st' dp len = firstn c D ++ skipn c (content st dp len).
Proof. exact (whole_put_lone slack cached ps st fl o n len tabs dp D). Qed.
Print Assumptions C69_last_page_kept_refuted.
Example C69_case : exists ps st n len tabs dp, stored ps F80 st n len tabs dp /\ NoDup (pages_of n tabs dp) /\ lone_page F80 ps len.
Proof. exact lone_object. Qed.

(** C67 is false: a page released when the pages of the list are full; in the newer format
    every first release replaces the first page number of the list by a count *)
Theorem C67_full_refuted cached ps st fl fb stk v : (32 <= ps)%nat -> good ps st -> free_list ps st fl fb stk -> zlen stk = 1024 * zlen fb -> forall r, push_free 0 cached (Z.of_nat ps) st fl v <> Ok r.
Proof. intros H. exact (push_full cached ps H st fl fb stk v). Qed.
Print Assumptions C67_full_refuted.
Example C67_full_case : good p4096 (base p4096 0) /\ free_list p4096 (base p4096 0) (base_free 0) [] [] /\ zlen (@nil Z) = 1024 * zlen (@nil Z).
Proof. destruct (base_ok p4096 0 p4096_Z ltac:(lia)) as (G & F & A & Z0). auto. Qed.
Theorem C67_newer_refuted slack cached ps st fl b rest v : good ps st -> (32 <= ps)%nat -> o_block fl = 1 -> o_len fl = 0 -> o_real fl = zlen (b :: rest) -> o_blocks fl = b :: rest -> 1 < b < zlen st ->
  exists st' fl', push_free slack cached (Z.of_nat ps) st fl v = Ok (st', fl') /\ num_at (page st' 1) 8 1.
Proof. exact (push_newer slack cached ps st fl b rest v). Qed.
Print Assumptions C67_newer_refuted.
Example C67_newer_case : let st := [repeat 9 64; pad 64 ([28; 255; 0; 0; 0; 0; 0; 0] ++ enc [3]); repeat 0 64; repeat 7 64] in
  match obj_open 64 true st 1 with
  | Ok fl => o_block fl = 1 /\ o_len fl = 0 /\ o_real fl = 1 /\ o_blocks fl = [3] /\
      match push_free 0 (fun _ => true) 64 st fl 2 with Ok (st', _) => match obj_open 64 true st' 1 with Ok fl' => o_blocks fl' = [1] | _ => False end | _ => False end
  | _ => False
  end.
Proof. vm_compute. auto 6. Qed.

(** C68: a new object of the older format is empty, stored at a page that was free (or new at
    the end of the file), and changes no page in use *)
Theorem C68_new_object cached ps st fl fb stk U : good ps st -> free_list ps st fl fb stk -> apart st fb stk U -> zlen st + 1 < 2^32 ->
  exists st' fl' o n stk', new_obj cached (Z.of_nat ps) false st fl = Ok (st', fl', o) /\ take (stk, zlen st) = ((stk', zlen st'), n) /\
    stored ps F80 st' n 0 [] [] /\ opened F80 o n 0 [] [] /\ good ps st' /\ free_list ps st' fl' fb stk' /\ apart st' fb stk' (n :: U) /\ (forall m, In m U -> page st' m = page st m).
Proof. exact (new_obj_ok cached ps st fl fb stk U). Qed.
Print Assumptions C68_new_object.
Example C68_case : good p4096 (base p4096 1) /\ free_list p4096 (base p4096 1) (base_free 1) [2] [] /\ apart (base p4096 1) [2] [] [].
Proof. destruct (base_ok p4096 1 p4096_Z ltac:(lia)) as (G & F & A & Z0). auto. Qed.
