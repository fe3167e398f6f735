(** Property theorems about the times of files (C198). *)
From Verif Require Import Prelude Bcd_Spec Time_Model Time_Spec Time_Proofs.

(** C198, where long has 32 bits: the time computed from the date of a stored file is wrong for every date from 1971
    to 2105, by the same 369 years, 134 days 18:15:10 and the zone once more *)
Theorem C198_stored_refuted : forall z d rest f, -86400 <= z <= 86400 -> valid d -> 1971 <= d_year d <= 2105 -> (3 <= length rest)%nat -> file_time z d f ->
  exists g, time1cd_to_file Long32 z (date_bytes d ++ rest) = Ok g /\ f - g = 10000000 * (11644473600 + 11643310 + z) - 11644473600 /\ g <> f.
Proof.
  intros z d rest f Hz V Y R F. destruct (stored_wrong z d rest f Hz V Y R F) as (g & E & D). exists g. split; [exact E|]. split; [exact D|]. lia.
Qed.
Print Assumptions C198_stored_refuted.
(** C198: so is the time a file has in a saved container *)
Theorem C198_saved_refuted : forall z d rest v, -86400 <= z <= 86400 -> valid d -> 1971 <= d_year d <= 2105 -> (3 <= length rest)%nat -> v8_time d v ->
  exists w, saved_time Long32 z (date_bytes d ++ rest) = Ok w /\ v - w = 10000 * (11644473600 + 23286620 + 2 * z) - 11644473 /\ w <> v.
Proof.
  intros z d rest v Hz V Y R F. destruct (saved_wrong z d rest v Hz V Y R F) as (w & E & D). exists w. split; [exact E|]. split; [exact D|]. lia.
Qed.
Print Assumptions C198_saved_refuted.
(** C198: a file taken out of a container never gets the time it has there *)
Theorem C198_unpacked_refuted : forall z d v t, -86400 <= z <= 86400 -> valid d -> v8_time d v -> posix_time z d t -> exists u, v8_to_disk Long32 z v = Ok u /\ u <> t.
Proof. exact disk_wrong. Qed.
Print Assumptions C198_unpacked_refuted.
(** C198: times 2^32 seconds apart are stored alike *)
Theorem C198_century_refuted : forall a z d1 d2 rest1 rest2 t1 t2 k, valid d1 -> valid d2 -> (3 <= length rest1)%nat -> (3 <= length rest2)%nat ->
  posix_time z d1 t1 -> posix_time z d2 t2 -> t2 = t1 + k * 2 ^ 32 ->
  time1cd_to_file a z (date_bytes d1 ++ rest1) = time1cd_to_file a z (date_bytes d2 ++ rest2).
Proof. exact stored_wrap. Qed.
Print Assumptions C198_century_refuted.
(** C198: where long has 64 bits, times 2^25 seconds (388 days) apart are stored alike, whatever the bytes are that are
    read without having been written *)
Theorem C198_high_half_refuted : forall pad z d1 d2 rest1 rest2 t1 t2 k, valid d1 -> valid d2 -> (3 <= length rest1)%nat -> (3 <= length rest2)%nat ->
  posix_time z d1 t1 -> posix_time z d2 t2 -> t2 = t1 + k * 2 ^ 25 ->
  time1cd_to_file (Long64 pad) z (date_bytes d1 ++ rest1) = time1cd_to_file (Long64 pad) z (date_bytes d2 ++ rest2).
Proof. exact stored_alike. Qed.
Print Assumptions C198_high_half_refuted.
(** C198: where long has 32 bits, at least the distances between the times in a saved container are right *)
Theorem C198_distance_partial : forall z d1 d2 rest1 rest2 v1 v2, -86400 <= z <= 86400 -> valid d1 -> valid d2 -> 1971 <= d_year d1 <= 2105 -> 1971 <= d_year d2 <= 2105 ->
  (3 <= length rest1)%nat -> (3 <= length rest2)%nat -> v8_time d1 v1 -> v8_time d2 v2 ->
  exists w1 w2, saved_time Long32 z (date_bytes d1 ++ rest1) = Ok w1 /\ saved_time Long32 z (date_bytes d2 ++ rest2) = Ok w2 /\ w2 - w1 = v2 - v1.
Proof. exact saved_order. Qed.
Print Assumptions C198_distance_partial.

(** 6 May 2018, 07:08:09, and the same hour 2^25 seconds and 2^32 seconds later *)
Definition ex_a := DT 2018 5 6 7 8 9.
Definition ex_b := DT 2019 5 29 15 48 41.
Definition ex_leap := DT 2000 2 29 23 59 59.
Definition ex_c := DT 1968 2 1 0 0 0.
Definition ex_d := DT 2104 3 9 6 28 16.
Lemma ex_month d n : (In (d_month d) [1; 3; 5; 7; 8; 10; 12] /\ n = 31) -> 1 <= d_day d <= n -> 1 <= d_year d <= 9999 -> 0 <= d_hour d < 24 -> 0 <= d_min d < 60 -> 0 <= d_sec d < 60 -> valid d.
Proof. intros H D Y H1 H2 H3. split; [exact Y|]. split; [exists n; split; [left; exact H|exact D]|auto]. Qed.
Lemma ex_sec d s : 1 <= d_year d -> 1 <= d_month d <= 12 -> 1 <= d_day d -> s = 86400 * (year_days (d_year d) + month_days (d_year d) (d_month d) + d_day d - 1) + 3600 * d_hour d + 60 * d_min d + d_sec d -> seconds d s.
Proof. intros A B C ->. now apply seconds_of. Qed.
Ltac sec := apply ex_sec; [vm_compute; discriminate|split; vm_compute; discriminate|vm_compute; discriminate|vm_compute; reflexivity].
Ltac ok := eapply ex_month; [split; [vm_compute; tauto|reflexivity]|split; vm_compute; discriminate|split; vm_compute; discriminate|split; [vm_compute; discriminate|reflexivity]..].
Lemma ex_valid : valid ex_a /\ valid ex_b /\ valid ex_leap /\ valid ex_d.
Proof.
  split; [ok|]. split; [ok|]. split; [|ok]. split; [split; vm_compute; discriminate|]. split; [exists 29; split; [right; right; left; split; [reflexivity|]; split; [apply leap_spec; reflexivity|reflexivity]|split; vm_compute; discriminate]|]. split; [split; [vm_compute; discriminate|reflexivity]|]. split; split; vm_compute; try discriminate; reflexivity.
Qed.
Example C198_nonvacuous : v8_time ex_a 636611872890000 /\ posix_time 10800 ex_a 1525579689 /\ posix_time 10800 ex_b (1525579689 + 1 * 2 ^ 25) /\ file_time 10800 ex_a 131700532890000000 /\ v8_time ex_leap 630874655990000 /\
  date_bytes ex_a = [0x20; 0x18; 5; 6; 7; 8; 9] /\
  time1cd_to_file Long32 10800 (date_bytes ex_a ++ [0; 0; 0]) = Ok (131700532890000000 - (10000000 * (11644473600 + 11643310 + 10800) - 11644473600)) /\
  v8_to_disk Long32 10800 636611872890000 = Ok 261863617.
Proof.
  split; [eexists; split; [sec|reflexivity]|]. split; [exists 63661187289, 62135596800; split; [sec|]; split; [sec|reflexivity]|]. split; [exists 63694741721, 62135596800; split; [sec|]; split; [sec|reflexivity]|].
  split; [exists 63661187289, 50491123200; split; [sec|]; split; [sec|reflexivity]|]. split; [eexists; split; [sec|reflexivity]|]. vm_compute. auto.
Qed.
(** 1 February 1968 and 9 March 2104: saved as the same time *)
Example C198_century_case : valid ex_c /\ posix_time 0 ex_c (-60480000) /\ posix_time 0 ex_d (-60480000 + 1 * 2 ^ 32) /\
  time1cd_to_file Long32 0 (date_bytes ex_c ++ [0; 0; 0]) = time1cd_to_file Long32 0 (date_bytes ex_d ++ [0; 0; 0]).
Proof.
  split.
  { split; [split; vm_compute; discriminate|]. split; [exists 29; split; [right; right; left; split; [reflexivity|]; split; [apply leap_spec; reflexivity|reflexivity]|split; vm_compute; discriminate]|]. split; [split; [vm_compute; discriminate|reflexivity]|]. split; split; vm_compute; try discriminate; reflexivity. }
  split; [exists 62075116800, 62135596800; split; [sec|]; split; [sec|reflexivity]|]. split; [exists 66370084096, 62135596800; split; [sec|]; split; [sec|reflexivity]|]. vm_compute. reflexivity.
Qed.
