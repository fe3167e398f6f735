(** Proofs about times. *)
From Verif Require Import Prelude Bcd_Model Bcd_Spec Bcd_Proofs Time_Model Time_Spec.

(** ** The calendar *)
Lemma divides_mod a y : 0 < a -> (a | y) <-> y mod a = 0.
Proof. intros H. split; intros Q; [apply Z.mod_divide; [lia|exact Q]|apply Z.mod_divide; [lia|exact Q]]. Qed.
Lemma leap_spec y : leap_year y <-> is_leap y = true.
Proof.
  unfold leap_year, is_leap. rewrite !divides_mod by lia. rewrite andb_true_iff, orb_true_iff, negb_true_iff, Z.eqb_eq, Z.eqb_eq, Z.eqb_neq. reflexivity.
Qed.
(** days before 1 January *)
Definition year_days (y : Z) : Z := 365 * (y - 1) + (y - 1) / 4 - (y - 1) / 100 + (y - 1) / 400.
Definition month_days (y m : Z) : Z := month_start (m - 1) + (if is_leap y && (2 <? m) then 1 else 0).
Lemma year_next y : year_days (y + 1) = year_days y + 365 + (if is_leap y then 1 else 0).
Proof.
  unfold year_days, is_leap. replace (y + 1 - 1) with y by lia. destruct ((y mod 4 =? 0) && (negb (y mod 100 =? 0) || (y mod 400 =? 0))) eqn:E; lia.
Qed.
Lemma month_cases m : 1 <= m <= 12 -> m = 1 \/ m = 2 \/ m = 3 \/ m = 4 \/ m = 5 \/ m = 6 \/ m = 7 \/ m = 8 \/ m = 9 \/ m = 10 \/ m = 11 \/ m = 12.
Proof. lia. Qed.
Lemma month_next y m k : 1 <= m < 12 -> month_length y m k -> month_days y (m + 1) = month_days y m + k.
Proof.
  intros Hm H. unfold month_length in H. assert (HL := leap_spec y). unfold month_days.
  destruct (month_cases m ltac:(lia)) as [-> |[-> |[-> |[-> |[-> |[-> |[-> |[-> |[-> |[-> |[-> | ->]]]]]]]]]]]; try lia;
  cbn [In] in H; destruct H as [(H & ->)|[(H & ->)|[(H & L & ->)|(H & L & ->)]]]; try lia; destruct (is_leap y) eqn:E; try reflexivity; exfalso; [intuition discriminate|intuition].
Qed.
Lemma day_value y m d n : day_number y m d n -> 1 <= y /\ 1 <= m <= 12 /\ 1 <= d /\ n = year_days y + month_days y m + d - 1.
Proof.
  induction 1 as [|y m d n _ IH|y m n k _ IH HM HL|y n _ IH].
  - repeat split; lia.
  - lia.
  - pose proof (month_next y m k ltac:(lia) HM) as Q. rewrite Q. lia.
  - destruct IH as (I1 & I2 & I3 & ->). rewrite year_next. unfold month_days. change (month_start (12 - 1)) with 334. change (month_start (1 - 1)) with 0. change (2 <? 12) with true. change (2 <? 1) with false. rewrite andb_true_r, andb_false_r. split; [lia|]. split; [lia|]. split; [lia|]. destruct (is_leap y); lia.
Qed.
Lemma month_len_ex y m : 1 <= m <= 12 -> exists k, month_length y m k /\ 28 <= k <= 31.
Proof.
  intros H. unfold month_length. destruct (is_leap y) eqn:E.
  - assert (leap_year y) by now apply leap_spec. destruct (month_cases m H) as [-> |[-> |[-> |[-> |[-> |[-> |[-> |[-> |[-> |[-> |[-> | ->]]]]]]]]]]]; eexists; (split; [|]); cbn [In]; first [left; split; [tauto|reflexivity]|right; left; split; [tauto|reflexivity]|right; right; left; auto|lia].
  - assert (~ leap_year y) by (rewrite leap_spec; congruence). destruct (month_cases m H) as [-> |[-> |[-> |[-> |[-> |[-> |[-> |[-> |[-> |[-> |[-> | ->]]]]]]]]]]]; eexists; (split; [|]); cbn [In]; first [left; split; [tauto|reflexivity]|right; left; split; [tauto|reflexivity]|right; right; right; auto|lia].
Qed.
Lemma month_ex y n0 : day_number y 1 1 n0 -> forall k, (k < 12)%nat -> exists n, day_number y (1 + Z.of_nat k) 1 n.
Proof.
  intros H0. induction k as [|k IH]; intros Hk; [exists n0; exact H0|]. destruct (IH ltac:(lia)) as (n & Hn). destruct (month_len_ex y (1 + Z.of_nat k) ltac:(lia)) as (l & Hl & _).
  exists (n + l). replace (1 + Z.of_nat (S k)) with (1 + Z.of_nat k + 1) by lia. apply dn_month; [exact Hn|exact Hl|lia].
Qed.
Lemma year_ex k : exists n, day_number (1 + Z.of_nat k) 1 1 n.
Proof.
  induction k as [|k (n & IH)]; [exists 0; exact dn_first|]. destruct (month_ex _ _ IH 11 ltac:(lia)) as (n2 & H). exists (n2 + 31). replace (1 + Z.of_nat (S k)) with (1 + Z.of_nat k + 1) by lia. apply dn_year. exact H.
Qed.
Lemma day_ex y m d : 1 <= y -> 1 <= m <= 12 -> 1 <= d -> exists n, day_number y m d n.
Proof.
  intros Hy Hm Hd. destruct (year_ex (Z.to_nat (y - 1))) as (n & H). replace (1 + Z.of_nat (Z.to_nat (y - 1))) with y in H by lia.
  destruct (month_ex _ _ H (Z.to_nat (m - 1)) ltac:(lia)) as (n2 & H2). replace (1 + Z.of_nat (Z.to_nat (m - 1))) with m in H2 by lia.
  assert (Q : forall k, exists n, day_number y m (1 + Z.of_nat k) n).
  { induction k as [|k (n3 & IH)]; [exists n2; exact H2|]. exists (n3 + 1). replace (1 + Z.of_nat (S k)) with (1 + Z.of_nat k + 1) by lia. now apply dn_day. }
  destruct (Q (Z.to_nat (d - 1))) as (n3 & H3). replace (1 + Z.of_nat (Z.to_nat (d - 1))) with d in H3 by lia. exists n3. exact H3.
Qed.
Lemma begins_year y e : begins y e -> e = 86400 * year_days y.
Proof. intros (n & H & ->). cbn [d_year d_month d_day d_hour d_min d_sec] in *. apply day_value in H. destruct H as (_ & _ & _ & ->). unfold month_days. change (2 <? 1) with false. rewrite andb_false_r. change (month_start (1 - 1)) with 0. lia. Qed.
Lemma begins_1970 e : begins 1970 e -> e = 62135596800.
Proof. intros H. apply begins_year in H. rewrite H. reflexivity. Qed.
Lemma begins_1601 e : begins 1601 e -> e = 50491123200.
Proof. intros H. apply begins_year in H. rewrite H. reflexivity. Qed.
Lemma valid_month d : valid d -> 1 <= d_month d <= 12 /\ 1 <= d_day d <= 31.
Proof.
  intros (_ & (n & H & D) & _). unfold month_length in H. cbn [In] in H. destruct H as [(H & ->)|[(H & ->)|[(H & _ & ->)|(H & _ & ->)]]]; lia.
Qed.
Lemma seconds_ok d s : valid d -> seconds d s -> timegm (d_year d) (d_month d - 1) (d_day d) (d_hour d) (d_min d) (d_sec d) = s - 62135596800.
Proof.
  intros V (n & H & ->). apply day_value in H. destruct H as (Hy & Hm & Hd & ->). unfold timegm.
  assert (E1 : (d_month d - 1) / 12 = 0) by (apply Z.div_small; lia). assert (E2 : (d_month d - 1) mod 12 = d_month d - 1) by (apply Z.mod_small; lia). rewrite E1, E2, Z.add_0_r.
  change (1969 / 4) with 492. change (1969 / 100) with 19. change (1969 / 400) with 4. unfold year_days, month_days.
  assert (E3 : (1 <? d_month d - 1) = (2 <? d_month d)) by lia. rewrite E3. set (l := if is_leap (d_year d) && (2 <? d_month d) then 1 else 0). set (a := month_start _).
  set (p := (d_year d - 1) / 4). set (q := (d_year d - 1) / 100). set (r := (d_year d - 1) / 400). clearbody l a p q r. lia.
Qed.
Lemma seconds_range d s : valid d -> 1971 <= d_year d <= 2105 -> seconds d s -> 31536000 <= s - 62135596800 < 4291833600.
Proof.
  intros V Y H. pose proof (valid_month d V) as (M & D). destruct V as (_ & _ & Vh & Vm & Vs). destruct H as (n & H & ->). apply day_value in H. destruct H as (_ & _ & _ & ->).
  assert (A : 719527 <= year_days (d_year d) <= 768470) by (unfold year_days; lia).
  assert (B : 0 <= month_days (d_year d) (d_month d) + d_day d - 1 <= 365).
  { unfold month_days. destruct (month_cases _ M) as [E |[E |[E |[E |[E |[E |[E |[E |[E |[E |[E | E]]]]]]]]]]]; rewrite E; match goal with |- context [month_start ?x] => let v := eval vm_compute in (month_start x) in change (month_start x) with v end; match goal with |- context [if ?b then 1 else 0] => destruct b end; lia. }
  lia.
Qed.

(** ** The bytes of a date *)
Lemma digits2_nibbles x : 0 <= x <= 99 -> digits2 x / 16 = x / 10 /\ digits2 x mod 16 = x mod 10.
Proof. unfold digits2. lia. Qed.
Lemma date_read d rest : valid d -> (3 <= length rest)%nat -> exists n, date_of_raw (date_bytes d ++ rest) = Ok n /\
  year_of n = d_year d /\ pair_at n 4 = d_month d /\ pair_at n 6 = d_day d /\ pair_at n 8 = d_hour d /\ pair_at n 10 = d_min d /\ pair_at n 12 = d_sec d.
Proof.
  intros V Hr. pose proof (valid_month d V) as (M & D). destruct V as (Vy & _ & Vh & Vm & Vs). destruct (date_of_raw_ok (date_bytes d) rest eq_refl Hr) as (tail & E). eexists. split; [exact E|].
  unfold year_of, pair_at. cbn [b_data]. unfold date_bytes, nibbles. cbn [flat_map app nth].
  destruct (digits2_nibbles (d_year d / 100) ltac:(lia)) as (-> & ->). destruct (digits2_nibbles (d_year d mod 100) ltac:(lia)) as (-> & ->).
  destruct (digits2_nibbles (d_month d) ltac:(lia)) as (-> & ->). destruct (digits2_nibbles (d_day d) ltac:(lia)) as (-> & ->). destruct (digits2_nibbles (d_hour d) ltac:(lia)) as (-> & ->).
  destruct (digits2_nibbles (d_min d) ltac:(lia)) as (-> & ->). destruct (digits2_nibbles (d_sec d) ltac:(lia)) as (-> & ->). lia.
Qed.
Lemma system_ok z d rest s : valid d -> (3 <= length rest)%nat -> seconds d s -> exists n, date_of_raw (date_bytes d ++ rest) = Ok n /\ system_to_file z n = unix_to_file (s - 62135596800 - z).
Proof.
  intros V Hr H. destruct (date_read d rest V Hr) as (n & E & E1 & E2 & E3 & E4 & E5 & E6). exists n. split; [exact E|]. unfold system_to_file, mktime. rewrite E1, E2, E3, E4, E5, E6, (seconds_ok d s V H). reflexivity.
Qed.

(** ** One conversion there and back *)
Lemma i64_small x : - 2 ^ 63 <= x < 2 ^ 63 -> i64 x = x.
Proof. intros H. unfold i64. rewrite Z.mod_small by lia. lia. Qed.
Lemma u32_small x : 0 <= x < 2 ^ 32 -> u32 x = x.
Proof. intros H. unfold u32. now apply Z.mod_small. Qed.
Lemma u32_range x : 0 <= u32 x < 2 ^ 32.
Proof. unfold u32. apply Z.mod_pos_bound. lia. Qed.
(** every conversion loses 134 days 18 hours 15 minutes 10 seconds *)
Lemma there_and_back t : 11643310 <= t < 2 ^ 32 -> file_to_unix Long32 (unix_to_file t) = Ok (t - 11643310).
Proof.
  intros H. unfold file_to_unix, unix_to_file. rewrite u32_small by lia. rewrite i64_small by lia. destruct (Z.ltb_spec (t * 10000000 + 11644473600 - 11644473600 * 10000) (- 2 ^ 63)); [lia|].
  rewrite Z.quot_div_nonneg by lia. f_equal. replace (t * 10000000 + 11644473600 - 11644473600 * 10000) with (8473600 + (t - 11643310) * 10000000) by lia. rewrite Z.div_add by lia. reflexivity.
Qed.
Definition zone_ok (z : Z) : Prop := -86400 <= z <= 86400.
Lemma stored_value z d rest s : zone_ok z -> valid d -> 1971 <= d_year d <= 2105 -> (3 <= length rest)%nat -> seconds d s ->
  time1cd_to_file Long32 z (date_bytes d ++ rest) = Ok (unix_to_file (s - 62135596800 - 11643310 - 2 * z)).
Proof.
  unfold zone_ok. intros Hz V Y R H. destruct (system_ok z d rest s V R H) as (n & E & E2). unfold time1cd_to_file. rewrite E. cbn [rbind]. rewrite E2.
  pose proof (seconds_range d s V Y H). unfold local_to_file. rewrite there_and_back by lia. cbn [rbind]. unfold mktime, gmtime. do 2 f_equal. lia.
Qed.
Lemma stored_wrong z d rest f : zone_ok z -> valid d -> 1971 <= d_year d <= 2105 -> (3 <= length rest)%nat -> file_time z d f ->
  exists g, time1cd_to_file Long32 z (date_bytes d ++ rest) = Ok g /\ f - g = 10000000 * (11644473600 + 11643310 + z) - 11644473600.
Proof.
  intros Hz V Y R (s & e & H & B & ->). eexists. split; [exact (stored_value z d rest s Hz V Y R H)|]. apply begins_1601 in B. subst e. pose proof (seconds_range d s V Y H). unfold zone_ok in Hz. unfold unix_to_file. rewrite u32_small by lia. lia.
Qed.
Lemma saved_value z d rest s : zone_ok z -> valid d -> 1971 <= d_year d <= 2105 -> (3 <= length rest)%nat -> seconds d s ->
  saved_time Long32 z (date_bytes d ++ rest) = Ok (10000 * (s - 62135596800 - 23286620 - 2 * z) + 11644473 + epoch_start).
Proof.
  intros Hz V Y R H. unfold saved_time. rewrite (stored_value z d rest s Hz V Y R H). cbn [rbind]. pose proof (seconds_range d s V Y H). unfold zone_ok in Hz. unfold v8_from_file, file_to_local. rewrite there_and_back by lia. cbn [rbind].
  unfold mktime, localtime, unix_to_file. rewrite u32_small by lia. rewrite i64_small by lia. rewrite Z.quot_div_nonneg by lia. do 2 f_equal.
  match goal with |- ?x / 1000 = _ => replace x with (600 + (10000 * (s - 62135596800 - 23286620 - 2 * z) + 11644473) * 1000) by lia end. rewrite Z.div_add by lia. reflexivity.
Qed.
Lemma saved_wrong z d rest v : zone_ok z -> valid d -> 1971 <= d_year d <= 2105 -> (3 <= length rest)%nat -> v8_time d v ->
  exists w, saved_time Long32 z (date_bytes d ++ rest) = Ok w /\ v - w = 10000 * (11644473600 + 23286620 + 2 * z) - 11644473.
Proof.
  intros Hz V Y R (s & H & ->). eexists. split; [exact (saved_value z d rest s Hz V Y R H)|]. unfold epoch_start. lia.
Qed.
Lemma saved_order z d1 d2 rest1 rest2 v1 v2 : zone_ok z -> valid d1 -> valid d2 -> 1971 <= d_year d1 <= 2105 -> 1971 <= d_year d2 <= 2105 -> (3 <= length rest1)%nat -> (3 <= length rest2)%nat -> v8_time d1 v1 -> v8_time d2 v2 ->
  exists w1 w2, saved_time Long32 z (date_bytes d1 ++ rest1) = Ok w1 /\ saved_time Long32 z (date_bytes d2 ++ rest2) = Ok w2 /\ w2 - w1 = v2 - v1.
Proof.
  intros Hz V1 V2 Y1 Y2 R1 R2 T1 T2. destruct (saved_wrong z d1 rest1 v1 Hz V1 Y1 R1 T1) as (w1 & E1 & H1). destruct (saved_wrong z d2 rest2 v2 Hz V2 Y2 R2 T2) as (w2 & E2 & H2). exists w1, w2. split; [exact E1|]. split; [exact E2|]. lia.
Qed.
(** ** Files taken out of a container *)
Lemma quot_near d : exists r, Z.quot d 10000000 * 10000000 = d - r /\ -10000000 < r < 10000000.
Proof. exists (Z.rem d 10000000). pose proof (Z.quot_rem' d 10000000). pose proof (Z.rem_bound_abs d 10000000 ltac:(lia)). lia. Qed.
Lemma disk_wrong z d v t : zone_ok z -> valid d -> v8_time d v -> posix_time z d t -> exists u, v8_to_disk Long32 z v = Ok u /\ u <> t.
Proof.
  intros Hz V (s & H & ->) (s' & e & H' & B & ->). assert (s' = s). { destruct H as (n & Hn & ->). destruct H' as (n' & Hn' & ->). apply day_value in Hn. apply day_value in Hn'. lia. } subst s'. apply begins_1970 in B. subst e.
  assert (SR : 0 <= s < 400000000000).
  { pose proof (valid_month d V) as (M & D). destruct V as (Vy & _ & Vh & Vm & Vs). destruct H as (n & H & ->). apply day_value in H. destruct H as (_ & _ & _ & ->).
    assert (A : 0 <= year_days (d_year d) <= 3660000) by (unfold year_days; lia).
    assert (Q : 0 <= month_days (d_year d) (d_month d) <= 340).
    { unfold month_days. destruct (month_cases _ M) as [E |[E |[E |[E |[E |[E |[E |[E |[E |[E |[E | E]]]]]]]]]]]; rewrite E; match goal with |- context [month_start ?x] => let v := eval vm_compute in (month_start x) in change (month_start x) with v end; match goal with |- context [if ?b then 1 else 0] => destruct b end; lia. }
    lia. }
  unfold zone_ok in Hz. unfold v8_to_disk, v8_to_file, epoch_start. cbv zeta. set (x := 10000 * s - 504911232000000). assert (X : -504911232000000 <= x < 4000000000000000) by lia.
  assert (G : (x <? - 2 ^ 63) || (x * 1000 <? - 2 ^ 63) || (2 ^ 63 <=? x * 1000) = false) by lia. rewrite G. assert (I : i64 (u64 (x * 1000)) = x * 1000).
  { unfold i64, u64. rewrite Zplus_mod_idemp_l. rewrite Z.mod_small by lia. lia. }
  assert (F1 : file_to_unix Long32 (u64 (x * 1000)) = Ok (Z.quot (x * 1000 - 11644473600 * 10000) 10000000)).
  { unfold file_to_unix. rewrite I. destruct (Z.ltb_spec (x * 1000 - 11644473600 * 10000) (- 2 ^ 63)); [lia|reflexivity]. }
  unfold local_to_file. rewrite F1. cbn [rbind]. destruct (quot_near (x * 1000 - 11644473600 * 10000)) as (r & Hq & Hr). set (q := Z.quot _ _) in *. unfold mktime, localtime, gmtime, unix_to_file.
  pose proof (u32_range (q - z)) as UR. assert (UQ : exists k, u32 (q - z) = q - z + k * 2 ^ 32). { unfold u32. exists (- ((q - z) / 2 ^ 32)). pose proof (Z.div_mod (q - z) (2 ^ 32) ltac:(lia)). lia. } destruct UQ as (k & UQ).
  unfold file_to_unix. rewrite i64_small by lia. destruct (Z.ltb_spec (u32 (q - z) * 10000000 + 11644473600 - 11644473600 * 10000) (- 2 ^ 63)); [lia|]. cbn [rbind].
  destruct (quot_near (u32 (q - z) * 10000000 + 11644473600 - 11644473600 * 10000)) as (r2 & Hq2 & Hr2). set (q2 := Z.quot (u32 (q - z) * 10000000 + 11644473600 - 11644473600 * 10000) _) in *. eexists. split; [reflexivity|]. intros F.
  clearbody q q2. clear - UQ Hq Hr Hq2 Hr2 F. subst x. rewrite UQ in Hq2. lia.
Qed.
(** ** Where long has 64 bits *)
Lemma high_half_lost pad f g : f mod 2 ^ 32 = g mod 2 ^ 32 -> file_to_unix (Long64 pad) f = file_to_unix (Long64 pad) g.
Proof. intros H. unfold file_to_unix. now rewrite H. Qed.
Lemma stored_alike pad z d1 d2 rest1 rest2 t1 t2 k : valid d1 -> valid d2 -> (3 <= length rest1)%nat -> (3 <= length rest2)%nat -> posix_time z d1 t1 -> posix_time z d2 t2 -> t2 = t1 + k * 2 ^ 25 ->
  time1cd_to_file (Long64 pad) z (date_bytes d1 ++ rest1) = time1cd_to_file (Long64 pad) z (date_bytes d2 ++ rest2).
Proof.
  intros V1 V2 R1 R2 (s1 & e1 & H1 & B1 & ->) (s2 & e2 & H2 & B2 & ->) E. apply begins_1970 in B1. apply begins_1970 in B2. subst e1 e2.
  destruct (system_ok z d1 rest1 s1 V1 R1 H1) as (n1 & E1 & F1). destruct (system_ok z d2 rest2 s2 V2 R2 H2) as (n2 & E2 & F2). unfold time1cd_to_file. rewrite E1, E2. cbn [rbind]. unfold local_to_file. rewrite F1, F2, E. rewrite (high_half_lost pad _ (unix_to_file (s1 - 62135596800 - z + k * 2 ^ 25))); [reflexivity|].
  unfold unix_to_file, u32. set (t := s1 - 62135596800 - z). rewrite (Z.add_mod (t mod 2 ^ 32 * 10000000)) by lia. rewrite (Z.add_mod ((t + k * 2 ^ 25) mod 2 ^ 32 * 10000000)) by lia. f_equal. f_equal.
  rewrite !Z.mul_mod_idemp_l by lia. replace ((t + k * 2 ^ 25) * 10000000) with (t * 10000000 + (k * 78125) * 2 ^ 32) by lia. now rewrite Z.mod_add by lia.
Qed.
(** ** Times 136 years apart *)
Lemma stored_wrap a z d1 d2 rest1 rest2 t1 t2 k : valid d1 -> valid d2 -> (3 <= length rest1)%nat -> (3 <= length rest2)%nat -> posix_time z d1 t1 -> posix_time z d2 t2 -> t2 = t1 + k * 2 ^ 32 ->
  time1cd_to_file a z (date_bytes d1 ++ rest1) = time1cd_to_file a z (date_bytes d2 ++ rest2).
Proof.
  intros V1 V2 R1 R2 (s1 & e1 & H1 & B1 & ->) (s2 & e2 & H2 & B2 & ->) E. apply begins_1970 in B1. apply begins_1970 in B2. subst e1 e2.
  destruct (system_ok z d1 rest1 s1 V1 R1 H1) as (n1 & E1 & F1). destruct (system_ok z d2 rest2 s2 V2 R2 H2) as (n2 & E2 & F2). unfold time1cd_to_file. rewrite E1, E2. cbn [rbind]. rewrite F1, F2, E. unfold unix_to_file, u32. now rewrite Z.mod_add by lia.
Qed.
(** for the examples *)
Lemma seconds_of d : 1 <= d_year d -> 1 <= d_month d <= 12 -> 1 <= d_day d ->
  seconds d (86400 * (year_days (d_year d) + month_days (d_year d) (d_month d) + d_day d - 1) + 3600 * d_hour d + 60 * d_min d + d_sec d).
Proof. intros Y M D. destruct (day_ex _ _ _ Y M D) as (n & H). exists n. split; [exact H|]. apply day_value in H. destruct H as (_ & _ & _ & <-). reflexivity. Qed.
