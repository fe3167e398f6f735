(** Times of files: dates of the database, FILETIME, times of containers and of files on disk.
    Sources: /repo/src/tool1cd/Common.cpp:38-51, SystemClasses/System.cpp:39-128, System.hpp:32-72,
    cfapi/V8Time.cpp, BinaryDecimalNumber.cpp:253-284.
    Simplified: the time zone is a difference to UTC in seconds that never changes (no daylight saving time). *)
From Verif Require Import Prelude Bcd_Model.

Definition i64 (x : Z) : Z := (x + 2 ^ 63) mod 2 ^ 64 - 2 ^ 63.
(** ** The C library *)
(** seconds from 1970 to a broken-down time (POSIX, Seconds Since the Epoch); mktime first brings the month into its
    range.  All years of a uint16_t can be represented *)
Definition month_start (m : Z) : Z := nth (Z.to_nat m) [0; 31; 59; 90; 120; 151; 181; 212; 243; 273; 304; 334] 0.
Definition is_leap (y : Z) : bool := (y mod 4 =? 0) && (negb (y mod 100 =? 0) || (y mod 400 =? 0)).
Definition timegm (year mon mday hour min sec : Z) : Z :=
  let y := year + mon / 12 in
  let m := mon mod 12 in
  let days := 365 * (y - 1970) + ((y - 1) / 4 - 1969 / 4) - ((y - 1) / 100 - 1969 / 100) + ((y - 1) / 400 - 1969 / 400) +
              month_start m + (if is_leap y && (1 <? m) then 1 else 0) + mday - 1 in
  86400 * days + 3600 * hour + 60 * min + sec.
(** the zone is [z] seconds east: mktime and localtime; a struct tm is kept as what timegm gives *)
Definition mktime (z local : Z) : Z := local - z.
Definition localtime (z t : Z) : Z := t + z.
Definition gmtime (t : Z) : Z := t.

(** ** System.cpp; a FILETIME as the number its two halves make *)
(** UnixTimeToFileTime, 61-68, with UInt32x32To64, 34-37: only the low half of the time counts *)
Definition unix_to_file (t : Z) : Z := u32 t * 10000000 + 11644473600.
(** LARGE_INTEGER, System.hpp:63-72: where long has 64 bits HighPart lies behind QuadPart, and the upper half of
    QuadPart is padding that is never written: [pad] *)
Inductive abi := Long32 | Long64 (pad : Z).
(** FileTime_to_POSIX, 42-58 *)
Definition file_to_unix (a : abi) (ft : Z) : res Z :=
  let q := match a with Long32 => i64 ft | Long64 pad => i64 (ft mod 2 ^ 32 + 2 ^ 32 * pad) end in
  let d := q - 11644473600 * 10000 in
  if d <? - 2 ^ 63 then UB else Ok (Z.quot d 10000000).
(** LocalFileTimeToFileTime, 92-103 *)
Definition local_to_file (a : abi) (z ft : Z) : res Z := do t <- file_to_unix a ft; Ok (unix_to_file (mktime z (gmtime t))).
(** FileTimeToLocalFileTime, 105-115 *)
Definition file_to_local (a : abi) (z ft : Z) : res Z := do t <- file_to_unix a ft; Ok (unix_to_file (mktime z (localtime z t))).

(** ** Dates of the database *)
(** get_year .. get_second, BinaryDecimalNumber.cpp:253-284 *)
Definition pair_at (n : bdn) (i : nat) : Z := nth i (b_data n) 0 * 10 + nth (S i) (b_data n) 0.
Definition year_of (n : bdn) : Z := nth 0 (b_data n) 0 * 1000 + nth 1 (b_data n) 0 * 100 + nth 2 (b_data n) 0 * 10 + nth 3 (b_data n) 0.
(** SystemTimeToFileTime, System.cpp:71-90 *)
Definition system_to_file (z : Z) (n : bdn) : Z :=
  unix_to_file (mktime z (timegm (year_of n) (pair_at n 4 - 1) (pair_at n 6) (pair_at n 8) (pair_at n 10) (pair_at n 12))).
(** time1CD_to_FileTime, Common.cpp:38-51 *)
Definition time1cd_to_file (a : abi) (z : Z) (raw : list Z) : res Z := do n <- date_of_raw raw; local_to_file a z (system_to_file z n).

(** ** V8Time.cpp *)
Definition epoch_start : Z := 504911232000000.
(** inner_from_file_time, 71-80 *)
Definition v8_from_file (a : abi) (z ft : Z) : res Z := do l <- file_to_local a z ft; Ok (Z.quot (i64 l) 1000 + epoch_start).
(** to_file_time, 54-65 *)
Definition v8_to_file (a : abi) (z v : Z) : res Z :=
  let t := v - epoch_start in
  if (t <? - 2 ^ 63) || (t * 1000 <? - 2 ^ 63) || (2 ^ 63 <=? t * 1000) then UB else local_to_file a z (u64 (t * 1000)).
(** to_file_times, 107-123, one of the two: the time utime is called with *)
Definition v8_to_disk (a : abi) (z v : Z) : res Z := do ft <- v8_to_file a z v; do t <- file_to_unix a ft; Ok (mktime z (localtime z t)).
(** the time a file of a table gets in a container: TableFiles.cpp:106-107 and ConfigStorage.cpp:541-542 with V8File.cpp:75-86 *)
Definition saved_time (a : abi) (z : Z) (raw : list Z) : res Z := do ft <- time1cd_to_file a z raw; v8_from_file a z ft.
