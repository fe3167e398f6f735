(** What times mean: the Gregorian calendar, and the units times are counted in. *)
From Verif Require Import Prelude Bcd_Spec.

(** a date with a time of day *)
Record date := DT { d_year : Z; d_month : Z; d_day : Z; d_hour : Z; d_min : Z; d_sec : Z }.
(** ** The calendar, by counting days *)
Definition leap_year (y : Z) : Prop := (4 | y) /\ (~ (100 | y) \/ (400 | y)).
Definition month_length (y m n : Z) : Prop :=
  (In m [1; 3; 5; 7; 8; 10; 12] /\ n = 31) \/ (In m [4; 6; 9; 11] /\ n = 30) \/
  (m = 2 /\ leap_year y /\ n = 29) \/ (m = 2 /\ ~ leap_year y /\ n = 28).
Definition valid (d : date) : Prop :=
  1 <= d_year d <= 9999 /\ (exists n, month_length (d_year d) (d_month d) n /\ 1 <= d_day d <= n) /\
  0 <= d_hour d < 24 /\ 0 <= d_min d < 60 /\ 0 <= d_sec d < 60.
(** [n] days lie between 1 January of the year 1 and the day *)
Inductive day_number : Z -> Z -> Z -> Z -> Prop :=
| dn_first : day_number 1 1 1 0
| dn_day y m d n : day_number y m d n -> day_number y m (d + 1) (n + 1)
| dn_month y m n k : day_number y m 1 n -> month_length y m k -> m < 12 -> day_number y (m + 1) 1 (n + k)
| dn_year y n : day_number y 12 1 n -> day_number (y + 1) 1 1 (n + 31).
(** seconds from the beginning of the year 1 *)
Definition seconds (d : date) (s : Z) : Prop :=
  exists n, day_number (d_year d) (d_month d) (d_day d) n /\ s = 86400 * n + 3600 * d_hour d + 60 * d_min d + d_sec d.

(** ** Units *)
(** [e] seconds from the year 1 to the year *)
Definition begins (year e : Z) : Prop := seconds (DT year 1 1 0 0 0) e.
(** POSIX: seconds from 1970, UTC.  The zone is [z] seconds east *)
Definition posix_time (z : Z) (d : date) (t : Z) : Prop := exists s e, seconds d s /\ begins 1970 e /\ t = s - e - z.
(** FILETIME: tenths of microseconds from 1601, UTC *)
Definition file_time (z : Z) (d : date) (f : Z) : Prop := exists s e, seconds d s /\ begins 1601 e /\ f = 10000000 * (s - e - z).
(** containers: tenths of milliseconds from the year 1, local time *)
Definition v8_time (d : date) (v : Z) : Prop := exists s, seconds d s /\ v = 10000 * s.
(** the seven bytes of a date, two digits in each *)
Definition digits2 (x : Z) : Z := 16 * (x / 10) + x mod 10.
Definition date_bytes (d : date) : list Z :=
  [digits2 (d_year d / 100); digits2 (d_year d mod 100); digits2 (d_month d); digits2 (d_day d); digits2 (d_hour d); digits2 (d_min d); digits2 (d_sec d)].
