(** Property theorems C01-C06: packed decimal numbers and dates. *)
From Verif Require Import Prelude Bcd_Model Bcd_Spec Bcd_Proofs Bcd_More.

(** C01: bytes -> number -> bytes is the identity on well-formed fields, whatever
    memory follows the field. *)
Theorem C01_bcd_bytes_roundtrip :
  forall (flag : bool) (len prec : Z) (bs rest : list Z),
    1 <= len -> wf_packed flag len bs ->
    exists n, bdn_of_raw (bs ++ rest) len prec flag = Ok n /\ bdn_write n = Ok bs.
Proof. exact bcd_read_write. Qed.
Print Assumptions C01_bcd_bytes_roundtrip.
Example C01_ex : wf_packed true 6 [0x01; 0x23; 0x45; 0x60] /\
  bdn_of_raw [0x01; 0x23; 0x45; 0x60] 6 2 true = Ok (mkbdn true 2 [1;2;3;4;5;6] (-1)).
Proof. split; [|reflexivity]. unfold wf_packed. rewrite <- bytes_okb_spec. vm_compute. intuition congruence. Qed.

(** C01, other direction: number -> bytes -> number, and the bytes written are
    exactly the field's bytes. *)
Theorem C01_bcd_number_roundtrip :
  forall (n : bdn) (len prec : Z) (bs rest : list Z),
    1 <= len -> b_flag n = true -> (b_sign n = 1 \/ b_sign n = -1) -> b_prec n = prec ->
    Forall (fun x => 0 <= x < 16) (b_data n) -> zlen (b_data n) = len ->
    bdn_write n = Ok bs ->
    bytes_ok bs /\ zlen bs = numeric_size len /\ bdn_of_raw (bs ++ rest) len prec true = Ok n.
Proof. exact bcd_write_read. Qed.
Print Assumptions C01_bcd_number_roundtrip.
Example C01_ex2 : bdn_write (mkbdn true 0 [9;0;7] (-1)) = Ok [0x09; 0x07].
Proof. reflexivity. Qed.

(** C02: a non-negative text that fits is stored in the field's bytes and shown in
    normal form; the value shown is the text's value rounded down to the field's
    precision; a text already in normal form is shown unchanged.
    For fields without fraction digits the text must have none (see the refutation
    below). *)
Theorem C02_numeric_text_roundtrip_partial :
  forall (t ip fp : list Z) (len prec : Z),
    is_decimal t ip fp -> t <> [] -> 0 <= prec -> (prec = 0 -> fp = []) -> 1 <= len ->
    zlen ip + prec <= len ->
    exists bs ip' fp',
      numeric_store t len prec = Ok bs /\ zlen bs = numeric_size len /\
      (forall rest, numeric_show (bs ++ rest) len prec = Ok (normal_text ip' fp')) /\
      normal ip' fp' /\ zlen fp' <= prec /\
      dval (ip' ++ fp') * 10 ^ (prec - zlen fp') = floor_at ip fp prec /\
      (normal ip fp -> zlen fp <= prec -> ip' = ip /\ fp' = fp).
Proof. exact text_roundtrip. Qed.
Print Assumptions C02_numeric_text_roundtrip_partial.
(** "007.250" in a field of 8 digits, 3 of them fraction, shows as "7.25" *)
Example C02_ex : is_decimal [48;48;55;46;50;53;48] [0;0;7] [2;5;0] /\
  (do bs <- numeric_store [48;48;55;46;50;53;48] 8 3; numeric_show bs 8 3) = Ok [55;46;50;53].
Proof.
  split; [|reflexivity]. unfold is_decimal, digit.
  split; [repeat constructor; lia|]. split; [repeat constructor; lia|]. left. reflexivity.
Qed.

(** C02 fails for every text with a fraction stored in a field without fraction digits: the digits after
    the point are stored and shown as digits before it. *)
Theorem C02_fraction_in_integer_field_refuted :
  forall (ip fp : list Z) (len : Z), Forall digit ip -> Forall digit fp -> fp <> [] -> zlen ip + zlen fp <= len ->
  exists bs ip', numeric_store (chars ip ++ 46 :: chars fp) len 0 = Ok bs /\
    (forall rest, numeric_show (bs ++ rest) len 0 = Ok (normal_text ip' [])) /\ normal ip' [] /\
    dval ip' = dval ip * 10 ^ zlen fp + dval fp /\ (0 < dval (ip ++ fp) -> dval ip < dval ip').
Proof. exact fraction_joined. Qed.
Print Assumptions C02_fraction_in_integer_field_refuted.
(** "1.5" is stored as 15 *)
Example C02_joined_ex : (do bs <- numeric_store [49;46;53] 5 0; numeric_show bs 5 0) = Ok [49; 53] /\ floor_at [1] [5] 0 = 1.
Proof. split; reflexivity. Qed.

(** C03 is false: whatever the text, the stored sign is the positive one. *)
Theorem C03_negative_text_refuted :
  forall (t : list Z) (len prec b : Z) (bs : list Z),
    numeric_store t len prec = Ok (b :: bs) -> (b / 16) mod 2 = 1.
Proof. exact never_negative. Qed.
Print Assumptions C03_negative_text_refuted.
(** Consequently reading the field back never yields a negative number. *)
Theorem C03_stored_text_reads_positive_refuted :
  forall (t : list Z) (len prec : Z) (bs rest : list Z) (n : bdn),
    numeric_store t len prec = Ok bs -> bs <> [] ->
    bdn_of_raw (bs ++ rest) len prec true = Ok n -> b_sign n = 1.
Proof. exact stored_sign_positive. Qed.
Print Assumptions C03_stored_text_reads_positive_refuted.
(** "-5" stored in a 5-digit field and read back shows "=5". *)
Theorem C03_minus_five_refuted :
  exists bs, numeric_store [45; 53] 5 0 = Ok bs /\ zlen bs = numeric_size 5 /\
             numeric_show bs 5 0 = Ok [61; 53].
Proof. exists [0x10; 0x00; 0xD5]. vm_compute. auto. Qed.
Print Assumptions C03_minus_five_refuted.

(** C04: an integer part too big for the field saturates to nines, the fraction
    digits are kept, and the bytes written are exactly the field's.  Again a field
    without fraction digits needs a text without fraction. *)
Theorem C04_numeric_overflow_partial :
  forall (t ip fp : list Z) (len prec : Z),
    is_decimal t ip fp -> t <> [] -> 0 <= prec <= len -> (prec = 0 -> fp = []) -> 1 <= len ->
    len < zlen ip + prec ->
    exists bs fp',
      numeric_store t len prec = Ok bs /\ zlen bs = numeric_size len /\ zlen fp' = prec /\
      dval fp' = floor_at [] fp prec /\
      (forall rest, bdn_of_raw (bs ++ rest) len prec true =
         Ok (mkbdn true prec (repeat 9 (Z.to_nat (len - prec)) ++ fp') 1)).
Proof. exact text_overflow. Qed.
Print Assumptions C04_numeric_overflow_partial.
(** "12345.6" in a field of 4 digits with 2 fraction digits: 99.60 *)
Example C04_ex : numeric_store [49;50;51;52;53;46;54] 4 2 = Ok [0x19; 0x96; 0x00] /\
  numeric_show [0x19; 0x96; 0x00] 4 2 = Ok [57;57;46;54].
Proof. split; reflexivity. Qed.

(** C04 fails for every text with more digits than an integer field holds and at least two of them behind the
    point: more bytes are written than the field has. *)
Theorem C04_overflow_writes_outside_refuted :
  forall (ip fp : list Z) (len : Z), Forall digit ip -> Forall digit fp -> 1 <= len -> len < zlen ip + zlen fp ->
  exists bs, numeric_store (chars ip ++ 46 :: chars fp) len 0 = Ok bs /\ zlen bs = (len + zlen fp + 2) / 2 /\ (2 <= zlen fp -> numeric_size len < zlen bs).
Proof. exact overflow_outside. Qed.
Print Assumptions C04_overflow_writes_outside_refuted.
(** "12.345" in a field of three digits and two bytes *)
Example C04_outside_ex : numeric_store [49;50;46;51;52;53] 3 0 = Ok [0x19;0x99;0x34;0x50] /\ numeric_size 3 = 2.
Proof. split; reflexivity. Qed.

(** C05: date-time text -> seven bytes -> the same text.  Reading needs three more
    bytes of readable memory after the field (see C06). *)
Theorem C05_date_roundtrip :
  forall y1 y2 y3 y4 m1 m2 d1 d2 h1 h2 n1 n2 s1 s2 : Z,
    Forall digit [y1;y2;y3;y4;m1;m2;d1;d2;h1;h2;n1;n2;s1;s2] ->
    let t := date_text y1 y2 y3 y4 m1 m2 d1 d2 h1 h2 n1 n2 s1 s2 in
    exists bs, datetime_store t = Ok bs /\ length bs = 7%nat /\ bytes_ok bs /\
      forall rest, (3 <= length rest)%nat -> date_to_string (bs ++ rest) = Ok t.
Proof. exact date_roundtrip. Qed.
Print Assumptions C05_date_roundtrip.
Example C05_ex : date_text 2 0 1 9 1 2 3 1 2 3 5 9 5 8 =
  [51;49;46;49;50;46;50;48;49;57;32;50;51;58;53;57;58;53;56] /\
  datetime_store (date_text 2 0 1 9 1 2 3 1 2 3 5 9 5 8) = Ok [0x20;0x19;0x12;0x31;0x23;0x59;0x58].
Proof. split; reflexivity. Qed.

Theorem C05_date_1c_roundtrip :
  forall y1 y2 y3 y4 m1 m2 d1 d2 h1 h2 n1 n2 s1 s2 : Z,
    let ds := [y1;y2;y3;y4;m1;m2;d1;d2;h1;h2;n1;n2;s1;s2] in
    Forall digit ds ->
    exists bs, string1C_to_date (chars ds) = Ok bs /\ length bs = 7%nat /\
      forall rest, (3 <= length rest)%nat -> date_to_string1C (bs ++ rest) = Ok (chars ds).
Proof. exact date_roundtrip_1c. Qed.
Print Assumptions C05_date_1c_roundtrip.

(** C06 is false: on a buffer holding only the seven bytes of the field every read
    runs past the end. *)
Theorem C06_date_overread_refuted :
  forall bs : list Z, length bs = 7%nat -> date_to_string bs = UB.
Proof. exact date_needs_10. Qed.
Print Assumptions C06_date_overread_refuted.
Example C06_ex : date_to_string [0x20;0x19;0x12;0x31;0x23;0x59;0x58] = UB.
Proof. reflexivity. Qed.
(** What remains true: the text does not depend on the bytes after the field. *)
Theorem C06_date_depends_on_field_only_partial :
  forall bs r1 r2 : list Z, length bs = 7%nat -> (3 <= length r1)%nat -> (3 <= length r2)%nat ->
    exists s, date_to_string (bs ++ r1) = Ok s /\ date_to_string (bs ++ r2) = Ok s.
Proof. exact date_ignores_rest. Qed.
Print Assumptions C06_date_depends_on_field_only_partial.
