(** Unicode encoding forms and letter pairs, stated arithmetically (Unicode 3.9). *)
From Verif Require Import Prelude.

Definition scalar (c : Z) : Prop := 0 <= c <= 0x10ffff /\ ~ (0xd800 <= c <= 0xdfff).

Definition enc8 (c : Z) : list Z :=
  if c <? 0x80 then [c]
  else if c <? 0x800 then [0xc0 + c / 64; 0x80 + c mod 64]
  else if c <? 0x10000 then [0xe0 + c / 4096; 0x80 + c / 64 mod 64; 0x80 + c mod 64]
  else [0xf0 + c / 262144; 0x80 + c / 4096 mod 64; 0x80 + c / 64 mod 64; 0x80 + c mod 64].
Definition utf8_of (cps : list Z) : list Z := flat_map enc8 cps.

Definition enc16 (c : Z) : list Z :=
  if c <? 0x10000 then [c] else [0xd800 + (c - 0x10000) / 1024; 0xdc00 + (c - 0x10000) mod 1024].
Definition utf16_of (cps : list Z) : list Z := flat_map enc16 cps.

(** little-endian bytes of 16-bit units *)
Definition le16 (us : list Z) : list Z := flat_map (fun u => [u mod 256; u / 256]) us.

(** upper- and lower-case letters of the Latin and Russian alphabets *)
Definition case_pair (u l : Z) : Prop :=
  (65 <= u <= 90 /\ l = u + 32) \/ (0x410 <= u <= 0x42f /\ l = u + 32) \/ (u = 0x401 /\ l = 0x451).
Definition same_letter (c d : Z) : Prop := c = d \/ case_pair c d \/ case_pair d c.

(** value of a digit text *)
Definition digits_value (ds : list Z) : Z := fold_left (fun a d => 10 * a + d) ds 0.
