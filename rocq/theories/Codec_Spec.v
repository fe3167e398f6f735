(** Specifications for the text codecs, independent of the model's helpers. *)
From Verif Require Import Prelude.

(** ** Hexadecimal *)
Definition is_lower_hex (c : Z) : Prop := 48 <= c <= 57 \/ 97 <= c <= 102.
(** value of one lower-case hexadecimal digit *)
Definition hex_value (c : Z) : Z := if c <=? 57 then c - 48 else c - 87.
(** bytes denoted by a text of digit pairs *)
Fixpoint unhex (s : list Z) : list Z :=
  match s with
  | h :: l :: t => (16 * hex_value h + hex_value l) :: unhex t
  | _ => []
  end.

(** ** GUIDs *)
Definition is_guid (g : list Z) : Prop := length g = 16%nat /\ bytes_ok g.
(** big-endian number denoted by a byte string: comparing these numbers is
    comparing byte strings of equal length with memcmp *)
Definition be_val (l : list Z) : Z := fold_left (fun a b => 256 * a + b) l 0.

(** ** Base64 alphabet (RFC 1113), as a set of character codes *)
Definition is_b64_char (c : Z) : Prop :=
  65 <= c <= 90 \/ 97 <= c <= 122 \/ 48 <= c <= 57 \/ c = 43 \/ c = 47.
(** noise: characters outside the alphabet *)
Definition is_noise (c : Z) : Prop := ~ is_b64_char c.

(** ** XML escaping in one pass *)
Definition xml_entity (c : Z) : list Z :=
  if c =? 38 then [38;97;109;112;59]
  else if c =? 60 then [38;108;116;59]
  else if c =? 62 then [38;103;116;59]
  else if c =? 39 then [38;97;112;111;115;59]
  else if c =? 34 then [38;113;117;111;116;59]
  else [c].
Definition xml_escape (s : list Z) : list Z := flat_map xml_entity s.

Definition xml_special (c : Z) : Prop := c = 38 \/ c = 60 \/ c = 62 \/ c = 39 \/ c = 34.

(** number of occurrences of a character *)
Definition occ (c : Z) (s : list Z) : nat := count_occ Z.eq_dec s c.

(** what an XML reader does with the five entities *)
Fixpoint xml_unescape (fuel : nat) (s : list Z) : list Z :=
  match fuel with
  | O => []
  | S k =>
    match s with
    | 38 :: 97 :: 109 :: 112 :: 59 :: t => 38 :: xml_unescape k t
    | 38 :: 108 :: 116 :: 59 :: t => 60 :: xml_unescape k t
    | 38 :: 103 :: 116 :: 59 :: t => 62 :: xml_unescape k t
    | 38 :: 97 :: 112 :: 111 :: 115 :: 59 :: t => 39 :: xml_unescape k t
    | 38 :: 113 :: 117 :: 111 :: 116 :: 59 :: t => 34 :: xml_unescape k t
    | c :: t => c :: xml_unescape k t
    | [] => []
    end
  end.

(** no line of the text has more than [n] characters; [brk] tells the line-break
    characters, [cur] is the number of characters already on the current line *)
Fixpoint lines_fit (brk : Z -> bool) (n cur : Z) (s : list Z) : Prop :=
  match s with
  | [] => True
  | c :: t => if brk c then lines_fit brk n 0 t else cur + 1 <= n /\ lines_fit brk n (cur + 1) t
  end.
