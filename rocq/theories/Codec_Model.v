(** GUID texts, Base64, hexadecimal dumps, string replacement, XML escaping.
    Sources under /repo/src/tool1cd: BinaryGuid.cpp, Base64.cpp, Common.cpp,
    SystemClasses/System.SysUtils.cpp. *)
From Verif Require Import Prelude.

(** ** Hexadecimal *)

(** hexdecode[v] / hex[v], Common.cpp:33, BinaryGuid.cpp:148 *)
Definition hexdigit (v : Z) : Z := if v <? 10 then v + 48 else v - 10 + 97.

(** hexstring(buf, n), Common.cpp:123-135; n is the length of the list *)
Fixpoint hexstring (bs : list Z) : list Z :=
  match bs with
  | [] => []
  | b :: t => hexdigit (Z.shiftr b 4) :: hexdigit (Z.land b 15) :: hexstring t
  end.

(** from_hex_digit, Common.cpp:164-170 *)
Definition from_hex_digit (c : Z) : Z :=
  if (48 <=? c) && (c <=? 57) then c - 48
  else if (97 <=? c) && (c <=? 102) then c - 97 + 10
  else if (65 <=? c) && (c <=? 70) then c - 65 + 10
  else 0.

(** two_hex_digits_to_byte, Common.cpp:65-85; [None] is the false return *)
Definition hexval (c : Z) : option Z :=
  if (48 <=? c) && (c <=? 57) then Some (c - 48)
  else if (97 <=? c) && (c <=? 102) then Some (c - (97 - 10))
  else if (65 <=? c) && (c <=? 70) then Some (c - (65 - 10))
  else None.
Definition two_hex_digits_to_byte (hi lo : Z) : option Z :=
  match hexval hi with
  | None => None
  | Some h => match hexval lo with
              | None => None
              | Some l => Some (Z.shiftl h 4 mod 256 + l)
              end
  end.

(** ** GUIDs: a GUID is a list of 16 bytes (BinaryGuid::data) *)

(** presentation[i]; reading past the terminator does not occur for the checked sizes *)
Definition chr (s : list Z) (i : Z) : Z := nth (Z.to_nat i) s 0.

(** get_subbyte, BinaryGuid.cpp:86-90, stored into a uint8_t *)
Definition get_subbyte (s : list Z) (start : Z) : Z :=
  Z.lor (Z.shiftl (from_hex_digit (chr s start)) 4) (from_hex_digit (chr s (start + 1))) mod 256.

(** BinaryGuid(const string&), BinaryGuid.cpp:92-129.  For the 36-character form
    the loops fill data[12..15], [10..11], [8..9], [0..1], [2..7] reading from
    offsets 0, 9, 14, 19, 24 (j advances by 2 per byte and 1 per separator). *)
Definition guid_of_text (s : list Z) : res (list Z) :=
  if zlen s =? 32 then
    Ok (map (fun i => get_subbyte s (Z.of_nat i * 2)) (seq 0 16))
  else if negb (zlen s =? 36) then Throw
  else Ok (map (fun j => get_subbyte s j)
     [19; 21;                     (* data[0..1] *)
      24; 26; 28; 30; 32; 34;     (* data[2..7] *)
      14; 16;                     (* data[8..9] *)
      9; 11;                      (* data[10..11] *)
      0; 2; 4; 6]).               (* data[12..15] *)

(** format_guid, BinaryGuid.cpp:145-161; an index outside the 16 bytes would be an
    out-of-bounds read *)
Fixpoint format_guid (g : list Z) (idx : list Z) : res (list Z) :=
  match idx with
  | [] => Ok []
  | i :: t =>
      if i =? -1 then do r <- format_guid g t; Ok (45 :: r)
      else
        do b <- rd g i;
        do r <- format_guid g t;
        Ok (hexdigit (Z.shiftr b 4) :: hexdigit (Z.land b 15) :: r)
  end.

(** BinaryGuid.cpp:166-171 and 179-185 *)
Definition idx_1C : list Z := [12;13;14;15;-1;10;11;-1;8;9;-1;0;1;-1;2;3;4;5;6;7].
Definition idx_MS : list Z := [3;2;1;0;-1;5;4;-1;7;6;-1;8;9;-1;10;11;12;13;14;15].
Definition guid_as_1C (g : list Z) : res (list Z) := format_guid g idx_1C.
Definition guid_as_MS (g : list Z) : res (list Z) := format_guid g idx_MS.

(** operator==, BinaryGuid.cpp:50-59: from the last byte to the first *)
Fixpoint guid_eq_loop (a b : list Z) (i : nat) : bool :=
  match i with
  | O => true
  | S k => if negb (nth k a 0 =? nth k b 0) then false else guid_eq_loop a b k
  end.
Definition guid_eqb (a b : list Z) : bool := guid_eq_loop a b 16.
(** is_empty, BinaryGuid.cpp:66-75 *)
Definition guid_is_empty (a : list Z) : bool := guid_eq_loop a (repeat 0 16) 16.

(** operator>, BinaryGuid.cpp:208-219; [n] bytes remain, [i] is the index *)
Fixpoint guid_gt_loop (a b : list Z) (i n : nat) : bool :=
  match n with
  | O => false
  | S k =>
      if nth i b 0 <? nth i a 0 then true
      else if nth i a 0 <? nth i b 0 then false
      else guid_gt_loop a b (S i) k
  end.
Definition guid_gtb (a b : list Z) : bool := guid_gt_loop a b 0 16.

(** ** Base64 *)

(** cb64, Base64.cpp:30 *)
Definition cb64 : list Z :=
  [65;66;67;68;69;70;71;72;73;74;75;76;77;78;79;80;81;82;83;84;85;86;87;88;89;90;
   97;98;99;100;101;102;103;104;105;106;107;108;109;110;111;112;113;114;115;116;117;118;119;120;121;122;
   48;49;50;51;52;53;54;55;56;57;43;47].

(** cd64, Base64.cpp:33: "|$$$}rstuvwxyz{$$$$$$$>?@ABCDEFGHIJKLMNOPQRSTUVW$$$$$$XYZ[\\]^_`abcdefghijklmnopq" *)
Definition cd64 : list Z :=
  [124;36;36;36;125;114;115;116;117;118;119;120;121;122;123;36;36;36;36;36;36;36;
   62;63;64;65;66;67;68;69;70;71;72;73;74;75;76;77;78;79;80;81;82;83;84;85;86;87;
   36;36;36;36;36;36;
   88;89;90;91;92;93;94;95;96;97;98;99;100;101;102;103;104;105;106;107;108;109;110;111;112;113].

(** table lookup; the indices computed by the encoder stay below 64 *)
Definition c64 (i : Z) : Z := nth (Z.to_nat i) cb64 0.

(** Base64.cpp:58-61: one full block *)
Definition enc_block (a b c : Z) : list Z :=
  [c64 (Z.shiftr a 2);
   c64 (Z.lor (Z.shiftl (Z.land a 3) 4) (Z.shiftr (Z.land b 240) 4));
   c64 (Z.lor (Z.shiftl (Z.land b 15) 2) (Z.shiftr (Z.land c 192) 6));
   c64 (Z.land c 63)].

(** Base64.cpp:38-79 on UTF-16 units.  [nl] is what
    [outfile->Write(L"\r\n", 4)] puts into the text: [13;10] where wchar_t has two
    bytes (Windows), [13;0] where it has four (Linux).  [bo] is blocksout. *)
Definition need_nl (bo linesize : Z) : bool :=
  (Z.quot linesize 4 <=? bo) && negb (linesize =? 0).

Fixpoint b64_enc (nl : list Z) (linesize : Z) (data : list Z) (bo : Z) : list Z :=
  match data with
  | a :: b :: c :: t =>
      if need_nl bo linesize
      then nl ++ enc_block a b c ++ b64_enc nl linesize t 1
      else enc_block a b c ++ b64_enc nl linesize t (bo + 1)
  | [] => []
  | [a] =>
      (if need_nl bo linesize then nl else []) ++
      [c64 (Z.shiftr a 2);
       c64 (Z.lor (Z.shiftl (Z.land a 3) 4) (Z.shiftr (Z.land 0 240) 4)); 61; 61]
  | [a; b] =>
      (if need_nl bo linesize then nl else []) ++
      [c64 (Z.shiftr a 2);
       c64 (Z.lor (Z.shiftl (Z.land a 3) 4) (Z.shiftr (Z.land b 240) 4));
       c64 (Z.lor (Z.shiftl (Z.land b 15) 2) (Z.shiftr (Z.land 0 192) 6)); 61]
  end.
Definition base64_encode (nl : list Z) (linesize : Z) (data : list Z) : list Z :=
  b64_enc nl linesize data 0.

(** Base64.cpp:98-103 / 141-146: sextet of a character, [None] for noise *)
Definition dec_char (s : Z) : option Z :=
  let v := if (s <? 43) || (122 <? s) then 0 else nth (Z.to_nat (s - 43)) cd64 0 in
  let v := if v =? 0 then 0 else if v =? 36 then 0 else (v - 61) mod 256 in
  if v =? 0 then None else Some (v - 1).

(** Base64.cpp:110-113: the first len-1 bytes computed from the collected sextets;
    in[i] for i >= len is 0 or stale and never reaches the bytes written. *)
Definition dec_group (g : list Z) : list Z :=
  let at_ i := nth i g 0 in
  let out := [Z.lor (Z.shiftl (at_ 0%nat) 2) (Z.shiftr (at_ 1%nat) 4) mod 256;
              Z.lor (Z.shiftl (at_ 1%nat) 4) (Z.shiftr (at_ 2%nat) 2) mod 256;
              Z.lor (Z.land (Z.shiftl (at_ 2%nat) 6) 192) (at_ 3%nat) mod 256] in
  firstn (length g - 1) out.

(** Base64.cpp:84-118 and 122-161: the nested loops are one left-to-right scan that
    collects sextets, emits after four of them and emits a short group at the end. *)
Fixpoint b64_dec (text : list Z) (g : list Z) : list Z :=
  match text with
  | [] => dec_group g
  | s :: t =>
      match dec_char s with
      | None => b64_dec t g
      | Some v =>
          if Nat.eqb (length g) 3 then dec_group (g ++ [v]) ++ b64_dec t []
          else b64_dec t (g ++ [v])
      end
  end.
Definition base64_decode (text : list Z) : list Z := b64_dec text [].

(** ** StringReplace *)

Definition eq_list (a b : list Z) : bool :=
  if list_eq_dec Z.eq_dec a b then true else false.

(** std::string::find: position of the first occurrence at or after the start *)
Fixpoint sfind (s pat : list Z) : option nat :=
  if eq_list (firstn (length pat) s) pat then Some 0%nat
  else match s with
       | [] => None
       | _ :: t => option_map S (sfind t pat)
       end.

(** System.SysUtils.cpp:164-177.  [rest] is result from [spos] on; the part before
    [spos] is never searched again.  [all] is Flags & rfReplaceAll.  An empty old
    pattern with rfReplaceAll never terminates: fuel, [Hang]. *)
Fixpoint string_replace_loop (fuel : nat) (rest pat new : list Z) (all : bool) : res (list Z) :=
  match fuel with
  | O => Hang
  | S k =>
      match sfind rest pat with
      | None => Ok rest
      | Some p =>
          let before := firstn p rest in
          let after := skipn (p + length pat) rest in
          if all then do r <- string_replace_loop k after pat new all; Ok (before ++ new ++ r)
          else Ok (before ++ new ++ after)
      end
  end.
Definition string_replace (s pat new : list Z) (all : bool) : res (list Z) :=
  string_replace_loop (S (length s)) s pat new all.

(** toXML, Common.cpp:152-161.  StringReplace is called without flags and the
    default is 0 (System.SysUtils.hpp:33-34), i.e. not rfReplaceAll. *)
Definition to_xml (s : list Z) : res (list Z) :=
  do r <- string_replace s [38] [38;97;109;112;59] false;          (* & -> &amp; *)
  do r <- string_replace r [60] [38;108;116;59] false;             (* < -> &lt; *)
  do r <- string_replace r [62] [38;103;116;59] false;             (* > -> &gt; *)
  do r <- string_replace r [39] [38;97;112;111;115;59] false;      (* apostrophe -> &apos; *)
  string_replace r [34] [38;113;117;111;116;59] false.             (* quotation mark -> &quot; *)
