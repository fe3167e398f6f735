(** Property theorems C07-C11 and C56: GUID texts, Base64, hexadecimal, XML escaping. *)
From Verif Require Import Prelude Codec_Model Codec_Spec Codec_Proofs Codec_More.

(** C07: every 16-byte GUID has a 36-character 1C spelling that parses back to it. *)
Theorem C07_guid_1C_roundtrip :
  forall g, is_guid g -> exists s, guid_as_1C g = Ok s /\ zlen s = 36 /\ guid_of_text s = Ok g.
Proof. exact guid_1C_roundtrip. Qed.
Print Assumptions C07_guid_1C_roundtrip.
(** C07: so does the flat 32-digit spelling. *)
Theorem C07_guid_flat_roundtrip :
  forall g, is_guid g -> guid_of_text (hexstring g) = Ok g.
Proof. exact guid_flat_roundtrip. Qed.
Print Assumptions C07_guid_flat_roundtrip.
(** C07: the Microsoft spelling is the 1C spelling of a fixed byte permutation and
    identifies the GUID. *)
Theorem C07_guid_MS_permutation :
  forall g, is_guid g -> is_guid (ms_perm g) /\ guid_as_MS g = guid_as_1C (ms_perm g) /\
    Permutation g (ms_perm g).
Proof. exact guid_MS_permutation. Qed.
Print Assumptions C07_guid_MS_permutation.
Theorem C07_guid_texts_injective :
  forall g h, is_guid g -> is_guid h ->
    (guid_as_MS g = guid_as_MS h \/ guid_as_1C g = guid_as_1C h \/ hexstring g = hexstring h) -> g = h.
Proof. exact guid_texts_inj. Qed.
Print Assumptions C07_guid_texts_injective.
Example C07_ex :
  let g := [0x81;0x93;0x00;0x15;0x5d;0x01;0x2b;0x5c;0x11;0xe5;0xb2;0x8a;0x4f;0x5e;0x7d;0x01] in
  is_guid g /\
  (* 4f5e7d01-b28a-11e5-8193-00155d012b5c *)
  guid_as_1C g = Ok [52;102;53;101;55;100;48;49;45;98;50;56;97;45;49;49;101;53;45;56;49;57;51;45;
                     48;48;49;53;53;100;48;49;50;98;53;99].
Proof. split; [|reflexivity]. split; [reflexivity|]. apply bytes_okb_spec. reflexivity. Qed.

(** C08: the comparisons are a strict total order, the one of the raw bytes. *)
Theorem C08_guid_order :
  forall a b c, is_guid a -> is_guid b -> is_guid c ->
  guid_gtb a a = false /\
  (guid_gtb a b = true -> guid_gtb b c = true -> guid_gtb a c = true) /\
  (guid_gtb a b = true -> guid_gtb b a = false) /\
  (guid_gtb a b = false -> guid_gtb b a = false -> a = b) /\
  (guid_eqb a b = true <-> a = b) /\
  guid_gtb a b = (be_val b <? be_val a).
Proof. exact guid_order. Qed.
Print Assumptions C08_guid_order.
Example C08_ex : let a := 1 :: repeat 0 15 in let b := 0 :: repeat 255 15 in
  is_guid a /\ is_guid b /\ guid_gtb a b = true /\ guid_eqb a b = false.
Proof. cbv zeta. repeat split; try reflexivity; apply bytes_okb_spec; reflexivity. Qed.

(** C09: decoding undoes encoding for every byte string, every line width (also 0,
    negative and below 4) and every line break made of characters outside the
    alphabet; both line breaks the code can produce are of that kind. *)
Theorem C09_base64_roundtrip :
  forall nl linesize data, Forall is_noise nl -> bytes_ok data ->
    base64_decode (base64_encode nl linesize data) = data.
Proof. exact b64_roundtrip. Qed.
Print Assumptions C09_base64_roundtrip.
Theorem C09_line_breaks_are_noise : Forall is_noise [13;10] /\ Forall is_noise [13;0].
Proof. exact crlf_noise. Qed.
Print Assumptions C09_line_breaks_are_noise.
(** C09: alphabet and line width of the text *)
Theorem C09_base64_alphabet :
  forall nl linesize data, bytes_ok data ->
    Forall (fun c => is_b64_char c \/ c = 61 \/ In c nl) (base64_encode nl linesize data).
Proof. exact b64_alphabet. Qed.
Print Assumptions C09_base64_alphabet.
Theorem C09_base64_line_width :
  forall nl linesize data, nl <> [] -> Forall (fun c => is_noise c /\ c <> 61) nl -> 4 <= linesize ->
    bytes_ok data -> lines_fit (is_break nl) linesize 0 (base64_encode nl linesize data).
Proof. exact b64_lines. Qed.
Print Assumptions C09_base64_line_width.
(** C09: on platforms with a four-byte wchar_t every text of more than one line contains U+0000 in place of
    the line feed. *)
Theorem C09_linux_line_break_refuted :
  forall linesize data, 4 <= linesize -> 3 * (linesize / 4) < zlen data -> In 0 (base64_encode [13;0] linesize data).
Proof. exact linux_nul. Qed.
Print Assumptions C09_linux_line_break_refuted.
Example C09_linux_ex : base64_encode [13;0] 4 [77;97;110;255] = [84;87;70;117;13;0;47;119;61;61].
Proof. reflexivity. Qed.
Example C09_ex : base64_encode [13;10] 4 [77;97;110;255] = [84;87;70;117;13;10;47;119;61;61] /\
  base64_decode [84;87;70;117;13;10;47;119;61;61] = [77;97;110;255].
Proof. split; reflexivity. Qed.

(** C10 *)
Theorem C10_hex_lossless :
  forall bs, bytes_ok bs ->
    length (hexstring bs) = (2 * length bs)%nat /\
    Forall is_lower_hex (hexstring bs) /\ unhex (hexstring bs) = bs.
Proof. exact hexstring_spec. Qed.
Print Assumptions C10_hex_lossless.
Theorem C10_hex_pairs_parse :
  forall b, byte_ok b -> exists h l, hexstring [b] = [h; l] /\ two_hex_digits_to_byte h l = Some b.
Proof. exact hexstring_pair_parse. Qed.
Print Assumptions C10_hex_pairs_parse.
Theorem C10_hex_pairs_reject :
  forall hi lo, (exists v, two_hex_digits_to_byte hi lo = Some v) <-> is_hex_char hi /\ is_hex_char lo.
Proof. exact two_hex_some. Qed.
Print Assumptions C10_hex_pairs_reject.
Example C10_ex : hexstring [0; 171; 255] = [48;48;97;98;102;102] /\ two_hex_digits_to_byte 65 98 = Some 171.
Proof. split; reflexivity. Qed.

(** C11: a text in which each special character occurs at most once is escaped
    correctly, and the escaping is reversible. *)
Theorem C11_xml_escape_partial :
  forall s, (forall c, xml_special c -> (occ c s <= 1)%nat) ->
    exists r, to_xml s = Ok r /\ r = xml_escape s /\
      (forall c, xml_special c -> c <> 38 -> ~ In c r) /\
      xml_unescape (S (length s)) r = s.
Proof. exact to_xml_partial. Qed.
Print Assumptions C11_xml_escape_partial.
Example C11_ex : (forall c, xml_special c -> (occ c [97;60;98;38;34]%Z <= 1)%nat) /\
  to_xml [97;60;98;38;34] = Ok [97;38;108;116;59;98;38;97;109;112;59;38;113;117;111;116;59].
Proof. split; [|reflexivity]. unfold xml_special. intros c [->|[->|[->|[->| ->]]]]; cbv; lia. Qed.
(** C11 is false in general: every '<', '>', quote and apostrophe after the first of
    its kind stays unescaped. *)
Theorem C11_xml_escape_refuted :
  forall s c, c = 60 \/ c = 62 \/ c = 39 \/ c = 34 -> (2 <= occ c s)%nat ->
    exists r, to_xml s = Ok r /\ In c r /\ r <> xml_escape s.
Proof. exact to_xml_refuted. Qed.
Print Assumptions C11_xml_escape_refuted.
Example C11_ex_refuted : (2 <= occ 60 [60;97;60]%Z)%nat /\ to_xml [60;97;60] = Ok [38;108;116;59;97;60].
Proof. split; [cbv; lia|reflexivity]. Qed.
(** C11: StringReplace with rfReplaceAll and a one-character pattern substitutes every
    occurrence (this is how every other caller uses it). *)
Theorem C11_replace_all_char :
  forall s c new, string_replace s [c] new true = Ok (flat_map (fun x => if x =? c then new else [x]) s).
Proof. exact replace_all. Qed.
Print Assumptions C11_replace_all_char.
(** an empty pattern with rfReplaceAll never ends, whatever number of rounds *)
Theorem C11_replace_empty_pattern_hangs :
  forall fuel s new, string_replace_loop fuel s [] new true = Hang.
Proof. exact replace_empty_hangs. Qed.
Print Assumptions C11_replace_empty_pattern_hangs.

(** C56: GUID texts of any other length are rejected ... *)
Theorem C56_guid_text_length_checked_partial :
  forall s, guid_of_text s = Throw <-> zlen s <> 32 /\ zlen s <> 36.
Proof. exact guid_of_text_throw. Qed.
Print Assumptions C56_guid_text_length_checked_partial.
(** ... but characters that are not hexadecimal digits are taken for 0. *)
Theorem C56_guid_text_unchecked_refuted :
  forall s t, Forall2 (fun c d => c = d \/ ~ is_hex_char c /\ d = 48) s t -> guid_of_text s = guid_of_text t.
Proof. exact guid_any. Qed.
Print Assumptions C56_guid_text_unchecked_refuted.
Example C56_unchecked_ex : Forall2 (fun c d => c = d \/ ~ is_hex_char c /\ d = 48) (repeat 122 32) (repeat 48 32) /\ guid_of_text (repeat 122 32) = Ok (repeat 0 16).
Proof. split; [|reflexivity]. cbn [repeat]. repeat (apply Forall2_cons; [right; split; [unfold is_hex_char; lia|reflexivity]|]). apply Forall2_nil. Qed.
