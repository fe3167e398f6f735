(** Property theorems C12, C13, C57, C58: Unicode conversion, letter case, suffix
    test, number parsing. *)
From Verif Require Import Prelude Text_Model Text_Spec Text_Proofs.

(** C12: every Unicode text is stored as its UTF-16LE bytes and shown again as the
    same text. *)
Theorem C12_text_roundtrip :
  forall cps, Forall scalar cps ->
    ucs2_from_utf8 (utf8_of cps) = Ok (le16 (utf16_of cps)) /\
    ucs2_to_utf8 (le16 (utf16_of cps)) = Ok (utf8_of cps).
Proof. exact text_store_show. Qed.
Print Assumptions C12_text_roundtrip.
(** C12: a stored text of even length is either reported as an error or is the exact
    encoding of the text shown, and storing the shown text gives the same bytes. *)
Theorem C12_stored_text_exact :
  forall bs s, bytes_ok bs -> Z.even (zlen bs) = true -> ucs2_to_utf8 bs = Ok s ->
    exists cps, Forall scalar cps /\ bs = le16 (utf16_of cps) /\ s = utf8_of cps /\ ucs2_from_utf8 s = Ok bs.
Proof. exact text_show_store. Qed.
Print Assumptions C12_stored_text_exact.
(** C12: UTF-8 input is accepted only if it is the shortest-form encoding of scalars. *)
Theorem C12_utf8_accepts_only_valid :
  forall bs u, bytes_ok bs -> utf8to16 bs = Ok u ->
    exists cps, Forall scalar cps /\ bs = utf8_of cps /\ u = utf16_of cps.
Proof. exact utf8_accept_exact. Qed.
Print Assumptions C12_utf8_accepts_only_valid.
(** C12: decoding any byte string ends with a text or an exception. *)
Theorem C12_decode_total :
  forall bs, decode bs = Throw \/ exists cps, decode bs = Ok cps.
Proof. exact decode_outcome. Qed.
Print Assumptions C12_decode_total.
(** C12 fails for an odd number of bytes: the last byte is silently dropped. *)
Theorem C12_odd_length_refuted :
  forall bs b, Z.even (zlen bs) = true -> ucs2_to_utf8 (bs ++ [b]) = ucs2_to_utf8 bs.
Proof. exact odd_byte_dropped. Qed.
Print Assumptions C12_odd_length_refuted.
(** "aЯ€😀" *)
Example C12_ex : Forall scalar [0x61; 0x42f; 0x20ac; 0x1f600] /\
  utf8_of [0x61; 0x42f; 0x20ac; 0x1f600] = [0x61; 0xd0;0xaf; 0xe2;0x82;0xac; 0xf0;0x9f;0x98;0x80] /\
  le16 (utf16_of [0x61; 0x42f; 0x20ac; 0x1f600]) = [0x61;0; 0x2f;4; 0xac;0x20; 0x3d;0xd8;0;0xde] /\
  ucs2_to_utf8 [0;0xdc] = Throw /\ utf8to16 [0xc0;0x80] = Throw.
Proof.
  split; [unfold scalar; repeat (apply Forall_cons; [lia|]); constructor|]. repeat split.
Qed.

(** C13: case-insensitive equality is an equivalence on valid texts. *)
Theorem C13_equal_ic_equivalence :
  forall a b c, Forall scalar a -> Forall scalar b -> Forall scalar c ->
  equal_ic (utf8_of a) (utf8_of a) = Ok true /\
  (equal_ic (utf8_of a) (utf8_of b) = Ok true -> equal_ic (utf8_of b) (utf8_of a) = Ok true) /\
  (equal_ic (utf8_of a) (utf8_of b) = Ok true -> equal_ic (utf8_of b) (utf8_of c) = Ok true ->
   equal_ic (utf8_of a) (utf8_of c) = Ok true).
Proof. exact equal_ic_equivalence. Qed.
Print Assumptions C13_equal_ic_equivalence.
(** C13: it holds exactly when the texts before their first NUL agree letter by letter
    up to Latin/Russian case. *)
Theorem C13_equal_ic_exact :
  forall a b, Forall scalar a -> Forall scalar b ->
  exists r, equal_ic (utf8_of a) (utf8_of b) = Ok r /\
    (r = true <-> Forall2 same_letter (before_nul a) (before_nul b)).
Proof. exact equal_ic_of. Qed.
Print Assumptions C13_equal_ic_exact.
(** C13: lower-casing a text without NUL keeps every letter up to case, the number of
    characters and bytes, and is idempotent. *)
Theorem C13_lower_case :
  forall cps, Forall scalar cps -> ~ In 0 cps ->
  exists low, lower_case (utf8_of cps) = Ok (utf8_of low) /\ length low = length cps /\
    Forall scalar low /\ Forall2 same_letter cps low /\ length (utf8_of low) = length (utf8_of cps) /\
    lower_case (utf8_of low) = Ok (utf8_of low).
Proof. exact lower_properties. Qed.
Print Assumptions C13_lower_case.
(** C13 fails for all names containing NUL: everything after it is ignored. *)
Theorem C13_nul_truncates_refuted :
  forall a b c, Forall scalar a -> Forall scalar b -> Forall scalar c -> equal_ic (utf8_of (a ++ 0 :: b)) (utf8_of (a ++ 0 :: c)) = Ok true.
Proof.
  intros a b c A B C. assert (Z0 : scalar 0) by (unfold scalar; lia).
  destruct (equal_ic_of (a ++ 0 :: b) (a ++ 0 :: c)) as (r & -> & E); [apply Forall_app; split; [exact A|now constructor]..|].
  f_equal. apply E. replace (before_nul (a ++ 0 :: c)) with (before_nul (a ++ 0 :: b)).
  - generalize (before_nul (a ++ 0 :: b)). clear. intros l. induction l as [|x l IH]; [constructor|constructor; [now left|exact IH]].
  - unfold before_nul. clear. induction a as [|x a IH]; [reflexivity|]. cbn [app cstr]. now rewrite IH.
Qed.
Print Assumptions C13_nul_truncates_refuted.
Example C13_nul_ex : ~ Forall2 same_letter ([97] ++ 0 :: [98]) ([97] ++ 0 :: [99]) /\ equal_ic (utf8_of [97;0;98]) (utf8_of [97;0;99]) = Ok true.
Proof.
  split; [|reflexivity]. unfold same_letter, case_pair. intros H. inversion H as [|? ? ? ? _ H2]; subst. inversion H2 as [|? ? ? ? _ H3]; subst. inversion H3; subst. lia.
Qed.
(** "Config" / "cONFIG", "Ёж" / "ёЖ" *)
Example C13_ex : equal_ic (utf8_of [67;111;110;102;105;103]) (utf8_of [99;79;78;70;73;71]) = Ok true /\
  equal_ic (utf8_of [0x401;0x436]) (utf8_of [0x451;0x416]) = Ok true /\
  equal_ic (utf8_of [0x401]) (utf8_of [0x415]) = Ok false.
Proof. repeat split. Qed.

(** C57: the suffix test is exact when the cut falls between characters, is false when
    the suffix is longer, and in all other cases raises an exception. *)
Theorem C57_ends_with_ic_partial :
  forall s sfx, Forall scalar s -> Forall scalar sfx -> sfx <> [] ->
  (length (utf8_of s) < length (utf8_of sfx))%nat /\ ends_with_ic (utf8_of s) (utf8_of sfx) = Ok false \/
  (exists p q, s = p ++ q /\ length (utf8_of q) = length (utf8_of sfx) /\
     ends_with_ic (utf8_of s) (utf8_of sfx) = equal_ic (utf8_of q) (utf8_of sfx)) \/
  (~ (exists p q, s = p ++ q /\ length (utf8_of q) = length (utf8_of sfx)) /\
     ends_with_ic (utf8_of s) (utf8_of sfx) = Throw).
Proof. exact ends_with_ic_char. Qed.
Print Assumptions C57_ends_with_ic_partial.
(** C57 is false: whenever the cut falls inside a character an exception escapes. *)
Theorem C57_ends_with_ic_throws_refuted :
  forall s sfx, Forall scalar s -> Forall scalar sfx -> sfx <> [] -> (length (utf8_of sfx) <= length (utf8_of s))%nat ->
  ~ (exists p q, s = p ++ q /\ length (utf8_of q) = length (utf8_of sfx)) -> ends_with_ic (utf8_of s) (utf8_of sfx) = Throw.
Proof.
  intros s sfx A B N L C. destruct (ends_with_ic_char s sfx A B N) as [(H & _)|[(p & q & E & H & _)|(_ & H)]]; [lia| |exact H].
  elim C. now exists p, q.
Qed.
Print Assumptions C57_ends_with_ic_throws_refuted.
Example C57_throws_ex : ~ (exists p q, [0x430; 0x44f] = p ++ q /\ length (utf8_of q) = length (utf8_of [46; 120; 98])) /\ ends_with_ic (utf8_of [0x430; 0x44f]) (utf8_of [46; 120; 98]) = Throw.
Proof.
  split; [|reflexivity]. intros (p & q & E & L). destruct p as [|a [|b [|c p]]]; cbn [app] in E; try (subst q; discriminate L); try (injection E as _ E; subst q; discriminate L); try (injection E as _ _ E; subst q; discriminate L); discriminate E.
Qed.
(** "я.CF" ends with ".cf" *)
Example C57_ex : ends_with_ic (utf8_of [0x44f;46;67;70]) (utf8_of [46;99;102]) = Ok true.
Proof. reflexivity. Qed.

(** C58: a digit text is read as its value if that fits an int, otherwise an exception
    escapes instead of the default being returned. *)
Theorem C58_to_int_def_digits_partial :
  forall ds dflt, ds <> [] -> Forall (fun d => 0 <= d <= 9) ds ->
  to_int_def (map (fun d => d + 48) ds) dflt =
    if digits_value ds <=? 2147483647 then Ok (digits_value ds) else Throw.
Proof. exact to_int_def_digits. Qed.
Print Assumptions C58_to_int_def_digits_partial.
Theorem C58_to_int_def_throws_refuted :
  exists s, forall dflt, to_int_def s dflt = Throw.
Proof. exact to_int_def_throws. Qed.
Print Assumptions C58_to_int_def_throws_refuted.
Example C58_ex : to_int_def [50;49;52;55;52;56;51;54;52;55] 0 = Ok 2147483647 /\ to_int_def [120] 7 = Ok 7.
Proof. split; reflexivity. Qed.
