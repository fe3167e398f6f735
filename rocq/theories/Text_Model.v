(** Unicode conversions, letter case and number parsing of texts.
    Sources under /repo/src/tool1cd/SystemClasses: utf8/core.h, utf8/checked.h,
    String.cpp, System.SysUtils.cpp. *)
From Verif Require Import Prelude.

(** ** utf8/core.h *)

(** is_trail, core.h:68-71 *)
Definition is_trail (b : Z) : bool := Z.shiftr (Z.land b 255) 6 =? 2.
(** is_lead_surrogate, is_trail_surrogate, is_surrogate, core.h:74-90 *)
Definition is_lead_surrogate (c : Z) : bool := (0xd800 <=? c) && (c <=? 0xdbff).
Definition is_trail_surrogate (c : Z) : bool := (0xdc00 <=? c) && (c <=? 0xdfff).
Definition is_surrogate (c : Z) : bool := (0xd800 <=? c) && (c <=? 0xdfff).
(** is_code_point_valid, core.h:93-96 *)
Definition cp_valid (c : Z) : bool := (c <=? 0x10ffff) && negb (is_surrogate c).
(** sequence_length, core.h:98-113 *)
Definition seq_length (lead : Z) : Z :=
  if lead <? 0x80 then 1
  else if Z.shiftr lead 5 =? 0x6 then 2
  else if Z.shiftr lead 4 =? 0xe then 3
  else if Z.shiftr lead 3 =? 0x1e then 4
  else 0.
(** is_overlong_sequence, core.h:115-132 *)
Definition overlong (cp len : Z) : bool :=
  if cp <? 0x80 then negb (len =? 1)
  else if cp <? 0x800 then negb (len =? 2)
  else if cp <? 0x10000 then negb (len =? 3)
  else false.

(** increase_safely, core.h:137-147, on the bytes after the current one *)
Definition trail_next (t : list Z) : res (Z * list Z) :=
  match t with
  | [] => Throw
  | b :: t' => if is_trail b then Ok (b, t') else Throw
  end.

(** get_sequence_1..4, core.h:153-220: code point and the bytes after the sequence *)
Definition get_sequence (len : Z) (lead : Z) (t : list Z) : res (Z * list Z) :=
  if len =? 1 then Ok (lead, t)
  else if len =? 2 then
    do (b1, t) <- trail_next t;
    Ok (Z.land (Z.shiftl lead 6) 0x7ff + Z.land b1 0x3f, t)
  else if len =? 3 then
    do (b1, t) <- trail_next t;
    do (b2, t) <- trail_next t;
    Ok (Z.land (Z.shiftl lead 12) 0xffff + Z.land (Z.shiftl b1 6) 0xfff + Z.land b2 0x3f, t)
  else if len =? 4 then
    do (b1, t) <- trail_next t;
    do (b2, t) <- trail_next t;
    do (b3, t) <- trail_next t;
    Ok (Z.land (Z.shiftl lead 18) 0x1fffff + Z.land (Z.shiftl b1 12) 0x3ffff
        + Z.land (Z.shiftl b2 6) 0xfff + Z.land b3 0x3f, t)
  else Throw.

(** validate_next (core.h:224-272) as used by utf8::next (checked.h:143-161); every
    error code is thrown *)
Definition utf8_next (bs : list Z) : res (Z * list Z) :=
  match bs with
  | [] => Throw
  | lead :: t =>
      let len := seq_length lead in
      do (cp, t') <- get_sequence len lead t;
      if cp_valid cp then (if overlong cp len then Throw else Ok (cp, t')) else Throw
  end.

(** append, checked.h:74-98 *)
Definition utf8_append (cp : Z) : res (list Z) :=
  if negb (cp_valid cp) then Throw
  else if cp <? 0x80 then Ok [cp mod 256]
  else if cp <? 0x800 then
    Ok [Z.lor (Z.shiftr cp 6) 0xc0 mod 256; Z.lor (Z.land cp 0x3f) 0x80 mod 256]
  else if cp <? 0x10000 then
    Ok [Z.lor (Z.shiftr cp 12) 0xe0 mod 256; Z.lor (Z.land (Z.shiftr cp 6) 0x3f) 0x80 mod 256;
        Z.lor (Z.land cp 0x3f) 0x80 mod 256]
  else
    Ok [Z.lor (Z.shiftr cp 18) 0xf0 mod 256; Z.lor (Z.land (Z.shiftr cp 12) 0x3f) 0x80 mod 256;
        Z.lor (Z.land (Z.shiftr cp 6) 0x3f) 0x80 mod 256; Z.lor (Z.land cp 0x3f) 0x80 mod 256].

(** SURROGATE_OFFSET, core.h:51: 0x10000 - (0xd800 << 10) - 0xdc00 in uint32_t *)
Definition surrogate_offset : Z := u32 (0x10000 - Z.shiftl 0xd800 10 - 0xdc00).
(** LEAD_OFFSET, core.h:50 *)
Definition lead_offset : Z := 0xd800 - Z.shiftr 0x10000 10.

(** utf16to8, checked.h:210-234 *)
Fixpoint utf16to8 (us : list Z) : res (list Z) :=
  match us with
  | [] => Ok []
  | u :: t =>
      if is_lead_surrogate u then
        match t with
        | [] => Throw
        | v :: t' =>
            if is_trail_surrogate v then
              do a <- utf8_append (u32 (u32 (Z.shiftl u 10) + v + surrogate_offset));
              do r <- utf16to8 t';
              Ok (a ++ r)
            else Throw
        end
      else if is_trail_surrogate u then Throw
      else
        do a <- utf8_append u;
        do r <- utf16to8 t;
        Ok (a ++ r)
  end.

(** body of the loop of utf8to16, checked.h:240-246 *)
Definition to_units (cp : Z) : list Z :=
  if 0xffff <? cp then
    [(Z.shiftr cp 10 + lead_offset) mod 65536; (Z.land cp 0x3ff + 0xdc00) mod 65536]
  else [cp mod 65536].

(** decoding loop shared by utf8to16 (checked.h:237-250) and by the iteration in
    LowerCase (String.cpp:121-129): code points of a whole text.  Each round consumes
    at least one byte, so the fuel (length + 1) cannot run out. *)
Fixpoint utf8_decode (fuel : nat) (bs : list Z) : res (list Z) :=
  match fuel with
  | O => Hang
  | S k =>
      match bs with
      | [] => Ok []
      | _ =>
          do (cp, t) <- utf8_next bs;
          do r <- utf8_decode k t;
          Ok (cp :: r)
      end
  end.
Definition decode (bs : list Z) : res (list Z) := utf8_decode (S (length bs)) bs.

(** utf8to16, checked.h:237-250 *)
Definition utf8to16 (bs : list Z) : res (list Z) :=
  do cps <- decode bs; Ok (flat_map to_units cps).

(** TUcs2Encoding::fromUtf8, System.SysUtils.cpp:87-100 *)
Definition ucs2_from_utf8 (s : list Z) : res (list Z) :=
  do us <- utf8to16 s;
  Ok (flat_map (fun u => [Z.land u 255; Z.shiftr u 8]) us).

(** (Buffer.size() - offset) / 2 little-endian units, System.SysUtils.cpp:80-81 *)
Fixpoint units_of (bs : list Z) : list Z :=
  match bs with
  | a :: b :: t => (a + 256 * b) :: units_of t
  | _ => []
  end.
(** TUcs2Encoding::toUtf8 with offset 0, System.SysUtils.cpp:78-85 *)
Definition ucs2_to_utf8 (bs : list Z) : res (list Z) := utf16to8 (units_of bs).

(** GetBufferEncoding, System.SysUtils.cpp:127-143: which encoding (0 none, 1 UTF-8,
    2 Unicode) and the length of its preamble *)
Definition starts_with (p bs : list Z) : bool :=
  if list_eq_dec Z.eq_dec (firstn (length p) bs) p then true else false.
Definition buffer_encoding (bs : list Z) : Z * Z :=
  if (length [0xEF;0xBB;0xBF] <=? length bs)%nat && starts_with [0xEF;0xBB;0xBF] bs then (1, 3)
  else if (length [0xFF;0xFE] <=? length bs)%nat && starts_with [0xFF;0xFE] bs then (2, 2)
  else (0, 0).

(** ** Letter case, String.cpp *)

(** __to_lower, String.cpp:37-47 *)
Definition to_lower (c : Z) : Z :=
  if (65 <=? c) && (c <=? 90) then c - 65 + 97
  else if c =? 0x0401 then 0x0451
  else if (0x0410 <=? c) && (c <=? 0x042F) then c - 0x0410 + 0x430
  else c.
(** __to_upper, String.cpp:50-60 *)
Definition to_upper (c : Z) : Z :=
  if (97 <=? c) && (c <=? 122) then c - 97 + 65
  else if c =? 0x0451 then 0x0401
  else if (0x0430 <=? c) && (c <=? 0x044F) then c - 0x0430 + 0x410
  else c.

Fixpoint append_all (cps : list Z) : res (list Z) :=
  match cps with
  | [] => Ok []
  | c :: t => do a <- utf8_append c; do r <- append_all t; Ok (a ++ r)
  end.

(** the C string starting at a buffer: up to the first NUL *)
Fixpoint cstr (bs : list Z) : list Z :=
  match bs with
  | [] => []
  | b :: t => if b =? 0 then [] else b :: cstr t
  end.

(** LowerCase / UpperCase, String.cpp:117-133 and 135-151: decode, map, append into a
    buffer of size()+1 zero bytes (a longer result would overrun it), overwrite the
    last byte with NUL, return the buffer as a C string. *)
Definition map_case (f : Z -> Z) (s : list Z) : res (list Z) :=
  do cps <- decode s;
  do out <- append_all (map f cps);
  if (length s + 1 <? length out)%nat then UB
  else
    let buf := out ++ repeat 0 (length s + 1 - length out) in
    Ok (cstr (firstn (length s) buf ++ [0])).
Definition lower_case := map_case to_lower.
Definition upper_case := map_case to_upper.

(** std::string::compare through char_traits: unsigned byte order *)
Fixpoint str_compare (a b : list Z) : Z :=
  match a, b with
  | [], [] => 0
  | [], _ => -1
  | _, [] => 1
  | x :: a', y :: b' => if x <? y then -1 else if y <? x then 1 else str_compare a' b'
  end.

(** CompareIC, EqualIC, String.cpp:158-166 *)
Definition compare_ic (a b : list Z) : res Z :=
  do la <- lower_case a; do lb <- lower_case b; Ok (str_compare la lb).
Definition equal_ic (a b : list Z) : res bool :=
  do c <- compare_ic a b; Ok (c =? 0).

(** EndsWithIC, String.cpp:173-182 *)
Definition ends_with_ic (s sfx : list Z) : res bool :=
  match sfx with
  | [] => Ok true
  | _ => if (length s <? length sfx)%nat then Ok false
         else equal_ic (skipn (length s - length sfx) s) sfx
  end.

(** std::stoi in base 10: leading white space, optional sign, digits; [None] is
    invalid_argument *)
Definition is_space (c : Z) : bool := (c =? 32) || ((9 <=? c) && (c <=? 13)).
Fixpoint skip_space (s : list Z) : list Z :=
  match s with c :: t => if is_space c then skip_space t else s | [] => [] end.
Fixpoint take_digits (s : list Z) (acc : option Z) : option Z :=
  match s with
  | c :: t => if (48 <=? c) && (c <=? 57)
              then take_digits t (Some (10 * (match acc with Some a => a | None => 0 end) + (c - 48)))
              else acc
  | [] => acc
  end.
Definition strtol10 (s : list Z) : option Z :=
  match skip_space s with
  | 45 :: t => option_map Z.opp (take_digits t None)
  | 43 :: t => take_digits t None
  | t => take_digits t None
  end.
(** ToIntDef, String.cpp:184-191: invalid_argument gives the default, out_of_range
    (value not representable in int) escapes *)
Definition to_int_def (s : list Z) (dflt : Z) : res Z :=
  match strtol10 s with
  | None => Ok dflt
  | Some v => if (v <? -2147483648) || (2147483647 <? v) then Throw else Ok v
  end.
