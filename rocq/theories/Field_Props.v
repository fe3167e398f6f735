(** Properties of fields, their keys and their texts. *)
From Verif Require Import Prelude Lists Field_Model Field_Spec Field_Keys Field_Proofs.

(** ** C30: the key of a field sorts as its value does *)
Theorem C30_key_order : forall f a b ra rb ba bb,
  f_null f = false -> value_ok (f_kind f) (f_len f) a -> value_ok (f_kind f) (f_len f) b -> at_ ra (f_off f) a -> at_ rb (f_off f) b ->
  extent f <= zlen ba -> extent f <= zlen bb ->
  exists ka kb, field_key f ra 0 ba 0 (zlen ba) = Ok (ka ++ skipn (length ka) ba, extent f) /\ field_key f rb 0 bb 0 (zlen bb) = Ok (kb ++ skipn (length kb) bb, extent f) /\
    zlen ka = extent f /\ zlen kb = extent f /\ lex ka kb = value_cmp (f_kind f) (f_len f) a b.
Proof. exact field_key_cmp_w. Qed.
Print Assumptions C30_key_order.
(** -12, 5 and -7 in a number of three digits *)
Example C30_nonvacuous :
  let f := FD KNum false 3 1 in let m12 := [0; 18] in let p5 := [16; 5] in let m7 := [0; 7] in
  value_ok KNum 3 m12 /\ value_ok KNum 3 p5 /\ num_value 3 m12 = -12 /\ num_value 3 p5 = 5 /\ num_value 3 m7 = -7 /\
  field_key f (9 :: m12) 0 [0;0;0] 0 3 = Ok ([9; 136; 0], 2) /\ field_key f (9 :: m7) 0 [0;0;0] 0 3 = Ok ([9; 147; 0], 2) /\ field_key f (9 :: p5) 0 [0;0;0] 0 3 = Ok ([16; 5; 0], 2).
Proof.
  cbv zeta. assert (B : forall a b, 0 <= a < 256 -> 0 <= b < 256 -> bytes_ok [a; b]) by (intros a b Ha Hb; apply Forall_cons; [exact Ha|apply Forall_cons; [exact Hb|apply Forall_nil]]).
  assert (N : forall a b, forallb (fun d => d <=? 9) (nibs [a; b]) = true -> Forall (fun d => d <= 9) (nibs [a; b])) by (intros a b H; apply Forall_forall; intros x Hx; rewrite forallb_forall in H; specialize (H x Hx); lia).
  split; [|split].
  - split; [lia|]. split; [apply B; lia|]. split; [reflexivity|]. split; [apply N; reflexivity|]. split; [vm_compute; discriminate|reflexivity].
  - split; [lia|]. split; [apply B; lia|]. split; [reflexivity|]. split; [apply N; reflexivity|]. split; [vm_compute; discriminate|reflexivity].
  - repeat apply conj; vm_compute; reflexivity.
Qed.

(** ** C31: keys of nullable fields *)
(** NULL in a buffer of the size of the field: a byte behind the buffer is written *)
Theorem C31_null_overrun_refuted : forall f rec buf, f_null f = true -> 0 <= f_off f -> rd rec (f_off f) = Ok 0 -> 1 < extent f <= 4096 -> zlen buf = extent f ->
  field_key f rec 0 buf 0 (zlen buf) = UB.
Proof. exact null_key_over_w. Qed.
Print Assumptions C31_null_overrun_refuted.
(** with a spare byte NULL sorts first, but the returned size is 0 although size + 1 bytes are stored *)
Theorem C31_null_size_refuted : forall f rec buf, f_null f = true -> 0 <= f_off f -> rd rec (f_off f) = Ok 0 -> 1 < extent f <= 4096 -> extent f < zlen buf ->
  field_key f rec 0 buf 0 (zlen buf) = Ok (0 :: 1 :: repeat 0 (Z.to_nat (extent f - 1)) ++ skipn (Z.to_nat (extent f + 1)) buf, 0).
Proof. exact null_key_w. Qed.
Print Assumptions C31_null_size_refuted.
(** NULL before every value, if the buffer has a spare byte *)
Theorem C31_null_first_partial : forall f rec0 rec1 a buf0 buf1, f_null f = true -> value_ok (f_kind f) (f_len f) a -> 0 <= f_off f -> rd rec0 (f_off f) = Ok 0 -> at_ rec1 (f_off f) (1 :: a) ->
  extent f <= 4096 -> extent f < zlen buf0 -> extent f <= zlen buf1 ->
  exists k0 k1 n0 n1, field_key f rec0 0 buf0 0 (zlen buf0) = Ok (k0, n0) /\ field_key f rec1 0 buf1 0 (zlen buf1) = Ok (k1, n1) /\ lex k0 k1 = Lt.
Proof. exact null_before_w. Qed.
Print Assumptions C31_null_first_partial.
(** values in order; the returned size is one less than the number of bytes stored *)
Theorem C31_values_partial : forall f a b ra rb ba bb, f_null f = true -> value_ok (f_kind f) (f_len f) a -> value_ok (f_kind f) (f_len f) b -> 0 <= f_off f ->
  at_ ra (f_off f) (1 :: a) -> at_ rb (f_off f) (1 :: b) -> extent f <= zlen ba -> extent f <= zlen bb ->
  exists ka kb, field_key f ra 0 ba 0 (zlen ba) = Ok (ka ++ skipn (length ka) ba, extent f - 1) /\ field_key f rb 0 bb 0 (zlen bb) = Ok (kb ++ skipn (length kb) bb, extent f - 1) /\
    zlen ka = extent f /\ zlen kb = extent f /\ lex ka kb = value_cmp (f_kind f) (f_len f) a b.
Proof. exact set_order_w. Qed.
Print Assumptions C31_values_partial.
Example C31_nonvacuous :
  let f := FD KBin true 2 1 in value_ok KBin 2 [7; 8] /\ at_ [0; 1; 7; 8] 1 [1; 7; 8] /\ rd [0; 0; 7; 8] 1 = Ok 0 /\ extent f = 3 /\
  field_key f [0; 0; 7; 8] 0 [9;9;9] 0 3 = UB /\ field_key f [0; 0; 7; 8] 0 [9;9;9;9;9] 0 5 = Ok ([0; 1; 0; 0; 9], 0) /\ field_key f [0; 1; 7; 8] 0 [9;9;9;9;9] 0 5 = Ok ([1; 7; 8; 9; 9], 2).
Proof.
  cbv zeta. split; [split; [lia|split; [apply Forall_cons; [unfold byte_ok; lia|apply Forall_cons; [unfold byte_ok; lia|apply Forall_nil]]|reflexivity]]|]. split; [split; [lia|reflexivity]|]. repeat apply conj; vm_compute; reflexivity.
Qed.

(** ** C80: the index key of a record is made from the field's own bytes *)
(** it is made from the bytes at twice the offset *)
Theorem C80_double_offset_refuted : forall f rec buf, f_null f = false -> (f_kind f = KBin \/ f_kind f = KDate \/ f_kind f = KBool) -> 0 <= f_off f -> 0 < extent f -> zlen buf = extent f ->
  calc_record_index [f] rec buf = rdn rec (2 * f_off f) (extent f).
Proof. exact calc_one_w. Qed.
Print Assumptions C80_double_offset_refuted.
(** so another value of the field gives the same key *)
Theorem C80_value_ignored_refuted : forall f rec buf d, f_null f = false -> 0 <= f_off f -> zlen d = extent f -> extent f <= f_off f -> f_off f + extent f <= zlen rec ->
  calc_record_index [f] (splice rec (Z.to_nat (f_off f)) d) buf = calc_record_index [f] rec buf.
Proof. exact calc_ignores_w. Qed.
Print Assumptions C80_value_ignored_refuted.
Example C80_nonvacuous : let f := FD KBin false 2 3 in let rec := [0; 1; 2; 3; 4; 5; 6; 7] in
  calc_record_index [f] rec [0; 0] = Ok [6; 7] /\ calc_record_index [f] (splice rec 3 [77; 78]) [0; 0] = Ok [6; 7] /\ get_value f rec = Ok [3; 4] /\
  calc_record_index [FD KBin false 2 4] rec [0; 0] = UB.
Proof. cbv zeta. repeat apply conj; vm_compute; reflexivity. Qed.

(** ** C81: the key of an index over text fields depends on the texts *)
Theorem C81_text_keys_refuted : forall fs rec buf, Forall (fun f => f_null f = false /\ (f_kind f = KChar \/ f_kind f = KVarchar)) fs -> calc_record_index fs rec buf = Ok (repeat 0 (length buf)).
Proof. exact calc_text. Qed.
Print Assumptions C81_text_keys_refuted.
Example C81_nonvacuous : let f := FD KChar false 1 1 in let g := FD KVarchar false 1 3 in
  Forall (fun f => f_null f = false /\ (f_kind f = KChar \/ f_kind f = KVarchar)) [f; g] /\
  calc_record_index [f; g] [0; 65; 0; 1; 0; 66; 0] [1; 2; 3; 4; 5; 6] = calc_record_index [f; g] [0; 67; 0; 1; 0; 68; 0] [1; 2; 3; 4; 5; 6].
Proof. cbv zeta. split; [apply Forall_cons; [auto|apply Forall_cons; [auto|apply Forall_nil]]|vm_compute; reflexivity]. Qed.

(** ** C33: the declared fields tile the record behind the mark *)
Theorem C33_layout : forall fs fs' L, Forall (fun f => 0 < extent f) fs -> layout (length fs) fs = (fs', L) ->
  Forall2 same_decl fs fs' /\ L = Z.max 5 (1 + total fs) /\
  Forall (fun f => 1 <= f_off f /\ f_end f <= 1 + total fs) fs' /\
  (forall i j f g, i <> j -> nth_error fs' i = Some f -> nth_error fs' j = Some g -> f_end f <= f_off g \/ f_end g <= f_off f) /\
  (forall x, 1 <= x < 1 + total fs -> exists f, In f fs' /\ inside f x) /\
  (forall f g, In f fs' -> In g fs' -> is_version (f_kind f) = true -> is_version (f_kind g) = false -> f_end f <= f_off g).
Proof. exact layout_ok_w. Qed.
Print Assumptions C33_layout.
Example C33_nonvacuous : let fs := [FD KBin false 16 0; FD KVersion false 0 0; FD KNum true 5 0; FD KVarchar false 10 0] in
  Forall (fun f => 0 < extent f) fs /\ layout 4 fs = ([FD KBin false 16 17; FD KVersion false 0 1; FD KNum true 5 33; FD KVarchar false 10 37], 59).
Proof. cbv zeta. split; [repeat (apply Forall_cons; [vm_compute; reflexivity|]); apply Forall_nil|vm_compute; reflexivity]. Qed.

(** ** C82: the hidden version field has its place in the record *)
Theorem C82_hidden_version_refuted : forall decl, existsb (fun f => match f_kind f with KVersion => true | _ => false end) decl = false ->
  fst (table_fields decl true) = fst (table_fields decl false) ++ [FD KVersion8 false 0 0] /\ snd (table_fields decl true) = snd (table_fields decl false).
Proof. exact hidden_version. Qed.
Print Assumptions C82_hidden_version_refuted.
Example C82_nonvacuous : let d := [FD KBin false 16 0; FD KNum true 5 0] in
  table_fields d true = ([FD KBin false 16 1; FD KNum true 5 17; FD KVersion8 false 0 0], 21) /\ 21 < 1 + total (fst (table_fields d true)).
Proof. cbv zeta. split; vm_compute; reflexivity. Qed.

(** ** C34: setting a field changes that field only *)
Theorem C34_set_data : forall f d rec, f_null f = false -> 0 <= f_off f -> f_end f <= zlen rec -> zlen d = extent f ->
  exists rec', set_data f d rec = Ok rec' /\ zlen rec' = zlen rec /\ get_value f rec' = Ok d /\ is_null f rec' = Ok false /\
    (forall g, apart f g -> 0 <= width (f_kind g) (f_len g) -> get_value g rec' = get_value g rec /\ is_null g rec' = is_null g rec).
Proof. exact set_data_ok_w. Qed.
Print Assumptions C34_set_data.
Theorem C34_set_null : forall f rec, f_null f = true -> 0 <= f_off f -> f_end f <= zlen rec -> 0 <= width (f_kind f) (f_len f) ->
  exists rec', set_null f rec = Ok rec' /\ zlen rec' = zlen rec /\ is_null f rec' = Ok true /\ get_value f rec' = get_value f rec /\
    (forall g, apart f g -> 0 <= width (f_kind g) (f_len g) -> get_value g rec' = get_value g rec /\ is_null g rec' = is_null g rec).
Proof. exact set_null_ok_w. Qed.
Print Assumptions C34_set_null.
Theorem C34_assign : forall src dst, zlen src = zlen dst -> assign src dst true = Ok src.
Proof. exact assign_ok. Qed.
Print Assumptions C34_assign.
(** ** C86: storing a value in a field that can be NULL changes that field only *)
(** the byte behind it is overwritten *)
Theorem C86_next_byte_refuted : forall f d x rec, f_null f = true -> 0 <= f_off f -> f_end f < zlen rec -> 0 <= width (f_kind f) (f_len f) -> zlen d = width (f_kind f) (f_len f) ->
  exists rec', set_data f (d ++ [x]) rec = Ok rec' /\ get_value f rec' = Ok d /\ is_null f rec' = Ok false /\ rd rec' (f_end f) = Ok x.
Proof. exact set_nullable_w. Qed.
Print Assumptions C86_next_byte_refuted.
(** and a byte behind the given value is read *)
Theorem C86_source_refuted : forall f d rec, f_null f = true -> 0 <= f_off f -> f_end f <= zlen rec -> 0 <= width (f_kind f) (f_len f) -> zlen d = width (f_kind f) (f_len f) -> set_data f d rec = UB.
Proof. exact set_nullable_source_w. Qed.
Print Assumptions C86_source_refuted.
Theorem C86_last_field_refuted : forall f d rec, f_null f = true -> 0 <= f_off f -> f_end f = zlen rec -> 0 <= width (f_kind f) (f_len f) -> set_data f d rec = UB.
Proof. exact set_nullable_last_w. Qed.
Print Assumptions C86_last_field_refuted.
Example C34_nonvacuous : let f := FD KBin false 2 1 in let g := FD KBin true 2 3 in let h := FD KBool false 1 6 in let rec := [0; 1; 2; 1; 4; 5; 0] in
  apart f g /\ apart g h /\ set_data f [8; 9] rec = Ok [0; 8; 9; 1; 4; 5; 0] /\ set_null g rec = Ok [0; 1; 2; 0; 4; 5; 0] /\
  set_data g [8; 9; 77] rec = Ok [0; 1; 2; 1; 8; 9; 77] /\ set_data g [8; 9] rec = UB /\ set_data (FD KBin true 2 4) [8; 9; 77] rec = UB /\ assign [1;2;3] [4;5;6] true = Ok [1;2;3].
Proof. cbv zeta. split; [left; vm_compute; discriminate|]. split; [left; vm_compute; discriminate|]. repeat apply conj; vm_compute; reflexivity. Qed.

(** ** C83: a text stored in a text field is read back *)
Theorem C83_overread_refuted : forall length t, 2 <= zlen t <= length -> char_of_text length t = UB /\ varchar_of_text length t = UB.
Proof. exact char_over. Qed.
Print Assumptions C83_overread_refuted.
(** a long text: the UTF-8 bytes themselves, two to a character *)
Theorem C83_raw_bytes_refuted : forall length t, 0 < length -> 2 * length <= zlen t -> char_of_text length t = Ok (firstn (Z.to_nat (2 * length)) t).
Proof. exact char_long. Qed.
Print Assumptions C83_raw_bytes_refuted.
(** texts of at most one byte *)
Theorem C83_short_partial : forall length c, 0 < length -> char_of_text length [c] = Ok (utf16 [c] ++ blanks (length - 1)) /\ char_of_text length [] = Ok (blanks length).
Proof. exact char_one. Qed.
Print Assumptions C83_short_partial.
Example C83_nonvacuous : char_of_text 3 [65; 66] = UB /\ char_of_text 2 [65; 66; 67; 68] = Ok [65; 66; 67; 68] /\ utf16 [65; 66] = [65; 0; 66; 0] /\ char_of_text 2 [65] = Ok [65; 0; 32; 0].
Proof. repeat apply conj; vm_compute; reflexivity. Qed.

(** ** C84: the text of a binary value is read back as that value *)
(** the first digit is skipped *)
Theorem C84_shifted_refuted : forall bs, bytes_ok bs -> bs <> [] -> exists r, bin_of_text (zlen bs) (hex_text bs) = Ok r /\ nibs r = tl (nibs bs) ++ [0].
Proof. exact bin_shift. Qed.
Print Assumptions C84_shifted_refuted.
(** the shown text ends with two characters 0 *)
Theorem C84_trailing_refuted : forall bs, bytes_ok bs -> text_of_bin bs = hex_text bs ++ [0; 0].
Proof. exact text_of_bin_ok. Qed.
Print Assumptions C84_trailing_refuted.
Example C84_nonvacuous : hex_text [18; 171] = [49; 50; 97; 98] /\ bin_of_text 2 [49; 50; 97; 98] = Ok [42; 176] /\ text_of_bin [18; 171] = [49; 50; 97; 98; 0; 0].
Proof. repeat apply conj; vm_compute; reflexivity. Qed.

(** ** C85: showing a variable-length text reads that field only *)
Theorem C85_own_bytes_partial : forall length rec fr, 0 <= length < 2^15 -> 0 <= fr -> fr + width KVarchar length <= zlen rec ->
  let c := le_val (sub rec (Z.to_nat fr) 2) in 0 <= c <= length -> varchar_bytes length rec fr = Ok (sub rec (Z.to_nat (fr + 2)) (Z.to_nat (2 * c))).
Proof. exact varchar_own_w. Qed.
Print Assumptions C85_own_bytes_partial.
(** a count beyond the declared length: two bytes of the next field are shown too *)
Theorem C85_next_field_refuted : forall length rec fr, 0 <= length < 2^15 -> 0 <= fr -> fr + width KVarchar length + 2 <= zlen rec ->
  let c := le_val (sub rec (Z.to_nat fr) 2) in (length + 1 < c < 2^16) -> varchar_bytes length rec fr = Ok (sub rec (Z.to_nat (fr + 2)) (Z.to_nat (2 * length + 2))).
Proof. exact varchar_over_w. Qed.
Print Assumptions C85_next_field_refuted.
Theorem C85_last_field_refuted : forall length rec fr, 0 <= length < 2^15 -> 0 <= fr -> fr + width KVarchar length = zlen rec ->
  let c := le_val (sub rec (Z.to_nat fr) 2) in (length + 1 < c < 2^16) -> varchar_bytes length rec fr = UB.
Proof. exact varchar_over_last_w. Qed.
Print Assumptions C85_last_field_refuted.
Example C85_nonvacuous : varchar_bytes 2 [9; 1; 0; 65; 0; 66; 0; 7; 8] 1 = Ok [65; 0] /\ varchar_bytes 2 [9; 5; 0; 65; 0; 66; 0; 7; 8] 1 = Ok [65; 0; 66; 0; 7; 8] /\ varchar_bytes 2 [9; 255; 255; 65; 0; 66; 0] 1 = UB.
Proof. repeat apply conj; vm_compute; reflexivity. Qed.
