(** Property theorems about the viewer of values (C177 - C182). *)
From Verif Require Import Prelude Hex_Model Hex_Spec Hex_Proofs Hex_More Hex_Keys.

(** C177: after any history of edits inside the document, undo and redo show the versions of the document, and both are
    possible exactly when there is a version to show *)
Theorem C177_history_partial l b : all_inside ([], b, []) l -> let '(past, now, later) := fold_left next l ([], b, []) in
  let d := fold_left call l (DC b [] []) in d_bytes d = now /\ (d_done d = [] <-> past = []) /\ (d_undone d = [] <-> later = []).
Proof. exact (history l b). Qed.
Print Assumptions C177_history_partial.
(** C177: undo of a replacement that goes past the end does not bring the document back *)
Theorem C177_replace_refuted b o x : (o <= length b)%nat -> d_bytes (undo (d_replace (DC b [] []) (Z.of_nat o) x)) = b ++ skipn (length b - o) x.
Proof. exact (replace_past b o x). Qed.
Print Assumptions C177_replace_refuted.
(** C177: undo of an insertion behind the end leaves spaces *)
Theorem C177_padding_refuted b o x d : (length b < o)%nat -> d_bytes (undo (d_insert (DC b [] []) (Z.of_nat o) (x :: d))) = b ++ repeat 32 (o - length b).
Proof. exact (insert_past b o x d). Qed.
Print Assumptions C177_padding_refuted.
Definition e_acts : list act := [AIns 1 [7; 8]; ADel 0 2; AUndo; ARep 3 [9]; AUndo; AUndo; ARedo; ARedo; ADel 2 9; AUndo].
Example C177_nonvacuous : all_inside ([], [1; 2; 3], []) e_acts /\ fold_left next e_acts ([], [1; 2; 3], []) = ([[1; 7; 8; 2; 3]; [1; 2; 3]], [1; 7; 8; 9; 3], [[1; 7]]) /\
  d_bytes (fold_left call e_acts (DC [1; 2; 3] [] [])) = [1; 7; 8; 9; 3] /\
  d_bytes (undo (d_replace (DC [1; 2; 3] [] []) 2 [7; 8; 9])) = [1; 2; 3; 8; 9] /\ d_bytes (undo (d_insert (DC [1] [] []) 3 [7])) = [1; 32; 32].
Proof. split; [cbn; lia|]. repeat split; reflexivity. Qed.

(** C178: text pasted in insert mode replaces a selection made backwards *)
Theorem C178_paste_partial v i j x text : backwards v i j -> (i <= length (bytes v))%nat -> bytes_ok x -> x <> [] -> text_for v x text -> ins v = true ->
  bytes (paste v text) = firstn i (bytes v) ++ x ++ skipn (j + 1) (bytes v).
Proof. exact (back_paste v i j x text). Qed.
Print Assumptions C178_paste_partial.
(** C178: and so does a character typed *)
Theorem C178_type_partial v i j key : backwards v i j -> (i <= length (bytes v))%nat -> 32 <= key <= 126 -> ins v = true -> hexa v = false ->
  option_map bytes (type_key v key) = Some (firstn i (bytes v) ++ [key] ++ skipn (j + 1) (bytes v)).
Proof. exact (type_back v i j key). Qed.
Print Assumptions C178_type_partial.
(** C178: after a selection made forwards the text is put as far behind its place as the selection was long; what is
    missing there is filled with spaces *)
Theorem C178_forwards_refuted v i j x text : forwards v i j -> (i <= length (bytes v))%nat -> bytes_ok x -> x <> [] -> text_for v x text -> ins v = true ->
  bytes (paste v text) = firstn i (bytes v) ++ firstn (j - i) (skipn (j + 1) (bytes v) ++ repeat 32 (j - i)) ++ x ++ skipn (j - i) (skipn (j + 1) (bytes v)).
Proof. exact (forw_paste v i j x text). Qed.
Print Assumptions C178_forwards_refuted.
(** C178: a character typed over the end of the document, selected forwards, comes behind spaces *)
Theorem C178_spaces_refuted v i j key : forwards v i j -> (length (bytes v) <= j + 1)%nat -> (i <= length (bytes v))%nat -> 32 <= key <= 126 -> hexa v = false ->
  option_map bytes (type_key v key) = Some (firstn i (bytes v) ++ repeat 32 (j - i) ++ [key]).
Proof. exact (type_forw v i j key). Qed.
Print Assumptions C178_spaces_refuted.
(** C178: in overwrite mode the bytes behind the selection are lost too *)
Theorem C178_overwrite_refuted v i j x text : backwards v i j -> (j + 1 + length x <= length (bytes v))%nat -> bytes_ok x -> x <> [] -> text_for v x text -> ins v = false ->
  bytes (paste v text) = firstn i (bytes v) ++ x ++ skipn (j + 1 + length x) (bytes v).
Proof. exact (over_paste v i j x text). Qed.
Print Assumptions C178_overwrite_refuted.
Definition e_doc : doc := DC [65; 66; 67; 68; 69; 70; 71; 72] [] [].
(** bytes 2 to 4 selected; [f] = forwards *)
Definition e_view (f ins hexa : bool) : view := VW e_doc (PS 0 (if f then 4 else 2) 1) (PS 0 (if f then 2 else 4) 1) ins hexa.
Example C178_nonvacuous : backwards (e_view false true false) 2 4 /\ forwards (e_view true true false) 2 4 /\ selected (e_view true true false) = [67; 68; 69] /\
  bytes (paste (e_view false true true) (digits [1; 171])) = [65; 66; 1; 171; 70; 71; 72] /\
  bytes (paste (e_view true true true) (digits [1; 171])) = [65; 66; 70; 71; 1; 171; 72] /\
  bytes (paste (e_view false false false) [120]) = [65; 66; 120; 71; 72] /\
  option_map bytes (type_key (e_view false true false) 120) = Some [65; 66; 120; 70; 71; 72] /\
  option_map bytes (type_key (VW e_doc (PS 0 7 1) (PS 0 5 1) false false) 120) = Some [65; 66; 67; 68; 69; 32; 32; 120].
Proof. split; [unfold backwards, on_grid; cbn; lia|]. split; [unfold forwards, on_grid; cbn; lia|]. repeat split; reflexivity. Qed.

(** C179: a search finds the first place not before the cursor, and selects it when it is in one line *)
Theorem C179_search_partial v p o : p <> [] -> offset (at_ v) = Z.of_nat o ->
  (fst (search v p) = -1 /\ snd (search v p) = v /\ forall i, (o <= i)%nat -> ~ occurs (bytes v) p i) \/
  (exists i, fst (search v p) = Z.of_nat i /\ (o <= i)%nat /\ occurs (bytes v) p i /\ (forall k, (o <= k < i)%nat -> ~ occurs (bytes v) p k) /\
     ((2 <= length p)%nat -> (i mod 16 + length p <= 16)%nat -> selected (snd (search v p)) = p)).
Proof. exact (search_ok v p o). Qed.
Print Assumptions C179_search_partial.
(** C179: a search backwards finds the last place before the selection *)
Theorem C179_back_partial v p s : p <> [] -> begins v (S s) -> (s <= length (bytes v))%nat ->
  (fst (search_back v p) = -1 /\ forall i, (i <= s)%nat -> ~ occurs (bytes v) p i) \/
  (exists i, fst (search_back v p) = Z.of_nat i /\ (i <= s)%nat /\ occurs (bytes v) p i /\ forall k, (i < k <= s)%nat -> ~ occurs (bytes v) p k).
Proof. intros N H. exact (back_ok v p s N (begins_start v (S s) H)). Qed.
Print Assumptions C179_back_partial.
(** C179: a search for one byte, and a search whose result is in the last column, finds the same place for ever *)
Theorem C179_again_refuted v p o i : p <> [] -> offset (at_ v) = Z.of_nat o -> fst (search v p) = Z.of_nat i -> (length p = 1 \/ i mod 16 = 15)%nat ->
  fst (search (snd (search v p)) p) = Z.of_nat i.
Proof. exact (search_again v p o i). Qed.
Print Assumptions C179_again_refuted.
(** C179: of a place in two lines only the part in the first one is selected *)
Theorem C179_cut_refuted v p o i : p <> [] -> offset (at_ v) = Z.of_nat o -> fst (search v p) = Z.of_nat i -> (i mod 16 < 15)%nat -> (16 < i mod 16 + length p)%nat ->
  selected (snd (search v p)) = firstn (16 - i mod 16) p.
Proof. exact (search_cut v p o i). Qed.
Print Assumptions C179_cut_refuted.
(** C179: a search backwards from the start finds the last place of the document *)
Theorem C179_back_refuted v p i : p <> [] -> begins v 0 -> occurs (bytes v) p i -> exists k, fst (search_back v p) = Z.of_nat k /\ (i <= k)%nat /\ occurs (bytes v) p k.
Proof. intros N H. exact (back_wraps v p i N (begins_start v 0 H)). Qed.
Print Assumptions C179_back_refuted.
Definition e_start : view := VW (DC (repeat 48 13 ++ [65; 66; 65; 66; 65; 66] ++ repeat 48 5 ++ [65; 66]) [] []) (PS 0 0 1) (PS 0 0 1) true true.
Example C179_nonvacuous : begins e_start 0 /\ fst (search e_start [65; 66]) = 13 /\ selected (snd (search e_start [65; 66])) = [65; 66] /\
  fst (search (snd (search e_start [65; 66])) [65; 66]) = 15 /\
  fst (search (snd (search (snd (search e_start [65; 66])) [65; 66])) [65; 66]) = 15 /\ fst (search (snd (search e_start [66])) [66]) = 14 /\
  selected (snd (search e_start [65; 66; 65; 66])) = [65; 66; 65] /\ fst (search_back e_start [65; 66]) = 24 /\ fst (search_back (move_off e_start 20) [65; 66]) = 17 /\ fst (search e_start [67]) = -1.
Proof. split; [left; split; reflexivity|]. repeat split; vm_compute; reflexivity. Qed.

(** C180: the digits copied stand for the bytes selected: pasted anywhere, they give these bytes *)
Theorem C180_digits_partial conv v w i t : hexa v = true -> hexa w = true -> ins w = true -> bytes_ok (bytes v) -> stands_at w i -> (i <= length (bytes w))%nat ->
  selected v <> [] -> copy conv v = Some t -> bytes (paste w t) = firstn i (bytes w) ++ selected v ++ skipn i (bytes w).
Proof. exact (copy_paste conv v w i t). Qed.
Print Assumptions C180_digits_partial.
(** C180: characters without a zero byte that are valid UTF-8 are copied as they are *)
Theorem C180_text_partial conv v : hexa v = false -> selected v <> [] -> Forall (fun c => c <> 0) (selected v) -> conv (selected v) = selected v ->
  copy conv v = Some (selected v).
Proof. exact (copy_text conv v). Qed.
Print Assumptions C180_text_partial.
(** C180: characters are copied only up to a zero byte *)
Theorem C180_zero_refuted conv v x y : hexa v = false -> selected v = x ++ 0 :: y -> Forall (fun c => c <> 0) x -> copy conv v = Some (conv x).
Proof. exact (copy_nul conv v x y). Qed.
Print Assumptions C180_zero_refuted.
Example C180_nonvacuous : copy (fun x => x) (e_view true true true) = Some [52; 51; 32; 52; 52; 32; 52; 53] /\
  stands_at (VW e_doc (PS 0 7 1) (PS 0 7 1) true true) 7 /\ bytes (paste (VW e_doc (PS 0 7 1) (PS 0 7 1) true true) [52; 51; 32; 52; 52; 32; 52; 53]) = [65; 66; 67; 68; 69; 70; 71; 67; 68; 69; 72] /\
  copy (fun x => x) (VW (DC [65; 0; 66; 0] [] []) (PS 0 0 1) (PS 0 3 1) true false) = Some [65].
Proof. split; [reflexivity|]. split; [split; [reflexivity|]; split; [unfold on_grid; cbn; lia|]; split; reflexivity|]. split; vm_compute; reflexivity. Qed.

(** C181: digits typed give the bytes they stand for, in both modes, in documents below 16 MB *)
Theorem C181_digits_partial d v i : hexa v = true -> stands_at v i -> (i <= length (bytes v))%nat -> Z.of_nat (length (bytes v)) + Z.of_nat (length d) + 1 < 2 ^ 24 ->
  bytes_ok d -> bytes_ok (bytes v) ->
  exists w, type_keys v (digits d) = Some w /\ bytes w = typed (ins v) (bytes v) i d /\ stands_at w (i + length d) /\ ins w = ins v /\ hexa w = true.
Proof. exact (type_digits d v i). Qed.
Print Assumptions C181_digits_partial.
(** C181: so do characters typed *)
Theorem C181_text_partial d v i : hexa v = false -> stands_at v i -> (i <= length (bytes v))%nat -> Z.of_nat (length (bytes v)) + Z.of_nat (length d) + 1 < 2 ^ 24 ->
  printable d -> exists w, type_keys v d = Some w /\ bytes w = typed (ins v) (bytes v) i d /\ stands_at w (i + length d) /\ ins w = ins v /\ hexa w = false.
Proof. exact (type_text d v i). Qed.
Print Assumptions C181_text_partial.
(** C181: digits A to F typed as capital letters are refused *)
Theorem C181_capitals_refuted v key : hexa v = true -> 65 <= key <= 70 -> type_key v key = None.
Proof. exact (upper_refused v key). Qed.
Print Assumptions C181_capitals_refuted.
Example C181_nonvacuous : stands_at (VW e_doc (PS 0 7 1) (PS 0 7 1) false true) 7 /\
  option_map bytes (type_keys (VW e_doc (PS 0 7 1) (PS 0 7 1) false true) [97; 98; 48; 99]) = Some [65; 66; 67; 68; 69; 70; 71; 171; 12] /\
  option_map bytes (type_keys (VW e_doc (PS 0 7 1) (PS 0 7 1) true true) [97; 98; 48; 99]) = Some [65; 66; 67; 68; 69; 70; 71; 171; 12; 72] /\
  option_map bytes (type_keys (VW e_doc (PS 0 7 1) (PS 0 7 1) false false) [97; 98]) = Some [65; 66; 67; 68; 69; 70; 71; 97; 98].
Proof. split; [split; [reflexivity|]; split; [unfold on_grid; cbn; lia|]; split; reflexivity|]. repeat split; vm_compute; reflexivity. Qed.

(** C182: every byte of a document below 16 MB stands in a line that is displayed *)
Theorem C182_shown_partial len i : 0 <= i < len -> len + 1 < 2 ^ 24 -> 0 <= i / 16 < lines len.
Proof. exact (all_shown len i). Qed.
Print Assumptions C182_shown_partial.
(** C182: in documents just above a power of two the line of the last bytes is not displayed *)
Theorem C182_hidden_refuted k m : 25 <= k -> 2 <= m -> 2 * m <= 2 ^ (k - 23) -> lines (2 ^ k + m - 1) <= (2 ^ k) / 16.
Proof. exact (last_hidden k m). Qed.
Print Assumptions C182_hidden_refuted.
(** a document of 64 MB and three bytes: byte 2^26 is in line 2^22, the last line displayed is 2^22 - 1 *)
Example C182_nonvacuous : lines 100 = 7 /\ lines (2 ^ 26 + 3) = 2 ^ 22 /\ (2 ^ 26 + 2) / 16 = 2 ^ 22.
Proof. repeat split; vm_compute; reflexivity. Qed.
