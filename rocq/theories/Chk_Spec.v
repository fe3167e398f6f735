(** What a test of the format of a configuration has to find. *)
From Verif Require Import Prelude Text_Model Text_Spec Tree_Model Descr_Spec Chk_Model.

(** the content of a stored value: unpacked as often as it is packed, at most twice *)
Inductive content (e : cenv) : bool -> list Z -> list Z -> bool -> Prop :=
| c_plain tw v : z e v = None -> content e tw v v false
| c_once v s : z e v = Some s -> content e false v s false
| c_half v s : z e v = Some s -> z e s = None -> content e true v s false
| c_twice v s t : z e v = Some s -> z e s = Some t -> content e true v t true.
(** an element of a container that is tested: its path and its content *)
Inductive at_path : list Z -> list elem -> list Z -> list Z -> Prop :=
| at_data p l n d : In (EData n d) l -> n <> [109;111;100;117;108;101] -> n <> [116;101;120;116] -> at_path p l (p ++ 47 :: n) d
| at_cat p l n k q d : In (ECat n k) l -> at_path (p ++ 47 :: n) k q d -> at_path p l q d.
Definition skipped (p v : list Z) : Prop := p = [80;65;82;65;77;83;47;117;115;101;114;115;46;117;115;114] \/ v = [].
(** [s] is a value that is no container, found in the value [v] at [p], at any depth *)
Inductive inside (e : cenv) : list Z -> list Z -> bool -> list Z -> Prop :=
| i_here p v tw s c : ~ skipped p v -> content e tw v s c -> s <> [] -> cat e c s = Ok [] -> inside e p v tw s
| i_deep p v tw s c l q d r : ~ skipped p v -> content e tw v s c -> s <> [] -> cat e c s = Ok l -> l <> [] -> at_path p l q d -> inside e q d false r -> inside e p v tw r.
(** a container, or an element of one, that cannot be opened, at any depth *)
Inductive has_bad : list elem -> Prop :=
| hb_here l n : In (EBad n) l -> has_bad l
| hb_deep l n k : In (ECat n k) l -> has_bad k -> has_bad l.
Inductive unopened (e : cenv) : list Z -> list Z -> bool -> Prop :=
| u_here p v tw s c : ~ skipped p v -> content e tw v s c -> s <> [] -> (forall l, cat e c s <> Ok l) -> unopened e p v tw
| u_bad p v tw s c l : ~ skipped p v -> content e tw v s c -> s <> [] -> cat e c s = Ok l -> has_bad l -> unopened e p v tw
| u_deep p v tw s c l q d : ~ skipped p v -> content e tw v s c -> s <> [] -> cat e c s = Ok l -> at_path p l q d -> unopened e q d false -> unopened e p v tw.
(** the text of a value: behind the header of a spreadsheet or a scheme, behind the mark of the encoding *)
Definition header_off (s b : list Z) : Prop :=
  (exists h, s = [77;79;88;67;69;76;0] ++ h ++ b /\ length h = 6%nat /\ 16 <= zlen s) \/
  (exists h, s = [0;0;0;0;1;0;0;0] ++ h ++ b /\ length h = 16%nat /\ b <> []) \/
  (s = b /\ (zlen s < 16 \/ (firstn 7 s <> [77;79;88;67;69;76;0] /\ firstn 8 s <> [0;0;0;0;1;0;0;0]))).
Definition text_of (s t : list Z) : Prop :=
  exists b, header_off s b /\ (b = [239;187;191] ++ t \/ exists u, b = [255;254] ++ u /\ ucs2_to_utf8 u = Ok t).
(** text in braces *)
Definition white (c : Z) : Prop := c = 13 \/ c = 10 \/ c = 9 \/ c = 32.
Definition braces (t r : list Z) : Prop := exists w, t = w ++ 123 :: r /\ Forall white w.
Definition readable (t : list Z) : Prop := forall r, braces t r -> exists tr, parse_text t = Ok tr.
(** the size in the record *)
Definition size_right (size : list Z) (n : Z) : Prop := int_text size n.

(** ** A value in which all is in order *)
(** fifteen bytes of the text end between two characters *)
Definition cut_between (t : list Z) : Prop := forall r, braces t r -> exists cps, Forall scalar cps /\ firstn 15 (123 :: r) = utf8_of cps.
Inductive sound (e : cenv) : list Z -> list Z -> bool -> Prop :=
| s_skip p v tw : skipped p v -> sound e p v tw
| s_text p v tw s c t : content e tw v s c -> s <> [] -> cat e c s = Ok [] -> text_of s t -> readable t -> cut_between t -> sound e p v tw
| s_cat p v tw s c l : content e tw v s c -> s <> [] -> cat e c s = Ok l -> l <> [] -> Forall (sound_elem e p) l -> sound e p v tw
with sound_elem (e : cenv) : list Z -> elem -> Prop :=
| se_code p n d : n = [109;111;100;117;108;101] \/ n = [116;101;120;116] -> sound_elem e p (EData n d)
| se_data p n d : sound e (p ++ 47 :: n) d false -> sound_elem e p (EData n d)
| se_cat p n l : Forall (sound_elem e (p ++ 47 :: n)) l -> sound_elem e p (ECat n l).
(** a table with the fields of a table of files *)
Definition good_row (e : cenv) (table : list Z) (r : trow) : Prop :=
  r_removed r = true \/ exists v, r_value r = Ok v /\ size_right (r_size r) (zlen v) /\ sound e (table ++ 47 :: r_name r) v (72 <? zlen (r_name r)).
Definition good_schema (e : cenv) (table : list Z) (r : trow) : Prop :=
  r_removed r = true \/ exists v, r_value r = Ok v /\ sound e table v false.
(** the text is cut inside a character after fifteen bytes *)
Definition cut_in_letter (t : list Z) : Prop :=
  exists r cps, braces t r /\ 123 :: r = utf8_of cps /\ Forall scalar cps /\ (15 < length (utf8_of cps))%nat /\
    (forall p q, cps = p ++ q -> length (utf8_of p) <> 15%nat).
(** the fields of a table: the names, letter case aside *)
Definition same_name (f n : list Z) : Prop :=
  exists a b, f = utf8_of a /\ n = utf8_of b /\ Forall scalar a /\ Forall scalar b /\ ~ In 0 a /\ ~ In 0 b /\ Forall2 same_letter a b.
Definition file_fields (l : list (list Z)) : Prop :=
  exists six, Forall2 same_name six
    [[70;73;76;69;78;65;77;69]; [67;82;69;65;84;73;79;78]; [77;79;68;73;70;73;69;68]; [65;84;84;82;73;66;85;84;69;83]; [68;65;84;65;83;73;90;69]; [66;73;78;65;82;89;68;65;84;65]] /\
    (l = six \/ exists p, l = six ++ [p] /\ same_name p [80;65;82;84;78;79]).
Definition schema_fields (l : list (list Z)) : Prop := Forall2 same_name l [[83;69;82;73;65;76;73;90;69;68;68;65;84;65]].
(** the fields found, for names that are text *)
Definition text_name (f : list Z) : Prop := exists a, f = utf8_of a /\ Forall scalar a /\ ~ In 0 a.
Definition fields_found (names l : list (list Z)) : Prop :=
  forall i f n, nth_error l i = Some f -> nth_error names i = Some n -> text_name f -> same_name f n.
(** a base in which all is in order *)
Definition good_base (e : cenv) (b : tbase) : Prop :=
  exists c s p f d, b = TB (Some c) (Some s) (Some p) (Some f) (Some d) /\
    Forall (fun t => file_fields (tt_fields t)) [c; s; p; f] /\ schema_fields (tt_fields d) /\
    Forall (fun t => Forall (good_row e (tt_name t)) (tt_rows t)) [c; s; p] /\ Forall (good_schema e (tt_name d)) (tt_rows d) /\
    (2 <= length (tt_rows d))%nat.
(** the tables whose values are looked at *)
Definition looked_at (b : tbase) (t : ttab) : Prop := tb_config b = Some t \/ tb_configsave b = Some t \/ tb_params b = Some t.
