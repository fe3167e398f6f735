(** What the configuration kept in a database file is, and what the container it is saved in should hold. *)
From Coq Require Import Sorted.
From Verif Require Import Prelude Text_Spec Field_Model Field_Spec Xml_Model Xml_Spec Cfg_Model Cfg_Spec Save_Model Save_Spec Chk_Model Chk_Spec Descr_Model Full_Model Full_Spec.

(** ** Records of the table *)
(** a piece of a file: the characters of the name, the number of the part, the bytes of the two dates, the data *)
Record piece := PC { p_name : list Z; p_part : Z; p_made : list Z; p_changed : list Z; p_data : list Z }.
Definition value_of (f : xfield) (rec : list Z) : list Z := part rec (value_at (x_f f)) (width (f_kind (x_f f)) (f_len (x_f f))).
(** the value and [more] bytes behind it are in the record *)
Definition reaches (f : xfield) (rec : list Z) (more : Z) : Prop :=
  0 <= f_off (x_f f) /\ 0 <= f_len (x_f f) /\ value_at (x_f f) + width (f_kind (x_f f)) (f_len (x_f f)) + more <= zlen rec.
Definition text_in (f : xfield) (rec cps : list Z) : Prop :=
  f_kind (x_f f) = KVarchar /\ reaches f rec 0 /\ is_missing (x_f f) rec = false /\ Forall scalar cps /\ zlen (utf16_of cps) < 2 ^ 15 /\
  exists pad, value_of f rec = le_bytes 2 (zlen (utf16_of cps)) ++ le16 (utf16_of cps) ++ pad.
Definition number_in (f : xfield) (rec : list Z) (n : Z) : Prop :=
  f_kind (x_f f) = KNum /\ reaches f rec 0 /\ is_missing (x_f f) rec = false /\ 0 <= n < 2 ^ 31 /\
  exists t, Xml_Spec.means KNum (f_len (x_f f)) (x_prec f) false (value_of f rec) [] t /\ is_int t n.
(** dates are read with three bytes more *)
Definition date_in (f : xfield) (rec d : list Z) : Prop := f_kind (x_f f) = KDate /\ reaches f rec 3 /\ value_of f rec = d.
Definition address_in (f : xfield) (rec : list Z) (s n : Z) : Prop :=
  f_kind (x_f f) = KImage /\ reaches f rec 0 /\ is_missing (x_f f) rec = false /\ le_val (firstn 4 (value_of f rec)) = s /\ le_val (skipn 4 (value_of f rec)) = n.
(** the record holds the piece *)
Definition holds (bf : option (list Z)) (fs : list xfield) (rec : list Z) (p : piece) : Prop :=
  (exists r, rec = 0 :: r) /\ p_name p <> [] /\ p_data p <> [] /\
  exists name made changed attr size data more, fs = name :: made :: changed :: attr :: size :: data :: more /\
    text_in name rec (p_name p) /\ date_in made rec (p_made p) /\ date_in changed rec (p_changed p) /\
    (exists s, s <> 0 /\ address_in data rec s (zlen (p_data p)) /\ blob_in bf s (zlen (p_data p)) (p_data p)) /\
    match more with [] => p_part p = 0 | part :: _ => number_in part rec (p_part p) end.
(** the record is removed, has no data or no name *)
Definition holds_nothing (fs : list xfield) (rec : list Z) : Prop :=
  (exists m r, rec = m :: r /\ m <> 0) \/
  ((exists r, rec = 0 :: r) /\ exists name made changed attr size data more, fs = name :: made :: changed :: attr :: size :: data :: more /\
    ((reaches data rec 0 /\ is_missing (x_f data) rec = true) \/ (exists s n, address_in data rec s n /\ (s = 0 \/ n = 0 \/ text_in name rec [])))).
(** the table holds these pieces, in the order of its records *)
Definition table_holds (x : cont) (ps : list (option piece)) : Prop :=
  file_fields (map fd_name (td_fields (c_decl x))) /\
  Forall2 (fun rec o => match o with Some p => holds (c_blob x) (the_fields (td_fields (c_decl x))) rec p | None => holds_nothing (the_fields (td_fields (c_decl x))) rec end) (c_recs x) ps.

(** ** Files *)
(** the file [e] is put together from the pieces: all of its name, in the order of their numbers; part 0 gives name and times *)
Definition put_together (lower : list Z -> list Z) (stamp : list Z -> Z) (ps : list (option piece)) (e : entry) : Prop :=
  exists p0 l, StronglySorted (fun a b => p_part a < p_part b) (p0 :: l) /\
    (forall p, In p (p0 :: l) <-> In (Some p) ps /\ lower (utf8_of (p_name p)) = lower (utf8_of (e_name e))) /\
    p_part p0 = 0 /\ e_name e = p_name p0 /\ e_create e = stamp (p_made p0) /\ e_modify e = stamp (p_changed p0) /\ e_bytes e = concat (map p_data (p0 :: l)).
(** the file has no part 0 *)
Definition no_first (lower : list Z -> list Z) (ps : list (option piece)) (p : piece) : Prop :=
  forall q, In (Some q) ps -> lower (utf8_of (p_name q)) = lower (utf8_of (p_name p)) -> p_part q <> 0.
(** these are the files: every piece belongs to one, or there is no part 0 of its name; no two have the same name, no part is there twice *)
Definition files_are (lower : list Z -> list Z) (stamp : list Z -> Z) (ps : list (option piece)) (es : list entry) : Prop :=
  Forall (put_together lower stamp ps) es /\ NoDup (map (fun e => lower (utf8_of (e_name e))) es) /\
  (forall p, In (Some p) ps -> (exists e, In e es /\ lower (utf8_of (e_name e)) = lower (utf8_of (p_name p))) \/ no_first lower ps p) /\
  (forall i j a b, nth_error ps i = Some (Some a) -> nth_error ps j = Some (Some b) -> lower (utf8_of (p_name a)) = lower (utf8_of (p_name b)) -> p_part a = p_part b -> i = j).
(** a name without a mark of an update *)
Definition ordinary (lower : list Z -> list Z) (e : entry) : Prop := Cfg_Spec.means lower (utf8_of (e_name e)) (utf8_of (e_name e)) (-1).
Definition no_updates (lower : list Z -> list Z) (ps : list (option piece)) : Prop := forall p, In (Some p) ps -> lower (utf8_of (p_name p)) <> lower s_DynamicallyUpdated.
(** the configuration of an infobase: the last table of this name *)
Definition infobase (same : list Z -> list Z -> bool) (xs : list cont) : Prop :=
  forall n, In n five -> exists x, In x xs /\ same (td_name (c_decl x)) n = true.
Definition config_of (same : list Z -> list Z -> bool) (xs : list cont) (x : cont) : Prop :=
  exists a b, xs = a ++ x :: b /\ same (td_name (c_decl x)) [67;79;78;70;73;71] = true /\ Forall (fun y => same (td_name (c_decl y)) [67;79;78;70;73;71] = false) b.
