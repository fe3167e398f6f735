(** What a configuration depot holds, from the bytes of its file to its versions, objects and external files. *)
From Coq Require String.
From Verif Require Import Prelude Text_Spec Codec_Spec Field_Model Field_Spec Xml_Model Xml_Spec Descr_Model Full_Model Full_Spec Conf_Spec Depot_Model Depot_Spec Out_Model Out_Spec.
Import String.StringSyntax.

(** ** Values of a record *)
Section Values.
Variable same : list Z -> list Z -> bool.
(** the first field of the name *)
Definition first_field (fs : list xfield) (name : list Z) (f : xfield) : Prop :=
  exists a b, fs = a ++ f :: b /\ same (x_name f) name = true /\ Forall (fun x => same (x_name x) name = false) a.
Definition guid_in (f : xfield) (rec g : list Z) : Prop :=
  f_kind (x_f f) = KBin /\ f_len (x_f f) = 16 /\ reaches f rec 0 /\ is_missing (x_f f) rec = false /\ value_of f rec = g.
(** NULL counts as no *)
Definition flag_in (f : xfield) (rec : list Z) (b : bool) : Prop :=
  f_kind (x_f f) = KBool /\ reaches f rec 0 /\ if is_missing (x_f f) rec then b = false else value_of f rec = [if b then 1 else 0].
(** the data kept in the record *)
Definition data_in (bf : option (list Z)) (f : xfield) (rec : list Z) (o : option (list Z)) : Prop :=
  match o with
  | Some d => exists s, address_in f rec s (zlen d) /\ (s <> 0 \/ d <> []) /\ blob_in bf s (zlen d) d
  | None => f_kind (x_f f) = KImage /\ reaches f rec 0 /\ (is_missing (x_f f) rec = true \/ address_in f rec 0 0)
  end.
(** the hash: twenty bytes; none if NULL *)
Definition hash_in (f : xfield) (rec h : list Z) : Prop :=
  f_kind (x_f f) = KBin /\ f_len (x_f f) = 20 /\ reaches f rec 0 /\ if is_missing (x_f f) rec then h = [] else value_of f rec = h.
Definition live_rec (rec : list Z) : Prop := exists r, rec = 0 :: r.

(** ** Rows *)
Section Rows.
Variables (v6 : bool) (bf : option (list Z)) (fs : list xfield) (rec : list Z).
Definition with_field (name : list Z) (P : xfield -> Prop) : Prop := exists f, first_field fs name f /\ P f.
Definition hash_part (h : list Z) : Prop := if v6 then with_field (bs "DATAHASH") (fun f => hash_in f rec h) else h = [].
Definition is_history (r : vrow) : Prop :=
  with_field (bs "OBJID") (fun f => guid_in f rec (h_obj (v_row r))) /\ with_field (bs "VERNUM") (fun f => number_in f rec (Depot_Model.h_ver (v_row r))) /\
  with_field (bs "OBJVERID") (fun f => guid_in f rec (v_id r)) /\ with_field (bs "REMOVED") (fun f => flag_in f rec (h_removed (v_row r))) /\
  with_field (bs "DATAPACKED") (fun f => flag_in f rec (h_packed (v_row r))) /\ with_field (bs "OBJDATA") (fun f => data_in bf f rec (h_data (v_row r))) /\ hash_part (h_hash (v_row r)).
Definition is_external (x : xrow) : Prop :=
  with_field (bs "OBJID") (fun f => guid_in f rec (e_obj (x_row x))) /\ with_field (bs "VERNUM") (fun f => number_in f rec (e_ver (x_row x))) /\
  with_field (bs "EXTNAME") (fun f => exists cps, text_in f rec cps /\ e_name (x_row x) = utf8_of cps) /\
  with_field (bs "EXTVERID") (fun f => guid_in f rec (x_id x)) /\ with_field (bs "DATAPACKED") (fun f => flag_in f rec (e_packed (x_row x))) /\
  with_field (bs "EXTDATA") (fun f => data_in bf f rec (e_data (x_row x))) /\ hash_part (e_hash (x_row x)).
(** a version: its number, who made a snapshot of it, the structure version *)
Record version := VN { n_num : Z; n_maker : list Z; n_major : Z; n_minor : Z }.
Definition is_version (v5 : bool) (n : version) : Prop :=
  with_field (bs "VERNUM") (fun f => number_in f rec (n_num n)) /\ with_field (bs "SNAPSHOTMAKER") (fun f => guid_in f rec (n_maker n)) /\
  (v5 = true -> 0 <= n_major n < 65536 /\ 0 <= n_minor n < 65536 /\
     with_field (bs "CVERSION") (fun f => f_kind (x_f f) = KBin /\ f_null (x_f f) = false /\ f_len (x_f f) = 4 /\ reaches f rec 0 /\
       value_of f rec = [n_major n / 256; n_major n mod 256; n_minor n / 256; n_minor n mod 256])).
(** the depot itself: its version, a number in hexadecimal notation, and the root object *)
Definition is_depot (dv : Z) (root : list Z) : Prop :=
  with_field (bs "DEPOTVER") (fun f => f_kind (x_f f) = KBin /\ f_len (x_f f) = 8 /\ reaches f rec 0 /\ is_missing (x_f f) rec = false /\ value_of f rec = [dv; 0; 0; 0; 0; 0; 0; 0]) /\
  with_field (bs "ROOTOBJID") (fun f => guid_in f rec root).
End Rows.

(** ** Tables *)
(** the last table of the name *)
Definition table_of (xs : list cont) (name : list Z) (x : cont) : Prop :=
  exists a b, xs = a ++ x :: b /\ same (td_name (c_decl x)) name = true /\ Forall (fun y => same (td_name (c_decl y)) name = false) b.
(** the first index named PK is the first primary index *)
Definition keyed_by_pk (d : tdecl) : Prop :=
  exists a i b, td_indexes d = a ++ i :: b /\ same (id_name i) (bs "PK") = true /\ id_primary i = true /\
    Forall (fun j => same (id_name j) (bs "PK") = false /\ id_primary j = false) a.
(** in the order of the index, the records of the table hold these rows *)
Definition in_order {A} (x : cont) (P : list Z -> A -> Prop) (l : list A) : Prop :=
  Forall2 (fun n r => exists rec, 0 <= n /\ nth_error (c_recs x) (Z.to_nat n) = Some rec /\ live_rec rec /\ P rec r) (c_order x) l.
(** the same where the index may also list removed records, which hold no row *)
Inductive live_in_order {A} (x : cont) (P : list Z -> A -> Prop) : list Z -> list A -> Prop :=
| lo_nil : live_in_order x P [] []
| lo_row n rec r ns l : 0 <= n -> nth_error (c_recs x) (Z.to_nat n) = Some rec -> live_rec rec -> P rec r -> live_in_order x P ns l -> live_in_order x P (n :: ns) (r :: l)
| lo_gone n c q ns l : 0 <= n -> nth_error (c_recs x) (Z.to_nat n) = Some (c :: q) -> c <> 0 -> live_in_order x P ns l -> live_in_order x P (n :: ns) l.
Definition fields_of (x : cont) : list xfield := the_fields (td_fields (c_decl x)).
Record repo := RP { r_dv : Z; r_root : list Z; r_vers : list version; r_rows : list vrow; r_exts : list xrow }.
Definition repository (xs : list cont) (r : repo) : Prop :=
  (forall n, In n five -> forall x, In x xs -> same (td_name (c_decl x)) n = false) /\ (forall n, In n ten -> exists x, In x xs /\ same (td_name (c_decl x)) n = true) /\
  exists xd xv xh xe, table_of xs (bs "DEPOT") xd /\ table_of xs (bs "VERSIONS") xv /\ table_of xs (bs "HISTORY") xh /\ table_of xs (bs "EXTERNALS") xe /\
    In (r_dv r) [3; 5; 6; 7] /\
    (exists a rec b, c_recs xd = a ++ rec :: b /\ live_rec rec /\ Forall (fun q => ~ live_rec q) a /\ is_depot (fields_of xd) rec (r_dv r) (r_root r)) /\
    keyed_by_pk (c_decl xv) /\ in_order xv (fun rec n => is_version (fields_of xv) rec (5 <=? r_dv r) n) (r_vers r) /\ (forall n, In n (live_numbers (c_recs xv)) <-> In n (c_order xv)) /\
    keyed_by_pk (c_decl xh) /\ in_order xh (is_history (6 <=? r_dv r) (c_blob xh) (fields_of xh)) (r_rows r) /\
    keyed_by_pk (c_decl xe) /\ live_in_order xe (is_external (6 <=? r_dv r) (c_blob xe) (fields_of xe)) (c_order xe) (r_exts r).
End Values.

(** ** The version that is asked for: by its number, or counted from the newest *)
Definition asked (vers : list version) (ver : Z) (n : version) : Prop :=
  In n vers /\ if 0 <? ver then n_num n = ver else nth_newest (map n_num vers) (- ver) (n_num n).
(** the structure version *)
Definition structure_version (dv : Z) (v : dbver) (n : version) (major minor : Z) : Prop :=
  if 5 <=? dv then major = n_major n /\ minor = n_minor n
  else minor = 0 /\ major = match v with V8030 | V8050 => 6 | V8100 => 106 | _ => 216 end.
(** texts are compared up to a character U+0000 *)
Definition up_to_nul (same : list Z -> list Z -> bool) : Prop :=
  forall a b, Forall (fun c => 0 < c < 128) a -> Forall (fun c => 0 < c < 128) b -> same (a ++ [0; 0]) b = true <-> map low a = map low b.
(** what the pack directory has for a hash; nothing for no hash *)
Definition packs (dv : Z) (store : list Z -> option (list Z)) : option (list Z -> option (list Z)) :=
  if 6 <=? dv then Some (fun h => match h with [] => None | _ => store h end) else None.
