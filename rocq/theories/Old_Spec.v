(** What a configuration in the old format should be: the lists of the external files outside, the objects in the container metadata. *)
From Verif Require Import Prelude Text_Spec Codec_Spec Codec_Model Tree_Model Cf_Model Lost_Spec Depot_Model Depot_Spec Save_Model Save_Spec Out_Model Out_Spec Old_Model.

Section Version.
Variables (lower : list Z -> list Z) (same : list Z -> list Z -> bool) (pack : option (list Z -> option (list Z))) (inflate : list Z -> option (list Z)) (v : Z) (rows : list vrow) (exts : list xrow).
(** the objects of the version, with their data (expanded) and with their identifiers *)
Definition holds_object (k d : list Z) : Prop :=
  exists r p, In r rows /\ shown v (map v_row rows) (v_row r) /\ id_text (h_obj (v_row r)) k /\ stored pack (h_data (v_row r)) (h_hash (v_row r)) p /\ inflate p = Some d.
Definition object_id (k i : list Z) : Prop := exists r, In r rows /\ shown v (map v_row rows) (v_row r) /\ id_text (h_obj (v_row r)) k /\ i = v_id r.
(** the external files *)
Definition holds_external (k d : list Z) : Prop :=
  exists r x, shown v (map v_row rows) r /\ In x exts /\ attached same v (map x_row exts) r (x_row x) /\ k = Depot_Model.e_name (x_row x) /\ stored pack (e_data (x_row x)) (e_hash (x_row x)) d.
Definition external_id (k i : list Z) : Prop :=
  exists r x, shown v (map v_row rows) r /\ In x exts /\ attached same v (map x_row exts) r (x_row x) /\ k = Depot_Model.e_name (x_row x) /\ i = x_id x.
(** the data of the objects is kept in the rows and can be expanded *)
Definition in_rows : Prop := forall r, In r rows -> shown v (map v_row rows) (v_row r) -> exists p d, h_data (v_row r) = Some p /\ inflate p = Some d.
(** the data of the external files can be had *)
Definition externals_stored : Prop :=
  forall r x, shown v (map v_row rows) r -> In x exts -> attached same v (map x_row exts) r (x_row x) -> exists d, stored pack (e_data (x_row x)) (e_hash (x_row x)) d.
(** the data of the objects is kept in the pack directory only; the objects with their data as it is kept *)
Definition in_pack : Prop := forall r, In r rows -> shown v (map v_row rows) (v_row r) -> h_data (v_row r) = None /\ exists p, stored pack None (h_hash (v_row r)) p.
Definition keeps_object (k p : list Z) : Prop :=
  exists r, In r rows /\ shown v (map v_row rows) (v_row r) /\ id_text (h_obj (v_row r)) k /\ stored pack (h_data (v_row r)) (h_hash (v_row r)) p.
(** no two names differ in letter case only, none is that of a list or of the inner container, no data is empty *)
Definition objects_clear (holds : list Z -> list Z -> Prop) : Prop :=
  (forall k d k' d', holds k d -> holds k' d' -> lower k = lower k' -> k = k' /\ d = d') /\ (forall k i i', object_id k i -> object_id k i' -> i = i') /\
  (forall k d, holds k d -> d <> [] /\ lower k <> lower s_root).
Definition externals_clear : Prop :=
  (forall k d k' d', holds_external k d -> holds_external k' d' -> lower k = lower k' -> k = k' /\ d = d') /\ (forall k i i', external_id k i -> external_id k i' -> i = i') /\
  (forall k d, holds_external k d -> k <> [] /\ d <> [] /\ forall n, In n [s_metadata; s_version; s_versions] -> lower k <> lower n).

(** ** The two containers *)
Variables (major minor : Z) (root : list Z).
(** a text that is not packed *)
Definition reads_plain (es : list entry) (name : list Z) (t : Tree_Model.tree) : Prop := exists text, has es name (bom ++ text) /\ parse_text text = Ok (Node [] nd_list [t]).
(** [holds] = the objects and their data: [holds_object] *)
Definition inner_configuration (holds : list Z -> list Z -> Prop) (es : list entry) : Prop :=
  NoDup (map (fun e => lower (utf8_of (Save_Spec.e_name e))) es) /\
  (forall k d, holds k d -> has es k d) /\
  (forall k d, has es k d -> k = s_root \/ holds k d) /\
  (* the root object, the number of the objects, their identifiers *)
  (exists g n ids, id_text root g /\ written (zlen ids) n /\
     reads_plain es s_root (Node [] nd_list (Node [49] nd_number [] :: Node g nd_guid [] :: Node n nd_number [] :: pairs ids)) /\ NoDup (map fst ids) /\
     (forall k i, object_id k i -> exists t, id_text i t /\ In (k, t) ids) /\
     (forall k, In k (map fst ids) <-> exists d, holds k d)).
Definition outer_configuration (inner : list Z) (es : list entry) : Prop :=
  NoDup (map (fun e => lower (utf8_of (Save_Spec.e_name e))) es) /\
  (exists b, has es s_metadata b /\ inflate b = Some inner) /\
  (forall k d, holds_external k d -> has es k d) /\
  (forall k d, has es k d -> In k [s_metadata; s_version; s_versions] \/ holds_external k d) /\
  (exists a b, written major a /\ written minor b /\ reads inflate es s_version (Node [] nd_list [Node [] nd_list [Node a nd_number []; Node b nd_number []]])) /\
  (* the identifiers of all files but the inner container, and of the configuration itself under the empty name *)
  (exists n ids, written (zlen ids) n /\ reads inflate es s_versions (Node [] nd_list (Node [49] nd_number [] :: Node n nd_number [] :: pairs ids)) /\ NoDup (map fst ids) /\
     (forall k i, external_id k i -> exists t, id_text i t /\ In (k, t) ids) /\
     (forall k, In k (map fst ids) <-> k = [] \/ k <> s_metadata /\ exists b, has es k b)).
(** the bytes are a container with these files *)
Definition container (fuel : nat) (after d : list Z) (es : list entry) : Prop :=
  (forall junk, length junk = 31%nat -> is_catalog junk d = Ok true) /\ exists ys, open_files fuel after d = Ok ys /\ Forall2 (shows fuel after d) ys es.
End Version.
