(** What a configuration exported from a depot should be. *)
From Verif Require Import Prelude Text_Spec Codec_Spec Codec_Model Tree_Model Lost_Spec Depot_Model Depot_Spec Save_Spec Out_Model.

Definition has (es : list entry) (name bytes : list Z) : Prop := exists e, In e es /\ utf8_of (Save_Spec.e_name e) = name /\ e_bytes e = bytes.
(** the text of an identifier *)
Definition id_text (g t : list Z) : Prop := guid_as_MS g = Ok t.
Section Version.
Variables (lower : list Z -> list Z) (same : list Z -> list Z -> bool) (pack : option (list Z -> option (list Z))) (v : Z) (rows : list vrow) (exts : list xrow).
Definition name_text (g : list Z) : list Z := match guid_as_MS g with Ok t => t | _ => [] end.
(** the objects and external files of the version, with their data and with their identifiers *)
Definition holds_file (k d : list Z) : Prop := exported same name_text pack v (map v_row rows) (map x_row exts) k d.
Definition holds_id (k i : list Z) : Prop :=
  (exists r, In r rows /\ shown v (map v_row rows) (v_row r) /\ id_text (h_obj (v_row r)) k /\ i = v_id r) \/
  (exists r x, shown v (map v_row rows) r /\ In x exts /\ attached same v (map x_row exts) r (x_row x) /\ k = Depot_Model.e_name (x_row x) /\ i = x_id x).
(** the depot: rows in order, identifiers of sixteen bytes, names of external files in UTF-8 *)
Definition depot_sound : Prop :=
  depot_ok same (map v_row rows) (map x_row exts) /\ rows <> [] /\ Forall (fun r => is_guid (v_id r)) rows /\ Forall (fun x => is_guid (x_id x)) exts /\
  Forall (fun x => exists cps, Forall scalar cps /\ Depot_Model.e_name (x_row x) = utf8_of cps) exts.
(** the files of the version: no two names differ in letter case only, none is that of a list, none is empty *)
Definition names_clear : Prop :=
  (forall k d k' d', holds_file k d -> holds_file k' d' -> lower k = lower k' -> k = k' /\ d = d') /\ (forall k i i', holds_id k i -> holds_id k i' -> i = i') /\
  (forall k d, holds_file k d -> k <> [] /\ d <> [] /\ forall n, In n [s_root; s_version; s_versions] -> lower k <> lower n).

(** ** The configuration *)
Variables (inflate : list Z -> option (list Z)) (major minor : Z) (root : list Z).
Definition bom : list Z := [239; 187; 191].
(** the file is a packed text that is read as this value *)
Definition reads (es : list entry) (name : list Z) (t : Tree_Model.tree) : Prop := exists b text, has es name b /\ inflate b = Some (bom ++ text) /\ parse_text text = Ok (Node [] nd_list [t]).
Definition pairs (ids : list (list Z * list Z)) : list Tree_Model.tree := flat_map (fun p => [Node (fst p) nd_string []; Node (snd p) nd_guid []]) ids.
Definition configuration (es : list entry) : Prop :=
  NoDup (map (fun e => lower (utf8_of (Save_Spec.e_name e))) es) /\
  (* every object and external file *)
  (forall k d, holds_file k d -> has es k d) /\
  (* nothing else but three lists *)
  (forall k d, has es k d -> In k [s_root; s_version; s_versions] \/ holds_file k d) /\
  (* the structure version, the root object *)
  (exists a b, written major a /\ written minor b /\ reads es s_version (Node [] nd_list [Node [] nd_list [Node a nd_number []; Node b nd_number []]])) /\
  (exists g, id_text root g /\ reads es s_root (Node [] nd_list [Node [50] nd_number []; Node g nd_guid []])) /\
  (* the list of the identifiers of all files, and of the configuration itself under the empty name *)
  (exists n ids, written (zlen ids) n /\ reads es s_versions (Node [] nd_list (Node [49] nd_number [] :: Node n nd_number [] :: pairs ids)) /\ NoDup (map fst ids) /\
     (forall k i, holds_id k i -> exists t, id_text i t /\ In (k, t) ids) /\
     (forall k, In k (map fst ids) <-> k = [] \/ exists b, has es k b)).
End Version.
