(** What a user expects of adding a record. *)
From Verif Require Import Prelude Field_Model Field_Spec Rec_Model Ins_Model.

Definition blob_kind (f : field) : Prop := f_kind f = KImage \/ f_kind f = KString \/ f_kind f = KText.
Definition version_kind (f : field) : Prop := f_kind f = KVersion \/ f_kind f = KVersion8.
(** fields without a common byte *)
Definition distinct_places (f g : field) : Prop := f_off f + extent f <= f_off g \/ f_off g + extent g <= f_off f.
(** what a version field holds for the version v: once or twice the two numbers *)
Definition holds_version (f : field) (a b : Z) (d : list Z) : Prop :=
  (f_kind f = KVersion -> d = le_bytes 4 a ++ le_bytes 4 b ++ le_bytes 4 a ++ le_bytes 4 b) /\ (f_kind f = KVersion8 -> d = le_bytes 4 a ++ le_bytes 4 b).
Fixpoint versions_in (fs : list field) : Z := match fs with [] => 0 | f :: r => (match f_kind f with KVersion | KVersion8 => 1 | _ => 0 end) + versions_in r end.
(** fields of a table without blobs, the version fields of which fit into the record and do not overlap other fields *)
Definition simple_fields (n : Z) (fs : list field) : Prop :=
  Forall (fun f => ~ blob_kind f /\ (version_kind f -> f_null f = false /\ 0 <= f_off f /\ f_off f + extent f <= n) /\ 0 <= width (f_kind f) (f_len f)) fs /\
  ForallOrdPairs distinct_places fs.
