(** What a user expects of the names of files for fields. *)
From Verif Require Import Prelude Fname_Model.

(** the index whose fields name a record: the first primary one, or the first *)
Definition naming (t : ftable) (i : findex) : Prop :=
  (fi_primary i = true /\ exists a b, ft_indexes t = a ++ [i] ++ b /\ Forall (fun j => fi_primary j = false) a) \/
  (Forall (fun j => fi_primary j = false) (ft_indexes t) /\ exists b, ft_indexes t = i :: b).
(** one of the four tables with one file to a record *)
Definition one_file (same : list Z -> list Z -> bool) (t : ftable) : Prop :=
  ft_system t = true /\
  (same (ft_name t) [67; 79; 78; 70; 73; 71] = true \/ same (ft_name t) [67; 79; 78; 70; 73; 71; 83; 65; 86; 69] = true \/
   same (ft_name t) [70; 73; 76; 69; 83] = true \/ same (ft_name t) [80; 65; 82; 65; 77; 83] = true).
(** a value without the character between values *)
Definition clear_value (v : list Z) : Prop := v <> [] /\ ~ In 95 v.
