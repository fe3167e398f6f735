(** The default name of the file for a field of a record.
    Source: /repo/src/tool1cd/Table.cpp:2323-2360 (get_file_name_for_field), Table.h:161.
    Simplified: [pres] = get_XML_presentation of a field (C14-C19, Field_Model) taken as given; [same] = EqualIC;
    fields are numbers in the list of fields; the indices read their fields from the description. *)
From Verif Require Import Prelude.

Record findex := FI { fi_primary : bool; fi_fields : list nat }.
Record ftable := FT { ft_system : bool; ft_name : list Z; ft_fields : list (list Z); ft_indexes : list findex }.

Section Fname.
Variables (same : list Z -> list Z -> bool) (pres : nat -> list Z -> list Z).

(** if(!s.empty()) s += "_" *)
Definition under (s : list Z) : list Z := match s with [] => [] | _ => s ++ [95] end.
(** 2337-2342 *)
Fixpoint join (ks : list nat) (rec s : list Z) : list Z := match ks with [] => s | k :: r => join r rec (under s ++ pres k rec) end.
(** 2331-2347; s += numrec: std::string += uint32_t appends one char *)
Definition key_part (t : ftable) (rec : list Z) (numrec : Z) : list Z :=
  match ft_indexes t with
  | [] => []
  | i0 :: _ =>
      let ind := match find fi_primary (ft_indexes t) with Some i => i | None => i0 end in
      let s := join (fi_fields ind) rec [] in
      if negb (fi_primary ind) && negb (numrec =? 0) then (s ++ [95]) ++ [numrec mod 256] else s
  end.
(** CONFIG, CONFIGSAVE, FILES, PARAMS *)
Definition config_names : list (list Z) :=
  [[67; 79; 78; 70; 73; 71]; [67; 79; 78; 70; 73; 71; 83; 65; 86; 69]; [70; 73; 76; 69; 83]; [80; 65; 82; 65; 77; 83]].
(** 2349-2357: fields is an array, a number outside of it is undefined *)
Definition field_file_name (t : ftable) (f : nat) (rec : list Z) (numrec : Z) : res (list Z) :=
  let s := key_part t rec numrec in
  if negb (ft_system t) || negb (existsb (same (ft_name t)) config_names) then
    match nth_error (ft_fields t) f with Some n => Ok (under s ++ n) | None => UB end
  else Ok s.
End Fname.
