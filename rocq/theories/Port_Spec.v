(** What an exported table is, and what importing it should do. *)
From Verif Require Import Prelude Obj_Model Obj_Spec Obj_Proofs Alloc_Model Alloc_Spec Port_Model.

(** a file of a table inside the database: format, header page, length, table pages, data pages *)
Record thing := mkt { t_f : fmt; t_n : Z; t_len : nat; t_tabs : list Z; t_dp : list Z }.
Definition bytes_of (st : store) (t : thing) : list Z := content st (t_dp t) (t_len t).
Definition pages (t : thing) : list Z := pages_of (t_n t) (t_tabs t) (t_dp t).

(** the object [o] is the file [t]; it may have been read whole before, then it keeps its bytes *)
Definition is_file (ps : nat) (st : store) (o : obj) (t : thing) : Prop :=
  stored ps (t_f t) st (t_n t) (t_len t) (t_tabs t) (t_dp t) /\ t_f t <> FFree /\ opened (t_f t) (set_cached o None) (t_n t) (t_len t) (t_tabs t) (t_dp t) /\
  (o_data o = None \/ o_data o = Some (bytes_of st t)).
(** files that are there or not *)
Definition slot_ok (ps : nat) (st : store) (s : option obj) (t : option thing) : Prop :=
  match s, t with Some o, Some t => is_file ps st o t | None, None => True | _, _ => False end.
Definition slots_ok (ps : nat) (st : store) (ss : list (option obj)) (ts : list (option thing)) : Prop := Forall2 (slot_ok ps st) ss ts.
Definition all_pages (ts : list (option thing)) : list Z := concat (map (fun t => match t with Some t => pages t | None => [] end) ts).

(** ** the directory of an export: for each file whether it is there and its two version
    numbers ([root], 36 bytes), and its bytes (files 1 to 4) *)
Definition version_of (o : obj) : list Z := le_bytes 4 (u32 (o_v1 o)) ++ le_bytes 4 (u32 (o_v2 o)).
Definition root_says (root : list Z) (ss : list (option obj)) : Prop :=
  length root = 36%nat /\ length ss = 4%nat /\
  forall i, (i < 4)%nat -> match nth i ss None with
    | Some o => nth_error root i = Some 1 /\ sub root (4 + 8 * i) 8 = version_of o
    | None => nth_error root i = Some 0
    end.
Definition exported (st : store) (ss : list (option obj)) (ts : list (option thing)) (d : files) : Prop :=
  (exists root, d 0%nat = Some root /\ root_says root ss) /\
  forall i t, nth_error ts i = Some (Some t) -> d (S i) = Some (bytes_of st t).

(** ** what an import should leave: each file of the export now has the exported bytes and
    version; the others are as before *)
Definition restored (ps : nat) (st st' : store) (o' : option obj) (new : option (list Z * list Z)) (t : option thing) : Prop :=
  slot_ok ps st' o' t /\
  match t with
  | None => True
  | Some t => match new with
      | Some (b, v) => bytes_of st' t = b /\ sub (page st' (t_n t)) 12 8 = v
      | None => bytes_of st' t = bytes_of st t /\ page st' (t_n t) = page st (t_n t)
      end
  end.
(** the exported file [b] fits the file [t] of the importing table: both are there, with the same length *)
Definition fits (ps : nat) (b : option (list Z)) (t : option thing) : Prop :=
  match b, t with
  | Some b, Some t => length b = t_len t /\ ~ lone_page F80 ps (t_len t)
  | None, _ => True
  | Some _, None => False
  end.
(** the same length, whatever the format *)
Definition same_size (b : option (list Z)) (t : option thing) : Prop :=
  match b, t with
  | Some b, Some t => length b = t_len t /\ (t_f t = F838_deep -> (0 < t_len t)%nat)
  | None, _ => True
  | Some _, None => False
  end.
(** the older format *)
Definition older (t : option thing) : Prop := match t with Some t => t_f t = F80 | None => True end.
(** what the export of a file is: its bytes and its version numbers *)
Definition there (stA : store) (s : option obj) (t : option thing) : option (list Z * list Z) := match s, t with Some o, Some t => Some (bytes_of stA t, version_of o) | _, _ => None end.
