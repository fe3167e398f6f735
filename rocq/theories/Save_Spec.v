(** What a saved configuration should hold. *)
From Verif Require Import Prelude Text_Spec Cf_Model Cfg_Model Run_Model Run_Spec Save_Model.

(** a file: the characters of its name, creation time, modification time, bytes *)
Record entry := EN { e_name : list Z; e_create : Z; e_modify : Z; e_bytes : list Z }.
(** the parts of a stored file one after the other; a part that does not exist has the address 0 *)
Inductive joined (blob : Z -> Z -> list Z) : list (Z * Z) -> list Z -> Prop :=
| j_nil : joined blob [] []
| j_none l t b : joined blob t b -> joined blob ((0, l) :: t) b
| j_part s l t b : s <> 0 -> joined blob t b -> joined blob ((s, l) :: t) (blob s l ++ b).
(** the file of a configuration *)
Definition stands (blob : Z -> Z -> list Z) (times : Z -> Z * Z) (x : list Z * cfile) (e : entry) : Prop :=
  c_name (snd x) = utf8_of (e_name e) /\ Forall scalar (e_name e) /\ times (t_time (c_file (snd x))) = (e_create e, e_modify e) /\
  0 <= e_create e < 2 ^ 64 /\ joined blob (t_addr (c_file (snd x))) (e_bytes e) /\ e_bytes e <> [].
(** a configuration made from the tables of files: that of the database, or the edited one *)
Definition built (lower : list Z -> list Z) (m : smap cfile) : Prop :=
  (exists dynup files, config_files lower dynup files = Ok m) \/ (exists dynup del config saved, save_files lower dynup del config saved = Ok m).
(** the room a container with these files needs at most: blocks have 512 bytes or more, and a header of 31 *)
Definition block (n : Z) : Z := 31 + Z.max n 512.
Definition name_size (cps : list Z) : Z := fold_right (fun c r => (if c <? 65536 then 2 else 4) + r) 0 cps.
Definition room (es : list entry) : Z :=
  559 + fold_right (fun e r => block (Z.of_nat (length (e_bytes e))) + block (24 + name_size (e_name e)) + r) 0 es + block (12 * Z.of_nat (length es)).
(** what is read in the container: the name, followed by two characters U+0000 (C40), the creation time, the bytes *)
Definition shows (fuel : nat) (after d : list Z) (x : list Z * Z * Z * Z) (e : entry) : Prop :=
  let '(n, c, _, s) := x in n = utf8_of (e_name e) ++ [0; 0] /\ c = e_create e /\ read_data fuel after d s = Ok (e_bytes e).

(** every entry of a disk is in a directory *)
Definition tree (d : fs) : Prop := forall a n x, In (a ++ [n], x) d -> a = [] \/ In (a, None) d.
(** the file a configuration is saved to *)
Definition target (cwd : path) (d : fs) (s name : list Z) (q : path) : Prop :=
  exists p, place cwd s p /\ (cf_name s /\ q = p \/ ~ cf_name s /\ In (p, None) d /\ q = p ++ [name]).
