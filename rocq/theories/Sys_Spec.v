(** What writing a value of a system table should give. *)
From Coq Require Import String Ascii.
From Verif Require Import Prelude App_Spec.

(** [d] expanded as often as it is compressed, at most once, or twice where that can be; whether it was expanded twice *)
Inductive expanded (inflate : list Z -> option (list Z)) (twice : bool) (d : list Z) : list Z -> bool -> Prop :=
| x_not : inflate d = None -> expanded inflate twice d d false
| x_once x : inflate d = Some x -> twice = false \/ inflate x = None -> expanded inflate twice d x false
| x_twice x y : inflate d = Some x -> twice = true -> inflate x = Some y -> expanded inflate twice d y true.
(** bytes that cannot be a container: the first block begins with CR at 16; the empty container has 16 bytes *)
Definition no_container (b : list Z) : Prop :=
  (Z.of_nat (List.length b) < 47 \/ nth 16 b 0 <> 13)%Z /\ b <> [255; 255; 255; 127; 0; 2; 0; 0; 0; 0; 0; 0; 0; 0; 0; 0]%Z.
(** bytes that begin like the last addresses below 4 GB: more than [e - 225] bytes, [e >= 225] followed by 255 255 255 *)
Definition far_start (b : list Z) : Prop :=
  exists e, (225 <= e <= 255)%Z /\ firstn 4 (b ++ [255; 255; 255]%Z) = [e; 255; 255; 255]%Z /\ (e - 225 < Z.of_nat (List.length b))%Z /\ List.length b <> 16%nat.
(** the tables with the list of users *)
Definition users_table (same : list Z -> list Z -> bool) (name key : list Z) : Prop :=
  (same name (codes "PARAMS") = true /\ same key (codes "users.usr") = true) \/ (same name (codes "PARAMS") = false /\ same name (codes "V8USERS") = true).
(** values of CONFIG and CONFIGSAVE with names of 72 bytes or less are compressed at most once *)
Definition once_table (same : list Z -> list Z -> bool) (name key : list Z) : Prop :=
  (same name (codes "CONFIG") = true \/ same name (codes "CONFIGSAVE") = true) /\ (Z.of_nat (List.length key) <= 72)%Z.
