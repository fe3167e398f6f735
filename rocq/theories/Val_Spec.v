(** Formats of packed blob values. *)
From Verif Require Import Prelude.

(** the list of users: the length of the key, the key, the text combined with the repeated key *)
Definition users_encode (key d : list Z) : list Z :=
  Z.of_nat (length key) :: key ++ map (fun '(i, x) => Z.lxor x (nth (i mod length key) key 0)) (combine (seq 0 (length d)) d).

(** a number in eight bytes *)
Definition num8 (n : Z) : list Z := map (fun i => n / 256 ^ Z.of_nat i mod 256) (seq 0 8).
(** the body of a stored value: the length of the description and the description; then optionally
    four bytes, the length of the data and the data, and perhaps more *)
Definition body1 (descr : list Z) : list Z := num8 (Z.of_nat (length descr)) ++ descr.
Definition body2 (descr mid data more : list Z) : list Z := body1 descr ++ mid ++ num8 (Z.of_nat (length data)) ++ data ++ more.
