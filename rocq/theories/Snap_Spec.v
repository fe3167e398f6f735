(** Specification of CRC-32 as the remainder of a polynomial division, and of what an export from a snapshot is. *)
From Verif Require Import Prelude Stream_Model Snap_Model.

(** ** CRC-32 (ISO 3309): the bits of the bytes, lowest first, are the coefficients of a polynomial, highest power first;
    32 zeros are appended, the first 32 bits inverted, and the whole divided by
    x^32+x^26+x^23+x^22+x^16+x^12+x^11+x^10+x^8+x^7+x^5+x^4+x^2+x+1.  The remainder inverted, its highest power as the
    lowest bit, is the check value. *)
Definition bits_of (x : Z) : list bool := map (fun i => Z.testbit x (Z.of_nat i)) (seq 0 8).
Definition file_bits (d : list Z) : list bool := flat_map bits_of d.
Definition powers : list nat := [26;23;22;16;12;11;10;8;7;5;4;2;1;0]%nat.
Definition divisor : list bool := map (fun i => existsb (Nat.eqb (31 - i)) powers) (seq 0 32).   (* without x^32 *)
(** [a] subtracted from the front of [m] *)
Fixpoint minus (a m : list bool) : list bool :=
  match a, m with x :: a, y :: m => xorb x y :: minus a m | [], m => m | _, [] => [] end.
(** long division, [n] digits of the quotient *)
Fixpoint remainder (n : nat) (m : list bool) : list bool :=
  match n, m with
  | S n, b :: m => remainder n (if b then minus divisor m else m)
  | _, m => m
  end.
Fixpoint number (l : list bool) : Z := match l with [] => 0 | b :: t => Z.b2z b + 2 * number t end.
Definition crc32 (d : list Z) : Z :=
  number (map negb (remainder (length (file_bits d)) (minus (repeat true 32) (file_bits d ++ repeat false 32)))).

(** damage within [n] bits that follow each other, the lowest bit of a byte first *)
Definition damage (n : nat) (a b : list Z) : Prop :=
  exists x p q y, file_bits a = x ++ p ++ y /\ file_bits b = x ++ q ++ y /\ length p = length q /\ (length p <= n)%nat.

(** the number in a name: "ddb", five digits, ".snp" *)
Fixpoint digits_value (l : list Z) : Z := match l with [] => 0 | d :: t => (d - 48) * 10 ^ Z.of_nat (length t) + digits_value t end.
Definition named (name : list Z) (v : Z) : Prop :=
  exists ds, name = [100;100;98] ++ ds ++ [46;115;110;112] /\ length ds = 5%nat /\ Forall (fun d => 48 <= d <= 57) ds /\ digits_value ds = v.

(** snapshots kept as they are: the maker is 6fdfdf78-062a-46bb-8402-62145ae55764, as stored, unless the depot itself has
    this id; all others are compressed *)
Definition plain_maker : list Z := [120;223;223;111;42;6;187;70;132;2;98;20;90;229;87;100].
Definition stored_plain (root maker : list Z) : Prop := maker = plain_maker /\ root <> maker.
(** zlib hands out bytes *)
Definition gives_bytes (c : codec) : Prop := forall st b, bytes_ok b -> bytes_ok (snd (fst (i_step c st b))).
