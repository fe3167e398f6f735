(** Specification of packed decimal fields and decimal texts, independent of the
    model's loops. *)
From Verif Require Import Prelude.

(** A packed decimal field of declared length [len] occupies (len+2)/2 bytes.  With
    a sign flag the first half-byte is the sign (0 negative, 1 positive); if [len]
    is even the last half-byte is unused and must be zero. *)
Definition wf_packed (flag : bool) (len : Z) (bs : list Z) : Prop :=
  bytes_ok bs /\ zlen bs = (len + 2) / 2 /\
  (flag = true -> hd 0 bs / 16 <= 1) /\
  (len mod 2 = 0 -> last bs 0 mod 16 = 0).

Definition digit (d : Z) : Prop := 0 <= d <= 9.

(** number denoted by a digit string, most significant first *)
Definition dval (ds : list Z) : Z := fold_left (fun a d => 10 * a + d) ds 0.

Definition chars (ds : list Z) : list Z := map (fun d => d + 48) ds.

(** [t] is a decimal text with integer digits [ip] and fraction digits [fp]. *)
Definition is_decimal (t ip fp : list Z) : Prop :=
  Forall digit ip /\ Forall digit fp /\
  (t = chars ip ++ 46 :: chars fp \/ (t = chars ip /\ fp = [])).

(** the text's value times 10^p, rounded down *)
Definition floor_at (ip fp : list Z) (p : Z) : Z :=
  dval (ip ++ fp) * 10 ^ p / 10 ^ zlen fp.

(** normal form: no superfluous zeros *)
Definition normal (ip fp : list Z) : Prop :=
  Forall digit ip /\ Forall digit fp /\
  (ip = [0] \/ (ip <> [] /\ hd 0 ip <> 0)) /\
  (fp = [] \/ last fp 0 <> 0).

Definition normal_text (ip fp : list Z) : list Z :=
  chars ip ++ (match fp with [] => [] | _ => 46 :: chars fp end).
