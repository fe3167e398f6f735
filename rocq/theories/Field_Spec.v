(** What fields, their order and their texts mean. *)
From Verif Require Import Prelude Field_Model.

(** ** Comparison *)
Fixpoint lex (a b : list Z) : comparison :=
  match a, b with
  | [], [] => Eq | [], _ => Lt | _, [] => Gt
  | x :: a', y :: b' => match x ?= y with Eq => lex a' b' | c => c end
  end.
(** half bytes, high one first *)
Definition nibs (bs : list Z) : list Z := flat_map (fun b => [b / 16; b mod 16]) bs.
(** decimal value, most significant digit first *)
Definition dec (ds : list Z) : Z := fold_left (fun a d => 10 * a + d) ds 0.
(** a stored number: sign (0 = minus), [L] digits, a zero half byte if needed *)
Definition num_ok (L : nat) (bs : list Z) : Prop :=
  bytes_ok bs /\ length bs = Nat.div2 (L + 2) /\ Forall (fun d => d <= 9) (nibs bs) /\ hd 0 (nibs bs) <= 1 /\ skipn (S L) (nibs bs) = repeat 0 (2 * length bs - S L)%nat.
Definition num_value (L : nat) (bs : list Z) : Z :=
  let v := dec (firstn L (tl (nibs bs))) in if hd 0 (nibs bs) =? 0 then - v else v.
(** a stored date: seven bytes of two digits; the parts from the year to the second *)
Definition bcd (b : Z) : Z := 10 * (b / 16) + b mod 16.
Definition date_ok (bs : list Z) : Prop := bytes_ok bs /\ length bs = 7%nat /\ Forall (fun d => d <= 9) (nibs bs).
Definition date_parts (bs : list Z) : list Z :=
  match bs with [a; b; c; d; e; f; g] => [100 * bcd a + bcd b; bcd c; bcd d; bcd e; bcd f; bcd g] | _ => [] end.

(** values of the kinds that can be in an index, and their order *)
Definition value_ok (k : kind) (L : Z) (bs : list Z) : Prop :=
  match k with
  | KNum => 0 < L <= 126 /\ num_ok (Z.to_nat L) bs
  | KDate => date_ok bs
  | KBool => bs = [0] \/ bs = [1]
  | KBin => 0 < L /\ bytes_ok bs /\ zlen bs = L
  | _ => False
  end.
Definition value_cmp (k : kind) (L : Z) (a b : list Z) : comparison :=
  match k with
  | KNum => num_value (Z.to_nat L) a ?= num_value (Z.to_nat L) b
  | KDate => lex (date_parts a) (date_parts b)
  | KBool => match hd 0 a =? 0, hd 0 b =? 0 with true, false => Lt | false, true => Gt | _, _ => Eq end
  | _ => lex a b
  end.

(** ** Layout *)
(** bytes of a value: a number has a sign and L digits, two to a byte; characters have two bytes;
    counts, versions and references to blobs as in the file format *)
Definition width (k : kind) (L : Z) : Z :=
  match k with
  | KBin => L | KBool => 1 | KNum => (1 + L + 1) / 2 | KChar => 2 * L | KVarchar => 2 + 2 * L
  | KVersion => 8 + 8 | KString | KText | KImage => 4 + 4 | KDate => 7 | KVersion8 => 8 | KVarbin => 2 + L
  end.
(** with the mark of fields that can be NULL *)
Definition extent (f : field) : Z := (if f_null f then 1 else 0) + width (f_kind f) (f_len f).
Definition f_end (f : field) : Z := f_off f + extent f.
Definition inside (f : field) (x : Z) : Prop := f_off f <= x < f_end f.
Definition same_decl (f g : field) : Prop := f_kind f = f_kind g /\ f_null f = f_null g /\ f_len f = f_len g.
(** sum of the sizes *)
Definition total (fs : list field) : Z := fold_right Z.add 0 (map extent fs).

(** ** Text *)
(** text of ASCII characters as UTF-16 *)
Definition utf16 (t : list Z) : list Z := concat (map (fun c => [c; 0]) t).
Definition is_hex (c : Z) : Prop := 48 <= c <= 57 \/ 97 <= c <= 102.
(** the digits 0 to 9, a to f, two for each byte *)
Definition hex_text (bs : list Z) : list Z := map (fun d => nth (Z.to_nat d) [48; 49; 50; 51; 52; 53; 54; 55; 56; 57; 97; 98; 99; 100; 101; 102] 0) (nibs bs).
