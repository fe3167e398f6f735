(** Which bytes a record may have. *)
From Verif Require Import Prelude Field_Model Field_Spec Tmpl_Model.

(** a byte of two decimal digits giving a number up to [n] *)
Definition two_digits (v n : Z) : bool := (v mod 16 <=? 9) && (10 * (v / 16) + v mod 16 <=? n).
(** byte [i] of a value of the kind may be [v]; month and day 0 stand for an empty date, which some fields may not hold *)
Definition value_byte (k : kind) (L : Z) (req : bool) (i v : Z) : bool :=
  match k with
  | KBool => v <=? 1
  | KNum => two_digits v 99
  | KVarchar | KVarbin => if i =? 0 then (255 <? L) || (v <=? L) else if i =? 1 then v <=? L / 256 else true
  | KDate => if i =? 0 then two_digits v 39 else if i =? 1 then two_digits v 99
             else if i =? 2 then two_digits v 12 && negb (req && (v =? 0)) else if i =? 3 then two_digits v 31 && negb (req && (v =? 0))
             else if i =? 4 then two_digits v 23 else two_digits v 59
  | _ => true
  end.
(** byte [i] of a field, with its mark *)
Definition field_byte (f : field) (req : bool) (i v : Z) : bool :=
  if f_null f then if i =? 0 then v <=? 1 else value_byte (f_kind f) (f_len f) req (i - 1) v else value_byte (f_kind f) (f_len f) req i v.
(** byte [p] of a record in use: the mark, or a byte of a field *)
Definition record_byte (fs : list (field * bool)) (p v : Z) : Prop :=
  (p = 0 /\ v = 0) \/ exists f req, In (f, req) fs /\ inside f p /\ field_byte f req (p - f_off f) v = true.
(** fields one beside the other in a record *)
Definition placed (fs : list (field * bool)) (reclen : Z) : Prop :=
  (forall f req, In (f, req) fs -> 1 <= f_off f /\ f_end f <= reclen /\ 0 <= f_len f < 65536) /\
  (forall i j f g a b, i <> j -> nth_error fs i = Some (f, a) -> nth_error fs j = Some (g, b) -> f_end f <= f_off g \/ f_end g <= f_off f).
(** a test of a page against the table of allowed bytes [tt] of the fields; 4 GiB of data at most *)
Definition setup (fs : list (field * bool)) (n : Z) (junk page tt : list Z) (num len : Z) : Prop :=
  5 <= n /\ placed fs n /\ record_template fs n = Ok tt /\ bytes_ok page /\ zlen page = 4096 /\ zlen junk = 4096 /\ (0 <= len <= 4096 /\ (num = 0 -> 5 <= len)) /\ 0 <= num < 2 ^ 20.
