(** Property theorems about unpacking stored values (C54, C103). *)
From Verif Require Import Prelude Stream_Model Val_Model Val_Spec Val_Proofs.

(** ** C54: the list of users is decoded with the stored key *)
Theorem C54_users_partial : forall key d, (1 <= length key <= 127)%nat -> decode_users (users_encode key d) = Ok d.
Proof. exact users_ok. Qed.
Print Assumptions C54_users_partial.
(** the buffers for which the code leaves its bounds: an empty one, one whose key would have 128 bytes
    or more, and one that ends inside its key *)
Theorem C54_outside_refuted : forall bb, bytes_ok bb ->
  (decode_users bb = UB <-> match bb with [] => True | b :: t => 128 <= b \/ zlen t < b end).
Proof. exact users_outside. Qed.
Print Assumptions C54_outside_refuted.
(** with a key of no bytes the first byte of the text is replaced *)
Theorem C54_nokey_refuted : forall x t, decode_users (0 :: x :: t) = Ok (0 :: t).
Proof. exact decode_empty_mask. Qed.
Print Assumptions C54_nokey_refuted.
Example C54_nonvacuous : users_encode [7; 200; 3] [10; 20; 30; 40; 50] = [3; 7; 200; 3; 13; 220; 29; 47; 250] /\
  decode_users [3; 7; 200; 3; 13; 220; 29; 47; 250] = Ok [10; 20; 30; 40; 50] /\ decode_users [3; 7; 200] = UB /\ decode_users (200 :: repeat 1 300) = UB.
Proof. repeat apply conj; vm_compute; reflexivity. Qed.

(** ** C103: a stored value is unpacked to its data *)
(** stored plainly: the data if there is any, the description alone otherwise *)
Theorem C103_plain_partial : forall inflate descr mid data more, length mid = 4%nat -> data <> [] -> zlen descr + zlen data + zlen more < 2^61 ->
  unpack_value inflate ([1;1] ++ body2 descr mid data more) = Ok data.
Proof.
  intros inflate descr mid data more HM HD HL. destruct (body2_result descr mid data more HM HL) as (E1 & E2 & E3 & E4 & E5).
  rewrite unpack_plain; [rewrite E5; destruct data; congruence|rewrite E3; lia|exact E2|exact E1|exact E4].
Qed.
Print Assumptions C103_plain_partial.
Theorem C103_description_partial : forall inflate descr, descr <> [] -> zlen descr < 2^61 -> unpack_value inflate ([1;1] ++ body1 descr) = Ok descr.
Proof.
  intros inflate descr HD HL. destruct (body1_result descr HD HL) as (E1 & E2 & E3 & E4). pose proof (zlen_nonneg descr).
  rewrite unpack_plain; [rewrite E2; reflexivity|rewrite E4; lia|exact E3|rewrite E1; lia|rewrite E1, E4; lia].
Qed.
Print Assumptions C103_description_partial.
(** stored compressed: the same for what the compressed part expands to *)
Theorem C103_zipped_partial : forall inflate z descr mid data more, length mid = 4%nat -> data <> [] -> zlen descr + zlen data + zlen more < 2^61 -> zlen z < 2^61 ->
  inflate z = Some (body2 descr mid data more) -> unpack_value inflate ([2;1] ++ SIG_ZIP ++ z) = Ok data.
Proof.
  intros inflate z descr mid data more HM HD HL HZ HI. destruct (body2_result descr mid data more HM HL) as (E1 & E2 & E3 & E4 & E5).
  rewrite (unpack_zip inflate z (body2 descr mid data more)); [rewrite E5; destruct data; congruence|lia|exact HI|rewrite E3; lia|exact E2|exact E1|exact E4].
Qed.
Print Assumptions C103_zipped_partial.
(** a value in no known format, or one that cannot be expanded, comes out as it is stored *)
Theorem C103_other_partial : forall inflate blob, zlen blob < 2^62 -> (forall r, blob <> [1;1] ++ r) -> (forall r, blob <> [2;1] ++ r) -> unpack_value inflate blob = Ok blob.
Proof. exact unpack_other. Qed.
Print Assumptions C103_other_partial.
Theorem C103_unreadable_partial : forall inflate sig z, length sig = 16%nat -> zlen z + 18 < 2^62 -> sig <> SIG_ZIP \/ inflate z = None ->
  unpack_value inflate ([2;1] ++ sig ++ z) = Ok ([2;1] ++ sig ++ z).
Proof. exact unpack_bad. Qed.
Print Assumptions C103_unreadable_partial.
(** empty data: the whole tail of the body is handed out instead of nothing; empty description: eight
    bytes of a length *)
Theorem C103_empty_refuted : forall inflate descr mid more, length mid = 4%nat -> zlen descr + zlen more < 2^61 ->
  unpack_value inflate ([1;1] ++ body2 descr mid [] more) = Ok (mid ++ repeat 0 8 ++ more).
Proof.
  intros inflate descr mid more HM HL. destruct (body2_result descr mid [] more HM) as (E1 & E2 & E3 & E4 & E5); [change (zlen []) with 0; lia|]. change (zlen []) with 0 in E3.
  rewrite unpack_plain; [rewrite E5; reflexivity|rewrite E3; lia|exact E2|exact E1|exact E4].
Qed.
Print Assumptions C103_empty_refuted.
Theorem C103_nodescription_refuted : forall inflate, unpack_value inflate ([1;1] ++ body1 []) = Ok (repeat 0 8).
Proof. exact no_descr. Qed.
Print Assumptions C103_nodescription_refuted.
Example C103_nonvacuous : let b := body2 [65; 66] [9; 9; 9; 9] [1; 2; 3] [77] in
  b = [2;0;0;0;0;0;0;0; 65;66; 9;9;9;9; 3;0;0;0;0;0;0;0; 1;2;3; 77] /\ unpack_value (fun _ => None) ([1;1] ++ b) = Ok [1; 2; 3] /\
  unpack_value (fun z => if list_eq_dec Z.eq_dec z [5; 5] then Some b else None) ([2;1] ++ SIG_ZIP ++ [5; 5]) = Ok [1; 2; 3] /\
  unpack_value (fun _ => None) [3; 1; 4] = Ok [3; 1; 4].
Proof. repeat apply conj; vm_compute; reflexivity. Qed.
