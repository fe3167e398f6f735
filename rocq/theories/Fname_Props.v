(** Theorems about the names of files for fields. *)
From Verif Require Import Prelude Fname_Model Fname_Spec Fname_Proofs.
Ltac Zify.zify_post_hook ::= idtac.

(** ** C211: the default file names of different fields and records are different *)
(** C211 is false: of the number of a record one byte is used, so with an index that is not primary and equal key values the
    numbers n and n + 256 give the same name *)
Theorem C211_wrapped_refuted : forall same pres t i rec rec' f n m, naming t i -> fi_primary i = false -> (forall k, In k (fi_fields i) -> pres k rec = pres k rec') ->
  n <> 0 -> m <> 0 -> n mod 256 = m mod 256 -> field_file_name same pres t f rec n = field_file_name same pres t f rec' m.
Proof. exact wrapped. Qed.
Print Assumptions C211_wrapped_refuted.
(** with a multiple of 256 the name has a zero byte, where a name of a file ends *)
Theorem C211_zero_refuted : forall same pres t i rec f n nm, naming t i -> fi_primary i = false -> n <> 0 -> n mod 256 = 0 ->
  field_file_name same pres t f rec n = Ok nm -> exists p q, nm = p ++ [95; 0] ++ q.
Proof. exact zero. Qed.
Print Assumptions C211_zero_refuted.
(** without an index all records have the same name *)
Theorem C211_no_index_refuted : forall same pres t rec rec' f n m, ft_indexes t = [] -> field_file_name same pres t f rec n = field_file_name same pres t f rec' m.
Proof. exact no_index. Qed.
Print Assumptions C211_no_index_refuted.
(** also with a primary index: key values with the character _ run into each other *)
Theorem C211_ambiguous_refuted : forall same pres t i rec rec' f n k1 k2 x y z, naming t i -> fi_fields i = [k1; k2] -> x <> [] ->
  pres k1 rec = x ++ [95] ++ y -> pres k2 rec = z -> pres k1 rec' = x -> pres k2 rec' = y ++ [95] ++ z ->
  field_file_name same pres t f rec n = field_file_name same pres t f rec' n.
Proof. exact ambiguous. Qed.
Print Assumptions C211_ambiguous_refuted.
(** in the four tables of the configuration all fields of a record have one name *)
Theorem C211_one_name_refuted : forall same pres t f g rec n, one_file same t -> field_file_name same pres t f rec n = field_file_name same pres t g rec n.
Proof. exact one_name. Qed.
Print Assumptions C211_one_name_refuted.
(** what holds: with key values without _, and a primary index or numbers from 1 to 255, equal names of a field mean equal key
    values (and equal numbers) *)
Theorem C211_own_partial : forall same pres t i rec rec' f n m nm, naming t i ->
  Forall (fun k => clear_value (pres k rec) /\ clear_value (pres k rec')) (fi_fields i) -> (fi_primary i = true \/ 0 < n < 256 /\ 0 < m < 256) ->
  field_file_name same pres t f rec n = Ok nm -> field_file_name same pres t f rec' m = Ok nm ->
  Forall (fun k => pres k rec = pres k rec') (fi_fields i) /\ (fi_primary i = false -> n = m).
Proof. exact own. Qed.
Print Assumptions C211_own_partial.
(** and other fields of one record have other names *)
Theorem C211_fields_partial : forall same pres t f g rec n fn gn nm, ~ one_file same t -> nth_error (ft_fields t) f = Some fn -> nth_error (ft_fields t) g = Some gn ->
  field_file_name same pres t f rec n = Ok nm -> field_file_name same pres t g rec n = Ok nm -> fn = gn.
Proof. exact fields_own. Qed.
Print Assumptions C211_fields_partial.

Definition ex_fsame (a b : list Z) : bool := if list_eq_dec Z.eq_dec a b then true else false.
(* a value is a byte of the record; 7 stands for a_b *)
Definition ex_pres (k : nat) (rec : list Z) : list Z := match nth k rec 0 with 7 => [97; 95; 98] | 8 => [98; 95; 99] | c => [c] end.
Definition ex_ftab (p : bool) : ftable := FT false [84] [[65]; [66]] [FI false [0%nat]; FI p [0%nat; 1%nat]].
Definition ex_fsys : ftable := FT true [70; 73; 76; 69; 83] [[65]; [66]] [].
Example C211_case : naming (ex_ftab false) (FI false [0%nat]) /\ naming (ex_ftab true) (FI true [0%nat; 1%nat]) /\ one_file ex_fsame ex_fsys /\ ~ one_file ex_fsame (ex_ftab true) /\
  ex_pres 0 [7; 99] = [97] ++ [95] ++ [98] /\ ex_pres 1 [7; 99] = [99] /\ ex_pres 0 [97; 8] = [97] /\ ex_pres 1 [97; 8] = [98] ++ [95] ++ [99] /\
  Forall (fun k => clear_value (ex_pres k [97; 98]) /\ clear_value (ex_pres k [97; 99])) [0%nat; 1%nat].
Proof.
  split; [right; split; [repeat constructor|eexists; reflexivity]|]. split; [left; split; [reflexivity|]; exists [FI false [0%nat]], []; split; [reflexivity|repeat constructor]|].
  split; [split; [reflexivity|]; right; right; now left|]. split; [intros (X & _); discriminate|].
  split; [reflexivity|]. split; [reflexivity|]. split; [reflexivity|]. split; [reflexivity|].
  repeat constructor; cbn; (discriminate || intuition lia).
Qed.
Example C211_run : field_file_name ex_fsame ex_pres (ex_ftab false) 1 [97; 98] 300 = Ok [97; 95; 44; 95; 66] /\ field_file_name ex_fsame ex_pres (ex_ftab true) 1 [7; 99] 300 = Ok [97; 95; 98; 95; 99; 95; 66] /\
  field_file_name ex_fsame ex_pres (ex_ftab true) 1 [97; 8] 5 = Ok [97; 95; 98; 95; 99; 95; 66].
Proof. vm_compute. auto. Qed.
