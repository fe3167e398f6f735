(** What a user expects of a database opened for viewing. *)
From Verif Require Import Prelude Port_Model Descr_Model Cache_Model Cache_Spec View_Model.

(** opened with the option -ne, or of one of the formats that are never changed *)
Definition for_viewing (file : list Z) (monopoly : bool) : Prop :=
  monopoly = false \/ ((24 <= length file)%nat /\ (sub file 8 4 = [8; 0; 3; 0] \/ sub file 8 4 = [8; 0; 5; 0])).

(** the database: [k] pages, and a list of free pages inside the file *)
Definition sound (ps : Z) (k : nat) (file : list Z) (fr : free) : Prop :=
  4096 <= ps /\ (2 <= k)%nat /\ good_file (Z.to_nat ps) k file /\ Forall (fun p => 0 <= p < Z.of_nat k) (fr_pages fr) /\ 0 <= fr_len fr < 2^32.

(** an export directory whose file root is complete: the first three bytes say which of data, blob and index it has *)
Definition carries (p : place_of) (root : list Z) : Prop :=
  exists d more, p = Dir d /\ d 0%nat = Some (root ++ more) /\ length root = 36%nat.
Definition brings (root : list Z) (i : nat) : Prop := nth_error root i = Some 1.
(** the first file of the export is one that the table has not *)
Definition first_lacking (root : list Z) (slots : list (option Z)) : Prop :=
  exists i, brings root i /\ nth_error slots i = Some None /\ forall j, (j < i)%nat -> nth_error root j = Some 0.

(** the command with the number [i] *)
Definition lacking_import (tabs : list (list (option Z))) (ks : list command) (i : nat) : Prop :=
  exists t p root junk env slots, nth_error ks i = Some (Import t p junk env) /\ carries p root /\ nth_error tabs t = Some slots /\ first_lacking root slots.
Definition good_import (ks : list command) (outs : list bool) (i : nat) : Prop :=
  exists t d junk env, nth_error ks i = Some (Import t (Dir d) junk env) /\ nth_error outs i = Some false.
Definition rooted (c : command) : Prop := match c with Import _ (Dir d) _ _ => exists root, carries (Dir d) root | _ => True end.

(** the number of free pages, in page 1 *)
Definition free_count (ps : nat) (file : list Z) : Z := le_val (sub file (ps + 8) 4).
(** the [i]-th number in page [b] *)
Definition number_at (ps : nat) (file : list Z) (b i : nat) : Z := le_val (sub file (b * ps + 4 * i) 4).
(** the file with one more page, that of an empty file: a mark and zeros *)
Definition page_of_empty (v : dbver) (ps : nat) : list Z :=
  match v with V8380 => [28; 253] ++ repeat 0 (ps - 2) | _ => [49; 67; 68; 66; 79; 66; 86; 56] ++ repeat 0 (ps - 8) end.
Definition grown (v : dbver) (ps k : nat) (file : list Z) : list Z :=
  firstn 12 file ++ le_bytes 4 (Z.of_nat k + 1) ++ skipn 16 file ++ page_of_empty v ps.
