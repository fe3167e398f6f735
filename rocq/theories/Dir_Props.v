(** The elements of an opened container in memory (C153 to C156). *)
From Verif Require Import Prelude Dir_Model Dir_Spec Dir_Proofs.
Ltac Zify.zify_post_hook ::= idtac.

(** a lower case of ASCII, for the examples *)
Definition ascii_lower (s : list Z) : list Z := map (fun c => if (65 <=? c) && (c <=? 90) then c + 32 else c) s.

(** ** C153: an opened container is an ordered list of elements that are found by name in any case *)
Theorem C153_container : forall lower names os, NoDup (map lower names) -> valid lower (numbered names, length names) os ->
  exists d d', open_dir lower names = Ok d /\ dir_ops lower d os = Ok (d', snd (ideal_ops lower (numbered names, length names) os)).
Proof.
  intros lower names os N V. destruct (open_ok lower names N) as (d & E & I'). destruct (ops_ok lower os d _ _ I' V) as (d' & E' & _). exists d, d'. auto.
Qed.
Print Assumptions C153_container.
(** two elements a and B; c is made; B is found as b and deleted; B again is a new one behind c; a and c are deleted *)
Definition ex_ops : list dop := [Create [99]; Find [98]; Delete 1; Find [66]; Create [98]; List; Create [65]; Delete 0; List; Delete 2; Delete 3; List; Create [120]; List].
Example C153_case : NoDup (map ascii_lower [[97]; [66]]) /\ valid ascii_lower (numbered [[97]; [66]], 2%nat) ex_ops /\
  snd (ideal_ops ascii_lower (numbered [[97]; [66]], 2%nat) ex_ops) =
  [Made 2; Found (Some 1%nat); Gone; Found None; Made 3; Listed [(0%nat, [97]); (2%nat, [99]); (3%nat, [98])]; Made 0; Gone; Listed [(2%nat, [99]); (3%nat, [98])]; Gone; Gone; Listed []; Made 4; Listed [(4%nat, [120])]].
Proof. split; [repeat constructor; cbn; intuition congruence|]. split; [cbn; intuition congruence|reflexivity]. Qed.

(** ** C154: a renamed element is found by its new name only *)
(** after any history, renaming an element changes nothing in what is found; when it is then deleted, the old name gives freed memory *)
Theorem C154_rename_refuted : forall lower names os i old new, NoDup (map lower names) -> valid lower (numbered names, length names) os ->
  In (i, old) (fst (fst (ideal_ops lower (numbered names, length names) os))) ->
  exists d d' rs d1 d2 d3, open_dir lower names = Ok d /\ dir_ops lower d os = Ok (d', rs) /\ rename d' i new = Ok d1 /\ name_of d1 i = Ok new /\
    (forall x, get_file lower d1 x = get_file lower d' x) /\ get_file lower d1 old = Some i /\
    delete_file lower d1 i = Ok d2 /\ destroy d2 i = Ok d3 /\ (lower new <> lower old -> get_file lower d3 old = Some i) /\ name_of d3 i = UB.
Proof.
  intros lower names os i old new N V Hi. destruct (open_ok lower names N) as (d & E & I'). destruct (ops_ok lower os d _ _ I' V) as (d' & E' & I2).
  destruct (rename_ok lower d' _ _ i old new I2 Hi) as (d1 & d2 & d3 & R1 & R2 & R3 & R4 & R5 & R6 & R7). exists d, d'. eexists. exists d1, d2, d3.
  split; [exact E|]. split; [exact E'|]. split; [exact R1|]. split; [exact R2|]. split; [intros x; rewrite R3; unfold get_file; rewrite (i_map _ _ _ _ I2), find_key; reflexivity|]. split; [|auto].
  rewrite R3, find_key. apply in_split in Hi as (a & b & Hi). rewrite Hi. apply key_here. rewrite <- Hi. exact (i_keys _ _ _ _ I2).
Qed.
Print Assumptions C154_rename_refuted.
Example C154_case : NoDup (map ascii_lower [[97]; [66]]) /\ valid ascii_lower (numbered [[97]; [66]], 2%nat) [Create [99]] /\ In (1%nat, [66]) (fst (fst (ideal_ops ascii_lower (numbered [[97]; [66]], 2%nat) [Create [99]]))) /\
  match open_dir ascii_lower [[97]; [66]] with
  | Ok d => match rename d 1 [110] with Ok d1 => get_file ascii_lower d1 [110] = None /\ get_file ascii_lower d1 [98] = Some 1%nat /\ listing d1 = Ok [(0%nat, [97]); (1%nat, [110])] | _ => False end
  | _ => False
  end.
Proof. split; [repeat constructor; cbn; intuition congruence|]. split; [cbn; auto|]. split; [right; left; reflexivity|vm_compute; auto]. Qed.

(** ** C155: the name and times of an element are saved when it is closed *)
(** saved if, since it was last closed, it was opened or written and renamed or written *)
Theorem C155_saved_partial : forall v h1 h2, ~ In HClose h2 ->
  existsb (fun o => match o with HOpen | HWrite _ => true | _ => false end) h2 = true -> existsb (fun o => match o with HRename _ | HWrite _ => true | _ => false end) h2 = true ->
  fst (h_run (loaded v) (h1 ++ h2 ++ [HClose])) = values v (h1 ++ h2 ++ [HClose]).
Proof. intros [[n c] m] h1 h2 N O C. exact (saved h1 h2 (loaded (n, c, m)) N O C). Qed.
Print Assumptions C155_saved_partial.
(** an element that is not opened is not saved, whatever is done to it *)
Theorem C155_unopened_refuted : forall v os, (forall o, In o os -> match o with HOpen | HWrite _ => False | _ => True end) -> fst (h_run (loaded v) os) = v.
Proof.
  intros [[n c] m] os H. refine (lost_unopened os (loaded (n, c, m)) eq_refl _). induction os as [|o os IH]; [reflexivity|]. cbn [existsb]. rewrite IH by (intros; apply H; now right). specialize (H o (or_introl eq_refl)). destruct o; try reflexivity; contradiction.
Qed.
Print Assumptions C155_unopened_refuted.
(** changes of the times alone are not saved, opened or not *)
Theorem C155_times_refuted : forall v os, (forall o, In o os -> match o with HRename _ | HWrite _ => False | _ => True end) -> fst (h_run (loaded v) os) = v.
Proof.
  intros [[n c] m] os H. refine (lost_times os (loaded (n, c, m)) eq_refl _). induction os as [|o os IH]; [reflexivity|]. cbn [existsb]. rewrite IH by (intros; apply H; now right). specialize (H o (or_introl eq_refl)). destruct o; try reflexivity; contradiction.
Qed.
Print Assumptions C155_times_refuted.
Example C155_cases : let v := ([97], 5, 6) in
  fst (h_run (loaded v) [HRename [98]; HClose; HOpen; HCreated 9; HRename [99]; HModified 7; HClose]) = ([99], 9, 7) /\
  (fst (h_run (loaded v) [HRename [98]; HClose]) = v /\ values v [HRename [98]; HClose] = ([98], 5, 6)) /\
  (fst (h_run (loaded v) [HOpen; HCreated 8; HClose]) = v /\ values v [HOpen; HCreated 8; HClose] = ([97], 8, 6)).
Proof. vm_compute. auto 10. Qed.

(** ** C156: every element that is listed is found by its name *)
(** whatever the names, all are listed in order; of several with the same name in lower case only the last is found *)
Theorem C156_last_refuted : forall lower names, exists d, open_dir lower names = Ok d /\ listing d = Ok (numbered names) /\
  forall name, get_file lower d name = find_name lower (rev (numbered names)) name.
Proof. exact open_all. Qed.
Print Assumptions C156_last_refuted.
Theorem C156_distinct_partial : forall lower names i n, NoDup (map lower names) -> nth_error names i = Some n -> exists d, open_dir lower names = Ok d /\ get_file lower d n = Some i.
Proof.
  intros lower names i n N H. destruct (open_ok lower names N) as (d & E & I'). exists d. split; [exact E|]. unfold get_file. rewrite (i_map _ _ _ _ I'). apply by_key_in; [exact (i_keys _ _ _ _ I')|].
  exists n. split; [|reflexivity]. unfold numbered. clear -H. change i with (0 + i)%nat at 1. generalize 0%nat. revert i H. induction names as [|x t IH]; intros [|i] H k; try discriminate; cbn [length seq combine].
  - injection H as ->. left. f_equal. lia.
  - right. replace (k + S i)%nat with (S k + i)%nat by lia. now apply IH.
Qed.
Print Assumptions C156_distinct_partial.
Example C156_case : find_name ascii_lower (rev (numbered [[97]; [98]; [65]])) [97] = Some 2%nat /\ numbered [[97]; [98]; [65]] = [(0%nat, [97]); (1%nat, [98]); (2%nat, [65])] /\ NoDup (map ascii_lower [[97]; [66]]).
Proof. split; [reflexivity|]. split; [reflexivity|]. repeat constructor; cbn; intuition congruence. Qed.
