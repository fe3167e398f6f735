(** Property theorems about saving the configuration of a database file (C199). *)
From Coq Require Import Permutation.
From Verif Require Import Prelude Text_Spec Cf_Model Cfg_Model Cfg_Spec Xml_Model Xml_Spec Save_Model Save_Spec Full_Model Full_Spec Full_Demo Conf_Model Conf_Spec Conf_Files Conf_Demo.
Ltac Zify.zify_post_hook ::= idtac.

(** C199: what is saved is a container with the files of the table, each once, with its creation time and all of its parts *)
Theorem C199_saved_partial : forall lower same g stamp fuel after hjunk junk file mono h st xs x ps es, (forall d, 0 <= stamp d < 2 ^ 64) -> In 0 after ->
  database same file mono h st xs -> infobase same xs -> config_of same xs x -> table_holds x ps -> files_are lower stamp ps es ->
  Forall (ordinary lower) es -> no_updates lower ps -> room es < 2147483647 -> room es <= Z.of_nat fuel ->
  exists d ys es', save_of_file lower same g stamp fuel after hjunk junk file mono = Ok d /\ (forall junk, length junk = 31%nat -> is_catalog junk d = Ok true) /\
    open_files fuel after d = Ok ys /\ Permutation es es' /\ Forall2 (shows fuel after d) ys es'.
Proof. exact saved_from_file. Qed.
Print Assumptions C199_saved_partial.

Lemma names_longer fuel after d ys es : Forall2 (shows fuel after d) ys es ->
  fold_right (fun y r => zlen (fst (fst (fst y))) + r) 0 ys = fold_right (fun e r => zlen (utf8_of (e_name e)) + r) 0 es + 2 * zlen es.
Proof.
  induction 1 as [|[[[n c] t] s] e ys es H _ IH]; [reflexivity|]. cbn [fold_right fst]. destruct H as (-> & _). rewrite IH. unfold zlen. rewrite app_length. cbn [length]. lia.
Qed.
Lemma names_total (es es' : list entry) : Permutation es es' -> fold_right (fun e r => zlen (utf8_of (e_name e)) + r) 0 es = fold_right (fun e r => zlen (utf8_of (e_name e)) + r) 0 es'.
Proof. induction 1; cbn [fold_right]; lia. Qed.
Lemma names_same (ys : list (list Z * Z * Z * Z)) es : Forall2 (fun y e => fst (fst (fst y)) = utf8_of (e_name e)) ys es ->
  fold_right (fun y r => zlen (fst (fst (fst y))) + r) 0 ys = fold_right (fun e r => zlen (utf8_of (e_name e)) + r) 0 es.
Proof. induction 1 as [|y e ys es H _ IH]; [reflexivity|]. cbn [fold_right]. rewrite H, IH. reflexivity. Qed.
(** C199: the names read in the container are never the names of the table *)
Theorem C199_names_refuted : forall lower same g stamp fuel after hjunk junk file mono h st xs x ps es, (forall d, 0 <= stamp d < 2 ^ 64) -> In 0 after ->
  database same file mono h st xs -> infobase same xs -> config_of same xs x -> table_holds x ps -> files_are lower stamp ps es ->
  Forall (ordinary lower) es -> no_updates lower ps -> room es < 2147483647 -> room es <= Z.of_nat fuel -> es <> [] ->
  exists d ys, save_of_file lower same g stamp fuel after hjunk junk file mono = Ok d /\ open_files fuel after d = Ok ys /\
    ~ exists es', Permutation es es' /\ Forall2 (fun y e => fst (fst (fst y)) = utf8_of (e_name e)) ys es'.
Proof.
  intros lower same g stamp fuel after hjunk junk file mono h st xs x ps es H1 H2 H3 H4 H5 H6 H7 H8 H9 H10 H11 HN.
  destruct (saved_from_file lower same g stamp fuel after hjunk junk file mono h st xs x ps es H1 H2 H3 H4 H5 H6 H7 H8 H9 H10 H11) as (d & ys & es1 & E1 & _ & E2 & P1 & S1). exists d, ys. split; [exact E1|]. split; [exact E2|].
  intros (es2 & P2 & S2). apply names_longer in S1. apply names_same in S2. rewrite <- (names_total _ _ P1) in S1. rewrite <- (names_total _ _ P2) in S2. apply HN. apply Permutation_length in P1. destruct es as [|e es]; [reflexivity|]. exfalso. unfold zlen in *. cbn [length] in P1. lia.
Qed.
Print Assumptions C199_names_refuted.

Lemma shows_bytes fuel after d ys es : Forall2 (shows fuel after d) ys es -> forall y, In y ys -> exists e, In e es /\ fst (fst (fst y)) = utf8_of (e_name e) ++ [0; 0].
Proof.
  induction 1 as [|[[[n c] t] s] e ys es H _ IH]; intros y Hy; [destruct Hy|]. destruct Hy as [<- |Hy]; [exists e; split; [now left|apply H]|]. destruct (IH y Hy) as (e' & I1 & I2). exists e'. split; [now right|exact I2].
Qed.
(** C199: of a file without a part 0 nothing is saved, and the command succeeds *)
Theorem C199_first_part_refuted : forall lower same g stamp fuel after hjunk junk file mono h st xs x ps es p, (forall d, 0 <= stamp d < 2 ^ 64) -> In 0 after ->
  database same file mono h st xs -> infobase same xs -> config_of same xs x -> table_holds x ps -> files_are lower stamp ps es ->
  Forall (ordinary lower) es -> no_updates lower ps -> room es < 2147483647 -> room es <= Z.of_nat fuel -> In (Some p) ps -> no_first lower ps p ->
  exists d ys, save_of_file lower same g stamp fuel after hjunk junk file mono = Ok d /\ open_files fuel after d = Ok ys /\
    forall y n, In y ys -> fst (fst (fst y)) = n ++ [0; 0] -> lower n <> lower (utf8_of (p_name p)).
Proof.
  intros lower same g stamp fuel after hjunk junk file mono h st xs x ps es p H1 H2 H3 H4 H5 H6 H7 H8 H9 H10 H11 HP HF.
  destruct (saved_from_file lower same g stamp fuel after hjunk junk file mono h st xs x ps es H1 H2 H3 H4 H5 H6 H7 H8 H9 H10 H11) as (d & ys & es1 & E1 & _ & E2 & P1 & S1). exists d, ys. split; [exact E1|]. split; [exact E2|].
  intros y n Hy En L. destruct (shows_bytes _ _ _ _ _ S1 y Hy) as (e & Ie & Ee). rewrite Ee in En. apply app_inv_tail in En. subst n. apply (Permutation_in _ (Permutation_sym P1)) in Ie.
  destruct H7 as (F & _). rewrite Forall_forall in F. destruct (F e Ie) as (p0 & l & _ & Q & Z0 & _). destruct (proj1 (Q p0) (or_introl eq_refl)) as (I0 & L0). apply (HF p0 I0); [congruence|exact Z0].
Qed.
Print Assumptions C199_first_part_refuted.

(** an infobase with two files, the second in two records that are not in order, and a removed record *)
Example C199_nonvacuous : (forall d, 0 <= k_stamp d < 2 ^ 64) /\ database Full_Demo.beq k_file false k_head k_pages k_conts /\ infobase Full_Demo.beq k_conts /\ config_of Full_Demo.beq k_conts k_cont /\
  table_holds k_cont k_pieces /\ files_are ascii_lower k_stamp k_pieces k_entries /\ Forall (ordinary ascii_lower) k_entries /\ no_updates ascii_lower k_pieces /\ room k_entries <= 4000.
Proof.
  split; [intros d; apply Z.mod_pos_bound; lia|]. split; [exact k_database|]. split; [exact k_infobase|]. split; [exact k_config|]. split; [exact k_holds|]. split; [exact k_files_are|]. split; [exact k_ordinary|]. split; [exact k_no_updates|].
  assert (E : room k_entries = 3274) by (vm_compute; reflexivity). rewrite E. lia.
Qed.
Example C199_first_part_nonvacuous : In (Some (PC [67] 2 day2 day1 [4; 5])) k_pieces /\ no_first ascii_lower k_pieces (PC [67] 2 day2 day1 [4; 5]).
Proof. split; [do 4 right; now left|exact k_no_first]. Qed.
Example C199_ex :
  (do d <- save_of_file ascii_lower Full_Demo.beq (GS true true) k_stamp 4000 [0] [] [] k_file false; do xs <- open_files 4000 [0] d;
   Ok (map (fun x => let '(n, c, _, s) := x in (n, c, read_data 4000 [0] d s)) xs)) = Ok [([65; 0; 0], k_stamp day1, Ok [7; 8; 9]); ([66; 0; 0], k_stamp day2, Ok [1; 2; 30])].
Proof. vm_compute. reflexivity. Qed.
