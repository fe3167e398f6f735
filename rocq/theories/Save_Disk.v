From Coq Require Import String Ascii.
From Verif Require Import Prelude App_Model App_Spec Run_Model Run_Spec Run_Proofs Run_Steps Run_Tools Run_Paths Save_Model Save_Spec.
Ltac Zify.zify_post_hook ::= idtac.

Lemma target_path cwd d name s q : disk_ok d -> s <> [] -> In name [codes "dbcf.cf"; codes "cf.cf"] -> target cwd d s name q ->
  exists t, config_path true cwd d name s = Some t /\ full_path cwd t = q.
Proof.
  intros OK NE N (p & P & H). destruct (path_rules cwd d s p name OK NE P N) as (R1 & R2 & _). destruct H as [[C ->]|(C & D & ->)].
  - exists s. split; [exact (R1 C)|]. symmetry. now apply place_full.
  - destruct (R2 C D) as (t & E & PT). exists t. split; [exact E|]. symmetry. now apply place_full.
Qed.
Lemma not_above q : q <> [] -> ~ within q (removelast q).
Proof.
  intros NE [t E]. assert (L : List.length q = S (List.length (removelast q))). { rewrite (app_removelast_last [] NE) at 1. rewrite app_length. cbn [List.length]. lia. } apply (f_equal (@List.length _)) in E. rewrite app_length in E. lia.
Qed.
(** a file has nothing below it *)
Lemma tree_above d : tree d -> forall t q x, In (q ++ t, x) d -> q <> [] -> t <> [] -> In (q, None) d.
Proof.
  intros T. induction t as [|n t IH] using rev_ind; intros q x H NQ NT; [congruence|]. rewrite app_assoc in H. destruct (T _ _ _ H) as [E|E]; [destruct q; [congruence|discriminate]|]. destruct t as [|m t]; [now rewrite app_nil_r in E|]. apply (IH q None E NQ). discriminate.
Qed.
Lemma save_to_in cwd d t q bytes p x : disk_ok d -> full_path cwd t = q -> q <> [] -> In (removelast q, None) d ->
  (In (p, x) (save_to cwd d t bytes) <-> (p = q /\ x = Some bytes) \/ (In (p, x) d /\ ~ (within q p /\ exists y, In (q, y) d))).
Proof.
  intros OK E NE UP. unfold save_to. rewrite E. unfold file_exists. destruct (look d q) as [y|] eqn:EL.
  - apply (look_in d q y OK) in EL. assert (OK2 := rem_ok d q OK). assert (UP2 : In (removelast q, None) (remove_all d q)) by (apply rem_in; split; [exact UP|now apply not_above]). apply (look_in _ _ _ OK2) in UP2. rewrite UP2. cbn [In]. rewrite rem_in. split.
    + intros [H|[H1 H2]]; [left; split; congruence|]. right. split; [exact H1|]. tauto.
    + intros [[-> ->]|[H1 H2]]; [now left|]. right. split; [exact H1|]. intros W. apply H2. split; [exact W|]. now exists y.
  - apply look_none in EL. apply (look_in _ _ _ OK) in UP. rewrite UP. cbn [In]. split.
    + intros [H|H]; [left; split; congruence|]. right. split; [exact H|]. intros [_ [y Y]]. exact (EL y Y).
    + intros [[-> ->]|[H _]]; [now left|now right].
Qed.
Theorem command_ok cwd d name s q bytes : disk_ok d -> tree d -> s <> [] -> In name [codes "dbcf.cf"; codes "cf.cf"] -> target cwd d s name q -> q <> [] -> In (removelast q, None) d -> ~ In (q, None) d ->
  exists d', save_command true true cwd d name s bytes = (d', true) /\ forall p x, In (p, x) d' <-> (p = q /\ x = Some bytes) \/ (p <> q /\ In (p, x) d).
Proof.
  intros OK T NE N TG NQ UP ND. destruct (target_path cwd d name s q OK NE N TG) as (t & E1 & E2). exists (save_to cwd d t bytes). split; [unfold save_command; now rewrite E1|]. intros p x. rewrite (save_to_in cwd d t q bytes p x OK E2 NQ UP). split.
  - intros [H|[H1 H2]]; [now left|]. right. split; [|exact H1]. intros ->. apply H2. split; [exists []; now rewrite app_nil_r|]. now exists x.
  - intros [H|[H1 H2]]; [now left|]. right. split; [exact H2|]. intros [[u W] _]. subst p. destruct u as [|u0 u]; [rewrite app_nil_r in H1; congruence|]. apply ND. apply (tree_above d T (u0 :: u) q x H2 NQ). discriminate.
Qed.
Theorem command_folder cwd d name s q bytes : disk_ok d -> s <> [] -> In name [codes "dbcf.cf"; codes "cf.cf"] -> target cwd d s name q -> q <> [] -> In (removelast q, None) d -> In (q, None) d ->
  exists d', save_command true true cwd d name s bytes = (d', true) /\ forall p x, In (p, x) d' <-> (p = q /\ x = Some bytes) \/ (~ within q p /\ In (p, x) d).
Proof.
  intros OK NE N TG NQ UP ND. destruct (target_path cwd d name s q OK NE N TG) as (t & E1 & E2). exists (save_to cwd d t bytes). split; [unfold save_command; now rewrite E1|]. intros p x. rewrite (save_to_in cwd d t q bytes p x OK E2 NQ UP). split.
  - intros [H|[H1 H2]]; [now left|]. right. split; [|exact H1]. intros W. apply H2. split; [exact W|]. now exists None.
  - intros [H|[H1 H2]]; [now left|]. right. split; [exact H2|]. tauto.
Qed.
Theorem command_not infobase ready cwd d name s bytes : infobase = false \/ ready = false -> save_command infobase ready cwd d name s bytes = (d, false).
Proof. intros H. unfold save_command, config_path. destruct infobase; [|reflexivity]. destruct H as [H| ->]; [discriminate|]. destruct (is_cf s); [reflexivity|]. destruct (is_dir cwd d s); reflexivity. Qed.
