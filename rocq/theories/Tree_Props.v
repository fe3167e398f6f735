(** Theorems about bracket text (Parse_tree.cpp). *)
From Verif Require Import Prelude Text_Model Tree_Model Tree_Spec Tree_Proofs Tree_Empty.

(** C14: printing then parsing gives the tree back, at any depth and width. *)
Theorem C14_print_parse t : printable t -> ~ is_empty_leaf t -> parse_text (outtext t []) = Ok (Node [] nd_list [t]).
Proof. exact (print_parse t). Qed.
Print Assumptions C14_print_parse.

Definition sample_tree : tree :=
  Node [] nd_list [Node [49;50] nd_number []; Node [] nd_list [Node [97;34;98;44;125;10] nd_string []; Node [] nd_empty [];
    Node [45;49;46;53;101;45;51] nd_number_exp []]; Node [] nd_list [Node [] nd_list [Node [35;98;97;115;101;54;52;58;81;65] nd_binary []]]].
Example C14_sample_text : outtext sample_tree [] =
  [123;49;50;44;13;10;123;34;97;34;34;98;44;125;10;34;44;44;45;49;46;53;101;45;51;125;44;13;10;123;13;10;123;35;98;97;115;101;54;52;58;81;65;125;13;10;125;13;10;125].
Proof. reflexivity. Qed.
Example C14_sample_hyp : printable sample_tree /\ ~ is_empty_leaf sample_tree.
Proof.
  split; [|discriminate]. unfold sample_tree.
  assert (K : forall v ty, ~ In 0 v -> classify v = ty -> value_kind v ty) by (intros v ty H <-; now apply classify_kind).
  assert (Z0 : forall v, forallb (fun c => negb (c =? 0)) v = true -> ~ In 0 v).
  { intros v H X. rewrite forallb_forall in H. specialize (H 0 X). discriminate. }
  apply pr_list; [discriminate|discriminate|].
  apply Forall_cons; [apply pr_leaf; split; [apply K; [apply Z0|]; vm_compute; reflexivity|lia]|].
  apply Forall_cons.
  - apply pr_list; [discriminate|discriminate|].
    apply Forall_cons; [apply pr_leaf; exact I|]. apply Forall_cons; [apply pr_leaf; reflexivity|].
    apply Forall_cons; [apply pr_leaf; split; [apply K; [apply Z0|]; vm_compute; reflexivity|lia]|constructor].
  - apply Forall_cons; [|constructor]. apply pr_list; [discriminate|discriminate|]. apply Forall_cons; [|constructor].
    apply pr_list; [discriminate|discriminate|].
    apply Forall_cons; [apply pr_leaf; split; [apply K; [apply Z0|]; vm_compute; reflexivity|lia]|constructor].
Qed.

(** C59 is false: whatever else the tree holds, an empty list that stands, at any depth, before another element is read back
    as an empty value *)
Theorem C59_empty_lists_refuted t t' : hole t t' -> printable t' -> parse_text (outtext t []) = Ok (Node [] nd_list [t']) /\ t <> t'.
Proof. exact (hole_lost t t'). Qed.
Print Assumptions C59_empty_lists_refuted.
Example C59_empty_lists_case : exists t, hole t sample_tree /\ printable sample_tree.
Proof.
  exists (Node [] nd_list [Node [49;50] nd_number []; Node [] nd_list [Node [97;34;98;44;125;10] nd_string []; Node [] nd_list [];
    Node [45;49;46;53;101;45;51] nd_number_exp []]; Node [] nd_list [Node [] nd_list [Node [35;98;97;115;101;54;52;58;81;65] nd_binary []]]]).
  split; [|exact (proj1 C14_sample_hyp)].
  apply (hole_in [] nd_list [Node [49;50] nd_number []]).
  apply (hole_here [] nd_list [Node [97;34;98;44;125;10] nd_string []] [Node [45;49;46;53;101;45;51] nd_number_exp []]). discriminate.
Qed.
(** so is an empty list at the end; a list of one empty value does not survive either *)
Theorem C59_empty_list_refuted :
  parse_text [123;49;44;123;125;125] = Ok (Node [] nd_list [Node [] nd_list [Node [49] nd_number []; Node [] nd_list []]]) /\
  outtext (Node [] nd_list [Node [49] nd_number []; Node [] nd_list []]) [] = [123;49;44;13;10;125] /\
  parse_text [123;49;44;13;10;125] = Ok (Node [] nd_list [Node [] nd_list [Node [49] nd_number []; Node [] nd_empty []]]).
Proof. repeat split; reflexivity. Qed.
Print Assumptions C59_empty_list_refuted.
Theorem C59_single_empty_value_refuted :
  outtext (Node [] nd_list [Node [] nd_empty []]) [] = [123;125] /\
  parse_text [123;125] = Ok (Node [] nd_list [Node [] nd_list []]) /\ outtext (Node [] nd_list []) [] = [].
Proof. repeat split; reflexivity. Qed.
Print Assumptions C59_single_empty_value_refuted.

(** C15: the parser returns an error or a list of well-formed trees, and each of these
    that holds no empty list prints to text that parses to the same tree again.  The
    last value of the text may be of no known kind; such a value is accepted. *)
Theorem C15_parse_result text : ~ In 0 text ->
  parse_text text = Throw \/
  exists pre last, parse_text text = Ok (Node [] nd_list (pre ++ [last])) /\ Forall wf_tree pre /\
    (wf_tree last \/ exists w, last = Node w nd_unknown [] /\ value_kind w nd_unknown).
Proof. exact (parse_result text). Qed.
Print Assumptions C15_parse_result.

Theorem C59_reparse_partial text v ty ks t : ~ In 0 text -> parse_text text = Ok (Node v ty ks) -> In t ks ->
  no_empty_list t -> node_ty t <> nd_unknown -> ~ is_empty_leaf t -> parse_text (outtext t []) = Ok (Node [] nd_list [t]).
Proof. exact (reparse text v ty ks t). Qed.
Print Assumptions C59_reparse_partial.
Example C59_reparse_hyp : exists t, parse_text [32;123;34;97;34;32;44;49;125] = Ok (Node [] nd_list [t]) /\ no_empty_list t /\
  node_ty t = nd_list /\ outtext t [] = [123;34;97;34;44;49;125].
Proof.
  eexists. split; [reflexivity|]. split; [|split; reflexivity].
  constructor; [discriminate|]. repeat (apply Forall_cons; [constructor; [discriminate|constructor]|]). constructor.
Qed.

(** a value of no known kind at the end of the text is accepted (C15) and then lost *)
Theorem C59_unknown_value_refuted text v : parse_text text = Ok (Node [] nd_list [Node v nd_unknown []]) -> parse_text (outtext (Node v nd_unknown []) []) = Throw.
Proof. intros _. reflexivity. Qed.
Print Assumptions C59_unknown_value_refuted.
Example C59_unknown_value_case : parse_text [63] = Ok (Node [] nd_list [Node [63] nd_unknown []]).
Proof. reflexivity. Qed.

(** C60: the kind given to a value text is the one of the first form it fits. *)
Theorem C60_value_kind_exact v ty : ~ In 0 v -> classify v = ty <-> value_kind v ty.
Proof. exact (classify_exact v ty). Qed.
Print Assumptions C60_value_kind_exact.
Example C60_kinds :
  classify [45;55] = nd_number /\ classify [49;46;53] = nd_number_exp /\ classify [49;101;53] = nd_number_exp /\ classify [46;53] = nd_unknown /\
  classify [97;98] = nd_binary2 /\ classify ([50;58] ++ repeat 97 32) = nd_link /\ classify ([50;58] ++ repeat 97 31) = nd_unknown.
Proof. repeat split; vm_compute; reflexivity. Qed.
