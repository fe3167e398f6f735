(** Empty lists inside of a tree: general refutation for C59. *)
From Verif Require Import Prelude Text_Model Tree_Model Tree_Spec Tree_Proofs.

(** the second tree has an empty value where the first has, at some depth and before another element, an empty list *)
Inductive hole : tree -> tree -> Prop :=
  | hole_here v ty pre post : post <> [] -> hole (Node v ty (pre ++ Node [] nd_list [] :: post)) (Node v ty (pre ++ Node [] nd_empty [] :: post))
  | hole_in v ty pre k k' post : hole k k' -> hole (Node v ty (pre ++ k :: post)) (Node v ty (pre ++ k' :: post)).

Lemma hole_ty t t' : hole t t' -> node_ty t = node_ty t'.
Proof. intros H. destruct H; reflexivity. Qed.
Lemma hole_diff t t' : hole t t' -> t <> t'.
Proof. intros H. induction H as [v ty pre post _|v ty pre k k' post H IH]; intros E; injection E as E; apply app_inv_head in E; congruence. Qed.
Lemma hole_leaf t t' : hole t t' -> ~ is_empty_leaf t'.
Proof. intros H E. unfold is_empty_leaf in E. destruct H; injection E as _ _ E; destruct pre; discriminate. Qed.

Lemma kids_same k k' post : (forall text, outtext k text = outtext k' text) -> post <> [] \/ node_ty k = node_ty k' ->
  forall pre text lt, out_kids (pre ++ k :: post) text lt = out_kids (pre ++ k' :: post) text lt.
Proof.
  intros H N. induction pre as [|p pre IH]; intros text lt; cbn [app].
  - destruct post as [|q post].
    + destruct N as [N|N]; [congruence|]. cbn [out_kids]. now rewrite H, N.
    + change (out_kids (k :: q :: post) text lt) with (out_kids (q :: post) (outtext k text ++ [44]) (node_ty k)). change (out_kids (k' :: q :: post) text lt) with (out_kids (q :: post) (outtext k' text ++ [44]) (node_ty k')). rewrite H.
      destruct post; reflexivity.
  - destruct pre as [|p2 pre]; cbn [app] in *.
    + change (out_kids (p :: k :: post) text lt) with (out_kids (k :: post) (outtext p text ++ [44]) (node_ty p)). change (out_kids (p :: k' :: post) text lt) with (out_kids (k' :: post) (outtext p text ++ [44]) (node_ty p)). apply IH.
    + change (out_kids (p :: p2 :: pre ++ k :: post) text lt) with (out_kids (p2 :: pre ++ k :: post) (outtext p text ++ [44]) (node_ty p)). change (out_kids (p :: p2 :: pre ++ k' :: post) text lt) with (out_kids (p2 :: pre ++ k' :: post) (outtext p text ++ [44]) (node_ty p)). apply IH.
Qed.
Lemma node_same v ty k k' pre post : (forall text, outtext k text = outtext k' text) -> post <> [] \/ node_ty k = node_ty k' ->
  forall text, outtext (Node v ty (pre ++ k :: post)) text = outtext (Node v ty (pre ++ k' :: post)) text.
Proof.
  intros H N text. pose proof (fun t l => kids_same k k' post H N pre t l) as K.
  destruct pre as [|p pre]; cbn [app] in *; rewrite !outtext_node; cbv zeta; rewrite K; reflexivity.
Qed.
Theorem hole_text t t' : hole t t' -> forall text, outtext t text = outtext t' text.
Proof.
  intros H. induction H as [v ty pre post N|v ty pre k k' post H IH]; apply node_same; auto.
  - intros text. cbn [outtext]. now rewrite app_nil_r.
  - right. now apply hole_ty.
Qed.
Theorem hole_lost t t' : hole t t' -> printable t' -> parse_text (outtext t []) = Ok (Node [] nd_list [t']) /\ t <> t'.
Proof.
  intros H P. split; [|now apply hole_diff]. rewrite (hole_text _ _ H). apply print_parse; [exact P|]. exact (hole_leaf _ _ H).
Qed.
