(** Value kinds and printable trees, stated without regular expressions. *)
From Verif Require Import Prelude Tree_Model.

Definition is_digit (c : Z) : Prop := 48 <= c <= 57.
Definition is_hexd (c : Z) : Prop := 48 <= c <= 57 \/ 97 <= c <= 102 \/ 65 <= c <= 70.
Definition is_b64c (c : Z) : Prop :=
  48 <= c <= 57 \/ 97 <= c <= 122 \/ 65 <= c <= 90 \/ c = 43 \/ c = 61 \/ c = 13 \/ c = 10 \/ c = 47.

Definition sign_text (s : list Z) : Prop := s = [] \/ s = [45].
Definition digits1 (s : list Z) : Prop := s <> [] /\ Forall is_digit s.
Definition hexn (n : nat) (s : list Z) : Prop := length s = n /\ Forall is_hexd s.

Definition number_text (v : list Z) : Prop := exists s d, v = s ++ d /\ sign_text s /\ digits1 d.
Definition exponent_text (v : list Z) : Prop :=
  v = [] \/ exists e s d, v = e :: s ++ d /\ (e = 101 \/ e = 69) /\ sign_text s /\ digits1 d.
Definition number_exp_text (v : list Z) : Prop :=
  exists s d p f e, v = s ++ d ++ p ++ f ++ e /\ sign_text s /\ digits1 d /\ (p = [] \/ p = [46]) /\
    Forall is_digit f /\ exponent_text e.
Definition guid_text (v : list Z) : Prop :=
  exists a b c d e, v = a ++ [45] ++ b ++ [45] ++ c ++ [45] ++ d ++ [45] ++ e /\
    hexn 8 a /\ hexn 4 b /\ hexn 4 c /\ hexn 4 d /\ hexn 12 e.
Definition base64_text (v : list Z) : Prop := exists b, v = [35;98;97;115;101;54;52;58] ++ b /\ Forall is_b64c b.
Definition link_text (v : list Z) : Prop := exists d h, v = d ++ [58] ++ h /\ digits1 d /\ hexn 32 h.
Definition base64_bare_text (v : list Z) : Prop := v <> [] /\ Forall is_b64c v.
Definition data_text (v : list Z) : Prop := exists b, v = [35;100;97;116;97;58] ++ b /\ Forall is_b64c b.

(** the kind of a value text: the first form it fits *)
Definition value_kind (v : list Z) (ty : node_type) : Prop :=
  match ty with
  | nd_empty => v = []
  | nd_number => number_text v
  | nd_number_exp => number_exp_text v /\ ~ number_text v
  | nd_guid => guid_text v
  | nd_binary => base64_text v
  | nd_link => link_text v
  | nd_binary2 => base64_bare_text v /\ ~ number_text v /\ ~ number_exp_text v
  | nd_binary_d => data_text v
  | nd_unknown => v <> [] /\ ~ number_text v /\ ~ number_exp_text v /\ ~ guid_text v /\ ~ base64_text v /\
                  ~ link_text v /\ ~ base64_bare_text v /\ ~ data_text v
  | nd_string | nd_list => False
  end.

(** a leaf that can be written and read back: any string, an empty value, or a value
    text of its kind that does not start with a line break *)
Definition leaf_ok (v : list Z) (ty : node_type) : Prop :=
  match ty with
  | nd_string => True
  | nd_empty => v = []
  | nd_unknown | nd_list => False
  | _ => value_kind v ty /\ match v with c :: _ => c <> 13 /\ c <> 10 | [] => False end
  end.

(** trees the text form can express: lists are neither empty nor made of a single
    empty value *)
Inductive printable : tree -> Prop :=
| pr_leaf v ty : leaf_ok v ty -> printable (Node v ty [])
| pr_list ks : ks <> [] -> ks <> [Node [] nd_empty []] -> Forall printable ks -> printable (Node [] nd_list ks).

Definition is_empty_leaf (t : tree) : Prop := t = Node [] nd_empty [].

(** no list without children anywhere in the tree *)
Inductive no_empty_list : tree -> Prop :=
| nel v ty ks : (ty = nd_list -> ks <> []) -> Forall no_empty_list ks -> no_empty_list (Node v ty ks).

(** shape of everything the reader accepts: values of a known kind, strings, empty
    values, and lists of such *)
Inductive wf_tree : tree -> Prop :=
| wf_leaf v ty : leaf_ok v ty -> wf_tree (Node v ty [])
| wf_list ks : ks <> [Node [] nd_empty []] -> Forall wf_tree ks -> wf_tree (Node [] nd_list ks).
