(** Bracket-text trees: parser, printer and value classifier.
    Source: /repo/src/tool1cd/Parse_tree.cpp, Parse_tree.h, NodeTypes.h. *)
From Verif Require Import Prelude Text_Model.

(** NodeTypes.h *)
Inductive node_type :=
  nd_empty | nd_string | nd_number | nd_number_exp | nd_guid | nd_list
| nd_binary | nd_binary2 | nd_link | nd_binary_d | nd_unknown.

(** Parse_tree.h:41-73.  Simplification: the doubly linked child list with parent
    pointers is a list of subtrees; the child count and indices are implied. *)
Inductive tree := Node (value : list Z) (ty : node_type) (kids : list tree).

(** ** Regular expressions, Parse_tree.cpp:32-38.  Boost is modelled by a derivative
    matcher; character classes are lists of ranges. *)
Inductive re :=
| RNone | REps | RCls (ranges : list (Z * Z)) | RCat (a b : re) | RAlt (a b : re) | RStar (a : re).

Definition in_cls (l : list (Z * Z)) (c : Z) : bool :=
  existsb (fun r => (fst r <=? c) && (c <=? snd r)) l.
Fixpoint nullable (r : re) : bool :=
  match r with
  | RNone => false | REps => true | RCls _ => false
  | RCat a b => nullable a && nullable b
  | RAlt a b => nullable a || nullable b
  | RStar _ => true
  end.
Fixpoint deriv (c : Z) (r : re) : re :=
  match r with
  | RNone | REps => RNone
  | RCls l => if in_cls l c then REps else RNone
  | RCat a b => if nullable a then RAlt (RCat (deriv c a) b) (deriv c b) else RCat (deriv c a) b
  | RAlt a b => RAlt (deriv c a) (deriv c b)
  | RStar a => RCat (deriv c a) (RStar a)
  end.
(** boost::regex_match: the whole text must match *)
Fixpoint re_match (r : re) (s : list Z) : bool :=
  match s with [] => nullable r | c :: t => re_match (deriv c r) t end.

Definition rchr (c : Z) : re := RCls [(c, c)].
Definition ropt (r : re) : re := RAlt REps r.
Definition rplus (r : re) : re := RCat r (RStar r).
Fixpoint rrep (n : nat) (r : re) : re := match n with O => REps | S k => RCat r (rrep k r) end.
Fixpoint rstr (s : list Z) : re := match s with [] => REps | c :: t => RCat (rchr c) (rstr t) end.

Definition cls_digit : list (Z * Z) := [(48, 57)].                              (* \d, [0-9] *)
Definition cls_hex : list (Z * Z) := [(48, 57); (97, 102); (65, 70)].           (* [0-9a-fA-F] *)
(** [0-9a-zA-Z\+=\r\n\/] *)
Definition cls_b64 : list (Z * Z) := [(48, 57); (97, 122); (65, 90); (43, 43); (61, 61); (13, 13); (10, 10); (47, 47)].

(** ^-?\d+$ *)
Definition exp_number : re := RCat (ropt (rchr 45)) (rplus (RCls cls_digit)).
(** Parse_tree.cpp:33: optional minus, digits, optional group of an optional dot and
    any digits, optional exponent e or E with optional minus and digits *)
Definition exp_number_exp : re :=
  RCat (ropt (rchr 45)) (RCat (rplus (RCls cls_digit))
    (RCat (ropt (RCat (ropt (rchr 46)) (RStar (RCls cls_digit))))
          (ropt (RCat (RAlt (rchr 101) (rchr 69)) (RCat (ropt (rchr 45)) (rplus (RCls cls_digit))))))).
(** ^[0-9a-fA-F]{8}-...{4}-...{4}-...{4}-...{12}$ *)
Definition exp_guid : re :=
  RCat (rrep 8 (RCls cls_hex)) (RCat (rchr 45) (RCat (rrep 4 (RCls cls_hex)) (RCat (rchr 45)
  (RCat (rrep 4 (RCls cls_hex)) (RCat (rchr 45) (RCat (rrep 4 (RCls cls_hex)) (RCat (rchr 45)
  (rrep 12 (RCls cls_hex))))))))).
(** ^#base64:[...]*$ *)
Definition exp_binary : re := RCat (rstr [35;98;97;115;101;54;52;58]) (RStar (RCls cls_b64)).
(** ^[...]+$ *)
Definition exp_binary2 : re := rplus (RCls cls_b64).
(** ^[0-9]+:[0-9a-fA-F]{32}$ *)
Definition exp_link : re := RCat (rplus (RCls cls_digit)) (RCat (rchr 58) (rrep 32 (RCls cls_hex))).
(** ^#data:[...]*$ *)
Definition exp_binary_d : re := RCat (rstr [35;100;97;116;97;58]) (RStar (RCls cls_b64)).

(** classification_value, Parse_tree.cpp:257-292; the regexes see value.c_str(), i.e.
    the part before the first NUL *)
Definition classify (value : list Z) : node_type :=
  match value with
  | [] => nd_empty
  | _ =>
      let v := cstr value in
      if re_match exp_number v then nd_number
      else if re_match exp_number_exp v then nd_number_exp
      else if re_match exp_guid v then nd_guid
      else if re_match exp_binary v then nd_binary
      else if re_match exp_link v then nd_link
      else if re_match exp_binary2 v then nd_binary2
      else if re_match exp_binary_d v then nd_binary_d
      else nd_unknown
  end.

(** ** Parser, Parse_tree.cpp:322-519 *)
Inductive pmode := s_value | s_delimiter | s_string | s_quote_or_endstring | s_nonstring.

(** Parser state: mode, cur_value, and the children collected so far for the current
    node [t] (head), its parent, ..., the root [ret] (last).  All open nodes are
    nd_list with empty value. *)
Record pstate := mkp { p_mode : pmode; p_cur : list Z; p_stack : list (list tree) }.

Definition is_ws (c : Z) : bool := (c =? 32) || (c =? 9) || (c =? 13) || (c =? 10).

(** t->add_child(value, type) *)
Definition add_child (st : list (list tree)) (n : tree) : list (list tree) :=
  match st with k :: r => (k ++ [n]) :: r | [] => [] end.
(** t = t->get_parent(); a null parent is reported by an exception *)
Definition close_list (st : list (list tree)) : res (list (list tree)) :=
  match st with
  | k :: p :: r => Ok ((p ++ [Node [] nd_list k]) :: r)
  | _ => Throw
  end.

(** one round of the while loop, Parse_tree.cpp:336-484 *)
Definition pstep (s : pstate) (c : Z) : res pstate :=
  match p_mode s with
  | s_value =>
      if is_ws c then Ok s
      else if c =? 34 then Ok (mkp s_string [] (p_stack s))
      else if c =? 123 then Ok (mkp s_value (p_cur s) ([] :: p_stack s))
      else if c =? 125 then
        let st := match p_stack s with
                  | [] :: _ => p_stack s
                  | st => add_child st (Node [] nd_empty [])
                  end in
        do st <- close_list st; Ok (mkp s_delimiter (p_cur s) st)
      else if c =? 44 then Ok (mkp s_value (p_cur s) (add_child (p_stack s) (Node [] nd_empty [])))
      else Ok (mkp s_nonstring [c] (p_stack s))
  | s_delimiter =>
      if is_ws c then Ok s
      else if c =? 44 then Ok (mkp s_value (p_cur s) (p_stack s))
      else if c =? 125 then do st <- close_list (p_stack s); Ok (mkp s_delimiter (p_cur s) st)
      else Throw
  | s_string =>
      if c =? 34 then Ok (mkp s_quote_or_endstring (p_cur s) (p_stack s))
      else Ok (mkp s_string (p_cur s ++ [c]) (p_stack s))
  | s_quote_or_endstring =>
      if c =? 34 then Ok (mkp s_string (p_cur s ++ [c]) (p_stack s))
      else
        let st := add_child (p_stack s) (Node (p_cur s) nd_string []) in
        if is_ws c then Ok (mkp s_delimiter (p_cur s) st)
        else if c =? 44 then Ok (mkp s_value (p_cur s) st)
        else if c =? 125 then do st <- close_list st; Ok (mkp s_delimiter (p_cur s) st)
        else Throw
  | s_nonstring =>
      if (c =? 44) || (c =? 125) then
        let nt := classify (p_cur s) in
        match nt with
        | nd_unknown => Throw
        | _ =>
            let st := add_child (p_stack s) (Node (p_cur s) nt []) in
            if c =? 44 then Ok (mkp s_value (p_cur s) st)
            else do st <- close_list st; Ok (mkp s_delimiter (p_cur s) st)
        end
      else Ok (mkp s_nonstring (p_cur s ++ [c]) (p_stack s))
  end.

Fixpoint prun (s : pstate) (text : list Z) : res pstate :=
  match text with [] => Ok s | c :: t => do s' <- pstep s c; prun s' t end.

(** Parse_tree.cpp:486-519: end of text.  An unknown value at the very end is only
    logged, not rejected. *)
Definition pfinish (s : pstate) : res tree :=
  do st <- match p_mode s with
           | s_nonstring => Ok (add_child (p_stack s) (Node (p_cur s) (classify (p_cur s)) []))
           | s_quote_or_endstring => Ok (add_child (p_stack s) (Node (p_cur s) nd_string []))
           | s_delimiter => Ok (p_stack s)
           | _ => Throw
           end;
  match st with
  | [k] => Ok (Node [] nd_list k)
  | _ => Throw
  end.

Definition pinit : pstate := mkp s_value [] [[]].
(** parse_1Ctext, Parse_tree.cpp:527-531, with read_next_flow on a string (310-319) *)
Definition parse_text (text : list Z) : res tree := do s <- prun pinit text; pfinish s.
(** parse_1Cstream, Parse_tree.cpp:521-525: reading stops at the first NUL (294-308) *)
Definition parse_stream (text : list Z) : res tree := parse_text (cstr text).

(** ** Printer *)
(** StringReplace(value, quote, two quotes, rfReplaceAll): see C11_replace_all_char *)
Definition double_quotes (v : list Z) : list Z := flat_map (fun c => if c =? 34 then [34; 34] else [c]) v.

Definition node_ty (t : tree) : node_type := match t with Node _ ty _ => ty end.
Definition is_list_ty (ty : node_type) : bool := match ty with nd_list => true | _ => false end.

(** Tree::outtext(std::string&), Parse_tree.cpp:192-237: appends to [text] *)
Fixpoint outtext (t : tree) (text : list Z) {struct t} : list Z :=
  match t with
  | Node v ty kids =>
      match kids with
      | [] =>
          match ty with
          | nd_string => text ++ [34] ++ double_quotes v ++ [34]
          | nd_number | nd_number_exp | nd_guid | nd_list | nd_binary | nd_binary2 | nd_link | nd_binary_d => text ++ v
          | _ => text
          end
      | _ =>
          let text := match text with [] => [] | _ => text ++ [13; 10] end in
          let text := text ++ [123] in
          let fix go (ks : list tree) (text : list Z) (lt : node_type) : list Z * node_type :=
            match ks with
            | [] => (text, lt)
            | [k] => (outtext k text, node_ty k)
            | k :: r => go r (outtext k text ++ [44]) (node_ty k)
            end in
          let '(text, lt) := go kids text nd_unknown in
          (if is_list_ty lt then text ++ [13; 10] else text) ++ [125]
      end
  end.

(** outtext(Tree* ), Parse_tree.cpp:534-544: only the first child of the root *)
Definition out_root (root : tree) : list Z :=
  match root with Node _ _ (k :: _) => outtext k [] | _ => [] end.
