(** What a reader of XML sees in a file (XML 1.0, the part that matters here), what a table is as a document, and
    what values mean; independent of the export. *)
From Coq Require String Ascii.
From Verif Require Import Prelude Bcd_Spec Codec_Spec Text_Spec Field_Model Field_Spec Xml_Model.
Import String.StringSyntax.
Delimit Scope string_scope with string.

Definition str (s : String.string) : list Z := map (fun a => Z.of_nat (Ascii.nat_of_ascii a)) (String.list_ascii_of_string s).
Arguments str _%string_scope.

(** ** Reading XML *)
Inductive event := Start (name : list Z) (attrs : list (list Z * list Z)) | Stop (name : list Z) | Chars (t : list Z).
(** 2.2: control characters other than tab, line feed and carriage return are not allowed.  Bytes from 128 on belong
    to UTF-8 sequences and are taken as they are *)
Definition xml_char (c : Z) : bool := (32 <=? c) || (c =? 9) || (c =? 10) || (c =? 13).
(** 2.11: line ends *)
Fixpoint line_ends (s : list Z) : list Z :=
  match s with
  | [] => []
  | c :: r => if c =? 13 then 10 :: (match r with d :: r' => if d =? 10 then line_ends r' else line_ends r | [] => [] end)
              else c :: line_ends r
  end.
Definition is_space (c : Z) : bool := (c =? 32) || (c =? 9) || (c =? 10) || (c =? 13).
(** letters, digits, . - _ : and everything beyond ASCII *)
Definition name_char (c : Z) : bool :=
  ((65 <=? c) && (c <=? 90)) || ((97 <=? c) && (c <=? 122)) || ((48 <=? c) && (c <=? 57)) ||
  (c =? 45) || (c =? 46) || (c =? 95) || (c =? 58) || (128 <=? c).
(** 4.6: the predefined entities; others are refused, so are character references *)
Definition entity (n : list Z) : option Z :=
  if list_eq_dec Z.eq_dec n (str "amp") then Some 38
  else if list_eq_dec Z.eq_dec n (str "lt") then Some 60
  else if list_eq_dec Z.eq_dec n (str "gt") then Some 62
  else if list_eq_dec Z.eq_dec n (str "apos") then Some 39
  else if list_eq_dec Z.eq_dec n (str "quot") then Some 34
  else None.
(** states of the reader; texts are collected in reverse.  After <, inside <?..?>, after <!, inside a comment with the
    number of dashes just seen, in an end tag, in the name of a start tag, between attributes, in the name of an
    attribute, before and in its value, after the slash of an empty element *)
Inductive state :=
  | SText (acc : list Z) | SEntity (acc n : list Z) | SLt | SPi (q : bool) | SBang (d : bool) | SComment (d : nat)
  | SEnd (n : list Z) | SName (n : list Z) | STag (n : list Z) (attrs : list (list Z * list Z))
  | SAttr (n : list Z) (attrs : list (list Z * list Z)) (a : list Z) | SEq (n : list Z) (attrs : list (list Z * list Z)) (a : list Z)
  | SVal (n : list Z) (attrs : list (list Z * list Z)) (a v : list Z) | SSlash (n : list Z) (attrs : list (list Z * list Z)).
Definition flush (acc : list Z) : list event := match acc with [] => [] | _ => [Chars (rev acc)] end.
(** one character: the events it completes and the next state; [None] = not well-formed.  References in attributes are
    not supported; attributes may follow each other without space *)
Definition step (s : state) (c : Z) : option (list event * state) :=
  match s with
  | SText acc => if c =? 60 then Some (flush acc, SLt) else if c =? 38 then Some ([], SEntity acc []) else Some ([], SText (c :: acc))
  | SEntity acc n =>
      if c =? 59 then match entity (rev n) with Some x => Some ([], SText (x :: acc)) | None => None end
      else Some ([], SEntity acc (c :: n))
  | SLt => if c =? 63 then Some ([], SPi false) else if c =? 33 then Some ([], SBang false)
           else if c =? 47 then Some ([], SEnd []) else if name_char c then Some ([], SName [c]) else None
  | SPi q => if q && (c =? 62) then Some ([], SText []) else Some ([], SPi (c =? 63))
  | SBang d => if c =? 45 then Some ([], if d then SComment 0 else SBang true) else None
  | SComment d =>
      match d with
      | S (S _) => if c =? 62 then Some ([], SText []) else None
      | _ => Some ([], SComment (if c =? 45 then S d else 0%nat))
      end
  | SEnd n => if c =? 62 then Some ([Stop (rev n)], SText []) else if name_char c then Some ([], SEnd (c :: n)) else None
  | SName n =>
      if c =? 62 then Some ([Start (rev n) []], SText []) else if c =? 47 then Some ([], SSlash (rev n) [])
      else if is_space c then Some ([], STag (rev n) []) else if name_char c then Some ([], SName (c :: n)) else None
  | STag n l =>
      if c =? 62 then Some ([Start n l], SText []) else if c =? 47 then Some ([], SSlash n l)
      else if is_space c then Some ([], STag n l) else if name_char c then Some ([], SAttr n l [c]) else None
  | SAttr n l a => if c =? 61 then Some ([], SEq n l (rev a)) else if name_char c then Some ([], SAttr n l (c :: a)) else None
  | SEq n l a => if c =? 34 then Some ([], SVal n l a []) else None
  | SVal n l a v => if c =? 34 then Some ([], STag n (l ++ [(a, rev v)])) else if (c =? 60) || (c =? 38) then None
                    else Some ([], SVal n l a (c :: v))
  | SSlash n l => if c =? 62 then Some ([Start n l; Stop n], SText []) else None
  end.
Fixpoint run (s : state) (t : list Z) : option (list event) :=
  match t with
  | [] => match s with SText acc => Some (flush acc) | _ => None end
  | c :: r => match step s c with
              | Some (es, s) => match run s r with Some l => Some (es ++ l) | None => None end
              | None => None
              end
  end.
(** every end tag matches, one element outside *)
Fixpoint nested (open : list (list Z)) (es : list event) : bool :=
  match es with
  | [] => match open with [] => true | _ => false end
  | Start n _ :: r => nested (n :: open) r
  | Stop n :: r => match open with m :: o => if list_eq_dec Z.eq_dec n m then nested o r else false | [] => false end
  | Chars t :: r => match open with [] => forallb is_space t && nested open r | _ => nested open r end
  end.
(** values are the texts inside the fourth element; other text must be space, and is dropped *)
Fixpoint content (depth : nat) (es : list event) : option (list event) :=
  match es with
  | [] => Some []
  | Start n l :: r => match content (S depth) r with Some k => Some (Start n l :: k) | None => None end
  | Stop n :: r => match content (pred depth) r with Some k => Some (Stop n :: k) | None => None end
  | Chars t :: r =>
      if Nat.eqb depth 4 then match content depth r with Some k => Some (Chars t :: k) | None => None end
      else if forallb is_space t then content depth r else None
  end.
Definition read_xml (file : list Z) : option (list event) :=
  match file with
  | 239 :: 187 :: 191 :: r =>
      if forallb xml_char r then
        match run (SText []) (line_ends r) with
        | Some es => if nested [] es then content 0 es else None
        | None => None
        end
      else None
  | _ => None
  end.
(** a name that can be used for an element *)
Definition xml_name (n : list Z) : Prop := n <> [] /\ Forall (fun c => name_char c = true) n.

(** ** A table as a document *)
(** name, type, length, precision, whether a value is required *)
Record fdoc := FDoc { fd_name : list Z; fd_type : list Z; fd_len : list Z; fd_prec : list Z; fd_req : bool }.
Record tdoc := TDoc { td_name : list Z; td_fields : list fdoc; td_rows : list (list (list Z * list Z)) }.
Definition field_events (f : fdoc) : list event :=
  [Start (str "Field") [(str "Name", fd_name f); (str "Type", fd_type f); (str "Length", fd_len f); (str "Precision", fd_prec f);
     (str "NotNull", if fd_req f then str "true" else str "false")]; Stop (str "Field")].
Definition cell_events (c : list Z * list Z) : list event :=
  Start (fst c) [] :: (match snd c with [] => [] | t => [Chars t] end) ++ [Stop (fst c)].
Definition row_events (r : list (list Z * list Z)) : list event :=
  Start (str "Record") [] :: flat_map cell_events r ++ [Stop (str "Record")].
Definition doc_events (d : tdoc) : list event :=
  [Start (str "Table") [(str "Name", td_name d)]; Start (str "Fields") []] ++ flat_map field_events (td_fields d) ++
  [Stop (str "Fields"); Start (str "Records") []] ++ flat_map row_events (td_rows d) ++ [Stop (str "Records"); Stop (str "Table")].

(** ** Values *)
(** decimal text of a number *)
Definition is_int (t : list Z) (v : Z) : Prop :=
  exists ds, Forall digit ds /\ ds <> [] /\ (hd 0 ds = 0 -> ds = [0]) /\
    ((t = chars ds /\ v = dval ds) \/ (t = 45 :: chars ds /\ v = - dval ds /\ ds <> [0])).
(** a text that survives: allowed characters, no carriage return, no special character twice *)
Definition plain (t : list Z) : Prop :=
  Forall (fun c => xml_char c = true /\ c <> 13) t /\ (forall c, xml_special c -> (occ c t <= 1)%nat).
(** "yyyy-MM-ddThh:mm:ss" (ISO 8601) of fourteen digits *)
Definition iso (ds : list Z) : list Z :=
  let c i := nth i ds 0 + 48 in
  [c 0%nat; c 1%nat; c 2%nat; c 3%nat; 45; c 4%nat; c 5%nat; 45; c 6%nat; c 7%nat; 84;
   c 8%nat; c 9%nat; 58; c 10%nat; c 11%nat; 58; c 12%nat; c 13%nat].
(** base64 (RFC 4648) on one line *)
Definition b64_char (i : Z) : Z :=
  if i <? 26 then 65 + i else if i <? 52 then 71 + i else if i <? 62 then i - 4 else if i =? 62 then 43 else 47.
Fixpoint b64 (v : list Z) : list Z :=
  match v with
  | a :: b :: c :: r => [b64_char (a / 4); b64_char (a mod 4 * 16 + b / 16); b64_char (b mod 16 * 4 + c / 64); b64_char (c mod 64)] ++ b64 r
  | [a; b] => [b64_char (a / 4); b64_char (a mod 4 * 16 + b / 16); b64_char (b mod 16 * 4); 61]
  | [a] => [b64_char (a / 4); b64_char (a mod 4 * 16); 61; 61]
  | [] => []
  end.
(** the spelling 1C uses for an identifier of sixteen bytes *)
Definition hexd (d : Z) : Z := if d <? 10 then 48 + d else 87 + d.
Definition guid_text (v : list Z) : list Z :=
  let h l := flat_map (fun i => [hexd (nth i v 0 / 16); hexd (nth i v 0 mod 16)]) l in
  h [12; 13; 14; 15]%nat ++ [45] ++ h [10; 11]%nat ++ [45] ++ h [8; 9]%nat ++ [45] ++ h [0; 1]%nat ++ [45] ++ h [2; 3; 4; 5; 6; 7]%nat.
(** 32-bit numbers in a row, and their texts with colons between them *)
Fixpoint numbers_text (ns : list Z) (v t : list Z) : Prop :=
  match ns with
  | [] => False
  | n :: r => exists t1, - 2 ^ 31 <= n < 2 ^ 31 /\ is_int t1 n /\
      match r with
      | [] => v = le_bytes 4 (n mod 2 ^ 32) /\ t = t1
      | _ => exists v' t', numbers_text r v' t' /\ v = le_bytes 4 (n mod 2 ^ 32) ++ v' /\ t = t1 ++ 58 :: t'
      end
  end.
(** [t] is the text of the value with the bytes [v] of a field of kind [k], length [L] and precision [P]; [id] tells fields
    for identifiers; [d] = the data a reference points to.  Only the values are included that the export can show:
    see the restrictions of [plain], of dates to years from 1000 on, of pictures to 54 bytes *)
Definition means (k : kind) (L P : Z) (id : bool) (v d t : list Z) : Prop :=
  match k with
  | KBool => exists b, v = [b] /\ t = if b =? 0 then str "false" else str "true"
  | KNum => 1 <= L /\ 0 <= P <= L /\ num_ok (Z.to_nat L) v /\
      exists k m ip fp, firstn (Z.to_nat L) (tl (nibs v)) = repeat 0 k ++ ip ++ fp ++ repeat 0 m /\ zlen fp + Z.of_nat m = P /\
        (ip = [] \/ hd 0 ip <> 0) /\ (fp = [] \/ last fp 0 <> 0) /\
        t = (if hd 0 (nibs v) =? 0 then [45] else []) ++ normal_text (match ip with [] => [0] | _ => ip end) fp
  | KDate => date_ok v /\ hd 0 (nibs v) <> 0 /\ t = iso (nibs v)
  | KChar => plain t /\ exists cps, Forall scalar cps /\ v = le16 (utf16_of cps) /\ t = utf8_of cps
  | KVarchar => plain t /\ exists cps pad, Forall scalar cps /\ zlen (utf16_of cps) < 2 ^ 15 /\
      v = le_bytes 2 (zlen (utf16_of cps)) ++ le16 (utf16_of cps) ++ pad /\ t = utf8_of cps
  | KVersion => exists ns, length ns = 4%nat /\ numbers_text ns v t
  | KVersion8 => exists ns, length ns = 2%nat /\ numbers_text ns v t
  | KString => plain t /\ exists cps, Forall scalar cps /\ d = le16 (utf16_of cps) /\ t = utf8_of cps
  | KText => plain t /\ d = t
  | KImage => bytes_ok d /\ zlen d <= 54 /\ t = b64 d
  | KBin => id = true /\ L = 16 /\ is_guid v /\ t = guid_text v
  | KVarbin => False
  end.
(** kinds by name *)
Definition kind_name (k : kind) : list Z :=
  match k with
  | KBin => str "binary" | KBool => str "bool" | KNum => str "number" | KChar => str "fixed string"
  | KVarchar => str "string" | KVersion => str "version" | KString => str "memo" | KText => str "text"
  | KImage => str "image" | KDate => str "datetime" | KVersion8 => str "hidden version" | KVarbin => str "var binary"
  end.
(** bytes [p .. p + n) of a record *)
Definition part (rec : list Z) (p n : Z) : list Z := firstn (Z.to_nat n) (skipn (Z.to_nat p) rec).
(** what the document says about a field *)
Definition field_doc (n : list Z) (f : field) (P : Z) (fd : fdoc) : Prop :=
  fd_name fd = n /\ fd_type fd = kind_name (f_kind f) /\ is_int (fd_len fd) (f_len f) /\ is_int (fd_prec fd) P /\ fd_req fd = negb (f_null f).
(** what it says about a value: NULL leaves the element empty.  Reading a date takes three bytes more than
    the value, they must be there *)
Definition is_missing (f : field) (rec : list Z) : bool := f_null f && (nth (Z.to_nat (f_off f)) rec 0 =? 0).
Definition value_at (f : field) : Z := f_off f + (if f_null f then 1 else 0).
Definition cell_doc (blob : Z -> Z -> res (list Z)) (n : list Z) (f : field) (P : Z) (id : bool) (rec : list Z) (c : list Z * list Z) : Prop :=
  fst c = n /\ 0 <= f_off f /\ 0 <= f_len f /\
  value_at f + width (f_kind f) (f_len f) + (match f_kind f with KDate => 3 | _ => 0 end) <= zlen rec /\
  if is_missing f rec then snd c = []
  else let v := part rec (value_at f) (width (f_kind f) (f_len f)) in
       exists d, (match f_kind f with KString | KText | KImage => blob (le_val (firstn 4 v)) (le_val (skipn 4 v)) = Ok d | _ => True end) /\
         means (f_kind f) (f_len f) P id v d (snd c).

(** ** The table and its document *)
(** the first primary index *)
Definition primary_of (t : xtable) (i : xindex) : Prop :=
  exists a b, t_indexes t = a ++ i :: b /\ i_primary i = true /\ Forall (fun j => i_primary j = false) a.
Definition no_primary (t : xtable) : Prop := Forall (fun j => i_primary j = false) (t_indexes t).
(** the records in their order *)
Definition shown (t : xtable) (ns : list Z) : Prop :=
  (exists i, primary_of t i /\ ns = i_recs i) \/ (no_primary t /\ ns = t_found t).
(** the fields that name a record *)
Definition named_by (t : xtable) (ks : list xfield) : Prop :=
  (exists i, primary_of t i /\ ks = i_fields i) \/ (no_primary t /\ ks = match t_indexes t with [] => [] | i :: _ => i_fields i end).
Definition row_doc (blob : Z -> Z -> res (list Z)) (fs : list xfield) (rec : list Z) (r : list (list Z * list Z)) : Prop :=
  Forall2 (fun f c => cell_doc blob (x_name f) (x_f f) (x_prec f) (x_ref f) rec c) fs r.
(** the naming fields belong to the table and are not NULL *)
Definition has_name (t : xtable) (rec : list Z) : Prop :=
  exists ks, named_by t ks /\ Forall (fun k => In k (t_fields t) /\ is_missing (x_f k) rec = false) ks.
Definition all_named (t : xtable) : Prop := forall ns n rec, shown t ns -> In n ns -> t_get t n = Ok rec -> has_name t rec.
Definition table_doc (blob : Z -> Z -> res (list Z)) (t : xtable) (d : tdoc) : Prop :=
  td_name d = t_name t /\ Forall2 (fun f fd => field_doc (x_name f) (x_f f) (x_prec f) fd) (t_fields t) (td_fields d) /\
  exists ns, shown t ns /\ Forall2 (fun n r => exists rec, t_get t n = Ok rec /\ row_doc blob (t_fields t) rec r) ns (td_rows d).
(** names without special characters, lengths and precisions of at most ten digits *)
Definition writable (t : xtable) : Prop :=
  Forall (fun c => name_char c = true) (t_name t) /\
  Forall (fun f => xml_name (x_name f) /\ - 10 ^ 10 < f_len (x_f f) < 10 ^ 10 /\ - 10 ^ 10 < x_prec f < 10 ^ 10) (t_fields t).
