(** The viewer of values: a document of bytes with undo, cursor, selection, search, clipboard.
    Sources: /repo/src/gtool1cd/QHexEdit, paths below are relative to it.  QByteArray and QUndoStack are modelled after
    the documentation of Qt 5; conversions of offsets to int are left out (documents stay below 2 GB). *)
From Verif Require Import Prelude.

(** ** QByteArray *)
(** insert(i, data): behind the end the gap is filled with spaces *)
Definition q_insert (b : list Z) (off : Z) (d : list Z) : list Z :=
  if off <? 0 then b
  else match d with
       | [] => b
       | _ => if off <=? zlen b then firstn (Z.to_nat off) b ++ d ++ skipn (Z.to_nat off) b
              else b ++ repeat 32 (Z.to_nat (off - zlen b)) ++ d
       end.
(** remove(pos, len) *)
Definition q_remove (b : list Z) (off len : Z) : list Z :=
  if (len <=? 0) || (off <? 0) || (zlen b <=? off) then b else firstn (Z.to_nat off) b ++ skipn (Z.to_nat (off + len)) b.
(** mid(pos, len) for pos, len >= 0 *)
Definition q_mid (b : list Z) (off len : Z) : list Z := firstn (Z.to_nat len) (skipn (Z.to_nat off) b).
(** indexOf and lastIndexOf of a pattern that is not empty *)
Definition q_at (b p : list Z) (i : nat) : bool := if list_eq_dec Z.eq_dec (firstn (length p) (skipn i b)) p then true else false.
Definition q_index (b p : list Z) (from : Z) : Z :=
  match find (q_at b p) (seq (Z.to_nat from) (length b - Z.to_nat from)) with Some i => Z.of_nat i | None => -1 end.
Definition q_last (b p : list Z) (from : Z) : Z :=
  let from := if from <? 0 then zlen b - 1 else from in
  if (1 <? zlen p) && (zlen b <? from) then -1 else
  match find (q_at b p) (rev (seq 0 (Z.to_nat (Z.min (from + 1) (zlen b))))) with Some i => Z.of_nat i | None => -1 end.

(** ** Commands, document/commands, document/buffer/qhexbuffer.cpp:8-12, qmemorybuffer.cpp:6-8 *)
Inductive cmd := CIns (off : Z) (d : list Z) | CDel (off len : Z) (saved : list Z) | CRep (off : Z) (d saved : list Z).
Definition b_replace (b : list Z) (off : Z) (d : list Z) : list Z := q_insert (q_remove b off (zlen d)) off d.
Definition c_redo (b : list Z) (c : cmd) : list Z * cmd :=
  match c with
  | CIns o d => (q_insert b o d, c)
  | CDel o n _ => (q_remove b o n, CDel o n (q_mid b o n))
  | CRep o d _ => (b_replace b o d, CRep o d (q_mid b o (zlen d)))
  end.
Definition c_undo (b : list Z) (c : cmd) : list Z :=
  match c with
  | CIns o d => q_remove b o (zlen d)
  | CDel o _ s => q_insert b o s
  | CRep o _ s => b_replace b o s
  end.
(** the bytes, the commands done (last first), the commands undone (last undone first) *)
Record doc := DC { d_bytes : list Z; d_done : list cmd; d_undone : list cmd }.
(** QUndoStack::push, undo, redo *)
Definition push (d : doc) (c : cmd) : doc := let (b, c) := c_redo (d_bytes d) c in DC b (c :: d_done d) [].
Definition undo (d : doc) : doc :=
  match d_done d with [] => d | c :: t => DC (c_undo (d_bytes d) c) t (c :: d_undone d) end.
Definition redo (d : doc) : doc :=
  match d_undone d with [] => d | c :: t => let (b, c) := c_redo (d_bytes d) c in DC b (c :: d_done d) t end.
(** QHexDocument::insert, replace, remove, qhexdocument.cpp:144-160 *)
Definition d_insert (d : doc) (off : Z) (x : list Z) : doc := push d (CIns off x).
Definition d_replace (d : doc) (off : Z) (x : list Z) : doc := push d (CRep off x []).
Definition d_remove (d : doc) (off len : Z) : doc := push d (CDel off len []).

(** ** Cursor, document/qhexcursor.cpp: lines of 16 bytes; [nib] = 1 at the first digit *)
Record pos := PS { line : Z; col : Z; nib : Z }.
Definition offset (p : pos) : Z := 16 * line p + col p.
(** [at_] = where the cursor is, [sel] = the other end of the selection; [ins] = insert mode, [hexa] = the digits are
    edited, otherwise the characters *)
Record view := VW { v_doc : doc; at_ : pos; sel : pos; ins : bool; hexa : bool }.
Definition size (v : view) : Z := zlen (d_bytes (v_doc v)).
Definition pos_eqb (p q : pos) : bool := (line p =? line q) && (col p =? col q) && (nib p =? nib q).
Definition has_sel (v : view) : bool := negb (pos_eqb (at_ v) (sel v)).
(** 17-43 *)
Definition sel_start (v : view) : pos :=
  if line (at_ v) <? line (sel v) then at_ v else if (line (at_ v) =? line (sel v)) && (col (at_ v) <? col (sel v)) then at_ v else sel v.
Definition sel_end (v : view) : pos :=
  if line (sel v) <? line (at_ v) then at_ v else if (line (at_ v) =? line (sel v)) && (col (sel v) <? col (at_ v)) then at_ v else sel v.
Definition sel_len (v : view) : Z := offset (sel_end v) - offset (sel_start v) + 1.
Definition clear_sel (v : view) : view := VW (v_doc v) (at_ v) (at_ v) (ins v) (hexa v).
Definition select (v : view) (p : pos) : view := VW (v_doc v) p (sel v) (ins v) (hexa v).
Definition move_to (v : view) (p : pos) : view := VW (v_doc v) p p (ins v) (hexa v).
(** moveTo(offset), 97-101; select(length), 103 *)
Definition move_off (v : view) (o : Z) : view := move_to v (PS (o / 16) (o mod 16) 1).
Definition select_len (v : view) (n : Z) : view := select v (PS (line (at_ v)) (Z.min 15 (col (at_ v) + n - 1)) 1).
Definition with_doc (v : view) (d : doc) : view := VW d (at_ v) (sel v) (ins v) (hexa v).
(** removeSelection, qhexdocument.cpp:50-57 *)
Definition remove_sel (v : view) : view :=
  if has_sel v then clear_sel (with_doc v (d_remove (v_doc v) (offset (sel_start v)) (sel_len v))) else v.

(** ** Clipboard, 96-140 *)
Definition hexchar (v : Z) : Z := if v <? 10 then v + 48 else v + 55.
(** toHex(' ').toUpper() *)
Fixpoint to_hex (b : list Z) : list Z :=
  match b with
  | [] => []
  | x :: t => hexchar (x / 16) :: hexchar (x mod 16) :: match t with [] => [] | _ => 32 :: to_hex t end
  end.
Definition hexval (c : Z) : option Z :=
  if (48 <=? c) && (c <=? 57) then Some (c - 48) else if (97 <=? c) && (c <=? 102) then Some (c - 87) else if (65 <=? c) && (c <=? 70) then Some (c - 55) else None.
(** QByteArray::fromHex: from the end; [low] = the digit waiting for its partner *)
Fixpoint from_rev (l : list Z) (low : option Z) (out : list Z) : list Z :=
  match l with
  | [] => match low with Some x => x :: out | None => out end
  | c :: t => match hexval c with
              | None => from_rev t low out
              | Some x => match low with None => from_rev t (Some x) out | Some y => from_rev t None (16 * x + y :: out) end
              end
  end.
Definition from_hex (l : list Z) : list Z := from_rev (rev l) None [].
(** selectedBytes, 59-65, and copy: the text of the clipboard as UTF-8; QString(QByteArray) ends at a zero byte, and
    [conv] = conversion from and to UTF-8 *)
Fixpoint until_nul (b : list Z) : list Z := match b with [] => [] | x :: t => if x =? 0 then [] else x :: until_nul t end.
Definition selected (v : view) : list Z := if has_sel v then q_mid (d_bytes (v_doc v)) (offset (sel_start v)) (sel_len v) else [].
Definition copy (conv : list Z -> list Z) (v : view) : option (list Z) :=
  if has_sel v then Some (if hexa v then to_hex (selected v) else conv (until_nul (selected v))) else None.
Definition paste (v : view) (text : list Z) : view :=
  match text with
  | [] => v
  | _ =>
      let v := remove_sel v in
      let x := if hexa v then from_hex text else text in
      with_doc v (if ins v then d_insert (v_doc v) (offset (at_ v)) x else d_replace (v_doc v) (offset (at_ v)) x)
  end.

(** ** Search, 175-202: the result and the view after *)
Definition found (v : view) (p : list Z) (i : Z) : Z * view := if -1 <? i then (i, select_len (move_off (clear_sel v) i) (zlen p)) else (i, v).
Definition search (v : view) (p : list Z) : Z * view := found v p (q_index (d_bytes (v_doc v)) p (offset (at_ v))).
Definition search_back (v : view) (p : list Z) : Z * view :=
  found v p (q_last (d_bytes (v_doc v)) p (if has_sel v then offset (sel_start v) - 1 else offset (at_ v) - 1)).

(** ** Lines of the document, qhexrenderer.cpp:131-133, 169-171: the number of lines is calculated in float, whose
    24 digits are rounded to even *)
Definition to_float (n : Z) : Z :=
  if n <? 2 ^ 24 then n
  else let u := 2 ^ (Z.log2 n - 23) in
       let q := n / u in let r := n mod u in
       (if (2 * r <? u) || ((2 * r =? u) && Z.even q) then q else q + 1) * u.
Definition lines (len : Z) : Z := - ((- to_float (len + 1)) / 16).
Definition last_line (len : Z) : Z := lines len - 1.
Definition last_col (len : Z) : Z := Z.max 0 (Z.min 16 (len - 16 * last_line len)).

(** ** Keys, qhexview.cpp *)
(** moveNext(false) *)
Definition move_next (v : view) : view :=
  let len := size v in
  let p := at_ v in
  let last := (last_line len <=? line p) && (last_col len <=? col p) in
  if negb (hexa v) && last then v
  else if hexa v && ((last && (nib p =? 0)) || ((len <=? offset p) && negb (nib p =? 0))) then v
  else
    let n := if hexa v then (nib p + 1) mod 2 else 1 in
    let c := if hexa v then (if n =? 0 then col p else col p + 1) else col p + 1 in
    if 15 <? c then move_to v (PS (Z.min (last_line len) (line p + 1)) 0 1) else move_to v (PS (line p) c n).
(** processTextInput; None = the key is not taken *)
Definition type_key (v : view) (key : Z) : option view :=
  if hexa v then
    if negb (((48 <=? key) && (key <=? 57)) || ((97 <=? key) && (key <=? 102))) then None
    else
      let x := match hexval key with Some x => x | None => 0 end in
      let v := remove_sel v in
      let o := offset (at_ v) in
      if (size v <=? o) || (negb (nib (at_ v) =? 0) && ins v) then Some (move_next (with_doc v (d_insert (v_doc v) o [x * 16])))
      else
        let ch := nth (Z.to_nat o) (d_bytes (v_doc v)) 0 in
        let y := if nib (at_ v) =? 0 then ch / 16 * 16 + x else ch mod 16 + x * 16 in
        Some (move_next (with_doc v (d_replace (v_doc v) o [y])))
  else
    if negb ((32 <=? key) && (key <=? 126)) then None
    else
      let v := remove_sel v in
      let o := offset (at_ v) in
      if (o <? size v) && negb (ins v) then Some (move_next (with_doc v (d_replace (v_doc v) o [key])))
      else Some (move_next (with_doc v (d_insert (v_doc v) o [key]))).
Fixpoint type_keys (v : view) (ks : list Z) : option view :=
  match ks with [] => Some v | k :: t => match type_key v k with Some v => type_keys v t | None => None end end.
