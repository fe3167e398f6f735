(** Creating a table from the directory of an export.
    Source: /repo/src/tool1cd/Class_1CD.cpp:1196-1391 (create_table), 1705-1757 (delete_table: Lost_Model), Parse_tree.cpp:178-189.
    Simplified: the state is the array of tables and the bytes of the root object; the pages of the new files (Alloc_Model, C20-C24)
    are left out, [pg] = their numbers; a file that exists can be read; a table is the number of its description, [names] = its name.
    [decode] = from_unicode_stream, 1196-1201; [same] = EqualIC.  [fopen] is a local variable that is never set, 1207, 1334. *)
From Verif Require Import Prelude Tree_Model Port_Model Descr_Model Lost_Model.

(** the files of the directory *)
Record mfiles := MFS { m_root : option (list Z); m_descr : option (list Z); m_data : option (list Z); m_blob : option (list Z); m_index : option (list Z) }.
(** the tables, the root object, what is returned; none: an exception *)
Definition mout := (list Z * list Z * option bool)%type.

Section Make.
Variables (old v838 : bool) (same : list Z -> list Z -> bool) (decode : list Z -> res (list Z)) (names : Z -> list Z) (pg : nat -> Z).

(** an exception leaves what has been done so far *)
Definition going {A} (tables root : list Z) (r : res A) (k : A -> res mout) : res mout :=
  match r with Ok a => k a | Throw => Ok (tables, root, None) | UB => UB | Hang => Hang end.
(** the name, 1250-1254: the children of a node that is not there are undefined *)
Definition name_in (text : list Z) : res (list Z) :=
  do t <- parse_text text;
  match t with Node _ _ (Node _ _ (Node v _ _ :: _) :: _) => Ok v | _ => UB end.
(** 1256-1260: the next table after a deleted one moves to its place *)
Fixpoint delete_named (n j : nat) (nm tables root : list Z) : res (list Z * list Z) :=
  match n with
  | O => Ok (tables, root)
  | S n => match nth_error tables j with
           | None => Ok (tables, root)
           | Some x => if same (names x) nm then do r <- delete_table old v838 tables root x; delete_named n (S j) nm (fst r) (snd r)
                       else delete_named n (S j) nm tables root
           end
  end.
(** sizeof(export_import_table_root) = 36, Table.h:91-105; a short file leaves the rest as it was *)
Definition head_of (junk file : list Z) : list Z := let d := firstn 36 file in d ++ skipn (length d) junk.
Definition flag (h : list Z) (i : nat) : bool := negb (nth i h 0 =? 0).
(** 1266-1319: the files that the root speaks of *)
Definition lacking (h : list Z) (f : mfiles) : bool :=
  (flag h 0 && match m_data f with None => true | _ => false end) || (flag h 1 && match m_blob f with None => true | _ => false end) ||
  (flag h 2 && match m_index f with None => true | _ => false end).
(** find of "{\"Files\"," *)
Definition files_mark : list Z := [123; 34; 70; 105; 108; 101; 115; 34; 44].
Fixpoint starts (w s : list Z) : bool := match w, s with [], _ => true | _, [] => false | c :: w, d :: s => (c =? d) && starts w s end.
Fixpoint position (w s : list Z) : option nat :=
  if starts w s then Some 0%nat else match s with [] => None | _ :: r => match position w r with Some i => Some (S i) | None => None end end.
(** 1347-1356 *)
Definition number_text (h : list Z) (i : nat) : list Z := if flag h i then decimal 20 (pg i) else [48].
Definition new_descr (h text : list Z) (p : nat) : list Z :=
  firstn p text ++ files_mark ++ number_text h 0 ++ [44] ++ number_text h 1 ++ [44] ++ number_text h 2 ++ [125; 10; 125].
(** 1321-1381: c_str gives the bytes and a zero; the last branch needs an empty text *)
Definition describe (fopen : bool) (h text tables root : list Z) : res mout :=
  if negb (flag h 3) then Ok (tables, root, Some true)
  else if negb fopen then Ok (tables, root, Some true)
  else match position files_mark text with
       | None => Ok (tables, root, None)
       | Some p => let d := new_descr h text p in if zlen d + 1 <? zlen d * 2 then UB else Ok (tables, root, Some true)
       end.
Definition create_table (fopen : bool) (junk : list Z) (dir : option mfiles) (tables root : list Z) : res mout :=
  match dir with
  | None => Ok (tables, root, Some false)
  | Some f =>
      match m_root f, m_descr f with
      | Some r, Some d =>
          going tables root (decode d) (fun text =>
          going tables root (name_in text) (fun nm =>
            do x <- delete_named (length tables) 0 nm tables root;
            let (tables, root) := x in
            let h := head_of junk r in
            if lacking h f then Ok (tables, root, None) else describe fopen h text tables root))
      | _, _ => Ok (tables, root, None)
      end
  end.
End Make.
