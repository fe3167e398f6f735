(** The table of contents of a container, and when it is written.
    Sources: /repo/src/tool1cd/cfapi/V8Catalog.cpp, V8File.cpp.
    Simplified: chains of blocks (Cf_Model, C38; an element written again after it was written
    empty: C95) are bytes kept under an address; [alloc] = the address given to a new chain.  The block
    of the header of an element holds its name (times: Dir_Model, C155).  Names are not looked up (Dir_Model, C153): elements are
    numbered by their place in the list. *)
From Verif Require Import Prelude Cf_Model.

Definition blocks := list (Z * list Z).
Fixpoint get_block (st : blocks) (a : Z) : option (list Z) := match st with [] => None | (b, d) :: r => if b =? a then Some d else get_block r a end.
Definition drop_block (st : blocks) (a : Z) : blocks := filter (fun x => negb (fst x =? a)) st.
Definition put_block (st : blocks) (a : Z) (d : list Z) : blocks := (a, d) :: drop_block st a.
(** addresses of nothing, V8Catalog.cpp:565, 480; read_datablock, 454-473, and read_block of LAST_BLOCK give no bytes *)
Definition nowhere (a : Z) : bool := (a =? 0) || (a =? LAST).
Definition bytes_at (st : blocks) (a : Z) : list Z := if nowhere a then [] else match get_block st a with Some d => d | None => [] end.

(** V8File: start_header, start_data, name, data (with is_opened), _datamodified, is_headermodified *)
Record item := IT { i_head : Z; i_data : Z; i_name : list Z; i_mem : option (list Z); i_dch : bool; i_hch : bool }.
(** V8Catalog: the blocks, the elements, the table as it is stored in the block at 16, _fatmodified *)
Record cont := CN { n_blocks : blocks; n_items : list item; n_table : list (Z * Z); n_changed : bool }.

Section Toc.
Variable alloc : blocks -> Z.
(** write_block for an address, V8Catalog.cpp:577-668: get_nextblock, 560-573, gives a new one for none *)
Definition save_block (st : blocks) (a : Z) (d : list Z) : blocks * Z := let a := if nowhere a then alloc st else a in (put_block st a d, a).
(** V8File::open, V8File.cpp:472-484 *)
Definition open_item (st : blocks) (x : item) : item :=
  match i_mem x with Some _ => x | None => IT (i_head x) (i_data x) (i_name x) (Some (bytes_at st (i_data x))) (i_dch x) (i_hch x) end.
(** the functions write, 169-265, for new contents *)
Definition write_item (st : blocks) (d : list Z) (x : item) : item := IT (i_head x) (i_data x) (i_name x) (Some d) true true.
(** the saving in close, 500-519, and flush, 664-686; only of an opened element *)
Definition save_item (st : blocks) (x : item) : blocks * item :=
  match i_mem x with
  | None => (st, x)
  | Some d =>
      let (st, a) := if i_dch x then save_block st (i_data x) d else (st, i_data x) in
      let (st, h) := if i_hch x then save_block st (i_head x) (i_name x) else (st, i_head x) in
      (st, IT h a (i_name x) (Some d) false false)
  end.
(** V8File::close, 488-530 *)
Definition close_item (st : blocks) (x : item) : blocks * item :=
  let (st, x) := save_item st x in (st, IT (i_head x) (i_data x) (i_name x) None (i_dch x) (i_hch x)).
Fixpoint each (f : blocks -> item -> blocks * item) (st : blocks) (l : list item) : blocks * list item :=
  match l with [] => (st, []) | x :: r => let (st, x) := f st x in let (st, r) := each f st r in (st, x :: r) end.
(** the table, V8Catalog.cpp:692-701, 848-858 *)
Definition table_of (l : list item) : list (Z * Z) := map (fun x => (i_head x, i_data x)) l.
(** Flush, V8Catalog.cpp:824-901 *)
Definition flush (c : cont) : cont :=
  let (st, l) := each save_item (n_blocks c) (n_items c) in CN st l (if n_changed c then table_of l else n_table c) false.
(** the destructor, 672-725: what is stored afterwards *)
Definition destroy (c : cont) : blocks * list (Z * Z) :=
  let (st, l) := each close_item (n_blocks c) (n_items c) in (st, if n_changed c then table_of l else n_table c).
(** initialize, 304-377, and V8File::V8File, V8File.cpp:46-47; none: the header of an element is not there (C99) *)
Fixpoint load (st : blocks) (t : list (Z * Z)) : option (list item) :=
  match t with
  | [] => Some []
  | (h, d) :: r => match (if nowhere h then None else get_block st h), load st r with
                   | Some n, Some l => Some (IT h d n None (d =? 0) (h =? 0) :: l)
                   | _, _ => None
                   end
  end.
Definition open_cont (st : blocks) (t : list (Z * Z)) : option cont := match load st t with Some l => Some (CN st l t false) | None => None end.
(** createFile of a new name, 421-440 *)
Definition create_item (c : cont) (name : list Z) : cont := CN (n_blocks c) (n_items c ++ [IT 0 0 name None true true]) (n_table c) true.
(** V8File::delete_file, V8File.cpp:413-455; free_block, V8Catalog.cpp:477-511 *)
Definition free (st : blocks) (a : Z) : blocks := if nowhere a then st else drop_block st a.
Definition delete_item (c : cont) (i : nat) : cont :=
  match nth_error (n_items c) i with
  | None => c
  | Some x => CN (free (free (n_blocks c) (i_data x)) (i_head x)) (firstn i (n_items c) ++ skipn (S i) (n_items c)) (n_table c) true
  end.
Definition on_item (c : cont) (i : nat) (f : blocks -> item -> blocks * item) : cont :=
  match nth_error (n_items c) i with
  | None => c
  | Some x => let (st, x) := f (n_blocks c) x in CN st (firstn i (n_items c) ++ [x] ++ skipn (S i) (n_items c)) (n_table c) (n_changed c)
  end.

Inductive top := TCreate (name : list Z) | TOpen (i : nat) | TWrite (i : nat) (d : list Z) | TClose (i : nat) | TFlush | TDelete (i : nat).
Definition tstep (c : cont) (o : top) : cont :=
  match o with
  | TCreate n => create_item c n
  | TOpen i => on_item c i (fun st x => (st, open_item st x))
  | TWrite i d => on_item c i (fun st x => (st, write_item st d x))
  | TClose i => on_item c i close_item
  | TFlush => flush c
  | TDelete i => delete_item c i
  end.
(** the names and bytes of a stored container *)
Definition shows (st : blocks) (t : list (Z * Z)) : option (list (list Z * list Z)) :=
  match open_cont st t with Some c => Some (map (fun x => (i_name x, bytes_at st (i_data x))) (n_items c)) | None => None end.
Definition saved_after (st : blocks) (t : list (Z * Z)) (os : list top) : option (list (list Z * list Z)) :=
  match open_cont st t with Some c => let (st, t) := destroy (fold_left tstep os c) in shows st t | None => None end.
End Toc.
