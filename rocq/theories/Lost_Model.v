(** Objects no table refers to, and the list of tables in the root object.
    Sources: /repo/src/tool1cd/Class_1CD.cpp:578-606, 1705-1757, 1798-1894, ctool1cd/App.cpp:503-513.
    [known] = the page numbers of the live V8Objects (V8Object::get_first, get_next); messages are left out.  An object
    that is opened for the search is destroyed again before the next one, so that [known] stays as it is. *)
From Verif Require Import Prelude Obj_Model Port_Model.

Definition is_known (known : list Z) (i : Z) : bool := existsb (Z.eqb i) known.
(** memcmp(buf, SIG_OBJ, 8) == 0 *)
Definition has_sig (st : store) (i : Z) : res bool := do b <- get_part st i 8; Ok (bytes_eqb b sig_obj).

(** find_lost_objects, 578-606: the page numbers in the messages; [n] pages are left, the next one is [i] *)
Fixpoint find_lost (st : store) (known : list Z) (n : nat) (i : Z) : res (list Z) :=
  match n with
  | O => Ok []
  | S n =>
      do s <- has_sig st i;
      do r <- find_lost st known n (i + 1);
      Ok (if s && negb (is_known known i) then i :: r else r)
  end.
Definition find_lost_objects (st : store) (known : list Z) : res (list Z) := find_lost st known (length st - 1) 1.

(** find_and_save_lost_objects, 1874-1894: the files of the computer as a function of the path, [can] = the file can
    be created.  The path is the text of the directory followed by "block" and the number *)
Definition disk := list Z -> option (list Z).
Definition put (d : disk) (p x : list Z) : disk := fun q => if bytes_eqb q p then Some x else d q.
Definition s_block := [98; 108; 111; 99; 107].
Definition lost_path (dir : list Z) (i : Z) : list Z := dir ++ s_block ++ decimal 20 i.
Fixpoint save_lost (can : list Z -> bool) (buf : list Z) (ps : Z) (v838 : bool) (st : store) (known dir : list Z) (n : nat) (i : Z) (d : disk) : res disk :=
  match n with
  | O => Ok d
  | S n =>
      do s <- has_sig st i;
      if s && negb (is_known known i) then
        do o <- obj_open ps v838 st i;
        do x <- save_file ps st o buf;
        let p := lost_path dir i in
        save_lost can buf ps v838 st known dir n (i + 1) (if can p then put d p x else d)
      else save_lost can buf ps v838 st known dir n (i + 1) d
  end.
Definition save_lost_objects can buf ps v838 (st : store) known dir d : res disk := save_lost can buf ps v838 st known dir (length st - 1) 1 d.

(** find_and_create_lost_tables, 1798-1871.  SIG_TABDESCR, Constants.h:33; an exception of get_data is dropped, one
    of the constructor is not *)
Definition sig_table : list Z := [123; 0; 34; 0].
Fixpoint lost_tables (junk : list Z) (ps : Z) (v838 : bool) (st : store) (known : list Z) (n : nat) (i : Z) : res (list Z) :=
  match n with
  | O => Ok []
  | S n =>
      do s <- has_sig st i;
      do add <- (if s && negb (is_known known i) then
                   do o <- obj_open ps v838 st i;
                   if 3 <? obj_len o then
                     match get_range ps st o 0 4 junk with
                     | Ok b => Ok (bytes_eqb b sig_table)
                     | Throw => Ok false
                     | UB => UB
                     | Hang => Hang
                     end
                   else Ok false
                 else Ok false);
      do r <- lost_tables junk ps v838 st known n (i + 1);
      Ok (if add then i :: r else r)
  end.
(** numblocks, at [h], and the numbers behind it *)
Definition num_tables (b : list Z) (h : Z) : res Z := do x <- rdn b h 4; Ok (i32 (le_val x)).
Fixpoint put_numbers (b : list Z) (h k : Z) (l : list Z) : res (list Z) :=
  match l with [] => Ok b | x :: r => do b <- wrn b (h + 4 + 4 * k) (le_bytes 4 x); put_numbers b h (k + 1) r end.
(** 1845-1864: [root] = the data of the root object, [junk] = what is in the memory behind it.  root_80 or root_81 *)
Definition root_add (h : Z) (junk root l : list Z) : res (list Z) :=
  let b := root ++ firstn (4 * length l) junk in
  do k <- num_tables b h;
  do b <- put_numbers b h k l;
  do k <- num_tables b h;
  wrn b h (le_bytes 4 (u32 (k + zlen l))).
Definition create_lost_tables (old : bool) junk ps v838 (st : store) known (root : list Z) : res (list Z) :=
  do l <- lost_tables junk ps v838 st known (length st - 1) 1;
  match l with [] => Ok root | _ => root_add (if old then 8 else 32) junk root l end.

(** delete_table, 1705-1757, after its objects have been deleted (C24): the array of tables and the root object.
    A table is its number in the list of tables; simplified: the objects are deleted without failing.
    for(i = 0; i < num; i++) if(a[i] == x) break; num--; for(; i < num; i++) a[i] = a[i + 1] *)
Fixpoint index_of (x : Z) (l : list Z) : nat := match l with [] => 0 | y :: r => if y =? x then 0 else S (index_of x r) end.
Definition drop_from (x : Z) (l : list Z) : list Z := let i := index_of x l in firstn (length l - 1) (firstn i l ++ skipn (S i) l).
Fixpoint find_number (n : nat) (b : list Z) (h i x : Z) : res Z :=
  match n with O => Ok i | S n => do y <- rdn b (h + 4 + 4 * i) 4; if le_val y =? x then Ok i else find_number n b h (i + 1) x end.
Fixpoint shift_numbers (n : nat) (b : list Z) (h i : Z) : res (list Z) :=
  match n with O => Ok b | S n => do y <- rdn b (h + 4 + 4 * (i + 1)) 4; do b <- wrn b (h + 4 + 4 * i) y; shift_numbers n b h (i + 1) end.
Definition root_del (h : Z) (root : list Z) (x : Z) : res (list Z) :=
  do k <- num_tables root h;
  do i <- find_number (Z.to_nat k) root h 0 x;
  do b <- wrn root h (le_bytes 4 (u32 (k - 1)));
  do b <- shift_numbers (Z.to_nat (k - 1 - i)) b h i;
  Ok (firstn (length b - 4) b).
(** Table.cpp:474, 494; Class_1CD.cpp:379-388: from version 8.3.8 on an opened table has no descriptor object *)
Definition descr_page (v838 : bool) (x : Z) : option Z := if v838 then None else Some x.
Definition delete_table (old v838 : bool) (tables root : list Z) (x : Z) : res (list Z * list Z) :=
  match descr_page v838 x with
  | None => UB
  | Some bl => do r <- root_del (if old then 8 else 32) root bl; Ok (drop_from x tables, r)
  end.
