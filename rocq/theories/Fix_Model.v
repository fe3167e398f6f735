(** Repairing the list of pages of the records of a table (formats before 8.3.8).
    Source: /repo/src/tool1cd/Class_1CD.cpp:1961-2134, 88-111; Class_1CD.h:85-89; V8Object.h:41-61; MemBlock.cpp:26-61.
    The record template and the test of a page are those of Tmpl. *)
From Verif Require Import Prelude Field_Model Tmpl_Model.

(** [mem] = the pages as the cache holds them, each as 1024 numbers of four bytes; [disk] = the bytes of the pages in
    the file, which the test of a page reads directly (2144-2145).  The cache is written to the file at the end (2130);
    on an exception the model forgets the state, in the code the changed pages stay in the cache. *)
Record st := ST { mem : list (list Z); disk : list (list Z) }.
Definition pages (s : st) : Z := zlen (mem s).
Definition word (s : st) (n i : Z) : res Z := do p <- rd (mem s) n; rd p i.
Definition put (s : st) (n i v : Z) : res st := do p <- rd (mem s) n; do p <- wrn p i [v]; do m <- wrn (mem s) n [p]; Ok (ST m (disk s)).
(** get_block_for_write, 88-111: the page behind the last one is added, filled with zeros (MemBlock.cpp:44), and the
    number of pages in page 0 is changed *)
Definition take (s : st) (n : Z) : res st :=
  if pages s <? n then Throw
  else if n =? pages s then put (ST (mem s ++ [repeat 0 1024]) (disk s ++ [repeat 0 4096])) 0 3 (n + 1)
  else Ok s.

Section Repair.
(** what the array of the test holds before it, for the test of the page listed (false) and in the search (true) *)
Variable junk : bool -> Z -> Z -> list Z.
Variables (tm : list Z) (rl : Z).
(** test_block_by_template(r, rectt, i, rl, cl) *)
Definition fits (s : st) (again : bool) (r i cl : Z) : res bool := do p <- rd (disk s) r; test_page (junk again r i) p tm i rl cl.
(** 2074-2078 *)
Fixpoint candidates (s : st) (i cl : Z) (rs : list Z) : res (list Z) :=
  match rs with
  | [] => Ok []
  | r :: t => do b <- fits s true r i cl; do l <- candidates s i cl t; Ok (if b : bool then r :: l else l)
  end.
(** 2018-2046: the page [k] of the allocation table *)
Definition open_table (s : st) (block k l : Z) : res (st * Z) :=
  do a <- word s block (6 + k);
  do x <- (if (a <? 5) || (pages s <=? a) then do s' <- take s (pages s); Ok (s', pages s) else do s' <- take s a; Ok (s', a));
  let (s, a) := x in
  let n := Z.min 1023 ((l + 4095) / 4096) in
  do m <- word s a 0;
  do s <- (if n =? i32 m then Ok s else put s a 0 n);
  Ok (s, a).
(** 2048-2116: entry [j] of the table [ca], page [i] of the data *)
Definition mend (s : st) (ca i j cl : Z) : res st :=
  do d <- word s ca (1 + j);
  do ok <- (if (d <? 5) || (pages s <=? d) then Ok false else fits s false d i cl);
  if ok : bool then Ok s
  else do bk <- candidates s i cl (map Z.of_nat (seq 5 (length (mem s) - 5)));
       match bk with
       | [] => Throw
       | [d] => put s ca (1 + j) d
       | _ => Ok s
       end.
(** 2012-2127 *)
Fixpoint loop (fuel : nat) (s : st) (block i j k ca l : Z) : res st :=
  if l =? 0 then Ok s
  else match fuel with
       | O => Hang
       | S f =>
           do x <- (if j =? 0 then open_table s block k l else Ok (s, ca));
           let (s, ca) := x in
           do s <- mend s ca i j (Z.min 4096 l);
           loop f s block (i + 1) (if 1023 <=? j + 1 then 0 else j + 1) (if j =? 0 then k + 1 else k) ca (if l <? 4096 then 0 else l - 4096)
       end.
End Repair.

(** SIG_OBJ, Constants.h, as two numbers *)
Definition SIG_1 : Z := le_val [49; 67; 68; 66].
Definition SIG_2 : Z := le_val [79; 66; 86; 56].
(** restore_DATA_allocation_table of a table with the fields [fs] (the flag is that of Tmpl), records of [rl] bytes and
    the root page [block] *)
Definition restore (junk : bool -> Z -> Z -> list Z) (fs : list (field * bool)) (rl block : Z) (s : st) : res st :=
  if (block <? 5) || (pages s <=? block) then Throw
  else
    do s <- take s block;
    do a <- word s block 0;
    do b <- word s block 1;
    if negb ((a =? SIG_1) && (b =? SIG_2)) then Throw
    else
      do l <- word s block 2;
      if rl =? 0 then UB
      else if negb (l / rl * rl =? l) then Throw
      else
        do tm <- record_template fs rl;
        loop junk tm rl (Z.to_nat ((l + 4095) / 4096)) s block 0 0 0 0 l.
