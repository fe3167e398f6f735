(** Temporary files, with several runs at the same time.
    Source: /repo/src/tool1cd/TempStream.cpp:30-84; SystemClasses/TFileStream.cpp:30-93.
    The file system is that of POSIX: a file whose name is removed lives on for those that have it open.  Steps of different runs come in
    any order, one step at a time (in the code the steps 36-41 can also be torn apart).  unique_path gives the name, a parameter of the
    step.  Streams are written to at their end and read from their beginning; of a stream whose file could not be opened nothing is read
    and what is written to it is lost (TFileStream.cpp does not look whether the file is open). *)
From Verif Require Import Prelude.

(** [New p name]: run [p] creates a temporary stream, the next one in the order of creation; [Put h b]: writes to stream [h];
    [Done h]: destroys it (TempStream.cpp:71-73); [Exit p]: run [p] ends (52-64) *)
Inductive op := New (p name : Z) | Put (h : nat) (b : list Z) | Done (h : nat) | Exit (p : Z).
(** [dir] = the directory t1cd, names and files; [started] = the runs that have used it (their [tempcat] is not empty);
    [hs] = for every stream its file and whether it is still there *)
Record world := W { dir : option (list (Z * nat)); files : list (list Z); started : list Z; hs : list (option nat * bool) }.

(** get_temp_name, 77-83, with DelayedInitTempPath, 34-41 *)
Definition enter (w : world) (p : Z) : world :=
  if existsb (Z.eqb p) (started w) then w else W (Some []) (files w) (p :: started w) (hs w).
(** TFileStream with fmCreate, TFileStream.cpp:30-40: opens with trunc *)
Definition open_new (w : world) (name : Z) : world :=
  match dir w with
  | None => W (dir w) (files w) (started w) (hs w ++ [(None, true)])
  | Some d =>
      match find (fun e => fst e =? name) d with
      | Some (_, i) => W (dir w) (splice (files w) i [[]]) (started w) (hs w ++ [(Some i, true)])
      | None => W (Some (d ++ [(name, length (files w))])) (files w ++ [[]]) (started w) (hs w ++ [(Some (length (files w)), true)])
      end
  end.
Definition step (w : world) (o : op) : world :=
  match o with
  | New p name => open_new (enter w p) name
  | Put h b =>
      match nth_error (hs w) h with
      | Some (Some i, true) => W (dir w) (splice (files w) i [nth i (files w) [] ++ b]) (started w) (hs w)
      | _ => w
      end
  | Done h =>
      match nth_error (hs w) h with
      | Some (f, _) => W (dir w) (files w) (started w) (splice (hs w) h [(f, false)])
      | None => w
      end
  | Exit p => if existsb (Z.eqb p) (started w) then W None (files w) (started w) (hs w) else w
  end.
(** all runs begin behind [d], the directory as earlier runs left it *)
Definition run (d : option (list (Z * nat))) (fs : list (list Z)) (tr : list op) : world := fold_left step tr (W d fs [] []).
(** what reading a stream from its beginning gives *)
Definition reads (w : world) (h : nat) : list Z :=
  match nth_error (hs w) h with Some (Some i, true) => nth i (files w) [] | _ => [] end.
