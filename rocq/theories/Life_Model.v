(** Closing, reopening and discarding a file stream.
    Sources: /repo/src/tool1cd/SystemClasses/TFileStream.cpp, TStream.cpp, cfapi/V8File.cpp. *)
From Verif Require Import Prelude Stream_Model.

(** TFileStream: whether [_stream] is set, and the wrapped stream; TFileStream.hpp:41-62.  A file that
    cannot be opened is left out. *)
Record life := LF { l_open : bool; l_s : fstream }.
(** TFileStream::TFileStream with fmCreate on a file with the bytes [d] left in it, 29-52 *)
Definition life_open (create : bool) (d : list Z) : life := LF true (fs_open (if create then [] else d)).
(** TFileStream::Reopen, 64-74: a new iostream; m_size from the file, m_position stays *)
Definition life_reopen (l : life) : life :=
  if l_open l then l else LF true (FS (fs_data (l_s l)) (fs_pos (l_s l)) (zlen (fs_data (l_s l))) false).
(** TFileStream::Close, 77-81: [_stream->close()] of a null pointer is undefined *)
Definition life_close (l : life) : res life := if l_open l then Ok (LF false (l_s l)) else UB.
Inductive lop := ORead (n : Z) | OWrite (d : list Z) | OSeek (p : Z) | OClose.
(** Read and Write reopen first, 83-93; Seek does not *)
Definition life_step (l : life) (o : lop) : res (life * list Z) :=
  match o with
  | ORead n => let l := life_reopen l in let (s, d) := fs_read (l_s l) n in Ok (LF (l_open l) s, d)
  | OWrite d => let l := life_reopen l in let (s, _) := fs_write (l_s l) d in Ok (LF (l_open l) s, [])
  | OSeek p => let (s, r) := fs_seek (l_s l) p Beg in do _ <- r; Ok (LF (l_open l) s, [])
  | OClose => do l <- life_close l; Ok (l, [])
  end.
(** a history and then the destructor, 54-57, which closes: what was read, and the file *)
Fixpoint life_run (l : life) (ops : list lop) : res (list (list Z) * list Z) :=
  match ops with
  | [] => do l <- life_close l; Ok ([], fs_data (l_s l))
  | o :: t => do q <- life_step l o; let (l, d) := q in do r <- life_run l t; let (ds, f) := r in Ok (d :: ds, f)
  end.
(** V8File::save_to_file, V8File.cpp:94-104: create, CopyFrom of all the data (nothing is written when
    there is none), Close, and the destructor of the local stream *)
Definition save_to_file (old data : list Z) : res (list Z) :=
  do r <- life_run (life_open true old) (match data with [] => [OClose] | _ => [OWrite data; OClose] end); Ok (snd r).
