(** The answer whether an element of a container is itself a container, kept from question to question.
    Sources: /repo/src/tool1cd/cfapi/V8File.cpp, V8Catalog.cpp.
    The nested container object [self] (V8File.cpp:394-397) is left out: it shares the bytes of the element.  Positions in the
    stream are kept only where a function needs them: every operation seeks first.  The block chain of the parent is the function
    of Cf_Model (C19-C22): here the parent keeps the bytes given to it, or nothing (start_data = 0). *)
From Verif Require Import Prelude Stream_Model Cf_Model Elem_Model.

(** FileIsCatalog, V8File.h *)
Inductive kind := KUnknown | KYes | KNo.
(** V8File: whether [parent] is set, what the parent keeps, [data] with is_opened, iscatalog, _datamodified *)
Record vfile := VF { v_parent : bool; v_store : option (list Z); v_data : option mstream; v_kind : kind; v_changed : bool }.

Section Kind.
Variables (deflate inflate : list Z -> list Z).
(** zipped of the parent, _selfzipped of the element; the uninitialised buffer _t *)
Variables (zipped selfz : bool) (junk : list Z).

(** V8Catalog::read_datablock, V8Catalog.cpp:454-473 *)
Definition load (s : option (list Z)) : list Z := match s with None => [] | Some b => shown_as inflate zipped b end.
(** try_open, open, V8File.cpp:472-484: the opened element, or none *)
Definition try_open (f : vfile) : option (vfile * mstream) :=
  match v_data f with
  | Some m => Some (f, m)
  | None => if v_parent f then let m := MS (load (v_store f)) 0 in Some (VF true (v_store f) (Some m) (v_kind f) (v_changed f), m) else None
  end.
Definition with_kind (f : vfile) (b : bool) : vfile := VF (v_parent f) (v_store f) (v_data f) (if b then KYes else KNo) (v_changed f).
(** V8File::is_catalog, 316-383; the test itself is that of V8Catalog::is_catalog word for word *)
Definition ask (f : vfile) : res (vfile * bool) :=
  match v_kind f with
  | KYes => Ok (f, true)
  | KNo => Ok (f, false)
  | KUnknown =>
      match try_open f with
      | None => Ok (f, false)
      | Some (f, m) => do b <- is_catalog junk (ms_data m); Ok (with_kind f b, b)
      end
  end.
(** the four functions write, 169-265: new contents, is_headermodified left out *)
Definition change (f : vfile) (w : mstream -> res mstream) : res vfile :=
  match try_open f with
  | None => Ok f
  | Some (f, m) => do m <- w m; Ok (VF (v_parent f) (v_store f) (Some m) (v_kind f) true)
  end.
Definition write_whole (f : vfile) (d : list Z) : res vfile := change f (fun m => do r <- el_write_all m d; Ok (fst r)).
Definition write_from (f : vfile) (d : list Z) (p : nat) : res vfile := change f (fun m => do r <- el_put_all m (MS d (Z.of_nat p)); Ok (fst (fst r))).
Definition write_part (f : vfile) (start : Z) (d : list Z) : res vfile := change f (fun m => do r <- el_write m start d; Ok (fst r)).
(** V8File::close, 488-530 *)
Definition close (f : vfile) : vfile :=
  if negb (v_parent f) then f
  else match v_data f with
  | None => f
  | Some m => VF true (if v_changed f then Some (stored_as deflate zipped selfz (ms_data m)) else v_store f) None KUnknown false
  end.
(** V8File::write_and_close, 534-580, with Length = -1: the whole stream *)
Definition write_and_close (f : vfile) (d : list Z) : vfile :=
  match try_open f with
  | None => f
  | Some (f, _) => if negb (v_parent f) then f else VF true (Some (stored_as deflate zipped selfz d)) None KUnknown false
  end.
(** V8File::delete_file, 413-455, for the element itself *)
Definition remove (f : vfile) : vfile := VF false None None KNo false.
(** V8File::save_to_stream, 121-130; get_file_length, 93-102 *)
Definition contents (f : vfile) : vfile * list Z := match try_open f with None => (f, []) | Some (f, m) => (f, ms_data m) end.

Inductive kop := KAsk | KAll (d : list Z) | KFrom (d : list Z) (p : nat) | KPart (start : nat) (d : list Z) | KClose | KReplace (d : list Z) | KRemove | KGet.
Inductive kout := OBool (b : bool) | OBytes (d : list Z) | ODone.
Definition kstep (f : vfile) (x : kop) : res (vfile * kout) :=
  match x with
  | KAsk => do r <- ask f; Ok (fst r, OBool (snd r))
  | KAll d => do f <- write_whole f d; Ok (f, ODone)
  | KFrom d p => do f <- write_from f d p; Ok (f, ODone)
  | KPart s d => do f <- write_part f (Z.of_nat s) d; Ok (f, ODone)
  | KClose => Ok (close f, ODone)
  | KReplace d => Ok (write_and_close f d, ODone)
  | KRemove => Ok (remove f, ODone)
  | KGet => let r := contents f in Ok (fst r, OBytes (snd r))
  end.
Fixpoint ksteps (f : vfile) (xs : list kop) : res (vfile * list kout) :=
  match xs with
  | [] => Ok (f, [])
  | x :: r => do a <- kstep f x; do b <- ksteps (fst a) r; Ok (fst b, snd a :: snd b)
  end.

(** ** V8Catalog::CreateCatalog, V8Catalog.cpp:773-790 *)
(** [found] = what createFile (421-440) finds under the name; a new element has nothing stored and is not open.  The result is
    the element afterwards and whether a container is given back (not the null pointer) *)
Definition new_elem : vfile := VF true None None KUnknown false.
Definition create_catalog (found : option vfile) : res (vfile * bool) :=
  let f := match found with Some f => f | None => new_elem end in
  let (f, d) := contents f in
  if 0 <? zlen d then ask f
  else do f <- write_whole f template; ask f.
End Kind.
