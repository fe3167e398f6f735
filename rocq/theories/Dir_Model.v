(** The elements of an opened container: a doubly linked list and a map of names.
    Sources: /repo/src/tool1cd/cfapi/V8Catalog.cpp, V8File.cpp. *)
From Verif Require Import Prelude.

(** V8File: name, previous, next, and whether [parent] is set.  Objects are numbered in the order in which they are made;
    [None] in the heap is freed memory, whose use is undefined. *)
Record node := ND { n_name : list Z; n_prev : option nat; n_next : option nat; n_parent : bool }.
Definition heap := nat -> option node.
Definition hset (h : heap) (i : nat) (x : option node) : heap := fun j => if Nat.eqb j i then x else h j.
Definition hget (h : heap) (i : nat) : res node := match h i with Some n => Ok n | None => UB end.
(** V8Catalog: first, last, files (std::map), and the number of the next object *)
Record dir := DR { d_heap : heap; d_next : nat; d_first : option nat; d_last : option nat; d_map : list Z -> option nat }.
Definition key_eq : forall a b : list Z, {a = b} + {a <> b} := list_eq_dec Z.eq_dec.
Definition mset (m : list Z -> option nat) (k : list Z) (v : option nat) : list Z -> option nat := fun j => if key_eq j k then v else m j.
Definition with_heap (d : dir) (h : heap) : dir := DR h (d_next d) (d_first d) (d_last d) (d_map d).

Section Lower.
(** LowerCase, System.SysUtils.cpp *)
Variable lower : list Z -> list Z.

(** V8File::V8File, V8File.cpp:32-62: linked behind [prev], entered in the map *)
Definition new_file (d : dir) (name : list Z) (prev : option nat) : res (dir * nat) :=
  let i := d_next d in
  let h := hset (d_heap d) i (Some (ND name prev None true)) in
  do r <- (match prev with
           | Some p => do n <- hget h p; Ok (hset h p (Some (ND (n_name n) (n_prev n) (Some i) (n_parent n))), d_first d)
           | None => Ok (h, Some i)
           end);
  Ok (DR (fst r) (S i) (snd r) (d_last d) (mset (d_map d) (lower name) (Some i)), i).
(** V8Catalog::initialize, V8Catalog.cpp:304-377, for the names in the table of contents *)
Fixpoint load (d : dir) (prev : option nat) (names : list (list Z)) : res dir :=
  match names with
  | [] => Ok (DR (d_heap d) (d_next d) (d_first d) prev (d_map d))   (* last = _prev *)
  | n :: t => do r <- new_file d n prev; load (fst r) (Some (snd r)) t
  end.
Definition open_dir (names : list (list Z)) : res dir := load (DR (fun _ => None) 0 None None (fun _ => None)) None names.
(** V8Catalog::get_file, 397-407 *)
Definition get_file (d : dir) (name : list Z) : option nat := d_map d (lower name).
(** V8Catalog::createFile, 417-437 *)
Definition create_file (d : dir) (name : list Z) : res (dir * nat) :=
  match get_file d name with
  | Some i => Ok (d, i)
  | None => do r <- new_file d name (d_last d);
      let d := fst r in Ok (DR (d_heap d) (d_next d) (d_first d) (Some (snd r)) (d_map d), snd r)
  end.
(** taking an element out of the list, V8File.cpp:418-432 and 605-635; the blocks are left out *)
Definition unlink (d : dir) (n : node) : res dir :=
  do d <- (match n_next n with
           | Some x => do m <- hget (d_heap d) x; Ok (with_heap d (hset (d_heap d) x (Some (ND (n_name m) (n_prev n) (n_next m) (n_parent m)))))
           | None => Ok (DR (d_heap d) (d_next d) (d_first d) (n_prev n) (d_map d))
           end);
  match n_prev n with
  | Some p => do m <- hget (d_heap d) p; Ok (with_heap d (hset (d_heap d) p (Some (ND (n_name m) (n_prev m) (n_next n) (n_parent m)))))
  | None => Ok (DR (d_heap d) (d_next d) (n_next n) (d_last d) (d_map d))
  end.
(** V8File::delete_file, V8File.cpp:413-455 *)
Definition delete_file (d : dir) (i : nat) : res dir :=
  do n <- hget (d_heap d) i;
  do d <- (if n_parent n then
             do d <- unlink d n; Ok (DR (d_heap d) (d_next d) (d_first d) (d_last d) (mset (d_map d) (lower (n_name n)) None))
           else Ok d);
  do n <- hget (d_heap d) i;
  Ok (with_heap d (hset (d_heap d) i (Some (ND (n_name n) None None false)))).
(** V8File::~V8File, 591-637 *)
Definition destroy (d : dir) (i : nat) : res dir :=
  do n <- hget (d_heap d) i;
  do d <- (if n_parent n then unlink d n else Ok d);
  Ok (with_heap d (hset (d_heap d) i None)).
(** V8File::set_file_name, 294-298 *)
Definition rename (d : dir) (i : nat) (name : list Z) : res dir :=
  do n <- hget (d_heap d) i; Ok (with_heap d (hset (d_heap d) i (Some (ND name (n_prev n) (n_next n) (n_parent n))))).
(** V8File::get_file_name, 268-271 *)
Definition name_of (d : dir) (i : nat) : res (list Z) := do n <- hget (d_heap d) i; Ok (n_name n).
(** get_first and get_next until null *)
Fixpoint walk (fuel : nat) (d : dir) (p : option nat) : res (list (nat * list Z)) :=
  match p with
  | None => Ok []
  | Some i => match fuel with
      | O => Hang
      | S k => do n <- hget (d_heap d) i; do r <- walk k d (n_next n); Ok ((i, n_name n) :: r)
      end
  end.
Definition listing (d : dir) : res (list (nat * list Z)) := walk (S (d_next d)) d (d_first d).

(** ** Saving of the header, V8File::close, V8File.cpp:488-530: what is stored as the name and the times of an element *)
Record head := HD { h_name : list Z; h_create : Z; h_modify : Z; h_changed : bool; h_open : bool }.
Definition h_rename (h : head) (n : list Z) : head := HD n (h_create h) (h_modify h) true (h_open h).
(** set_time_create, set_time_modify, 74-90 *)
Definition h_set_create (h : head) (t : Z) : head := HD (h_name h) t (h_modify h) (h_changed h) (h_open h).
Definition h_set_modify (h : head) (t : Z) : head := HD (h_name h) (h_create h) t (h_changed h) (h_open h).
(** try_open, 472-484 *)
Definition h_opens (h : head) : head := HD (h_name h) (h_create h) (h_modify h) (h_changed h) true.
(** any write to the contents at time [now], 169-185 *)
Definition h_write (h : head) (now : Z) : head := HD (h_name h) (h_create h) now true true.
Definition h_close (stored : list Z * Z * Z) (h : head) : (list Z * Z * Z) * head :=
  if h_open h then
    ((if h_changed h then (h_name h, h_create h, h_modify h) else stored), HD (h_name h) (h_create h) (h_modify h) false false)
  else (stored, h).
End Lower.
