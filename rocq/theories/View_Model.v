(** A database opened for viewing: the session of the console program over the real page cache (Cache_Model).
    Sources: /repo/src/tool1cd/Class_1CD.cpp:88-111, 190-301, V8Object.cpp:279-294, 853-862, 1311-1340, Table.cpp:1161-1323,
    SystemClasses/TFileStream.cpp:29-74, /repo/src/ctool1cd/App.cpp:256-290, 598-680.
    An exception does not undo what was done before it: every step gives the state and whether it ended normally. *)
From Verif Require Import Prelude Port_Model Descr_Model Cache_Model.

(** ** Opening.  TFileStream opens for reading and writing whatever the mode asked for; a stream that is not open delivers
    nothing (TStream.cpp:189-202).  [r], [w]: the user may read and write the file *)
Definition delivered (r w : bool) (file : list Z) : list Z := if r && w then file else [].
(** T_1CD::open up to the flag; [monopoly] = not the option -ne (App.cpp:574, 598) *)
Definition open_view (r w : bool) (junk file : list Z) (monopoly : bool) : res header := open_header junk (delivered r w file) monopoly.

(** ** The session.  [fr_len], [fr_pages]: length and pages of the list of free pages (page 1) as the object holds them.
    [tabs]: for each table the root pages of its files data, blob and index *)
Record free := FREE { fr_len : Z; fr_pages : list Z }.
Record sess := SESS { s_base : base; s_free : free; s_tabs : list (list (option Z)) }.

(** one access to a page: an exception leaves the state *)
Definition kept {A} (c : base) (r : res A) (k : A -> res (base * option Z)) : res (base * option Z) :=
  match r with Ok a => k a | Throw => Ok (c, None) | UB => UB | Hang => Hang end.

Section Session.
(** clock and uninitialised memory at the accesses of a command *)
Variable env : nat -> Z * list Z.
Variable v838 ro : bool.
Definition wr (c : base) (i n : nat) (read : bool) (off : nat) (d : list Z) : res base := base_write c n read off d (fst (env i)) (snd (env i)).
Definition look (c : base) (i n : nat) : res (base * list Z) := base_read c n (fst (env i)) (snd (env i)).

(** V8Object::get_free_block, V8Object.cpp:1311-1340 *)
Definition free_page (c : base) (fr : free) : res (base * free * option Z) :=
  if fr_len fr =? 0 then
    let n := length (m_blocks (c_mgr c)) in
    do x <- kept c (wr c 0 n false 0 []) (fun c1 => Ok (c1, Some (Z.of_nat n)));
    Ok (fst x, fr, snd x)
  else
    let l := fr_len fr - 1 in
    do b <- rd (fr_pages fr) (l / 1024);
    let at_ := (4 * Z.to_nat (l mod 1024))%nat in
    do x <- kept c (wr c 0 (Z.to_nat b) true 0 []) (fun c1 =>
      kept c1 (look c1 1 (Z.to_nat b)) (fun y =>
        kept (fst y) (wr (fst y) 2 (Z.to_nat b) true at_ (le_bytes 4 0)) (fun c2 =>
          kept c2 (wr c2 3 1 true 8 (le_bytes 4 l)) (fun c3 => Ok (c3, Some (le_val (sub (snd y) at_ 4)))))));
    Ok (fst x, FREE l (fr_pages fr), snd x).
(** V8Object::V8Object(base), 279-294: the root page of a new file *)
Definition root_page (ps : nat) : list Z := let sg := if v838 then [28; 253] else [49; 67; 68; 66; 79; 66; 86; 56] in firstn ps (sg ++ repeat 0 ps).
Definition new_file (c : base) (fr : free) : res (base * free * option Z) :=
  do x <- free_page c fr;
  let '(c1, fr1, p) := x in
  match p with
  | None => Ok (c1, fr1, None)
  | Some p =>
      do y <- kept c1 (wr c1 4 (Z.to_nat p) false 0 (root_page (m_ps (c_mgr c1)))) (fun c2 =>
        kept c2 (look c2 5 (Z.to_nat p)) (fun z => Ok (fst z, Some p)));
      Ok (fst y, fr1, snd y)
  end.

(** set_data of the file with the root page and what follows when editing is allowed (Port_Model, Alloc_Model), and the
    description after it *)
Variable edit : base -> free -> Z -> res (base * free).
Variable describe : base -> free -> res (base * free).

(** Table.cpp:1192-1262: [i] = number of the file; the flag says whether an exception was thrown.  V8Object.cpp:862:
    set_data throws in a database for viewing, when the object is already there *)
Fixpoint import_slots (root : list Z) (i : nat) (c : base) (fr : free) (slots : list (option Z)) : res (base * free * list (option Z) * bool) :=
  match slots with
  | [] => Ok (c, fr, [], false)
  | s :: r =>
      do f <- rd root (Z.of_nat i);
      do has <- to_flag f;
      if (has : bool) then
        do x <- match s with Some p => Ok (c, fr, Some p) | None => new_file c fr end;
        let '(c1, fr1, p) := x in
        match p with
        | None => Ok (c1, fr1, s :: r, true)
        | Some p =>
            if ro then Ok (c1, fr1, Some p :: r, true)
            else
              do y <- edit c1 fr1 p;
              do z <- import_slots root (S i) (fst y) (snd y) r;
              let '(c2, fr2, r2, t) := z in Ok (c2, fr2, Some p :: r2, t)
        end
      else
        do z <- import_slots root (S i) c fr r;
        let '(c2, fr2, r2, t) := z in Ok (c2, fr2, s :: r2, t)
  end.
Definition made (a b : list (option Z)) : bool := existsb (fun '(x, y) => match x, y with None, Some _ => true | _, _ => false end) (combine a b).
(** Table.cpp:1161-1323: true = an exception was thrown *)
Definition import_table (junk : list Z) (t : nat) (p : place_of) (s : sess) : res (sess * bool) :=
  match p with
  | Absent | NotDir => Ok (s, false)
  | Dir d =>
      let root := read_root junk (in_file (d 0%nat)) in
      match nth_error (s_tabs s) t with
      | None => UB
      | Some slots =>
          do x <- import_slots root 0 (s_base s) (s_free s) slots;
          let '(c, fr, slots', threw) := x in
          let tabs := splice (s_tabs s) t [slots'] in
          if (threw : bool) then Ok (SESS c fr tabs, true)
          else
            do y <- if made slots slots' then do f <- rd root 3; do h <- to_flag f; if (h : bool) then describe c fr else Ok (c, fr) else Ok (c, fr);
            do c' <- base_flush (fst y);
            Ok (SESS c' (snd y) tabs, false)
      end
  end.
End Session.

(** ** The commands: the exports and the other commands read pages and let the cache be cleaned; they end with the first
    exception.  The commands are run one after another, whatever happened to the one before, App.cpp:613-680 *)
Inductive glance := GPage (n : nat) (t : Z) (junk : list Z) | GClean (aggressive : bool) (t : Z).
Inductive command :=
| Export (gs : list glance)
| Import (t : nat) (p : place_of) (junk : list Z) (env : nat -> Z * list Z).
Fixpoint export_pages (c : base) (gs : list glance) : res (base * bool) :=
  match gs with
  | [] => Ok (c, false)
  | GClean a t :: r => export_pages (base_garbage c a t) r
  | GPage n t junk :: r =>
      match base_read c n t junk with Ok (c', _) => export_pages c' r | Throw => Ok (c, true) | UB => UB | Hang => Hang end
  end.
Definition run_command v838 ro edit describe (k : command) (s : sess) : res (sess * bool) :=
  match k with
  | Export gs => do x <- export_pages (s_base s) gs; Ok (SESS (fst x) (s_free s) (s_tabs s), snd x)
  | Import t p junk env => import_table env v838 ro edit describe junk t p s
  end.
(** with the outcome of each command: true = an error was shown *)
Fixpoint session v838 ro edit describe (ks : list command) (s : sess) : res (sess * list bool) :=
  match ks with
  | [] => Ok (s, [])
  | k :: r =>
      do x <- run_command v838 ro edit describe k s;
      do y <- session v838 ro edit describe r (fst x);
      Ok (fst y, snd x :: snd y)
  end.
(** the program from the header to the end: what the file holds then.  [fr], [tabs]: what opening the objects and tables gives *)
Definition program edit describe (junk file : list Z) (monopoly : bool) (fr : free) (tabs : list (list (option Z))) (ks : list command) : res (list Z * list bool) :=
  do h <- open_view true true junk file monopoly;
  do c <- base_open (Z.to_nat (h_page h)) file;
  do x <- session (match h_ver h with V8380 => true | _ => false end) (h_readonly h) edit describe ks (SESS c fr tabs);
  Ok (base_close (s_base (fst x)), snd x).
