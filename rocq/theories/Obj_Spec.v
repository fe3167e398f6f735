(** The page layout of objects, as byte-level relations, and the contents they denote. *)
From Verif Require Import Prelude Obj_Model.

(** page [n] of the file is [p] *)
Definition page_is (st : store) (n : Z) (p : list Z) : Prop := 0 <= n < 2^32 /\ nth_error st (Z.to_nat n) = Some p.
(** the 32-bit number at byte [off] of [p] is [v] *)
Definition num_at (p : list Z) (off : nat) (v : Z) : Prop := 0 <= v < 2^32 /\ sub p off 4 = le_bytes 4 v.
(** an array of 32-bit numbers *)
Definition array_at (p : list Z) (off : nat) (vs : list Z) : Prop :=
  forall i v, nth_error vs i = Some v -> num_at p (off + 4 * i) v.

(** page numbers in a table page of the older format *)
Definition per80 : nat := 1023.

(** number of groups of [k] needed for [n] things *)
Definition groups (n k : nat) : nat := ((n + (k - 1)) / k)%nat.

(** data pages [dp] are listed [per] to a table page in the table pages [tabs], each
    starting at byte [hdr]; [counted]: the table starts with its number of entries *)
Definition tables (st : store) (per hdr : nat) (counted : bool) (tabs dp : list Z) : Prop :=
  length tabs = groups (length dp) per /\
  forall j t, nth_error tabs j = Some t ->
    exists p, page_is st t p /\ array_at p hdr (sub dp (j * per) per) /\
      (counted = true -> num_at p 0 (Z.of_nat (length (sub dp (j * per) per)))).

Inductive fmt := F80 | F838_flat | F838_deep | FFree.
Definition is838 (f : fmt) : bool := match f with F80 | FFree => false | _ => true end.

(** [stored ps f st n len tabs dp]: page [n] is the header of an object of [len] bytes kept
    in the data pages [dp] via the table pages [tabs] *)
Definition stored (ps : nat) (f : fmt) (st : store) (n : Z) (len : nat) (tabs dp : list Z) : Prop :=
  Forall (fun p => length p = ps) st /\ Forall bytes_ok st /\ (32 <= ps)%nat /\ (ps mod 4 = 0)%nat /\ Z.of_nat ps < 2^17 /\
  length dp = groups len ps /\ Forall (fun b => exists p, page_is st b p) dp /\
  exists h, page_is st n h /\
  match f with
  | F80 => Z.of_nat ps = 4096 /\ n <> 1 /\ sub h 0 8 = sig_obj /\ num_at h 8 (Z.of_nat len) /\
           Z.of_nat (length tabs) <= 1018 /\ array_at h 24 tabs /\ tables st per80 4 true tabs dp
  | F838_flat => n <> 1 /\ sub h 0 4 = [28; 253; 0; 0] /\ sub h 16 8 = le_bytes 8 (Z.of_nat len) /\
                 (length dp <= ps / 4 - 6)%nat /\ array_at h 24 dp /\ tabs = []
  | F838_deep => n <> 1 /\ sub h 0 4 = [28; 253; 1; 0] /\ sub h 16 8 = le_bytes 8 (Z.of_nat len) /\ Z.of_nat len < 2^63 /\
                 (length tabs <= ps / 4 - 6)%nat /\ array_at h 24 tabs /\ tables st (ps / 4) 0 false tabs dp
  | FFree => (* the list of free pages: [len] bytes, four to each number *)
      Z.of_nat ps = 4096 /\ n = 1 /\ sub h 0 8 = sig_obj /\ (exists k, len = (4 * k)%nat /\ num_at h 8 (Z.of_nat k)) /\ Z.of_nat len < 2^32 /\
      (exists rest, Z.of_nat (length (dp ++ rest)) < 1018 /\ Forall (fun x => x <> 0) (dp ++ rest) /\ array_at h 24 (dp ++ rest ++ [0])) /\ tabs = []
  end.

(** what the object contains *)
Definition flat (st : store) (dp : list Z) : list Z := concat (map (fun b => nth (Z.to_nat b) st []) dp).
Definition content (st : store) (dp : list Z) (len : nat) : list Z := firstn len (flat st dp).

(** lengths at which the last table page lists a single data page, after at least one
    full table page *)
Definition lone_page (f : fmt) (ps len : nat) : Prop :=
  match f with
  | F80 => exists k, (1 <= k /\ k * per80 * ps < len <= k * per80 * ps + ps)%nat
  | F838_deep => exists k, (1 <= k /\ k * (ps / 4) * ps < len <= k * (ps / 4) * ps + ps)%nat
  | _ => False
  end.

(** ** histories of use of one open object *)
Inductive op :=
| Write (start : nat) (d : list Z)       (* set_data(buf, start, length) *)
| Read (start m : nat) (buf : list Z)    (* get_data(buf, start, length) *)
| Whole (junk : list Z).                 (* get_data() *)
(** one call: the new state and the bytes returned *)
Definition exec (cached : Z -> bool) (ps : nat) (s : store * obj) (x : op) : res ((store * obj) * list Z) :=
  let (st, o) := s in
  match x with
  | Write start d => do r <- set_range (fun _ _ _ => UB) false cached (Z.of_nat ps) st o (Z.of_nat start) d; Ok (r, [])
  | Read start m buf => do r <- get_range (Z.of_nat ps) st o (Z.of_nat start) (Z.of_nat m) buf; Ok (s, r)
  | Whole junk => do r <- get_all (Z.of_nat ps) st o junk;
                  Ok ((st, fst r), match snd r with Some d => d | None => [] end)
  end.
Fixpoint execs (ps : nat) (s : store * obj) (xs : list (op * (Z -> bool))) : res ((store * obj) * list (list Z)) :=
  match xs with
  | [] => Ok (s, [])
  | (x, cached) :: r => do a <- exec cached ps s x; do b <- execs ps (fst a) r; Ok (fst b, snd a :: snd b)
  end.
(** the same on plain bytes *)
Definition plain (c : list Z) (x : op) : list Z * list Z :=
  match x with
  | Write start d => (splice c start d, [])
  | Read start m _ => (c, sub c start m)
  | Whole _ => (c, c)
  end.
Fixpoint plains (c : list Z) (xs : list (op * (Z -> bool))) : list Z * list (list Z) :=
  match xs with
  | [] => (c, [])
  | (x, _) :: r => let a := plain c x in let b := plains (fst a) r in (fst b, snd a :: snd b)
  end.
Definition in_range (f : fmt) (ps len : nat) (x : op) : Prop :=
  match x with
  | Write start d => f <> FFree /\ bytes_ok d /\ (0 < length d)%nat /\ (start + length d <= len)%nat
  | Read start m _ => (0 < m)%nat /\ (start + m <= len)%nat
  | Whole _ => ~ lone_page f ps len
  end.
(** all pages of an object *)
Definition pages_of (n : Z) (tabs dp : list Z) : list Z := n :: tabs ++ dp.

(** the position in the file of byte [off] of an object with data pages [dp] *)
Definition place (ps : nat) (dp : list Z) (off : nat) : Z := nth (off / ps) dp 0 * Z.of_nat ps + Z.of_nat (off mod ps).
(** page numbers per table page *)
Definition per_of (f : fmt) (ps : nat) : nat := match f with F80 => per80 | _ => (ps / 4)%nat end.
