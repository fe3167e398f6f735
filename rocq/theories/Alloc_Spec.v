(** Specification of page allocation: a stack of free pages. *)
From Verif Require Import Prelude Obj_Model Obj_Spec Alloc_Model.

Definition page (st : store) (n : Z) : list Z := nth (Z.to_nat n) st [].
(** all pages have the page size and hold bytes; page numbers fit in 32 bits *)
Definition good (ps : nat) (st : store) : Prop :=
  Forall (fun p => length p = ps) st /\ Forall bytes_ok st /\ zlen st < 2^32 /\ 1 < zlen st.

(** page 1 holds the list of free pages [stk] (the next to be taken is last), kept in the
    pages [fb]; [fl] is the object opened on it *)
Definition free_list (ps : nat) (st : store) (fl : obj) (fb stk : list Z) : Prop :=
  Z.of_nat ps = 4096 /\
  o_ty fl = Free80 /\ o_block fl = 1 /\ o_len fl = zlen stk /\ o_real fl = zlen fb /\ o_blocks fl = fb /\
  zlen stk <= 1024 * zlen fb /\ zlen fb < 1018 /\ NoDup fb /\ Forall (fun b => 1 < b < zlen st) fb /\ Forall (fun b => 0 <= b < 2^32) stk /\
  sub (page st 1) 0 8 = sig_obj /\ num_at (page st 1) 8 (zlen stk) /\ array_at (page st 1) 24 (fb ++ [0]) /\
  array_at (flat st fb) 0 stk.

(** histories of releasing and taking pages *)
Inductive fop := Give (n : Z) | Take.
Definition fexec (slack : Z) (cached : Z -> bool) (ps : Z) (s : store * obj) (x : fop) : res ((store * obj) * list Z) :=
  match x with
  | Give n => do r <- push_free slack cached ps (fst s) (snd s) n; Ok (r, [])
  | Take => do r <- pop_free cached ps (fst s) (snd s); let '(st, fl, k) := r in Ok ((st, fl), [k])
  end.
Fixpoint fexecs (slack : Z) (ps : Z) (s : store * obj) (xs : list (fop * (Z -> bool))) : res ((store * obj) * list Z) :=
  match xs with
  | [] => Ok (s, [])
  | (x, cached) :: r => do a <- fexec slack cached ps s x; do b <- fexecs slack ps (fst a) r; Ok (fst b, snd a ++ snd b)
  end.
(** the same with a plain stack and a page count: a page comes off the stack, or a new page is added
    to the file if there is none *)
Definition take (s : list Z * Z) : (list Z * Z) * Z :=
  match rev (fst s) with
  | [] => (([], snd s + 1), snd s)
  | k :: r => ((rev r, snd s), k)
  end.
Definition fplain (s : list Z * Z) (x : fop) : (list Z * Z) * list Z :=
  match x with
  | Give n => ((fst s ++ [n], snd s), [])
  | Take => let (s', k) := take s in (s', [k])
  end.
Fixpoint fplains (s : list Z * Z) (xs : list (fop * (Z -> bool))) : (list Z * Z) * list Z :=
  match xs with
  | [] => (s, [])
  | (x, _) :: r => let a := fplain s x in let b := fplains (fst a) r in (fst b, snd a ++ snd b)
  end.
(** the list never exceeds [cap] entries and only page numbers are released *)
Fixpoint within (cap : Z) (s : list Z * Z) (xs : list (fop * (Z -> bool))) : Prop :=
  match xs with
  | [] => True
  | (x, _) :: r => match x with Give n => 0 <= n < 2^32 /\ zlen (fst s) < cap | Take => True end /\ within cap (fst (fplain s x)) r
  end.

(** [n] successive takes *)
Fixpoint takes (n : nat) (s : list Z * Z) : (list Z * Z) * list Z :=
  match n with O => (s, []) | S k => let (s1, x) := take s in let (s2, r) := takes k s1 in (s2, x :: r) end.

(** histories that release only pages they hold; [U]: pages held *)
Fixpoint held (s : list Z * Z) (U : list Z) (xs : list (fop * (Z -> bool))) : Prop :=
  match xs with
  | [] => True
  | (Give n, _) :: r => In n U /\ held (fst s ++ [n], snd s) (remove Z.eq_dec n U) r
  | (Take, _) :: r => let (s', k) := take s in held s' (k :: U) r
  end.
(** no page taken is one already held *)
Fixpoint new_only (s : list Z * Z) (U : list Z) (xs : list (fop * (Z -> bool))) : Prop :=
  match xs with
  | [] => True
  | (Give n, _) :: r => new_only (fst s ++ [n], snd s) (remove Z.eq_dec n U) r
  | (Take, _) :: r => let (s', k) := take s in ~ In k U /\ new_only s' (k :: U) r
  end.

(** free pages, the pages listing them and the pages in use [U] do not overlap *)
Definition apart (st : store) (fb stk U : list Z) : Prop :=
  NoDup (fb ++ stk ++ U) /\ Forall (fun b => 1 < b < zlen st) (stk ++ U).
(** table pages needed for [len] bytes (older format) *)
Definition ntab80 (ps len : nat) : nat := groups (groups len ps) per80.
