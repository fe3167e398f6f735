(** Specification of what the graphical program shows, independent of the model. *)
From Verif Require Import Prelude Lists Tree_Model Stream_Model Gui_Model.

(** ** Sizes *)
(** the number written by decimal digits *)
Fixpoint value_of (l : list Z) (a : Z) : Z := match l with [] => a | d :: t => value_of t (10 * a + (d - 48)) end.
Definition all_digits (l : list Z) : Prop := l <> [] /\ Forall (fun d => 48 <= d <= 57) l.
(** bytes, and 1024, 1024^2, 1024^3, 1024^4 bytes *)
Inductive unit_ : list Z -> nat -> Prop :=
| u_b : unit_ [66] 0 | u_k : unit_ [75;105;66] 1 | u_m : unit_ [77;105;66] 2 | u_g : unit_ [71;105;66] 3 | u_t : unit_ [84;105;66] 4.
(** the text names the size [n]: less than a hundredth of the unit off, the exact number in bytes, and at most four
    digits before the dot *)
Definition names_size (text : list Z) (n : Z) : Prop :=
  exists ip d1 d2 u k, text = ip ++ [46; d1; d2; 32] ++ u /\ all_digits (ip ++ [d1; d2]) /\ unit_ u k /\
    let r := value_of (ip ++ [d1; d2]) 0 in
    Z.abs (100 * n - r * 1024 ^ Z.of_nat k) < 1024 ^ Z.of_nat k /\ r <= 100100 /\ (k = O -> r = 100 * n).
(** printing with two digits behind the dot rounds to the nearest hundredth; [v] = 1024ths *)
Definition rounds (round2 : Z -> Z) : Prop := forall v, 0 <= v -> 2 * Z.abs (1024 * round2 v - 100 * v) <= 1024.
Definition len_ok (n : option Z) : Prop := match n with None => True | Some n => 0 <= n < 2^31 end.
Definition bytes_of (n : option Z) : Z := match n with None => 0 | Some n => n end.

(** ** The tree of a text: the places of all nodes below the root, each before those inside it, in the order of the text *)
Fixpoint places (t : tree) : list (list nat) :=
  match t with Node _ _ l =>
    (fix go (i : nat) (l : list tree) : list (list nat) :=
       match l with [] => [] | k :: r => ([i] :: map (cons i) (places k)) ++ go (S i) r end) O l
  end.
(** no list is so long that the numbers do not fit *)
Fixpoint narrow (t : tree) : Prop :=
  match t with Node _ _ l => zlen l < 2^31 /\ (fix go l := match l with [] => True | k :: r => narrow k /\ go r end) l end.
(** the rows that can come to the screen: the hidden root, and what index gives for a row of one of them *)
Inductive on_screen (t : tree) : index -> Prop :=
| os_root : on_screen t None
| os_row x r : on_screen t x -> 0 <= r < rowCount t x -> on_screen t (index_at t r 0 x).

(** ** The first line of a text: ends before 10 or 13 10 *)
Definition first_line (s line : list Z) : Prop :=
  ~ In 10 line /\ (s = line \/ (exists rest, s = line ++ 10 :: rest /\ last line 0 <> 13) \/ (exists rest, s = line ++ 13 :: 10 :: rest)).
(** at most forty characters of it *)
Definition cut_line (line : list Z) : list Z := if Nat.leb (length line) 40 then line else firstn 37 line ++ [46;46;46].

(** ** The tree of a container *)
Fixpoint elem_places (e : elem) : list (list nat) :=
  match e with Elem _ k =>
    match k with None => [] | Some l =>
      (fix go (i : nat) (l : list elem) : list (list nat) :=
         match l with [] => [] | e :: r => ([i] :: map (cons i) (elem_places e)) ++ go (S i) r end) O l
    end
  end.
(** in no container two names are the same up to case *)
Fixpoint distinct (low : list Z -> list Z) (e : elem) : Prop :=
  match e with Elem _ k =>
    match k with None => True | Some l =>
      NoDup (map (fun e => low (e_name e)) l) /\ (fix go l := match l with [] => True | e :: r => distinct low e /\ go r end) l
    end
  end.
(** the rows that can come to the screen *)
Inductive con_screen (low : list Z -> list Z) (root : list elem) : cindex -> Prop :=
| cs_root : con_screen low root None
| cs_row x r : con_screen low root x -> 0 <= r < crows low root x -> con_screen low root (cindex_at low root r x).

(** ** The list of databases: names that keep to one line *)
Definition one_line (name : list Z) : Prop := name <> [] /\ ~ In 10 name /\ last name 0 <> 13.
