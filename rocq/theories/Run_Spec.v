(** What a user expects of a run of the program. *)
From Coq Require Import String Ascii.
From Verif Require Import Prelude Text_Spec App_Model App_Spec Run_Model.

(** ** Files *)
Definition kept (n : list Z) (k : path) : Prop := (n = [] \/ n = [46]) /\ k = [] \/ (n <> [] /\ n <> [46]) /\ k = [n].
Inductive names_of : list Z -> path -> Prop :=
| n_one n k : ~ In 47 n -> kept n k -> names_of n k
| n_more n k t p : ~ In 47 n -> kept n k -> names_of t p -> names_of (n ++ 47 :: t) (k ++ p).
(** what a text names, seen from the current directory *)
Definition place (cwd : path) (s : list Z) (p : path) : Prop :=
  exists q, names_of s q /\ (hd 0 s = 47 /\ p = q \/ hd 0 s <> 47 /\ p = cwd ++ q).
(** one entry for a path *)
Definition disk_ok (d : fs) : Prop := NoDup (map fst d).
Definition within (p q : path) : Prop := exists t, q = p ++ t.
Definition absent (d : fs) (p : path) : Prop := forall x, ~ In (p, x) d.

(** ** Commands *)
Definition has (cs : list command) (k : Z) : Prop := exists c, In c cs /\ c_cmd c = k.
(** the keys that only set something: help, noverbose, quit, notexclusively, blobtofile, parseblob, logfile *)
Definition setter (k : Z) : bool := existsb (Z.eqb k) [0; 1; 2; 3; 5; 6; 14].
Definition actions (cs : list command) : list command := filter (fun c => negb (setter (c_cmd c))) cs.
Definition known (cs : list command) : Prop := Forall (fun c => 0 <= c_cmd c <= 18) cs.
(** the answer of a yes-or-no key *)
Definition answer (s : list Z) (b : bool) : Prop :=
  exists cps, s = utf8_of cps /\ Forall scalar cps /\ ~ In 0 cps /\ (b = true <-> exists w, In w yes_words /\ Forall2 same_letter cps w).
(** the last of the keys [k] decides *)
Definition setting (cs : list command) (k : Z) (dflt b : bool) : Prop :=
  (~ has cs k /\ b = dflt) \/ exists a c r, cs = a ++ c :: r /\ c_cmd c = k /\ ~ has r k /\ answer (c_p1 c) b.
Definition settings (cs : list command) (o : opts) : Prop :=
  (o_shared o = true <-> has cs 3) /\ setting cs 5 false (o_blob o) /\ setting cs 6 true (o_unpack o).
(** every answer is text *)
Definition answers_ok (cs : list command) : Prop :=
  Forall (fun c => c_cmd c = 5 \/ c_cmd c = 6 -> exists cps, c_p1 c = utf8_of cps /\ Forall scalar cps /\ ~ In 0 cps) cs.

(** one command after the other; what each says, and the error it ends with *)
Definition reported (err : list Z) (e : ending) : list (list Z) := match e with Fin => [] | Exc t => [t] | ExcOther => [err] end.
Inductive carried {W} (act : opts -> command -> W -> W * list (list Z) * ending) (err : list Z) (o : opts) : list command -> W -> list (list Z) -> W -> Prop :=
| ca_nil w : carried act err o [] w [] w
| ca_cons c cs w w1 w2 ts e ms : act o c w = (w1, ts, e) -> carried act err o cs w1 ms w2 -> carried act err o (c :: cs) w (ts ++ reported err e ++ ms) w2.

(** ** Paths of configurations: the last name ends in .cf, in any letter case *)
Definition cf_name (s : list Z) : Prop :=
  exists a n c f, s = a ++ n ++ [46; c; f] /\ ~ In 47 (n ++ [46; c; f]) /\ (a = [] \/ last a 0 = 47) /\ In c [99; 67] /\ In f [102; 70].

(** ** Numbers of a report *)
Definition numeral (n : Z) (t : list Z) : Prop :=
  exists ds, ds <> [] /\ Forall (fun d => 0 <= d <= 9) ds /\ t = map (fun d => d + 48) ds /\
    fold_left (fun a d => 10 * a + d) ds 0 = n /\ (hd 1 ds = 0 -> ds = [0]).
Definition size_of (x : option Z) : Z := match x with Some n => n | None => 0 end.
Inductive size_lines : list tsize -> list Z -> Prop :=
| sl_nil : size_lines [] []
| sl_cons t ts a b c d r : numeral (z_recs t) a -> numeral (size_of (z_data t)) b -> numeral (size_of (z_blob t)) c -> numeral (size_of (z_index t)) d ->
    size_lines ts r -> size_lines (t :: ts) (z_name t ++ codes "|" ++ a ++ codes "|" ++ b ++ codes "|" ++ c ++ codes "|" ++ d ++ [13; 10] ++ r).
(** objects below 2 GiB *)
Definition small (t : tsize) : Prop :=
  0 <= z_recs t < 2 ^ 32 /\ (forall n, z_data t = Some n -> 0 <= n < 2 ^ 31) /\ (forall n, z_blob t = Some n -> 0 <= n < 2 ^ 31) /\ (forall n, z_index t = Some n -> 0 <= n < 2 ^ 31).

(** ** Tables dealt with one after the other *)
Inductive dealt {T W} (deal : T -> W -> res (W * bool)) : list T -> W -> W -> Prop :=
| d_nil w : dealt deal [] w w
| d_cons t ts w w1 w2 b : deal t w = Ok (w1, b) -> dealt deal ts w1 w2 -> dealt deal (t :: ts) w w2.

(** ** The file holds a database that can be opened, alone unless the command line says otherwise *)
Definition opens {W} (rest : bool -> list Z -> res (option W)) (cs : list command) (b : list Z) (w : W) : Prop :=
  firstn 8 b = codes "1CDBMSV8" /\ forall sh, (sh = true <-> has cs 3) -> rest (negb sh) b = Ok (Some w).
