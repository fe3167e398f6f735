(** What a user expects of the command line, of table filters, of version ranges and of times. *)
From Coq Require Import String Ascii.
From Verif Require Import Prelude Text_Spec.

Definition codes (s : string) : list Z := map (fun a => Z.of_N (N_of_ascii a)) (list_ascii_of_string s).

(** ** Arguments *)
(** an argument and the value it stands for: itself, or what is between the quotes around it *)
Inductive spelled : list Z -> list Z -> Prop :=
| sp_empty : spelled [] []
| sp_short c : spelled [c] [c]
| sp_plain s : s <> [] -> last s 0 <> 34 -> spelled s s
| sp_quoted s : s <> [] -> last s 0 <> 34 -> spelled (34 :: s ++ [34]) s.

(** the keys as the help lists them: command, spellings, number of parameters *)
Definition key_table : list (Z * list string * nat) :=
  [ (0, ["h"; "help"; "?"], 0%nat); (1, ["nv"; "noverbose"], 0%nat); (2, ["q"; "quit"], 0%nat); (3, ["ne"; "notexclusively"], 0%nat);
    (4, ["eax"; "exportalltoxml"], 1%nat); (5, ["bf"; "blobtofile"], 1%nat); (6, ["pb"; "parseblob"], 1%nat);
    (7, ["ddc"; "dumpdbconfig"], 1%nat); (8, ["dc"; "dumpconfig"], 1%nat); (9, ["dvc"; "dumpvendorsconfigs"], 1%nat); (10, ["dac"; "dumpallconfigs"], 1%nat);
    (11, ["ex"; "exporttoxml"], 2%nat); (12, ["drc"; "dumpdepotconfig"], 2%nat); (13, ["dpc"; "dumppartdepotconfig"], 2%nat);
    (14, ["l"; "logfile"], 1%nat); (15, ["eb"; "exporttobinary"], 2%nat); (16, ["ib"; "importfrombinary"], 2%nat);
    (17, ["slo"; "savelostobjects"], 1%nat); (18, ["sts"; "savetablessize"], 1%nat) ]%string.

(** what a command is given behind its parameters: two names of one command *)
Definition added (cmd : Z) : list (list Z) := if cmd =? 5 then [codes "0"] else if cmd =? 6 then [codes "1"] else [].

(** the text of a key, in any letter case *)
Definition key_text (k : list Z) (cmd : Z) (n : nat) : Prop :=
  exists cps names name, k = utf8_of cps /\ Forall scalar cps /\ In (cmd, names, n) key_table /\ In name names /\ Forall2 same_letter cps (codes name).

(** arguments, the commands with their parameters, the file names, the texts of unknown keys *)
Inductive args_of : list (list Z) -> list (Z * list (list Z)) -> list (list Z) -> list (list Z) -> Prop :=
| a_nil : args_of [] [] [] []
| a_key k cmd n ps vs rest cs fs us : key_text k cmd n -> length ps = n -> Forall2 spelled ps vs -> args_of rest cs fs us ->
    args_of ((45 :: k) :: ps ++ rest) ((cmd, vs) :: cs) fs us
| a_missing k cmd n ps vs : key_text k cmd n -> (length ps < n)%nat -> Forall2 spelled ps vs ->
    args_of ((45 :: k) :: ps) [(cmd, vs ++ repeat [] (n - length ps))] [] []
| a_unknown cps rest cs fs us : Forall scalar cps -> ~ In 0 cps -> (forall cmd n, ~ key_text (utf8_of cps) cmd n) -> args_of rest cs fs us ->
    args_of ((45 :: utf8_of cps) :: rest) cs fs (utf8_of cps :: us)
| a_file a f rest cs fs us : a <> [] -> hd 0 a <> 45 -> spelled a f -> args_of rest cs fs us -> args_of (a :: rest) cs (f :: fs) us.

(** the answers that mean yes: 1, y, yes and the same in Russian (U+0434, U+0430) *)
Definition yes_words : list (list Z) := [[49]; [121]; [121; 101; 115]; [1076]; [1076; 1072]].

(** ** Filters *)
Inductive wild : list Z -> list Z -> Prop :=
| w_nil : wild [] []
| w_none p s : wild p s -> wild (42 :: p) s
| w_more p c s : wild (42 :: p) s -> wild (42 :: p) (c :: s)
| w_one p c s : wild p s -> wild (63 :: p) (c :: s)
| w_char p c d s : c <> 42 -> c <> 63 -> same_letter c d -> wild p s -> wild (c :: p) (d :: s).
Definition separator (c : Z) : Prop := c = 32 \/ c = 9 \/ c = 44 \/ c = 59 \/ c = 10.
(** [w] is one of the words of [f]: a piece between separators *)
Definition word_of (f w : list Z) : Prop :=
  exists a b, f = a ++ w ++ b /\ w <> [] /\ Forall (fun c => ~ separator c) w /\
    (a = [] \/ exists a' s, a = a' ++ [s] /\ separator s) /\ (b = [] \/ exists s b', b = s :: b' /\ separator s).
(** characters without a meaning in a regular expression, and the two wildcards *)
Definition filter_char (c : Z) : Prop := 1 <= c < 128 /\ ~ In c (codes ".[]{}()\+|^$").

(** ** Times: units of 100 microseconds since the first day of year 1, for seconds since 1970 *)
Definition v8_time (t : Z) : Z := 10000 * (t + 86400 * (719162)).
