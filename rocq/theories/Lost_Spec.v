(** Objects that nothing refers to, the names of their files, and the list of tables. *)
From Verif Require Import Prelude Obj_Model Obj_Spec.

(** page [i], behind the first one, starts like the header of an object of the older formats and is not in use *)
Definition starts_object (p : list Z) : Prop := firstn 8 p = [49; 67; 68; 66; 79; 66; 86; 56].
Definition unused (st : store) (known : list Z) (i : Z) : Prop :=
  0 < i /\ ~ In i known /\ exists p, nth_error st (Z.to_nat i) = Some p /\ starts_object p.
(** pages of one size, at least as long as the mark *)
Definition pages (st : store) : Prop := Forall (fun p => (8 <= length p)%nat) st.

(** [t] is how the number [n] is written *)
Definition written (n : Z) (t : list Z) : Prop :=
  exists ds, ds <> [] /\ Forall (fun d => 0 <= d <= 9) ds /\ t = map (fun d => d + 48) ds /\
    fold_left (fun a d => 10 * a + d) ds 0 = n /\ (hd 1 ds = 0 -> ds = [0]).
(** dir followed by block and the number *)
Definition file_of (dir : list Z) (i : Z) (path : list Z) : Prop := exists t, written i t /\ path = dir ++ [98; 108; 111; 99; 107] ++ t.
(** a path below the directory: both separators count *)
Definition below (dir path : list Z) : Prop := exists c rest, (c = 47 \/ c = 92) /\ path = dir ++ c :: rest.

(** the description of a table begins with an opening brace and a quote, two bytes each *)
Definition table_like (x : list Z) : Prop := firstn 4 x = [123; 0; 34; 0].

(** ascending numbers *)
Fixpoint ascending (l : list Z) : Prop := match l with [] => True | x :: r => Forall (fun y => x < y) r /\ ascending r end.
