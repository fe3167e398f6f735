(** What temporary files should do. *)
From Verif Require Import Prelude Temp_Model.

(** the number of streams created in a history *)
Definition is_new (o : op) : bool := match o with New _ _ => true | _ => false end.
Definition streams (tr : list op) : nat := length (filter is_new tr).
(** streams are written to after they have been created and before they are destroyed *)
Definition sane (tr : list op) : Prop := forall a h b c, tr = a ++ Put h b :: c -> (h < streams a)%nat /\ ~ In (Done h) a.
(** names are not given twice, nor are they those of files left over; these files exist *)
Definition names (tr : list op) : list Z := flat_map (fun o => match o with New _ n => [n] | _ => [] end) tr.
Definition fresh (d : option (list (Z * nat))) (fs : list (list Z)) (tr : list op) : Prop :=
  NoDup (names tr) /\ match d with Some l => forall e, In e l -> ~ In (fst e) (names tr) /\ (snd e < length fs)%nat | None => True end.
(** run [p] has used temporary files *)
Definition uses (tr : list op) (p : Z) : Prop := exists n, In (New p n) tr.
(** what has been written to stream [h] *)
Definition written (tr : list op) (h : nat) : list Z := flat_map (fun o => match o with Put h' b => if Nat.eqb h' h then b else [] | _ => [] end) tr.
(** before a stream is created, no run that uses temporary files ends *)
Definition calm (tr : list op) : Prop := forall a q b p n c, tr = a ++ Exit q :: b ++ New p n :: c -> ~ uses a q.
