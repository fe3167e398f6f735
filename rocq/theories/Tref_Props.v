(** Theorems about replacing the numbers of tables. *)
From Verif Require Import Prelude Tref_Model Tref_Spec Tref_Proofs.
Ltac Zify.zify_post_hook ::= idtac.

(** ** C209: replacing the numbers of tables in the fields ...TREF ends, with every number replaced by its pair *)
(** C209 is false: with a record in a table that has such a field, whatever the file says, there is no result *)
Theorem C209_no_result_refuted : forall fuel ls db db', Exists concerned db -> replace_tref fuel ls db <> Ok db'.
Proof. exact endless. Qed.
Print Assumptions C209_no_result_refuted.
(** with a good file that covers the numbers of the database: it goes on for ever *)
Theorem C209_endless_refuted : forall fuel ls db, good_lines ls -> Forall plain_names db -> Forall shaped db -> Forall (within ls) db -> Exists concerned db ->
  replace_tref fuel ls db = Hang.
Proof. exact hangs. Qed.
Print Assumptions C209_endless_refuted.
(** with a number above all the old numbers of the file: memory outside of the table of pairs is read *)
Theorem C209_outside_refuted : forall fuel ls pre t post fs1 f fs2 dead r more n,
  good_lines ls -> Forall plain_names (pre ++ [t]) -> Forall (fun t => ~ concerned t) pre ->
  rt_fields t = fs1 ++ [f] ++ fs2 -> Forall (fun g => ~ meant g) fs1 -> meant f -> rt_recs t = dead ++ [r] ++ more -> Forall (fun x => ~ live x) dead -> live r ->
  has_number f r n -> 0 < n -> (forall s a o, In s ls -> says s a o -> o < n) ->
  replace_tref (S fuel) ls (pre ++ [t] ++ post) = UB.
Proof. exact outside. Qed.
Print Assumptions C209_outside_refuted.
(** C209, what holds: databases in which there is nothing to replace *)
Theorem C209_nothing_partial : forall fuel ls db, good_lines ls -> Forall plain_names db -> Forall (fun t => ~ concerned t) db ->
  exists db', replace_tref fuel ls db = Ok db' /\ all_replaced ls db db'.
Proof. intros fuel ls db G P N. exists db. split; [exact (quiet fuel ls db G P N)|exact (quiet_replaced ls db N)]. Qed.
Print Assumptions C209_nothing_partial.

(** 7 for 12 and 300 for 4; a table with the fields X and X_TRef, a removed record and one with the number 12; one without records; one without such a field *)
Definition ex209_lines : list (list Z) := [[55; 9; 49; 50]; [51; 48; 48; 9; 52]].
Definition ex209_f : rfield := RF [88; 95; 84; 82; 101; 102] true true 2.
Definition ex209_g : rfield := RF [88] true false 1.
Definition ex209_r : list Z := [0; 5; 1; 0; 0; 0; 12].
Definition ex209_t : rtable := RT [ex209_g; ex209_f] [[1; 5; 1; 0; 0; 0; 4]; ex209_r].
Definition ex209_q : list rtable := [RT [ex209_f] []; RT [ex209_g; RF [84; 82; 69; 70] false false 1] [ex209_r]; RT [ex209_f] [[1; 5; 1; 0; 0; 0; 4]]].
Lemma ex209_meant : meant ex209_f.
Proof. split; [reflexivity|]. exists [88; 95], [84; 82; 101; 102]. split; reflexivity. Qed.
Lemma ex209_unmeant f : length (rf_name f) = 1%nat -> ~ meant f.
Proof. intros L (_ & p & w & E & M). apply (f_equal (@length Z)) in M. rewrite map_length in M. rewrite E, app_length in L. cbn [length] in M. lia. Qed.
Lemma ex209_says : says [55; 9; 49; 50] 7 12 /\ says [51; 48; 48; 9; 52] 300 4.
Proof.
  split; [exists [55], [49; 50]|exists [51; 48; 48], [52]]; (split; [reflexivity|]; split; (split; [discriminate|]; split; [repeat (constructor; [lia|]); constructor|reflexivity])).
Qed.
Lemma ex209_good : good_lines ex209_lines.
Proof. destruct ex209_says as (A & B). constructor; [exists 7, 12; split; [exact A|lia]|]. constructor; [exists 300, 4; split; [exact B|lia]|constructor]. Qed.
Lemma ex209_names : Forall plain_names (ex209_t :: ex209_q).
Proof. unfold ex209_t, ex209_q, plain_names, ex209_f, ex209_g. repeat (constructor; cbn [rt_fields rf_name]; try lia). Qed.
Lemma ex209_quiet : Forall (fun t => ~ concerned t) ex209_q.
Proof.
  unfold ex209_q. constructor; [intros (_ & r & [] & _)|]. constructor.
  - intros ((f & [<- |[<- |[]]] & M) & _); [exact (ex209_unmeant ex209_g eq_refl M)|destruct M; discriminate].
  - constructor; [|constructor]. intros (_ & r & [<- |[]] & L). discriminate.
Qed.
Example C209_nonvacuous : good_lines ex209_lines /\ paired ex209_lines 12 7 /\ Forall plain_names (ex209_q ++ [ex209_t]) /\ Forall shaped [ex209_t] /\ Forall (within ex209_lines) [ex209_t] /\ concerned ex209_t /\
  has_number ex209_f ex209_r 12 /\ Forall (fun t => ~ concerned t) ex209_q.
Proof.
  assert (HN : has_number ex209_f ex209_r 12) by (exists 0, 0, 0, 12; split; [reflexivity|]; split; [reflexivity|discriminate]).
  split; [exact ex209_good|]. destruct ex209_says as (A & B).
  split. { exists [], [55; 9; 49; 50], [[51; 48; 48; 9; 52]]. split; [reflexivity|]. split; [exact A|]. intros s' m [<- |[]] Q. destruct (says_fun _ _ _ _ _ B Q) as (_ & Q'). discriminate. }
  split. { pose proof ex209_names as H. inversion H as [|? ? H1 H2]; subst. apply Forall_app. split; [exact H2|constructor; [exact H1|constructor]]. }
  split. { constructor; [|constructor]. intros f r [<- |[<- |[]]] [<- |[<- |[]]]; (split; [repeat (constructor; [unfold byte_ok; lia|]); constructor|cbn; lia]). }
  split. { constructor; [|constructor]. intros f r n [<- |[<- |[]]] M [<- |[<- |[]]] L (a & b & c & d & E & -> & _); try discriminate; [elim (ex209_unmeant ex209_g eq_refl M)|].
    vm_compute in E. injection E as <- <- <- <-. exists [55; 9; 49; 50], 7, 12. split; [now left|]. split; [exact A|lia]. }
  split. { split; [exists ex209_f; split; [right; now left|exact ex209_meant]|exists ex209_r; split; [right; now left|reflexivity]]. }
  split; [exact HN|exact ex209_quiet].
Qed.
(** the number 12 with a file that only speaks of 4 *)
Example C209_outside_nonvacuous : has_number ex209_f ex209_r 12 /\ replace_tref 1 [[51; 48; 48; 9; 52]] (ex209_q ++ [ex209_t] ++ ex209_q) = UB /\
  replace_tref 9 ex209_lines (ex209_q ++ [ex209_t]) = Hang /\ replace_tref 9 ex209_lines ex209_q = Ok ex209_q.
Proof. split; [exists 0, 0, 0, 12; split; [reflexivity|]; split; [reflexivity|discriminate]|]. split; [vm_compute; reflexivity|]. split; vm_compute; reflexivity. Qed.
