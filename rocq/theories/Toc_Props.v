(** Theorems about the table of contents of a container. *)
From Verif Require Import Prelude Lists Cf_Model Toc_Model Toc_Spec Toc_Proofs.
Ltac Zify.zify_post_hook ::= idtac.

(** ** C207: what is written to the elements of a container is there when it is opened again *)
(** [l] = what the stored container holds.  Missing: an element without a place for its data that is opened or written while no creation
    or deletion is waiting for a flush; created elements that are not opened before a flush or the end *)
Theorem C207_saved_partial : forall alloc st t l os, allocates alloc -> in_order st t l -> all_permitted (l, false) os ->
  saved_after alloc st t os = Some (map (fun e => (d_name e, d_bytes e)) (fst (iops (l, false) os))).
Proof. intros alloc st t l os HA H P. exact (saved_ok alloc HA st t l os H P). Qed.
Print Assumptions C207_saved_partial.
(** above every address in use *)
Definition ex_alloc (st : blocks) : Z := let a := 16 + fold_right (fun x m => Z.max (fst x) m) 0 st in if a =? 2147483647 then a + 1 else a.
Lemma ex_alloc_ok : allocates ex_alloc.
Proof.
  intros st. unfold ex_alloc. set (m := fold_right (fun x m => Z.max (fst x) m) 0 st). assert (M : 0 <= m /\ forall a, get_block st a <> None -> a <= m).
  { unfold m. clear m. induction st as [|[b d] r [IH0 IH]]; cbn [fold_right fst get_block]; [split; [lia|intros a H; elim H; reflexivity]|]. split; [lia|]. intros a. destruct (Z.eqb_spec b a); [lia|]. intros H. specialize (IH a H). lia. }
  destruct M as [M0 M]. cbv zeta. set (a := if 16 + m =? 2147483647 then 16 + m + 1 else 16 + m). assert (A : m < a /\ a <> 2147483647) by (unfold a; destruct (Z.eqb_spec (16 + m) 2147483647); lia).
  split; [unfold no_place; lia|]. destruct (get_block st a) eqn:E; [|reflexivity]. specialize (M a). rewrite E in M. specialize (M ltac:(discriminate)). lia.
Qed.
(** three elements, the third without data *)
Definition ex207_st : blocks := [(100, [65]); (200, [1; 2]); (300, [66]); (400, []); (500, [67])].
Definition ex207_t : list (Z * Z) := [(100, 200); (300, 400); (500, 2147483647)].
Definition ex207_l : list idl := [ID [65] [1; 2] false false; ID [66] [] false false; ID [67] [] false true].
Definition ex207_ops : list top :=
  [TWrite 1 [9]; TClose 1; TOpen 0; TCreate [68]; TWrite 2 [3]; TWrite 3 [4; 5]; TFlush; TWrite 3 [6]; TClose 2; TDelete 0; TCreate [69]; TOpen 3; TFlush; TWrite 1 [7; 7]; TFlush].
Example C207_nonvacuous : in_order ex207_st ex207_t ex207_l /\ all_permitted (ex207_l, false) ex207_ops /\
  saved_after ex_alloc ex207_st ex207_t ex207_ops = Some [([66], [9]); ([67], [7; 7]); ([68], [6]); ([69], [])].
Proof.
  split; [|split].
  - split.
    + constructor; [apply he_data; try reflexivity; unfold no_place; lia|]. constructor; [apply he_data; try reflexivity; unfold no_place; lia|]. constructor; [apply he_void; try reflexivity; unfold no_place; lia|constructor].
    + vm_compute. repeat (constructor; [cbn; lia|]). constructor.
  - cbn. repeat match goal with |- _ /\ _ => split | |- True => exact Logic.I | |- (_ < _)%nat => lia | |- Forall _ _ => constructor | |- exists x, _ => eexists | |- Some _ = Some _ => reflexivity | |- _ -> _ => intros; (reflexivity || discriminate) | |- _ = _ => reflexivity end.
  - vm_compute. reflexivity.
Qed.
(** an element without data, as other programs store it (7FFFFFFF) or with the address 0: whatever is written to it, however often the
    container is flushed, is not there afterwards *)
Theorem C207_void_refuted : forall alloc st t l os i h d, in_order st t l -> nth_error t i = Some (h, d) -> d = 0 \/ d = 2147483647 ->
  Forall (fun o => match o with TCreate _ | TDelete _ => False | _ => True end) os ->
  exists r n, saved_after alloc st t os = Some r /\ length r = length t /\ nth_error r i = Some (n, []).
Proof. intros alloc st t l os i h d H E D P. exact (void_lost alloc st t l os i h d H P E D). Qed.
Print Assumptions C207_void_refuted.
Example C207_void_nonvacuous : nth_error ex207_t 2 = Some (500, 2147483647) /\
  d_bytes (nth 2 (fst (iops (ex207_l, false) [TWrite 2 [1; 2; 3]; TFlush; TClose 2])) (ID [] [] false false)) = [1; 2; 3] /\
  saved_after ex_alloc ex207_st ex207_t [TWrite 2 [1; 2; 3]; TFlush; TClose 2] = Some [([65], [1; 2]); ([66], []); ([67], [])].
Proof. split; [reflexivity|]. split; vm_compute; reflexivity. Qed.
(** an element created, the container flushed, then anything written: the container cannot be read any more *)
Theorem C207_flush_refuted : forall alloc st t l n os, in_order st t l -> Forall (fun o => match o with TCreate _ | TDelete _ => False | _ => True end) os ->
  saved_after alloc st t (TCreate n :: TFlush :: os) = None.
Proof. intros alloc st t l n os H P. exact (spoiled alloc st t l n os H P). Qed.
Print Assumptions C207_flush_refuted.
Example C207_flush_nonvacuous : saved_after ex_alloc ex207_st ex207_t [TCreate [70]; TFlush; TWrite 3 [1]; TClose 3; TFlush] = None /\
  saved_after ex_alloc ex207_st ex207_t [TCreate [70]; TWrite 3 [1]; TFlush; TClose 3; TFlush] = Some [([65], [1; 2]); ([66], []); ([67], []); ([70], [1])].
Proof. split; vm_compute; reflexivity. Qed.

(** ** C208: looking into a container does not change it *)
(** Missing: elements whose place for data is 0 *)
Theorem C208_looking_partial : forall alloc st t c os, open_cont st t = Some c -> Forall (fun e => snd e <> 0) t -> Forall looking os ->
  destroy alloc (fold_left (tstep alloc) os c) = (st, t).
Proof. intros alloc st t c os. exact (looked alloc st t c os). Qed.
Print Assumptions C208_looking_partial.
Example C208_nonvacuous : open_cont ex207_st ex207_t <> None /\ Forall (fun e => snd e <> 0) ex207_t /\ Forall looking [TOpen 2; TFlush; TOpen 0; TClose 2; TOpen 2] /\
  option_map (fun c => destroy ex_alloc (fold_left (tstep ex_alloc) [TOpen 2; TWrite 1 [5]] c)) (open_cont ex207_st ex207_t) <> Some (ex207_st, ex207_t).
Proof.
  split; [vm_compute; discriminate|]. split; [unfold ex207_t; constructor; [cbn; lia|constructor; [cbn; lia|constructor; [cbn; lia|constructor]]]|].
  split; [apply Forall_forall; cbn [In]; intuition; subst; exact Logic.I|vm_compute; discriminate].
Qed.
(** an element with the place 0: each time it is only opened, a block is taken that no entry of the table of contents names *)
Theorem C208_void_refuted : forall alloc st t c i h, allocates alloc -> open_cont st t = Some c -> nth_error t i = Some (h, 0) ->
  exists st', destroy alloc (tstep alloc c (TOpen i)) = (st', t) /\ st' <> st /\ length st' = S (length st) /\
    exists a, get_block st a = None /\ get_block st' a = Some [] /\ forall b, b <> a -> get_block st' b = get_block st b.
Proof.
  intros alloc st t c i h HA O N. pose proof (looked_void alloc st t c i h O N) as E. cbn [fold_left] in E. exists (put_block st (alloc st) []). split; [exact E|]. destruct (HA st) as [_ G].
  assert (L : length (put_block st (alloc st) []) = S (length st)).
  { unfold put_block, drop_block. cbn [length]. f_equal. clear - G. revert G. generalize (alloc st). intros a G. induction st as [|[b d] r IH]; [reflexivity|]. cbn [get_block filter fst] in *. destruct (b =? a); [discriminate|]. cbn [negb length]. f_equal. exact (IH G). }
  split; [intros Q; rewrite Q in L; lia|]. split; [exact L|]. exists (alloc st). split; [exact G|]. rewrite get_put, Z.eqb_refl. split; [reflexivity|].
  intros b B. rewrite get_put. destruct (Z.eqb_spec (alloc st) b); [congruence|reflexivity].
Qed.
Print Assumptions C208_void_refuted.
Example C208_void_nonvacuous : option_map (fun c => destroy ex_alloc (tstep ex_alloc c (TOpen 1))) (open_cont [(100, [65]); (200, [1; 2]); (300, [66])] [(100, 200); (300, 0)]) =
  Some ([(316, []); (100, [65]); (200, [1; 2]); (300, [66])], [(100, 200); (300, 0)]).
Proof. vm_compute. reflexivity. Qed.
