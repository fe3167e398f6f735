(** Property theorems: repairing the list of pages of a table (C183). *)
From Verif Require Import Prelude Lists Field_Model Field_Spec Tmpl_Model Tmpl_Spec Tmpl_Proofs Fix_Model Fix_Spec Fix_Proofs Fix_More.
Ltac Zify.zify_post_hook ::= idtac.

(** C183: with a root page in order and a memory that hides nothing, the repair ends; it either fails, when some page of the data is nowhere
    in the file, or mends every entry, sets the numbers of entries and changes nothing else *)
Theorem C183_repair_partial :
  forall junk fs rl block l s, repairable fs rl block l s -> clean junk l ->
  (exists s', restore junk fs rl block s = Ok s' /\ repaired fs rl block l s s') \/
  (restore junk fs rl block s = Throw /\ exists i, 0 <= i < n_pages l /\ forall r, ~ suits fs rl l s i r).
Proof. exact restore_ok. Qed.
Print Assumptions C183_repair_partial.
(** ... so whatever the entries were, the list is recovered when every page of the data can be told from all others *)
Theorem C183_recovers_partial :
  forall junk fs rl block l s g, repairable fs rl block l s -> clean junk l -> (forall i r, 0 <= i < n_pages l -> (suits fs rl l s i r <-> r = g i)) ->
  exists s', restore junk fs rl block s = Ok s' /\ forall i, 0 <= i < n_pages l -> entry (mem s') block i = g i.
Proof. exact recovers. Qed.
Print Assumptions C183_recovers_partial.
(** ... and a list in order is left as it is *)
Theorem C183_healthy_partial :
  forall junk fs rl block l s, repairable fs rl block l s -> clean junk l -> (forall i, 0 <= i < n_pages l -> suits fs rl l s i (entry (mem s) block i)) ->
  (forall k, 0 <= k < (n_pages l + 1022) / 1023 -> at_ (mem s) (tab (mem s) block k) 0 = Z.min 1023 (n_pages l - 1023 * k)) ->
  exists s', restore junk fs rl block s = Ok s' /\ disk s' = disk s /\ pages s' = pages s /\ forall n w, 0 <= n -> 0 <= w -> at_ (mem s') n w = at_ (mem s) n w.
Proof. exact healthy. Qed.
Print Assumptions C183_healthy_partial.
(** ... but with two pages to choose from, the damaged entry stays as it is and the repair ends as if all was well *)
Theorem C183_several_refuted :
  forall junk fs rl block l s s' i r r', repairable fs rl block l s -> clean junk l -> restore junk fs rl block s = Ok s' -> 0 <= i < n_pages l ->
  ~ suits fs rl l s i (entry (mem s) block i) -> suits fs rl l s i r -> suits fs rl l s i r' -> r <> r' -> entry (mem s') block i = entry (mem s) block i.
Proof. exact several_kept. Qed.
Print Assumptions C183_several_refuted.
(** ... a page that another entry lists is taken once more *)
Theorem C183_shared_refuted :
  forall junk fs rl block l s s' i i', repairable fs rl block l s -> clean junk l -> restore junk fs rl block s = Ok s' -> 0 <= i < n_pages l -> 0 <= i' < n_pages l ->
  suits fs rl l s i' (entry (mem s) block i') -> (forall q, suits fs rl l s i q <-> q = entry (mem s) block i') -> entry (mem s') block i = entry (mem s') block i'.
Proof. exact shared. Qed.
Print Assumptions C183_shared_refuted.
(** ... an entry in order is taken for a damaged one when its page has a removed record: the repair fails, or replaces it by a page that has none *)
Theorem C183_removed_refuted :
  forall junk fs rl block l s i slot v, repairable fs rl block l s -> clean junk l -> 0 <= i < n_pages l ->
  0 <= slot -> (i = 0 -> 1 <= slot) -> i * 4096 <= slot * rl < i * 4096 + used l i ->
  nth_error (nth (Z.to_nat (entry (mem s) block i)) (disk s) []) (Z.to_nat (slot * rl - i * 4096)) = Some v -> v <> 0 ->
  ((forall r, r <> entry (mem s) block i -> ~ suits fs rl l s i r) -> restore junk fs rl block s = Throw) /\
  (forall s' r, restore junk fs rl block s = Ok s' -> suits fs rl l s i r -> (forall q, q <> entry (mem s) block i -> suits fs rl l s i q -> q = r) ->
     entry (mem s') block i = r /\ r <> entry (mem s) block i).
Proof.
  intros junk fs rl block l s i slot v R C Hi HS H0 HP HV NZ. pose proof (removed_unsuited fs rl l s i (entry (mem s) block i) slot v (rp_rl _ _ _ _ _ R) (rp_placed _ _ _ _ _ R) HS H0 HP HV NZ) as N. split.
  - intros G. apply (none_throws junk fs rl block l s i R C Hi). intros q Q. destruct (Z.eq_dec q (entry (mem s) block i)) as [-> |D]; [contradiction|exact (G q D Q)].
  - intros s' r E SR G. split; [|intros ->; contradiction]. apply (only_taken junk fs rl block l s s' i r R C E Hi). intros q. split; [|intros ->; exact SR]. intros Q. apply G; [intros ->; contradiction|exact Q].
Qed.
Print Assumptions C183_removed_refuted.
(** ... a number of a page of the allocation table that cannot be stays in the root page, as does everything there *)
Theorem C183_table_refuted :
  forall junk fs rl block s s', (forall k, 0 <= k -> tab (mem s) block k <> block) -> restore junk fs rl block s = Ok s' -> forall w, at_ (mem s') block w = at_ (mem s) block w.
Proof. exact root_kept. Qed.
Print Assumptions C183_table_refuted.
(** ... and the repair of a table whose last page is not full fails, in order or not, unless the memory behind the bytes read happened to be
    zero for some page *)
Theorem C183_rest_refuted :
  forall junk fs rl block l s, 5 <= rl -> placed fs rl -> Forall (fun p => length p = 4096%nat /\ bytes_ok p) (disk s) /\ length (disk s) = length (mem s) ->
  0 < l < 2 ^ 32 -> at_ (mem s) block 2 = l -> l mod 4096 <> 0 ->
  (forall again r, length (junk again r (l / 4096)) = 4096%nat /\ ~ Forall (fun x => x = 0) (skipn (Z.to_nat (l mod 4096)) (junk again r (l / 4096)))) ->
  forall s', restore junk fs rl block s <> Ok s'.
Proof. exact rest_fails. Qed.
Print Assumptions C183_rest_refuted.

(** records of one date, 512 in a page; root page 5, allocation table 6, the pages of data and of other things behind *)
Definition ex_fs := [(FD KDate false 7 1, true)].
Fixpoint ex_words (p : list Z) : list Z := match p with a :: b :: c :: d :: t => le_val [a; b; c; d] :: ex_words t | _ => [] end.
Definition ex_fill (p : list Z) (n : nat) : list Z := p ++ repeat 0 (n - length p).
Definition ex_bytes_of (p : list Z) : list Z := concat (map (le_bytes 4) p).
Definition ex_rec := [0; 32; 37; 17; 22; 16; 5; 9].
Definition ex_first := [1; 0; 0; 0; 0; 0; 0; 0] ++ concat (repeat ex_rec 511).
Definition ex_other := concat (repeat ex_rec 512).
Definition ex_gone := concat (repeat ex_rec 3) ++ [1] ++ skipn 1 ex_rec ++ concat (repeat ex_rec 508).
Definition ex_state (l tab : Z) (tb : list Z) (rest : list (list Z)) : st :=
  let d := repeat (repeat 0 4096) 5 ++ [ex_bytes_of (ex_fill [SIG_1; SIG_2; l; 0; 0; 0; tab] 1024); ex_bytes_of (ex_fill tb 1024)] ++ rest in ST (map ex_words d) d.
Definition ex_zero (_ : bool) (_ _ : Z) : list Z := repeat 0 4096.
Definition ex_dirty (_ : bool) (_ _ : Z) : list Z := repeat 1 4096.
(** the outcome: the page of the table, its number of entries and the entries *)
Definition ex_show (r : res st) (n : nat) : res (Z * Z * list Z) := do s <- r; Ok (at_ (mem s) 5 6, at_ (mem s) 6 0, map (fun i => entry (mem s) 5 (Z.of_nat i)) (seq 0 n)).
Definition ex_checks (l : Z) (s : st) : bool :=
  forallb (fun p => Nat.eqb (length p) 1024 && forallb (fun w => (0 <=? w) && (w <? 2 ^ 32)) p) (mem s) &&
  forallb (fun p => Nat.eqb (length p) 4096 && forallb (fun w => (0 <=? w) && (w <? 256)) p) (disk s) && Nat.eqb (length (disk s)) (length (mem s)) &&
  (5 <? pages s) && (at_ (mem s) 5 0 =? SIG_1) && (at_ (mem s) 5 1 =? SIG_2) && (at_ (mem s) 5 2 =? l) && (5 <? tab (mem s) 5 0) && (tab (mem s) 5 0 <? pages s).
Lemma ex_placed_fs : placed ex_fs 8.
Proof.
  split.
  - intros f q [H|[]]. injection H as <- <-. cbn. lia.
  - intros [|i] [|j] f g a b Hij Hi Hj; cbn in Hi, Hj; try (destruct i; discriminate); try (destruct j; discriminate); exfalso; apply Hij; reflexivity.
Qed.
Lemma ex_checks_ok l s : 0 < l <= 1023 * 4096 -> l mod 8 = 0 -> ex_checks l s = true -> repairable ex_fs 8 5 l s.
Proof.
  intros L M H.
  assert (K : (n_pages l + 1022) / 1023 = 1). { clear - L. unfold n_pages. assert (1 <= (l + 4095) / 4096 <= 1023) by (split; [apply Z.div_le_lower_bound; lia|apply Z.lt_succ_r, Z.div_lt_upper_bound; lia]). set (x := (l + 4095) / 4096) in *. replace (x + 1022) with (x - 1 + 1 * 1023) by lia. rewrite Z.div_add, Z.div_small by lia. reflexivity. }
  unfold ex_checks in H. do 8 (apply Bool.andb_true_iff in H; destruct H as [H ?]). rewrite forallb_forall in H, H7.
  constructor.
  - clear. lia.
  - exact ex_placed_fs.
  - apply Forall_forall. intros p Hp. specialize (H p Hp). apply Bool.andb_true_iff in H. destruct H as [A B]. split; [now apply Nat.eqb_eq|]. apply Forall_forall. intros w Hw. rewrite forallb_forall in B. specialize (B w Hw). clear - B. lia.
  - apply Forall_forall. intros p Hp. specialize (H7 p Hp). apply Bool.andb_true_iff in H7. destruct H7 as [A B]. split; [now apply Nat.eqb_eq|]. apply Forall_forall. intros w Hw. rewrite forallb_forall in B. specialize (B w Hw). unfold byte_ok. clear - B. lia.
  - now apply Nat.eqb_eq.
  - clear - H5. unfold pages in *. lia.
  - split; [now apply Z.eqb_eq in H4|now apply Z.eqb_eq in H3].
  - now apply Z.eqb_eq.
  - exact M.
  - clear - L. lia.
  - intros k Hk. rewrite K in Hk. replace k with 0 by (clear - Hk; lia). clear - H0 H1. lia.
  - intros k k' Hk Hk'. rewrite K in Hk, Hk'. clear - Hk Hk'. lia.
Qed.
Lemma ex_zero_clean l : clean ex_zero l.
Proof. intros again r i. split; [apply repeat_length|]. intros _.  unfold ex_zero. apply Forall_forall. intros x H. assert (In x (repeat 0 4096)) as Q. { rewrite <- (firstn_skipn (Z.to_nat (used l i))). apply in_app_iff. now right. } exact (repeat_spec _ _ _ Q). Qed.
(** what the test says is what the specification says *)
Lemma ex_tested l s i r b : repairable ex_fs 8 5 l s -> 0 <= l < 2 ^ 32 -> 0 <= i < n_pages l -> 5 <= r < pages s -> (do tm <- record_template ex_fs 8; fits ex_zero tm 8 s true r i (used l i)) = Ok b -> (b = true <-> suits ex_fs 8 l s i r).
Proof.
  intros R L Hi Hr E. destruct (template_ok ex_fs 8 ltac:(lia) ex_placed_fs) as (tm & T & _). rewrite T in E. cbn [rbind] in E. destruct (fits_ok ex_zero ex_fs 8 5 l s tm R (ex_zero_clean l) L T s true r i) as (b2 & E2 & H); [split; [exact (shaped_s _ _ _ _ _ R)|auto]|exact Hi|exact Hr|]. assert (b = b2) by congruence. now subst.
Qed.

(** two pages of data and one of another kind; both entries damaged, and the number of entries *)
Example C183_recovers_nonvacuous :
  let s := ex_state 8192 6 [7; 3; 700] [ex_other; ex_gone; ex_first] in
  repairable ex_fs 8 5 8192 s /\ clean ex_zero 8192 /\ (forall i r, 0 <= i < n_pages 8192 -> (suits ex_fs 8 8192 s i r <-> r = if i =? 0 then 9 else 7)) /\
  ex_show (restore ex_zero ex_fs 8 5 s) 2 = Ok (6, 2, [9; 7]).
Proof.
  cbv zeta. set (s := ex_state _ _ _ _). assert (R : repairable ex_fs 8 5 8192 s) by (apply ex_checks_ok; [lia|reflexivity|vm_compute; reflexivity]). split; [exact R|]. split; [apply ex_zero_clean|]. split; [|vm_compute; reflexivity].
  assert (PG : pages s = 10) by (vm_compute; reflexivity). intros i r Hi. change (n_pages 8192) with 2 in Hi.
  assert (T : forall i r b, 0 <= i < 2 -> 5 <= r < 10 -> (do tm <- record_template ex_fs 8; fits ex_zero tm 8 s true r i (used 8192 i)) = Ok b -> (b = true <-> suits ex_fs 8 8192 s i r)) by (intros i0 r0 b0 A B; apply ex_tested; [exact R|lia|exact A|rewrite PG; exact B]).
  split.
  - intros [H H2]. rewrite PG in H. assert (SU : suits ex_fs 8 8192 s i r) by (split; [rewrite PG; exact H|exact H2]).
    assert (i = 0 \/ i = 1) as [-> | ->] by lia; assert (r = 5 \/ r = 6 \/ r = 7 \/ r = 8 \/ r = 9) as [-> |[-> |[-> |[-> | ->]]]] by (clear - H; lia); (match goal with |- ?x = (if ?a =? ?b then _ else _) => cbn [Z.eqb] end); try (match goal with |- ?x = ?x => reflexivity end); exfalso; (eapply (T _ _ false) in SU; [discriminate|clear; lia|clear; lia|vm_compute; reflexivity]).
  - intros ->. assert (i = 0 \/ i = 1) as [-> | ->] by (clear - Hi; lia); cbn [Z.eqb]; (eapply (T _ _ true); [clear; lia|clear; lia|vm_compute; reflexivity|reflexivity]).
Qed.
(** ... a list in order *)
Example C183_healthy_nonvacuous :
  let s := ex_state 8192 6 [2; 9; 7] [ex_other; ex_gone; ex_first] in
  repairable ex_fs 8 5 8192 s /\ (forall i, 0 <= i < n_pages 8192 -> suits ex_fs 8 8192 s i (entry (mem s) 5 i)) /\ at_ (mem s) (tab (mem s) 5 0) 0 = 2.
Proof.
  cbv zeta. set (s := ex_state _ _ _ _). assert (R : repairable ex_fs 8 5 8192 s) by (apply ex_checks_ok; [lia|reflexivity|vm_compute; reflexivity]). split; [exact R|]. split; [|vm_compute; reflexivity].
  assert (PG : pages s = 10) by (vm_compute; reflexivity). intros i Hi. change (n_pages 8192) with 2 in Hi. assert (E0 : entry (mem s) 5 0 = 9) by (vm_compute; reflexivity). assert (E1 : entry (mem s) 5 1 = 7) by (vm_compute; reflexivity).
  assert (i = 0 \/ i = 1) as [-> | ->] by lia; [rewrite E0|rewrite E1]; (eapply (ex_tested 8192 s _ _ true R); [clear; lia|change (n_pages 8192) with 2; clear; lia|rewrite PG; clear; lia|vm_compute; reflexivity|reflexivity]).
Qed.
(** several pages to choose from; a page listed twice; a removed record, with and without another page; an impossible table; a last page that
    is not full, with a memory full of ones and of zeros *)
Example C183_refuted_nonvacuous :
  ex_show (restore ex_zero ex_fs 8 5 (ex_state 8192 6 [2; 7; 3] [ex_first; ex_other; ex_other])) 2 = Ok (6, 2, [7; 3]) /\
  ex_show (restore ex_zero ex_fs 8 5 (ex_state 12288 6 [3; 7; 8; 9] [ex_first; ex_other; repeat 0 4096])) 3 = Ok (6, 3, [7; 8; 8]) /\
  ex_show (restore ex_zero ex_fs 8 5 (ex_state 8192 6 [2; 7; 8] [ex_first; ex_gone; ex_other])) 2 = Ok (6, 2, [7; 9]) /\
  ex_show (restore ex_zero ex_fs 8 5 (ex_state 8192 6 [2; 7; 8] [ex_first; ex_gone])) 2 = Throw /\
  ex_show (restore ex_zero ex_fs 8 5 (ex_state 8192 3 [2; 7; 8] [ex_first; ex_other])) 2 = Ok (3, 2, [0; 0]) /\
  ex_show (restore ex_dirty ex_fs 8 5 (ex_state 4112 6 [2; 7; 8] [ex_first; ex_other])) 2 = Throw /\
  ex_show (restore ex_zero ex_fs 8 5 (ex_state 4112 6 [2; 7; 8] [ex_first; ex_other])) 2 = Ok (6, 2, [7; 8]).
Proof. do 6 (split; [vm_compute; reflexivity|]). vm_compute. reflexivity. Qed.
