(** Proofs for the lost objects and the list of tables. *)
From Verif Require Import Prelude Lists Obj_Model Obj_Spec Obj_Proofs Obj_Facts Alloc_Proofs Port_Model Descr_Model Descr_Spec Descr_Proofs Lost_Model Lost_Spec.
Ltac Zify.zify_post_hook ::= idtac.
Local Opaque le_bytes.

Lemma beq_spec a b : bytes_eqb a b = true <-> a = b.
Proof. unfold bytes_eqb. destruct (list_eq_dec Z.eq_dec a b); split; congruence. Qed.
Lemma beq_refl a : bytes_eqb a a = true.
Proof. now apply beq_spec. Qed.
Lemma beq_neq a b : a <> b -> bytes_eqb a b = false.
Proof. unfold bytes_eqb. destruct (list_eq_dec Z.eq_dec a b); congruence. Qed.
Lemma known_spec known i : is_known known i = true <-> In i known.
Proof. unfold is_known. rewrite existsb_exists. split; [intros (x & H & E); apply Z.eqb_eq in E; now subst|intros H; exists i; split; [exact H|apply Z.eqb_refl]]. Qed.

(** ** numbers in paths *)
Definition value (ds : list Z) : Z := fold_left (fun a d => 10 * a + d) ds 0.
Lemma value_snoc ds d : value (ds ++ [d]) = 10 * value ds + d.
Proof. unfold value. now rewrite fold_left_app. Qed.
Lemma value_nonneg ds : Forall (fun d => 0 <= d <= 9) ds -> 0 <= value ds.
Proof.
  induction ds as [|d ds IH] using rev_ind; intros H; [cbn; lia|]. apply Forall_app in H. destruct H as [H1 H2]. inversion H2; subst. rewrite value_snoc. specialize (IH H1). lia.
Qed.
Lemma value_pos ds : Forall (fun d => 0 <= d <= 9) ds -> ds <> [] -> hd 1 ds <> 0 -> 0 < value ds.
Proof.
  induction ds as [|d ds IH] using rev_ind; intros H N Hd; [easy|]. apply Forall_app in H. destruct H as [H1 H2]. inversion H2; subst. rewrite value_snoc.
  destruct ds as [|e ds]; [cbn in *; lia|]. cbn [hd app] in Hd. specialize (IH H1 ltac:(discriminate) Hd). lia.
Qed.
Lemma decimal_written k : forall n, 0 <= n < 10 ^ Z.of_nat k -> (0 < k)%nat -> written n (decimal k n).
Proof.
  induction k as [|k IH]; intros n Hn Hk; [lia|]. cbn [decimal]. destruct (Z.ltb_spec n 10).
  - exists [n]. split; [discriminate|]. split; [constructor; [lia|constructor]|]. split; [cbn [app map]; rewrite Z.mod_small by lia; f_equal; lia|]. split; [cbn [fold_left]; lia|]. cbn [hd]. now intros ->.
  - rewrite Nat2Z.inj_succ, Z.pow_succ_r in Hn by lia.
    assert (Hk' : (0 < k)%nat). { destruct k; [|lia]. change (10 ^ Z.of_nat 0) with 1 in Hn. lia. }
    assert (Hd : 1 <= n / 10 < 10 ^ Z.of_nat k). { split; [apply Z.div_le_lower_bound; lia|apply Z.div_lt_upper_bound; lia]. }
    destruct (IH (n / 10) ltac:(lia) Hk') as (ds & N & D & -> & V & L). exists (ds ++ [n mod 10]).
    pose proof (Z.mod_pos_bound n 10 ltac:(lia)) as M. pose proof (Z.div_mod n 10 ltac:(lia)) as DM.
    split; [destruct ds; discriminate|]. split; [apply Forall_app; split; [exact D|constructor; [lia|constructor]]|].
    split; [rewrite map_app; cbn [map]; f_equal; f_equal; lia|]. split; [fold (value (ds ++ [n mod 10])); rewrite value_snoc; unfold value; rewrite V; lia|].
    intros Hh. exfalso. destruct ds as [|e ds]; [easy|]. cbn [app hd] in *. specialize (L Hh). assert (V0 : n / 10 = 0) by (rewrite <- V, L; reflexivity). lia.
Qed.
Lemma written_unique n : forall t, written n t -> forall t', written n t' -> t = t'.
Proof.
  intros t (ds & N & D & -> & V & L) t' (es & N' & D' & -> & V' & L'). f_equal. fold (value ds) in V. fold (value es) in V'.
  revert es N' D' V' L' N D L. revert n V. induction ds as [|d ds IH] using rev_ind; intros n V es N' D' V' L' N D L; [easy|].
  destruct es as [|e es _] using rev_ind; [easy|]. rewrite value_snoc in V, V'.
  apply Forall_app in D. destruct D as [D1 D2]. inversion D2 as [|? ? Dd _]; subst. apply Forall_app in D'. destruct D' as [D1' D2']. inversion D2' as [|? ? De _]; subst.
  pose proof (value_nonneg _ D1) as P. pose proof (value_nonneg _ D1') as P'. assert (E : value ds = value es /\ d = e) by lia. destruct E as [E ->]. f_equal.
  destruct ds as [|d0 ds], es as [|e0 es]; try reflexivity.
  - exfalso. cbn [app hd] in L'. destruct (Z.eq_dec e0 0) as [Q|Q]; [specialize (L' Q); destruct es; discriminate|]. pose proof (value_pos _ D1' ltac:(discriminate) Q) as W. change (value []) with 0 in E. lia.
  - exfalso. cbn [app hd] in L. destruct (Z.eq_dec d0 0) as [Q|Q]; [specialize (L Q); destruct ds; discriminate|]. pose proof (value_pos _ D1 ltac:(discriminate) Q) as W. change (value []) with 0 in E. lia.
  - apply (IH (value (e0 :: es)) E); try assumption; try discriminate; try reflexivity.
    + cbn [app hd] in L' |- *. intros Q. specialize (L' Q). destruct es; discriminate.
    + cbn [app hd] in L |- *. intros Q. specialize (L Q). destruct ds; discriminate.
Qed.
Lemma written_same n m t : written n t -> written m t -> n = m.
Proof.
  intros (ds & N & D & -> & V & L) (es & N' & D' & E & V' & L'). assert (ds = es); [|now subst]. clear - E. revert es E. induction ds as [|d ds IH]; intros [|e es] E; try discriminate; [reflexivity|].
  cbn in E. injection E as E1 E2. f_equal; [lia|now apply IH].
Qed.
Lemma path_of dir i : 0 <= i < 2 ^ 32 -> file_of dir i (lost_path dir i).
Proof. intros H. exists (decimal 20 i). split; [|reflexivity]. apply decimal_written; [|lia]. change (10 ^ Z.of_nat 20) with 100000000000000000000. change (2 ^ 32) with 4294967296 in H. lia. Qed.
Lemma path_unique dir i p : 0 <= i < 2 ^ 32 -> file_of dir i p -> p = lost_path dir i.
Proof. intros H (t & W & ->). destruct (path_of dir i H) as (t' & W' & ->). do 2 f_equal. now apply (written_unique i). Qed.
Lemma path_inj dir i j : 0 <= i < 2 ^ 32 -> 0 <= j < 2 ^ 32 -> lost_path dir i = lost_path dir j -> i = j.
Proof.
  intros Hi Hj E. destruct (path_of dir i Hi) as (t & W & Et). destruct (path_of dir j Hj) as (t' & W' & Et'). rewrite E, Et' in Et. apply app_inv_head in Et. apply app_inv_head in Et. subst t'. now apply (written_same i j t).
Qed.

(** ** the search *)
Lemma sig_read st i : pages st -> 0 <= i < zlen st -> exists p, nth_error st (Z.to_nat i) = Some p /\ exists b, has_sig st i = Ok b /\ (b = true <-> starts_object p).
Proof.
  intros H Hi. destruct (nth_error st (Z.to_nat i)) as [p|] eqn:E; [|apply nth_error_None in E; unfold zlen in Hi; lia]. exists p. split; [reflexivity|].
  unfold has_sig, get_part, get_page. destruct (Z.ltb_spec i 0); [lia|]. rewrite E. cbn [rbind].
  assert (L : (8 <= length p)%nat) by (unfold pages in H; rewrite Forall_forall in H; apply H; eapply nth_error_In; exact E).
  rewrite rdn_ok by (unfold zlen; lia). cbn [rbind]. exists (bytes_eqb (sub p 0 8) sig_obj). split; [reflexivity|]. rewrite beq_spec. unfold starts_object, sub. cbn [skipn]. reflexivity.
Qed.
(** what one step looks at *)
Lemma step_lost st known i : pages st -> 0 < i < zlen st -> exists b, has_sig st i = Ok b /\ (b && negb (is_known known i) = true <-> unused st known i).
Proof.
  intros H Hi. destruct (sig_read st i H ltac:(lia)) as (p & E & b & S & B). exists b. split; [exact S|]. rewrite andb_true_iff, negb_true_iff, B. split.
  - intros [Q K]. split; [lia|]. split; [intros C; apply known_spec in C; congruence|]. now exists p.
  - intros (_ & K & p' & E' & Q). assert (p' = p) as -> by congruence. split; [exact Q|]. destruct (is_known known i) eqn:W; [|reflexivity]. apply known_spec in W. easy.
Qed.
Lemma unused_range st known i : unused st known i -> 0 < i < zlen st.
Proof. intros (H & _ & p & E & _). split; [exact H|]. assert (Z.to_nat i < length st)%nat by (apply nth_error_Some; congruence); unfold zlen; lia. Qed.

Lemma find_ok st known : pages st -> forall n i, 0 < i -> i + Z.of_nat n = zlen st -> exists l, find_lost st known n i = Ok l /\ ascending l /\ (forall j, In j l <-> i <= j /\ unused st known j).
Proof.
  intros H. induction n as [|n IH]; intros i Hi Hn.
  - exists []. split; [reflexivity|]. split; [exact Logic.I|]. intros j. split; [easy|]. intros [A B]. apply unused_range in B. lia.
  - cbn [find_lost]. destruct (step_lost st known i H ltac:(lia)) as (b & S & B). rewrite S. cbn [rbind]. destruct (IH (i + 1) ltac:(lia) ltac:(lia)) as (l & E & As & M). rewrite E. cbn [rbind].
    destruct (b && negb (is_known known i)) eqn:Q.
    + exists (i :: l). split; [reflexivity|]. split; [split; [|exact As]; apply Forall_forall; intros y Hy; apply M in Hy; lia|].
      intros j. cbn [In]. rewrite M. split; [intros [<- | [A C]]; [split; [lia|now apply B]|split; [lia|exact C]]|]. intros [A C]. destruct (Z.eq_dec i j); [now left|right; split; [lia|exact C]].
    + exists l. split; [reflexivity|]. split; [exact As|]. intros j. rewrite M. split; [intros [A C]; split; [lia|exact C]|]. intros [A C]. split; [|exact C]. destruct (Z.eq_dec i j) as [<-|]; [|lia]. apply B in C. congruence.
Qed.
Lemma first_page (st : store) : 0 < zlen st -> 1 + Z.of_nat (length st - 1) = zlen st.
Proof. unfold zlen. lia. Qed.
Lemma found st known : pages st -> 0 < zlen st -> exists l, find_lost_objects st known = Ok l /\ ascending l /\ (forall j, In j l <-> unused st known j).
Proof.
  intros H P. unfold find_lost_objects. destruct (find_ok st known H (length st - 1) 1 ltac:(lia) (first_page st P)) as (l & E & A & M). exists l. split; [exact E|]. split; [exact A|].
  intros j. rewrite M. split; [easy|]. intros U. split; [destruct U; lia|exact U].
Qed.

(** ** saving *)
Section Save.
Variables (can : list Z -> bool) (buf : list Z) (ps : nat) (st : store) (known dir : list Z).
Hypothesis Hp : pages st.
Hypothesis Hn : zlen st <= 2 ^ 32.

Lemma put_same (d : disk) p x : put d p x p = Some x.
Proof. unfold put. now rewrite beq_refl. Qed.
Lemma put_other (d : disk) p x q : q <> p -> put d p x q = d q.
Proof. intros H. unfold put. now rewrite beq_neq. Qed.

(** what a run that ends has done *)
Lemma save_inv v838 : forall n i d d', 0 < i -> i + Z.of_nat n = zlen st -> save_lost can buf (Z.of_nat ps) v838 st known dir n i d = Ok d' ->
  (forall j, i <= j -> unused st known j -> exists o x, obj_open (Z.of_nat ps) v838 st j = Ok o /\ save_file (Z.of_nat ps) st o buf = Ok x /\ (can (lost_path dir j) = true -> d' (lost_path dir j) = Some x)) /\
  (forall q, (forall j, i <= j -> unused st known j -> can (lost_path dir j) = true -> q <> lost_path dir j) -> d' q = d q).
Proof.
  induction n as [|n IH]; intros i d d' Hi Hl E.
  - cbn in E. assert (d = d') as -> by congruence. split; [|reflexivity]. intros j A U. apply unused_range in U. lia.
  - cbn [save_lost] in E. destruct (step_lost st known i Hp ltac:(lia)) as (b & S & B). rewrite S in E. cbn [rbind] in E. destruct (b && negb (is_known known i)) eqn:Q.
    + destruct (obj_open _ _ _ _) as [o| | |] eqn:O; try discriminate E. cbn [rbind] in E. destruct (save_file _ _ _ _) as [x| | |] eqn:F; try discriminate E. cbn [rbind] in E.
      destruct (IH (i + 1) _ _ ltac:(lia) ltac:(lia) E) as [A1 A2]. split.
      * intros j Hj U. destruct (Z.eq_dec i j) as [<-|]; [|apply A1; [lia|exact U]]. exists o, x. split; [exact O|]. split; [exact F|]. intros C.
        rewrite A2; [rewrite C; apply put_same|]. intros k Hk Uk _ W. apply unused_range in Uk. apply path_inj in W; lia.
      * intros q Hq. rewrite A2 by (intros k Hk Uk; apply Hq; [lia|exact Uk]). destruct (can (lost_path dir i)) eqn:C; [|reflexivity]. apply put_other, Hq; [lia|now apply B|exact C].
    + destruct (IH (i + 1) _ _ ltac:(lia) ltac:(lia) E) as [A1 A2]. split.
      * intros j Hj U. apply A1; [|exact U]. destruct (Z.eq_dec i j) as [<-|]; [|lia]. apply B in U. congruence.
      * intros q Hq. apply A2. intros k Hk Uk. apply Hq; [lia|exact Uk].
Qed.
Lemma save_runs v838 : (forall j, unused st known j -> exists o x, obj_open (Z.of_nat ps) v838 st j = Ok o /\ save_file (Z.of_nat ps) st o buf = Ok x) ->
  forall n i d, 0 < i -> i + Z.of_nat n = zlen st -> exists d', save_lost can buf (Z.of_nat ps) v838 st known dir n i d = Ok d'.
Proof.
  intros H. induction n as [|n IH]; intros i d Hi Hl; [now exists d|]. cbn [save_lost]. destruct (step_lost st known i Hp ltac:(lia)) as (b & S & B). rewrite S. cbn [rbind]. destruct (b && negb (is_known known i)) eqn:Q.
  - destruct (H i (proj1 B eq_refl)) as (o & x & -> & E). cbn [rbind]. rewrite E. cbn [rbind]. apply IH; lia.
  - apply IH; lia.
Qed.
End Save.

Lemma saved can buf ps st known dir d : pages st -> 0 < zlen st <= 2 ^ 32 -> (forall p, can p = true) ->
  (forall i, unused st known i -> exists len tabs dp, stored ps F80 st i len tabs dp) ->
  exists d', save_lost_objects can buf (Z.of_nat ps) false st known dir d = Ok d' /\
    (forall i len tabs dp path, unused st known i -> stored ps F80 st i len tabs dp -> file_of dir i path -> d' path = Some (content st dp len)) /\
    (forall path, (forall i, unused st known i -> ~ file_of dir i path) -> d' path = d path).
Proof.
  intros Hp Hn Hc Hs. unfold save_lost_objects.
  assert (R : forall j, unused st known j -> exists o x, obj_open (Z.of_nat ps) false st j = Ok o /\ save_file (Z.of_nat ps) st o buf = Ok x).
  { intros j U. destruct (Hs j U) as (len & tabs & dp & D). destruct (read_facts _ _ _ _ _ _ _ D) as (o & O & _ & _ & _ & F). exists o, (content st dp len). split; [exact O|apply F]. }
  destruct (save_runs can buf ps st known dir Hp false R (length st - 1) 1 d ltac:(lia) (first_page st ltac:(lia))) as (d' & E). exists d'. split; [exact E|].
  destruct (save_inv can buf ps st known dir Hp ltac:(lia) false (length st - 1)%nat 1 d d' ltac:(lia) (first_page st ltac:(lia)) E) as [A1 A2]. split.
  - intros i len tabs dp path U D P. pose proof (unused_range _ _ _ U) as Ri. rewrite (path_unique dir i path) by (assumption || lia).
    destruct (A1 i ltac:(lia) U) as (o & x & O & F & G). rewrite (G (Hc _)). destruct (read_facts _ _ _ _ _ _ _ D) as (o' & O' & _ & _ & _ & F'). cbn [is838] in O'. assert (o' = o) as -> by congruence. rewrite F' in F. congruence.
  - intros path H. apply A2. intros j Hj U _ ->. pose proof (unused_range _ _ _ U). apply (H j U), path_of. lia.
Qed.

(** from version 8.3.8 on *)
Lemma new_throws ps st known i : pages st -> unused st known i -> obj_open ps true st i = Throw.
Proof.
  intros Hp U. pose proof (unused_range _ _ _ U). destruct U as (_ & _ & p & E & Q). unfold obj_open, get_page. destruct (Z.ltb_spec i 0); [lia|]. rewrite E. cbn [rbind].
  assert (L : (8 <= length p)%nat) by (unfold pages in Hp; rewrite Forall_forall in Hp; apply Hp; eapply nth_error_In; exact E).
  assert (T : sub p 0 2 = [49; 67]). { unfold starts_object in Q. unfold sub. cbn [skipn]. replace (firstn 2 p) with (firstn 2 (firstn 8 p)) by (rewrite firstn_firstn; reflexivity). now rewrite Q. }
  rewrite rdn_ok by (unfold zlen; lia). change (Z.to_nat 0) with 0%nat. change (Z.to_nat 2) with 2%nat. rewrite T. cbn [rbind]. destruct (i =? 1); reflexivity.
Qed.
Lemma new_nothing can buf ps st known dir d d' : pages st -> 0 < zlen st <= 2 ^ 32 -> save_lost_objects can buf (Z.of_nat ps) true st known dir d = Ok d' -> forall path, d' path = d path.
Proof.
  intros Hp Hn E path. destruct (save_inv can buf ps st known dir Hp ltac:(lia) true (length st - 1)%nat 1 d d' ltac:(lia) (first_page st ltac:(lia)) E) as [A1 A2]. apply A2. intros j Hj U _.
  destruct (A1 j Hj U) as (o & x & O & _). rewrite (new_throws _ _ _ _ Hp U) in O. discriminate.
Qed.

(** ** an object whose first table page is not in the file *)
Lemma damaged_open st j p len t : pages st -> nth_error st (Z.to_nat j) = Some p -> 1 < j -> starts_object p -> num_at p 8 len -> num_at p 24 t -> 0 < len -> zlen st <= t ->
  forall o, obj_open 4096 false st j = Ok o -> forall buf x, save_file 4096 st o buf <> Ok x.
Proof.
  intros Hp E Hj Q [Hl Nl] [Ht Nt] P B o O buf x. unfold obj_open, get_page in O. destruct (Z.ltb_spec j 0); [lia|]. rewrite E in O. cbn [rbind] in O.
  destruct (rdn p 0 8) as [sg| | |]; try discriminate O. cbn [rbind] in O. destruct (negb _); [discriminate O|].
  assert (U : forall off b, u32at p (Z.of_nat off) = Ok b -> b = le_val (sub p off 4)).
  { intros off b Hu. unfold u32at, rdn in Hu. destruct (_ || _) in Hu; [discriminate Hu|]. cbn [rbind] in Hu. rewrite Nat2Z.id in Hu. change (Z.to_nat 4) with 4%nat in Hu. congruence. }
  destruct (u32at p 8) as [l8| | |] eqn:U8; try discriminate O. cbn [rbind] in O. apply (U 8%nat) in U8. rewrite Nl, le_val_bytes_small in U8 by (exact Hl). subst l8.
  destruct (u32at p 12) as [v1| | |]; try discriminate O. cbn [rbind] in O. destruct (u32at p 16) as [v2| | |]; try discriminate O. cbn [rbind] in O. destruct (Z.eqb_spec j 1); [lia|].
  destruct (Z.eqb_spec len 0); [lia|].
  assert (N : exists k, Z.to_nat ((len - 1) / 4190208 + 1) = S k). { pose proof (Z.div_pos (len - 1) 4190208 ltac:(lia) ltac:(lia)). exists (Z.to_nat ((len - 1) / 4190208)). lia. }
  destruct N as [k N]. rewrite N in O. cbn [entries] in O. destruct (u32at p 24) as [b0| | |] eqn:U24; try discriminate O. cbn [rbind] in O. apply (U 24%nat) in U24. rewrite Nt, le_val_bytes_small in U24 by (exact Ht). subst b0.
  destruct (entries p (24 + 4) k) as [r| | |]; try discriminate O. cbn [rbind] in O.
  assert (o = mko Data80 1 len ((len - 1) / 4190208 + 1) 0 (t :: r) j None v1 v2 false) as -> by congruence. clear O.
  unfold save_file. cbn [obj_len o_ty o_len]. destruct (Z.to_nat len) as [|m] eqn:M; [lia|]. cbn [save_loop]. destruct (Z.leb_spec len 0) as [C|C]; [lia|].
  unfold get_range. cbn [o_data o_ty o_len o_blocks]. change (u32 (0 / 4096)) with 0.
  set (sz := u32 (Z.min len 4096)). destruct (len <? u64 (0 + sz)); [discriminate|]. unfold start2. change (0 / 1023) with 0. change (rd (t :: r) 0) with (Ok t). cbn [rbind].
  assert (G : get_page st t = Throw). { unfold get_page. destruct (t <? 0); [reflexivity|]. destruct (nth_error st (Z.to_nat t)) eqn:W; [|reflexivity]. assert (Z.to_nat t < length st)%nat by (apply nth_error_Some; congruence). unfold zlen in B. lia. }
  rewrite G. discriminate.
Qed.
Lemma one_bad can buf st known dir d d' j p len t : pages st -> 0 < zlen st <= 2 ^ 32 -> 1 < j -> unused st known j -> nth_error st (Z.to_nat j) = Some p ->
  num_at p 8 len -> num_at p 24 t -> 0 < len -> zlen st <= t -> save_lost_objects can buf 4096 false st known dir d <> Ok d'.
Proof.
  intros Hp Hn Hj U E Nl Nt P B R. rewrite <- (Z2Nat.id 4096) in R by lia. destruct (save_inv can buf (Z.to_nat 4096) st known dir Hp ltac:(lia) false (length st - 1)%nat 1 d d' ltac:(lia) (first_page st ltac:(lia)) R) as [A _].
  destruct (A j ltac:(lia) U) as (o & x & O & F & _). rewrite Z2Nat.id in O, F by lia. destruct U as (_ & _ & p' & E' & Q). assert (p' = p) as -> by congruence.
  exact (damaged_open st j p len t Hp E Hj Q Nl Nt P B o O buf x F).
Qed.

(** ** where the files are *)
Lemma beside can buf ps v838 st known dir d d' path : pages st -> 0 < zlen st <= 2 ^ 32 -> save_lost_objects can buf (Z.of_nat ps) v838 st known dir d = Ok d' -> below dir path -> d' path = d path.
Proof.
  intros Hp Hn E (c & rest & C & ->). destruct (save_inv can buf ps st known dir Hp ltac:(lia) v838 (length st - 1)%nat 1 d d' ltac:(lia) (first_page st ltac:(lia)) E) as [_ A]. apply A.
  intros j Hj U _ W. unfold lost_path in W. apply app_inv_head in W. cbn [s_block app] in W. destruct C; subst c; discriminate.
Qed.
Lemma digits_plain n t : written n t -> Forall (fun c => 48 <= c <= 57) t.
Proof. intros (ds & _ & D & -> & _). apply Forall_map. eapply Forall_impl; [|exact D]. cbn. intros. lia. Qed.
Lemma inside can buf ps v838 st known base c d d' path : pages st -> 0 < zlen st <= 2 ^ 32 -> save_lost_objects can buf (Z.of_nat ps) v838 st known (base ++ [c]) d = Ok d' ->
  d' path <> d path -> exists name, path = base ++ c :: name /\ ~ In 47 name /\ ~ In 92 name.
Proof.
  intros Hp Hn E N. destruct (save_inv can buf ps st known (base ++ [c]) Hp ltac:(lia) v838 (length st - 1)%nat 1 d d' ltac:(lia) (first_page st ltac:(lia)) E) as [_ A].
  destruct (in_dec (list_eq_dec Z.eq_dec) path (map (lost_path (base ++ [c])) (filter (fun j => 1 <=? j) (map Z.of_nat (seq 0 (length st)))))) as [W|W].
  - apply in_map_iff in W. destruct W as (j & <- & Hj). apply filter_In in Hj. destruct Hj as [Hj J1]. apply in_map_iff in Hj. destruct Hj as (k & <- & Hk). apply in_seq in Hk.
    destruct (path_of (base ++ [c]) (Z.of_nat k)) as (t & Wt & ->); [unfold zlen in Hn; lia|]. exists ([98; 108; 111; 99; 107] ++ t). rewrite <- app_assoc. split; [reflexivity|].
    apply digits_plain in Wt. rewrite Forall_forall in Wt. split; intros C; apply in_app_iff in C; destruct C as [C|C]; try (apply Wt in C; lia); cbn in C; lia.
  - exfalso. apply N, A. intros j Hj U _ ->. apply W. apply in_map. apply filter_In. apply unused_range in U. split; [|lia]. apply in_map_iff. exists (Z.to_nat j). split; [lia|]. apply in_seq. unfold zlen in U. lia.
Qed.
