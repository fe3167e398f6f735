(** Proofs about the elements of an opened container. *)
From Verif Require Import Prelude Dir_Model Dir_Spec.
Ltac Zify.zify_post_hook ::= idtac.

(** ** Segments of the list *)
Definition headid (l : elems) (nx : option nat) : option nat := match l with [] => nx | e :: _ => Some (fst e) end.
Definition lastid (p : option nat) (l : elems) : option nat := fold_left (fun _ e => Some (fst e)) l p.
Fixpoint seg (h : heap) (p : option nat) (l : elems) (nx : option nat) : Prop :=
  match l with [] => True | (i, n) :: t => h i = Some (ND n p (headid t nx) true) /\ seg h (Some i) t nx end.
Lemma headid_app a b nx : headid (a ++ b) nx = headid a (headid b nx). Proof. now destruct a. Qed.
Lemma lastid_app a b p : lastid p (a ++ b) = lastid (lastid p a) b. Proof. apply fold_left_app. Qed.
Lemma seg_app h a : forall p b nx, seg h p (a ++ b) nx <-> seg h p a (headid b nx) /\ seg h (lastid p a) b nx.
Proof.
  induction a as [|[i n] a IH]; intros p b nx; cbn [app seg]; [cbn [lastid fold_left]; tauto|]. rewrite IH, headid_app. change (lastid p ((i, n) :: a)) with (lastid (Some i) a). tauto.
Qed.
Lemma seg_frame h i x l : forall p nx, ~ In i (map fst l) -> seg h p l nx -> seg (hset h i x) p l nx.
Proof.
  induction l as [|[j n] l IH]; intros p nx N H; [exact Logic.I|]. cbn [map fst In seg] in *. destruct H as [H1 H2]. split; [|apply IH; tauto].
  unfold hset. destruct (Nat.eqb_spec j i); [subst; tauto|exact H1].
Qed.
Lemma hset_same h i x : hset h i x i = x. Proof. unfold hset. now rewrite Nat.eqb_refl. Qed.
Lemma hset_other h i j x : j <> i -> hset h i x j = h j. Proof. intros H. unfold hset. destruct (Nat.eqb_spec j i); congruence. Qed.
Lemma lastid_last p a e : lastid p (a ++ [e]) = Some (fst e). Proof. rewrite lastid_app. reflexivity. Qed.

Section Lower.
Variable lower : list Z -> list Z.
Fixpoint by_key (l : elems) (k : list Z) : option nat :=
  match l with [] => None | (i, n) :: t => if key_eq (lower n) k then Some i else by_key t k end.
Lemma find_key l name : find_name lower l name = by_key l (lower name).
Proof. induction l as [|[i n] l IH]; [reflexivity|]. cbn [find_name by_key]. destruct (key_eq _ _); [reflexivity|apply IH]. Qed.
Lemma by_key_none l k : by_key l k = None <-> ~ In k (map (fun e => lower (snd e)) l).
Proof.
  induction l as [|[i n] l IH]; cbn [by_key map snd In]; [tauto|]. destruct (key_eq (lower n) k); [split; [discriminate|tauto]|]. rewrite IH. tauto.
Qed.
Lemma by_key_app a b k : by_key (a ++ b) k = match by_key a k with Some i => Some i | None => by_key b k end.
Proof. induction a as [|[i n] a IH]; [reflexivity|]. cbn [app by_key]. destruct (key_eq _ _); [reflexivity|apply IH]. Qed.

Record inv0 (d : dir) (l : elems) (k : nat) : Prop := {
  i_next : d_next d = k;
  i_first : d_first d = headid l None;
  i_last : d_last d = lastid None l;
  i_seg : seg (d_heap d) None l None;
  i_nodup : NoDup (map fst l);
  i_bound : Forall (fun e => (fst e < k)%nat) l }.
Record inv (d : dir) (l : elems) (k : nat) : Prop := {
  i_list : inv0 d l k;
  i_map : forall key, d_map d key = by_key l key;
  i_keys : NoDup (map (fun e => lower (snd e)) l) }.

Lemma fresh l k : Forall (fun e : nat * list Z => (fst e < k)%nat) l -> ~ In k (map fst l).
Proof. intros F H. apply in_map_iff in H as (e & E & H). rewrite Forall_forall in F. specialize (F e H). lia. Qed.
Lemma nodup_snoc {A} (l : list A) x : NoDup l -> ~ In x l -> NoDup (l ++ [x]).
Proof.
  induction l as [|y l IH]; intros N H; cbn [app]; [constructor; [tauto|constructor]|]. inversion N; subst. cbn [In] in H. constructor; [|apply IH; tauto].
  intros K. apply in_app_or in K as [K|K]; [tauto|]. cbn [In] in K. destruct K as [K|[]]. subst. tauto.
Qed.

(** a new element behind the last one *)
Lemma new_ok0 d l k name : inv0 d l k ->
  exists d', new_file lower d name (lastid None l) = Ok (d', k) /\ d_last d' = d_last d /\ d_map d' = mset (d_map d) (lower name) (Some k) /\
  inv0 (DR (d_heap d') (d_next d') (d_first d') (Some k) (d_map d')) (l ++ [(k, name)]) (S k).
Proof.
  intros [Hn Hf Hl Hs Hd Hb]. unfold new_file. rewrite Hn. pose proof (fresh l k Hb) as FR. set (h := hset (d_heap d) k (Some (ND name (lastid None l) None true))).
  assert (Hs' : seg h None l None) by (apply seg_frame; assumption).
  assert (NB : Forall (fun e : nat * list Z => (fst e < S k)%nat) (l ++ [(k, name)])).
  { apply Forall_app. split; [eapply Forall_impl; [|exact Hb]; cbn; intros; lia|constructor; [cbn; lia|constructor]]. }
  assert (ND1 : NoDup (map fst (l ++ [(k, name)]))) by (rewrite map_app; apply nodup_snoc; assumption).
  destruct (list_eq_dec (fun a b : nat * list Z => ltac:(decide equality; [apply key_eq|apply Nat.eq_dec])) l []) as [->|NE].
  - cbn [lastid fold_left rbind fst snd]. eexists. split; [reflexivity|]. split; [reflexivity|]. split; [reflexivity|].
    constructor; cbn [d_next d_first d_last d_heap d_map]; try assumption; try reflexivity.
    cbn [app seg headid]. split; [unfold h; apply hset_same|exact Logic.I].
  - destruct (exists_last NE) as (a & [p np] & ->). rewrite lastid_last. cbn [fst].
    apply seg_app in Hs' as [Hsa Hsp]. cbn [seg headid] in Hsp. destruct Hsp as [Hp _].
    unfold hget. rewrite Hp. cbn [rbind n_name n_prev n_parent fst snd]. eexists. split; [reflexivity|]. split; [reflexivity|]. split; [reflexivity|].
    assert (Npk : p <> k) by (intros ->; apply FR; rewrite map_app; apply in_or_app; right; left; reflexivity).
    assert (Npa : ~ In p (map fst a)).
    { rewrite map_app in Hd. cbn [map fst] in Hd. apply NoDup_remove_2 in Hd. rewrite app_nil_r in Hd. exact Hd. }
    constructor; cbn [d_next d_first d_last d_heap d_map]; try assumption; try reflexivity.
    + rewrite Hf, !headid_app. destruct a; reflexivity.
    + rewrite lastid_app. reflexivity.
    + rewrite <- app_assoc. apply seg_app. split; [apply seg_frame; [exact Npa|exact Hsa]|]. cbn [app seg headid fst]. split; [|split; [|exact Logic.I]].
      * rewrite hset_same. reflexivity.
      * rewrite hset_other by congruence. unfold h. rewrite hset_same. rewrite lastid_last. reflexivity.
Qed.
Lemma new_ok d l k name : inv d l k -> by_key l (lower name) = None ->
  exists d', new_file lower d name (lastid None l) = Ok (d', k) /\ d_last d' = d_last d /\
  inv (DR (d_heap d') (d_next d') (d_first d') (Some k) (d_map d')) (l ++ [(k, name)]) (S k).
Proof.
  intros [H0 Hm Hk] HK. destruct (new_ok0 d l k name H0) as (d' & E & EL & EM & I0). exists d'. split; [exact E|]. split; [exact EL|]. constructor; [exact I0| |].
  - intros key. cbn [d_map]. rewrite EM. unfold mset. rewrite by_key_app. cbn [by_key]. destruct (key_eq key (lower name)) as [->|NE].
    + rewrite HK. destruct (key_eq (lower name) (lower name)); congruence.
    + rewrite Hm. destruct (by_key l key); [reflexivity|]. destruct (key_eq (lower name) key); congruence.
  - rewrite map_app. apply nodup_snoc; [exact Hk|now apply by_key_none].
Qed.
Lemma create_ok d l k name : inv d l k ->
  exists d', create_file lower d name = Ok (d', match find_name lower l name with Some i => i | None => k end) /\
  inv d' (match find_name lower l name with Some i => l | None => l ++ [(k, name)] end) (match find_name lower l name with Some i => k | None => S k end).
Proof.
  intros H. pose proof H as [[Hn Hf Hl Hs Hd Hb] Hm Hk]. unfold create_file, get_file. rewrite Hm, find_key. destruct (by_key l (lower name)) as [i|] eqn:E; [exists d; auto|].
  rewrite Hl. destruct (new_ok d l k name H E) as (d' & -> & _ & I'). cbn [rbind fst snd]. eexists. split; [reflexivity|]. exact I'.
Qed.

(** taking one out *)
Lemma split_at (l : elems) i : In i (map fst l) -> exists a n b, l = a ++ (i, n) :: b.
Proof. intros H. apply in_map_iff in H as ([j n] & E & H). cbn in E. subst j. apply in_split in H as (a & b & ->). eauto. Qed.
Lemma filter_out (a : elems) i n (b : elems) : NoDup (map fst (a ++ (i, n) :: b)) -> filter (fun e : nat * list Z => negb (Nat.eqb (fst e) i)) (a ++ (i, n) :: b) = a ++ b.
Proof.
  intros N. rewrite map_app in N. cbn [map fst] in N. apply NoDup_remove_2 in N.
  assert (K : forall l : elems, ~ In i (map fst l) -> filter (fun e : nat * list Z => negb (Nat.eqb (fst e) i)) l = l).
  { induction l as [|[j m] l IH]; intros H; [reflexivity|]. cbn [filter fst map In] in *. destruct (Nat.eqb_spec j i); [tauto|]. cbn [negb]. rewrite IH by tauto. reflexivity. }
  rewrite filter_app. cbn [filter fst]. rewrite Nat.eqb_refl. cbn [negb]. rewrite !K; [reflexivity| |]; intros H; apply N, in_or_app; auto.
Qed.
Lemma unlink_ok d (a : elems) i n (b : elems) : d_first d = headid (a ++ (i, n) :: b) None -> d_last d = lastid None (a ++ (i, n) :: b) -> seg (d_heap d) None (a ++ (i, n) :: b) None ->
  NoDup (map fst (a ++ (i, n) :: b)) ->
  exists d', unlink d (ND n (lastid None a) (headid b None) true) = Ok d' /\ d_next d' = d_next d /\ d_map d' = d_map d /\ d_first d' = headid (a ++ b) None /\ d_last d' = lastid None (a ++ b) /\
  seg (d_heap d') None (a ++ b) None /\ d_heap d' i = d_heap d i.
Proof.
  intros Hf Hl Hs Hd. apply seg_app in Hs as [Sa Sb]. cbn [seg] in Sb. destruct Sb as [Si Sb]. cbn [headid fst] in Sa.
  rewrite map_app in Hd. cbn [map fst] in Hd. pose proof (NoDup_remove_2 _ _ _ Hd) as Ni. pose proof (NoDup_remove_1 _ _ _ Hd) as Nab.
  unfold unlink. cbn [n_next n_prev].
  (* first step: the element behind *)
  assert (STEP : exists d1, (match headid b None with
           | Some x => do m <- hget (d_heap d) x; Ok (with_heap d (hset (d_heap d) x (Some (ND (n_name m) (lastid None a) (n_next m) (n_parent m)))))
           | None => Ok (DR (d_heap d) (d_next d) (d_first d) (lastid None a) (d_map d)) end) = Ok d1 /\
           d_next d1 = d_next d /\ d_map d1 = d_map d /\ d_first d1 = d_first d /\ d_last d1 = lastid None (a ++ b) /\ seg (d_heap d1) None a (Some i) /\ seg (d_heap d1) (lastid None a) b None /\
           d_heap d1 i = d_heap d i).
  { destruct b as [|[x nx] b]; cbn [headid fst].
    - eexists. split; [reflexivity|]. cbn [d_next d_map d_first d_last d_heap]. rewrite app_nil_r. cbn [seg]. tauto.
    - cbn [seg] in Sb. destruct Sb as [Sx Sb]. unfold hget. rewrite Sx. cbn [rbind]. eexists. split; [reflexivity|]. cbn [with_heap d_next d_map d_first d_last d_heap n_name n_next n_parent].
      cbn [map fst] in *. assert (Nx : ~ In x (map fst a ++ map fst b)) by (apply NoDup_remove_2 in Nab; exact Nab).
      split; [reflexivity|]. split; [reflexivity|]. split; [reflexivity|]. split; [rewrite Hl, !lastid_app; reflexivity|].
      split; [apply seg_frame; [intros H; apply Nx, in_or_app; auto|exact Sa]|]. split.
      + split; [apply hset_same|]. apply seg_frame; [intros H; apply Nx, in_or_app; auto|exact Sb].
      + apply hset_other. intros ->. apply Ni, in_or_app. right. now left. }
  destruct STEP as (d1 & -> & En & Em & Ef & El & S1 & S2 & Ei). cbn [rbind].
  destruct (list_eq_dec (fun u v : nat * list Z => ltac:(decide equality; [apply key_eq|apply Nat.eq_dec])) a []) as [->|NE].
  - cbn [lastid fold_left app] in *. eexists. split; [reflexivity|]. cbn [d_next d_map d_first d_last d_heap]. auto 10.
  - destruct (exists_last NE) as (a' & [p np] & ->). rewrite lastid_last in *. cbn [fst]. apply seg_app in S1 as [Sa' Sp]. cbn [seg headid fst] in *. destruct Sp as [Sp _].
    unfold hget. rewrite Sp. cbn [rbind]. eexists. split; [reflexivity|]. cbn [with_heap d_next d_map d_first d_last d_heap n_name n_prev n_parent].
    rewrite map_app in Nab, Ni. cbn [map fst] in Nab, Ni. rewrite <- !app_assoc in Nab. cbn [app] in Nab. pose proof (NoDup_remove_2 _ _ _ Nab) as Np.
    assert (Npb : ~ In p (map fst b)) by (intros H; apply Np, in_or_app; auto).
    assert (Npa : ~ In p (map fst a')) by (intros H; apply Np, in_or_app; auto).
    assert (Npi : p <> i) by (intros ->; apply Ni; apply in_or_app; left; apply in_or_app; right; now left).
    split; [exact En|]. split; [exact Em|]. split; [|split; [exact El|split]].
    + rewrite Ef, Hf, !headid_app. cbn [headid fst]. destruct a'; reflexivity.
    + rewrite <- app_assoc. apply seg_app. cbn [app headid fst seg]. split; [apply seg_frame; assumption|]. split; [apply hset_same|]. apply seg_frame; assumption.
    + rewrite hset_other by congruence. exact Ei.
Qed.
Lemma remove_key a i n b : NoDup (map (fun e => lower (snd e)) (a ++ (i, n) :: b)) ->
  forall key, (if key_eq key (lower n) then None else by_key (a ++ (i, n) :: b) key) = by_key (a ++ b) key.
Proof.
  intros N key. rewrite map_app in N. cbn [map snd] in N. pose proof (NoDup_remove_2 _ _ _ N) as N2. rewrite <- map_app in N2. destruct (key_eq key (lower n)) as [->|E].
  - symmetry. now apply by_key_none.
  - rewrite !by_key_app. cbn [by_key]. destruct (by_key a key); [reflexivity|]. destruct (key_eq (lower n) key); [congruence|reflexivity].
Qed.
Lemma delete_ok d l k i : inv d l k -> In i (map fst l) ->
  exists d1 d2, delete_file lower d i = Ok d1 /\ destroy d1 i = Ok d2 /\ inv d2 (filter (fun e : nat * list Z => negb (Nat.eqb (fst e) i)) l) k.
Proof.
  intros [[Hn Hf Hl Hs Hd Hb] Hm Hk] Hi. destruct (split_at l i Hi) as (a & n & b & ->). rewrite filter_out by exact Hd.
  pose proof Hs as Hs2. apply seg_app in Hs2 as [_ Sb]. cbn [seg] in Sb. destruct Sb as [Si _].
  destruct (unlink_ok d a i n b Hf Hl Hs Hd) as (d1 & E1 & N1 & M1 & F1 & L1 & S1 & I1).
  unfold delete_file, hget. rewrite Si. cbn [rbind n_parent]. rewrite E1. cbn [rbind d_heap n_name]. rewrite I1, Si. cbn [rbind n_name].
  do 2 eexists. split; [reflexivity|]. unfold destroy, hget. cbn [with_heap d_heap]. rewrite hset_same. cbn [rbind n_parent]. split; [reflexivity|].
  rewrite map_app in Hd. cbn [map fst] in Hd. pose proof (NoDup_remove_2 _ _ _ Hd) as Ni. rewrite <- map_app in Ni.
  constructor; [constructor|..]; cbn [with_heap d_next d_first d_last d_heap d_map].
  - now rewrite N1.
  - exact F1.
  - exact L1.
  - apply seg_frame; [exact Ni|]. apply seg_frame; [exact Ni|]. exact S1.
  - rewrite map_app. apply NoDup_remove_1 in Hd. exact Hd.
  - apply Forall_app in Hb as [Hba Hbb]. inversion Hbb; subst. apply Forall_app. auto.
  - intros key. unfold mset. rewrite M1. rewrite <- (remove_key a i n b Hk key). destruct (key_eq key (lower n)); [reflexivity|apply Hm].
  - rewrite map_app in *. cbn [map snd] in Hk. apply NoDup_remove_1 in Hk. exact Hk.
Qed.

(** reading the list *)
Lemma walk_ok fuel d : forall l p, (length l <= fuel)%nat -> seg (d_heap d) p l None -> walk fuel d (headid l None) = Ok l.
Proof.
  induction fuel as [|k IH]; intros l p L S1.
  - destruct l; [reflexivity|cbn in L; lia].
  - destruct l as [|[i n] l]; [reflexivity|]. cbn [seg] in S1. destruct S1 as [S1 S2]. cbn [headid fst walk]. unfold hget. rewrite S1. cbn [rbind n_next n_name].
    rewrite (IH l (Some i)); [reflexivity|cbn in L; lia|exact S2].
Qed.
Lemma len_bound l k : NoDup (map fst l) -> Forall (fun e : nat * list Z => (fst e < k)%nat) l -> (length l <= k)%nat.
Proof.
  intros N F. rewrite <- (map_length fst l), <- (seq_length k 0). apply NoDup_incl_length; [exact N|]. intros x H. apply in_map_iff in H as (e & <- & H).
  rewrite Forall_forall in F. specialize (F e H). apply in_seq. lia.
Qed.
Lemma listing_ok d l k : inv0 d l k -> listing d = Ok l.
Proof.
  intros [Hn Hf Hl Hs Hd Hb]. unfold listing. rewrite Hn, Hf. apply (walk_ok _ d l None); [|exact Hs]. pose proof (len_bound l k Hd Hb). lia.
Qed.
Lemma op_ok d l k o : inv d l k -> match o with Delete i => In i (map fst l) | _ => True end ->
  exists d', dir_op lower d o = Ok (d', snd (ideal_op lower (l, k) o)) /\ inv d' (fst (fst (ideal_op lower (l, k) o))) (snd (fst (ideal_op lower (l, k) o))).
Proof.
  intros H V. destruct o as [name|i|name|]; cbn [dir_op ideal_op].
  - destruct (create_ok d l k name H) as (d' & -> & I'). cbn [rbind fst snd]. exists d'. destruct (find_name lower l name); split; try reflexivity; exact I'.
  - destruct (delete_ok d l k i H V) as (d1 & d2 & -> & E2 & I'). cbn [rbind]. rewrite E2. cbn [rbind]. exists d2. auto.
  - exists d. cbn [fst snd]. split; [|exact H]. unfold get_file. rewrite (i_map _ _ _ H), find_key. reflexivity.
  - exists d. rewrite (listing_ok d l k (i_list _ _ _ H)). auto.
Qed.
Lemma ops_ok os : forall d l k, inv d l k -> valid lower (l, k) os ->
  exists d', dir_ops lower d os = Ok (d', snd (ideal_ops lower (l, k) os)) /\ inv d' (fst (fst (ideal_ops lower (l, k) os))) (snd (fst (ideal_ops lower (l, k) os))).
Proof.
  induction os as [|o os IH]; intros d l k H V; [exists d; auto|]. cbn [valid fst] in V. destruct V as [V1 V2]. destruct (op_ok d l k o H V1) as (d1 & E1 & I1).
  cbn [dir_ops ideal_ops]. rewrite E1. cbn [rbind fst snd]. destruct (ideal_op lower (l, k) o) as [[l1 k1] r]. cbn [fst snd] in *.
  destruct (IH d1 l1 k1 I1 V2) as (d2 & E2 & I2). rewrite E2. cbn [rbind fst snd]. destruct (ideal_ops lower (l1, k1) os) as [s rs]. cbn [fst snd] in *. exists d2. auto.
Qed.

(** opening *)
Lemma new_any d q n p d1 k : new_file lower (DR (d_heap d) (d_next d) (d_first d) q (d_map d)) n p = Ok (d1, k) ->
  exists d2, new_file lower d n p = Ok (d2, k) /\ DR (d_heap d2) (d_next d2) (d_first d2) (Some k) (d_map d2) = DR (d_heap d1) (d_next d1) (d_first d1) (Some k) (d_map d1).
Proof.
  destruct d as [h nx f la m]. unfold new_file. cbn [d_heap d_next d_first d_last d_map]. destruct p as [p|].
  - destruct (hget _ p) as [x| | |]; cbn [rbind fst snd]; intros E; try discriminate. injection E as <- <-. eexists. split; reflexivity.
  - cbn [rbind fst snd]. intros E. injection E as <- <-. eexists. split; reflexivity.
Qed.
(** the element found by a name after reading them all: the last one *)
Definition last_key (l : elems) (m : list Z -> option nat) : list Z -> option nat := fold_left (fun m e => mset m (lower (snd e)) (Some (fst e))) l m.
Lemma load_ok names : forall d l k, inv0 (DR (d_heap d) (d_next d) (d_first d) (lastid None l) (d_map d)) l k ->
  exists d', load lower d (lastid None l) names = Ok d' /\ inv0 d' (l ++ combine (seq k (length names)) names) (k + length names) /\ d_map d' = last_key (combine (seq k (length names)) names) (d_map d).
Proof.
  induction names as [|n t IH]; intros d l k H; cbn [load length].
  - eexists. split; [reflexivity|]. cbn [seq combine]. rewrite app_nil_r, Nat.add_0_r. split; [exact H|reflexivity].
  - destruct (new_ok0 _ l k n H) as (d1 & E1 & L1 & M1 & I1). cbn [d_map] in M1.
    assert (E1' : exists d1', new_file lower d n (lastid None l) = Ok (d1', k) /\ DR (d_heap d1') (d_next d1') (d_first d1') (Some k) (d_map d1') = DR (d_heap d1) (d_next d1) (d_first d1) (Some k) (d_map d1)).
    { exact (new_any d (lastid None l) n (lastid None l) d1 k E1). }
    destruct E1' as (d1' & -> & ED). cbn [rbind fst snd]. rewrite <- ED in I1. assert (M2 : d_map d1' = d_map d1) by congruence.
    specialize (IH d1' (l ++ [(k, n)]) (S k)). rewrite lastid_last in IH. cbn [fst] in IH. destruct (IH I1) as (d' & E' & I' & M').
    exists d'. split; [exact E'|]. cbn [seq combine]. rewrite <- app_assoc in I'. cbn [app] in I'. replace (k + S (length t))%nat with (S k + length t)%nat by lia. split; [exact I'|].
    rewrite M', M2, M1. reflexivity.
Qed.
Lemma open_any names : exists d, open_dir lower names = Ok d /\ inv0 d (numbered names) (length names) /\ d_map d = last_key (numbered names) (fun _ => None).
Proof.
  destruct (load_ok names (DR (fun _ => None) 0 None None (fun _ => None)) [] 0) as (d & E & I' & M).
  - constructor; try reflexivity; try constructor.
  - exists d. split; [exact E|]. split; [exact I'|exact M].
Qed.
Lemma last_key_ok l : forall m key, last_key l m key = match by_key (rev l) key with Some i => Some i | None => m key end.
Proof.
  induction l as [|[i n] l IH]; intros m key; [reflexivity|]. change (last_key ((i, n) :: l) m) with (last_key l (mset m (lower n) (Some i))). rewrite IH. cbn [rev]. rewrite by_key_app. cbn [by_key].
  destruct (by_key (rev l) key); [reflexivity|]. unfold mset. destruct (key_eq key (lower n)) as [->|E]; destruct (key_eq (lower n) _); congruence.
Qed.
Lemma by_key_in l k i : NoDup (map (fun e => lower (snd e)) l) -> (by_key l k = Some i <-> exists n, In (i, n) l /\ lower n = k).
Proof.
  induction l as [|[j m] l IH]; intros N; cbn [by_key map snd In]; [split; [discriminate|intros (n & [] & _)]|]. cbn [map snd] in N. inversion N as [|? ? N1 N2]; subst. destruct (key_eq (lower m) k) as [E|E].
  - split; [intros H; injection H as <-; eauto|]. intros (n & [H|H] & K); [congruence|]. exfalso. apply N1. apply in_map_iff. exists (i, n). cbn. split; [congruence|exact H].
  - rewrite IH by exact N2. split; intros (n & H & K); [eauto|]. destruct H as [H|H]; [|eauto]. exfalso. apply E. congruence.
Qed.
Lemma by_key_rev l k : NoDup (map (fun e => lower (snd e)) l) -> by_key (rev l) k = by_key l k.
Proof.
  intros N. assert (N' : NoDup (map (fun e => lower (snd e)) (rev l))) by (rewrite map_rev; now apply NoDup_rev).
  destruct (by_key l k) as [i|] eqn:E.
  - apply by_key_in in E as (n & H & K); [|exact N]. apply by_key_in; [exact N'|]. exists n. split; [now apply -> in_rev|exact K].
  - apply by_key_none. apply by_key_none in E. rewrite map_rev. intros H. apply E. now apply in_rev.
Qed.
Lemma map_combine {B} (f : list Z -> B) names : forall k, map (fun e : nat * list Z => f (snd e)) (combine (seq k (length names)) names) = map f names.
Proof. induction names as [|n t IH]; intros k; [reflexivity|]. cbn [length seq combine map snd]. now rewrite IH. Qed.
Lemma open_ok names : NoDup (map lower names) -> exists d, open_dir lower names = Ok d /\ inv d (numbered names) (length names).
Proof.
  intros N. destruct (open_any names) as (d & E & I' & M). exists d. split; [exact E|].
  assert (NK : NoDup (map (fun e => lower (snd e)) (numbered names))) by (unfold numbered; now rewrite map_combine).
  constructor; [exact I'| |exact NK]. intros key. rewrite M, last_key_ok, by_key_rev by exact NK. now destruct (by_key _ _).
Qed.
Lemma find_rev l name : find_name lower (rev l) name = by_key (rev l) (lower name). Proof. apply find_key. Qed.
Lemma open_all names : exists d, open_dir lower names = Ok d /\ listing d = Ok (numbered names) /\ forall name, get_file lower d name = find_name lower (rev (numbered names)) name.
Proof.
  destruct (open_any names) as (d & E & I' & M). exists d. split; [exact E|]. split; [exact (listing_ok _ _ _ I')|]. intros name. unfold get_file. rewrite M, last_key_ok, find_key. now destruct (by_key _ _).
Qed.

(** ** Renaming *)
Lemma key_here a i n b : NoDup (map (fun e => lower (snd e)) (a ++ (i, n) :: b)) -> by_key (a ++ (i, n) :: b) (lower n) = Some i.
Proof. intros N. apply by_key_in; [exact N|]. exists n. split; [apply in_or_app; right; now left|reflexivity]. Qed.
Lemma rename_ok d l k i old new : inv d l k -> In (i, old) l ->
  exists d1 d2 d3, rename d i new = Ok d1 /\ name_of d1 i = Ok new /\ (forall x, get_file lower d1 x = find_name lower l x) /\
    delete_file lower d1 i = Ok d2 /\ destroy d2 i = Ok d3 /\ (lower new <> lower old -> get_file lower d3 old = Some i) /\ name_of d3 i = UB.
Proof.
  intros [[Hn Hf Hl Hs Hd Hb] Hm Hk] Hi. apply in_split in Hi as (a & b & ->). pose proof Hs as Hs'. apply seg_app in Hs' as [Sa Sb]. cbn [seg headid fst] in Sa, Sb. destruct Sb as [Si Sb].
  unfold rename at 1, hget. rewrite Si. cbn [rbind n_prev n_next n_parent]. set (h1 := hset (d_heap d) i (Some (ND new (lastid None a) (headid b None) true))).
  set (d1 := with_heap d h1). assert (Ni : ~ In i (map fst a ++ map fst b)) by (rewrite map_app in Hd; exact (NoDup_remove_2 _ _ _ Hd)).
  assert (S1 : seg h1 None (a ++ (i, new) :: b) None).
  { apply seg_app. cbn [seg headid fst]. split; [apply seg_frame; [intros H; apply Ni, in_or_app; auto|exact Sa]|]. split; [apply hset_same|]. apply seg_frame; [intros H; apply Ni, in_or_app; auto|exact Sb]. }
  assert (Hd1 : NoDup (map fst (a ++ (i, new) :: b))) by (rewrite map_app in *; exact Hd).
  assert (F1 : d_first d1 = headid (a ++ (i, new) :: b) None) by (cbn [d1 with_heap d_first]; rewrite Hf, !headid_app; reflexivity).
  assert (L1 : d_last d1 = lastid None (a ++ (i, new) :: b)) by (cbn [d1 with_heap d_last]; rewrite Hl, !lastid_app; reflexivity).
  destruct (unlink_ok d1 a i new b F1 L1 S1 Hd1) as (d2 & E2 & _ & M2 & _ & _ & _ & I2).
  assert (G1 : d_heap d1 i = Some (ND new (lastid None a) (headid b None) true)) by apply hset_same.
  do 3 eexists. split; [reflexivity|]. fold d1. split; [unfold name_of, hget; rewrite G1; reflexivity|]. split; [intros x; unfold get_file; cbn [d1 with_heap d_map]; rewrite Hm, find_key; reflexivity|].
  unfold delete_file, hget. rewrite G1. cbn [rbind n_parent]. rewrite E2. cbn [rbind d_heap n_name]. rewrite I2, G1. cbn [rbind n_name]. split; [reflexivity|].
  unfold destroy, hget. cbn [with_heap d_heap]. rewrite hset_same. cbn [rbind n_parent]. split; [reflexivity|]. cbn [with_heap d_map d_heap]. split.
  - intros Ne. unfold get_file, mset. cbn [with_heap d_map]. rewrite M2. cbn [d1 with_heap d_map]. rewrite Hm. destruct (key_eq (lower old) (lower new)); [congruence|]. now apply key_here.
  - unfold name_of, hget. cbn [with_heap d_heap]. now rewrite hset_same.
Qed.
End Lower.

(** ** Saving the header *)
Definition ch (o : hop) : bool := match o with HRename _ | HWrite _ => true | _ => false end.
Definition op (o : hop) : bool := match o with HOpen | HWrite _ => true | _ => false end.
Lemma run_app a b s : h_run s (a ++ b) = h_run (h_run s a) b. Proof. apply fold_left_app. Qed.
Lemma values_app a b v : values v (a ++ b) = values (values v a) b. Proof. apply fold_left_app. Qed.
Definition now_of (h : head) : list Z * Z * Z := (h_name h, h_create h, h_modify h).
Lemma run_values os : forall s, now_of (snd (h_run s os)) = values (now_of (snd s)) os.
Proof.
  induction os as [|o os IH]; intros s; [reflexivity|]. cbn [h_run fold_left values] in *. unfold h_run, values in *. rewrite IH. f_equal. destruct s as [st h]. destruct o; try reflexivity. unfold h_step, h_close. cbn. destruct (h_open h); reflexivity.
Qed.
Lemma run_flags os : forall s, ~ In HClose os -> fst (h_run s os) = fst s /\ h_changed (snd (h_run s os)) = h_changed (snd s) || existsb ch os /\ h_open (snd (h_run s os)) = h_open (snd s) || existsb op os.
Proof.
  induction os as [|o os IH]; intros [st h] N; [cbn; now rewrite !orb_false_r|]. cbn [In] in N. change (h_run (st, h) (o :: os)) with (h_run (h_step (st, h) o) os). destruct (IH (h_step (st, h) o)) as (A & B & C); [tauto|].
  rewrite A, B, C. cbn [existsb]. destruct o; cbn; rewrite ?orb_true_r, ?orb_false_r; auto. exfalso. apply N. now left.
Qed.
Lemma saved h1 h2 s : ~ In HClose h2 -> existsb op h2 = true -> existsb ch h2 = true -> fst (h_run s (h1 ++ h2 ++ [HClose])) = values (now_of (snd s)) (h1 ++ h2 ++ [HClose]).
Proof.
  intros N O C. rewrite app_assoc, run_app. set (t := h_run s (h1 ++ h2)). assert (F : h_changed (snd t) = true /\ h_open (snd t) = true).
  { unfold t. rewrite run_app. destruct (run_flags h2 (h_run s h1) N) as (_ & A & B). rewrite A, B, O, C, !orb_true_r. auto. }
  destruct F as [F1 F2]. rewrite values_app. unfold values at 1. cbn [fold_left]. rewrite <- run_values. fold t. cbn [h_run fold_left h_step]. unfold h_run. cbn [fold_left]. destruct t as [st h]. cbn [snd] in *. unfold h_step, h_close. cbn. rewrite F1, F2. reflexivity.
Qed.
Lemma lost_unopened os : forall s, h_open (snd s) = false -> existsb op os = false -> fst (h_run s os) = fst s.
Proof.
  induction os as [|o os IH]; intros [st h] O E; [reflexivity|]. cbn [existsb] in E. apply orb_false_iff in E as [E1 E2]. change (h_run (st, h) (o :: os)) with (h_run (h_step (st, h) o) os). cbn [snd] in O.
  rewrite IH; [| |exact E2]; destruct o; try discriminate; cbn; try reflexivity; try assumption; unfold h_close; rewrite O; reflexivity || assumption.
Qed.
Lemma lost_times os : forall s, h_changed (snd s) = false -> existsb ch os = false -> fst (h_run s os) = fst s.
Proof.
  induction os as [|o os IH]; intros [st h] O E; [reflexivity|]. cbn [existsb] in E. apply orb_false_iff in E as [E1 E2]. change (h_run (st, h) (o :: os)) with (h_run (h_step (st, h) o) os). cbn [snd] in O.
  rewrite IH; [| |exact E2]; destruct o; try discriminate; cbn; try reflexivity; try assumption; unfold h_close; rewrite ?O; destruct (h_open h); cbn; try reflexivity; assumption.
Qed.
