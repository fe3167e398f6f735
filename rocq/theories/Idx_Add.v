(** Adding a record to an index whose leaf has room; keys that are there already. *)
From Verif Require Import Prelude Lists Leaf_Model Leaf_Spec Leaf_Proofs Leaf_Walk Leaf_More Idx_Model Idx_Spec Idx_Order Idx_Proofs Idx_Tree.
Ltac Zify.zify_post_hook ::= idtac.

Section add.
Variable x : ix.
Notation ps := (x_ps x).
Notation len := (x_len x).
Notation mul := (x_mul x).
Hypothesis Hlen : 0 < len < 2^15.
Hypothesis Hps : 30 < ps <= 2^16.

Lemma leaf_step f o recs recs' page p : bytes_ok f -> tok x f (Leaf o recs) -> get f o ps = Ok page -> holds x page p recs' -> step x f (put f o p) (Leaf o recs) (Leaf o recs').
Proof.
  intros Hb [T1 T2 T3 T4] HG (H1 & H2 & H3 & H4 & H5 & H6 & H7 & H8). destruct (T4 o (or_introl eq_refl)) as (O1' & O2' & O3').
  assert (HG2 : get (put f o p) o ps = Ok p) by (rewrite <- H1; apply get_put_page; lia).
  constructor; try reflexivity.
  - now apply put_bytes.
  - apply put_len; lia.
  - cbn [stored]. exists p. repeat apply conj; assumption.
  - intros off n Hn HD. apply get_put_other; try lia. rewrite H1. apply HD. now left.
  - intros o' [<-|[]]. cbn [fst]. rewrite (get_part _ _ _ _ 4 8 HG2), (get_part _ _ _ _ 4 8 HG) by lia. f_equal. exact H8.
Qed.

Lemma ok_inj {A} (u v : A) : Ok u = Ok v -> u = v. Proof. congruence. Qed.
(** ** Branches *)
Definition lastkey (t : tree) : list Z := match last (map Some (t_recs t)) None with Some (_, e) => e | None => [] end.
Lemma node_reads f o kids page : tok x f (Node o kids) -> get f o ps = Ok page ->
  Z.land (hd_field page 0 2) 2 = 0 /\ hd_field page 2 2 = zlen kids /\ zlen page = ps /\ bytes_ok page /\ 0 < zlen kids /\ 12 + (len + 8) * zlen kids <= ps /\
  forall j k, nth_error kids j = Some k -> 0 <= Z.of_nat j < zlen kids /\ t_recs k <> [] /\ rdn page (12 + (len + 8) * Z.of_nat j) len = Ok (lastkey k) /\
    exists b, rdn page (12 + Z.of_nat j * (len + 8) + len + 4) 4 = Ok b /\ le_val (rev b) * mul = t_off k.
Proof.
  intros [T1 T2 T3 T4] HG. cbn [stored keyed] in T1, T2. destruct T1 as (p & [P1 [P2 P2']] & P3 & P4 & P5 & P6 & P7 & P8). assert (p = page) by congruence. subst p. destruct T2 as [K1 K2].
  split; [rewrite flag_low; [exact P3|exact P2'|unfold zlen in *; lia]|]. split; [exact P5|]. split; [exact P2|]. split; [exact P2'|]. split; [lia|]. split; [exact P6|].
  intros j k Hj. assert (Hjl : Z.of_nat j < zlen kids) by (assert (nth_error kids j <> None) as HN by congruence; apply nth_error_Some in HN; unfold zlen; lia).
  assert (MM : (len + 8) * Z.of_nat j + (len + 8) <= (len + 8) * zlen kids) by nia. assert (0 <= (len + 8) * Z.of_nat j) by nia.
  split; [lia|]. destruct (K1 j k Hj) as (num & key & E1 & E2 & _). split; [intros E; rewrite E in E1; discriminate|]. split.
  - rewrite rdn_ok by lia. rewrite <- Z.add_assoc in E2. rewrite (get_part f o ps page) in E2 by (try exact HG; lia). rewrite E2. unfold lastkey. now rewrite E1.
  - eexists. split; [apply rdn_ok; lia|]. rewrite <- (P7 j k Hj). f_equal. f_equal. f_equal. f_equal. lia.
Qed.
Lemma find_branch_ok key page ks primary : forall i at_, (forall j e, nth_error ks j = Some e -> rdn page (at_ + (len + 8) * Z.of_nat j) len = Ok e) ->
  Forall (fun e => length e = length key) ks -> exists a b, ks = a ++ b /\ Forall (fun e => key_ltb e key = true) a /\
    match b with
    | [] => find_branch (length ks) primary len key page i at_ = Ok (i + zlen a)
    | e :: _ => (e = key /\ find_branch (length ks) primary len key page i at_ = if primary then Throw else Ok (i + zlen a)) \/
                (key_ltb key e = true /\ find_branch (length ks) primary len key page i at_ = Ok (i + zlen a))
    end.
Proof.
  induction ks as [|e ks IH]; intros i at_ HR HL.
  - exists [], []. repeat split; [constructor|]. cbn [length find_branch]. f_equal. change (zlen (@nil (list Z))) with 0. lia.
  - cbn [length find_branch]. pose proof (HR 0%nat e eq_refl) as E0. replace (at_ + (len + 8) * Z.of_nat 0) with at_ in E0 by lia. rewrite E0. cbn [rbind].
    pose proof (Forall_inv HL) as L0. cbn beta in L0. destruct (memcmp_cases key e ltac:(lia)) as [[-> M]|[[E M]|[E M]]]; rewrite M.
    + exists [], (e :: ks). repeat split; [constructor|]. left. split; [reflexivity|]. cbn [Z.eqb]. change (zlen (@nil (list Z))) with 0. rewrite Z.add_0_r. reflexivity.
    + exists [], (e :: ks). repeat split; [constructor|]. right. split; [exact E|]. cbn [Z.eqb Z.ltb Z.compare]. change (zlen (@nil (list Z))) with 0. rewrite Z.add_0_r. reflexivity.
    + cbn [Z.eqb Z.ltb Z.compare]. destruct (IH (i + 1) (at_ + len + 8)) as (a & b & E1 & E2 & E3); [|exact (Forall_inv_tail HL)|].
      { intros j e' Hj. replace (at_ + len + 8 + (len + 8) * Z.of_nat j) with (at_ + (len + 8) * Z.of_nat (S j)) by lia. now apply HR. }
      exists (e :: a), b. split; [now rewrite E1 at 1|]. split; [constructor; assumption|]. rewrite zlen_cons. replace (i + (1 + zlen a)) with (i + 1 + zlen a) by lia. exact E3.
Qed.

(** ** Leaves of parts *)
Definition full (t : tree) : Prop := Forall (fun l => snd l <> []) (t_leaves t).
Lemma keyed_full f t : keyed f len t -> t_recs t <> [] -> full t.
Proof.
  induction t as [o r|o kids IH] using tree_nested; intros HK HN.
  - repeat constructor. cbn [snd]. intros ->. now apply HN.
  - cbn [keyed] in HK. destruct HK as [K1 K2]. apply all_kids in K2. unfold full. cbn [t_leaves]. apply Forall_forall. intros l Hl. apply in_flat_map in Hl. destruct Hl as (t & Ht & Hl).
    destruct (In_nth_error _ _ Ht) as [j Hj]. destruct (K1 j t Hj) as (num & key & E1 & _). rewrite Forall_forall in IH, K2.
    assert (HF : full t) by (apply IH; [exact Ht|now apply K2|intros E; rewrite E in E1; discriminate]). unfold full in HF. rewrite Forall_forall in HF. now apply HF.
Qed.
Lemma recs_app a b : t_recs (Node 0 (a ++ b)) = t_recs (Node 0 a) ++ t_recs (Node 0 b).
Proof. unfold t_recs. cbn [t_leaves]. now rewrite flat_map_app, map_app, concat_app. Qed.
Lemma recs_node o a k b : t_recs (Node o (a ++ k :: b)) = t_recs (Node 0 a) ++ t_recs k ++ t_recs (Node 0 b).
Proof. unfold t_recs. cbn [t_leaves]. rewrite flat_map_app. cbn [flat_map]. now rewrite !map_app, !concat_app. Qed.
Lemma recs_in t l r : In l (t_leaves t) -> In r (snd l) -> In r (t_recs t).
Proof. intros H1 H2. unfold t_recs. apply in_concat. exists (snd l). split; [now apply in_map|exact H2]. Qed.
Lemma kid_in kids k r : In k kids -> In r (t_recs k) -> In r (t_recs (Node 0 kids)).
Proof.
  intros H1 H2. apply in_split in H1. destruct H1 as (a & b & ->). rewrite recs_node. apply in_or_app. right. apply in_or_app. now left.
Qed.
Lemma before_leaves key t : ss (t_recs t) -> full t -> ends_before key (t_recs t) = true -> Forall (fun l => ends_before key (snd l) = true) (t_leaves t).
Proof.
  intros HS HF HE. destruct (ends_all key _ HS HE) as [_ HA]. unfold full in HF. rewrite Forall_forall in HF, HA. apply Forall_forall. intros l Hl. apply all_ends; [now apply HF|].
  apply Forall_forall. intros r Hr. apply HA. now apply (recs_in t l).
Qed.
Lemma leaves_ne t : t_recs t <> [] -> t_leaves t <> [].
Proof. intros H E. apply H. unfold t_recs. rewrite E. reflexivity. Qed.
Lemma stop_leaf key t : full t -> t_recs t <> [] -> ends_before key (t_recs t) = false -> exists C l, t_leaves t = C ++ [l] /\ ends_before key (snd l) = false.
Proof.
  intros HF HN HE. destruct (t_leaves t) as [|l C _] eqn:EL using rev_ind; [now apply leaves_ne in HN|]. exists C, l. split; [reflexivity|].
  unfold t_recs in HE. rewrite EL, map_app, concat_app in HE. cbn [map concat] in HE. rewrite app_nil_r in HE. unfold ends_before in *. rewrite last_app_some in HE; [exact HE|].
  unfold full in HF. rewrite EL in HF. apply Forall_app in HF. destruct HF as [_ HF]. exact (Forall_inv HF).
Qed.
Lemma at_home_node key g o a k b : Forall (fun t => ss (t_recs t) /\ full t /\ ends_before key (t_recs t) = true) a -> full k -> t_recs k <> [] ->
  b = [] \/ ends_before key (t_recs k) = false ->
  at_home key g (t_leaves (Node o (a ++ k :: b))) = flat_map t_leaves a ++ at_home key g (t_leaves k) ++ flat_map t_leaves b /\ home key (t_leaves (Node o (a ++ k :: b))) = home key (t_leaves k).
Proof.
  intros HA HF HN HB. cbn [t_leaves]. rewrite flat_map_app. cbn [flat_map].
  assert (HA' : Forall (fun l => ends_before key (snd l) = true) (flat_map t_leaves a)).
  { apply Forall_forall. intros l Hl. apply in_flat_map in Hl. destruct Hl as (t & Ht & Hl). rewrite Forall_forall in HA. destruct (HA t Ht) as (A1 & A2 & A3).
    pose proof (before_leaves key t A1 A2 A3) as HB'. rewrite Forall_forall in HB'. now apply HB'. }
  assert (HNE : t_leaves k ++ flat_map t_leaves b <> []) by (intros E; apply app_eq_nil in E; destruct E as [E _]; now apply leaves_ne in HN).
  rewrite at_home_skip, home_skip by assumption. destruct HB as [-> | HE].
  - cbn [flat_map]. rewrite !app_nil_r. auto.
  - pose proof (stop_leaf key k HF HN HE) as HSt. rewrite at_home_stop, home_stop by exact HSt. auto.
Qed.

(** ** The outcome *)
Lemma outcome_last key num l : ss l -> same_len key l -> ~ In key (map snd l) ->
  (outcome key num l = O1 key num /\ last (map Some (added key num l)) None = Some (num, key)) \/
  (outcome key num l = O0 /\ last (map Some (added key num l)) None = last (map Some l) None /\ l <> []).
Proof.
  intros HS HL HN. unfold outcome. destruct (last_split l) as [[-> El]|(a & [n k] & E & El)]; rewrite El; [left; auto|].
  assert (HNE : l <> []) by (rewrite E; destruct a; discriminate).
  destruct (key_ltb k key) eqn:EK; [left; split; [reflexivity|]|right; split; [reflexivity|split; [|exact HNE]]].
  - assert (HE : ends_before key l = true) by (unfold ends_before; rewrite El; exact EK). destruct (ends_all key l HS HE) as [_ HA].
    rewrite <- (app_nil_r l). rewrite added_skip; [|eapply Forall_impl; [|exact HA]; intros y; apply ltb_asym]. cbn [added]. apply last_some.
  - rewrite E. rewrite E in HL, HN. apply Forall_app in HL. destruct HL as [_ HL]. pose proof (Forall_inv HL) as Lk. cbn [snd] in Lk.
    assert (EK2 : key_ltb key k = true) by (apply ltb_total; [exact Lk|intros ->; apply HN; rewrite map_app; apply in_or_app; right; left; reflexivity|exact EK]).
    destruct (added_split key num (a ++ [(n, k)])) as (c & d & E1 & E2 & E3 & E4). rewrite E2. destruct d as [|r d].
    + exfalso. rewrite app_nil_r in E1. rewrite <- E1 in E3. apply Forall_app in E3. destruct E3 as [_ E3]. pose proof (Forall_inv E3) as E5. cbn [snd] in E5. congruence.
    + rewrite last_app_some by discriminate. change ((num, key) :: r :: d) with ([(num, key)] ++ r :: d). rewrite last_app_some by discriminate. rewrite <- (last_app_some c (r :: d)) by discriminate.
      rewrite <- E1. apply last_some.
Qed.
Lemma outcome_node key num a k b : ss (a ++ k ++ b) -> same_len key (a ++ k ++ b) -> ~ In key (map snd (a ++ k ++ b)) -> k <> [] -> b = [] \/ ends_before key k = false ->
  outcome key num (a ++ k ++ b) = outcome key num k /\ (b <> [] -> outcome key num k = O0).
Proof.
  intros HS HL HN Hk HB. destruct b as [|r b].
  - rewrite app_nil_r. split; [|congruence]. unfold outcome. now rewrite last_app_some.
  - destruct HB as [HB|HB]; [discriminate|]. assert (Hk0 : outcome key num k = O0).
    { unfold outcome, ends_before in *. destruct (last_split k) as [[-> _]|(c & [n e] & _ & El)]; [congruence|]. rewrite El in *. now rewrite HB. }
    split; [|auto]. rewrite Hk0. unfold outcome. rewrite app_assoc, last_app_some by discriminate.
    destruct (last_split (r :: b)) as [[E _]|(c & [n e] & E & El)]; [discriminate|]. rewrite El.
    replace (key_ltb e key) with false; [reflexivity|]. symmetry.
    apply ss_app in HS. destruct HS as (_ & HS & _). apply ss_app in HS. destruct HS as (HS1 & _ & HS2). apply Forall_app in HL. destruct HL as [_ HL]. apply Forall_app in HL. destruct HL as [HL _].
    destruct (not_ends key k HS1 Hk HL HB) as (n0 & k0 & Hin & HK).
    assert (HS3 : key_ltb k0 e = true) by (apply (HS2 (n0, k0) (n, e)); [exact Hin|rewrite E; apply in_or_app; right; left; reflexivity]).
    apply ltb_asym. destruct HK as [-> | HK]; [exact HS3|eapply ltb_trans; eassumption].
Qed.

Lemma ends_last key t : t_recs t <> [] -> ends_before key (t_recs t) = key_ltb (lastkey t) key.
Proof. intros H. unfold ends_before, lastkey. destruct (last_split (t_recs t)) as [[E _]|(a & [n e] & _ & El)]; [congruence|]. now rewrite El. Qed.
Lemma lastkey_in t : t_recs t <> [] -> exists n, In (n, lastkey t) (t_recs t).
Proof. intros H. unfold lastkey. destruct (last_split (t_recs t)) as [[E _]|(a & [n e] & E & El)]; [congruence|]. rewrite El. exists n. rewrite E. apply in_or_app. right. left. reflexivity. Qed.
Lemma choose key f o kids page primary : tok x f (Node o kids) -> get f o ps = Ok page -> same_len key (t_recs (Node o kids)) ->
  exists a k b, kids = a ++ k :: b /\ Forall (fun t => ends_before key (t_recs t) = true) a /\ (b = [] \/ ends_before key (t_recs k) = false) /\
    ((lastkey k = key /\ primary = true /\ find_branch (Z.to_nat (zlen kids)) primary len key page 0 12 = Throw) \/
     exists i, find_branch (Z.to_nat (zlen kids)) primary len key page 0 12 = Ok i /\ (if i =? zlen kids then i - 1 else i) = zlen a).
Proof.
  intros HT HG HL. destruct (node_reads f o kids page HT HG) as (_ & _ & _ & _ & R5 & _ & R7).
  assert (HNE : forall k, In k kids -> t_recs k <> []) by (intros k Hk; destruct (In_nth_error _ _ Hk) as [j Hj]; apply (R7 j k Hj)).
  destruct (find_branch_ok key page (map lastkey kids) primary 0 12) as (a & b & E1 & E2 & E3).
  { intros j e Hj. rewrite nth_error_map in Hj. destruct (nth_error kids j) as [k|] eqn:Ek; [|discriminate]. cbn [option_map] in Hj. injection Hj as <-. apply (R7 j k Ek). }
  { apply Forall_forall. intros e He. apply in_map_iff in He. destruct He as (k & <- & Hk). destruct (lastkey_in k (HNE k Hk)) as [n Hn].
    unfold same_len in HL. rewrite Forall_forall in HL. apply (HL (n, lastkey k)). apply (kid_in kids k); assumption. }
  rewrite map_length in E3. replace (Z.to_nat (zlen kids)) with (length kids) by (unfold zlen; lia).
  assert (E1' := E1). apply map_eq_app in E1'. destruct E1' as (a' & b' & -> & <- & <-).
  assert (HA : Forall (fun t => ends_before key (t_recs t) = true) a').
  { apply Forall_forall. intros t Ht. rewrite ends_last by (apply HNE, in_or_app; now left). rewrite Forall_forall in E2. apply E2. now apply in_map. }
  assert (HZ : zlen (map lastkey a') = zlen a') by (unfold zlen; now rewrite map_length). rewrite HZ, Z.add_0_l in E3.
  destruct b' as [|k b'].
  - cbn [map] in E3. rewrite app_nil_r in *. destruct a' as [|k a' _] using rev_ind; [exfalso; change (zlen (@nil tree)) with 0 in R5; lia|]. apply Forall_app in HA. destruct HA as [HA _].
    exists a', k, []. split; [reflexivity|]. split; [exact HA|]. split; [now left|]. right. exists (zlen (a' ++ [k])). split; [exact E3|]. rewrite Z.eqb_refl, zlen_app, zlen_cons. change (zlen (@nil tree)) with 0. lia.
  - cbn [map] in E3. exists a', k, b'. split; [reflexivity|]. split; [exact HA|]. rewrite ends_last by (apply HNE, in_or_app; right; now left).
    assert (Hlt : (zlen a' =? zlen (a' ++ k :: b')) = false) by (apply Z.eqb_neq; rewrite zlen_app, zlen_cons; pose proof (zlen_nonneg b'); lia).
    destruct E3 as [[E E3]|[E E3]].
    + split; [right; rewrite E; apply ltb_irrefl|]. destruct primary; [left; auto|]. right. exists (zlen a'). split; [exact E3|]. now rewrite Hlt.
    + split; [right; now apply ltb_asym|]. right. exists (zlen a'). split; [exact E3|]. now rewrite Hlt.
Qed.

Lemma tok_page f t : tok x f t -> exists page, get f (t_off t) ps = Ok page /\ zlen page = ps /\ bytes_ok page.
Proof. intros [T1 _ _ _]. destruct t; cbn [stored t_off] in *; destruct T1 as (p & [P1 [P2 P3]] & _); exists p; auto. Qed.
Lemma ss_kids a k b : ss (t_recs (Node 0 a) ++ t_recs k ++ t_recs (Node 0 b)) -> Forall (fun t => ss (t_recs t)) a /\ ss (t_recs k) /\ Forall (fun t => ss (t_recs t)) b.
Proof.
  assert (HH : forall l, ss (t_recs (Node 0 l)) -> Forall (fun t => ss (t_recs t)) l).
  { induction l as [|t l IH]; intros H; [constructor|]. change (t :: l) with ([t] ++ l) in H. rewrite recs_app in H. apply ss_app in H. destruct H as (H1 & H2 & _). constructor; [|now apply IH].
    change [t] with ([] ++ t :: []) in H1. rewrite recs_node in H1. apply ss_app in H1. destruct H1 as (_ & H1 & _). apply ss_app in H1. apply H1. }
  intros H. apply ss_app in H. destruct H as (H1 & H2 & _). apply ss_app in H2. destruct H2 as (H2 & H3 & _). auto.
Qed.
Lemma height_kid o a k b fuel : (height (Node o (a ++ k :: b)) < S fuel)%nat -> (height k < fuel)%nat.
Proof. cbn [height]. rewrite map_app. cbn [map]. rewrite fold_right_app. cbn [fold_right]. induction (map height a) as [|h l IH]; cbn [fold_right]; [lia|]. intros H. apply IH. lia. Qed.

Theorem write_rec_ok junk key num : rec_ok len (num, key) -> forall fuel f t, (height t < fuel)%nat -> bytes_ok f -> tok x f t ->
  ss (t_recs t) -> Forall (rec_ok len) (t_recs t) -> ~ In key (map snd (t_recs t)) -> fits x (zlen (home key (t_leaves t)) + 1) ->
  exists f' t', write_rec fuel x junk f (t_off t) key num = Ok (f', outcome key num (t_recs t)) /\ step x f f' t t' /\ t_leaves t' = at_home key (added key num) (t_leaves t).
Proof.
  intros Hrec. induction fuel as [|fuel IH]; intros f t Hh Hb HT HS HR HN Hfit; [lia|].
  destruct (tok_page f t HT) as (page & HG & ZP & BP). cbn [write_rec]. rewrite HG. cbn [rbind]. pose proof (rec_same_len _ _ _ _ Hrec HR) as HSL.
  destruct t as [o r|o kids]; cbn [t_off] in *.
  - assert (ER : t_recs (Leaf o r) = r) by (unfold t_recs; cbn [t_leaves map concat snd]; apply app_nil_r). rewrite ER in *.
    destruct HT as [T1 T2 T3 T4]. pose proof T1 as T1'. cbn [stored] in T1'. destruct T1' as (p & [P1 _] & HU & _). assert (p = page) by congruence. subst p.
    pose proof (leaf_flag _ _ _ _ (proj1 Hlen) HU) as HF. destruct (Z.eqb_spec (Z.land (hd_field page 0 2) 2) 0); [contradiction|]. cbn [negb].
    cbn [t_leaves home] in Hfit. destruct (write_leaf_ok x junk f o page key num r Hlen Hps ZP BP HU HR (ss_sorted _ HS) Hrec HN Hfit) as (p & EW & HH). rewrite EW.
    exists (put f o p), (Leaf o (added key num r)). split; [reflexivity|]. split; [|reflexivity]. apply (leaf_step f o r _ page); auto. constructor; assumption.
  - destruct (node_reads f o kids page HT HG) as (R1 & R2 & R3 & R4 & R5 & R6 & R7). rewrite R1. cbn [Z.eqb negb]. rewrite R2.
    destruct (choose key f o kids page (x_primary x) HT HG HSL) as (a & k & b & -> & HA & HB & HC).
    assert (Hnk : nth_error (a ++ k :: b) (length a) = Some k) by (rewrite nth_error_app2, Nat.sub_diag by lia; reflexivity).
    destruct (R7 (length a) k Hnk) as (J1 & J2 & J3 & bb & J4 & J5). rewrite recs_node in *.
    pose proof (ss_kids a k b HS) as (SA & SK & SB).
    assert (HKN : ~ In key (map snd (t_recs k))) by (intros Hi; apply HN; rewrite !map_app; apply in_or_app; right; apply in_or_app; now left).
    destruct HC as [(E & _ & _)|(i & EI & Ei)].
    { exfalso. destruct (lastkey_in k J2) as [n Hn]. rewrite E in Hn. apply HKN. apply in_map_iff. exists (n, key). auto. }
    rewrite EI. cbn [rbind]. rewrite Ei. replace (12 + zlen a * (len + 8) + len + 4) with (12 + Z.of_nat (length a) * (len + 8) + len + 4) by (unfold zlen; lia). rewrite J4. cbn [rbind]. rewrite J5.
    pose proof (tok_kid x f o a k b HT) as HTk.
    assert (HF : Forall full (a ++ k :: b)).
    { destruct HT as [_ T2 _ _]. cbn [keyed] in T2. destruct T2 as [_ T2]. apply all_kids in T2. apply Forall_forall. intros t Ht. rewrite Forall_forall in T2. apply (keyed_full f); [now apply T2|].
      destruct (In_nth_error _ _ Ht) as [j Hj]. apply (R7 j t Hj). }
    apply Forall_app in HF. destruct HF as [HFa HFk]. pose proof (Forall_inv HFk) as HFk'.
    destruct (at_home_node key (added key num) o a k b) as [AH1 AH2]; [|exact HFk'|exact J2|exact HB|].
    { apply Forall_forall. intros t Ht. rewrite Forall_forall in HA, SA, HFa. split; [now apply SA|split; [now apply HFa|now apply HA]]. }
    rewrite AH2 in Hfit. apply Forall_app in HR. destruct HR as [HRa HR]. apply Forall_app in HR. destruct HR as [HRk HRb].
    destruct (IH f k (height_kid o a k b fuel Hh) Hb HTk SK HRk HKN Hfit) as (f1 & k' & EW & HSt & HLv). rewrite EW. cbn [rbind].
    assert (HBR : t_recs (Node 0 b) = [] \/ ends_before key (t_recs k) = false) by (destruct HB as [-> | HB]; [left; reflexivity|right; exact HB]).
    destruct (outcome_node key num _ _ _ HS HSL HN J2 HBR) as [ON1 ON2]. rewrite ON1.
    pose proof (rec_same_len _ _ _ _ Hrec HRk) as HSLk.
    assert (HRk' : t_recs k' = added key num (t_recs k)).
    { unfold t_recs at 1. rewrite HLv. apply (at_home_added key num); auto. now apply leaves_ne. }
    assert (HLv' : t_leaves (Node o (a ++ k' :: b)) = at_home key (added key num) (t_leaves (Node o (a ++ k :: b)))).
    { rewrite AH1. cbn [t_leaves]. rewrite flat_map_app. cbn [flat_map]. now rewrite HLv. }
    pose proof (zlen_nonneg a) as Ha0. pose proof (zlen_nonneg b) as Hb0. rewrite zlen_app, zlen_cons in R6.
    assert (HAT : 0 <= zlen a * (len + 8) /\ 12 + zlen a * (len + 8) + len + 8 <= ps) by nia.
    destruct (outcome_last key num (t_recs k) SK HSLk HKN) as [[EO EL]|(EO & EL & _)]; rewrite EO.
    + (* the last record is the new one *)
      assert (HB0 : b = []).
      { destruct b as [|b0 b']; [reflexivity|exfalso]. assert (HX0 : t_recs b0 <> []) by (apply (R7 (S (length a)) b0); rewrite nth_error_app2 by lia; replace (S (length a) - length a)%nat with 1%nat by lia; reflexivity).
        assert (HX : outcome key num (t_recs k) = O0); [|rewrite EO in HX; discriminate]. apply ON2. change (b0 :: b') with ([] ++ b0 :: b'). rewrite recs_node. intros HX1. apply app_eq_nil in HX1. destruct HX1 as [_ HX1]. apply app_eq_nil in HX1. tauto. }
      subst b.
      destruct Hrec as (Rn & Rk & Rb). cbn [fst snd] in *. assert (Zb : zlen (be4 num) = 4) by (unfold be4, zlen; now rewrite rev_length, le_bytes_length).
      rewrite wrn_in by lia. cbn [rbind]. set (p1 := splice page _ key).
      assert (L1 : zlen p1 = ps) by (unfold p1; rewrite zlen_splice; [exact ZP|unfold zlen in *; lia]).
      rewrite wrn_in by lia. cbn [rbind]. set (p2 := splice p1 _ (be4 num)).
      assert (L2 : zlen p2 = ps) by (unfold p2; rewrite zlen_splice; [exact L1|unfold zlen in *; lia]).
      exists (put f1 o p2), (Node o (a ++ [k'])). rewrite zlen_app, zlen_cons. change (zlen (@nil tree)) with 0. replace (zlen a =? zlen a + (1 + 0) - 1) with true by (symmetry; apply Z.eqb_eq; lia).
      split; [reflexivity|]. split; [|exact HLv'].
      apply (node_step x Hlen Hps f f1 (put f1 o p2) o a k k' [] page p2 num key); auto.
      * apply bytes_ok_splice; [apply bytes_ok_splice; assumption|]. unfold be4. apply Forall_rev. apply le_bytes_ok.
      * intros c n HD. unfold p2. rewrite sub_splice_other by (unfold zlen in *; lia). unfold p1. rewrite sub_splice_other by (unfold zlen in *; lia). reflexivity.
      * rewrite HRk'. exact EL.
      * unfold p2. rewrite sub_splice_other by (unfold zlen in *; lia). unfold p1. replace (Z.to_nat len) with (length key) by (unfold zlen in *; lia). apply sub_splice_same. unfold zlen in *. lia.
      * unfold p2. replace 4%nat with (length (be4 num)) by (unfold zlen in Zb; lia). apply sub_splice_same. unfold zlen in *. lia.
    + exists f1, (Node o (a ++ k' :: b)). split; [reflexivity|]. split; [|exact HLv'].
      destruct HT as [T1 T2 T3 T4]. pose proof T2 as T2'. cbn [keyed] in T2'. destruct T2' as [K1 _]. destruct (K1 (length a) k Hnk) as (n0 & k0 & E1 & E2 & E3).
      rewrite <- !Z.add_assoc in E2. rewrite <- !Z.add_assoc in E3. rewrite (get_part f o ps page) in E2 by (try exact HG; unfold zlen in *; lia). rewrite (get_part f o ps page) in E3 by (try exact HG; unfold zlen in *; lia).
      apply ok_inj in E2. apply ok_inj in E3.
      apply (node_step x Hlen Hps f f1 f1 o a k k' b page page n0 k0); auto.
      * constructor; assumption.
      * rewrite HRk', EL. exact E1.
      * rewrite <- E2. unfold zlen. do 2 f_equal. ring.
      * unfold be4. rewrite <- E3. unfold zlen. do 2 f_equal. ring.
Qed.
End add.
