(** Proofs about the trees that the graphical program shows. *)
From Coq Require Import FinFun.
From Verif Require Import Prelude Lists Text_Model Tree_Model Stream_Model Cf_Model Gui_Model Gui_Spec Gui_Proofs.
Ltac Zify.zify_post_hook ::= idtac.

Definition gop {A} (P : A -> list (list nat)) := fix go (i : nat) (l : list A) : list (list nat) :=
  match l with [] => [] | k :: r => ([i] :: map (cons i) (P k)) ++ go (S i) r end.
Lemma fm_gop {A B} (P : A -> list (list nat)) (G : list nat -> B) (F : nat -> list B) : forall l i,
  (forall j k, nth_error l j = Some k -> F (i + j)%nat = map G ([(i + j)%nat] :: map (cons (i + j)%nat) (P k))) -> flat_map F (seq i (length l)) = map G (gop P i l).
Proof.
  induction l as [|k l IH]; intros i H; [reflexivity|]. cbn [length seq flat_map]. change (gop P i (k :: l)) with (([i] :: map (cons i) (P k)) ++ gop P (S i) l). rewrite map_app. f_equal.
  - specialize (H O k eq_refl). rewrite Nat.add_0_r in H. exact H.
  - apply IH. intros j k' E. specialize (H (S j) k' E). rewrite Nat.add_succ_r in H. exact H.
Qed.
Lemma gop_in {A} (P : A -> list (list nat)) : forall l i q, In q (gop P i l) <-> exists j k s, nth_error l j = Some k /\ q = (i + j)%nat :: s /\ (s = [] \/ In s (P k)).
Proof.
  induction l as [|k l IH]; intros i q.
  - split; [intros []|intros (j & k & s & E & _)]. destruct j; discriminate.
  - change (gop P i (k :: l)) with (([i] :: map (cons i) (P k)) ++ gop P (S i) l). rewrite in_app_iff, IH. split.
    + intros [[<-|H]|(j & k' & s & E & -> & D)].
      * exists O, k, []. rewrite Nat.add_0_r. split; [reflexivity|]. split; [reflexivity|]. left. reflexivity.
      * apply in_map_iff in H. destruct H as (s & <- & H). exists O, k, s. rewrite Nat.add_0_r. split; [reflexivity|]. split; [reflexivity|]. right. exact H.
      * exists (S j), k', s. split; [exact E|]. split; [f_equal; lia|exact D].
    + intros (j & k' & s & E & -> & D). destruct j as [|j].
      * injection E as <-. left. rewrite Nat.add_0_r. destruct D as [->|D]; [left; reflexivity|right; apply in_map; exact D].
      * right. exists j, k', s. split; [exact E|]. split; [f_equal; lia|exact D].
Qed.
Lemma gop_nodup {A} (P : A -> list (list nat)) : forall l i, (forall k, In k l -> NoDup (P k) /\ ~ In [] (P k)) -> NoDup (gop P i l).
Proof.
  induction l as [|k l IH]; intros i H; [constructor|]. change (gop P i (k :: l)) with (([i] :: map (cons i) (P k)) ++ gop P (S i) l).
  destruct (H k (or_introl eq_refl)) as [N E]. cbn [app]. constructor.
  - rewrite in_app_iff. intros [K|K].
    + apply in_map_iff in K. destruct K as (s & Es & K). injection Es as ->. exact (E K).
    + apply gop_in in K. destruct K as (j & k' & s & _ & Q & _). injection Q as Q _. lia.
  - assert (NoDup (map (cons i) (P k))) as N2 by (apply FinFun.Injective_map_NoDup; [intros a b Eab; injection Eab as ->; reflexivity|exact N]).
    assert (NoDup (gop P (S i) l)) as N3 by (apply IH; intros k' K'; exact (H k' (or_intror K'))).
    assert (forall q, In q (map (cons i) (P k)) -> ~ In q (gop P (S i) l)) as DJ.
    { intros q Q1 Q2. apply in_map_iff in Q1. destruct Q1 as (s & <- & _). apply gop_in in Q2. destruct Q2 as (j & k' & s' & _ & Q & _). injection Q as Q _. lia. }
    clear -N2 N3 DJ. induction (map (cons i) (P k)) as [|x m IHm]; [exact N3|]. cbn [app]. inversion N2; subst. constructor.
    + rewrite in_app_iff. intros [K|K]; [contradiction|exact (DJ x (or_introl eq_refl) K)].
    + apply IHm; [assumption|]. intros q Q. apply DJ. right. exact Q.
Qed.

(** ** The tree of a text *)
Fixpoint height (t : tree) : nat := match t with Node _ _ l => S ((fix go l := match l with [] => O | k :: r => Nat.max (height k) (go r) end) l) end.
Lemma height_kid t k : In k (kids_of t) -> (height k < height t)%nat.
Proof.
  destruct t as [v ty l]. cbn [kids_of height]. induction l as [|x l IH]; [intros []|]. intros [->|H]; [lia|]. specialize (IH H). lia.
Qed.
Lemma tree_rect2 (Q : tree -> Prop) : (forall t, (forall k, In k (kids_of t) -> Q k) -> Q t) -> forall t, Q t.
Proof.
  intros H t. remember (height t) as n eqn:E. assert (height t <= n)%nat as L by lia. clear E. revert t L.
  induction n as [|n IH]; intros t L; [destruct t; cbn [height] in L; lia|]. apply H. intros k K. apply IH. pose proof (height_kid t k K). lia.
Qed.
Lemma places_eq t : places t = gop places 0 (kids_of t). Proof. destruct t. reflexivity. Qed.
Lemma places_ne t : ~ In [] (places t).
Proof. rewrite places_eq. intros H. apply gop_in in H. destruct H as (j & k & s & _ & E & _). discriminate. Qed.
Lemma places_nodup : forall t, NoDup (places t).
Proof. apply tree_rect2. intros t H. rewrite places_eq. apply gop_nodup. intros k K. split; [exact (H k K)|apply places_ne]. Qed.
Lemma at_app : forall p t q, at_ t (p ++ q) = match at_ t p with Some n => at_ n q | None => None end.
Proof. induction p as [|i p IH]; intros t q; cbn [app at_]; [reflexivity|]. destruct (nth_error (kids_of t) i); [apply IH|reflexivity]. Qed.
Lemma places_at : forall t p, In p (places t) <-> p <> [] /\ at_ t p <> None.
Proof.
  apply (tree_rect2 (fun t => forall p, In p (places t) <-> p <> [] /\ at_ t p <> None)). intros t H p. rewrite places_eq, gop_in. split.
  - intros (j & k & s & E & -> & D). split; [discriminate|]. cbn [at_]. cbn [Nat.add]. rewrite E. destruct D as [->|D]; [discriminate|]. apply (H k (nth_error_In _ _ E)) in D. apply D.
  - intros [N A]. destruct p as [|j s]; [contradiction|]. cbn [at_] in A. destruct (nth_error (kids_of t) j) as [k|] eqn:E; [|contradiction]. exists j, k, s. split; [exact E|]. split; [reflexivity|].
    destruct s as [|a s]; [left; reflexivity|right]. apply (H k (nth_error_In _ _ E)). split; [discriminate|exact A].
Qed.
Definition row_of (p : list nat) : index := match p with [] => None | _ => Some (Z.of_nat (last p O), 0, p) end.
Lemma ptr_row p : ptr (row_of p) = p. Proof. destruct p; reflexivity. Qed.
Lemma row_app p i : row_of (p ++ [i]) = Some (Z.of_nat i, 0, p ++ [i]).
Proof. unfold row_of. rewrite last_last. destruct (p ++ [i]) eqn:E; [destruct p; discriminate|reflexivity]. Qed.
Lemma rowCount_row t p : rowCount t (row_of p) = subnodes t p. Proof. destruct p; reflexivity. Qed.
Lemma index_ok t p r c : 0 <= r < subnodes t p -> 0 <= c < 2 -> index_at t r c (row_of p) = Some (r, c, p ++ [Z.to_nat r]).
Proof.
  intros R C. unfold index_at, hasIndex, columnCount, get_subnode. rewrite rowCount_row, ptr_row.
  replace ((0 <=? r) && (r <? subnodes t p) && (0 <=? c) && (c <? 2)) with true by lia.
  replace (subnodes t p <=? r) with false by lia. reflexivity.
Qed.
Lemma index_out t r c x : ~ (0 <= r < rowCount t x /\ 0 <= c < 2) -> index_at t r c x = None.
Proof. intros H. unfold index_at, hasIndex, columnCount. replace (_ && _) with false by lia. reflexivity. Qed.
Lemma screen_row t x : on_screen t x -> exists p, x = row_of p /\ at_ t p <> None.
Proof.
  induction 1 as [|x r S (p & -> & A) R]; [exists []; split; [reflexivity|discriminate]|].
  rewrite rowCount_row in R. exists (p ++ [Z.to_nat r]). rewrite row_app, Z2Nat.id by lia. rewrite index_ok by lia. split; [reflexivity|].
  rewrite at_app. unfold subnodes in R. destruct (at_ t p) as [n|]; [|contradiction]. cbn [at_]. destruct (nth_error (kids_of n) (Z.to_nat r)) eqn:E; [discriminate|].
  apply nth_error_None in E. unfold zlen in R. lia.
Qed.
Lemma find_row_ok : forall n p i j, (i <= j)%nat -> (j < i + n)%nat -> find_row n p (p ++ [j]) i = Z.of_nat j.
Proof.
  induction n as [|n IH]; intros p i j H1 H2; [lia|]. cbn [find_row]. destruct (list_eq_dec Nat.eq_dec (p ++ [i]) (p ++ [j])) as [E|E].
  - apply app_inv_head in E. injection E as ->. reflexivity.
  - apply IH; [|lia]. destruct (Nat.eq_dec i j) as [->|]; [contradiction|lia].
Qed.
Lemma parent_ok t p r c : at_ t p <> None -> parent_of t (Some (r, c, p ++ [Z.to_nat r])) = row_of p.
Proof.
  intros A. unfold parent_of. rewrite removelast_last. destruct (p ++ [Z.to_nat r]) as [|x0 l0] eqn:E; [destruct p; discriminate|]. clear E.
  destruct p as [|a p'] using rev_ind; [reflexivity|]. rewrite removelast_last, row_app.
  destruct (p' ++ [a]) as [|x1 l1] eqn:E; [destruct p'; discriminate|]. rewrite <- E in *. clear E.
  rewrite at_app in A. f_equal. f_equal. f_equal. apply find_row_ok; [lia|]. unfold subnodes. destruct (at_ t p') as [n|]; [|contradiction].
  cbn [at_] in A. destruct (nth_error (kids_of n) a) eqn:E; [|contradiction]. assert (a < length (kids_of n))%nat by (apply nth_error_Some; congruence). unfold zlen. lia.
Qed.
Lemma screen_ok t x r c : on_screen t x -> 0 <= r < rowCount t x -> 0 <= c < 2 ->
  exists p, index_at t r c x = Some (r, c, p) /\ In p (places t) /\ parent_of t (index_at t r c x) = x.
Proof.
  intros S R C. destruct (screen_row t x S) as (p & -> & A). rewrite rowCount_row in R. exists (p ++ [Z.to_nat r]). rewrite index_ok by lia. split; [reflexivity|]. split.
  - apply places_at. split; [intros E; destruct (app_eq_nil _ _ E); discriminate|]. rewrite at_app. unfold subnodes in R. destruct (at_ t p) as [n|]; [|contradiction]. cbn [at_].
    destruct (nth_error (kids_of n) (Z.to_nat r)) eqn:E; [discriminate|]. apply nth_error_None in E. unfold zlen in R. lia.
  - apply parent_ok. exact A.
Qed.
Lemma expand_ok t : forall k n p, at_ t p = Some n -> (height n <= k)%nat -> expand k t (row_of p) = map (fun q => row_of (p ++ q)) (places n).
Proof.
  induction k as [|k IH]; intros n p A H; [destruct n; cbn [height] in H; lia|]. cbn [expand]. rewrite rowCount_row, places_eq. unfold subnodes. rewrite A. unfold zlen. rewrite Nat2Z.id.
  apply fm_gop. intros j c E. cbn [Nat.add]. assert (j < length (kids_of n))%nat as L by (apply nth_error_Some; congruence).
  assert (index_at t (Z.of_nat j) 0 (row_of p) = row_of (p ++ [j])) as ->.
  { rewrite index_ok; [rewrite row_app, Nat2Z.id; reflexivity| |lia]. unfold subnodes. rewrite A. unfold zlen. lia. }
  cbn zeta. cbn [map]. f_equal.
  rewrite (IH c); [|rewrite at_app, A; cbn [at_]; rewrite E; reflexivity|pose proof (height_kid n c (nth_error_In _ _ E)); lia].
  rewrite map_map. apply map_ext. intros q. rewrite <- app_assoc. reflexivity.
Qed.
Lemma expand_all t : exists n, forall k, (n <= k)%nat -> map ptr (expand k t None) = places t /\ Forall (fun x => x <> None) (expand k t None).
Proof.
  exists (height t). intros k K. pose proof (expand_ok t k t [] eq_refl K) as E. cbn [row_of] in E. rewrite E. split.
  - rewrite map_map. rewrite <- (map_id (places t)) at 2. apply map_ext. intros q. apply ptr_row.
  - apply Forall_forall. intros x X. apply in_map_iff in X. destruct X as (q & <- & Q). pose proof (places_ne t). destruct q; [contradiction|discriminate].
Qed.
(** the text of a place *)
Lemma narrow_kid t k : narrow t -> In k (kids_of t) -> narrow k.
Proof. destruct t as [v ty l]. cbn [narrow kids_of]. intros [_ H]. induction l as [|x l IH]; [intros []|]. destruct H as [H1 H2]. intros [->|K]; [exact H1|exact (IH H2 K)]. Qed.
Lemma narrow_len t : narrow t -> zlen (kids_of t) < 2^31. Proof. destruct t. intros [H _]. exact H. Qed.
Lemma places_small : forall t p, narrow t -> In p (places t) -> Forall (fun i => Z.of_nat i < 2^31) p.
Proof.
  apply (tree_rect2 (fun t => forall p, narrow t -> In p (places t) -> Forall (fun i => Z.of_nat i < 2^31) p)). intros t H p N P. rewrite places_eq in P. apply gop_in in P. destruct P as (j & k & s & E & -> & D).
  assert (j < length (kids_of t))%nat by (apply nth_error_Some; congruence). pose proof (narrow_len t N) as L. unfold zlen in L. constructor; [lia|].
  destruct D as [->|D]; [constructor|]. exact (H k (nth_error_In _ _ E) s (narrow_kid t k N (nth_error_In _ _ E)) D).
Qed.
Lemma number_inj n m : 0 <= n < 2^31 -> 0 <= m < 2^31 -> forall s s', number 11 n ++ s = number 11 m ++ s' -> (s = [] \/ exists r, s = 58 :: r) -> (s' = [] \/ exists r, s' = 58 :: r) -> n = m /\ s = s'.
Proof.
  intros N M s s' E S S'. destruct (number_ok 11 n ltac:(lia) ltac:(lia)) as [[_ Fn] Vn]. destruct (number_ok 11 m ltac:(lia) ltac:(lia)) as [[_ Fm] Vm].
  revert E Fn Fm Vn Vm. generalize (number 11 n) (number 11 m). intros a b E Fa Fb Va Vb.
  assert (a = b /\ s = s') as [-> ->]; [|split; [congruence|reflexivity]].
  clear Va Vb. revert b E Fb. induction a as [|x a IH]; intros b E Fb.
  - destruct b as [|y b]; [split; [reflexivity|exact E]|]. exfalso. inversion Fb; subst. destruct S as [->|[r ->]]; [discriminate|]. injection E as <- _. lia.
  - inversion Fa; subst. destruct b as [|y b].
    + exfalso. destruct S' as [->|[r ->]]; [discriminate|]. injection E as -> _. lia.
    + injection E as -> E. inversion Fb; subst. destruct (IH ltac:(assumption) b E ltac:(assumption)) as [-> ->]. split; reflexivity.
Qed.
Lemma path_start p : path_text p = [] \/ exists r, path_text p = 58 :: r. Proof. destruct p; [left; reflexivity|right; eexists; reflexivity]. Qed.
Lemma path_cons i p : path_text (i :: p) = 58 :: (number 11 (Z.of_nat i) ++ path_text p). Proof. reflexivity. Qed.
Lemma path_inj : forall p q, Forall (fun i => Z.of_nat i < 2^31) p -> Forall (fun i => Z.of_nat i < 2^31) q -> path_text p = path_text q -> p = q.
Proof.
  induction p as [|i p IH]; intros q Fp Fq E; destruct q as [|j q]; [reflexivity|discriminate|discriminate|].
  inversion Fp as [|? ? Hi Fp']; subst. inversion Fq as [|? ? Hj Fq']; subst. rewrite !path_cons in E.
  assert (number 11 (Z.of_nat i) ++ path_text p = number 11 (Z.of_nat j) ++ path_text q) as E2 by congruence. clear E.
  assert (0 <= Z.of_nat i < 2^31) as Bi by (clear -Hi; lia). assert (0 <= Z.of_nat j < 2^31) as Bj by (clear -Hj; lia).
  destruct (number_inj _ _ Bi Bj _ _ E2 (path_start p) (path_start q)) as [Eij Er]. apply Nat2Z.inj in Eij. rewrite Eij. f_equal. apply IH; assumption.
Qed.
Lemma paths_nodup t : narrow t -> NoDup (map path_text (places t)).
Proof.
  intros N. pose proof (places_nodup t) as ND. pose proof (fun p => places_small t p N) as F. revert F. induction (places t) as [|p l IH]; intros F; [constructor|]. cbn [map]. inversion ND; subst. constructor.
  - intros K. apply in_map_iff in K. destruct K as (q & E & Q). apply path_inj in E; [subst; contradiction|apply F; right; exact Q|apply F; left; reflexivity].
  - apply IH; [assumption|]. intros q Q. apply F. right. exact Q.
Qed.

(** ** The tree of a container *)
Definition inner_ (e : elem) : list elem := match e_inner e with Some l => l | None => [] end.
Fixpoint eheight (e : elem) : nat := match e with Elem _ k => match k with None => 1%nat | Some l => S ((fix go l := match l with [] => O | k :: r => Nat.max (eheight k) (go r) end) l) end end.
Lemma eheight_kid e k : In k (inner_ e) -> (eheight k < eheight e)%nat.
Proof. destruct e as [n [l|]]; [|intros []]. cbn [inner_ e_inner eheight]. induction l as [|x l IH]; [intros []|]. intros [->|H]; [lia|]. specialize (IH H). lia. Qed.
Lemma eplaces_eq e : elem_places e = gop elem_places 0 (inner_ e). Proof. destruct e as [n [l|]]; reflexivity. Qed.
Lemma map_size_full low : forall l seen, NoDup (map (fun e => low (e_name e)) l) -> (forall e, In e l -> ~ In (low (e_name e)) seen) -> map_size low seen l = length l.
Proof.
  induction l as [|e l IH]; intros seen N D; [reflexivity|]. cbn [map_size length map] in *. inversion N; subst. destruct (in_dec _ _ seen) as [K|K]; [exfalso; exact (D e (or_introl eq_refl) K)|]. f_equal.
  apply IH; [assumption|]. intros x X [K2|K2]; [|exact (D x (or_intror X) K2)]. apply H1. rewrite K2. apply in_map_iff. exists x. split; [reflexivity|exact X].
Qed.
Lemma map_size_le low : forall l seen, (map_size low seen l <= length l)%nat.
Proof. induction l as [|e l IH]; intros seen; cbn [map_size length]; [lia|]. destruct (in_dec _ _ seen); [specialize (IH seen)|specialize (IH (low (e_name e) :: seen))]; lia. Qed.
Lemma map_size_less low : forall l seen, (~ NoDup (map (fun e => low (e_name e)) l) \/ exists e, In e l /\ In (low (e_name e)) seen) -> (map_size low seen l < length l)%nat.
Proof.
  induction l as [|e l IH]; intros seen H; [destruct H as [H|(e & [] & _)]; exfalso; apply H; constructor|]. cbn [map_size length].
  pose proof (map_size_le low l seen). destruct (in_dec (list_eq_dec Z.eq_dec) (low (e_name e)) seen) as [K|K]; [lia|]. apply -> Nat.succ_lt_mono. apply IH.
  destruct (in_dec (list_eq_dec Z.eq_dec) (low (e_name e)) (map (fun e => low (e_name e)) l)) as [J|J].
  - right. apply in_map_iff in J. destruct J as (x & E & X). exists x. split; [exact X|]. left. symmetry. exact E.
  - destruct H as [H|(x & [->|X] & E)].
    + left. intros N. apply H. cbn [map]. constructor; assumption.
    + contradiction.
    + right. exists x. split; [exact X|right; exact E].
Qed.
Lemma below_app : forall p l q, below l (p ++ q) = match below l p with Some k => below k q | None => None end.
Proof. induction p as [|i p IH]; intros l q; cbn [app below]; [reflexivity|]. destruct (nth_error l i) as [e|]; [|reflexivity]. destruct (e_inner e); [apply IH|reflexivity]. Qed.
Definition crow (p : list nat) : cindex := match p with [] => Some (0, None) | _ => Some (Z.of_nat (last p O), Some p) end.
Lemma crow_app p i : crow (p ++ [i]) = Some (Z.of_nat i, Some (p ++ [i])).
Proof. unfold crow. rewrite last_last. destruct (p ++ [i]) eqn:E; [destruct p; discriminate|reflexivity]. Qed.
Lemma crows_row low root p : crows low root (crow p) = match below root p with Some k => Z.of_nat (map_size low [] k) | None => 0 end. Proof. destruct p; reflexivity. Qed.
Lemma cindex_ok low root p r k : below root p = Some k -> 0 <= r < Z.of_nat (map_size low [] k) -> cindex_at low root r (crow p) = crow (p ++ [Z.to_nat r]).
Proof.
  intros B R. unfold cindex_at. rewrite crows_row, B. replace ((0 <=? r) && (r <? Z.of_nat (map_size low [] k))) with true by lia. rewrite crow_app, Z2Nat.id by lia.
  pose proof (map_size_le low k []). destruct (nth_error k (Z.to_nat r)) eqn:E; [|apply nth_error_None in E; lia].
  destruct p as [|a p]; cbn [crow path_of] in *; rewrite B, E; reflexivity.
Qed.
Lemma cscreen low root x : con_screen low root x -> x = None \/ exists p, x = crow p /\ (p = [] \/ exists q i k, p = q ++ [i] /\ below root q = Some k /\ (i < length k)%nat).
Proof.
  induction 1 as [|x r S IH R]; [left; reflexivity|right]. destruct IH as [->|(p & -> & D)].
  - exists []. split; [|left; reflexivity]. unfold cindex_at. cbn [crows] in *. replace ((0 <=? r) && (r <? 1)) with true by lia. replace r with 0 by lia. reflexivity.
  - rewrite crows_row in R. destruct (below root p) as [k|] eqn:B; [|lia]. exists (p ++ [Z.to_nat r]). rewrite (cindex_ok low root p r k B R). split; [reflexivity|right].
    exists p, (Z.to_nat r), k. split; [reflexivity|]. split; [exact B|]. pose proof (map_size_le low k []). lia.
Qed.
Lemma cparent_ok low root x r : con_screen low root x -> 0 <= r < crows low root x -> cindex_at low root r x <> None /\ cparent root (cindex_at low root r x) = x.
Proof.
  intros S R. destruct (cscreen low root x S) as [->|(p & -> & D)].
  - unfold cindex_at. cbn [crows] in *. replace ((0 <=? r) && (r <? 1)) with true by lia. split; [discriminate|reflexivity].
  - rewrite crows_row in R. destruct (below root p) as [k|] eqn:B; [|lia]. rewrite (cindex_ok low root p r k B R), crow_app. split; [discriminate|].
    cbn [cparent]. rewrite removelast_last. destruct D as [->|(q & i & l & -> & Q & L)]; [reflexivity|]. rewrite crow_app. destruct (q ++ [i]) eqn:E; [destruct q; discriminate|]. rewrite <- E. rewrite removelast_last, Q.
    f_equal. f_equal. apply find_row_ok; lia.
Qed.
Lemma distinct_kid low e k : distinct low e -> In k (inner_ e) -> distinct low k.
Proof. destruct e as [n [l|]]; [|intros _ []]. cbn [distinct inner_ e_inner]. intros [_ H]. induction l as [|x l IH]; [intros []|]. destruct H as [H1 H2]. intros [->|K]; [exact H1|exact (IH H2 K)]. Qed.
Lemma distinct_nodup low e : distinct low e -> NoDup (map (fun e => low (e_name e)) (inner_ e)).
Proof. destruct e as [n [l|]]; [|intros _; constructor]. intros [H _]. exact H. Qed.
Lemma cexpand_ok low root : forall k e p, distinct low e -> (below root p = Some (inner_ e) \/ (e_inner e = None /\ below root p = None)) -> (eheight e <= k)%nat ->
  cexpand k low root (crow p) = map (fun q => crow (p ++ q)) (elem_places e).
Proof.
  induction k as [|k IH]; intros e p N B H; [destruct e as [? [?|]]; cbn [eheight] in H; lia|]. cbn [cexpand]. rewrite crows_row, eplaces_eq.
  destruct B as [B|[B1 B]]; rewrite B; [|unfold inner_; rewrite B1; reflexivity].
  pose proof (distinct_nodup low e N) as ND. rewrite (map_size_full low (inner_ e) [] ND) by (intros; intros []). rewrite Nat2Z.id.
  apply fm_gop. intros j c E. cbn [Nat.add]. assert (j < length (inner_ e))%nat as L by (apply nth_error_Some; congruence).
  assert (cindex_at low root (Z.of_nat j) (crow p) = crow (p ++ [j])) as ->.
  { rewrite (cindex_ok low root p (Z.of_nat j) (inner_ e) B); [rewrite Nat2Z.id; reflexivity|]. rewrite (map_size_full low (inner_ e) [] ND) by (intros; intros []). lia. }
  cbn zeta. cbn [map]. f_equal.
  rewrite (IH c); [|exact (distinct_kid low e c N (nth_error_In _ _ E))| |pose proof (eheight_kid e c (nth_error_In _ _ E)); lia].
  - rewrite map_map. apply map_ext. intros q. rewrite <- app_assoc. reflexivity.
  - rewrite below_app, B. cbn [below]. rewrite E. unfold inner_. destruct (e_inner c); [left; reflexivity|right; split; reflexivity].
Qed.
Lemma cexpand_all low name root : distinct low (Elem name (Some root)) -> exists n, forall k, (n <= k)%nat ->
  map (fun x => match x with Some (_, p) => path_of p | None => [] end) (cexpand k low root None) = [] :: elem_places (Elem name (Some root)) /\ Forall (fun x => x <> None) (cexpand k low root None).
Proof.
  intros D. exists (S (eheight (Elem name (Some root)))). intros k K. destruct k as [|k]; [lia|]. cbn [cexpand crows]. change (Z.to_nat 1) with 1%nat. cbn [seq flat_map]. rewrite app_nil_r.
  unfold cindex_at. cbn [crows]. change ((0 <=? Z.of_nat 0) && (Z.of_nat 0 <? 1)) with true. cbv iota. cbn zeta. change (Some (Z.of_nat 0, None)) with (crow []).
  rewrite (cexpand_ok low root k (Elem name (Some root)) [] D (or_introl eq_refl)) by lia. cbn [map app crow path_of]. split.
  - f_equal. rewrite map_map. rewrite <- (map_id (elem_places _)) at 2. apply map_ext. intros q. destruct q; reflexivity.
  - constructor; [discriminate|]. apply Forall_forall. intros x X. apply in_map_iff in X. destruct X as (q & <- & _). destruct q; discriminate.
Qed.
(** an element that the list has and the map has not room for *)
Lemma hidden low root p l i : below root p = Some l -> (map_size low [] l <= i < length l)%nat -> forall x, con_screen low root x -> x <> crow (p ++ [i]).
Proof.
  intros B L x S E. destruct S as [|x r S R]; [rewrite crow_app in E; discriminate|]. destruct (cscreen low root x S) as [->|(q & -> & _)].
  - unfold cindex_at in E. cbn [crows] in *. replace ((0 <=? r) && (r <? 1)) with true in E by lia. rewrite crow_app in E. injection E as _ E. discriminate.
  - rewrite crows_row in R. destruct (below root q) as [k|] eqn:Q; [|lia]. rewrite (cindex_ok low root q r k Q R), !crow_app in E. injection E as Er Ep.
    apply app_inj_tail in Ep. destruct Ep as [-> _]. rewrite B in Q. injection Q as ->. lia.
Qed.
Lemma last_hidden low root p l : below root p = Some l -> ~ NoDup (map (fun e => low (e_name e)) l) -> l <> [] /\ forall x, con_screen low root x -> x <> crow (p ++ [length l - 1]%nat).
Proof.
  intros B N. pose proof (map_size_less low l [] (or_introl N)). split; [intros ->; apply N; constructor|]. apply (hidden low root p l); [exact B|lia].
Qed.
Lemma last_never low root p l : below root p = Some l -> ~ NoDup (map (fun e => low (e_name e)) l) ->
  exists e, nth_error l (length l - 1) = Some e /\ forall r, ~ con_screen low root (Some (r, Some (p ++ [length l - 1]%nat))).
Proof.
  intros B N. destruct (last_hidden low root p l B N) as [NE H]. destruct (nth_error l (length l - 1)) as [e|] eqn:E.
  - exists e. split; [reflexivity|]. intros r S. pose proof (cscreen low root _ S) as C. destruct C as [C|(q & C & _)]; [discriminate|].
    assert (q = p ++ [length l - 1]%nat) as ->; [|exact (H _ S C)]. destruct q; cbn [crow] in C; [discriminate|]. congruence.
  - apply nth_error_None in E. destruct l; [contradiction|]. cbn [length] in E. lia.
Qed.
