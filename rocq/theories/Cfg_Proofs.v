(** Proofs about tables of files. *)
From Coq Require Import Sorted Permutation.
From Verif Require Import Prelude Lists Codec_Model Codec_Spec Tree_Model Cfg_Model Cfg_Spec.
Ltac Zify.zify_post_hook ::= idtac.

(** ** Maps *)
Lemma eq_list_spec a b : eq_list a b = true <-> a = b.
Proof. unfold eq_list. destruct (list_eq_dec Z.eq_dec a b); split; congruence. Qed.
Lemma eq_list_refl a : eq_list a a = true.
Proof. apply eq_list_spec. reflexivity. Qed.
Lemma eq_list_neq a b : a <> b -> eq_list a b = false.
Proof. unfold eq_list. destruct (list_eq_dec Z.eq_dec a b); congruence. Qed.
Lemma mget_put_same {A} k (v : A) m : mget k (mput k v m) = Some v.
Proof.
  induction m as [|[k' v'] m IH]; cbn [mput mget]; [rewrite eq_list_refl; reflexivity|]. destruct (eq_list k k') eqn:E; [cbn [mget]; rewrite eq_list_refl; reflexivity|].
  destruct (str_ltb k k'); cbn [mget]; [rewrite eq_list_refl; reflexivity|rewrite E; exact IH].
Qed.
Lemma mget_put_other {A} k k2 (v : A) m : k2 <> k -> mget k2 (mput k v m) = mget k2 m.
Proof.
  intros N. induction m as [|[k' v'] m IH]; cbn [mput mget]; [rewrite eq_list_neq by exact N; reflexivity|]. destruct (eq_list k k') eqn:E.
  - apply eq_list_spec in E. subst k'. cbn [mget]. rewrite eq_list_neq by exact N. reflexivity.
  - destruct (str_ltb k k'); cbn [mget]; [rewrite eq_list_neq by exact N; reflexivity|]. rewrite IH. reflexivity.
Qed.
Lemma str_dec (a b : list Z) : a = b \/ a <> b.
Proof. destruct (list_eq_dec Z.eq_dec a b); auto. Qed.

(** ** The constructor of a table of files *)
Section Files.
Variable lower : list Z -> list Z.
Definition key (r : frow) : list Z := lower (r_name r).
Lemma taken_live r : taken r = true <-> live r.
Proof.
  unfold taken, live. rewrite !andb_true_iff, !negb_true_iff, orb_false_iff, !Z.eqb_neq. split.
  - intros ((H1 & H2 & H3) & H4). repeat split; try assumption. intros E. rewrite E in H4. discriminate.
  - intros (H1 & H2 & H3 & H4). split; [repeat split; assumption|]. destruct (r_name r); [congruence|reflexivity].
Qed.
(** the greatest part number of a key *)
Definition greatest (P : list frow) (k : list Z) (o : option Z) : Prop :=
  match o with
  | None => forall r, In r P -> key r <> k
  | Some p => (exists r, In r P /\ key r = k /\ r_part r = p) /\ forall r, In r P -> key r = k -> r_part r <= p
  end.
Lemma max_parts_ok rows : forall P m, (forall k, greatest P k (mget k m)) -> forall k, greatest (P ++ rows) k (mget k (max_parts lower rows m)).
Proof.
  induction rows as [|r rows IH]; intros P m HP k; cbn [max_parts]; [rewrite app_nil_r; apply HP|].
  assert (EA : P ++ r :: rows = (P ++ [r]) ++ rows) by (rewrite <- app_assoc; reflexivity). rewrite EA. apply IH. clear k EA IH. intros k. fold (key r).
  assert (OTH : k <> key r -> greatest (P ++ [r]) k (mget k m)).
  { intros N. specialize (HP k). unfold greatest in *. destruct (mget k m) as [p|].
    - destruct HP as [(x & X1 & X2 & X3) HP]. split; [exists x; repeat split; [apply in_or_app; left|..]; assumption|]. intros y Hy Ey. apply in_app_or in Hy. destruct Hy as [Hy|[<-|[]]]; [apply HP; assumption|congruence].
    - intros y Hy. apply in_app_or in Hy. destruct Hy as [Hy|[<-|[]]]; [apply HP; exact Hy|congruence]. }
  pose proof (HP (key r)) as HK. destruct (mget (key r) m) as [p|] eqn:EG.
  - destruct HK as [(x & X1 & X2 & X3) HK]. destruct (Z.ltb_spec p (r_part r)) as [L|L].
    + destruct (str_dec k (key r)) as [->|N]; [rewrite mget_put_same|rewrite mget_put_other by exact N; apply OTH; exact N].
      split; [exists r; repeat split; apply in_or_app; right; left; reflexivity|]. intros y Hy Ey. apply in_app_or in Hy. destruct Hy as [Hy|[<-|[]]]; [specialize (HK y Hy Ey); lia|lia].
    + destruct (str_dec k (key r)) as [->|N]; [rewrite EG|apply OTH; exact N].
      split; [exists x; repeat split; [apply in_or_app; left; exact X1|assumption|assumption]|]. intros y Hy Ey. apply in_app_or in Hy. destruct Hy as [Hy|[<-|[]]]; [apply HK; assumption|lia].
  - destruct (str_dec k (key r)) as [->|N]; [rewrite mget_put_same|rewrite mget_put_other by exact N; apply OTH; exact N].
    split; [exists r; repeat split; apply in_or_app; right; left; reflexivity|]. intros y Hy Ey. apply in_app_or in Hy. destruct Hy as [Hy|[<-|[]]]; [exfalso; exact (HK y Hy Ey)|lia].
Qed.
Lemma new_files_ok m : (forall k p, mget k m = Some p -> 0 <= p) -> NoDup (map fst m) -> exists m', new_files m = Ok m' /\
  forall k, mget k m' = match mget k m with Some p => Some (TF k (repeat (0, 0) (Z.to_nat (p + 1))) 0) | None => None end.
Proof.
  induction m as [|[k p] m IH]; intros HP ND; cbn [new_files]; [exists []; split; [reflexivity|intros k; reflexivity]|].
  cbn [map fst] in ND. inversion ND as [|x y N1 N2]. subst.
  assert (HP0 : 0 <= p) by (apply (HP k); cbn [mget]; rewrite eq_list_refl; reflexivity). unfold new_file. destruct (Z.ltb_spec p 0); [lia|]. cbn [rbind].
  destruct IH as (m' & E & HE).
  - intros k0 p0 G. apply (HP k0). cbn [mget]. rewrite eq_list_neq; [exact G|]. intros ->. apply N1. clear - G. induction m as [|[a b] m IH]; [discriminate|]. cbn [mget map fst] in *. destruct (eq_list k a) eqn:E; [left; symmetry; apply eq_list_spec; exact E|right; apply IH; exact G].
  - exact N2.
  - rewrite E. cbn [rbind]. eexists. split; [reflexivity|]. intros k0. cbn [mget]. destruct (eq_list k0 k) eqn:EK; [apply eq_list_spec in EK; subst; reflexivity|apply HE].
Qed.
Lemma mput_keys {A} k (v : A) m x : In x (map fst (mput k v m)) -> x = k \/ In x (map fst m).
Proof.
  induction m as [|[k' v'] m IH]; cbn [mput map fst]; [intros [<-|[]]; auto|]. destruct (eq_list k k') eqn:E; [cbn [map fst]; intros [<-|H]; [auto|right; right; exact H]|].
  destruct (str_ltb k k'); cbn [map fst]; intros [<-|H]; auto; [right; left; reflexivity|]. destruct (IH H); auto. right. right. assumption.
Qed.
Lemma mget_none_keys {A} k (m : smap A) : mget k m = None -> ~ In k (map fst m).
Proof. induction m as [|[a b] m IH]; [intros _ []|]. cbn [mget map fst]. destruct (eq_list k a) eqn:E; [discriminate|]. intros H [<-|I]; [rewrite eq_list_refl in E; discriminate|exact (IH H I)]. Qed.
Lemma str_lt_trans a : forall b c, str_ltb a b = true -> str_ltb b c = true -> str_ltb a c = true.
Proof.
  induction a as [|x a IH]; intros [|y b] [|z c] H1 H2; cbn [str_ltb] in *; try discriminate; try reflexivity.
  destruct (Z.ltb_spec x y), (Z.ltb_spec y x), (Z.ltb_spec y z), (Z.ltb_spec z y), (Z.ltb_spec x z), (Z.ltb_spec z x); try lia; try reflexivity; try discriminate. exact (IH b c H1 H2).
Qed.
Lemma str_lt_irrefl a : str_ltb a a = false.
Proof. induction a as [|x a IH]; [reflexivity|]. cbn [str_ltb]. rewrite Z.ltb_irrefl. exact IH. Qed.
Lemma str_lt_total a : forall b, a <> b -> str_ltb a b = false -> str_ltb b a = true.
Proof.
  induction a as [|x a IH]; intros [|y b] N H; cbn [str_ltb] in *; try congruence; try discriminate. destruct (Z.ltb_spec x y); [discriminate|]. destruct (Z.ltb_spec y x); [reflexivity|].
  apply IH; [|exact H]. intros ->. apply N. f_equal. lia.
Qed.
(** maps stay sorted, so that their order does not depend on that of the insertions *)
Definition sorted {A} (m : smap A) : Prop := StronglySorted (fun a b => str_ltb (fst a) (fst b) = true) m.
Lemma mput_sorted {A} k (v : A) m : sorted m -> sorted (mput k v m).
Proof.
  induction 1 as [|[k' v'] m S IH F]; cbn [mput]; [repeat constructor|]. destruct (eq_list k k') eqn:E.
  - apply eq_list_spec in E. subst k'. constructor; [exact S|exact F].
  - destruct (str_ltb k k') eqn:L.
    + constructor; [constructor; assumption|]. constructor; [exact L|]. rewrite Forall_forall in *. intros [a b] I. specialize (F _ I). cbn [fst] in *. apply (str_lt_trans k k' a); assumption.
    + constructor; [exact IH|]. assert (L2 : str_ltb k' k = true) by (apply str_lt_total; [intros ->; rewrite eq_list_refl in E; discriminate|exact L]).
      clear - F L2. rewrite Forall_forall in *. intros [a b] I. cbn [fst]. assert (H : In a (map fst (mput k v m))) by (apply (in_map fst) in I; exact I). apply mput_keys in H. destruct H as [->|H]; [exact L2|].
      apply in_map_iff in H. destruct H as ([a' b'] & E & I'). cbn [fst] in E. subst a'. apply (F _ I').
Qed.
Lemma sorted_nodup {A} (m : smap A) : sorted m -> NoDup (map fst m).
Proof.
  induction 1 as [|[k v] m S IH F]; cbn [map fst]; constructor; [|exact IH]. intros I. apply in_map_iff in I. destruct I as ([a b] & E & I). cbn [fst] in E. subst a. rewrite Forall_forall in F. specialize (F _ I). cbn [fst] in F. rewrite str_lt_irrefl in F. discriminate.
Qed.
Lemma max_parts_sorted rows : forall m, sorted m -> sorted (max_parts lower rows m).
Proof. induction rows as [|r rows IH]; intros m S; cbn [max_parts]; [exact S|]. apply IH. destruct (mget (lower (r_name r)) m) as [p|]; [destruct (p <? r_part r); [apply mput_sorted|]; exact S|apply mput_sorted; exact S]. Qed.

(** what is in a file after the rows [P] *)
Definition row_at (P : list frow) (k : list Z) (i : nat) : option frow := find (fun r => eq_list (key r) k && (r_part r =? Z.of_nat i)) P.
Definition filled (P : list frow) (k : list Z) (p : Z) (f : tfile) : Prop :=
  t_addr f = map (fun i => match row_at P k i with Some r => (r_start r, r_len r) | None => (0, 0) end) (seq 0 (Z.to_nat (p + 1))) /\
  (forall r, row_at P k 0 = Some r -> t_name f = r_name r /\ t_time f = r_time r) /\ (row_at P k 0 = None -> t_name f = k).
Lemma find_app {A} (f : A -> bool) a b : find f (a ++ b) = match find f a with Some x => Some x | None => find f b end.
Proof. induction a as [|x a IH]; [reflexivity|]. cbn [app find]. destruct (f x); [reflexivity|exact IH]. Qed.
Lemma row_at_app P r k i : row_at (P ++ [r]) k i = match row_at P k i with Some x => Some x | None => if eq_list (key r) k && (r_part r =? Z.of_nat i) then Some r else None end.
Proof. unfold row_at. rewrite find_app. reflexivity. Qed.
Lemma fill_ok rows : forall P m mp, (forall k, match mget k m, mp k with Some f, Some p => filled P k p f | None, None => True | _, _ => False end) ->
  (forall r, In r rows -> exists p, mp (key r) = Some p /\ 0 <= r_part r <= p) ->
  (forall i r, nth_error rows i = Some r -> (forall x, In x P -> key x = key r -> r_part x <> r_part r) /\ forall j x, (j < i)%nat -> nth_error rows j = Some x -> key x = key r -> r_part x <> r_part r) ->
  exists m', fill_files lower rows m = Ok m' /\ forall k, match mget k m', mp k with Some f, Some p => filled (P ++ rows) k p f | None, None => True | _, _ => False end.
Proof.
  induction rows as [|r rows IH]; intros P m mp HM HR HD; cbn [fill_files]; [exists m; split; [reflexivity|]; rewrite app_nil_r; exact HM|]. fold (key r).
  destruct (HR r (or_introl eq_refl)) as (p & EP & RP). pose proof (HM (key r)) as HK. rewrite EP in HK. destruct (mget (key r) m) as [f|] eqn:EG; [|destruct HK].
  destruct HK as (F1 & F2 & F3). assert (LA : length (t_addr f) = Z.to_nat (p + 1)) by (rewrite F1, map_length, seq_length; reflexivity).
  unfold wrn. destruct (Z.ltb_spec (r_part r) 0); [lia|]. cbn [orb zlen length]. destruct (Z.ltb_spec (zlen (t_addr f)) (r_part r + zlen [(r_start r, r_len r)])) as [L|L]; [unfold zlen in L; cbn [length] in L; lia|]. cbn [rbind].
  assert (NR : row_at P (key r) (Z.to_nat (r_part r)) = None).
  { destruct (row_at P (key r) (Z.to_nat (r_part r))) as [x|] eqn:E; [|reflexivity]. exfalso. apply find_some in E. destruct E as [IX E]. apply andb_true_iff in E. destruct E as [E1 E2]. apply eq_list_spec in E1. apply Z.eqb_eq in E2.
    destruct (HD 0%nat r eq_refl) as [H0 _]. apply (H0 x IX E1). lia. }
  set (f' := if r_part r =? 0 then TF (r_name r) (splice (t_addr f) (Z.to_nat (r_part r)) [(r_start r, r_len r)]) (r_time r) else TF (t_name f) (splice (t_addr f) (Z.to_nat (r_part r)) [(r_start r, r_len r)]) (t_time f)).
  assert (AF : t_addr f' = splice (t_addr f) (Z.to_nat (r_part r)) [(r_start r, r_len r)]) by (unfold f'; destruct (r_part r =? 0); reflexivity).
  assert (EA : P ++ r :: rows = (P ++ [r]) ++ rows) by (rewrite <- app_assoc; reflexivity). rewrite EA. apply (IH (P ++ [r]) (mput (key r) f' m) mp).
  - intros k. destruct (str_dec k (key r)) as [->|N].
    + rewrite mget_put_same, EP. split; [|split].
      * rewrite AF. apply nth_ext with (d := (0, 0)) (d' := (0, 0)); [rewrite splice_length by (cbn [length]; lia); rewrite map_length, seq_length; exact LA|]. intros i Hi. rewrite splice_length in Hi by (cbn [length]; lia).
        set (g := fun i => match row_at (P ++ [r]) (key r) i with Some r0 => (r_start r0, r_len r0) | None => (0, 0) end).
        rewrite (nth_error_nth_Z _ i (g i)).
        -- rewrite (nth_indep _ (0, 0) (g 0%nat)) by (rewrite map_length, seq_length; lia). rewrite map_nth, seq_nth by lia. reflexivity.
        -- rewrite nth_error_splice1 by lia. unfold g. rewrite row_at_app. destruct (Nat.eqb_spec i (Z.to_nat (r_part r))) as [->|NI].
           ++ rewrite NR, eq_list_refl. destruct (Z.eqb_spec (r_part r) (Z.of_nat (Z.to_nat (r_part r)))); [reflexivity|lia].
           ++ rewrite F1. rewrite nth_error_map, nth_error_nth' with (d := 0%nat) by (rewrite seq_length; lia). rewrite seq_nth by lia. cbn [option_map]. f_equal. cbn [Nat.add]. destruct (row_at P (key r) i); [reflexivity|].
              rewrite eq_list_refl. destruct (Z.eqb_spec (r_part r) (Z.of_nat i)); [lia|reflexivity].
      * intros x. rewrite row_at_app. destruct (row_at P (key r) 0) as [y|] eqn:E0.
        -- intros H0. injection H0 as <-. unfold f'. destruct (Z.eqb_spec (r_part r) 0) as [Z0|Z0]; [exfalso; rewrite Z0 in NR; cbn in NR; congruence|]. cbn [t_name t_time]. apply F2. reflexivity.
        -- rewrite eq_list_refl. cbn [andb]. destruct (Z.eqb_spec (r_part r) (Z.of_nat 0)) as [Z0|Z0]; [|discriminate]. intros H0. injection H0 as <-. unfold f'. destruct (Z.eqb_spec (r_part r) 0); [split; reflexivity|lia].
      * rewrite row_at_app. destruct (row_at P (key r) 0) as [y|] eqn:E0; [discriminate|]. rewrite eq_list_refl. cbn [andb]. destruct (Z.eqb_spec (r_part r) (Z.of_nat 0)) as [Z0|Z0]; [discriminate|]. intros _. unfold f'. destruct (Z.eqb_spec (r_part r) 0); [lia|]. apply F3. reflexivity.
    + rewrite mget_put_other by exact N. specialize (HM k). destruct (mget k m) as [f0|], (mp k) as [p0|]; try assumption. destruct HM as (G1 & G2 & G3).
      assert (ER : forall i, row_at (P ++ [r]) k i = row_at P k i) by (intros i; rewrite row_at_app; destruct (row_at P k i); [reflexivity|]; rewrite eq_list_neq by congruence; reflexivity).
      split; [|split; [intros x; rewrite ER; apply G2|rewrite ER; exact G3]]. rewrite G1. apply map_ext. intros i. rewrite ER. reflexivity.
  - intros x Hx. apply HR. right. exact Hx.
  - intros i x Hx. destruct (HD (S i) x Hx) as [H1 H2]. split.
    + intros y Hy. apply in_app_or in Hy. destruct Hy as [Hy|[<-|[]]]; [apply H1; exact Hy|]. apply (H2 0%nat); [lia|reflexivity].
    + intros j y Hj Hy. apply (H2 (S j)); [lia|exact Hy].
Qed.

(** the parts one after another *)
Lemma concat_parts (g : frow -> list Z) L : forall n a, StronglySorted (fun a b => r_part a < r_part b) L -> (forall r, In r L -> Z.of_nat a <= r_part r < Z.of_nat (a + n)) ->
  forall h, (forall i r, (a <= i)%nat -> (i < a + n)%nat -> h i = Some r <-> In r L /\ r_part r = Z.of_nat i) ->
  concat (map (fun i => match h i with Some r => g r | None => [] end) (seq a n)) = concat (map g L).
Proof.
  intros n. revert L. induction n as [|n IH]; intros L a S HB h HH.
  - destruct L as [|r L]; [reflexivity|]. specialize (HB r (or_introl eq_refl)). lia.
  - cbn [seq map concat]. destruct (h a) as [r|] eqn:EH.
    + apply HH in EH; [|lia|lia]. destruct EH as [I E]. assert (EL : exists L', L = r :: L').
      { destruct L as [|x L]; [destruct I|]. destruct I as [<-|I]; [eexists; reflexivity|]. inversion S as [|y z S1 S2]. subst. rewrite Forall_forall in S2. specialize (S2 _ I). specialize (HB x (or_introl eq_refl)). cbn beta in S2. lia. }
      destruct EL as (L' & ->). cbn [map concat]. f_equal. inversion S as [|y z S1 S2]. subst y z. rewrite Forall_forall in S2. apply IH; [exact S1| |].
      * intros x Hx. specialize (S2 x Hx). specialize (HB x (or_intror Hx)). cbn beta in S2. lia.
      * intros i x H1 H2. rewrite HH by lia. cbn [In]. split; intros [K1 K2]; (split; [|exact K2]); [|right; exact K1]. destruct K1 as [<-|K1]; [lia|exact K1].
    + cbn [app]. apply IH; [exact S| |].
      * intros x Hx. pose proof (HB x Hx). assert (r_part x <> Z.of_nat a); [|lia]. intros E. assert (h a = Some x) by (apply HH; [lia|lia|auto]). congruence.
      * intros i x H1 H2. apply HH; lia.
Qed.
End Files.

Lemma nth_error_filter_lt {A} (f : A -> bool) l : forall i j a b, nth_error (filter f l) i = Some a -> nth_error (filter f l) j = Some b -> (i < j)%nat ->
  exists i' j', (i' < j')%nat /\ nth_error l i' = Some a /\ nth_error l j' = Some b.
Proof.
  induction l as [|x l IH]; intros i j a b H1 H2 L; [destruct i; discriminate|]. cbn [filter] in *. destruct (f x).
  - destruct j as [|j]; [lia|]. destruct i as [|i]; cbn [nth_error] in *.
    + assert (I : In b l) by (apply nth_error_In in H2; apply filter_In in H2; tauto). apply In_nth_error in I. destruct I as (j' & I). exists 0%nat, (S j'). repeat split; [lia|exact H1|exact I].
    + destruct (IH i j a b H1 H2) as (i' & j' & K1 & K2 & K3); [lia|]. exists (S i'), (S j'). repeat split; [lia|exact K2|exact K3].
  - destruct (IH i j a b H1 H2 L) as (i' & j' & K1 & K2 & K3). exists (S i'), (S j'). repeat split; [lia|exact K2|exact K3].
Qed.
Lemma table_ok lower rows : (forall r, In r rows -> live r -> 0 <= r_part r) -> parts_distinct lower rows ->
  exists m, table_files lower rows = Ok m /\ sorted m /\ forall name,
    match get_file lower m name with
    | None => forall r, In r rows -> live r -> lower (r_name r) <> lower name
    | Some f => (forall blob parts, parts_of lower rows name parts -> raw_file blob f = concat (map (fun r => blob (r_start r) (r_len r)) parts)) /\
                (exists r, In r rows /\ live r /\ lower (r_name r) = lower name) /\
                (forall r, In r rows -> live r -> lower (r_name r) = lower name -> r_part r = 0 -> t_name f = r_name r /\ t_time f = r_time r)
    end.
Proof.
  intros HP HD. unfold table_files. set (all := filter taken rows).
  assert (IA : forall r, In r all <-> In r rows /\ live r) by (intros r; unfold all; rewrite filter_In, taken_live; reflexivity).
  pose proof (max_parts_ok lower all [] []) as HG. cbn [app] in HG. assert (HG' : forall k, greatest lower all k (mget k (max_parts lower all []))) by (apply HG; intros k r []). clear HG.
  assert (S0 : sorted (max_parts lower all [])) by (apply max_parts_sorted; constructor).
  set (mp := max_parts lower all []) in *.
  destruct (new_files_ok lower mp) as (m0 & E0 & H0).
  - intros k p G. specialize (HG' k). rewrite G in HG'. destruct HG' as [(r & R1 & R2 & R3) _]. rewrite <- R3. apply IA in R1. apply HP; tauto.
  - apply sorted_nodup. exact S0.
  - rewrite E0. cbn [rbind].
    destruct (fill_ok lower all [] m0 (fun k => mget k mp)) as (m1 & E1 & H1).
    + intros k. rewrite H0. destruct (mget k mp) as [p|]; [|exact I]. split; [|split; [intros r H; discriminate|reflexivity]]. cbn [t_addr].
      generalize 0%nat. generalize (Z.to_nat (p + 1)). induction n as [|n IHn]; intros a; [reflexivity|]. cbn [repeat seq map]. f_equal. apply IHn.
    + intros r Hr. pose proof (HG' (key lower r)) as G. destruct (mget (key lower r) mp) as [p|]; [|exfalso; exact (G r Hr eq_refl)]. exists p. split; [reflexivity|]. destruct G as [_ G]. split; [apply IA in Hr; apply HP; tauto|apply G; [exact Hr|reflexivity]].
    + intros i r Hi. split; [intros x []|]. intros j x L Hj EK EP. destruct (nth_error_filter_lt taken rows j i x r Hj Hi L) as (j' & i' & L' & J1 & J2).
      assert (i' = j'); [|lia]. assert (live x) by (apply nth_error_In in Hj; apply IA in Hj; tauto). assert (live r) by (apply nth_error_In in Hi; apply IA in Hi; tauto). symmetry. apply (HD j' i' x r); assumption.
    + exists m1. split; [exact E1|]. split.
      { assert (SN : sorted m0). { clear - S0 E0. revert m0 E0. induction S0 as [|[k p] mp S IH F]; intros m0 E0; cbn [new_files] in E0; [injection E0 as <-; constructor|]. destruct (new_file k p) as [f| | |]; try discriminate. cbn [rbind] in E0.
          destruct (new_files mp) as [m1| | |] eqn:E1; try discriminate. cbn [rbind] in E0. injection E0 as <-. constructor; [apply IH; reflexivity|].
          assert (EK : map fst m1 = map fst mp). { clear - E1. revert m1 E1. induction mp as [|[a b] mp IH]; intros m1 E1; cbn [new_files] in E1; [injection E1 as <-; reflexivity|]. destruct (new_file a b); try discriminate. cbn [rbind] in E1. destruct (new_files mp) eqn:E; try discriminate. cbn [rbind] in E1. injection E1 as <-. cbn [map fst]. f_equal. apply IH. reflexivity. }
          rewrite Forall_forall in *. intros [a b] I. cbn [fst]. assert (IN : In a (map fst mp)) by (rewrite <- EK; apply (in_map fst) in I; exact I). apply in_map_iff in IN. destruct IN as ([a' b'] & Ea & Ia). cbn [fst] in Ea. subst a'. apply (F _ Ia). }
        clear - SN E1. revert m0 SN m1 E1. induction all as [|r all IH]; intros m0 SN m1 E1; cbn [fill_files] in E1; [injection E1 as <-; exact SN|]. destruct (mget (lower (r_name r)) m0) as [f|]; [|discriminate]. destruct (wrn (t_addr f) (r_part r) [(r_start r, r_len r)]); try discriminate. cbn [rbind] in E1.
        eapply IH; [|exact E1]. apply mput_sorted; [exact lower|exact SN]. }
      intros name. unfold get_file. specialize (H1 (lower name)). specialize (HG' (lower name)). cbn [app] in H1. destruct (mget (lower name) m1) as [f|], (mget (lower name) mp) as [p|]; try destruct H1.
      * split; [|split].
        -- intros blob parts (PA & PS). destruct H1 as [H1 _]. unfold raw_file. rewrite H, map_map.
           rewrite <- (concat_parts (fun r => blob (r_start r) (r_len r)) parts (Z.to_nat (p + 1)) 0) with (h := row_at lower all (lower name)) ; [| exact PS | |].
           ++ f_equal. apply map_ext. intros i. destruct (row_at lower all (lower name) i) as [r|] eqn:ER; [|reflexivity]. apply find_some in ER. destruct ER as [ER _]. apply IA in ER. destruct ER as [_ (_ & ER & _)]. destruct (Z.eqb_spec (r_start r) 0); [contradiction|reflexivity].
           ++ intros r Hr. apply PA in Hr. destruct Hr as (R1 & R2 & R3). destruct HG' as [_ G]. specialize (G r). assert (IR : In r all) by (apply IA; auto). specialize (G IR R3). specialize (HP r R1 R2). lia.
           ++ intros i r Hi1 Hi2. unfold row_at. split.
              ** intros F. apply find_some in F. destruct F as [F1 F2]. apply andb_true_iff in F2. destruct F2 as [F2 F3]. apply eq_list_spec in F2. apply Z.eqb_eq in F3. split; [|exact F3]. apply PA. apply IA in F1. tauto.
              ** intros [R1 R2]. apply PA in R1. destruct R1 as (R1 & R3 & R4). assert (IR : In r all) by (apply IA; auto).
                 destruct (find (fun r0 => eq_list (key lower r0) (lower name) && (r_part r0 =? Z.of_nat i)) all) as [x|] eqn:EF.
                 --- apply find_some in EF. destruct EF as [F1 F2]. apply andb_true_iff in F2. destruct F2 as [F2 F3]. apply eq_list_spec in F2. apply Z.eqb_eq in F3. f_equal. apply IA in F1.
                     destruct (In_nth_error _ _ R1) as (a & EA). destruct (In_nth_error _ _ (proj1 F1)) as (b & EB). assert (a = b) by (apply (HD a b r x); try assumption; [tauto|unfold key in F2; congruence|lia]). congruence.
                 --- exfalso. apply (find_none _ _ EF) in IR. unfold key in IR. rewrite R4, eq_list_refl, R2, Z.eqb_refl in IR. discriminate.
        -- destruct HG' as [(r & R1 & R2 & R3) _]. exists r. apply IA in R1. tauto.
        -- intros r R1 R2 R3 R4. destruct H1 as [H1 _]. apply H1. unfold row_at.
           destruct (find (fun r0 => eq_list (key lower r0) (lower name) && (r_part r0 =? Z.of_nat 0)) all) as [x|] eqn:EF.
           ++ apply find_some in EF. destruct EF as [F1 F2]. apply andb_true_iff in F2. destruct F2 as [F2 F3]. apply eq_list_spec in F2. apply Z.eqb_eq in F3. f_equal. apply IA in F1.
              destruct (In_nth_error _ _ R1) as (a & EA). destruct (In_nth_error _ _ (proj1 F1)) as (b & EB). assert (a = b) by (apply (HD a b r x); try assumption; [tauto|unfold key in F2; congruence|lia]). congruence.
           ++ exfalso. assert (IR : In r all) by (apply IA; auto). apply (find_none _ _ EF) in IR. unfold key in IR. rewrite R3, eq_list_refl, R4 in IR. discriminate.
      * intros r R1 R2. apply HG'. apply IA. auto.
Qed.
(** ** Negative part numbers *)
Lemma negative_part lower n s l p tm : n <> [] -> s <> 0 -> l <> 0 -> p < 0 -> table_files lower [FR false n s l p tm] = UB.
Proof.
  intros H1 H2 H3 H4. unfold table_files. assert (T : taken (FR false n s l p tm) = true) by (apply taken_live; repeat split; assumption). cbn [filter]. rewrite T. cbn [max_parts r_name r_part mget mput new_files]. unfold new_file. destruct (Z.ltb_spec p 0); [reflexivity|lia].
Qed.
Lemma negative_beside lower n s l p s2 l2 p2 tm : n <> [] -> s <> 0 -> l <> 0 -> p < 0 -> s2 <> 0 -> l2 <> 0 -> table_files lower [FR false n s l p tm; FR false n s2 l2 p2 tm] = UB.
Proof.
  intros H1 H2 H3 H4 H5 H6. unfold table_files. assert (T : taken (FR false n s l p tm) = true) by (apply taken_live; repeat split; assumption). assert (T2 : taken (FR false n s2 l2 p2 tm) = true) by (apply taken_live; repeat split; assumption). cbn [filter]. rewrite T, T2. cbn [max_parts r_name r_part mget mput]. rewrite eq_list_refl.
  assert (K : forall q, (do m <- new_files [(lower n, q)]; fill_files lower [FR false n s l p tm; FR false n s2 l2 p2 tm] m) = UB).
  { intros q. cbn [new_files]. unfold new_file. destruct (Z.ltb_spec q 0); [reflexivity|]. cbn [rbind fill_files mget]. cbn [r_name]. rewrite eq_list_refl. unfold wrn. cbn [r_part]. destruct (Z.ltb_spec p 0); [reflexivity|lia]. }
  destruct (p <? p2); apply K.
Qed.
