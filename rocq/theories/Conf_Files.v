(** Proofs for Conf_Props: the files put together and saved. *)
From Coq Require Import Sorted Permutation.
From Verif Require Import Prelude Lists Codec_Model Codec_Proofs Text_Model Text_Spec Text_Proofs Tree_Model Field_Model Field_Spec Obj_Model Obj_Proofs Rec_Model Xml_Model Xml_Spec Chk_Model Chk_Spec
  Cf_Model Cfg_Model Cfg_Spec Cfg_Proofs Cfg_Updates Save_Model Save_Spec Save_Proofs Descr_Model Descr_Proofs Full_Model Full_Spec Full_Proofs Full_Open Full_Export Conf_Model Conf_Spec Conf_Proofs.
Ltac Zify.zify_post_hook ::= idtac.

(** ** The table *)
Lemma mget_In {A} k (f : A) m : NoDup (map fst m) -> In (k, f) m -> mget k m = Some f.
Proof.
  induction m as [|[a b] m IH]; intros ND H; [destruct H|]. cbn [mget]. cbn [map fst] in ND. inversion ND as [|? ? N1 N2]; subst. destruct H as [E|I1].
  - injection E as -> ->. now rewrite eq_list_refl.
  - rewrite eq_list_neq; [now apply IH|]. intros ->. apply N1. now apply (in_map fst) in I1.
Qed.
Lemma In_mget {A} k (f : A) m : mget k m = Some f -> In (k, f) m.
Proof. induction m as [|[a b] m IH]; cbn [mget]; [discriminate|]. destruct (eq_list k a) eqn:E; [|right; auto]. intros H. injection H as ->. apply eq_list_spec in E. subst. now left. Qed.
Lemma table_filled lower rows : (forall r, In r rows -> live r -> 0 <= r_part r) -> parts_distinct lower rows ->
  exists m, table_files lower rows = Ok m /\ forall k f, mget k m = Some f -> exists p, 0 <= p /\ filled lower (filter taken rows) k p f /\ exists r, In r rows /\ live r /\ lower (Cfg_Model.r_name r) = k.
Proof.
  intros HP HD. unfold table_files. set (all := filter taken rows).
  assert (IA : forall r, In r all <-> In r rows /\ live r) by (intros r; unfold all; rewrite filter_In, taken_live; reflexivity).
  pose proof (max_parts_ok lower all [] []) as HG. cbn [app] in HG. assert (HG' : forall k, greatest lower all k (mget k (max_parts lower all []))) by (apply HG; intros k r []). clear HG.
  assert (S0 : sorted (max_parts lower all [])) by (apply max_parts_sorted; constructor).
  set (mp := max_parts lower all []) in *.
  destruct (new_files_ok lower mp) as (m0 & E0 & H0).
  - intros k p G. specialize (HG' k). rewrite G in HG'. destruct HG' as [(r & R1 & R2 & R3) _]. rewrite <- R3. apply IA in R1. apply HP; tauto.
  - apply sorted_nodup. exact S0.
  - rewrite E0. cbn [rbind].
    destruct (fill_ok lower all [] m0 (fun k => mget k mp)) as (m1 & E1 & H1).
    + intros k. rewrite H0. destruct (mget k mp) as [p|]; [|exact Logic.I]. split; [|split; [intros r H; discriminate|reflexivity]]. cbn [t_addr].
      generalize 0%nat. generalize (Z.to_nat (p + 1)). induction n as [|n IHn]; intros a; [reflexivity|]. cbn [repeat seq map]. f_equal. apply IHn.
    + intros r Hr. pose proof (HG' (key lower r)) as G. destruct (mget (key lower r) mp) as [p|]; [|exfalso; exact (G r Hr eq_refl)]. exists p. split; [reflexivity|]. destruct G as [_ G]. split; [apply IA in Hr; apply HP; tauto|apply G; [exact Hr|reflexivity]].
    + intros i r Hi. split; [intros x []|]. intros j x L Hj EK EP. destruct (nth_error_filter_lt taken rows j i x r Hj Hi L) as (j' & i' & L' & J1 & J2).
      assert (i' = j'); [|lia]. assert (live x) by (apply nth_error_In in Hj; apply IA in Hj; tauto). assert (live r) by (apply nth_error_In in Hi; apply IA in Hi; tauto). symmetry. apply (HD j' i' x r); assumption.
    + exists m1. split; [exact E1|]. intros k f E. specialize (H1 k). specialize (HG' k). rewrite E in H1. cbn [app] in H1. destruct (mget k mp) as [p|]; [|contradiction]. exists p.
      destruct HG' as [(r & R1 & R2 & R3) _]. apply IA in R1. split; [rewrite <- R3; apply HP; tauto|]. split; [exact H1|]. exists r. split; [tauto|]. split; [tauto|exact R2].
Qed.

(** ** Files of a table without updates *)
Lemma mput_end {A} k (v : A) m : Forall (fun x => str_ltb (fst x) k = true) m -> mget k m = None /\ mput k v m = m ++ [(k, v)].
Proof.
  induction 1 as [|[a b] m H _ (I1 & I2)]; [split; reflexivity|]. cbn [mget mput app fst] in *. rewrite eq_list_neq; [|intros ->; rewrite str_lt_irrefl in H; discriminate]. split; [exact I1|].
  destruct (str_ltb k a) eqn:E; [|now rewrite I2]. pose proof (str_lt_trans (fun l => l) _ _ _ H E) as Q. rewrite str_lt_irrefl in Q. discriminate.
Qed.
Definition as_is (x : list Z * tfile) : list Z * cfile := (fst x, CF (snd x) (t_name (snd x)) (-1)).
Definition used (x : list Z * tfile) : bool := negb (first_len (snd x) =? 0).
Lemma loop_plain lower m : forall acc, sorted m -> Forall (fun x => fst x <> lower s_DynamicallyUpdated /\ (first_len (snd x) <> 0 -> fst x = lower (t_name (snd x)) /\ Cfg_Spec.means lower (t_name (snd x)) (t_name (snd x)) (-1))) m ->
  Forall (fun a => Forall (fun x => str_ltb (fst a) (fst x) = true) m) acc -> config_loop lower [] m acc = Ok (acc ++ map as_is (filter used m)).
Proof.
  induction m as [|[k f] m IH]; intros acc S0 F A; cbn [config_loop filter map]; [now rewrite app_nil_r|]. inversion S0 as [|? ? S1 S2]; subst. inversion F as [|? ? (F1 & F2) F5]; subst. cbn [fst snd] in *.
  assert (A0 : Forall (fun a => Forall (fun x => str_ltb (fst a) (fst x) = true) m) acc) by (eapply Forall_impl; [|exact A]; cbv beta; intros x Hx; inversion Hx; subst; assumption).
  rewrite eq_list_neq by exact F1. unfold used at 1. cbn [snd]. destruct (Z.eqb_spec (first_len f) 0) as [Z0|Z0]; cbn [negb]; [now apply IH|]. destruct (F2 Z0) as (K & M). rewrite (rank_means lower [] _ _ _ M). cbn [rbind map]. rewrite K in A, S2 |- *.
  assert (A1 : Forall (fun x => str_ltb (fst x) (lower (t_name f)) = true) acc). { eapply Forall_impl; [|exact A]. cbv beta. intros x Hx. inversion Hx; subst. assumption. }
  unfold offer. destruct (mput_end (lower (t_name f)) (CF f (t_name f) (-1)) acc A1) as (-> & ->). rewrite IH; [|exact S1|exact F5|].
  - rewrite <- app_assoc. reflexivity.
  - apply Forall_app. split; [exact A0|]. constructor; [|constructor]. cbn [fst]. exact S2.
Qed.
Lemma joined_all blob l : joined blob l (concat (map (fun '(s, n) => if s =? 0 then [] else blob s n) l)).
Proof. induction l as [|[s n] l IH]; cbn [map concat]; [constructor|]. destruct (Z.eqb_spec s 0) as [-> |N]; [now constructor|now constructor]. Qed.
Lemma match_up {A B C} (f : A -> C) (g : B -> C) (R : A -> B -> Prop) : forall a b, map f a = map g b -> (forall x y, In x a -> In y b -> f x = g y -> R x y) -> Forall2 R a b.
Proof.
  induction a as [|x a IH]; intros [|y b] E H; try discriminate; constructor; cbn [map] in E.
  - apply H; [now left|now left|congruence].
  - apply IH; [congruence|]. intros. apply H; [now right|now right|assumption].
Qed.
Lemma room_perm a b : Permutation a b -> room a = room b.
Proof.
  intros P. unfold room. rewrite (Permutation_length P). f_equal. f_equal. induction P; cbn [fold_right]; lia.
Qed.

(** ** The pieces of a file *)
Section Pieces.
Variables (lower : list Z -> list Z) (stamp : list Z -> Z) (bf : option (list Z)) (ps : list (option piece)) (rows : list frow) (es : list entry).
Hypothesis HR : Forall2 (row_for bf) ps rows.
Hypothesis HE : files_are lower stamp ps es.
Let nm (e : entry) := lower (utf8_of (e_name e)).

Lemma row_piece i r : nth_error rows i = Some r -> live r -> exists p, nth_error ps i = Some (Some p) /\ row_for bf (Some p) r.
Proof.
  revert i. pose proof HR as H0. clear - H0. induction H0 as [|o r0 ps0 rows0 H _ IH]; intros [|i] E L; try discriminate; cbn [nth_error] in *; [|exact (IH i E L)].
  injection E as ->. destruct o as [p|]; [exists p; auto|]. cbn [row_for] in H. apply taken_live in L. congruence.
Qed.
Lemma piece_row i p : nth_error ps i = Some (Some p) -> exists r, nth_error rows i = Some r /\ row_for bf (Some p) r /\ live r /\ Cfg_Model.r_name r = utf8_of (p_name p) /\ r_part r = p_part p.
Proof.
  revert i. pose proof HR as H0. clear - H0. induction H0 as [|o r0 ps0 rows0 H _ IH]; intros [|i] E; try discriminate; cbn [nth_error] in *; [|exact (IH i E)].
  injection E as ->. exists r0. split; [reflexivity|]. split; [exact H|]. destruct H as (s & S0 & _ & N & _ & _ & D & _ & _ & _ & ->). cbn [Cfg_Model.r_name r_part]. split; [|auto]. split; [reflexivity|]. cbn [Cfg_Model.r_name r_start r_len].
  split; [exact S0|]. split; [|now apply utf8_ne]. destruct (p_data p); [congruence|]. rewrite zlen_cons. pose proof (zlen_nonneg l). lia.
Qed.
Lemma row_shape p r : row_for bf (Some p) r -> Cfg_Model.r_name r = utf8_of (p_name p) /\ r_part r = p_part p /\ 0 <= r_part r.
Proof. intros (s & _ & _ & _ & _ & P0 & _ & _ & _ & _ & ->). cbn [Cfg_Model.r_name r_part]. auto. Qed.
Lemma rows_nonneg r : In r rows -> live r -> 0 <= r_part r.
Proof. intros I1 L. destruct (In_nth_error _ _ I1) as (i & E). destruct (row_piece i r E L) as (p & _ & H). apply (row_shape p r H). Qed.
Lemma rows_distinct : parts_distinct lower rows.
Proof.
  intros i j a b Ha Hb La Lb EN EP. destruct (row_piece i a Ha La) as (p & Hp & Rp). destruct (row_piece j b Hb Lb) as (q & Hq & Rq). destruct (row_shape _ _ Rp) as (N1 & P1 & _), (row_shape _ _ Rq) as (N2 & P2 & _).
  destruct HE as (_ & _ & _ & H). apply (H i j p q); try assumption; [now rewrite <- N1, <- N2|congruence].
Qed.
(** the rows of a file *)
Lemma rows_of l : (forall p, In p l -> In (Some p) ps) -> exists rl, Forall2 (fun p r => In r rows /\ live r /\ row_for bf (Some p) r) l rl.
Proof.
  induction l as [|p l IH]; intros H; [exists []; constructor|]. destruct IH as (rl & R); [intros q Q; apply H; now right|]. destruct (In_nth_error _ _ (H p (or_introl eq_refl))) as (i & E). destruct (piece_row i p E) as (r & E1 & E2 & E3 & _).
  exists (r :: rl). constructor; [|exact R]. split; [eapply nth_error_In; exact E1|auto].
Qed.
Lemma same_row a b : In a rows -> In b rows -> live a -> live b -> lower (Cfg_Model.r_name a) = lower (Cfg_Model.r_name b) -> r_part a = r_part b -> a = b.
Proof.
  intros A B La Lb E1 E2. destruct (In_nth_error _ _ A) as (i & Ei). destruct (In_nth_error _ _ B) as (j & Ej). pose proof (rows_distinct i j a b Ei Ej La Lb E1 E2) as ->. congruence.
Qed.
Lemma parts_of_rows name l rl : StronglySorted (fun a b => p_part a < p_part b) l -> (forall p, In p l <-> In (Some p) ps /\ lower (utf8_of (p_name p)) = lower name) ->
  Forall2 (fun p r => In r rows /\ live r /\ row_for bf (Some p) r) l rl -> parts_of lower rows name rl.
Proof.
  intros S0 HL F. split.
  - intros r. split.
    + intros I1. assert (X : exists p, In p l /\ In r rows /\ live r /\ row_for bf (Some p) r). { clear - F I1. induction F as [|p r0 l rl H _ IH]; [destruct I1|]. destruct I1 as [-> |I1]; [exists p; split; [now left|exact H]|]. destruct (IH I1) as (q & Q & K). exists q. split; [now right|exact K]. }
      destruct X as (p & Ip & Ir & L & R). split; [exact Ir|]. split; [exact L|]. destruct (row_shape _ _ R) as (-> & _). apply HL in Ip. apply Ip.
    + intros (Ir & L & E). destruct (In_nth_error _ _ Ir) as (i & Ei). destruct (row_piece i r Ei L) as (p & Ep & R). destruct (row_shape _ _ R) as (N1 & N2 & _).
      assert (Ip : In p l) by (apply HL; split; [eapply nth_error_In; exact Ep|rewrite <- N1; exact E]).
      assert (X : exists r', In r' rl /\ In r' rows /\ live r' /\ row_for bf (Some p) r'). { clear - F Ip. induction F as [|q r0 l rl H _ IH]; [destruct Ip|]. destruct Ip as [-> |Ip]; [exists r0; split; [now left|exact H]|]. destruct (IH Ip) as (r' & Q & K). exists r'. split; [now right|exact K]. }
      destruct X as (r' & Ir' & Ir2 & L2 & R2). destruct (row_shape _ _ R2) as (M1 & M2 & _). assert (r = r') by (apply same_row; try assumption; congruence). now subst.
  - clear HL. revert rl F. induction S0 as [|p l S1 IH S2]; intros rl F; inversion F as [|? r ? rl' (_ & _ & R) F']; subst; constructor; [now apply IH|]. destruct (row_shape _ _ R) as (_ & P1 & _). rewrite P1. clear - S2 F' P1.
    induction F' as [|q r' l rl' (_ & _ & H) _ IH]; constructor; inversion S2; subst; [|now apply IH]. destruct (row_shape _ _ H) as (_ & -> & _). assumption.
Qed.
End Pieces.

(** ** One file *)
Section Whole.
Variables (lower : list Z -> list Z) (stamp : list Z -> Z) (bf : option (list Z)) (ps : list (option piece)) (rows : list frow) (es : list entry) (blob : Z -> Z -> res (list Z)).
Hypothesis HR : Forall2 (row_for bf) ps rows.
Hypothesis HE : files_are lower stamp ps es.
Hypothesis HB : forall s n d, blob_in bf s n d -> blob s n = Ok d.
Hypothesis H0 : bf <> None -> blob 0 0 = Ok [].
Hypothesis HS : forall d, 0 <= stamp d < 2 ^ 64.
Hypothesis HO : Forall (ordinary lower) es.
Hypothesis HU : no_updates lower ps.
Let read (s n : Z) : list Z := match blob s n with Ok d => d | _ => [] end.

Lemma row_data p r : row_for bf (Some p) r -> blob (r_start r) (r_len r) = Ok (p_data p) /\ bf <> None /\ r_time r = le_val (p_made p ++ p_changed p) /\ r_len r <> 0 /\ length (p_made p) = 7%nat /\ length (p_changed p) = 7%nat /\ bytes_ok (p_made p ++ p_changed p) /\ Forall scalar (p_name p) /\ p_data p <> [].
Proof.
  intros (s & S0 & B & N & SC & P0 & D & L1 & L2 & BO & ->). cbn [r_start r_len r_time]. split; [now apply HB|]. split; [destruct B as (c & bl & -> & _); discriminate|]. split; [reflexivity|]. split; [|auto].
  destruct (p_data p); [congruence|]. rewrite zlen_cons. pose proof (zlen_nonneg l). lia.
Qed.
Lemma times_of p r : row_for bf (Some p) r -> two_times stamp (r_time r) = (stamp (p_made p), stamp (p_changed p)).
Proof.
  intros R. destruct (row_data p r R) as (_ & _ & -> & _ & L1 & L2 & BO & _). unfold two_times. replace 14%nat with (length (p_made p ++ p_changed p)) by (rewrite app_length; lia). rewrite le_bytes_val by exact BO.
  f_equal; f_equal; [apply Xml_Values.firstn_app_exact|apply Xml_Values.skipn_app_exact]; lia.
Qed.
Lemma file_ok m k f e : table_files lower rows = Ok m -> In (k, f) m -> In e es -> k = lower (utf8_of (e_name e)) ->
  k = lower (t_name f) /\ t_name f = utf8_of (e_name e) /\ first_len f <> 0 /\ Forall scalar (e_name e) /\ two_times stamp (t_time f) = (e_create e, e_modify e) /\
  joined read (t_addr f) (e_bytes e) /\ e_bytes e <> [] /\ read_parts blob (t_addr f) = Ok (e_bytes e).
Proof.
  intros Em Ik Ie Ek. destruct (table_filled lower rows (rows_nonneg bf ps rows HR) (rows_distinct lower stamp bf ps rows es HR HE)) as (m1 & E1 & F). assert (m1 = m) by congruence. subst m1.
  destruct (table_ok lower rows (rows_nonneg bf ps rows HR) (rows_distinct lower stamp bf ps rows es HR HE)) as (m1 & E2 & Srt & G). assert (m1 = m) by congruence. subst m1. clear E1 E2.
  pose proof (mget_In k f m (sorted_nodup m Srt) Ik) as Eg. destruct (F k f Eg) as (pm & P0 & (Fa & Fn & _) & _). specialize (G (utf8_of (e_name e))). unfold get_file in G. rewrite <- Ek, Eg in G. destruct G as (G1 & _ & G3).
  pose proof HE as (HE1 & _). rewrite Forall_forall in HE1. destruct (HE1 e Ie) as (p0 & l & S0 & L0 & Q0 & QN & QC & QM & QB).
  destruct (rows_of bf ps rows HR (p0 :: l)) as (rl & RL); [intros p Ip; apply L0 in Ip; apply Ip|].
  pose proof (parts_of_rows lower stamp bf ps rows es HR HE (utf8_of (e_name e)) (p0 :: l) rl S0 L0 RL) as PO. specialize (G1 read rl PO).
  assert (EB : concat (map (fun r => read (r_start r) (r_len r)) rl) = e_bytes e).
  { rewrite QB. f_equal. assert (X : forall l1 l2, Forall2 (fun p r => In r rows /\ live r /\ row_for bf (Some p) r) l1 l2 -> map (fun r => read (r_start r) (r_len r)) l2 = map p_data l1); [|now apply X].
    intros l1 l2 R2. induction R2 as [|p r l1 l2 (_ & _ & R) _ IH]; [reflexivity|]. cbn [map]. f_equal; [|exact IH]. unfold read. destruct (row_data p r R) as (-> & _). reflexivity. }
  rewrite EB in G1. inversion RL as [|? r0 ? rl' (I0 & L1 & R0) RL']; subst rl. destruct (row_shape bf _ _ R0) as (N0 & NP & _). destruct (row_data _ _ R0) as (D1 & D2 & D3 & D4 & _ & _ & _ & D5 & D6).
  assert (K0 : lower (Cfg_Model.r_name r0) = lower (utf8_of (e_name e))) by (rewrite N0, QN; reflexivity).
  destruct (G3 r0 I0 L1 (eq_trans K0 (eq_sym Ek))) as (T1 & T2); [lia|]. rewrite N0, <- QN in T1.
  assert (RA : row_at lower (filter taken rows) k 0 = Some r0).
  { unfold row_at. destruct (find (fun r => eq_list (key lower r) k && (r_part r =? Z.of_nat 0)) (filter taken rows)) as [xr|] eqn:EF.
    - apply find_some in EF. destruct EF as (X1 & X2). apply andb_true_iff in X2. destruct X2 as (X2 & X3). apply eq_list_spec in X2. apply Z.eqb_eq in X3. apply filter_In in X1. destruct X1 as (X1 & X4). apply taken_live in X4. f_equal.
      apply (same_row lower stamp bf ps rows es HR HE); try assumption; [unfold key in X2; congruence|cbn in X3; lia].
    - exfalso. assert (I2 : In r0 (filter taken rows)) by (apply filter_In; split; [exact I0|now apply taken_live]). pose proof (find_none _ _ EF r0 I2) as X. cbv beta in X. unfold key in X. rewrite K0, <- Ek, eq_list_refl, NP, Q0 in X. discriminate. }
  split; [now rewrite T1|]. split; [exact T1|]. split.
  { unfold first_len. rewrite Fa. replace (Z.to_nat (pm + 1)) with (S (Z.to_nat pm)) by lia. cbn [seq map nth snd]. rewrite RA. cbn [snd]. exact D4. }
  split; [rewrite QN; exact D5|]. split; [rewrite T2, (times_of _ _ R0), QC, QM; reflexivity|]. split; [rewrite <- G1; apply joined_all|]. split.
  { rewrite QB. cbn [map concat]. destruct (p_data p0); [congruence|discriminate]. }
  rewrite <- G1. unfold raw_file.
  assert (RD : Forall (fun a => a = (0, 0) \/ exists d, fst a <> 0 /\ blob (fst a) (snd a) = Ok d) (t_addr f)).
  { rewrite Fa. apply Forall_forall. intros a Ha. apply in_map_iff in Ha. destruct Ha as (i & <- & _). destruct (row_at lower (filter taken rows) k i) as [r|] eqn:ER; [|now left]. right. apply find_some in ER. destruct ER as (X1 & _). apply filter_In in X1. destruct X1 as (X1 & X2). apply taken_live in X2.
    destruct (In_nth_error _ _ X1) as (j & Ej). destruct (row_piece bf ps rows HR j r Ej X2) as (q & _ & Rq). exists (p_data q). cbn [fst snd]. split; [apply X2|]. apply (row_data q r Rq). }
  clear - RD H0 D2. induction RD as [|[s n] l H _ IH]; [reflexivity|]. cbn [read_parts map concat]. rewrite IH. destruct H as [E|(d & S0 & E)].
  - injection E as -> ->. rewrite (H0 D2). reflexivity.
  - cbn [fst snd] in *. rewrite E. cbn [rbind]. unfold read. rewrite E. destruct (Z.eqb_spec s 0); [congruence|reflexivity].
Qed.
Lemma files_ok : exists m c es', table_files lower rows = Ok m /\ updates_of lower blob m = Ok [] /\ config_files lower [] m = Ok c /\ read_all blob c = Ok tt /\
  Permutation es es' /\ Forall2 (stands read (two_times stamp)) c es'.
Proof.
  destruct (table_ok lower rows (rows_nonneg bf ps rows HR) (rows_distinct lower stamp bf ps rows es HR HE)) as (m & Em & Srt & G). pose proof (sorted_nodup m Srt) as ND. pose proof HE as (HE1 & HE2 & HE3 & _). rewrite Forall_forall in HE1. rewrite Forall_forall in HO.
  destruct (table_filled lower rows (rows_nonneg bf ps rows HR) (rows_distinct lower stamp bf ps rows es HR HE)) as (m1 & E1 & F). assert (m1 = m) by congruence. subst m1. clear E1.
  assert (KP : forall k f, In (k, f) m -> exists p, In (Some p) ps /\ k = lower (utf8_of (p_name p))).
  { intros k f I1. destruct (F k f (mget_In k f m ND I1)) as (_ & _ & _ & r & Ir & L & <-). destruct (In_nth_error _ _ Ir) as (i & Ei). destruct (row_piece bf ps rows HR i r Ei L) as (p & Ep & R). destruct (row_shape bf _ _ R) as (-> & _).
    exists p. split; [eapply nth_error_In; exact Ep|reflexivity]. }
  assert (KE : forall k f, In (k, f) m -> first_len f <> 0 -> exists e, In e es /\ k = lower (utf8_of (e_name e))).
  { intros k f I1 Z0. destruct (KP k f I1) as (p & Ip & Ek). destruct (HE3 p Ip) as [(e & Ie & E)|N]; [exists e; split; [exact Ie|congruence]|]. exfalso. apply Z0.
    destruct (F k f (mget_In k f m ND I1)) as (pm & P0 & (Fa & _) & _). unfold first_len. rewrite Fa. replace (Z.to_nat (pm + 1)) with (S (Z.to_nat pm)) by lia. cbn [seq map nth snd].
    destruct (row_at lower (filter taken rows) k 0) as [r|] eqn:ER; [|reflexivity]. exfalso. apply find_some in ER. destruct ER as (X1 & X2). apply andb_true_iff in X2. destruct X2 as (X2 & X3). apply eq_list_spec in X2. apply Z.eqb_eq in X3. apply filter_In in X1. destruct X1 as (X1 & X4). apply taken_live in X4.
    destruct (In_nth_error _ _ X1) as (i & Ei). destruct (row_piece bf ps rows HR i r Ei X4) as (q & Eq & R). destruct (row_shape bf _ _ R) as (Q1 & Q2 & _). unfold key in X2. apply (N q); [eapply nth_error_In; exact Eq|rewrite <- Q1; congruence|cbn in X3; lia]. }
  assert (EK : forall e, In e es -> exists f, In (lower (utf8_of (e_name e)), f) m).
  { intros e Ie. destruct (HE1 e Ie) as (p0 & l & _ & L0 & _ & QN & _). destruct (proj1 (L0 p0) (or_introl eq_refl)) as (Ip & Hp). destruct (In_nth_error _ _ Ip) as (i & Ei). destruct (piece_row bf ps rows HR i p0 Ei) as (r & Er & _ & L & N & _).
    specialize (G (utf8_of (e_name e))). unfold get_file in G. destruct (mget (lower (utf8_of (e_name e))) m) as [f|] eqn:Eg; [exists f; now apply In_mget in Eg|]. exfalso. apply (G r); [eapply nth_error_In; exact Er|exact L|rewrite N; exact Hp]. }
  assert (NDf : NoDup (map fst (filter used m))).
  { clear - ND. induction m as [|x m IH]; [constructor|]. cbn [map] in ND. inversion ND as [|? ? N1 N2]; subst. cbn [filter]. destruct (used x); [|now apply IH]. cbn [map]. constructor; [|now apply IH]. intros I1. apply N1. apply in_map_iff in I1. destruct I1 as (y & Ey & Iy). apply filter_In in Iy. rewrite <- Ey. apply in_map. apply Iy. }
  assert (PK : Permutation (map fst (filter used m)) (map (fun e => lower (utf8_of (e_name e))) es)).
  { apply NoDup_Permutation; [exact NDf|exact HE2|]. intros k. split.
    - intros I1. apply in_map_iff in I1. destruct I1 as ([k' f] & Q & I1). cbn [fst] in Q. subst k'. apply filter_In in I1. destruct I1 as (I1 & U). unfold used in U. cbn [snd] in U. destruct (Z.eqb_spec (first_len f) 0) as [|Z0]; [discriminate|]. destruct (KE k f I1 Z0) as (e & Ie & ->). apply in_map_iff. exists e. auto.
    - intros I1. apply in_map_iff in I1. destruct I1 as (e & <- & Ie). destruct (EK e Ie) as (f & I1). apply in_map_iff. exists (lower (utf8_of (e_name e)), f). split; [reflexivity|]. apply filter_In. split; [exact I1|].
      destruct (file_ok m _ f e Em I1 Ie eq_refl) as (_ & _ & A3 & _). unfold used. cbn [snd]. destruct (Z.eqb_spec (first_len f) 0); [congruence|reflexivity]. }
  destruct (Permutation_map_inv _ _ PK) as (es' & EM & PE). exists m, (map as_is (filter used m)), es'. split; [exact Em|].
  assert (OK : forall k f, In (k, f) m -> first_len f <> 0 -> exists e, In e es /\ k = lower (utf8_of (e_name e)) /\ (k = lower (t_name f) /\ t_name f = utf8_of (e_name e) /\ read_parts blob (t_addr f) = Ok (e_bytes e))).
  { intros k f I1 Z0. destruct (KE k f I1 Z0) as (e & Ie & Ek). exists e. split; [exact Ie|]. split; [exact Ek|]. destruct (file_ok m k f e Em I1 Ie Ek) as (A1 & A2 & A3 & _ & _ & _ & _ & A4). auto. }
  split.
  { unfold updates_of. unfold get_file in *. destruct (mget (lower s_DynamicallyUpdated) m) as [f|] eqn:Eg; [|reflexivity]. exfalso. apply In_mget in Eg. destruct (KP _ _ Eg) as (p & Ip & Ek). apply (HU p Ip). congruence. }
  split.
  { unfold config_files. rewrite (loop_plain lower m []); [reflexivity|exact Srt| |constructor]. apply Forall_forall. intros [k f] I1. cbn [fst snd]. split; [destruct (KP k f I1) as (p & Ip & ->); exact (HU p Ip)|]. intros Z0. destruct (OK k f I1 Z0) as (e & Ie & Ek & A1 & A2 & _). split; [exact A1|]. rewrite A2. exact (HO e Ie). }
  split.
  { clear - OK. assert (X : forall m', (forall x, In x m' -> In x m) -> read_all blob (map as_is (filter used m')) = Ok tt); [|now apply X]. induction m' as [|[k f] m' IH]; intros H; [reflexivity|]. cbn [filter]. destruct (used (k, f)) eqn:U; [|apply IH; intros x Hx; apply H; now right]. cbn [map read_all as_is fst snd c_file].
    unfold used in U. cbn [snd] in U. destruct (Z.eqb_spec (first_len f) 0) as [|Z0]; [discriminate|]. destruct (OK k f) as (e & _ & _ & _ & _ & ->); [apply H; now left|exact Z0|]. cbn [rbind]. apply IH. intros x Hx. apply H. now right. }
  split; [exact PE|]. apply (match_up fst (fun e => lower (utf8_of (e_name e)))); [rewrite map_map; cbn [as_is fst]; exact EM|].
  intros [k c] e Ix Ie Ek. cbn [fst] in Ek. apply in_map_iff in Ix. destruct Ix as ([k' f] & Q & I1). apply filter_In in I1. destruct I1 as (I1 & _). unfold as_is in Q. cbn [fst snd] in Q. injection Q as -> <-.
  assert (Ie2 : In e es) by (apply (Permutation_in _ (Permutation_sym PE)); exact Ie). destruct (file_ok m k f e Em I1 Ie2 Ek) as (A1 & A2 & A3 & A4 & A5 & A6 & A7 & _). unfold stands. cbn [snd c_name c_file]. split; [exact A2|]. split; [exact A4|]. split; [exact A5|]. split; [|auto].
  assert (X : e_create e = fst (two_times stamp (t_time f))) by (rewrite A5; reflexivity). rewrite X. unfold two_times. cbn [fst]. apply HS.
Qed.
End Whole.

(** ** The database *)
Lemma open_db_kind same hjunk junk file mono b : open_db same hjunk junk file mono = Ok b -> db_kind (fun n => existsb (fun t => same (td_name (ot_decl t)) n) (db_tables b)) = Ok (db_what b).
Proof.
  unfold open_db. intros H. repeat match type of H with
  | rbind ?r _ = _ => let E := fresh "E" in destruct r eqn:E; cbn [rbind] in H; try discriminate
  end. assert (Q : b = DBase (h_page a) (is_838 (h_ver a)) (pages_of_file (h_page a) (h_pages a) file) a4 a5) by congruence. subst b. cbn [db_tables db_what]. assumption.
Qed.
Lemma config_table_ok same pn v st xs b x : Forall2 (table_view pn v st) xs (db_tables b) -> config_of same xs x -> exists t, config_table same b = Some t /\ table_view pn v st x t.
Proof.
  intros V (a & c & -> & Hs & Hn). unfold config_table. destruct (Forall2_app_inv_l _ _ V) as (ta & tc & Va & Vc & ->). inversion Vc as [|? t ? tc' Vt Vc']; subst. exists t. split; [|exact Vt]. rewrite fold_left_app. cbn [fold_left].
  assert (E : ot_decl t = c_decl x) by apply Vt. rewrite E, Hs. clear - Vc' Hn. revert Hn. induction Vc' as [|y u c tc (Ey & _) _ IH]; intros Hn; [reflexivity|]. inversion Hn as [|? ? H1 H2]; subst. cbn [fold_left]. rewrite Ey, H1. now apply IH.
Qed.
Lemma blob_none pn v st x t : table_view pn v st x t -> c_blob x <> None -> table_blob (Z.of_nat pn) st (ot_blob t) 0 0 = Ok [].
Proof.
  intros V N. apply (blob_get pn v st x t 0 0 [] V). destruct (c_blob x) as [c|]; [|congruence]. exists c, []. split; [reflexivity|]. split; [exists []; split; reflexivity|]. split; [reflexivity|]. cbn [length]. lia.
Qed.
Lemma saved_from_file lower same g stamp fuel after hjunk junk file mono h st xs x ps es : (forall d, 0 <= stamp d < 2 ^ 64) -> In 0 after ->
  database same file mono h st xs -> infobase same xs -> config_of same xs x -> table_holds x ps -> files_are lower stamp ps es -> Forall (ordinary lower) es -> no_updates lower ps -> room es < 2147483647 -> room es <= Z.of_nat fuel ->
  exists d ys es', save_of_file lower same g stamp fuel after hjunk junk file mono = Ok d /\ (forall junk, length junk = 31%nat -> is_catalog junk d = Ok true) /\
    open_files fuel after d = Ok ys /\ Permutation es es' /\ Forall2 (shows fuel after d) ys es'.
Proof.
  intros HS HA D HI HC HT HE HO HU HR HF. destruct (open_db_ok same hjunk junk _ _ _ _ _ D) as (b & E & B1 & B2 & B3 & P32 & V). unfold save_of_file. rewrite E. cbn [rbind].
  set (pn := Z.to_nat (h_page h)) in *. set (v := v838_of (h_ver h)) in *. assert (Ep : db_ps b = Z.of_nat pn) by (rewrite B1; unfold pn in *; lia).
  assert (K : db_what b = Infobase).
  { pose proof (open_db_kind _ _ _ _ _ _ E) as K. assert (K2 : db_kind (fun n => existsb (fun t => same (td_name (ot_decl t)) n) (db_tables b)) = Ok Infobase); [|congruence]. apply kind_exact. intros n Hn. apply (has_ok same xs); [exact (views_decls _ _ _ _ _ V)|]. apply HI. exact Hn. }
  destruct (config_table_ok same pn v st xs b x V HC) as (t & Et & Vt). unfold save_base. rewrite K, Et.
  destruct (files_rows lower g b pn v st x t ps Ep B3 Vt HT) as (rows & Ef & RW). rewrite Ef.
  destruct (files_ok lower stamp (c_blob x) ps rows es (table_blob (db_ps b) (db_st b) (ot_blob t)) RW HE) as (m & c & es' & E1 & E2 & E3 & E4 & PE & ST); [| |exact HS|exact HO|exact HU|].
  { intros s n d Hd. rewrite Ep, B3. exact (blob_get pn v st x t s n d Vt Hd). }
  { intros N. rewrite Ep, B3. exact (blob_none pn v st x t Vt N). }
  rewrite E1. cbn [rbind]. rewrite E2. cbn [rbind]. rewrite E3. cbn [rbind]. rewrite E4. cbn [rbind].
  destruct (saved_ok lower fuel after (fun s n => match table_blob (db_ps b) (db_st b) (ot_blob t) s n with Ok d => d | _ => [] end) (two_times stamp) c es') as (d & ys & S1 & S2 & S3 & S4 & _).
  - exact HA.
  - apply built_named. left. exists [], m. exact E3.
  - exact ST.
  - rewrite <- (room_perm _ _ PE). exact HR.
  - rewrite <- (room_perm _ _ PE). exact HF.
  - exists d, ys, es'. auto.
Qed.
