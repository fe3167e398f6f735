From Coq Require Import Sorted.
From Verif Require Import Prelude Lists Text_Spec Text_Model Text_Proofs Codec_Spec Codec_Model Codec_Proofs Tree_Model Tree_Spec Tree_Proofs Lost_Spec Lost_Proofs Cf_Model Cf_Spec Cf_Proofs Cf_Hist Cf_Extra Cfg_Model Cfg_Proofs Run_Model Depot_Model Depot_Spec Depot_Proofs Depot_Export Save_Model Save_Spec Save_Proofs Conf_Files Out_Model Out_Spec Out_Proofs Old_Model Old_Spec.
Ltac Zify.zify_post_hook ::= idtac.
Local Opaque le_bytes.

(** ** A container whose first element is written last *)
Lemma do_ops_app fuel after a : forall b r, do_ops fuel after (a ++ b) r = (do r <- do_ops fuel after a r; do_ops fuel after b r).
Proof. induction a as [|o a IH]; intros b r; [reflexivity|]. cbn [app do_ops]. destruct (do_op fuel after o r); cbn [rbind]; [apply IH|reflexivity..]. Qed.
Lemma history_app a : forall b s, history_ok a s -> history_ok b (spec_ops a s) -> history_ok (a ++ b) s.
Proof. induction a as [|o a IH]; intros b s H1 H2; [exact H2|]. cbn [app history_ok] in *. destruct H1. split; [assumption|]. apply IH; assumption. Qed.
Lemma total_app a b : total_growth 512 (a ++ b) = total_growth 512 a + total_growth 512 b.
Proof. induction a as [|o a IH]; [reflexivity|]. cbn [app]. unfold total_growth in *. cbn [fold_right]. rewrite IH. lia. Qed.

Lemma loop_same lower fuel after deflate blob times tc tm meta m : forall held c s0 l, ~ In (lower (s_name s0)) (map (fun x => lower (c_name (snd x))) m) ->
  old_loop lower fuel after deflate blob times tc tm meta m held c (s0 :: l) = (do r <- save_loop lower fuel after blob times m c (s0 :: l); Ok (held, fst r, snd r)).
Proof.
  induction m as [|[k f] m IH]; intros held c s0 l N; [reflexivity|]. cbn [map snd In] in N. cbn [old_loop save_loop]. unfold create_slot. cbn [find_slot]. rewrite eq_list_neq by (intros E; apply N; left; now rewrite E).
  destruct (find_slot lower (c_name f) l) as [i|] eqn:F; cbn [option_map].
  - destruct (times (t_time (c_file f))) as [a b]. cbn [nth]. destruct (write_and_close fuel after c (nth i l (SL [] 0 0)) a b (raw_file blob (c_file f))) as [w| | |]; cbn [rbind]; [|reflexivity..]. unfold put_slot. cbn [firstn skipn app]. rewrite IH by tauto. reflexivity.
  - cbn [length app nth]. destruct (times (t_time (c_file f))) as [a b]. destruct (write_and_close fuel after c (nth (length l) (l ++ [SL (c_name f) 0 0]) (SL [] 0 0)) a b (raw_file blob (c_file f))) as [w| | |]; cbn [rbind]; [|reflexivity..]. unfold put_slot. cbn [firstn skipn app]. rewrite IH by tauto. reflexivity.
Qed.
Section First.
Variables (lower : list Z -> list Z) (fuel : nat) (after : list Z) (deflate : list Z -> list Z) (blob : Z -> Z -> list Z) (times : Z -> Z * Z) (tc tm : Z) (meta : list Z) (cps : list Z).
Hypothesis HA : In 0 after.
Hypothesis HC : Forall scalar cps.
Hypothesis HT : 0 <= tc < 2 ^ 64.
Hypothesis HM : meta <> [].
Notation e0 := (EN cps tc tm meta).
Theorem first_saved m es : ~ In (lower (utf8_of cps)) (map (fun x => lower (c_name (snd x))) m) -> NoDup (map (fun x => lower (c_name (snd x))) m) -> Forall2 (stands blob times) m es ->
  room (e0 :: es) < LAST -> room (e0 :: es) <= Z.of_nat fuel ->
  exists d xs c l, old_loop lower fuel after deflate blob times tc tm meta m true (open_cat template) [SL (utf8_of cps) 0 0] = Ok (true, c, l) /\
    (do x <- close_first fuel after tc tm meta true c l; do w <- write_block fuel after (fst x) (flat_map (fun s => elem (s_header s) (s_data s)) (snd x)) 0 16 (-1) true; Ok (flush_marks (fst w) 1)) = Ok d /\
    (forall junk, length junk = 31%nat -> is_catalog junk d = Ok true) /\ open_files fuel after d = Ok xs /\ Forall2 (shows fuel after d) xs (e0 :: es).
Proof.
  intros HX HN HS HB HF. assert (HL := Forall2_length _ _ _ HS). set (n := length m) in *.
  assert (EX : exists ps, Forall2 (fun x p => named x p blob times) m ps /\ Forall2 (fun p e => fst p = e_bytes e /\ zlen (snd p) = 24 + name_size (Save_Spec.e_name e) /\ read_file_header (snd p) = Ok (e_create e, e_create e + 8, utf8_of (Save_Spec.e_name e) ++ [0; 0]) /\ e_bytes e <> []) ps es).
  { clear - HS. induction HS as [|x e m es (H1 & H2 & H3 & H4 & H5 & H6) _ (ps & I1 & I2)]; [exists []; split; constructor|].
    destruct (file_header_read (e_create e) (e_modify e) (Save_Spec.e_name e) H2 H4) as (h & F1 & F2). exists ((e_bytes e, h) :: ps). split; (apply Forall2_cons; [|assumption]).
    - split; cbn [fst snd]; [unfold raw_file; now apply raw_joined|]. rewrite H3, H1. exact F1.
    - cbn [fst snd]. split; [reflexivity|]. split; [exact (header_length _ _ _ _ H2 F1)|]. split; [exact F2|exact H6]. }
  destruct EX as (ps & P1 & P2). assert (LP := Forall2_length _ _ _ P1). assert (LE := Forall2_length _ _ _ P2).
  destruct (file_header_read tc tm cps HC HT) as (h0 & F1 & F2). pose proof (header_length _ _ _ _ HC F1) as FL.
  assert (NH : forall h x, read_file_header h = Ok x -> h <> []) by (intros h x E ->; unfold read_file_header in E; change (zlen (@nil Z) <? 20) with true in E; cbv iota in E; discriminate).
  assert (PN : Forall (fun x => fst x <> [] /\ snd x <> []) ps).
  { clear - P2 NH. induction P2 as [|p e ps es (H1 & H2 & H3 & H4) _ IH]; constructor; [|exact IH]. split; [now rewrite H1|exact (NH _ _ H3)]. }
  destruct (hist_spec ps 1 [] [None; None] eq_refl PN) as [HO SO]. rewrite <- LP in HO, SO. fold n in HO, SO.
  replace (ST [] ([None; None] ++ repeat None (2 * n))) with (empty_store (2 * S n)) in HO, SO by (unfold empty_store; replace (2 * S n)%nat with (S (S (2 * n))) by lia; reflexivity).
  set (os := hist 1 ps ++ [Write 1 meta; Write 0 h0]).
  assert (SS : spec_ops os (empty_store (2 * S n)) = ST [] (filed ((meta, h0) :: ps))).
  { unfold os, spec_ops. rewrite fold_left_app. fold (spec_ops (hist 1 ps) (empty_store (2 * S n))). rewrite SO. reflexivity. }
  assert (HO2 : history_ok os (empty_store (2 * S n))).
  { apply history_app; [exact HO|]. rewrite SO. cbn [history_ok op_ok spec_op s_files app length]. split; [split; [lia|now left]|]. split; [|exact Logic.I]. split; [unfold set_nth; cbn [firstn app length]; lia|left; exact (NH _ _ F2)]. }
  set (qs := (meta, h0) :: ps).
  assert (Q2 : Forall2 (fun p e => fst p = e_bytes e /\ zlen (snd p) = 24 + name_size (Save_Spec.e_name e) /\ read_file_header (snd p) = Ok (e_create e, e_create e + 8, utf8_of (Save_Spec.e_name e) ++ [0; 0]) /\ e_bytes e <> []) qs (e0 :: es)).
  { apply Forall2_cons; [|exact P2]. cbn [fst snd e_bytes Save_Spec.e_name e_create]. split; [reflexivity|]. split; [exact FL|]. split; [exact F2|exact HM]. }
  set (infos := map (fun e => (e_create e, e_create e + 8, utf8_of (Save_Spec.e_name e) ++ [0; 0])) (e0 :: es)).
  assert (LI : S n = length infos) by (unfold infos; rewrite map_length; cbn [length]; lia).
  assert (RO : 559 + total_growth 512 os + 31 + Z.max (12 * Z.of_nat (S n)) 512 = room (e0 :: es)).
  { unfold os. rewrite total_app, hist_growth. unfold room. cbn [length]. rewrite <- HL. fold n. assert (BN : block (12 * Z.of_nat (S n)) = 31 + Z.max (12 * Z.of_nat (S n)) 512) by reflexivity. rewrite BN. cbn [fold_right e_bytes Save_Spec.e_name]. unfold total_growth. cbn [fold_right growth]. fold (zlen meta).
    assert (B0 : block (zlen meta) = 31 + Z.max (zlen meta) 512) by reflexivity. assert (B1 : block (24 + name_size cps) = 31 + Z.max (zlen h0) 512) by (unfold block; now rewrite FL). rewrite B0, B1.
    assert (G : fold_right (fun x r => block (zlen (fst x)) + block (zlen (snd x)) + r) 0 ps = fold_right (fun e r => block (Z.of_nat (length (e_bytes e))) + block (24 + name_size (Save_Spec.e_name e)) + r) 0 es); [|lia]. clear - P2. induction P2 as [|p e ps es (H1 & H2 & H3 & H4) _ IH]; [reflexivity|]. cbn [fold_right]. rewrite IH, H1, H2. reflexivity. }
  assert (LQ : length qs = S n) by (unfold qs; cbn [length]; lia).
  assert (GET : forall j, (j < S n)%nat -> nth (2 * j) (filed qs) None = Some (snd (nth j qs ([], []))) /\ nth (2 * j + 1) (filed qs) None = Some (fst (nth j qs ([], [])))) by (intros j Hj; apply filed_nth; lia).
  destruct (reopen_ok fuel after (S n) os infos 1 HA LI ltac:(lia) HO2) as (r & r2 & D1 & D2 & K1 & K2 & K3).
  { intros j Hj. rewrite SS. cbn [s_files]. exists (snd (nth j qs ([], []))). split; [apply GET, Hj|]. pose proof (Forall2_nth_rel _ _ _ ([], []) (EN [] 0 0 []) Q2 j ltac:(lia)) as (_ & _ & H & _). rewrite H. unfold infos. rewrite (map_nth_lt _ (e0 :: es) j (EN [] 0 0 [])) by (cbn [length]; lia). reflexivity. }
  { lia. } { lia. }
  unfold os in D1. rewrite do_ops_app in D1. destruct (do_ops fuel after (hist 1 ps) (empty_run (2 * S n))) as [r1| | |] eqn:D0; cbn [rbind] in D1; try discriminate.
  assert (D0' : do_ops fuel after (hist (length [SL (utf8_of cps) 0 0]) ps) (RN (open_cat template) (addrs [SL (utf8_of cps) 0 0] ++ repeat 0 (2 * length m))) = Ok r1).
  { rewrite <- D0. unfold empty_run. replace (2 * S n)%nat with (S (S (2 * n))) by lia. reflexivity. }
  destruct (loop_hist lower fuel after blob times m ps (open_cat template) [SL (utf8_of cps) 0 0] r1 P1) as (l & L1 & L2 & L3); [cbn [map s_name app]; constructor; [exact HX|exact HN]|exact D0'|]. cbn [length Nat.add] in L3.
  assert (EL : exists l1, l = SL (utf8_of cps) 0 0 :: l1).
  { assert (G : forall m c l0 c' l', save_loop lower fuel after blob times m c (SL (utf8_of cps) 0 0 :: l0) = Ok (c', l') -> ~ In (lower (utf8_of cps)) (map (fun x => lower (c_name (snd x))) m) -> exists l1, l' = SL (utf8_of cps) 0 0 :: l1).
    { clear. induction m as [|[k f] m IH]; intros c l0 c' l' E N; [cbn [save_loop] in E; injection E as _ <-; exists l0; reflexivity|]. cbn [map snd In] in N. cbn [save_loop] in E. unfold create_slot in E. cbn [find_slot s_name] in E. rewrite eq_list_neq in E by (intros Q; apply N; left; now rewrite Q).
      destruct (find_slot lower (c_name f) l0) as [i|]; cbn [option_map] in E; destruct (times (t_time (c_file f))) as [a b]; cbn [nth length app] in E.
      - destruct (write_and_close fuel after c (nth i l0 (SL [] 0 0)) a b (raw_file blob (c_file f))) as [w| | |]; cbn [rbind] in E; try discriminate. unfold put_slot in E. cbn [firstn skipn app] in E. apply (IH _ _ _ _ E). tauto.
      - destruct (write_and_close fuel after c (nth (length l0) (l0 ++ [SL (c_name f) 0 0]) (SL [] 0 0)) a b (raw_file blob (c_file f))) as [w| | |]; cbn [rbind] in E; try discriminate. unfold put_slot in E. cbn [firstn skipn app] in E. apply (IH _ _ _ _ E). tauto. }
    exact (G m (open_cat template) [] (r_cat r1) l L1 HX). }
  destruct EL as (l1 & ->).
  assert (E2 : r_starts r2 = r_starts r). { cbn [do_op] in D2. destruct (write_block fuel after (r_cat r) (table (r_starts r) (S n)) 0 16 (-1) true) as [w| | |]; cbn [rbind] in D2; try discriminate. now injection D2 as <-. }
  exists (flush_marks (r_cat r2) 1), (map (fun '((t, m, name), k) => (name, t, m, nth (2 * k + 1) (r_starts r2) 0)) (combine infos (seq 0 (S n)))), (r_cat r1), (SL (utf8_of cps) 0 0 :: l1).
  split; [|split; [|split; [exact K1|split; [exact K2|]]]].
  - rewrite loop_same by exact HX. rewrite L1. reflexivity.
  - unfold close_first. cbn [nth]. unfold write_and_close. cbn [s_name s_data s_header]. rewrite F1. cbn [rbind].
    assert (RS : r_starts r1 = 0 :: 0 :: addrs l1) by (rewrite L2; reflexivity).
    cbn [do_ops do_op] in D1. rewrite RS in D1. cbn [nth] in D1. destruct (write_block fuel after (r_cat r1) meta 0 0 (-1) false) as [[c1 a1]| | |]; cbn [rbind] in D1 |- *; try discriminate. cbn [fst snd r_cat r_starts] in D1 |- *. unfold set_nth in D1. cbn [firstn skipn app nth] in D1.
    destruct (write_block fuel after c1 h0 0 0 (-1) false) as [[c2 a2]| | |]; cbn [rbind] in D1 |- *; try discriminate. cbn [fst snd firstn skipn app] in D1 |- *. assert (ER : r = RN c2 (a2 :: a1 :: addrs l1)) by congruence.
    unfold put_slot. cbn [firstn skipn app]. set (l2 := SL (utf8_of cps) a2 a1 :: l1).
    assert (TS : flat_map (fun s => elem (s_header s) (s_data s)) l2 = table (r_starts r) (S n)). { rewrite <- table_slots. rewrite ER. cbn [r_starts]. change (addrs l2) with (a2 :: a1 :: addrs l1). f_equal. unfold l2. cbn [length] in L3 |- *. lia. }
    rewrite TS. cbn [do_op] in D2. rewrite ER in D2 at 1. cbn [r_cat] in D2. destruct (write_block fuel after c2 (table (r_starts r) (S n)) 0 16 (-1) true) as [w| | |]; cbn [rbind] in D2 |- *; try discriminate. assert (E3 : r_cat r2 = fst w) by (injection D2 as <-; reflexivity). now rewrite E3.
  - rewrite LI. assert (NI : forall j, (j < length (e0 :: es))%nat -> nth j infos (0, 0, []) = (e_create (nth j (e0 :: es) (EN [] 0 0 [])), e_create (nth j (e0 :: es) (EN [] 0 0 [])) + 8, utf8_of (Save_Spec.e_name (nth j (e0 :: es) (EN [] 0 0 []))) ++ [0; 0])).
    { intros j Hj. unfold infos. rewrite (map_nth_lt _ (e0 :: es) j (EN [] 0 0 [])) by exact Hj. reflexivity. }
    apply entries_seq; [unfold infos; now rewrite map_length|]. intros j Hj. rewrite (NI j Hj). cbn [length] in Hj. unfold shows. split; [reflexivity|]. split; [reflexivity|]. cbn [Nat.add].
    specialize (K3 (2 * j + 1)%nat ltac:(lia)). rewrite SS in K3. cbn [s_files] in K3. fold qs in K3. rewrite (proj2 (GET j ltac:(lia))) in K3. unfold read_file in K3. cbn [r_starts r_cat] in K3. unfold read_data. pose proof (Forall2_nth_rel _ _ _ ([], []) (EN [] 0 0 []) Q2 j ltac:(lia)) as (HBt & _). rewrite <- HBt. exact K3.
Qed.
End First.

(** ** The loop with marks *)
Lemma sorted_maps {A B} (f g : A -> B) (P Q : B -> B -> Prop) l : (forall a b, P (f a) (f b) -> Q (g a) (g b)) -> StronglySorted P (map f l) -> StronglySorted Q (map g l).
Proof.
  intros H. induction l as [|a l IH]; intros S0; [constructor|]. cbn [map] in *. inversion S0 as [|? ? S1 F]; subst. constructor; [now apply IH|]. rewrite Forall_forall in *. intros y Hy. apply in_map_iff in Hy. destruct Hy as (b & <- & Ib). apply H. apply F. now apply in_map.
Qed.
Section Marks.
Variables (same : list Z -> list Z -> bool) (v : Z) (rows : list vrow) (exts : list xrow) (f : vrow -> hrow) (g : xrow -> erow).
Hypothesis Hf : forall r, h_obj (f r) = h_obj (v_row r) /\ h_ver (f r) = h_ver (v_row r) /\ h_removed (f r) = h_removed (v_row r) /\ h_packed (f r) = h_packed (v_row r).
Hypothesis Hg : forall x, e_obj (g x) = e_obj (x_row x) /\ e_ver (g x) = e_ver (x_row x) /\ e_packed (g x) = e_packed (x_row x) /\ Depot_Model.e_name (g x) = 1 :: Depot_Model.e_name (x_row x).
Notation R := (map v_row rows).
Notation X := (map x_row exts).
Notation R' := (map f rows).
Notation X' := (map g exts).
Lemma decisive_f r : decisive v (f r) <-> decisive v (v_row r).
Proof. unfold decisive. destruct (Hf r) as (_ & -> & -> & ->). tauto. Qed.
Lemma shown_f r : In r rows -> (shown v R' (f r) <-> shown v R (v_row r)).
Proof.
  intros Ir. unfold shown. rewrite decisive_f. destruct (Hf r) as (E1 & E2 & E3 & _). rewrite E1, E2, E3. split; intros (_ & H1 & H2 & H3); (split; [now apply in_map|]); (split; [exact H1|]); (split; [exact H2|]); intros r' Hr' E D; apply in_map_iff in Hr'; destruct Hr' as (q & <- & Iq); destruct (Hf q) as (Q1 & Q2 & _).
  - rewrite <- Q2. apply (H3 (f q)); [now apply in_map|now rewrite Q1|now apply decisive_f].
  - rewrite Q2. apply (H3 (v_row q)); [now apply in_map|now rewrite <- Q1|now apply decisive_f].
Qed.
Lemma same_g p q : marked_same same (Depot_Model.e_name (g p)) (Depot_Model.e_name (g q)) = same (Depot_Model.e_name (x_row p)) (Depot_Model.e_name (x_row q)).
Proof. unfold marked_same. destruct (Hg p) as (_ & _ & _ & ->). destruct (Hg q) as (_ & _ & _ & ->). reflexivity. Qed.
Lemma attached_g r x : In x exts -> (attached (marked_same same) v X' (f r) (g x) <-> attached same v X (v_row r) (x_row x)).
Proof.
  intros Ix. unfold attached. destruct (Hg x) as (G1 & G2 & G3 & _). destruct (Hf r) as (F1 & F2 & _). rewrite G1, G2, G3, F1, F2. split; intros (_ & H1 & H2 & H3 & H4 & e' & He & H5 & H6 & H7); (split; [now apply in_map|]); (split; [exact H1|]); (split; [exact H2|]); (split; [exact H3|]); apply in_map_iff in He; destruct He as (q & <- & Iq); destruct (Hg q) as (Q1 & Q2 & Q3 & _); (split; [|]).
  - intros e Ie A B C D. apply in_map_iff in Ie. destruct Ie as (p & <- & Ip). destruct (Hg p) as (P1 & P2 & P3 & _). rewrite <- P2. apply (H4 (g p)); [now apply in_map|congruence|lia|congruence|now rewrite same_g].
  - exists (x_row q). split; [now apply in_map|]. split; [congruence|]. split; [congruence|]. now rewrite same_g in H7.
  - intros e Ie A B C D. apply in_map_iff in Ie. destruct Ie as (p & <- & Ip). destruct (Hg p) as (P1 & P2 & P3 & _). rewrite P2. rewrite same_g in D. apply (H4 (x_row p)); [now apply in_map|congruence|lia|congruence|exact D].
  - exists (g q). split; [now apply in_map|]. split; [congruence|]. split; [congruence|]. now rewrite same_g.
Qed.
Lemma depot_f : depot_ok same R X -> depot_ok (marked_same same) R' X'.
Proof.
  intros [H1 H2 H3 H4 H5]. constructor.
  - destruct H1 as (A & B & C). unfold marked_same. split; [|split]; intros; eauto.
  - rewrite Forall_forall in *. intros r Hr. apply in_map_iff in Hr. destruct Hr as (q & <- & Iq). destruct (Hf q) as (-> & _). apply (H2 (v_row q)). now apply in_map.
  - rewrite Forall_forall in *. intros r Hr. apply in_map_iff in Hr. destruct Hr as (q & <- & Iq). destruct (Hg q) as (-> & _). apply (H3 (x_row q)). now apply in_map.
  - revert H4. apply sorted_map. intros a b. unfold hist_lt. destruct (Hf a) as (-> & -> & _). destruct (Hf b) as (-> & -> & _). tauto.
  - revert H5. apply (sorted_maps x_row g). intros a b. unfold ext_lt. rewrite same_g. destruct (Hg a) as (-> & -> & _). destruct (Hg b) as (-> & -> & _). tauto.
Qed.
Lemma exported_f pack k d : exported (marked_same same) marked_name pack v R' X' k d <->
  (exists r, In r rows /\ shown v R (v_row r) /\ k = 0 :: ms (h_obj (v_row r)) /\ stored pack (h_data (f r)) (h_hash (f r)) d) \/
  (exists r x, In r rows /\ shown v R (v_row r) /\ In x exts /\ attached same v X (v_row r) (x_row x) /\ k = 1 :: Depot_Model.e_name (x_row x) /\ stored pack (e_data (g x)) (e_hash (g x)) d).
Proof.
  unfold exported, marked_name. split.
  - intros [(r & S1 & -> & D)|(r & e & S1 & A & -> & D)]; pose proof S1 as (Ir & _); apply in_map_iff in Ir; destruct Ir as (q & <- & Iq).
    + left. exists q. split; [exact Iq|]. split; [now apply shown_f|]. split; [f_equal; f_equal; apply Hf|exact D].
    + pose proof A as (Ie & _). apply in_map_iff in Ie. destruct Ie as (x & <- & Ix). right. exists q, x. split; [exact Iq|]. split; [now apply shown_f|]. split; [exact Ix|]. split; [now apply attached_g|]. split; [apply Hg|exact D].
  - intros [(q & Iq & S1 & -> & D)|(q & x & Iq & S1 & Ix & A & -> & D)].
    + left. exists (f q). split; [now apply shown_f|]. split; [f_equal; f_equal; symmetry; apply Hf|exact D].
    + right. exists (f q), (g x). split; [now apply shown_f|]. split; [now apply attached_g|]. split; [symmetry; apply Hg|exact D].
Qed.
Lemma complete_f pack : (forall r, In r rows -> shown v R (v_row r) -> exists d, stored pack (h_data (f r)) (h_hash (f r)) d) ->
  (forall r x, In r rows -> In x exts -> shown v R (v_row r) -> attached same v X (v_row r) (x_row x) -> exists d, stored pack (e_data (g x)) (e_hash (g x)) d) -> complete (marked_same same) pack v R' X'.
Proof.
  intros H1 H2 r S1. pose proof S1 as (Ir & _). apply in_map_iff in Ir. destruct Ir as (q & <- & Iq). apply shown_f in S1; [|exact Iq]. split; [now apply H1|]. intros e A. pose proof A as (Ie & _). apply in_map_iff in Ie. destruct Ie as (x & <- & Ix). apply attached_g in A; [|exact Ix]. now apply (H2 q x).
Qed.
End Marks.
Lemma of_mark_In z log k d : In (k, d) (of_mark z log) <-> In (z :: k, d) log.
Proof.
  unfold of_mark. rewrite in_flat_map. split.
  - intros ([[|c n] d'] & I1 & H); [destruct H|]. destruct (Z.eqb_spec c z) as [->|]; [|destruct H]. destruct H as [H|[]]. injection H as -> ->. exact I1.
  - intros I1. exists (z :: k, d). split; [exact I1|]. rewrite Z.eqb_refl. now left.
Qed.

(** ** A map of files and its container *)
Section Files.
Variables (lower : list Z -> list Z) (fuel : nat) (after : list Z).
Hypothesis HA : In 0 after.
Definition good_names (m : smap (list Z)) : Prop := Forall (fun x => (exists c, fst x = utf8_of c /\ Forall scalar c) /\ snd x <> []) m /\ NoDup (map (fun x => lower (fst x)) m).
Lemma files_written now (m : smap (list Z)) : (forall i, 0 <= now i < 2 ^ 64) -> good_names m ->
  exists es, (forall k d, has es k d <-> In (k, d) m) /\ NoDup (map (fun e => lower (utf8_of (Save_Spec.e_name e))) es) /\
    (room es < LAST -> room es <= Z.of_nat fuel -> exists d, write_files lower fuel after now m = Ok d /\ container fuel after d es).
Proof.
  intros HT (HN & HL). assert (HN1 : Forall (fun x => exists c, fst x = utf8_of c /\ Forall scalar c) m) by (revert HN; apply Forall_impl; tauto). assert (HN2 : Forall (fun x => snd x <> []) m) by (revert HN; apply Forall_impl; tauto).
  destruct (choose_names m HN1) as (cs & HCs). exists (map (fun '((c, x), j) => EN c (now j) (now j) (snd x)) (combine (combine cs m) (seq 0 (length m)))).
  split; [exact (entries_has now m cs 0%nat HCs)|]. split; [rewrite (entries_names now lower m cs 0%nat HCs); exact HL|]. intros R1 R2.
  assert (ST := numbered_stands now (map snd m) m cs 0%nat ltac:(intros i Hi; cbn [Nat.add]; now rewrite (map_nth_lt snd m i ([], []))) HCs HN2 HT).
  assert (NL : NoDup (map (fun x => lower (c_name (snd x))) (numbered m))) by (rewrite <- (map_map (fun x => c_name (snd x)) lower); unfold numbered; rewrite numbered_combine, map_map; exact HL).
  destruct (saved_ok lower fuel after _ _ (numbered m) _ HA NL ST R1 R2) as (d & ys & E1 & E2 & E3 & E4 & _). exists d. split; [exact E1|]. split; [exact E2|]. exists ys. auto.
Qed.
Lemma first_written deflate now cps meta (m : smap (list Z)) : (forall i, 0 <= now i < 2 ^ 64) -> good_names m -> Forall scalar cps -> s_metadata = utf8_of cps -> deflate meta <> [] -> ~ In (lower s_metadata) (map (fun x => lower (fst x)) m) ->
  exists es, (forall k d, has es k d <-> (k = s_metadata /\ d = deflate meta) \/ In (k, d) m) /\ NoDup (map (fun e => lower (utf8_of (Save_Spec.e_name e))) es) /\
    (room es < LAST -> room es <= Z.of_nat fuel -> exists d, old_catalog lower fuel after deflate now meta m = Ok d /\ container fuel after d es).
Proof.
  intros HT (HN & HL) SC EC HD HX. assert (HN1 : Forall (fun x => exists c, fst x = utf8_of c /\ Forall scalar c) m) by (revert HN; apply Forall_impl; tauto). assert (HN2 : Forall (fun x => snd x <> []) m) by (revert HN; apply Forall_impl; tauto).
  destruct (choose_names m HN1) as (cs & HCs). set (nw := fun j => now (S (S j))). set (es := map (fun '((c, x), j) => EN c (nw j) (nw j) (snd x)) (combine (combine cs m) (seq 0 (length m)))).
  exists (EN cps (now 0%nat) (now 1%nat) (deflate meta) :: es). split; [|split].
  - intros k d. rewrite <- (entries_has nw m cs 0%nat HCs). fold es. unfold has. split.
    + intros (e & [<- |I1] & E1 & E2); [left; cbn [Save_Spec.e_name e_bytes] in E1, E2; split; [congruence|now symmetry]|right; exists e; auto].
    + intros [(-> & ->)|(e & I1 & H)]; [exists (EN cps (now 0%nat) (now 1%nat) (deflate meta)); split; [now left|]; split; [now symmetry|reflexivity]|exists e; split; [now right|exact H]].
  - cbn [map Save_Spec.e_name]. rewrite <- EC. unfold es. rewrite (entries_names nw lower m cs 0%nat HCs). constructor; [exact HX|exact HL].
  - intros R1 R2. assert (ST := numbered_stands nw (map snd m) m cs 0%nat ltac:(intros i Hi; cbn [Nat.add]; now rewrite (map_nth_lt snd m i ([], []))) HCs HN2 ltac:(intros i; apply HT)).
    assert (NL : NoDup (map (fun x => lower (c_name (snd x))) (numbered m))) by (rewrite <- (map_map (fun x => c_name (snd x)) lower); unfold numbered; rewrite numbered_combine, map_map; exact HL).
    assert (NX : ~ In (lower (utf8_of cps)) (map (fun x => lower (c_name (snd x))) (numbered m))) by (rewrite <- (map_map (fun x => c_name (snd x)) lower); unfold numbered; rewrite numbered_combine, map_map, <- EC; exact HX).
    destruct (first_saved lower fuel after deflate _ _ (now 0%nat) (now 1%nat) (deflate meta) cps HA SC (HT 0%nat) HD (numbered m) es NX NL ST R1 R2) as (d & xs & c & l & E1 & E2 & E3 & E4 & E5).
    exists d. split; [|split; [exact E3|exists xs; auto]]. unfold old_catalog. rewrite EC. unfold nw in E1. rewrite E1. cbn [rbind]. exact E2.
Qed.
End Files.

(** ** All together *)
Section Main.
Variables (lower : list Z -> list Z) (same : list Z -> list Z -> bool) (fuel : nat) (after : list Z) (now now' : nat -> Z) (uuid : nat -> list Z) (deflate : list Z -> list Z) (inflate : list Z -> option (list Z)) (unpack : list Z -> list Z).
Variables (pack : option (list Z -> option (list Z))) (ver major minor : Z) (root : list Z) (rows : list vrow) (exts : list xrow).
Hypothesis HL : NoDup (map lower [s_metadata; s_version; s_versions]).
Hypothesis HA : In 0 after.
Hypothesis HT : forall i, 0 <= now i < 2 ^ 64.
Hypothesis HT' : forall i, 0 <= now' i < 2 ^ 64.
Hypothesis HU : forall i, is_guid (uuid i).
Hypothesis HD : forall x, inflate (deflate x) = Some x.
Hypothesis HE : forall x, x <> [] -> deflate x <> [].
Hypothesis HM : 0 <= major < 2 ^ 16 /\ 0 <= minor < 2 ^ 16.
Hypothesis HR : is_guid root.
Hypothesis HS : depot_sound same rows exts.
Hypothesis HB : zlen rows + zlen exts < 2 ^ 62.
(** the objects as they are written *)
Definition as_written (k d : list Z) : Prop := exists r, In r rows /\ shown ver (map v_row rows) (v_row r) /\ id_text (h_obj (v_row r)) k /\ stored pack (option_map unpack (h_data (v_row r))) (h_hash (v_row r)) d.
Hypothesis HCo : forall r, In r rows -> shown ver (map v_row rows) (v_row r) -> exists d, stored pack (option_map unpack (h_data (v_row r))) (h_hash (v_row r)) d.
Hypothesis HCe : forall r x, shown ver (map v_row rows) r -> In x exts -> attached same ver (map x_row exts) r (x_row x) -> exists d, stored pack (e_data (x_row x)) (e_hash (x_row x)) d.
Hypothesis HW : objects_clear lower ver rows as_written.
Hypothesis HX : externals_clear lower same pack ver rows exts.
Notation R := (map v_row rows).
Notation X := (map x_row exts).

Lemma obj_guid2 r : In r rows -> is_guid (h_obj (v_row r)).
Proof using HS. intros Ir. destruct HS as (DO & _). assert (GR : Forall (fun r => is_guid (h_obj r)) R) by apply DO. rewrite Forall_forall in GR. apply GR. now apply in_map. Qed.
Lemma id_ms g k : is_guid g -> (id_text g k <-> k = ms g).
Proof using Type. intros G. destruct (ms_ok g G) as (E & _). unfold id_text. rewrite E. split; congruence. Qed.
Lemma shown_pre r : shown ver R r -> exists q, In q rows /\ r = v_row q.
Proof using Type. intros (Ir & _). apply in_map_iff in Ir. destruct Ir as (q & <- & Iq). exists q. auto. Qed.
(** the two runs of the loop *)
Lemma data_log : exists log, old_export same pack ver (map (open_row unpack) rows) exts = Ok log /\ (forall k d, In (k, d) (of_mark 0 log) <-> as_written k d) /\ (forall k d, In (k, d) (of_mark 1 log) <-> holds_external same pack ver rows exts k d).
Proof using HS HCo HCe. clear - HS HCo HCe.
  destruct HS as (DO & NE & _). unfold old_export. rewrite map_map. set (f := fun r => v_row (open_row unpack r)). set (g := fun x => x_row (marked_ext x)).
  assert (Hf : forall r, h_obj (f r) = h_obj (v_row r) /\ h_ver (f r) = h_ver (v_row r) /\ h_removed (f r) = h_removed (v_row r) /\ h_packed (f r) = h_packed (v_row r)) by (intros r; repeat split).
  assert (Hg : forall x, e_obj (g x) = e_obj (x_row x) /\ e_ver (g x) = e_ver (x_row x) /\ e_packed (g x) = e_packed (x_row x) /\ Depot_Model.e_name (g x) = 1 :: Depot_Model.e_name (x_row x)) by (intros x; repeat split).
  destruct (export_log (marked_same same) marked_name pack ver (map f rows) (map g exts)) as (log & E & HI); [now apply depot_f|destruct rows; [contradiction|discriminate]| |].
  { apply (complete_f same ver rows exts f g Hf Hg pack); [intros r Ir S1; exact (HCo r Ir S1)|]. intros r x _ Ix S1 A. exact (HCe (v_row r) x S1 Ix A). }
  exists log. split; [exact E|]. split; intros k d; rewrite of_mark_In, HI, (exported_f same ver rows exts f g Hf Hg).
  - split.
    + intros [(r & Ir & S1 & Q & D)|(r & x & _ & _ & _ & _ & Q & _)]; [|discriminate Q]. assert (Q' : k = ms (h_obj (v_row r))) by congruence. exists r. split; [exact Ir|]. split; [exact S1|]. split; [apply id_ms; [now apply obj_guid2|exact Q']|exact D].
    + intros (r & Ir & S1 & Q & D). left. exists r. split; [exact Ir|]. split; [exact S1|]. split; [f_equal; apply id_ms; [now apply obj_guid2|exact Q]|exact D].
  - split.
    + intros [(r & _ & _ & Q & _)|(r & x & Ir & S1 & Ix & A & Q & D)]; [discriminate Q|]. assert (Q' : k = Depot_Model.e_name (x_row x)) by congruence. exists (v_row r), x. auto.
    + intros (r & x & S1 & Ix & A & -> & D). destruct (shown_pre r S1) as (q & Iq & ->). right. exists q, x. repeat (split; [assumption|]). split; [reflexivity|exact D].
Qed.
Lemma ids_log : exists ids, old_ids same ver rows exts = Ok ids /\ (forall k i, In (k, i) (of_mark 0 ids) <-> object_id ver rows k i) /\ (forall k i, In (k, i) (of_mark 1 ids) <-> external_id same ver rows exts k i).
Proof using HS. clear - HS.
  destruct HS as (DO & NE & _). unfold old_ids. set (f := id_row). set (g := fun x => id_ext (marked_ext x)).
  assert (Hf : forall r, h_obj (f r) = h_obj (v_row r) /\ h_ver (f r) = h_ver (v_row r) /\ h_removed (f r) = h_removed (v_row r) /\ h_packed (f r) = h_packed (v_row r)) by (intros r; repeat split).
  assert (Hg : forall x, e_obj (g x) = e_obj (x_row x) /\ e_ver (g x) = e_ver (x_row x) /\ e_packed (g x) = e_packed (x_row x) /\ Depot_Model.e_name (g x) = 1 :: Depot_Model.e_name (x_row x)) by (intros x; repeat split).
  destruct (export_log (marked_same same) marked_name None ver (map f rows) (map g exts)) as (log & E & HI); [now apply depot_f|destruct rows; [contradiction|discriminate]| |].
  { apply (complete_f same ver rows exts f g Hf Hg None); [intros r _ _; exists (v_id r); now left|]. intros r x _ _ _ _. exists (x_id x). now left. }
  exists log. split; [exact E|]. split; intros k i; rewrite of_mark_In, HI, (exported_f same ver rows exts f g Hf Hg).
  - split.
    + intros [(r & Ir & S1 & Q & [D|(D & _)])|(r & x & _ & _ & _ & _ & Q & _)]; [|discriminate D|discriminate Q]. assert (Q' : k = ms (h_obj (v_row r))) by congruence. cbn in D. exists r. split; [exact Ir|]. split; [exact S1|]. split; [apply id_ms; [now apply obj_guid2|exact Q']|congruence].
    + intros (r & Ir & S1 & Q & ->). left. exists r. split; [exact Ir|]. split; [exact S1|]. split; [f_equal; apply id_ms; [now apply obj_guid2|exact Q]|now left].
  - split.
    + intros [(r & _ & _ & Q & _)|(r & x & Ir & S1 & Ix & A & Q & [D|(D & _)])]; [discriminate Q| |discriminate D]. assert (Q' : k = Depot_Model.e_name (x_row x)) by congruence. cbn in D. exists (v_row r), x. repeat (split; [assumption|]). congruence.
    + intros (r & x & S1 & Ix & A & -> & ->). destruct (shown_pre r S1) as (q & Iq & ->). right. exists q, x. repeat (split; [assumption|]). split; [reflexivity|now left].
Qed.
Lemma object_keys k : (exists d, as_written k d) <-> (exists i, object_id ver rows k i).
Proof.
  split; [intros (d & r & Ir & S1 & Q & _); exists (v_id r), r; auto|]. intros (i & r & Ir & S1 & Q & _). destruct (HCo r Ir S1) as (d & D). exists d, r. auto.
Qed.
Lemma external_keys k : (exists d, holds_external same pack ver rows exts k d) <-> (exists i, external_id same ver rows exts k i).
Proof.
  split; [intros (d & r & x & S1 & Ix & A & Q & _); exists (x_id x), r, x; auto|]. intros (i & r & x & S1 & Ix & A & Q & _). destruct (HCe r x S1 Ix A) as (d & D). exists d, r, x. auto.
Qed.
Lemma one_value (P : list Z -> list Z -> Prop) log k d : (forall k d, In (k, d) log <-> P k d) -> (forall d', P k d' -> d' = d) -> P k d -> map_get log k = Some d.
Proof. intros HI U H. destruct (map_get_some log k d ltac:(now apply HI)) as (x & E). rewrite E. f_equal. apply U, HI, map_get_Some, E. Qed.
Lemma get_none (P : list Z -> list Z -> Prop) log k : (forall k d, In (k, d) log <-> P k d) -> (forall d, ~ P k d) -> map_get log k = None.
Proof. intros HI N. destruct (map_get log k) as [d|] eqn:E; [|reflexivity]. exfalso. apply (N d), HI, map_get_Some, E. Qed.
Lemma text_plain es name t : printable t -> node_ty t = nd_list -> has es name (marked (outtext t [])) -> reads_plain es name t.
Proof. intros P L H. exists (outtext t []). split; [exact H|]. apply print_parse; [exact P|]. intros E. unfold is_empty_leaf in E. subst t. discriminate L. Qed.
Lemma pairs_printable (m : smap (list Z)) : (forall k t, In (k, t) m -> guid_text t) -> Forall printable (flat_map (fun '(k, i) => [Node k nd_string []; Node i nd_guid []]) m).
Proof. intros H. apply Forall_flat_map, Forall_forall. intros [k t] I1. constructor; [apply pr_leaf; exact Logic.I|]. constructor; [apply guid_leaf; exact (H k t I1)|constructor]. Qed.
Lemma pairs_same (m : smap (list Z)) : flat_map (fun '(k, i) => [Node k nd_string []; Node i nd_guid []]) m = pairs m.
Proof. unfold pairs. apply flat_map_ext. intros [k i]. reflexivity. Qed.

(** the inner container *)
Lemma inner_ok log ids : (forall k d, In (k, d) log <-> as_written k d) -> (forall k i, In (k, i) ids <-> object_id ver rows k i) ->
  exists es, inner_configuration lower ver rows root as_written es /\
    (room es < LAST -> room es <= Z.of_nat fuel -> exists inner, write_files lower fuel after now' (metamap root (rootmap ids) log) = Ok inner /\ container fuel after inner es).
Proof.
  intros HI HJ. destruct HS as (DO & NE & GI & GX & UX). destruct HW as (N1 & N2 & N3). set (rm := rootmap ids). remember (marked (old_root_text root rm)) as text eqn:ET.
  assert (MI : forall k i, object_id ver rows k i -> map_get ids k = Some i) by (intros k i H; apply (one_value _ _ _ _ HJ); [intros d' H'; exact (N2 k d' i H' H)|exact H]).
  assert (RG : forall k, mget k rm = option_map ms (map_get ids k)) by (intros k; unfold rm, rootmap; now rewrite puts_get, map_get_map).
  assert (RI : forall k t, In (k, t) rm <-> exists i, object_id ver rows k i /\ t = ms i).
  { intros k t. unfold rm, rootmap. rewrite puts_In, map_get_map. split.
    - destruct (map_get ids k) as [i|] eqn:E; [|discriminate]. intros H. exists i. split; [apply HJ, map_get_Some, E|]. cbn [option_map] in H. congruence.
    - intros (i & H & ->). now rewrite (MI k i H). }
  assert (IG : forall k i, object_id ver rows k i -> is_guid i) by (intros k i (r & Ir & _ & _ & ->); rewrite Forall_forall in GI; now apply GI).
  assert (RN' : NoDup (map fst rm)) by (apply sorted_nodup, puts_sorted).
  assert (RK : forall k, In k (map fst rm) <-> exists d, as_written k d).
  { intros k. rewrite object_keys, in_map_iff. split; [intros ([k' t] & <- & H); apply RI in H; destruct H as (i & H & _); exists i; exact H|]. intros (i & H). exists (k, ms i). split; [reflexivity|]. apply RI. exists i. auto. }
  assert (RB : 0 <= zlen rm < 2 ^ 64).
  { split; [unfold zlen; lia|]. assert (L : (length (map fst rm) <= length (map (fun r => ms (h_obj (v_row r))) rows))%nat).
    { apply NoDup_incl_length; [exact RN'|]. intros k Hk. apply RK in Hk. destruct Hk as (d & r & Ir & _ & Q & _). apply in_map_iff. exists r. split; [symmetry; apply id_ms; [now apply obj_guid2|exact Q]|exact Ir]. }
    rewrite !map_length in L. pose proof (zlen_nonneg exts). unfold zlen in *. lia. }
  set (m := metamap root rm log).
  assert (MM : forall k d, In (k, d) m <-> (k = s_root /\ d = text) \/ as_written k d).
  { intros k d. unfold m, metamap. rewrite puts_In, map_get_app, map_get_one, <- ET. split.
    - destruct (list_eq_dec Z.eq_dec k s_root) as [->|]; [intros H; left; split; [reflexivity|congruence]|]. intros H. right. apply HI, map_get_Some, H.
    - intros [(-> & ->)|H]; [destruct (list_eq_dec Z.eq_dec s_root s_root); [reflexivity|contradiction]|]. destruct (list_eq_dec Z.eq_dec k s_root) as [E|_]; [exfalso; destruct (N3 k d H) as (_ & N); apply N; now rewrite E|]. apply (one_value _ _ _ _ HI); [|exact H]. intros d' H'. now destruct (N1 k d' k d H' H eq_refl). }
  assert (GN : good_names lower m).
  { split.
    - apply Forall_forall. intros [k d] H. cbn [fst snd]. apply MM in H. destruct H as [(-> & ->)|H].
      + split; [|rewrite ET; unfold marked; discriminate]. destruct (plain_utf8 s_root) as (P1 & P2); [repeat (constructor; [lia|]); constructor|]. exists s_root. auto.
      + split; [|exact (proj1 (N3 k d H))]. destruct H as (r & Ir & _ & Q & _). apply id_ms in Q; [|now apply obj_guid2]. rewrite Q. destruct (ms_ok _ (obj_guid2 r Ir)) as (_ & T). destruct (plain_utf8 _ (guid_plain _ T)) as (P1 & P2). exists (ms (h_obj (v_row r))). auto.
    - apply NoDup_lower; [apply sorted_nodup, puts_sorted|]. intros k d k' d' H H' E. apply MM in H. apply MM in H'. destruct H as [(-> & ->)|H]; destruct H' as [(-> & ->)|H'].
      + reflexivity.
      + exfalso. apply (proj2 (N3 k' d' H')). now symmetry.
      + exfalso. exact (proj2 (N3 k d H) E).
      + now destruct (N1 k d k' d' H H' E). }
  destruct (files_written lower fuel after HA now' m HT' GN) as (es & H1 & H2 & H3). exists es. split; [|exact H3].
  unfold inner_configuration. split; [exact H2|]. split; [intros k d H; apply H1, MM; auto|]. split; [intros k d H; apply H1, MM in H; tauto|].
  destruct (ms_ok root HR) as (ER & TR). exists (ms root), (to_string (zlen rm)), rm. split; [exact ER|]. split; [now apply to_string_written|]. split.
  - apply text_plain; [|reflexivity|].
    + apply pr_list; [discriminate|discriminate|]. constructor; [apply (number_leaf 1); lia|]. constructor; [now apply guid_leaf|]. constructor; [now apply number_leaf|]. rewrite <- pairs_same. apply pairs_printable. intros k t H. apply RI in H. destruct H as (i & H & ->). apply ms_ok. exact (IG k i H).
    + apply H1, MM. left. split; [reflexivity|]. rewrite ET. unfold old_root_text, number. now rewrite pairs_same.
  - split; [exact RN'|]. split; [|exact RK]. intros k i H. exists (ms i). split; [apply ms_ok; exact (IG k i H)|]. apply RI. exists i. auto.
Qed.
(** the outer container *)
Lemma outer_ok log ids inner : inner <> [] -> (forall k d, In (k, d) log <-> holds_external same pack ver rows exts k d) -> (forall k i, In (k, i) ids <-> external_id same ver rows exts k i) ->
  exists es, outer_configuration lower same pack inflate ver rows exts major minor inner es /\
    (room es < LAST -> room es <= Z.of_nat fuel -> exists d, old_catalog lower fuel after deflate now inner (old_extmap deflate major minor (old_vermap uuid ids) log) = Ok d /\ container fuel after d es).
Proof.
  intros NI HI HJ. destruct HS as (DO & NE & GI & GX & UX). destruct HX as (N1 & N2 & N3). set (vm := old_vermap uuid ids). remember (deflate (marked (version_text major minor))) as tv eqn:ETv. remember (deflate (marked (versions_text vm))) as tl eqn:ETl.
  assert (NR : forall k n, (exists d, holds_external same pack ver rows exts k d) -> In n [s_metadata; s_version; s_versions] -> k <> n) by (intros k n (d & H) I1 ->; destruct (N3 n d H) as (_ & _ & N); exact (N n I1 eq_refl)).
  assert (MI : forall k i, external_id same ver rows exts k i -> map_get ids k = Some i) by (intros k i H; apply (one_value _ _ _ _ HJ); [intros d' H'; exact (N2 k d' i H' H)|exact H]).
  assert (MD : forall k d, holds_external same pack ver rows exts k d -> map_get log k = Some d) by (intros k d H; apply (one_value _ _ _ _ HI); [intros d' H'; now destruct (N1 k d' k d H' H eq_refl)|exact H]).
  assert (IG : forall k i, external_id same ver rows exts k i -> is_guid i) by (intros k i (r & x & _ & Ix & _ & _ & ->); rewrite Forall_forall in GX; now apply GX).
  assert (VG : forall k, mget k vm = if list_eq_dec Z.eq_dec k s_versions then Some (ms (uuid 2%nat)) else match map_get ids k with Some i => Some (ms i) | None => if list_eq_dec Z.eq_dec k s_version then Some (ms (uuid 1%nat)) else if list_eq_dec Z.eq_dec k [] then Some (ms (uuid 0%nat)) else None end).
  { intros k. unfold vm, old_vermap. rewrite puts_get, !map_get_app, map_get_map, map_get_one. change [([], ms (uuid 0%nat)); (s_version, ms (uuid 1%nat))] with ([([] : list Z, ms (uuid 0%nat))] ++ [(s_version, ms (uuid 1%nat))]). rewrite map_get_app, !map_get_one.
    destruct (list_eq_dec Z.eq_dec k s_versions); [reflexivity|]. destruct (map_get ids k); [reflexivity|]. cbn [option_map]. destruct (list_eq_dec Z.eq_dec k s_version); reflexivity. }
  assert (VI : forall k t, In (k, t) vm <-> mget k vm = Some t) by (intros k t; unfold vm, old_vermap; now rewrite puts_In, puts_get).
  assert (VV : forall k t, In (k, t) vm -> guid_text t).
  { intros k t. rewrite VI, VG. assert (UU : forall j, guid_text (ms (uuid j))) by (intros j; apply ms_ok, HU). intros H.
    destruct (list_eq_dec Z.eq_dec k s_versions); [injection H as <-; apply UU|]. destruct (map_get ids k) as [i|] eqn:E; [injection H as <-; apply ms_ok; apply (IG k), HJ, map_get_Some, E|].
    destruct (list_eq_dec Z.eq_dec k s_version); [injection H as <-; apply UU|]. destruct (list_eq_dec Z.eq_dec k []); [injection H as <-; apply UU|discriminate]. }
  assert (VS : NoDup (map fst vm)) by (apply sorted_nodup, puts_sorted).
  assert (VK : forall k, In k (map fst vm) <-> k = [] \/ In k [s_version; s_versions] \/ exists d, holds_external same pack ver rows exts k d).
  { intros k. rewrite external_keys, in_map_iff. split.
    - intros ([k' t] & <- & H). cbn [fst]. apply VI in H. rewrite VG in H. cbn [In]. destruct (list_eq_dec Z.eq_dec k' s_versions) as [E|_]; [auto|]. destruct (map_get ids k') as [i|] eqn:E; [right; right; exists i; apply HJ, map_get_Some, E|]. destruct (list_eq_dec Z.eq_dec k' s_version) as [E1|_]; [auto|]. destruct (list_eq_dec Z.eq_dec k' []) as [E1|_]; [auto|discriminate].
    - intros H. assert (Q : mget k vm <> None).
      { rewrite VG. cbn [In] in H. destruct (list_eq_dec Z.eq_dec k s_versions); [discriminate|]. destruct (map_get ids k) eqn:E; [discriminate|]. destruct (list_eq_dec Z.eq_dec k s_version); [discriminate|]. destruct (list_eq_dec Z.eq_dec k []); [discriminate|]. destruct H as [?|[[?|[?|[]]]|(i & H)]]; try congruence. rewrite (MI k i H) in E. discriminate. }
      destruct (mget k vm) as [t|] eqn:E; [|contradiction]. exists (k, t). split; [reflexivity|]. now apply VI. }
  assert (VB : 0 <= zlen vm < 2 ^ 64).
  { split; [unfold zlen; lia|]. assert (L : (length (map fst vm) <= length ([] :: s_version :: s_versions :: map (fun x => Depot_Model.e_name (x_row x)) exts))%nat).
    { apply NoDup_incl_length; [exact VS|]. intros k Hk. apply VK in Hk. cbn [In] in *. destruct Hk as [->|[[?|[?|[]]]|Hk]]; auto. destruct Hk as (d & r & x & _ & Ix & _ & -> & _). do 3 right. apply in_map_iff. exists x. auto. }
    rewrite map_length in L. cbn [length] in L. rewrite map_length in L. pose proof (zlen_nonneg rows). unfold zlen in *. lia. }
  set (m := old_extmap deflate major minor vm log).
  assert (MM : forall k d, In (k, d) m <-> holds_external same pack ver rows exts k d \/ (k = s_version /\ d = tv) \/ (k = s_versions /\ d = tl)).
  { intros k d. unfold m, old_extmap. rewrite puts_In, !map_get_app, !map_get_one, <- ETv, <- ETl. split.
    - destruct (list_eq_dec Z.eq_dec k s_versions) as [E|_]; [intros H; injection H as <-; auto|]. destruct (map_get log k) as [x|] eqn:E; [intros H; injection H as ->; left; apply HI, map_get_Some, E|]. destruct (list_eq_dec Z.eq_dec k s_version) as [E1|_]; [intros H; injection H as <-; auto|discriminate].
    - intros [H|[(-> & ->)|(-> & ->)]].
      + destruct (list_eq_dec Z.eq_dec k s_versions) as [E|_]; [exfalso; apply (NR k s_versions); [exists d; exact H|cbn; auto|exact E]|]. now rewrite (MD k d H).
      + destruct (list_eq_dec Z.eq_dec s_version s_versions); [discriminate|]. destruct (map_get log s_version) as [x|] eqn:E; [|destruct (list_eq_dec Z.eq_dec s_version s_version); [reflexivity|contradiction]]. exfalso. apply (NR s_version s_version); [exists x; apply HI, map_get_Some, E|cbn; auto|reflexivity].
      + destruct (list_eq_dec Z.eq_dec s_versions s_versions); [reflexivity|contradiction]. }
  assert (RI : forall a b, In a [s_metadata; s_version; s_versions] -> In b [s_metadata; s_version; s_versions] -> lower a = lower b -> a = b).
  { intros a b Ia Ib E. cbn [map] in HL. inversion HL as [|? ? A1 B1]; subst. inversion B1 as [|? ? A2 B2]; subst. cbn [In] in *. destruct Ia as [<- |[<- |[<- |[]]]]; destruct Ib as [<- |[<- |[<- |[]]]]; try reflexivity; exfalso; cbn [map In] in *; try (apply A1; rewrite E; now auto); try (apply A1; rewrite <- E; now auto); try (apply A2; rewrite E; now auto); apply A2; rewrite <- E; auto. }
  assert (PL : forall n, In n [s_metadata; s_version; s_versions] -> exists c, n = utf8_of c /\ Forall scalar c).
  { intros n Hn. exists n. assert (P : Forall (fun c => 0 <= c < 128) n) by (cbn [In] in Hn; destruct Hn as [<- |[<- |[<- |[]]]]; repeat (constructor; [lia|]); constructor). destruct (plain_utf8 _ P) as (P1 & P2). auto. }
  assert (GN : good_names lower m).
  { split.
    - apply Forall_forall. intros [k d] H. cbn [fst snd]. apply MM in H. destruct H as [H|[(-> & ->)|(-> & ->)]].
      + split; [|exact (proj1 (proj2 (N3 k d H)))]. destruct H as (r & x & _ & Ix & _ & -> & _). rewrite Forall_forall in UX. destruct (UX x Ix) as (cps & A & B). exists cps. auto.
      + split; [apply PL; cbn; auto|]. rewrite ?ETv, ?ETl. apply HE. unfold marked. discriminate.
      + split; [apply PL; cbn; auto|]. rewrite ?ETv, ?ETl. apply HE. unfold marked. discriminate.
    - apply NoDup_lower; [apply sorted_nodup, puts_sorted|]. intros k d k' d' H H' E. apply MM in H. apply MM in H'.
      assert (P : forall q e, (q = s_version /\ e = tv) \/ (q = s_versions /\ e = tl) -> In q [s_metadata; s_version; s_versions]) by (intros q e [(-> & _)|(-> & _)]; cbn; auto).
      destruct H as [H|H]; [|apply P in H]; (destruct H' as [H'|H']; [|apply P in H']).
      + apply (N1 k d k' d' H H' E).
      + exfalso. destruct (N3 k d H) as (_ & _ & N). exact (N k' H' E).
      + exfalso. destruct (N3 k' d' H') as (_ & _ & N). exact (N k H (eq_sym E)).
      + now apply RI. }
  assert (XM : ~ In (lower s_metadata) (map (fun x => lower (fst x)) m)).
  { intros H. apply in_map_iff in H. destruct H as ([k d] & E & H). cbn [fst] in E. apply MM in H. destruct H as [H|[(-> & _)|(-> & _)]].
    - destruct (N3 k d H) as (_ & _ & N). apply (N s_metadata); [cbn; auto|exact E].
    - apply RI in E; [discriminate E|cbn; auto|cbn; auto].
    - apply RI in E; [discriminate E|cbn; auto|cbn; auto]. }
  destruct (PL s_metadata ltac:(cbn; auto)) as (cps & EC & SC).
  destruct (first_written lower fuel after HA deflate now cps inner m HT GN SC EC (HE inner NI) XM) as (es & H1 & H2 & H3). exists es. split; [|exact H3].
  assert (H4 : forall k d, In (k, d) m -> has es k d) by (intros k d H; apply H1; auto).
  assert (TR : forall name t, printable t -> node_ty t = nd_list -> has es name (deflate (marked (outtext t []))) -> reads inflate es name t).
  { intros name t P L H. exists (deflate (marked (outtext t []))), (outtext t []). split; [exact H|]. split; [apply HD|]. apply print_parse; [exact P|]. intros E. unfold is_empty_leaf in E. subst t. discriminate L. }
  unfold outer_configuration. split; [exact H2|]. split; [exists (deflate inner); split; [apply H1; auto|apply HD]|]. split; [intros k d H; apply H4, MM; auto|]. split.
  { intros k d H. apply H1 in H. cbn [In]. destruct H as [(-> & _)|H]; [auto|]. apply MM in H. destruct H as [H|[(-> & _)|(-> & _)]]; auto. }
  split.
  { exists (to_string major), (to_string minor). split; [apply to_string_written; lia|]. split; [apply to_string_written; lia|]. apply TR; [|reflexivity|].
    - apply pr_list; [discriminate|discriminate|]. constructor; [|constructor]. apply pr_list; [discriminate|discriminate|]. constructor; [apply number_leaf; lia|]. constructor; [apply number_leaf; lia|constructor].
    - apply H4, MM. right. left. split; [reflexivity|]. now rewrite ETv. }
  exists (to_string (zlen vm)), vm. split; [now apply to_string_written|]. split.
  { apply TR; [|reflexivity|].
    - apply pr_list; [discriminate|discriminate|]. constructor; [apply (number_leaf 1); lia|]. constructor; [now apply number_leaf|]. rewrite <- pairs_same. now apply pairs_printable.
    - rewrite <- pairs_same. apply H4, MM. right. right. split; [reflexivity|]. now rewrite ETl. }
  split; [exact VS|]. split.
  { intros k i H. exists (ms i). split; [apply ms_ok; exact (IG k i H)|]. apply VI. rewrite VG. assert (Hk : exists d, holds_external same pack ver rows exts k d) by (apply external_keys; exists i; exact H).
    destruct (list_eq_dec Z.eq_dec k s_versions) as [E|_]; [exfalso; apply (NR k s_versions Hk); [cbn; auto|exact E]|]. now rewrite (MI k i H). }
  intros k. rewrite VK. split.
  - intros [->|[H|(d & H)]]; [auto|right|right].
    + cbn [In] in H. destruct H as [<- |[<- |[]]]; (split; [discriminate|eexists; apply H4, MM; auto]).
    + split; [intros ->; apply (NR s_metadata s_metadata); [exists d; exact H|cbn; auto|reflexivity]|]. exists d. apply H4, MM. auto.
  - intros [->|(NM & b & H)]; [auto|right]. apply H1 in H. destruct H as [(-> & _)|H]; [contradiction|]. apply MM in H. cbn [In]. destruct H as [H|[(-> & _)|(-> & _)]]; auto. right. exists b. exact H.
Qed.
Theorem old_saved : exists ns, inner_configuration lower ver rows root as_written ns /\
  (room ns < LAST -> room ns <= Z.of_nat fuel -> exists inner es, container fuel after inner ns /\ outer_configuration lower same pack inflate ver rows exts major minor inner es /\
    (room es < LAST -> room es <= Z.of_nat fuel -> exists d, save_old lower same fuel after now now' uuid deflate unpack pack ver major minor root rows exts = Ok d /\ container fuel after d es)).
Proof.
  destruct data_log as (log & E1 & L0 & L1). destruct ids_log as (ids & E2 & J0 & J1). destruct (inner_ok _ _ L0 J0) as (ns & A1 & A2). exists ns. split; [exact A1|]. intros R1 R2.
  destruct (A2 R1 R2) as (inner & W & C). assert (NI : inner <> []).
  { intros ->. destruct C as (C & _). specialize (C (repeat 0 31) eq_refl). vm_compute in C. discriminate C. }
  destruct (outer_ok _ _ inner NI L1 J1) as (es & B1 & B2). exists inner, es. split; [exact C|]. split; [exact B1|]. intros R3 R4. destruct (B2 R3 R4) as (d & W2 & C2). exists d. split; [|exact C2].
  unfold save_old. rewrite E1. cbn [rbind]. rewrite E2. cbn [rbind]. rewrite W. cbn [rbind]. exact W2.
Qed.
End Main.
(** what is written, when the data is in the rows, and when it is in the pack directory *)
Lemma written_rows inflate unpack pack ver rows k d : (forall p x, inflate p = Some x -> unpack p = x) -> in_rows inflate ver rows -> (as_written unpack pack ver rows k d <-> holds_object pack inflate ver rows k d).
Proof.
  intros HUn HIn. split.
  - intros (r & Ir & S1 & Q & D). destruct (HIn r Ir S1) as (p & x & E & F). exists r, p. repeat (split; [assumption|]). rewrite E in D |- *. cbn [option_map] in D. destruct D as [D|(D & _)]; [|discriminate]. split; [now left|]. assert (d = unpack p) by congruence. subst d. now rewrite (HUn p x F).
  - intros (r & p & Ir & S1 & Q & D & F). destruct (HIn r Ir S1) as (p' & x & E & F'). exists r. repeat (split; [assumption|]). rewrite E in D |- *. destruct D as [D|(D & _)]; [|discriminate]. assert (p' = p) by congruence. subst p'. left. cbn [option_map]. now rewrite (HUn p d F).
Qed.
Lemma written_pack unpack pack ver rows k d : in_pack pack ver rows -> (as_written unpack pack ver rows k d <-> keeps_object pack ver rows k d).
Proof.
  intros HIn. split; intros (r & Ir & S1 & Q & D); destruct (HIn r Ir S1) as (E & _); exists r; repeat (split; [assumption|]); rewrite E in *; exact D.
Qed.
Lemma clear_same lower ver rows (A B : list Z -> list Z -> Prop) : (forall k d, A k d <-> B k d) -> objects_clear lower ver rows A -> objects_clear lower ver rows B.
Proof. intros H (N1 & N2 & N3). split; [|split; [exact N2|]]; [intros k d k' d' P P'; apply N1; now apply H|intros k d P; apply (N3 k d); now apply H]. Qed.
Lemma inner_same lower ver rows root (A B : list Z -> list Z -> Prop) es : (forall k d, A k d <-> B k d) -> inner_configuration lower ver rows root A es -> inner_configuration lower ver rows root B es.
Proof.
  intros H (N1 & N2 & N3 & g & n & ids & P1 & P2 & P3 & P4 & P5 & P6). split; [exact N1|]. split; [intros k d Q; apply N2; now apply H|]. split; [intros k d Q; destruct (N3 k d Q) as [?|?]; [auto|right; now apply H]|].
  exists g, n, ids. repeat (split; [assumption|]). intros k. rewrite P6. split; intros (d & Q); exists d; now apply H.
Qed.
Theorem old_rows : forall lower same fuel after now now' uuid deflate inflate unpack pack v major minor root rows exts,
  NoDup (map lower [s_metadata; s_version; s_versions]) -> In 0 after -> (forall i, 0 <= now i < 2 ^ 64) -> (forall i, 0 <= now' i < 2 ^ 64) -> (forall i, is_guid (uuid i)) ->
  (forall x, inflate (deflate x) = Some x) -> (forall x, x <> [] -> deflate x <> []) -> (forall p d, inflate p = Some d -> unpack p = d) ->
  0 <= major < 2 ^ 16 /\ 0 <= minor < 2 ^ 16 -> is_guid root ->
  depot_sound same rows exts -> zlen rows + zlen exts < 2 ^ 62 ->
  in_rows inflate v rows -> externals_stored same pack v rows exts -> objects_clear lower v rows (holds_object pack inflate v rows) -> externals_clear lower same pack v rows exts ->
  exists ns, inner_configuration lower v rows root (holds_object pack inflate v rows) ns /\
    (room ns < 2147483647 -> room ns <= Z.of_nat fuel ->
     exists inner es, container fuel after inner ns /\ outer_configuration lower same pack inflate v rows exts major minor inner es /\
       (room es < 2147483647 -> room es <= Z.of_nat fuel ->
        exists d, save_old lower same fuel after now now' uuid deflate unpack pack v major minor root rows exts = Ok d /\ container fuel after d es)).
Proof.
  intros lower same fuel after now now' uuid deflate inflate unpack pack v major minor root rows exts HL HA HT HT' HU HD HE HN HM HR HS HB HI HX CO CX.
  assert (W := fun k d => written_rows inflate unpack pack v rows k d HN HI).
  destruct (old_saved lower same fuel after now now' uuid deflate inflate unpack pack v major minor root rows exts HL HA HT HT' HU HD HE HM HR HS HB) as (ns & A & B); [|exact HX| |exact CX|].
  - intros r Ir S1. destruct (HI r Ir S1) as (p & d & E & _). exists (unpack p). left. now rewrite E.
  - apply (clear_same lower v rows (holds_object pack inflate v rows)); [|exact CO]. intros k d. symmetry. apply W.
  - exists ns. split; [exact (inner_same lower v rows root _ _ ns W A)|exact B].
Qed.
