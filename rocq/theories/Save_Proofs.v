From Verif Require Import Prelude Lists Codec_Model Text_Spec Text_Model Text_Proofs Tree_Model Cf_Model Cf_Spec Cf_Proofs Cf_Hist Cf_Extra Cfg_Model Cfg_Spec Cfg_Proofs Save_Model Save_Spec.
Ltac Zify.zify_post_hook ::= idtac.
Local Opaque le_bytes.

(** ** The history of a save: data and header of one file after the other *)
Fixpoint hist (k : nat) (l : list (list Z * list Z)) : list op :=
  match l with [] => [] | (raw, h) :: t => Write (2 * k + 1) raw :: Write (2 * k) h :: hist (S k) t end.
Definition filed (l : list (list Z * list Z)) : list (option (list Z)) := flat_map (fun x => [Some (snd x); Some (fst x)]) l.
Lemma set_nth_at {A} (x : A) a y b i : i = length a -> set_nth i x (a ++ y :: b) = a ++ x :: b.
Proof. intros ->. apply set_nth_split. Qed.
Lemma two_step {A} (x y u v : A) a b k : length a = (2 * k)%nat -> set_nth (2 * k) y (set_nth (2 * k + 1) x (a ++ u :: v :: b)) = a ++ y :: x :: b.
Proof.
  intros H. replace (a ++ u :: v :: b) with ((a ++ [u]) ++ v :: b) by (now rewrite <- app_assoc). rewrite (set_nth_at x (a ++ [u])) by (rewrite app_length; cbn [length]; lia). rewrite <- app_assoc. cbn [app]. now apply set_nth_at.
Qed.
Lemma hist_spec l : forall k fat a, length a = (2 * k)%nat -> Forall (fun x => fst x <> [] /\ snd x <> []) l ->
  history_ok (hist k l) (ST fat (a ++ repeat None (2 * length l))) /\ spec_ops (hist k l) (ST fat (a ++ repeat None (2 * length l))) = ST fat (a ++ filed l).
Proof.
  induction l as [|[raw h] l IH]; intros k fat a Ha HF; [now cbn; rewrite !app_nil_r|]. apply Forall_cons_iff in HF. destruct HF as [[R H] HF]. cbn [fst snd] in R, H. cbn [hist]. replace (2 * length ((raw, h) :: l))%nat with (S (S (2 * length l))) by (cbn [length]; lia). cbn [repeat].
  set (b := repeat None (2 * length l)) in *. assert (LB : length (a ++ None :: None :: b) = (2 * k + 2 + length b)%nat) by (rewrite app_length; cbn [length]; lia).
  assert (E : spec_op (Write (2 * k) h) (spec_op (Write (2 * k + 1) raw) (ST fat (a ++ None :: None :: b))) = ST fat ((a ++ [Some h; Some raw]) ++ b)). { cbn [spec_op s_fat s_files]. f_equal. rewrite two_step by exact Ha. now rewrite <- app_assoc. }
  destruct (IH (S k) fat (a ++ [Some h; Some raw])) as [I1 I2]; [rewrite app_length; cbn [length]; lia|exact HF|]. fold b in I1, I2.
  split.
  - cbn [history_ok]. split; [|split; [|rewrite E; exact I1]].
    + split; [cbn [s_files]; lia|now left].
    + split; [|now left]. cbn [spec_op s_files]. unfold set_nth. rewrite !app_length, firstn_length, skipn_length. cbn [length]. lia.
  - change (spec_ops (Write (2 * k + 1) raw :: Write (2 * k) h :: hist (S k) l) (ST fat (a ++ None :: None :: b))) with (spec_ops (hist (S k) l) (spec_op (Write (2 * k) h) (spec_op (Write (2 * k + 1) raw) (ST fat (a ++ None :: None :: b))))). rewrite E, I2. f_equal. rewrite <- app_assoc. reflexivity.
Qed.
Lemma hist_growth l : forall k, total_growth 512 (hist k l) = fold_right (fun x r => block (zlen (fst x)) + block (zlen (snd x)) + r) 0 l.
Proof.
  induction l as [|[raw h] l IH]; intros k; [reflexivity|]. cbn [hist fold_right fst snd]. change (total_growth 512 (Write (2 * k + 1) raw :: Write (2 * k) h :: hist (S k) l)) with (growth 512 (Write (2 * k + 1) raw) + (growth 512 (Write (2 * k) h) + total_growth 512 (hist (S k) l))). rewrite IH. cbn [growth]. unfold block. lia.
Qed.
Lemma filed_nth l : forall j, (j < length l)%nat -> nth (2 * j) (filed l) None = Some (snd (nth j l ([], []))) /\ nth (2 * j + 1) (filed l) None = Some (fst (nth j l ([], []))).
Proof.
  induction l as [|x l IH]; intros j Hj; [cbn in Hj; lia|]. destruct j as [|j]; [split; reflexivity|]. cbn [length] in Hj. destruct (IH j ltac:(lia)) as [A B]. replace (2 * S j)%nat with (S (S (2 * j))) by lia. replace (S (S (2 * j)) + 1)%nat with (S (S (2 * j + 1))) by lia. cbn [filed flat_map app nth]. split; [exact A|exact B].
Qed.

(** ** The loop does this history *)
Lemma nth_firstn_lt {A} (l : list A) k j x : (j < k)%nat -> nth j (firstn k l) x = nth j l x.
Proof. revert k j. induction l as [|y l IH]; intros [|k] [|j] H; try reflexivity; try lia. cbn [firstn nth]. apply IH. lia. Qed.
Definition addrs (l : list slot) : list Z := flat_map (fun s => [s_header s; s_data s]) l.
Lemma addrs_length l : length (addrs l) = (2 * length l)%nat.
Proof. induction l as [|s l IH]; [reflexivity|]. unfold addrs in *. cbn [flat_map app length]. lia. Qed.
Lemma table_addrs l : forall a, table (a ++ addrs l) (length a / 2 + length l) = table (a ++ addrs l) (length a / 2) ++ flat_map (fun k => elem (nth (2 * k) (a ++ addrs l) 0) (nth (2 * k + 1) (a ++ addrs l) 0)) (seq (length a / 2) (length l)).
Proof. intros a. unfold table. now rewrite seq_app, flat_map_app. Qed.
Lemma table_slots l : table (addrs l) (length l) = flat_map (fun s => elem (s_header s) (s_data s)) l.
Proof.
  unfold table. assert (G : forall a k, length a = (2 * k)%nat -> flat_map (fun k => elem (nth (2 * k) (a ++ addrs l) 0) (nth (2 * k + 1) (a ++ addrs l) 0)) (seq k (length l)) = flat_map (fun s => elem (s_header s) (s_data s)) l); [|apply (G [] 0%nat eq_refl)].
  induction l as [|s l IH]; intros a k Ha; [reflexivity|]. cbn [length seq flat_map]. unfold addrs at 1 2. cbn [flat_map app]. fold (addrs l). f_equal.
  - rewrite app_nth2, app_nth2 by lia. replace (2 * k - length a)%nat with 0%nat by lia. replace (2 * k + 1 - length a)%nat with 1%nat by lia. reflexivity.
  - specialize (IH (a ++ [s_header s; s_data s]) (S k)). rewrite <- app_assoc in IH. cbn [app] in IH. rewrite <- IH by (rewrite app_length; cbn [length]; lia). reflexivity.
Qed.
Lemma find_slot_new lower name l : ~ In (lower name) (map (fun s => lower (s_name s)) l) -> find_slot lower name l = None.
Proof. induction l as [|s l IH]; intros H; [reflexivity|]. cbn [find_slot map In] in *. rewrite eq_list_neq by (intros E; apply H; left; now rewrite E). rewrite IH by tauto. reflexivity. Qed.
Lemma raw_joined blob l b : joined blob l b -> concat (map (fun '(s, n) => if s =? 0 then [] else blob s n) l) = b.
Proof. induction 1 as [|n t b H IH|s n t b Hs H IH]; [reflexivity|exact IH|]. cbn [map concat]. destruct (Z.eqb_spec s 0); [contradiction|]. now rewrite IH. Qed.
Definition named (x : list Z * cfile) (p : list Z * list Z) (blob : Z -> Z -> list Z) (times : Z -> Z * Z) : Prop :=
  raw_file blob (c_file (snd x)) = fst p /\ file_header (fst (times (t_time (c_file (snd x))))) (snd (times (t_time (c_file (snd x))))) (c_name (snd x)) = Ok (snd p).
Lemma loop_hist lower fuel after blob times m : forall ps c l r, Forall2 (fun x p => named x p blob times) m ps -> NoDup (map (fun s => lower (s_name s)) l ++ map (fun x => lower (c_name (snd x))) m) ->
  do_ops fuel after (hist (length l) ps) (RN c (addrs l ++ repeat 0 (2 * length m))) = Ok r ->
  exists l', save_loop lower fuel after blob times m c l = Ok (r_cat r, l') /\ r_starts r = addrs l' /\ length l' = (length l + length m)%nat.
Proof.
  induction m as [|[key f] m IH]; intros ps c l r HP HN HD.
  - inversion HP; subst ps. cbn [hist do_ops] in HD. cbn [length Nat.mul Nat.add repeat] in HD. assert (HD2 : r = RN c (addrs l ++ [])) by congruence. exists l. rewrite HD2. cbn [save_loop r_cat r_starts length]. rewrite app_nil_r. split; [reflexivity|]. split; [reflexivity|]. lia.
  - inversion HP as [|x p m' ps' [N1 N2] HP']; subst. cbn [snd] in N1, N2. destruct p as [raw h]. cbn [fst snd] in N1, N2. cbn [map snd] in HN.
    assert (NI : ~ In (lower (c_name f)) (map (fun s => lower (s_name s)) l)). { intros H. apply NoDup_remove_2 in HN. apply HN, in_or_app. now left. }
    cbn [save_loop]. unfold create_slot. rewrite (find_slot_new _ _ _ NI). destruct (times (t_time (c_file f))) as [tc tm] eqn:ET. cbn [fst snd] in N2. rewrite app_nth2, Nat.sub_diag by lia. cbn [nth]. unfold write_and_close. cbn [s_name s_data s_header]. rewrite N1, N2. cbn [rbind].
    cbn [hist do_ops] in HD. replace (2 * length ((key, f) :: m))%nat with (S (S (2 * length m))) in HD by (cbn [length]; lia). cbn [repeat] in HD. set (z := repeat 0 (2 * length m)) in *. pose proof (addrs_length l) as LA.
    cbn [do_op r_cat r_starts] in HD. replace (nth (2 * length l + 1) (addrs l ++ 0 :: 0 :: z) 0) with 0 in HD by (rewrite app_nth2 by lia; replace (2 * length l + 1 - length (addrs l))%nat with 1%nat by lia; reflexivity).
    destruct (write_block fuel after c raw 0 0 (-1) false) as [[c1 a1]| | |]; cbn [rbind] in HD |- *; try discriminate. cbn [fst snd r_cat r_starts] in HD |- *.
    replace (nth (2 * length l) (set_nth (2 * length l + 1) a1 (addrs l ++ 0 :: 0 :: z)) 0) with 0 in HD.
    2:{ unfold set_nth. rewrite app_nth1 by (rewrite firstn_length, app_length; cbn [length]; lia). rewrite nth_firstn_lt by lia. rewrite app_nth2 by lia. now replace (2 * length l - length (addrs l))%nat with 0%nat by lia. }
    destruct (write_block fuel after c1 h 0 0 (-1) false) as [[c2 a2]| | |]; cbn [rbind] in HD |- *; try discriminate. cbn [fst snd] in HD |- *.
    rewrite two_step in HD by lia. replace (addrs l ++ a2 :: a1 :: z) with (addrs (l ++ [SL (c_name f) a2 a1]) ++ z) in HD by (unfold addrs; rewrite flat_map_app; cbn [flat_map app s_header s_data]; now rewrite <- app_assoc).
    assert (EP : put_slot (length l) (SL (c_name f) a2 a1) (l ++ [SL (c_name f) 0 0]) = l ++ [SL (c_name f) a2 a1]). { unfold put_slot. rewrite firstn_app, firstn_all, Nat.sub_diag. cbn [firstn]. rewrite app_nil_r, skipn_all2 by (rewrite app_length; cbn [length]; lia). reflexivity. }
    rewrite EP. replace (S (length l)) with (length (l ++ [SL (c_name f) a2 a1])) in HD by (rewrite app_length; cbn [length]; lia).
    destruct (IH ps' c2 (l ++ [SL (c_name f) a2 a1]) r HP') as (l' & E1 & E2 & E3); [|exact HD|].
    + rewrite map_app. cbn [map s_name]. rewrite <- app_assoc. exact HN.
    + exists l'. split; [exact E1|]. split; [exact E2|]. rewrite E3, app_length. cbn [length]. lia.
Qed.

(** ** The saved container *)
Lemma header_length create modify cps h : Forall scalar cps -> file_header create modify (utf8_of cps) = Ok h -> zlen h = 24 + name_size cps.
Proof.
  intros HC E. destruct (text_store_show cps HC) as [E1 _]. unfold file_header in E. rewrite E1 in E. cbn [rbind] in E. assert (E2 : h = le_bytes 8 create ++ le_bytes 8 modify ++ le_bytes 4 0 ++ le16 (utf16_of cps) ++ le_bytes 4 0) by congruence. rewrite E2. unfold zlen. rewrite !app_length, !le_bytes_length.
  assert (G : Z.of_nat (length (le16 (utf16_of cps))) = name_size cps).
  { clear. induction cps as [|c cps IH]; [reflexivity|]. unfold utf16_of, le16 in *. cbn [flat_map name_size fold_right]. rewrite flat_map_app, app_length, Nat2Z.inj_add, IH. unfold name_size. f_equal. unfold enc16. change 0x10000 with 65536. destruct (c <? 65536); reflexivity. }
  lia.
Qed.
Lemma Forall2_length {A B} (P : A -> B -> Prop) l m : Forall2 P l m -> length l = length m.
Proof. induction 1 as [|x y l m _ _ IH]; [reflexivity|]. cbn [length]. now rewrite IH. Qed.
Lemma map_nth_lt {A B} (f : A -> B) l j d d' : (j < length l)%nat -> nth j (map f l) d' = f (nth j l d).
Proof. intros H. rewrite (nth_indep _ d' (f d)) by (now rewrite map_length). apply map_nth. Qed.
Lemma Forall2_nth_rel {A B} (P : A -> B -> Prop) l m a b : Forall2 P l m -> forall i, (i < length l)%nat -> P (nth i l a) (nth i m b).
Proof. induction 1 as [|x y l m H _ IH]; intros i Hi; [cbn in Hi; lia|]. destruct i as [|i]; [exact H|]. cbn [nth length] in *. apply IH. lia. Qed.
Lemma entries_seq infos es st (P : list Z * Z * Z * Z -> entry -> Prop) : forall k, length infos = length es ->
  (forall j, (j < length es)%nat -> P (let '(t, m, n) := nth j infos (0, 0, []) in (n, t, m, nth (2 * (k + j) + 1) st 0)) (nth j es (EN [] 0 0 []))) ->
  Forall2 P (map (fun '((t, m, name), k) => (name, t, m, nth (2 * k + 1) st 0)) (combine infos (seq k (length infos)))) es.
Proof.
  revert es. induction infos as [|[[t m] n] infos IH]; intros [|e es] k L H; try discriminate; [constructor|]. cbn [length seq combine map]. constructor.
  - specialize (H 0%nat ltac:(cbn [length]; lia)). cbn [nth] in H. now rewrite Nat.add_0_r in H.
  - apply IH; [now injection L|]. intros j Hj. specialize (H (S j) ltac:(cbn [length]; lia)). cbn [nth] in H. now replace (k + S j)%nat with (S k + j)%nat in H by lia.
Qed.
Theorem saved_ok lower fuel after blob times m es : In 0 after -> NoDup (map (fun x => lower (c_name (snd x))) m) -> Forall2 (stands blob times) m es -> room es < LAST -> room es <= Z.of_nat fuel ->
  exists d xs, save_catalog lower fuel after blob times m = Ok d /\ (forall junk, length junk = 31%nat -> is_catalog junk d = Ok true) /\ open_files fuel after d = Ok xs /\ Forall2 (shows fuel after d) xs es /\ Forall2 (fun x e => snd (fst x) = e_create e + 8) xs es.
Proof.
  intros HA HN HS HB HF. assert (HL := Forall2_length _ _ _ HS). destruct m as [|x0 m0] eqn:EM.
  { inversion HS; subst. exists template, []. split; [reflexivity|]. split; [intros; reflexivity|]. split; [reflexivity|]. split; constructor. }
  rewrite <- EM in *. set (n := length m) in *. assert (HP0 : (0 < n)%nat) by (unfold n; rewrite EM; cbn [length]; lia).
  (* the blocks written *)
  assert (EX : exists ps, Forall2 (fun x p => named x p blob times) m ps /\ Forall2 (fun p e => fst p = e_bytes e /\ zlen (snd p) = 24 + name_size (e_name e) /\ read_file_header (snd p) = Ok (e_create e, e_create e + 8, utf8_of (e_name e) ++ [0; 0]) /\ e_bytes e <> []) ps es).
  { clear - HS. induction HS as [|x e m es (H1 & H2 & H3 & H4 & H5 & H6) _ (ps & I1 & I2)]; [exists []; split; constructor|].
    destruct (file_header_read (e_create e) (e_modify e) (e_name e) H2 H4) as (h & F1 & F2). exists ((e_bytes e, h) :: ps). split; constructor; try assumption.
    - split; cbn [fst snd]; [unfold raw_file; now apply raw_joined|]. rewrite H3, H1. exact F1.
    - cbn [fst snd]. split; [reflexivity|]. split; [exact (header_length _ _ _ _ H2 F1)|]. split; [exact F2|exact H6]. }
  destruct EX as (ps & P1 & P2). assert (LP := Forall2_length _ _ _ P1). assert (LE := Forall2_length _ _ _ P2).
  assert (PN : Forall (fun x => fst x <> [] /\ snd x <> []) ps).
  { clear - P2. induction P2 as [|p e ps es (H1 & H2 & H3 & H4) _ IH]; constructor; [|exact IH]. split; [now rewrite H1|]. intros E. rewrite E in H3. unfold read_file_header in H3. change (zlen (@nil Z) <? 20) with true in H3. cbv iota in H3. discriminate. }
  destruct (hist_spec ps 0 [] [] eq_refl PN) as [HO SO]. cbn [app] in HO, SO. rewrite <- LP in HO, SO. fold n in HO, SO. change (ST [] (repeat None (2 * n))) with (empty_store (2 * n)) in HO, SO.
  set (infos := map (fun e => (e_create e, e_create e + 8, utf8_of (e_name e) ++ [0; 0])) es).
  assert (LI : n = length infos) by (unfold infos; now rewrite map_length).
  assert (RO : 559 + total_growth 512 (hist 0 ps) + 31 + Z.max (12 * Z.of_nat n) 512 = room es).
  { rewrite hist_growth. unfold room. rewrite <- HL. assert (BN : block (12 * Z.of_nat n) = 31 + Z.max (12 * Z.of_nat n) 512) by reflexivity. rewrite BN. assert (G : fold_right (fun x r => block (zlen (fst x)) + block (zlen (snd x)) + r) 0 ps = fold_right (fun e r => block (Z.of_nat (length (e_bytes e))) + block (24 + name_size (e_name e)) + r) 0 es); [|lia]. clear - P2. induction P2 as [|p e ps es (H1 & H2 & H3 & H4) _ IH]; [reflexivity|]. cbn [fold_right]. rewrite IH, H1, H2. reflexivity. }
  assert (GET : forall j, (j < n)%nat -> nth (2 * j) (filed ps) None = Some (snd (nth j ps ([], []))) /\ nth (2 * j + 1) (filed ps) None = Some (fst (nth j ps ([], [])))) by (intros j Hj; apply filed_nth; lia).
  destruct (reopen_ok fuel after n (hist 0 ps) infos 1 HA LI HP0 HO) as (r & r2 & D1 & D2 & K1 & K2 & K3).
  { intros j Hj. rewrite SO. cbn [s_files]. exists (snd (nth j ps ([], []))). split; [apply GET, Hj|]. pose proof (Forall2_nth_rel _ _ _ ([], []) (EN [] 0 0 []) P2 j ltac:(lia)) as (_ & _ & H & _). rewrite H. unfold infos. rewrite (map_nth_lt _ es j (EN [] 0 0 [])) by lia. reflexivity. }
  { lia. } { lia. }
  destruct (loop_hist lower fuel after blob times m ps (open_cat template) [] r P1 HN D1) as (l & L1 & L2 & L3). cbn [length Nat.add] in L3. fold n in L3.
  assert (E2 : r_starts r2 = r_starts r). { cbn [do_op] in D2. destruct (write_block fuel after (r_cat r) (table (r_starts r) n) 0 16 (-1) true) as [w| | |]; cbn [rbind] in D2; try discriminate. now injection D2 as <-. }
  exists (flush_marks (r_cat r2) 1), (map (fun '((t, m, name), k) => (name, t, m, nth (2 * k + 1) (r_starts r2) 0)) (combine infos (seq 0 n))). split; [|split; [exact K1|split; [exact K2|]]].
  - unfold save_catalog. rewrite L1. cbn [rbind]. destruct l as [|s0 l0] eqn:EL; [cbn [length] in L3; lia|]. rewrite <- EL in *. rewrite <- (table_slots l), L3, <- L2. cbn [do_op] in D2. destruct (write_block fuel after (r_cat r) (table (r_starts r) n) 0 16 (-1) true) as [w| | |]; cbn [rbind] in D2 |- *; try discriminate. assert (E3 : r_cat r2 = fst w) by (injection D2 as <-; reflexivity). now rewrite E3.
  - rewrite LI. assert (NI : forall j, (j < length es)%nat -> nth j infos (0, 0, []) = (e_create (nth j es (EN [] 0 0 [])), e_create (nth j es (EN [] 0 0 [])) + 8, utf8_of (e_name (nth j es (EN [] 0 0 []))) ++ [0; 0])).
    { intros j Hj. unfold infos. rewrite (map_nth_lt _ es j (EN [] 0 0 [])) by lia. reflexivity. }
    split; apply entries_seq; try (unfold infos; now rewrite map_length); intros j Hj; rewrite (NI j Hj); [|reflexivity]. unfold shows. split; [reflexivity|]. split; [reflexivity|]. cbn [Nat.add].
    specialize (K3 (2 * j + 1)%nat ltac:(lia)). rewrite SO in K3. cbn [s_files] in K3. rewrite (proj2 (GET j ltac:(lia))) in K3. unfold read_file in K3. cbn [r_starts r_cat] in K3. unfold read_data. pose proof (Forall2_nth_rel _ _ _ ([], []) (EN [] 0 0 []) P2 j ltac:(lia)) as (HBt & _). rewrite <- HBt. exact K3.
Qed.

(** ** Configurations built from tables have one file of a name *)
Definition by_name (lower : list Z -> list Z) (m : smap cfile) : Prop := sorted m /\ Forall (fun x => fst x = lower (c_name (snd x))) m.
Lemma by_name_nodup lower m : by_name lower m -> NoDup (map (fun x => lower (c_name (snd x))) m).
Proof.
  intros [H1 H2]. apply sorted_nodup in H1. replace (map (fun x => lower (c_name (snd x))) m) with (map fst m); [exact H1|]. apply map_ext_in. intros x Hx. exact (proj1 (Forall_forall _ _) H2 x Hx).
Qed.
Lemma mput_forall {A} (P : list Z * A -> Prop) k v m : P (k, v) -> Forall P m -> Forall P (mput k v m).
Proof.
  intros Hk. induction m as [|[k' v'] m IH]; intros H; cbn [mput]; [now constructor|]. apply Forall_cons_iff in H. destruct H as [H1 H2]. destruct (eq_list k k'); [now constructor|]. destruct (str_ltb k k'); constructor; auto.
Qed.
Lemma put_name lower m f name dyn : by_name lower m -> by_name lower (mput (lower name) (CF f name dyn) m).
Proof. intros [H1 H2]. split; [now apply mput_sorted|]. now apply mput_forall. Qed.
Lemma mget_forall {A} (P : list Z * A -> Prop) k v (m : smap A) : Forall P m -> mget k m = Some v -> P (k, v).
Proof.
  induction 1 as [|[k' v'] m H _ IH]; cbn [mget]; [discriminate|]. destruct (eq_list k k') eqn:E; [|exact IH]. intros E2. apply eq_list_spec in E. subst k'. injection E2 as ->. exact H.
Qed.
Lemma offer_name lower m f name dyn : by_name lower m -> by_name lower (offer lower m f name dyn).
Proof.
  intros H. unfold offer. destruct (mget (lower name) m) as [p|] eqn:E; [|now apply put_name]. destruct (c_dyn p <? dyn); [|exact H]. destruct H as [H1 H2]. split; [now apply mput_sorted|]. apply mput_forall; [|exact H2]. cbn [fst snd c_name]. exact (mget_forall _ _ _ _ H2 E).
Qed.
Lemma config_named lower dynup files : forall m m', by_name lower m -> config_loop lower dynup files m = Ok m' -> by_name lower m'.
Proof.
  induction files as [|[k f] files IH]; intros m m' H E; cbn [config_loop] in E; [congruence|]. destruct (eq_list k (lower s_DynamicallyUpdated)); [exact (IH _ _ H E)|]. destruct (first_len f =? 0); [exact (IH _ _ H E)|]. destruct (rank_file lower dynup (t_name f)) as [[name dyn]| | |]; cbn [rbind] in E; try discriminate. exact (IH _ _ (offer_name _ _ _ _ _ H) E).
Qed.
Lemma first_named lower top files : forall m m', by_name lower m -> save_first lower top files m = Ok m' -> by_name lower m'.
Proof.
  induction files as [|[k f] files IH]; intros m m' H E; cbn [save_first] in E; [congruence|]. destruct (eq_list k (lower [100;101;108;101;116;101;100])); [exact (IH _ _ H E)|]. destruct (first_len f =? 0); [exact (IH _ _ H E)|]. destruct (mget (lower (t_name f)) m); [discriminate|]. exact (IH _ _ (put_name _ _ _ _ _ H) E).
Qed.
Lemma second_named lower dynup del files : forall g m m', by_name lower m -> save_second lower dynup del g files m = Ok m' -> by_name lower m'.
Proof.
  induction files as [|[k f] files IH]; intros g m m' H E; cbn [save_second] in E; [congruence|]. destruct (eq_list k (lower s_DynamicallyUpdated)); [exact (IH _ _ _ H E)|]. destruct (first_len f =? 0); [exact (IH _ _ _ H E)|]. destruct (existsb (eq_list (lower (t_name f))) del); [exact (IH _ _ _ H E)|]. destruct (rank_save lower dynup g (t_name f)) as [[[name dyn] g']| | |]; cbn [rbind] in E; try discriminate. exact (IH _ _ _ (offer_name _ _ _ _ _ H) E).
Qed.
Lemma built_named lower m : built lower m -> NoDup (map (fun x => lower (c_name (snd x))) m).
Proof.
  intros H. apply by_name_nodup. assert (N : by_name lower []) by (split; constructor). destruct H as [(dynup & files & E)|(dynup & del & config & saved & E)]; [exact (config_named _ _ _ _ _ N E)|]. unfold save_files in E. destruct (save_first lower (zlen dynup + 2) saved []) as [m1| | |] eqn:E1; cbn [rbind] in E; try discriminate. exact (second_named _ _ _ _ _ _ _ (first_named _ _ _ _ _ N E1) E).
Qed.
