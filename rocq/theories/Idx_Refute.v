(** What adding does when a page is full, and other cases that go wrong. *)
From Verif Require Import Prelude Lists Leaf_Model Leaf_Spec Leaf_Proofs Leaf_Walk Leaf_More Idx_Model Idx_Spec Idx_Order Idx_Proofs Idx_Tree Idx_Add Idx_Del.
Ltac Zify.zify_post_hook ::= idtac.

(** ** Files that grow *)
Lemma put_any f o d : 0 <= o -> exists g, put f o d = splice g (Z.to_nat o) d /\ o + zlen d <= zlen g /\ zlen g = Z.max (zlen f) (o + zlen d) /\ (forall off n, (off + n <= length f)%nat -> sub g off n = sub f off n).
Proof.
  intros H. exists (f ++ repeat 0 (Z.to_nat (o + zlen d - zlen f))). assert (E : zlen (f ++ repeat 0 (Z.to_nat (o + zlen d - zlen f))) = Z.max (zlen f) (o + zlen d)) by (rewrite zlen_app; unfold zlen at 2; rewrite repeat_length; lia).
  split; [reflexivity|]. split; [lia|]. split; [exact E|]. intros off n Hn. unfold sub. destruct (Nat.le_gt_cases off (length f)); [|rewrite !skipn_all2 by (rewrite ?app_length; lia)].
  - rewrite skipn_app, firstn_app, skipn_length. replace (n - (length f - off))%nat with 0%nat by lia. now rewrite firstn_O, app_nil_r.
  - lia.
Qed.
Lemma put_zlen f o d : 0 <= o -> zlen (put f o d) = Z.max (zlen f) (o + zlen d).
Proof. intros H. destruct (put_any f o d H) as (g & -> & H1 & H2 & _). rewrite zlen_splice; [exact H2|unfold zlen in *; lia]. Qed.
Lemma get_put_any f o d : 0 <= o -> get (put f o d) o (zlen d) = Ok d.
Proof.
  intros H. pose proof (put_zlen f o d H) as HZ. pose proof (zlen_nonneg d). rewrite get_ok by lia. destruct (put_any f o d H) as (g & -> & H1 & _). f_equal. unfold zlen. rewrite Nat2Z.id. apply sub_splice_same. unfold zlen in *. lia.
Qed.
Lemma get_put_far f o d off n : 0 <= o -> 0 <= off -> 0 <= n -> off + n <= zlen f -> off + n <= o \/ o + zlen d <= off -> get (put f o d) off n = get f off n.
Proof.
  intros H H0 H1 H2 H3. pose proof (put_zlen f o d H) as HZ. rewrite !get_ok by lia. destruct (put_any f o d H) as (g & -> & G1 & G2 & G3). f_equal.
  rewrite sub_splice_other; [apply G3|..]; unfold zlen in *; lia.
Qed.

(** ** Lengths *)
Lemma wrn_len (l : list Z) i d q : wrn l i d = Ok q -> zlen q = zlen l.
Proof. intros H. apply wrn_some in H. destruct H as (-> & H1 & H2). apply zlen_splice. unfold zlen in *. lia. Qed.
Lemma pack_recs_len n : forall first primary len ds buf cur page curp plen maxn ps page' plen' maxn', pack_recs n first primary len ds buf cur page curp plen maxn = Ok (Some (ps, page', plen', maxn')) -> zlen page' = zlen page.
Proof.
  induction n as [|n IH]; intros first primary len ds buf cur page curp plen maxn ps page' plen' maxn' H; cbn [pack_recs] in H; [congruence|].
  destruct (rdn buf cur 4) as [nb| | |]; try discriminate. cbn [rbind] in H.
  match type of H with (do l <- ?e; _) = _ => destruct e as [lft| | |]; try discriminate end. cbn [rbind] in H.
  match type of H with (do l <- ?e; _) = _ => destruct e as [j| | |]; try discriminate end. cbn [rbind] in H.
  match type of H with (do l <- ?e; _) = _ => destruct e as [rgt| | |]; try discriminate end. cbn [rbind] in H.
  destruct (ds <=? _); [discriminate|]. match type of H with (do l <- ?e; _) = _ => destruct e as [d| | |]; try discriminate end. cbn [rbind] in H.
  match type of H with (do l <- ?e; _) = _ => destruct e as [pg| | |] eqn:EW; try discriminate end. cbn [rbind] in H.
  match type of H with (do l <- ?e; _) = _ => destruct e as [r| | |] eqn:ER; try discriminate end. cbn [rbind] in H.
  destruct r as [[[[ps0 pg0] pl0] mx0]|]; [|discriminate]. apply IH in ER. apply wrn_len in EW. injection H as _ <- _ _. lia.
Qed.
Lemma put_entries_len ps : forall page curp rb lb nb q, put_entries ps page curp rb lb nb = Ok q -> zlen q = zlen page.
Proof.
  induction ps as [|p ps IH]; intros page curp rb lb nb q H; cbn [put_entries] in H; [congruence|]. destruct (rdn _ 0 rb) as [e| | |]; try discriminate. cbn [rbind] in H.
  destruct (wrn page curp e) as [pg| | |] eqn:EW; try discriminate. cbn [rbind] in H. apply IH in H. apply wrn_len in EW. lia.
Qed.
Lemma pack_len primary len ps buf n page q b : pack_leafpage primary len ps buf n page = Ok (q, b) -> zlen q = zlen page.
Proof.
  unfold pack_leafpage. intros H. destruct (wrn page 30 _) as [pz| | |] eqn:EW; try discriminate. cbn [rbind] in H. apply wrn_len in EW.
  destruct (pack_recs _ _ _ _ _ _ _ _ _ _ _) as [[[[[ps' pg] pl] mx]|]| | |] eqn:EP; try discriminate; cbn [rbind] in H; [|congruence]. apply pack_recs_len in EP.
  destruct (_ <? _); [congruence|]. cbv zeta in H. destruct (wrn pg 0 _) as [p1| | |] eqn:EW1; try discriminate. cbn [rbind] in H. apply wrn_len in EW1.
  destruct (put_entries _ _ _ _ _ _) as [p2| | |] eqn:EE; try discriminate. cbn [rbind] in H. apply put_entries_len in EE. injection H as <- _. lia.
Qed.
Lemma set_links_some p fl a b : 12 <= zlen p -> exists q, set_links p fl a b = Ok q /\ zlen q = zlen p.
Proof.
  intros H. unfold set_links. rewrite wrn_in by (rewrite ?zlen_le; lia). cbn [rbind]. set (q1 := splice _ _ _). assert (L1 : zlen q1 = zlen p) by (apply zlen_splice; rewrite le_bytes_length; unfold zlen in *; change (Z.to_nat 0) with 0%nat; lia).
  rewrite wrn_in by (rewrite ?zlen_le; lia). cbn [rbind]. set (q2 := splice q1 _ _). assert (L2 : zlen q2 = zlen p) by (unfold q2; rewrite zlen_splice; [exact L1|rewrite le_bytes_length; unfold zlen in *; change (Z.to_nat 4) with 4%nat; lia]).
  rewrite wrn_in by (rewrite ?zlen_le; lia). eexists. split; [reflexivity|]. rewrite zlen_splice; [exact L2|rewrite le_bytes_length; unfold zlen in *; change (Z.to_nat 8) with 8%nat; lia].
Qed.
Lemma set_entry_some p at_ key num no : 0 <= at_ -> at_ + zlen key + 8 <= zlen p -> exists q, set_entry p at_ key num no = Ok q /\ zlen q = zlen p /\
  (forall c n, Z.of_nat (c + n) <= at_ \/ at_ + zlen key + 8 <= Z.of_nat c -> sub q c n = sub p c n) /\ sub q (Z.to_nat at_) (length key) = key.
Proof.
  intros H1 H2. pose proof (zlen_nonneg key). unfold set_entry. rewrite wrn_in by lia. cbn [rbind]. set (q1 := splice _ _ _). assert (L1 : zlen q1 = zlen p) by (apply zlen_splice; unfold zlen in *; lia).
  rewrite wrn_in by (rewrite ?zlen_be4; lia). cbn [rbind]. set (q2 := splice q1 _ _). assert (LB : forall v, length (be4 v) = 4%nat) by (intros v; unfold be4; now rewrite rev_length, le_bytes_length).
  assert (L2 : zlen q2 = zlen p) by (unfold q2; rewrite zlen_splice; [exact L1|rewrite LB; unfold zlen in *; lia]).
  rewrite wrn_in by (rewrite ?zlen_be4; lia). eexists. split; [reflexivity|]. split; [rewrite zlen_splice; [exact L2|rewrite LB; unfold zlen in *; lia]|]. split.
  - intros c n HD. rewrite sub_splice_other by (rewrite LB; unfold zlen in *; lia). unfold q2. rewrite sub_splice_other by (rewrite LB; unfold zlen in *; lia). unfold q1. apply sub_splice_other; unfold zlen in *; lia.
  - rewrite sub_splice_other by (rewrite LB; unfold zlen in *; lia). unfold q2. rewrite sub_splice_other by (rewrite LB; unfold zlen in *; lia). unfold q1. apply sub_splice_same. unfold zlen in *; lia.
Qed.

Lemma page_ge o p : 0 < o -> 0 < p -> o mod p = 0 -> p <= o.
Proof. intros H1 H2 H3. destruct (Z.lt_ge_cases o p) as [H|H]; [|exact H]. rewrite Z.mod_small in H3; lia. Qed.
(** ** A leaf that is full *)
Definition halves (l : list (Z * list Z)) : (Z * list Z) * (Z * list Z) := (nth (Nat.div2 (length l) - 1) l (0, []), last l (0, [])).
Lemma flat_skip len recs : forall n, Forall (rec_ok len) recs -> 0 < len -> skipn (n * Z.to_nat (len + 4)) (flat recs) = flat (skipn n recs).
Proof.
  induction recs as [|[m k] recs IH]; intros n HR Hl; [now rewrite !skipn_nil|]. destruct n as [|n]; [reflexivity|]. cbn [skipn]. rewrite <- IH by (try exact (Forall_inv_tail HR); exact Hl). unfold flat at 1. cbn [map concat fst snd].
  pose proof (Forall_inv HR) as (_ & Hk & _). cbn [snd] in Hk. rewrite skipn_app. rewrite skipn_all2 by (rewrite app_length, le_bytes_length; unfold zlen in *; nia).
  cbn [app]. f_equal. rewrite app_length, le_bytes_length. unfold zlen in *. nia.
Qed.
Lemma write_leaf_split x junk f o page key num recs p0 : 0 < x_len x < 2^15 -> 30 < x_ps x <= 2^16 -> zlen page = x_ps x -> zlen junk = x_ps x -> 0 < o -> o mod x_ps x = 0 -> o + x_ps x <= zlen f ->
  unpack_leafpage (x_len x) (x_ps x) page = Ok recs -> Forall (rec_ok (x_len x)) recs -> ss recs -> rec_ok (x_len x) (num, key) -> ~ In key (map snd recs) -> zlen recs < 2^16 ->
  pack_leafpage (x_primary x) (x_len x) (x_ps x) (flat (added key num recs)) (length (added key num recs)) page = Ok (p0, false) -> get f 0 4 = Ok [0; 0; 0; 0] ->
  let l := halves (added key num recs) in
  exists f1, write_leaf x junk f o page key num = Ok (f1, O2 (snd (fst l)) (fst (fst l)) (snd (snd l)) (fst (snd l)) (zlen f)) /\ zlen f1 = zlen f + x_ps x /\
    (forall off n, 0 <= off -> 0 <= n -> off + n <= zlen f -> off + n <= o \/ o + x_ps x <= off -> get f1 off n = get f off n).
Proof.
  intros Hlen Hps Hpg Hj Ho0 Hom Hof HU HR HS Hrec Hfr Hrl HP HZ l. unfold write_leaf. rewrite HU. cbn [rbind].
  pose proof (rec_same_len _ _ _ _ Hrec HR) as HSL.
  destruct (find_leaf_fresh (x_primary x) key num recs 0 HSL Hfr) as (a & b & E1 & E2 & E3 & E4 & E5). rewrite E3. cbn [rbind Nat.add].
  replace (firstn (length a) recs ++ (num, key) :: skipn (length a) recs) with (added key num recs).
  2:{ rewrite E2, E1. rewrite firstn_app, Nat.sub_diag, firstn_all, firstn_O, app_nil_r, skipn_app, Nat.sub_diag, skipn_all. reflexivity. }
  pose proof (added_rec_ok _ _ _ _ Hrec HR) as HR'. assert (HS' : ss (added key num recs)) by (apply added_ss; auto). pose proof (added_len key num recs) as HLn.
  set (rs := added key num recs) in *. clearbody rs. change (unpacked rs) with (flat rs). rewrite HP. cbn [rbind].
  set (n1 := Nat.div2 (length rs)). assert (Hn1 : (n1 <= length rs)%nat) by (unfold n1; apply Nat.lt_eq_cases; destruct (length rs); [now right|left; apply Nat.lt_div2; lia]).
  pose proof (pack_len _ _ _ _ _ _ _ _ HP) as L0.
  assert (HSP : ss (firstn n1 rs) /\ ss (skipn n1 rs)) by (rewrite <- (firstn_skipn n1 rs) in HS'; apply ss_app in HS'; tauto). destruct HSP as [HSa HSb].
  destruct (pack_total_any (x_primary x) (x_len x) (x_ps x) (firstn n1 rs) (flat (skipn n1 rs)) p0 Hlen Hps ltac:(lia) (Forall_firstn' _ _ _ HR') ltac:(unfold zlen in *; rewrite firstn_length; lia) (ss_sorted _ HSa)) as (q1 & b1 & EQ1 & _).
  replace (flat (firstn n1 rs) ++ flat (skipn n1 rs)) with (flat rs) in EQ1 by (unfold flat; rewrite <- concat_app, <- map_app, firstn_skipn; reflexivity).
  rewrite firstn_length, Nat.min_l in EQ1 by exact Hn1. rewrite EQ1. cbn [rbind].
  destruct (pack_total_any (x_primary x) (x_len x) (x_ps x) (skipn n1 rs) [] junk Hlen Hps Hj (Forall_skipn' _ _ _ HR') ltac:(unfold zlen in *; rewrite skipn_length; lia) (ss_sorted _ HSb)) as (q2 & b2 & EQ2 & _).
  rewrite app_nil_r, skipn_length in EQ2. rewrite (flat_skip (x_len x)) by (try exact HR'; lia). rewrite EQ2. cbn [rbind].
  unfold take_page. rewrite HZ. cbn [rbind]. change (le_val [0; 0; 0; 0] =? 0) with true. cbv iota. cbn [rbind fst].
  pose proof (pack_len _ _ _ _ _ _ _ _ EQ1) as L1. pose proof (pack_len _ _ _ _ _ _ _ _ EQ2) as L2.
  destruct (set_links_some q1 (Z.ldiff (hd_field page 0 2) 1) (hd_field page 4 4) (page_no x (zlen f)) ltac:(lia)) as (r1 & ES1 & LS1). rewrite ES1. cbn [rbind].
  destruct (set_links_some q2 (Z.ldiff (hd_field page 0 2) 1) (page_no x o) (hd_field page 8 4) ltac:(lia)) as (r2 & ES2 & LS2). rewrite ES2. cbn [rbind].
  eexists. split; [reflexivity|]. pose proof (zlen_nonneg f) as Hf0. assert (LP : zlen (put f (zlen f) r2) = zlen f + x_ps x) by (rewrite put_zlen; lia). split.
  - rewrite put_len; lia.
  - intros off n H1 H2 H3 H4. rewrite get_put_other by lia. apply get_put_far; lia.
Qed.

(** ** The root becomes two pages *)
Definition overflows (x : ix) (f : list Z) (c : Z) (recs : list (Z * list Z)) : Prop :=
  exists page p0, get f c (x_ps x) = Ok page /\ pack_leafpage (x_primary x) (x_len x) (x_ps x) (flat recs) (length recs) page = Ok (p0, false).
Lemma set_entry_head p at_ key num no q : 12 <= at_ -> set_entry p at_ key num no = Ok q -> zlen q = zlen p /\ sub q 0 12 = sub p 0 12.
Proof.
  intros H E. unfold set_entry in E. pose proof (zlen_nonneg key).
  destruct (wrn p at_ key) as [p1| | |] eqn:E1; try discriminate. cbn [rbind] in E. destruct (wrn p1 (at_ + zlen key) (be4 num)) as [p2| | |] eqn:E2; try discriminate. cbn [rbind] in E.
  pose proof (wrn_len _ _ _ _ E1). pose proof (wrn_len _ _ _ _ E2). pose proof (wrn_len _ _ _ _ E). split; [lia|].
  apply wrn_some in E1, E2, E. destruct E1 as (Q1 & E1 & E1'), E2 as (Q2 & E2 & E2'), E as (-> & E & E').
  rewrite sub_splice_other by (unfold zlen in *; lia). rewrite Q2, sub_splice_other by (unfold zlen in *; lia). rewrite Q1. apply sub_splice_other; unfold zlen in *; lia.
Qed.
Lemma hd_part p c n m : (c + n <= m)%nat -> hd_field p c n = hd_field (sub p 0 m) c n.
Proof. intros H. unfold hd_field. rewrite (sub_sub p 0 m c n H). reflexivity. Qed.
Lemma leaf_nums_len n : forall buf r rl msk room a, leaf_nums n buf r rl msk room = Ok a -> zlen a = Z.of_nat n.
Proof.
  induction n as [|n IH]; intros buf r rl msk room a H; cbn [leaf_nums] in H; [injection H as <-; reflexivity|]. destruct (rdn _ _ _); try discriminate. cbn [rbind] in H. destruct (room <=? 0); [discriminate|].
  destruct (leaf_nums n _ _ _ _ _) as [b| | |] eqn:E; try discriminate. cbn [rbind] in H. injection H as <-. apply IH in E. rewrite zlen_cons. lia.
Qed.
Lemma nth_sub0 (p : list Z) m : (0 < m)%nat -> nth 0 p 0 = nth 0 (sub p 0 m) 0.
Proof. intros H. unfold sub. cbn [skipn]. destruct p; [now rewrite firstn_nil|]. destruct m; [lia|reflexivity]. Qed.
Lemma new_root x junk f key num fuel f' x' : write_index fuel x junk f key num = Ok (f', x') -> 0 <= x_len x -> 30 < x_ps x -> x_root x' <> x_root x -> 0 <= x_root x' < 2^32 -> 0 <= x_start x -> x_start x + 4 <= x_root x' \/ x_root x' + x_ps x <= x_start x ->
  exists p, get f' (x_root x') (x_ps x) = Ok p /\ sub p 0 12 = [3; 0; 2; 0; 255; 255; 255; 255; 255; 255; 255; 255] /\ get f' (x_start x) 4 = Ok (le_bytes 4 (x_root x')).
Proof.
  intros HW Hl Hps HR HR2 Hs HD. unfold write_index in HW. destruct (write_rec _ _ _ _ _ _ _) as [[f1 o]| | |]; try discriminate. cbn [rbind] in HW.
  destruct o as [|k m|k1 m1 k2 m2 b2]; [injection HW as _ <-; contradiction|injection HW as _ <-; contradiction|].
  destruct (take_page x f1) as [[f2 block]| | |]; try discriminate. cbn [rbind] in HW.
  destruct (wrn (repeat 0 (Z.to_nat (x_ps x))) 0 _) as [p1| | |] eqn:E1; try discriminate. cbn [rbind] in HW.
  destruct (set_entry p1 12 _ _ _) as [p2| | |] eqn:E2; try discriminate. cbn [rbind] in HW. destruct (set_entry p2 _ _ _ _) as [p3| | |] eqn:E3; try discriminate. cbn [rbind] in HW.
  apply ok_inj, pair_equal_spec in HW. destruct HW as [<- <-]. cbn [x_root] in *. pose proof (wrn_len _ _ _ _ E1) as L1. apply set_entry_head in E2; [|lia]. apply set_entry_head in E3; [|lia]. destruct E2 as [L2 S2], E3 as [L3 S3].
  apply wrn_some in E1. destruct E1 as (E1 & _ & _). assert (L0 : zlen (repeat 0 (Z.to_nat (x_ps x))) = x_ps x) by (unfold zlen; rewrite repeat_length; lia).
  exists p3. assert (Z4 : zlen (le_bytes 4 block) = 4) by apply zlen_le. split; [|split].
  - assert (LP : block + x_ps x <= zlen (put f2 block p3)) by (rewrite put_zlen; lia). rewrite get_put_far by lia. replace (x_ps x) with (zlen p3) by lia. apply get_put_any. lia.
  - rewrite S3, S2, E1. set (hd12 := le_bytes 2 3 ++ _). assert (LD : length hd12 = 12%nat) by reflexivity. change (Z.to_nat 0) with 0%nat. rewrite <- LD. rewrite sub_splice_same; [reflexivity|].
    rewrite LD. unfold zlen in L0. lia.
  - rewrite <- Z4 at 1. apply get_put_any. exact Hs.
Qed.
(** before 8.3.8: the pages are there, but only two records are listed *)
Theorem root_lost x junk f key num fuel f' x' fuel' room nums : write_index fuel x junk f key num = Ok (f', x') -> 0 <= x_len x -> 30 < x_ps x -> x_root x' <> x_root x -> 0 <= x_root x' < 2^32 -> 0 <= x_start x ->
  x_start x + 4 <= x_root x' \/ x_root x' + x_ps x <= x_start x -> x_838 x = false -> create_recordsindex (get f') fuel' (x_start x) (x_ps x) false room = Ok nums -> zlen nums = 2.
Proof.
  intros HW Hl Hps HR HR2 Hs HD Hv HC. destruct (new_root x junk f key num fuel f' x' HW Hl Hps HR HR2 Hs HD) as (p & G1 & G2 & G3).
  unfold create_recordsindex in HC. destruct (get f' (x_start x) 8) as [h| | |] eqn:EH; try discriminate. cbn [rbind] in HC.
  assert (EH' : sub h 0 4 = le_bytes 4 (x_root x')). { pose proof (get_part f' (x_start x) 8 h 0 4 EH ltac:(lia) ltac:(lia) ltac:(lia)) as HP. rewrite Z.add_0_r in HP. rewrite G3 in HP. apply ok_inj in HP. symmetry. exact HP. }
  rewrite EH', le_val_bytes_small in HC by exact HR2. rewrite Z.mul_1_r, G1 in HC. cbn [rbind] in HC.
  assert (F2 : hd_field p 2 2 = 2) by (rewrite (hd_part p 2 2 12), G2 by lia; reflexivity). assert (F8 : hd_field p 8 4 = 2^32 - 1) by (rewrite (hd_part p 8 4 12), G2 by lia; reflexivity).
  rewrite F2 in HC. change (i16 2 =? 0) with false in HC. cbv iota in HC. destruct fuel' as [|fuel']; [discriminate|]. cbn [first_leaf] in HC. rewrite (nth_sub0 p 12), G2 in HC by lia. change (Z.land _ 2 =? 0) with false in HC. cbv iota in HC. cbn [rbind leaves] in HC.
  rewrite F2, F8 in HC. destruct (leaf_nums _ _ _ _ _ _) as [a| | |] eqn:EA; try discriminate. cbn [rbind] in HC. rewrite Z.eqb_refl in HC. apply leaf_nums_len in EA. injection HC as <-. rewrite EA. reflexivity.
Qed.
(** from 8.3.8 on: the index cannot be read *)
Theorem root_lost_838 x junk f key num fuel f' x' fuel' room nums : write_index fuel x junk f key num = Ok (f', x') -> 0 <= x_len x -> 30 < x_ps x -> x_root x' <> x_root x -> 0 <= x_root x' < 2^32 -> 0 <= x_start x ->
  x_start x + 4 <= x_root x' \/ x_root x' + x_ps x <= x_start x -> x_838 x = true -> zlen f' <= x_root x' * x_ps x -> create_recordsindex (get f') fuel' (x_start x) (x_ps x) true room = Ok nums -> False.
Proof.
  intros HW Hl Hps HR HR2 Hs HD Hv HZ HC. destruct (new_root x junk f key num fuel f' x' HW Hl Hps HR HR2 Hs HD) as (p & G1 & G2 & G3).
  unfold create_recordsindex in HC. destruct (get f' (x_start x) 8) as [h| | |] eqn:EH; try discriminate. cbn [rbind] in HC.
  assert (EH' : sub h 0 4 = le_bytes 4 (x_root x')). { pose proof (get_part f' (x_start x) 8 h 0 4 EH ltac:(lia) ltac:(lia) ltac:(lia)) as HP. rewrite Z.add_0_r in HP. rewrite G3 in HP. apply ok_inj in HP. symmetry. exact HP. }
  rewrite EH', le_val_bytes_small in HC by exact HR2. destruct (get f' (x_root x' * x_ps x) (x_ps x)) as [q| | |] eqn:EQ; try discriminate. apply get_some in EQ. lia.
Qed.
Theorem root_split x junk f o recs key num fuel : index_ok x f (Leaf o recs) -> rec_ok (x_len x) (num, key) -> ~ In key (map snd recs) -> overflows x f o (added key num recs) -> get f 0 4 = Ok [0; 0; 0; 0] ->
  zlen junk = x_ps x -> 12 + 2 * (x_len x + 8) <= x_ps x -> zlen f + 2 * x_ps x <= 2^32 -> 2 <= zlen recs -> (0 < fuel)%nat ->
  exists f' x', write_index fuel x junk f key num = Ok (f', x') /\ zlen f' = zlen f + 2 * x_ps x /\ forall fuel' room nums, create_recordsindex (get f') fuel' (x_start x) (x_ps x) (x_838 x) room = Ok nums -> zlen nums = 2 /\ 3 <= zlen (added key num recs).
Proof.
  intros HI Hrec HN (page & p0 & HG & HP) HZ Hj Hfit Hsz H2 Hfu. pose proof (index_tok x f _ HI) as HT. destruct HI as [I1 I2 I3 I4 I5 I6 [I7 I7'] I8 I9 I10 I11]. pose proof (sorted_ss _ I8) as SS.
  assert (ER : t_recs (Leaf o recs) = recs) by (unfold t_recs; cbn [t_leaves map concat snd]; apply app_nil_r). rewrite ER in *. fold (ss recs) in SS.
  destruct (I7' o (or_introl eq_refl)) as (O1' & O2' & O3' & O4'). cbn [stored] in I4. destruct I4 as (p & [P1 [P2 P2']] & HU & _ & HL & _). assert (p = page) by congruence. subst p.
  destruct (write_leaf_split x junk f o page key num recs p0 I1 I2 P2 Hj O1' O2' O3' HU I9 SS Hrec HN ltac:(lia) HP HZ) as (f1 & EW & L1 & FR).
  set (l := halves (added key num recs)) in *. destruct I11 as (h & EH & EH1 & EH2). pose proof (get_some _ _ _ _ EH) as (S1 & _ & S3 & _).
  assert (HK : zlen (snd (fst l)) = x_len x /\ zlen (snd (snd l)) = x_len x).
  { pose proof (added_rec_ok _ _ _ _ Hrec I9) as HR'. pose proof (added_len key num recs) as HLn. rewrite Forall_forall in HR'. unfold l, halves. cbn [fst snd]. set (rs := added key num recs) in *. split.
    - apply HR'. apply nth_In. unfold zlen in *. assert (Nat.div2 (length rs) <= length rs)%nat by (apply Nat.div2_decr; lia). lia.
    - destruct rs as [|r0 rs0] eqn:Ers; [change (zlen (@nil (Z * list Z))) with 0 in HLn; lia|]. apply HR'. destruct (exists_last (l := r0 :: rs0)) as (a & z & Ea); [discriminate|]. rewrite Ea. rewrite last_last. apply in_or_app. right. now left. }
  destruct HK as [K1 K2].
  assert (HZ1 : get f1 0 4 = Ok [0; 0; 0; 0]). { rewrite FR; try lia; [exact HZ|]. left. pose proof (page_ge o (x_ps x) ltac:(lia) ltac:(lia) O2'). lia. }
  assert (L0 : zlen (repeat 0 (Z.to_nat (x_ps x))) = x_ps x) by (unfold zlen; rewrite repeat_length; lia).
  set (hd12 := le_bytes 2 3 ++ le_bytes 2 2 ++ le_bytes 4 (2 ^ 32 - 1) ++ le_bytes 4 (2 ^ 32 - 1)). assert (LH : zlen hd12 = 12) by reflexivity. set (q1 := splice (repeat 0 (Z.to_nat (x_ps x))) (Z.to_nat 0) hd12).
  assert (LQ : zlen q1 = x_ps x) by (unfold q1; rewrite zlen_splice; [exact L0|unfold zlen in *; lia]).
  destruct (set_entry_some q1 12 (snd (fst l)) (fst (fst l)) (page_no x o) ltac:(lia) ltac:(lia)) as (q2 & ES2 & LQ2 & _).
  destruct (set_entry_some q2 (12 + x_len x + 8) (snd (snd l)) (fst (snd l)) (page_no x (zlen f)) ltac:(lia) ltac:(lia)) as (q3 & ES3 & LQ3 & _).
  pose proof (leaf_flag _ _ _ _ (proj1 I1) HU) as HF. cbn [t_off] in I10.
  assert (HW : write_index fuel x junk f key num = Ok (put (put f1 (zlen f1) q3) (x_start x) (le_bytes 4 (zlen f1)), IX (x_primary x) (x_len x) (x_ps x) (x_838 x) (x_start x) (zlen f1) (x_ov x))).
  { unfold write_index. destruct fuel as [|fuel]; [lia|]. cbn [write_rec]. rewrite I10, HG. cbn [rbind]. destruct (Z.eqb_spec (Z.land (hd_field page 0 2) 2) 0); [contradiction|]. cbn [negb]. rewrite EW. cbn [rbind].
    unfold take_page. rewrite HZ1. cbn [rbind]. change (le_val [0; 0; 0; 0] =? 0) with true. cbv iota. cbn [rbind]. fold hd12. rewrite wrn_in by lia. cbn [rbind]. fold q1. rewrite ES2. cbn [rbind]. rewrite ES3. reflexivity. }
  pose proof (zlen_nonneg f) as Hf0.
  assert (LF : zlen (put (put f1 (zlen f1) q3) (x_start x) (le_bytes 4 (zlen f1))) = zlen f + 2 * x_ps x) by (rewrite put_len; rewrite ?put_zlen, ?zlen_le; lia).
  eexists. eexists. split; [exact HW|]. split; [exact LF|].
  intros fuel' room nums HC. split; [|rewrite added_len; lia].
  assert (HB : zlen (put (put f1 (zlen f1) q3) (x_start x) (le_bytes 4 (zlen f1))) <= zlen f1 * x_ps x) by (rewrite LF, L1; nia).
  destruct (x_838 x) eqn:EV.
  - exfalso. eapply (root_lost_838 x junk f key num fuel); [exact HW|cbn [x_root x_838]..|exact HC]; first [exact HB|exact EV|lia].
  - eapply (root_lost x junk f key num fuel); [exact HW|cbn [x_root x_838]..|exact HC]; first [exact EV|lia].
Qed.

(** ** A child becomes two pages *)
Lemma uniq_split {A} (P : A -> bool) (a b a' b' : list A) k k' : a ++ k :: b = a' ++ k' :: b' -> Forall (fun t => P t = true) a -> Forall (fun t => P t = true) a' -> b = [] \/ P k = false -> b' = [] \/ P k' = false -> a = a' /\ k = k' /\ b = b'.
Proof.
  revert a'. induction a as [|u a IH]; intros [|u' a'] E HA HA' HB HB'; cbn [app] in E; injection E as E1 E2.
  - auto.
  - subst. exfalso. destruct HB as [HB|HB]; [destruct a'; discriminate|]. pose proof (Forall_inv HA') as H. cbn beta in H. congruence.
  - subst. exfalso. destruct HB' as [HB'|HB']; [destruct a; discriminate|]. pose proof (Forall_inv HA) as H. cbn beta in H. congruence.
  - destruct (IH a' E2 (Forall_inv_tail HA) (Forall_inv_tail HA') HB HB') as (-> & -> & ->). now subst.
Qed.
Lemma find_entry_none len key page ks : forall i at_, (forall j e, nth_error ks j = Some e -> rdn page (at_ + (len + 8) * Z.of_nat j) len = Ok e) -> Forall (fun e => length e = length key /\ key_ltb e key = true) ks ->
  find_entry (length ks) len key page i at_ = Ok None.
Proof.
  induction ks as [|e ks IH]; intros i at_ HR HL; [reflexivity|]. cbn [length find_entry]. pose proof (HR 0%nat e eq_refl) as E0. replace (at_ + (len + 8) * Z.of_nat 0) with at_ in E0 by lia. rewrite E0. cbn [rbind].
  destruct (Forall_inv HL) as [L0 L1]. destruct (memcmp_cases key e ltac:(lia)) as [[-> M]|[[E M]|[E M]]]; [rewrite ltb_irrefl in L1; discriminate|apply ltb_asym in E; congruence|]. rewrite M. cbn [Z.leb Z.compare].
  apply IH; [|exact (Forall_inv_tail HL)]. intros j e' Hj. replace (at_ + len + 8 + (len + 8) * Z.of_nat j) with (at_ + (len + 8) * Z.of_nat (S j)) by lia. now apply HR.
Qed.
Section child.
Variables (x : ix) (junk f key : list Z) (num o c : Z) (a b : list tree) (recs : list (Z * list Z)).
Notation ps := (x_ps x).
Notation len := (x_len x).
Hypothesis HI : index_ok x f (Node o (a ++ Leaf c recs :: b)).
Hypothesis Hrec : rec_ok len (num, key).
Hypothesis HN : ~ In key (map snd (t_recs (Node o (a ++ Leaf c recs :: b)))).
Hypothesis HA : Forall (fun t => ends_before key (t_recs t) = true) a.
Hypothesis HB : b = [] \/ ends_before key recs = false.
Hypothesis HO : overflows x f c (added key num recs).
Hypothesis HZ : get f 0 4 = Ok [0; 0; 0; 0].
Hypothesis Hj : zlen junk = ps.
Let l := halves (added key num recs).
Lemma child_split fuel page : get f o ps = Ok page -> exists f1, (zlen f1 = zlen f + ps /\ forall cp, get f c ps = Ok cp -> exists ou, write_leaf x junk f c cp key num = Ok (f1, ou)) /\ get f1 o ps = Ok page /\
  write_index (S (S fuel)) x junk f key num =
    (if (ps - 12) / (len + 8) <? zlen a + 2 + zlen b then UB
     else
       do p <- (if zlen b =? 0 then Ok page else move x page (12 + zlen a * (len + 8) + (len + 8)) (12 + zlen a * (len + 8) + 2 * (len + 8)) (zlen b * (len + 8)));
       do p <- set_entry p (12 + zlen a * (len + 8)) (snd (fst l)) (fst (fst l)) (page_no x c);
       do p <- set_entry p (12 + zlen a * (len + 8) + (len + 8)) (snd (snd l)) (fst (snd l)) (page_no x (zlen f));
       Ok (put f1 o p, x)).
Proof.
  intros HG. pose proof (index_tok x f _ HI) as HT. destruct HI as [I1 I2 I3 I4 I5 I6 [I7 I7'] I8 I9 I10 I11]. pose proof (sorted_ss _ I8) as SS. fold (ss (t_recs (Node o (a ++ Leaf c recs :: b)))) in SS.
  pose proof (rec_same_len _ _ _ _ Hrec I9) as HSL.
  assert (ER : t_recs (Leaf c recs) = recs) by (unfold t_recs; cbn [t_leaves map concat snd]; apply app_nil_r).
  destruct (node_reads x I1 I2 f o _ page HT HG) as (R1 & R2 & R3 & R4 & R5 & R6 & R7).
  destruct (choose x I1 I2 key f o _ page (x_primary x) HT HG HSL) as (a' & k' & b' & EK & HA' & HB' & HC). rewrite <- ER in HB.
  destruct (uniq_split (fun t => ends_before key (t_recs t)) a b a' b' (Leaf c recs) k' EK HA HA' HB HB') as (<- & <- & <-). clear HA' HB' EK.
  assert (Hnk : nth_error (a ++ Leaf c recs :: b) (length a) = Some (Leaf c recs)) by (rewrite nth_error_app2, Nat.sub_diag by lia; reflexivity).
  destruct (R7 (length a) _ Hnk) as (J1 & J2 & J3 & bb & J4 & J5). rewrite recs_node, ER in *. pose proof (ss_kids a (Leaf c recs) b) as SSK. rewrite ER in SSK. destruct (SSK SS) as (SA & SK & SB). clear SSK.
  assert (HKN : ~ In key (map snd recs)) by (intros Hi; apply HN; rewrite !map_app; apply in_or_app; right; apply in_or_app; now left).
  destruct HC as [(E & _ & _)|(i & EI & Ei)].
  { exfalso. destruct (lastkey_in (Leaf c recs)) as [n Hn]; [now rewrite ER|]. rewrite E, ER in Hn. apply HKN. apply in_map_iff. exists (n, key). auto. }
  pose proof (tok_kid x f o a (Leaf c recs) b HT) as [T1 _ _ T4]. cbn [stored] in T1. destruct T1 as (cp & [P1 [P2 P2']] & HU & _ & HL & _). destruct HO as (page' & p0 & HG' & HP). assert (cp = page') by congruence. subst page'.
  assert (HCin : In c (t_pages (Node o (a ++ Leaf c recs :: b)))) by (cbn [t_pages]; right; apply in_flat_map; exists (Leaf c recs); split; [apply in_or_app; right; now left|now left]).
  destruct (I7' c HCin) as (O1' & O2' & O3' & _).
  apply Forall_app in I9. destruct I9 as [_ I9]. apply Forall_app in I9. destruct I9 as [I9 _].
  destruct (write_leaf_split x junk f c cp key num recs p0 I1 I2 P2 Hj O1' O2' O3' HU I9 SK Hrec HKN ltac:(lia) HP HZ) as (f1 & EW & L1 & FR). fold l in EW.
  exists f1. split; [split; [exact L1|]; intros cp' Hcp'; assert (cp' = cp) by congruence; subst cp'; eexists; exact EW|].
  assert (Hoc : o <> c).
  { cbn [t_pages] in I7. apply NoDup_cons_iff in I7. destruct I7 as [I7 _]. intros <-. apply I7. apply in_flat_map. exists (Leaf o recs). split; [apply in_or_app; right; now left|now left]. }
  destruct (I7' o ltac:(now left)) as (Oo1 & Oo2 & Oo3 & _). split.
  { rewrite FR; try lia; [exact HG|]. destruct (Z.lt_total o c) as [H|[H|H]]; [left|contradiction|right].
    - pose proof (page_ge (c - o) ps ltac:(lia) ltac:(lia)) as HH. rewrite Zminus_mod, O2', Oo2 in HH. specialize (HH (Zmod_0_l ps)). lia.
    - pose proof (page_ge (o - c) ps ltac:(lia) ltac:(lia)) as HH. rewrite Zminus_mod, O2', Oo2 in HH. specialize (HH (Zmod_0_l ps)). lia. }
  unfold write_index. cbn [t_off] in I10. rewrite I10. cbn [write_rec]. rewrite HG. cbn [rbind]. rewrite R1. cbn [Z.eqb negb]. rewrite R2. rewrite EI. cbn [rbind]. rewrite Ei.
  replace (12 + zlen a * (len + 8) + len + 4) with (12 + Z.of_nat (length a) * (len + 8) + len + 4) by (unfold zlen; lia). rewrite J4. cbn [rbind]. rewrite J5. cbn [t_off]. rewrite HG'. cbn [rbind].
  pose proof (leaf_flag _ _ _ _ (proj1 I1) HU) as HF. destruct (Z.eqb_spec (Z.land (hd_field cp 0 2) 2) 0); [contradiction|]. cbn [negb]. rewrite EW. cbn [rbind].
  rewrite !zlen_app, !zlen_cons. replace (zlen a + (1 + zlen b) + 1) with (zlen a + 2 + zlen b) by lia. replace (zlen a + (1 + zlen b) - 1 - zlen a) with (zlen b) by lia.
  destruct ((ps - 12) / (len + 8) <? zlen a + 2 + zlen b); [reflexivity|].
  destruct (if zlen b =? 0 then Ok page else _) as [p1| | |]; try reflexivity. cbn [rbind]. destruct (set_entry p1 _ _ _ _) as [p2| | |]; try reflexivity. cbn [rbind]. destruct (set_entry p2 _ _ _ _) as [p3| | |]; try reflexivity. cbn [rbind].
  destruct (zlen a =? _); reflexivity.
Qed.
Lemma child_page : exists page, get f o ps = Ok page.
Proof. pose proof (index_tok x f _ HI) as HT. destruct (tok_page x f _ HT) as (page & HG & _). exists page. exact HG. Qed.
(** a branch without a place for one more entry: the entries are written behind the end of the copy *)
Theorem full_branch fuel : (ps - 12) / (len + 8) < zlen a + 2 + zlen b -> write_index (S (S fuel)) x junk f key num = UB.
Proof.
  intros H. destruct child_page as [page HG]. destruct (child_split fuel page HG) as (f1 & _ & _ & ->). destruct (Z.ltb_spec ((ps - 12) / (len + 8)) (zlen a + 2 + zlen b)); [reflexivity|lia].
Qed.
(** two children or more behind the one that becomes two: the places of memcpy overlap *)
Theorem middle_child fuel : 2 <= zlen b -> x_ov x = false -> write_index (S (S fuel)) x junk f key num = UB.
Proof.
  intros H Hv. destruct child_page as [page HG]. destruct (child_split fuel page HG) as (f1 & _ & _ & ->). destruct (_ <? _); [reflexivity|]. destruct (Z.eqb_spec (zlen b) 0); [lia|]. unfold move. rewrite Hv, andb_true_r.
  destruct HI as [I1 I2 _ _ _ _ _ _ _ _ _]. replace (12 + zlen a * (len + 8) + (len + 8) - (12 + zlen a * (len + 8) + 2 * (len + 8))) with (- (len + 8)) by ring. rewrite Z.abs_opp, Z.abs_eq by lia.
  destruct (Z.ltb_spec (len + 8) (zlen b * (len + 8))); [reflexivity|nia].
Qed.
Lemma kids_keys : Forall (fun t => t_recs t <> [] /\ length (lastkey t) = length key) (a ++ Leaf c recs :: b).
Proof.
  destruct child_page as [page HG]. pose proof (index_tok x f _ HI) as HT. destruct HI as [I1 I2 _ _ _ _ _ _ I9 _ _]. pose proof (rec_same_len _ _ _ _ Hrec I9) as HSL.
  destruct (node_reads x I1 I2 f o _ page HT HG) as (_ & _ & _ & _ & _ & _ & R7). apply Forall_forall. intros t Ht. destruct (In_nth_error _ _ Ht) as [j Hn]. destruct (R7 j t Hn) as (_ & J2 & _). split; [exact J2|].
  destruct (lastkey_in t J2) as [n Hk]. unfold same_len in HSL. rewrite Forall_forall in HSL. apply (HSL (n, lastkey t)). apply (kid_in _ t); assumption.
Qed.
Lemma halves_in : In (fst l) (added key num recs) /\ In (snd l) (added key num recs) /\ (forall r, In r (skipn (Nat.div2 (length (added key num recs))) (added key num recs)) -> key_ltb (snd (fst l)) (snd r) = true).
Proof.
  pose proof kids_keys as HK. apply Forall_app in HK. destruct HK as [_ HK]. apply Forall_inv in HK. destruct HK as [HK _]. assert (ER : t_recs (Leaf c recs) = recs) by (unfold t_recs; cbn [t_leaves map concat snd]; apply app_nil_r).
  rewrite ER in HK. pose proof (added_len key num recs) as HL. assert (0 < zlen recs) by (destruct recs; [congruence|rewrite zlen_cons; pose proof (zlen_nonneg l0); lia]).
  assert (SSA : ss (added key num recs)).
  { destruct HI as [_ _ _ _ _ _ _ I8 I9 _ _]. pose proof (sorted_ss _ I8) as SS. fold (ss (t_recs (Node o (a ++ Leaf c recs :: b)))) in SS. rewrite recs_node, ER in SS, I9. 
    apply Forall_app in I9. destruct I9 as [_ I9]. apply Forall_app in I9. destruct I9 as [I9 _]. pose proof (rec_same_len _ _ _ _ Hrec I9) as HSL. rewrite recs_node, ER in HN. apply added_ss; auto.
    - apply ss_app in SS. destruct SS as (_ & SS & _). apply ss_app in SS. tauto.
    - intros Hi. apply HN. rewrite !map_app. apply in_or_app. right. apply in_or_app. now left. }
  unfold l, halves. cbn [fst snd]. set (rs := added key num recs) in *. assert (H2 : (2 <= length rs)%nat) by (unfold zlen in *; lia).
  assert (Hd : (1 <= Nat.div2 (length rs) <= length rs)%nat) by (split; [destruct rs as [|? [|? ?]]; cbn [length Nat.div2] in *; lia|apply Nat.div2_decr; lia]).
  set (n1 := Nat.div2 (length rs)) in *. split; [|split].
  - apply nth_In. lia.
  - destruct rs as [|r0 rs0] eqn:Ers; [cbn in H2; lia|]. destruct (exists_last (l := r0 :: rs0)) as (u & z & Ea); [discriminate|]. rewrite Ea, last_last. apply in_or_app. right. now left.
  - intros r Hr. rewrite <- (firstn_skipn n1 rs) in SSA. apply ss_app in SSA. destruct SSA as (_ & _ & SSA). apply SSA; [|exact Hr].
    rewrite <- (firstn_skipn n1 rs) at 1. rewrite app_nth1 by (rewrite firstn_length; lia). apply nth_In. rewrite firstn_length. lia.
Qed.
Lemma dead fuel f2 p ks k n : get f2 o ps = Ok p -> Z.land (hd_field p 0 2) 2 = 0 -> hd_field p 2 2 = zlen ks -> (forall j e, nth_error ks j = Some e -> rdn p (12 + (len + 8) * Z.of_nat j) len = Ok e) ->
  Forall (fun e => length e = length k /\ key_ltb e k = true) ks -> delete_index (S fuel) x f2 k n = Ok f2.
Proof.
  intros HG HF HC HR HK. destruct HI as [_ _ _ _ _ _ _ _ _ I10 _]. unfold delete_index. cbn [t_off] in I10. rewrite I10. cbn [delete_rec]. rewrite HG. cbn [rbind]. rewrite HF. cbn [Z.eqb negb]. rewrite HC.
  replace (Z.to_nat (zlen ks)) with (length ks) by (unfold zlen; lia). rewrite (find_entry_none len k p ks 0 12 HR HK). reflexivity.
Qed.
(** the last child becomes two: the records of the second half cannot be removed *)
Theorem last_child fuel : b = [] -> zlen a + 2 <= (ps - 12) / (len + 8) -> exists f', write_index (S (S fuel)) x junk f key num = Ok (f', x) /\
  forall fuel' n k, In (n, k) (skipn (Nat.div2 (length (added key num recs))) (added key num recs)) -> delete_index (S fuel') x f' k n = Ok f'.
Proof.
  intros Hb Hroom. destruct child_page as [page HG]. destruct (child_split fuel page HG) as (f1 & [L1 _] & HG1 & EW). pose proof (index_tok x f _ HI) as HT. pose proof HI as [I1 I2 _ _ _ _ [_ I7'] I8 I9 I10 _].
  destruct (node_reads x I1 I2 f o _ page HT HG) as (R1 & R2 & R3 & R4 & R5 & R6 & R7). pose proof (sorted_ss _ I8) as SS. fold (ss (t_recs (Node o (a ++ Leaf c recs :: b)))) in SS.
  assert (ER : t_recs (Leaf c recs) = recs) by (unfold t_recs; cbn [t_leaves map concat snd]; apply app_nil_r).
  destruct halves_in as (Hl1 & Hl2 & Hl3). pose proof kids_keys as HK. rewrite recs_node, ER in SS, I9. apply Forall_app in I9. destruct I9 as [_ I9]. apply Forall_app in I9. destruct I9 as [I9 _].
  pose proof (added_rec_ok _ _ _ _ Hrec I9) as HRA. rewrite Forall_forall in HRA. destruct (HRA _ Hl1) as (_ & Z1 & _). destruct (HRA _ Hl2) as (_ & Z2 & _). cbn [snd] in Z1, Z2.
  pose proof (zlen_nonneg a) as Ha0. assert (Zb : zlen b = 0) by (rewrite Hb; reflexivity). rewrite Zb in EW. destruct (Z.ltb_spec ((ps - 12) / (len + 8)) (zlen a + 2 + 0)); [lia|]. cbn [Z.eqb rbind] in EW.
  assert (MM : (zlen a + 2) * (len + 8) <= ps - 12). { pose proof (Z.mul_div_le (ps - 12) (len + 8) ltac:(lia)). pose proof (Z.mul_le_mono_nonneg_l _ _ (len + 8) ltac:(lia) Hroom). lia. } assert (M0 : 0 <= zlen a * (len + 8)) by nia.
  destruct (set_entry_some page (12 + zlen a * (len + 8)) (snd (fst l)) (fst (fst l)) (page_no x c) ltac:(lia) ltac:(lia)) as (p1 & S1 & LP1 & FR1 & SB1). rewrite S1 in EW. cbn [rbind] in EW.
  destruct (set_entry_some p1 (12 + zlen a * (len + 8) + (len + 8)) (snd (snd l)) (fst (snd l)) (page_no x (zlen f)) ltac:(lia) ltac:(lia)) as (p2 & S2 & LP2 & FR2 & SB2). rewrite S2 in EW. cbn [rbind] in EW.
  exists (put f1 o p2). split; [exact EW|]. intros fuel' n k Hk.
  apply set_entry_head in S1; [|lia]. apply set_entry_head in S2; [|lia]. destruct S1 as [_ S1], S2 as [_ S2].
  assert (HF : forall q m, (q + m <= 12)%nat -> hd_field p2 q m = hd_field page q m) by (intros q m Hq; rewrite (hd_part p2 q m 12), S2, S1 by exact Hq; symmetry; now apply hd_part).
  destruct (I7' o ltac:(now left)) as (Oo1 & Oo2 & Oo3 & _).
  apply (dead fuel' (put f1 o p2) p2 (map lastkey a ++ [snd (fst l)]) k n).
  - replace ps with (zlen p2) by lia. apply get_put_any. lia.
  - rewrite HF by lia. exact R1.
  - rewrite HF, R2 by lia. rewrite !zlen_app, !zlen_cons, Zb. unfold zlen. rewrite map_length. reflexivity.
  - intros j e Hje. assert (Hjl : (j <= length a)%nat). { assert (nth_error (map lastkey a ++ [snd (fst l)]) j <> None) as HX by congruence. apply nth_error_Some in HX. rewrite app_length, map_length in HX. cbn [length] in HX. lia. }
    destruct (Nat.eq_dec j (length a)) as [-> | Hne].
    + rewrite nth_error_app2 in Hje by (rewrite map_length; lia). rewrite map_length, Nat.sub_diag in Hje. cbn [nth_error] in Hje. injection Hje as <-.
      replace (12 + (len + 8) * Z.of_nat (length a)) with (12 + zlen a * (len + 8)) by (unfold zlen; lia). rewrite rdn_ok by lia. f_equal. rewrite FR2 by lia. replace (Z.to_nat len) with (length (snd (fst l))) by (unfold zlen in *; lia). exact SB1.
    + rewrite nth_error_app1 in Hje by (rewrite map_length; lia). rewrite nth_error_map in Hje. destruct (nth_error a j) as [t|] eqn:Et; [|discriminate]. cbn [option_map] in Hje. injection Hje as <-.
      destruct (R7 j t ltac:(rewrite nth_error_app1; [exact Et|apply nth_error_Some; congruence])) as (J1 & _ & J3 & _).
      assert (Hja : Z.of_nat j + 1 <= zlen a) by (unfold zlen; lia). assert (MJ : (len + 8) * Z.of_nat j + (len + 8) <= zlen a * (len + 8)) by (pose proof (Z.mul_le_mono_nonneg_l _ _ (len + 8) ltac:(lia) Hja); lia). assert (MJ0 : 0 <= (len + 8) * Z.of_nat j) by nia.
      rewrite rdn_ok in J3 by lia. rewrite rdn_ok by lia. rewrite <- J3. f_equal. rewrite FR2 by lia. apply FR1. lia.
  - assert (Hkin : In (n, k) (added key num recs)). { rewrite <- (firstn_skipn (Nat.div2 (length (added key num recs)))). apply in_or_app. now right. }
    assert (Lk : length k = length key). { destruct (HRA _ Hkin) as (_ & Zk & _). destruct Hrec as (_ & Zk' & _). cbn [snd] in *. unfold zlen in *. lia. }
    apply Forall_app. split.
    + apply Forall_forall. intros e He. apply in_map_iff in He. destruct He as (t & <- & Ht). rewrite Forall_forall in HK, HA. destruct (HK t ltac:(apply in_or_app; now left)) as [N1 N2]. split; [lia|].
      apply added_in in Hkin. destruct Hkin as [E|Hkin].
      * injection E as -> ->. pose proof (HA t Ht) as HE. now rewrite ends_last in HE.
      * destruct (lastkey_in t N1) as [m Hm]. apply ss_app in SS. destruct SS as (_ & _ & SS). apply (SS (m, lastkey t) (n, k)); [now apply (kid_in a t)|apply in_or_app; now left].
    + constructor; [|constructor]. split; [|apply (Hl3 (n, k) Hk)]. unfold zlen in *. destruct Hrec as (_ & Zk' & _). cbn [snd] in *. unfold zlen in *. lia.
Qed.
(** the last but one becomes two: the records of the last one cannot be removed *)
Theorem last_but_one fuel k0 : b = [k0] -> zlen a + 3 <= (ps - 12) / (len + 8) -> exists f', write_index (S (S fuel)) x junk f key num = Ok (f', x) /\
  forall fuel' n k, In (n, k) (t_recs k0) -> delete_index (S fuel') x f' k n = Ok f'.
Proof.
  intros Hb Hroom. destruct child_page as [page HG]. destruct (child_split fuel page HG) as (f1 & [L1 _] & HG1 & EW). pose proof (index_tok x f _ HI) as HT. pose proof HI as [I1 I2 _ _ _ _ [_ I7'] I8 I9 I10 _].
  destruct (node_reads x I1 I2 f o _ page HT HG) as (R1 & R2 & R3 & R4 & R5 & R6 & R7). pose proof (sorted_ss _ I8) as SS. fold (ss (t_recs (Node o (a ++ Leaf c recs :: b)))) in SS.
  assert (ER : t_recs (Leaf c recs) = recs) by (unfold t_recs; cbn [t_leaves map concat snd]; apply app_nil_r).
  destruct halves_in as (Hl1 & Hl2 & _). pose proof kids_keys as HK. pose proof (rec_same_len _ _ _ _ Hrec I9) as HSL. rewrite recs_node, ER in SS, I9, HSL.
  pose proof I9 as I9a. apply Forall_app in I9a. destruct I9a as [_ I9a]. apply Forall_app in I9a. destruct I9a as [I9a _].
  pose proof (added_rec_ok _ _ _ _ Hrec I9a) as HRA. rewrite Forall_forall in HRA. destruct (HRA _ Hl1) as (_ & Z1 & _). destruct (HRA _ Hl2) as (_ & Z2 & _). cbn [snd] in Z1, Z2.
  pose proof (zlen_nonneg a) as Ha0. assert (Zb : zlen b = 1) by (rewrite Hb; reflexivity). rewrite Zb in EW. destruct (Z.ltb_spec ((ps - 12) / (len + 8)) (zlen a + 2 + 1)); [lia|]. cbn [Z.eqb] in EW.
  assert (MM : (zlen a + 3) * (len + 8) <= ps - 12). { pose proof (Z.mul_div_le (ps - 12) (len + 8) ltac:(lia)). pose proof (Z.mul_le_mono_nonneg_l _ _ (len + 8) ltac:(lia) Hroom). lia. } assert (M0 : 0 <= zlen a * (len + 8)) by nia.
  set (at_ := 12 + zlen a * (len + 8)) in *.
  assert (EM : exists p0, move x page (at_ + (len + 8)) (at_ + 2 * (len + 8)) (1 * (len + 8)) = Ok p0 /\ zlen p0 = ps /\ sub p0 0 12 = sub page 0 12 /\ forall q m, Z.of_nat (q + m) <= at_ + (len + 8) -> sub p0 q m = sub page q m).
  { unfold move. replace (at_ + (len + 8) - (at_ + 2 * (len + 8))) with (- (len + 8)) by ring. rewrite Z.abs_opp, Z.abs_eq by lia. rewrite Z.mul_1_l, Z.ltb_irrefl. cbn [andb]. rewrite rdn_ok by (unfold at_; lia). cbn [rbind].
    set (d := sub page (Z.to_nat (at_ + 2 * (len + 8))) (Z.to_nat (len + 8))). assert (Ld : length d = Z.to_nat (len + 8)) by (unfold d; apply sub_length; unfold at_, zlen in *; lia).
    rewrite wrn_in by (unfold at_, zlen in *; lia). eexists. split; [reflexivity|]. split; [rewrite zlen_splice; [exact R3|unfold at_, zlen in *; lia]|].
    split; [apply sub_splice_other; unfold at_, zlen in *; lia|]. intros q m Hq. apply sub_splice_other; unfold at_, zlen in *; lia. }
  destruct EM as (p0 & EM & LP0 & H0 & FR0). rewrite EM in EW. cbn [rbind] in EW.
  destruct (set_entry_some p0 at_ (snd (fst l)) (fst (fst l)) (page_no x c) ltac:(unfold at_; lia) ltac:(unfold at_; lia)) as (p1 & S1 & LP1 & FR1 & SB1). rewrite S1 in EW. cbn [rbind] in EW.
  destruct (set_entry_some p1 (at_ + (len + 8)) (snd (snd l)) (fst (snd l)) (page_no x (zlen f)) ltac:(unfold at_; lia) ltac:(unfold at_; lia)) as (p2 & S2 & LP2 & FR2 & SB2). rewrite S2 in EW. cbn [rbind] in EW.
  exists (put f1 o p2). split; [exact EW|]. intros fuel' n k Hk.
  apply set_entry_head in S1; [|unfold at_; lia]. apply set_entry_head in S2; [|unfold at_; lia]. destruct S1 as [_ S1], S2 as [_ S2].
  assert (HF : forall q m, (q + m <= 12)%nat -> hd_field p2 q m = hd_field page q m) by (intros q m Hq; rewrite (hd_part p2 q m 12), S2, S1, H0 by exact Hq; symmetry; now apply hd_part).
  destruct (I7' o ltac:(now left)) as (Oo1 & Oo2 & Oo3 & _).
  apply (dead fuel' (put f1 o p2) p2 (map lastkey a ++ [snd (fst l); snd (snd l)]) k n).
  - replace ps with (zlen p2) by lia. apply get_put_any. lia.
  - rewrite HF by lia. exact R1.
  - rewrite HF, R2 by lia. rewrite !zlen_app, !zlen_cons, Zb. unfold zlen. rewrite map_length. reflexivity.
  - intros j e Hje. assert (Hjl : (j <= length a + 1)%nat). { assert (nth_error (map lastkey a ++ [snd (fst l); snd (snd l)]) j <> None) as HX by congruence. apply nth_error_Some in HX. rewrite app_length, map_length in HX. cbn [length] in HX. lia. }
    destruct (Nat.eq_dec j (length a)) as [-> | Hne]; [|destruct (Nat.eq_dec j (length a + 1)) as [-> | Hne2]].
    + rewrite nth_error_app2 in Hje by (rewrite map_length; lia). rewrite map_length, Nat.sub_diag in Hje. cbn [nth_error] in Hje. injection Hje as <-.
      replace (12 + (len + 8) * Z.of_nat (length a)) with at_ by (unfold at_, zlen; lia). rewrite rdn_ok by (unfold at_; lia). f_equal. rewrite FR2 by (unfold at_; lia). replace (Z.to_nat len) with (length (snd (fst l))) by (unfold zlen in *; lia). exact SB1.
    + rewrite nth_error_app2 in Hje by (rewrite map_length; lia). rewrite map_length in Hje. replace (length a + 1 - length a)%nat with 1%nat in Hje by lia. cbn [nth_error] in Hje. injection Hje as <-.
      replace (12 + (len + 8) * Z.of_nat (length a + 1)) with (at_ + (len + 8)) by (unfold at_, zlen; lia). rewrite rdn_ok by (unfold at_; lia). f_equal. replace (Z.to_nat len) with (length (snd (snd l))) by (unfold zlen in *; lia). exact SB2.
    + rewrite nth_error_app1 in Hje by (rewrite map_length; lia). rewrite nth_error_map in Hje. destruct (nth_error a j) as [t|] eqn:Et; [|discriminate]. cbn [option_map] in Hje. injection Hje as <-.
      destruct (R7 j t ltac:(rewrite nth_error_app1; [exact Et|apply nth_error_Some; congruence])) as (J1 & _ & J3 & _).
      assert (Hja : Z.of_nat j + 1 <= zlen a) by (unfold zlen; lia). assert (MJ : (len + 8) * Z.of_nat j + (len + 8) <= zlen a * (len + 8)) by (pose proof (Z.mul_le_mono_nonneg_l _ _ (len + 8) ltac:(lia) Hja); lia). assert (MJ0 : 0 <= (len + 8) * Z.of_nat j) by nia.
      rewrite rdn_ok in J3 by lia. rewrite rdn_ok by lia. rewrite <- J3. f_equal. rewrite FR2 by (unfold at_; lia). rewrite FR1 by (unfold at_; lia). apply FR0. unfold at_. lia.
  - assert (HKB : In (n, k) (t_recs (Node 0 b))) by (rewrite Hb; apply (kid_in [k0] k0); [now left|exact Hk]).
    unfold same_len in HSL. rewrite Forall_forall in HSL. pose proof (HSL (n, k) ltac:(apply in_or_app; right; apply in_or_app; now right)) as Lk. cbn [snd] in Lk.
    pose proof SS as SS1. apply ss_app in SS1. destruct SS1 as (_ & SS2 & SSa). apply ss_app in SS2. destruct SS2 as (_ & _ & SSb).
    assert (HAdd : forall r, In r (added key num recs) -> length (snd r) = length k /\ key_ltb (snd r) k = true).
    { intros r Hr. split; [destruct (HRA _ Hr) as (_ & Zk & _); destruct Hrec as (_ & Zk' & _); cbn [snd] in *; unfold zlen in *; lia|]. apply added_in in Hr. destruct Hr as [-> | Hr]; [|apply (SSb r (n, k)); assumption]. cbn [snd].
      destruct HB as [HB'|HB']; [rewrite HB' in Hb; discriminate|]. rewrite <- ER in HB'. rewrite Forall_forall in HK. destruct (HK (Leaf c recs) ltac:(apply in_or_app; right; now left)) as [N1 N2]. rewrite ends_last in HB' by exact N1.
      destruct (lastkey_in _ N1) as [m Hm]. rewrite ER in Hm. pose proof (SSb (m, lastkey (Leaf c recs)) (n, k) Hm HKB) as HLT. cbn [snd] in HLT.
      destruct (memcmp_cases key (lastkey (Leaf c recs)) ltac:(lia)) as [[E _]|[[E _]|[E _]]]; [rewrite E; exact HLT|apply (ltb_trans _ _ _ E HLT)|congruence]. }
    apply Forall_app. split.
    + apply Forall_forall. intros e He. apply in_map_iff in He. destruct He as (t & <- & Ht). rewrite Forall_forall in HK. destruct (HK t ltac:(apply in_or_app; now left)) as [N1 N2]. split; [lia|].
      destruct (lastkey_in t N1) as [m Hm]. apply (SSa (m, lastkey t) (n, k)); [now apply (kid_in a t)|apply in_or_app; now right].
    + constructor; [now apply HAdd|]. constructor; [now apply HAdd|constructor].
Qed.
End child.

(** ** An index without records *)
(** a page of zeros is read as a branch without entries, whose child is the first page of the file *)
Lemma wrn_neg (p d : list Z) i : i < 0 -> wrn p i d = UB.
Proof. intros H. unfold wrn. destruct (Z.ltb_spec i 0); [reflexivity|lia]. Qed.
Lemma empty_branch x junk key num fuel f o page : 4 < x_len x -> x_len x + 20 <= x_ps x -> get f o (x_ps x) = Ok page -> Z.land (hd_field page 0 2) 2 = 0 -> hd_field page 2 2 = 0 -> sub page 8 4 = [0; 0; 0; 0] ->
  (forall f', write_rec fuel x junk f 0 key num <> Ok (f', O0)) -> forall r, write_rec (S fuel) x junk f o key num <> Ok r.
Proof.
  intros Hl Hfit HG H1 H2 H3 HW r HE. cbn [write_rec] in HE. rewrite HG in HE. cbn [rbind] in HE. rewrite H1 in HE. cbn [Z.eqb negb] in HE. rewrite H2 in HE. cbn [Z.to_nat find_branch rbind Z.eqb] in HE.
  pose proof (get_some _ _ _ _ HG) as (_ & _ & _ & _ & ZP). replace (12 + (0 - 1) * (x_len x + 8) + x_len x + 4) with 8 in HE by ring. rewrite rdn_ok in HE by lia. cbn [rbind] in HE. change (Z.to_nat 8) with 8%nat in HE. change (Z.to_nat 4) with 4%nat in HE.
  rewrite H3 in HE. change (le_val (rev [0; 0; 0; 0])) with 0 in HE. rewrite Z.mul_0_l in HE. destruct (write_rec fuel x junk f 0 key num) as [[f1 [|k m|k1 m1 k2 m2 b2]]| | |] eqn:EW; try discriminate; cbn [rbind] in HE.
  - now apply (HW f1).
  - rewrite wrn_neg in HE by lia. discriminate.
  - destruct (_ <? _); [discriminate|]. change (0 - 1 - (0 - 1) =? 0) with true in HE. cbn [rbind] in HE. unfold set_entry in HE. rewrite wrn_neg in HE by lia. discriminate.
Qed.
Lemma first_page x junk key num : 4 < x_len x -> x_len x + 20 <= x_ps x -> forall fuel f page, get f 0 (x_ps x) = Ok page -> hd_field page 2 2 = 0 -> sub page 8 4 = [0; 0; 0; 0] -> forall f', write_rec fuel x junk f 0 key num <> Ok (f', O0).
Proof.
  intros Hl Hfit. induction fuel as [|fuel IH]; intros f page HG H2 H3 f'; [discriminate|]. destruct (Z.eq_dec (Z.land (hd_field page 0 2) 2) 0) as [H1|H1].
  - apply (empty_branch x junk key num fuel f 0 page); auto. exact (IH f page HG H2 H3).
  - cbn [write_rec]. rewrite HG. cbn [rbind]. destruct (Z.eqb_spec (Z.land (hd_field page 0 2) 2) 0); [contradiction|]. cbn [negb]. unfold write_leaf, unpack_leafpage. destruct (Z.eqb_spec (x_len x) 0); [lia|]. destruct (Z.eqb_spec (Z.land (hd_field page 0 2) 2) 0); [contradiction|].
    rewrite H2. cbn [Z.to_nat unpack_recs rbind find_leaf]. destruct (pack_leafpage _ _ _ _ _ _) as [[p [|]]| | |]; try discriminate; cbn [rbind].
    + destruct (set_links _ _ _ _); discriminate.
    + destruct (pack_leafpage _ _ _ _ _ _); try discriminate. cbn [rbind]. destruct (pack_leafpage _ _ _ _ _ _); try discriminate. cbn [rbind]. destruct (take_page x f) as [[f2 b2]| | |]; try discriminate. cbn [rbind].
      destruct (set_links _ _ _ _); try discriminate. cbn [rbind]. destruct (set_links _ _ _ _); discriminate.
Qed.
Theorem emptied x f o n k fuel : index_ok x f (Leaf o [(n, k)]) -> get f (o + 4) 4 = Ok [255; 255; 255; 255] -> get f 0 4 = Ok [0; 0; 0; 0] -> get f 8 4 = Ok [0; 0; 0; 0] -> o / x_ps x < 2^16 -> 4 < x_len x -> x_len x + 20 <= x_ps x -> (0 < fuel)%nat ->
  exists f', delete_index fuel x f k n = Ok f' /\ forall fuel' junk key num r, write_index fuel' x junk f' key num <> Ok r.
Proof.
  intros HI HPv HZ HZ8 Hno Hl Hfit Hfu. destruct HI as [I1 I2 I3 I4 I5 I6 [I7 I7'] I8 I9 I10 I11]. assert (ER : t_recs (Leaf o [(n, k)]) = [(n, k)]) by reflexivity. rewrite ER in *.
  destruct (I7' o (or_introl eq_refl)) as (O1' & O2' & O3' & O4'). cbn [t_leaves map fst chained] in I5. destruct I5 as [(p & [P1 [P2 P2']] & HNx) _]. cbn [stored] in I4. destruct I4 as (p' & [P1' _] & HU & _). assert (p' = p) by congruence. subst p'.
  assert (HPr : hd_field p 4 4 = 2^32 - 1). { pose proof (get_part f o (x_ps x) p 4 4 P1 ltac:(lia) ltac:(lia) ltac:(lia)) as HP. rewrite HPv in HP. apply ok_inj in HP. unfold hd_field. change 4%nat with (Z.to_nat 4). rewrite <- HP. reflexivity. }
  pose proof (page_ge o (x_ps x) ltac:(lia) ltac:(lia) O2') as Hge.
  set (f1 := put f 0 (le_bytes 4 (o / x_ps x))). set (f2 := put f1 o ([0; 0; 0; 0] ++ repeat 0 (Z.to_nat (x_ps x - 4)))). exists f2.
  assert (L1 : zlen f1 = zlen f) by (unfold f1; rewrite put_len; rewrite ?zlen_le; lia).
  assert (LZ : zlen ([0; 0; 0; 0] ++ repeat 0 (Z.to_nat (x_ps x - 4))) = x_ps x) by (rewrite zlen_app; unfold zlen; rewrite repeat_length; cbn [length]; lia).
  split.
  - unfold delete_index. destruct fuel as [|fuel]; [lia|]. cbn [t_off] in I10. rewrite I10. cbn [delete_rec]. rewrite P1. cbn [rbind]. pose proof (leaf_flag _ _ _ _ (proj1 I1) HU) as HF. destruct (Z.eqb_spec (Z.land (hd_field p 0 2) 2) 0); [contradiction|]. cbn [negb].
    unfold delete_leaf. rewrite HU. cbn [rbind find_rec]. destruct (memcmp_cases k k eq_refl) as [[_ M]|[[E _]|[E _]]]; [|rewrite ltb_irrefl in E; discriminate..]. rewrite M, !Z.eqb_refl. cbn [andb firstn skipn app].
    unfold free_page. rewrite HPr, HNx, Z.eqb_refl, HZ. cbn [rbind fst]. reflexivity.
  - intros fuel' junk key num r. unfold write_index. cbn [t_off] in I10. rewrite I10. intros HE. destruct (write_rec fuel' x junk f2 o key num) as [r0| | |] eqn:EW; try discriminate. clear HE. revert EW. destruct fuel' as [|fuel']; [discriminate|].
    assert (G1 : get f2 o (x_ps x) = Ok ([0; 0; 0; 0] ++ repeat 0 (Z.to_nat (x_ps x - 4)))) by (unfold f2; match goal with |- get _ _ _ = Ok ?z => rewrite <- (get_put_page f1 o z) by lia; rewrite LZ; reflexivity end).
    assert (G0 : exists page, get f2 0 (x_ps x) = Ok page /\ sub page 0 4 = le_bytes 4 (o / x_ps x) /\ sub page 8 4 = [0; 0; 0; 0]).
    { exists (sub f2 0 (Z.to_nat (x_ps x))). assert (L2 : zlen f2 = zlen f) by (unfold f2; rewrite put_len; lia). assert (GG : get f2 0 (x_ps x) = Ok (sub f2 0 (Z.to_nat (x_ps x)))) by (apply get_ok; lia). split; [exact GG|]. split.
      - pose proof (get_part f2 0 _ _ 0 4 GG ltac:(lia) ltac:(lia) ltac:(lia)) as HP. cbn [Z.add] in HP. unfold f2 in HP at 1. rewrite get_put_other in HP by lia. unfold f1 in HP. rewrite <- (zlen_le 4 (o / x_ps x)) in HP at 2. rewrite get_put_page in HP by (rewrite ?zlen_le; lia). apply ok_inj in HP. symmetry. exact HP.
      - pose proof (get_part f2 0 _ _ 8 4 GG ltac:(lia) ltac:(lia) ltac:(lia)) as HP. cbn [Z.add] in HP. unfold f2 in HP at 1. rewrite get_put_other in HP by lia. unfold f1 in HP. rewrite get_put_other in HP by (rewrite ?zlen_le; lia). rewrite HZ8 in HP. apply ok_inj in HP. symmetry. exact HP. }
    destruct G0 as (page & G0 & S0 & S8).
    apply (empty_branch x junk key num fuel' f2 o _ Hl Hfit G1).
    + reflexivity.
    + reflexivity.
    + replace (Z.to_nat (x_ps x - 4)) with (8 + (Z.to_nat (x_ps x - 12)))%nat by lia. reflexivity.
    + apply (first_page x junk key num Hl Hfit fuel' f2 page G0); [|exact S8]. rewrite (hd_part page 2 2 4), S0 by lia. assert (0 <= o / x_ps x) by (apply Z.div_pos; lia). set (m := o / x_ps x) in *. clearbody m.
      unfold hd_field, le_bytes, sub. cbn [skipn firstn le_val]. rewrite (Z.div_div m 256 256) by lia. change (256 * 256) with (2^16). rewrite (Z.div_small m (2^16)) by lia. reflexivity.
Qed.
