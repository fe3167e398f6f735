(** After a leaf became two, the walk along the leaves still meets every record once and in order. *)
From Verif Require Import Prelude Lists Leaf_Model Leaf_Spec Leaf_Proofs Leaf_Walk Leaf_More Idx_Model Idx_Spec Idx_Order Idx_Proofs Idx_Tree Idx_Add Idx_Del Idx_Refute.
Ltac Zify.zify_post_hook ::= idtac.
Local Opaque le_bytes.

(** ** Bytes stay bytes *)
Lemma skipn_skipn' {A} (l : list A) m n : skipn (m + n) l = skipn m (skipn n l).
Proof. revert l. induction n as [|n IH]; intros l; [now rewrite Nat.add_0_r|]. rewrite Nat.add_succ_r. destruct l as [|y l]; [now rewrite !skipn_nil|]. cbn [skipn]. apply IH. Qed.
Lemma wrn_bytes (l : list Z) i d q : wrn l i d = Ok q -> bytes_ok l -> bytes_ok d -> bytes_ok q.
Proof. intros H B1 B2. apply wrn_some in H. destruct H as (-> & _). now apply bytes_ok_splice. Qed.
Lemma rdn_bytes (l : list Z) i n d : rdn l i n = Ok d -> bytes_ok l -> bytes_ok d.
Proof. intros H B. apply rdn_some in H. destruct H as (_ & _ & _ & ->). now apply bytes_ok_sub. Qed.
Lemma flat_bytes len recs : Forall (rec_ok len) recs -> bytes_ok (flat recs).
Proof.
  induction 1 as [|[n k] recs (_ & _ & Hk) _ IH]; [constructor|]. change (flat ((n, k) :: recs)) with ((le_bytes 4 n ++ k) ++ flat recs). apply bytes_ok_app. split; [|exact IH]. apply bytes_ok_app. split; [apply le_bytes_ok|exact Hk].
Qed.
Lemma pack_recs_bytes n : forall first primary len ds buf cur page curp plen maxn ps page' plen' maxn', pack_recs n first primary len ds buf cur page curp plen maxn = Ok (Some (ps, page', plen', maxn')) -> bytes_ok buf -> bytes_ok page -> bytes_ok page'.
Proof.
  induction n as [|n IH]; intros first primary len ds buf cur page curp plen maxn ps page' plen' maxn' H BB BP; cbn [pack_recs] in H; [congruence|].
  destruct (rdn buf cur 4) as [nb| | |]; try discriminate. cbn [rbind] in H.
  match type of H with (do l <- ?e; _) = _ => destruct e as [lft| | |]; try discriminate end. cbn [rbind] in H.
  match type of H with (do l <- ?e; _) = _ => destruct e as [j| | |]; try discriminate end. cbn [rbind] in H.
  match type of H with (do l <- ?e; _) = _ => destruct e as [rgt| | |]; try discriminate end. cbn [rbind] in H.
  destruct (ds <=? _); [discriminate|]. match type of H with (do l <- ?e; _) = _ => destruct e as [d| | |] eqn:ED; try discriminate end. cbn [rbind] in H.
  match type of H with (do l <- ?e; _) = _ => destruct e as [pg| | |] eqn:EW; try discriminate end. cbn [rbind] in H.
  match type of H with (do l <- ?e; _) = _ => destruct e as [r| | |] eqn:ER; try discriminate end. cbn [rbind] in H.
  destruct r as [[[[ps0 pg0] pl0] mx0]|]; [|discriminate]. apply IH in ER; [|exact BB|]; [injection H as _ <- _ _; exact ER|]. apply (wrn_bytes _ _ _ _ EW BP). exact (rdn_bytes _ _ _ _ ED BB).
Qed.
Lemma put_entries_bytes ps : forall page curp rb lb nb q, put_entries ps page curp rb lb nb = Ok q -> bytes_ok page -> bytes_ok q.
Proof.
  induction ps as [|p ps IH]; intros page curp rb lb nb q H B; cbn [put_entries] in H; [congruence|]. destruct (rdn _ 0 rb) as [e| | |] eqn:EE; try discriminate. cbn [rbind] in H.
  destruct (wrn page curp e) as [pg| | |] eqn:EW; try discriminate. cbn [rbind] in H. apply IH in H; [exact H|]. apply (wrn_bytes _ _ _ _ EW B). apply (rdn_bytes _ _ _ _ EE). apply le_bytes_ok.
Qed.
Lemma header_bytes page n free a b c nb lb rb r : bytes_ok page -> bytes_ok (header page n free a b c nb lb rb r).
Proof. intros B. unfold header. pose proof (fun n v => le_bytes_ok n v) as L. repeat (apply bytes_ok_app; split; [first [apply L|apply bytes_ok_sub; exact B]|]). apply L. Qed.
Lemma pack_bytes primary len ps buf n page q b : pack_leafpage primary len ps buf n page = Ok (q, b) -> bytes_ok buf -> bytes_ok page -> bytes_ok q.
Proof.
  unfold pack_leafpage. intros H BB BP. destruct (wrn page 30 _) as [pz| | |] eqn:EW; try discriminate. cbn [rbind] in H.
  assert (BZ : bytes_ok pz). { apply (wrn_bytes _ _ _ _ EW BP). apply Forall_forall. intros y Hy. apply repeat_spec in Hy. subst y. unfold byte_ok. lia. }
  destruct (pack_recs _ _ _ _ _ _ _ _ _ _ _) as [[[[[ps' pg] pl] mx]|]| | |] eqn:EP; try discriminate; cbn [rbind] in H; [|injection H as <- _; exact BZ]. apply pack_recs_bytes in EP; [|exact BB|exact BZ].
  destruct (_ <? _); [injection H as <- _; exact EP|]. cbv zeta in H. destruct (wrn pg 0 _) as [p1| | |] eqn:EW1; try discriminate. cbn [rbind] in H. apply wrn_bytes in EW1; [|exact EP|apply header_bytes; exact EP].
  destruct (put_entries _ _ _ _ _ _) as [p2| | |] eqn:EE; try discriminate. cbn [rbind] in H. apply put_entries_bytes in EE; [|exact EW1]. injection H as <- _. exact EE.
Qed.

(** ** A packed page with other links holds the same records *)
Lemma leaf_pack' primary len pagesize recs extra page :
  0 < len < 2^15 -> 30 < pagesize <= 2^16 -> zlen page = pagesize -> bytes_ok page -> Forall (rec_ok len) recs -> sorted (map snd recs) -> 30 + (len + 8) * zlen recs < pagesize ->
  exists p1, pack_leafpage primary len pagesize (flat recs ++ extra) (length recs) page = Ok (p1, true) /\ zlen p1 = pagesize /\ bytes_ok p1 /\
    forall p2, zlen p2 = pagesize -> bytes_ok p2 -> Z.land (hd_field p2 0 2) 2 <> 0 -> sub p2 2 2 = sub p1 2 2 -> skipn 12 p2 = skipn 12 p1 ->
    unpack_leafpage len pagesize p2 = Ok recs /\ zlen recs = hd_field p2 2 2 /\ 0 <= hd_field p2 28 2 <= 8.
Proof.
  intros Hlen Hps Hpg Hok HR HS Hfit. pose proof (zlen_nonneg recs) as Hr0. assert (Hn : zlen recs < 2^13) by nia.
  destruct (pack_total primary len pagesize recs extra page Hlen Hps Hpg Hok HR ltac:(lia) HS) as (p1 & b & E & Hb). rewrite (Hb Hfit) in E. clear Hb b. exists p1. split; [exact E|].
  destruct (pack_layout _ _ _ _ _ _ _ Hlen Hps Hpg Hok HR ltac:(lia) E) as (ps & mids & rbt & nb & free & G & H1 & H2 & H3 & H4 & H5 & H6 & H7 & H8 & H9 & H10 & H11). cbv zeta in *.
  destruct (bits_ok len ltac:(lia)) as (L1 & L2 & L3). specialize (L3 ltac:(lia)). assert (L4 : bits len <= 15) by (apply bits_le; lia).
  set (lb := bits len) in *. clearbody lb.
  assert (H12 : (12 <= length page)%nat) by (unfold zlen in *; lia).
  pose proof (header_fields page (concat (map (ent rbt lb nb) ps) ++ G ++ concat (rev mids)) (zlen recs) free (mask nb) (mask lb) (mask lb) nb lb lb rbt H12) as HF. cbv zeta in HF.
  rewrite <- H7 in HF. destruct HF as (F1 & F2 & F3 & F4 & F5 & F6 & F7 & F8 & F9 & F10).
  pose proof (zlen_nonneg G). pose proof (zlen_nonneg (concat (rev mids))).
  rewrite Z.mod_small in F8 by lia. rewrite Z.mod_small in F7 by lia. rewrite Z.mod_small in F6 by lia. rewrite Z.mod_small in F2 by nia.
  rewrite mask_small32 in F3 by lia. rewrite mask_ok, Z.min_l, ones_small in F4 by lia. rewrite mask_ok, Z.min_l, ones_small in F5 by lia.
  assert (EM : mask lb = Z.ones lb) by (rewrite mask_ok, Z.min_l by lia; reflexivity). rewrite <- EM in F4, F5.
  split; [exact H8|]. split; [exact H9|]. intros p2 Z2 B2 Hfl S2 S12.
  assert (FS : forall o n, (12 <= o)%nat -> hd_field p2 o n = hd_field p1 o n).
  { intros o n Ho. unfold hd_field, sub. f_equal. f_equal. replace o with (o - 12 + 12)%nat by lia. rewrite !skipn_skipn', S12. reflexivity. }
  assert (F2' : hd_field p2 2 2 = hd_field p1 2 2) by (unfold hd_field; now rewrite S2).
  split; [|rewrite F2', FS by lia; lia].
  unfold unpack_leafpage. destruct (Z.eqb_spec len 0); [lia|]. destruct (Z.eqb_spec (Z.land (hd_field p2 0 2) 2) 0); [contradiction|].
  rewrite F2', !FS by lia. rewrite F2, F3, F4, F5, F6, F7, F8. unfold zlen at 1. rewrite Nat2Z.id.
  set (hh := header page (zlen recs) free (mask nb) (mask lb) (mask lb) nb lb lb rbt) in *.
  assert (HHl0 : length hh = 30%nat) by (apply header_len; exact H12). clearbody hh.
  set (HD := firstn 30 p2).
  assert (HHl : zlen HD = 30) by (unfold HD, zlen in *; rewrite firstn_length; lia).
  assert (E2 : p2 = HD ++ concat (map (ent rbt lb nb) ps) ++ G ++ concat (rev mids)).
  { rewrite <- (firstn_skipn 30 p2) at 1. fold HD. f_equal. change 30%nat with (18 + 12)%nat. rewrite skipn_skipn', S12, <- skipn_skipn'. change (18 + 12)%nat with 30%nat. rewrite H7, skipn_app, HHl0, Nat.sub_diag, skipn_O, skipn_all2 by lia. reflexivity. }
  rewrite <- HHl at 1.
  replace pagesize with (zlen ((HD ++ concat (map (ent rbt lb nb) ps) ++ G) ++ concat (rev mids))) at 1.
  2:{ rewrite <- Z2, E2. rewrite <- !app_assoc. reflexivity. }
  apply (unpack_recs_ok recs ps mids None p2 HD (G ++ concat (rev mids)) (HD ++ concat (map (ent rbt lb nb) ps) ++ G) []); auto; try lia.
  - rewrite E2, app_nil_r, <- !app_assoc. reflexivity.
  - intros Hne. rewrite Z2, HHl. replace (zlen ps) with (zlen recs) by (unfold zlen; lia). destruct ps as [|q ps]; [congruence|]. assert (1 <= zlen recs) by (unfold zlen; cbn [length] in H6; lia). nia.
Qed.
Lemma set_links_all p fl a b q : set_links p fl a b = Ok q -> 12 <= zlen p -> bytes_ok p -> 0 <= fl < 2^16 -> 0 <= b < 2^32 ->
  zlen q = zlen p /\ bytes_ok q /\ hd_field q 0 2 = fl /\ sub q 2 2 = sub p 2 2 /\ skipn 12 q = skipn 12 p /\ hd_field q 8 4 = b.
Proof.
  intros H HL B Hfl Hb. unfold set_links in H. destruct (wrn p 0 _) as [p1| | |] eqn:E1; try discriminate. cbn [rbind] in H. destruct (wrn p1 4 _) as [p2| | |] eqn:E2; try discriminate. cbn [rbind] in H.
  pose proof (wrn_len _ _ _ _ E1) as L1. pose proof (wrn_len _ _ _ _ E2) as L2. pose proof (wrn_len _ _ _ _ H) as L3.
  split; [lia|]. split; [eapply wrn_bytes; [exact H| |apply le_bytes_ok]; eapply wrn_bytes; [exact E2| |apply le_bytes_ok]; eapply wrn_bytes; [exact E1|exact B|apply le_bytes_ok]|].
  apply wrn_some in E1, E2, H. destruct E1 as (Q1 & _), E2 as (Q2 & _), H as (Q3 & _). change (Z.to_nat 0) with 0%nat in Q1. change (Z.to_nat 4) with 4%nat in Q2. change (Z.to_nat 8) with 8%nat in Q3.
  unfold zlen in *. unfold hd_field.
  assert (HS : forall o n, (o + n <= 4)%nat -> sub q o n = sub p1 o n) by (intros o n Hon; rewrite Q3, sub_splice_other by (rewrite le_bytes_length; lia); rewrite Q2; apply sub_splice_other; rewrite le_bytes_length; lia).
  split; [|split; [|split]].
  - rewrite HS by lia. rewrite Q1. pose proof (sub_splice_same p (le_bytes 2 fl) 0) as HX. rewrite le_bytes_length in HX. rewrite HX by lia. apply le_val_bytes_small. exact Hfl.
  - rewrite HS by lia. rewrite Q1. apply sub_splice_other; rewrite le_bytes_length; lia.
  - assert (HK : forall (u v : list Z) o d, v = splice u o d -> (o + length d <= 12)%nat -> (o + length d <= length u)%nat -> skipn 12 v = skipn 12 u).
    { intros u v o d -> K1 K2. unfold splice. rewrite skipn_app, skipn_app, !firstn_length. rewrite skipn_all2 by (rewrite firstn_length; lia). rewrite skipn_all2 by lia. cbn [app]. rewrite <- skipn_skipn'. f_equal. lia. }
    rewrite (HK _ _ _ _ Q3), (HK _ _ _ _ Q2), (HK _ _ _ _ Q1) by (rewrite le_bytes_length; lia). reflexivity.
  - rewrite Q3. pose proof (sub_splice_same p2 (le_bytes 4 b) 8) as HX. rewrite le_bytes_length in HX. rewrite HX by lia. apply le_val_bytes_small. exact Hb.
Qed.
Lemma flags_split v : 0 <= v < 2^16 -> 0 <= Z.ldiff v 1 < 2^16 /\ Z.land (Z.ldiff v 1) 2 = Z.land v 2.
Proof.
  intros H. split.
  - change 1 with (Z.ones 1). rewrite Z.ldiff_ones_r by lia. rewrite Z.shiftr_div_pow2, Z.shiftl_mul_pow2 by lia. change (2 ^ 1) with 2. pose proof (Z.mul_div_le v 2 ltac:(lia)). pose proof (Z.div_pos v 2 ltac:(lia) ltac:(lia)). lia.
  - rewrite Z.ldiff_land, <- Z.land_assoc. reflexivity.
Qed.
(** what is wanted of the page of a leaf, without the links *)
Definition leafy (x : ix) (p : list Z) (r : list (Z * list Z)) : Prop :=
  zlen p = x_ps x /\ bytes_ok p /\ unpack_leafpage (x_len x) (x_ps x) p = Ok r /\ zlen r = hd_field p 2 2 /\ zlen r < 2^15 /\ hd_field p 28 2 < 2^15 /\ 30 + hd_field p 28 2 * zlen r <= x_ps x.
Lemma leafy_stored x f o p r : get f o (x_ps x) = Ok p -> leafy x p r -> stored (get f) (x_ps x) (x_len x) (x_mul x) (Leaf o r).
Proof. intros HG (H1 & H2 & H3 & H4 & H5 & H6 & H7). cbn [stored]. exists p. split; [exact (conj HG (conj H1 H2))|]. auto. Qed.
Lemma pack_link x junk rs extra v a b : 0 < x_len x < 2^15 -> 30 < x_ps x <= 2^16 -> zlen junk = x_ps x -> bytes_ok junk -> Forall (rec_ok (x_len x)) rs -> sorted (map snd rs) -> fits x (zlen rs) -> 0 <= v < 2^16 -> Z.land v 2 <> 0 -> 0 <= b < 2^32 ->
  exists q r, pack_leafpage (x_primary x) (x_len x) (x_ps x) (flat rs ++ extra) (length rs) junk = Ok (q, true) /\ zlen q = x_ps x /\ set_links q (Z.ldiff v 1) a b = Ok r /\ leafy x r rs /\ hd_field r 8 4 = b.
Proof.
  intros Hlen Hps Hj BJ HR HS Hfit Hv Hv2 Hb. destruct (leaf_pack' (x_primary x) (x_len x) (x_ps x) rs extra junk Hlen Hps Hj BJ HR HS Hfit) as (q & EQ & LQ & BQ & HQ). destruct (flags_split v Hv) as [V1 V2].
  destruct (set_links_some q (Z.ldiff v 1) a b ltac:(lia)) as (r & ES & _). exists q, r. destruct (set_links_all _ _ _ _ _ ES ltac:(lia) BQ V1 Hb) as (R1 & R2 & R3 & R4 & R5 & R6).
  destruct (HQ r ltac:(lia) R2 ltac:(rewrite R3, V2; exact Hv2) R4 R5) as (U1 & U2 & U3). split; [exact EQ|]. split; [exact LQ|]. split; [exact ES|]. split; [|exact R6].
  unfold fits in Hfit. pose proof (zlen_nonneg rs). assert (zlen rs < 2^13) by nia. unfold leafy. rewrite R1, LQ. repeat (split; [first [reflexivity|assumption|lia]|]). nia.
Qed.
Lemma write_leaf_halves x junk f o page key num recs p0 f1 ou : 0 < x_len x < 2^15 -> 30 < x_ps x <= 2^16 -> zlen page = x_ps x -> zlen junk = x_ps x -> bytes_ok page -> bytes_ok junk -> 0 < o -> o mod x_ps x = 0 -> o + x_ps x <= zlen f ->
  unpack_leafpage (x_len x) (x_ps x) page = Ok recs -> Forall (rec_ok (x_len x)) recs -> ss recs -> rec_ok (x_len x) (num, key) -> ~ In key (map snd recs) ->
  pack_leafpage (x_primary x) (x_len x) (x_ps x) (flat (added key num recs)) (length (added key num recs)) page = Ok (p0, false) -> get f 0 4 = Ok [0; 0; 0; 0] ->
  let rs := added key num recs in let n1 := Nat.div2 (length rs) in
  fits x (zlen (firstn n1 rs)) -> fits x (zlen (skipn n1 rs)) -> 0 <= page_no x (zlen f) < 2^32 ->
  write_leaf x junk f o page key num = Ok (f1, ou) ->
  exists r1 r2, get f1 o (x_ps x) = Ok r1 /\ get f1 (zlen f) (x_ps x) = Ok r2 /\ leafy x r1 (firstn n1 rs) /\ leafy x r2 (skipn n1 rs) /\ hd_field r1 8 4 = page_no x (zlen f) /\ hd_field r2 8 4 = hd_field page 8 4.
Proof.
  intros Hlen Hps Hpg Hj BP BJ Ho0 Hom Hof HU HR HS Hrec Hfr HP HZ. cbv zeta. intros HF1 HF2 Hno HW. unfold write_leaf in HW. rewrite HU in HW. cbn [rbind] in HW.
  pose proof (rec_same_len _ _ _ _ Hrec HR) as HSL.
  destruct (find_leaf_fresh (x_primary x) key num recs 0 HSL Hfr) as (a & b & E1 & E2 & E3 & E4 & E5). rewrite E3 in HW. cbn [rbind Nat.add] in HW.
  replace (firstn (length a) recs ++ (num, key) :: skipn (length a) recs) with (added key num recs) in HW.
  2:{ rewrite E2, E1. rewrite firstn_app, Nat.sub_diag, firstn_all, firstn_O, app_nil_r, skipn_app, Nat.sub_diag, skipn_all. reflexivity. }
  pose proof (added_rec_ok _ _ _ _ Hrec HR) as HR'. assert (HS' : ss (added key num recs)) by (apply added_ss; auto).
  set (rs := added key num recs) in *. clearbody rs. change (unpacked rs) with (flat rs) in HW. rewrite HP in HW. cbn [rbind] in HW.
  set (n1 := Nat.div2 (length rs)) in *. assert (Hn1 : (n1 <= length rs)%nat) by (unfold n1; apply Nat.lt_eq_cases; destruct (length rs); [now right|left; apply Nat.lt_div2; lia]).
  pose proof (pack_len _ _ _ _ _ _ _ _ HP) as L0. pose proof (pack_bytes _ _ _ _ _ _ _ _ HP (flat_bytes _ _ HR') BP) as B0.
  assert (HSP : ss (firstn n1 rs) /\ ss (skipn n1 rs)) by (rewrite <- (firstn_skipn n1 rs) in HS'; apply ss_app in HS'; tauto). destruct HSP as [HSa HSb].
  pose proof (hd_field_bound page 0 2 BP) as FB. change (256 ^ Z.of_nat 2) with (2^16) in FB. pose proof (hd_field_bound page 8 4 BP) as FN. change (256 ^ Z.of_nat 4) with (2^32) in FN. pose proof (leaf_flag _ _ _ _ (proj1 Hlen) HU) as FL.
  destruct (pack_link x p0 (firstn n1 rs) (flat (skipn n1 rs)) (hd_field page 0 2) (hd_field page 4 4) (page_no x (zlen f)) Hlen Hps ltac:(lia) B0 (Forall_firstn' _ _ _ HR') (ss_sorted _ HSa) HF1 FB FL Hno) as (q1 & r1 & EQ1 & LQ1 & ES1 & LF1 & HD1).
  replace (flat (firstn n1 rs) ++ flat (skipn n1 rs)) with (flat rs) in EQ1 by (unfold flat; rewrite <- concat_app, <- map_app, firstn_skipn; reflexivity).
  rewrite firstn_length, Nat.min_l in EQ1 by exact Hn1. rewrite EQ1 in HW. cbn [rbind] in HW.
  destruct (pack_link x junk (skipn n1 rs) [] (hd_field page 0 2) (page_no x o) (hd_field page 8 4) Hlen Hps Hj BJ (Forall_skipn' _ _ _ HR') (ss_sorted _ HSb) HF2 FB FL FN) as (q2 & r2 & EQ2 & LQ2 & ES2 & LF2 & HD2).
  rewrite app_nil_r, skipn_length in EQ2. rewrite (flat_skip (x_len x)) in HW by (try exact HR'; lia). rewrite EQ2 in HW. cbn [rbind] in HW.
  unfold take_page in HW. rewrite HZ in HW. cbn [rbind] in HW. change (le_val [0; 0; 0; 0] =? 0) with true in HW. cbv iota in HW. cbn [rbind fst] in HW.
  rewrite ES1 in HW. cbn [rbind] in HW. rewrite ES2 in HW. cbn [rbind] in HW. apply ok_inj, pair_equal_spec in HW. destruct HW as [<- _].
  destruct LF1 as (LR1 & LF1), LF2 as (LR2 & LF2). pose proof (zlen_nonneg f) as Hf0. assert (LP : zlen (put f (zlen f) r2) = zlen f + x_ps x) by (rewrite put_zlen; lia).
  exists r1, r2. split; [replace (x_ps x) with (zlen r1) by lia; apply get_put_any; lia|]. split; [rewrite get_put_other by lia; replace (x_ps x) with (zlen r2) by lia; apply get_put_any; lia|].
  split; [exact (conj LR1 LF1)|]. split; [exact (conj LR2 LF2)|]. auto.
Qed.
(** ** A leaf between a leaf and its next one *)
Lemma chain_split g g' ps mul c n p1 p2 p0 A : forall B, chained g ps mul (A ++ c :: B) -> (forall o, In o (A ++ B) -> g' o ps = g o ps) -> page_at g' ps c p1 -> hd_field p1 8 4 <> 2^32 - 1 -> hd_field p1 8 4 * mul = n ->
  page_at g ps c p0 -> page_at g' ps n p2 -> hd_field p2 8 4 = hd_field p0 8 4 -> chained g' ps mul (A ++ c :: n :: B).
Proof.
  induction A as [|u A IH]; intros B HC HF H1 H2 H3 H4 H5 H6; cbn [app chained] in *.
  - destruct HC as [(q & HQ & HN) HC]. assert (q = p0) by (destruct HQ as [HQ _], H4 as [H4 _]; congruence). subst q.
    split; [exists p1; auto|]. split; [exists p2; split; [exact H5|]; rewrite H6; exact HN|].
    clear - HC HF. revert HC HF. induction B as [|v B IHB]; intros HC HF; [exact Logic.I|]. destruct HC as [(q & HQ & HN) HC]. split; [|apply IHB; [exact HC|intros o Ho; apply HF; now right]].
    exists q. split; [|exact HN]. destruct HQ as [HQ HQ']. split; [rewrite (HF v); [exact HQ|now left]|exact HQ'].
  - destruct HC as [(q & HQ & HN) HC]. split; [|apply IH; auto; intros o Ho; apply HF; now right]. exists q. split; [destruct HQ as [HQ HQ']; split; [rewrite (HF u); [exact HQ|now left]|exact HQ']|].
    destruct A as [|w A]; exact HN.
Qed.
Lemma set_entry_no p at_ key num no q : set_entry p at_ key num no = Ok q -> sub q (Z.to_nat (at_ + zlen key + 4)) 4 = be4 no.
Proof.
  unfold set_entry. intros E. destruct (wrn p at_ key) as [p1| | |]; try discriminate. cbn [rbind] in E. destruct (wrn p1 (at_ + zlen key) (be4 num)) as [p2| | |]; try discriminate. cbn [rbind] in E.
  apply wrn_some in E. destruct E as (-> & E1 & E2). assert (LB : length (be4 no) = 4%nat) by (unfold be4; now rewrite rev_length, le_bytes_length). rewrite <- LB at 1. apply sub_splice_same. unfold zlen in *. lia.
Qed.
(** ** The walk after a child of the root became two *)
Lemma page_no_ok x c : 30 < x_ps x -> c mod x_ps x = 0 -> page_no x c * x_mul x = c.
Proof. intros H H0. unfold page_no, x_mul. destruct (x_838 x); [|lia]. pose proof (Z.div_mod c (x_ps x) ltac:(lia)). lia. Qed.
Lemma move_some x p dst src n : x_ov x = true \/ n <= Z.abs (dst - src) -> 0 <= dst -> 0 <= src -> 0 <= n -> src + n <= zlen p -> dst + n <= zlen p -> exists q, move x p dst src n = Ok q /\ zlen q = zlen p /\ forall c m, Z.of_nat (c + m) <= dst -> sub q c m = sub p c m.
Proof.
  intros H1 H2 H3 H4 H5 H6. unfold move. assert (E : (Z.abs (dst - src) <? n) && negb (x_ov x) = false) by (destruct H1 as [-> | H1]; [apply andb_false_r|]; destruct (Z.ltb_spec (Z.abs (dst - src)) n); [lia|reflexivity]). rewrite E.
  rewrite rdn_ok by lia. cbn [rbind]. set (d := sub p _ _). assert (LD : length d = Z.to_nat n) by (unfold d; apply sub_length; unfold zlen in *; lia). rewrite wrn_in by (unfold zlen in *; lia).
  eexists. split; [reflexivity|]. split; [apply zlen_splice; unfold zlen in *; lia|]. intros c m Hc. apply sub_splice_other; unfold zlen in *; lia.
Qed.
Lemma node_leaves o a c r b : t_leaves (Node o (a ++ Leaf c r :: b)) = flat_map t_leaves a ++ (c, r) :: flat_map t_leaves b.
Proof. cbn [t_leaves]. rewrite flat_map_app. reflexivity. Qed.
Lemma leaf_page t : forall o, In o (map fst (t_leaves t)) -> In o (t_pages t).
Proof.
  induction t as [o r|o kids IH] using tree_nested; intros u Hu; cbn [t_leaves t_pages] in *; [exact Hu|]. right. apply in_map_iff in Hu. destruct Hu as (l & <- & Hl). apply in_flat_map in Hl. destruct Hl as (k & Hk & Hl).
  apply in_flat_map. exists k. split; [exact Hk|]. rewrite Forall_forall in IH. apply (IH k Hk). now apply in_map.
Qed.
Lemma room_mul za zb ps len : 0 <= za -> 0 <= zb -> 0 < len < 2^15 -> ps <= 2^16 -> za + 2 + zb <= (ps - 12) / (len + 8) ->
  (za + 2 + zb) * (len + 8) <= ps - 12 /\ 0 <= za * (len + 8) /\ 0 <= zb * (len + 8) /\ 0 < za + 1 + zb < 2^15.
Proof.
  intros H1 H2 H3 H5 H4. assert (M : (za + 2 + zb) * (len + 8) <= ps - 12). { pose proof (Z.mul_div_le (ps - 12) (len + 8) ltac:(lia)). pose proof (Z.mul_le_mono_nonneg_l _ _ (len + 8) ltac:(lia) H4). lia. }
  split; [exact M|]. split; [apply Z.mul_nonneg_nonneg; lia|]. split; [apply Z.mul_nonneg_nonneg; lia|]. nia.
Qed.
Lemma root_page x page za zb k1 m1 k2 m2 u v : zlen page = x_ps x -> 0 < x_len x < 2^15 -> x_ps x <= 2^16 -> 0 <= za -> 0 <= zb -> za + 2 + zb <= (x_ps x - 12) / (x_len x + 8) -> zlen k1 = x_len x -> zlen k2 = x_len x -> zb <= 1 \/ x_ov x = true ->
  exists pm p1 p2, (if zb =? 0 then Ok page else move x page (12 + za * (x_len x + 8) + (x_len x + 8)) (12 + za * (x_len x + 8) + 2 * (x_len x + 8)) (zb * (x_len x + 8))) = Ok pm /\
    set_entry pm (12 + za * (x_len x + 8)) k1 m1 u = Ok p1 /\ set_entry p1 (12 + za * (x_len x + 8) + (x_len x + 8)) k2 m2 v = Ok p2 /\ zlen p2 = x_ps x /\
    (forall q m, Z.of_nat (q + m) <= 12 + za * (x_len x + 8) -> sub p2 q m = sub page q m) /\ sub p2 (Z.to_nat (12 + za * (x_len x + 8) + x_len x + 4)) 4 = be4 u.
Proof.
  intros LP Hl Hp Ha Hb Hroom K1 K2 Hov. destruct (room_mul _ _ _ _ Ha Hb Hl Hp Hroom) as (MM & M0 & M1 & _). clear Hroom.
  assert (HM : exists pm, (if zb =? 0 then Ok page else move x page (12 + za * (x_len x + 8) + (x_len x + 8)) (12 + za * (x_len x + 8) + 2 * (x_len x + 8)) (zb * (x_len x + 8))) = Ok pm /\ zlen pm = x_ps x /\
     forall q m, Z.of_nat (q + m) <= 12 + za * (x_len x + 8) + (x_len x + 8) -> sub pm q m = sub page q m).
  { destruct (Z.eqb_spec zb 0); [exists page; auto|].
    destruct (move_some x page (12 + za * (x_len x + 8) + (x_len x + 8)) (12 + za * (x_len x + 8) + 2 * (x_len x + 8)) (zb * (x_len x + 8))) as (pm & EM & LM & FM); try lia.
    - destruct Hov as [Hov|Hov]; [right|left; exact Hov]. replace zb with 1 by lia. lia.
    - exists pm. split; [exact EM|]. split; [lia|exact FM]. }
  destruct HM as (pm & EM & LM & FM). exists pm.
  destruct (set_entry_some pm (12 + za * (x_len x + 8)) k1 m1 u ltac:(lia) ltac:(lia)) as (p1 & S1 & LP1 & FR1 & _). exists p1.
  destruct (set_entry_some p1 (12 + za * (x_len x + 8) + (x_len x + 8)) k2 m2 v ltac:(lia) ltac:(lia)) as (p2 & S2 & LP2 & FR2 & _). exists p2.
  split; [exact EM|]. split; [exact S1|]. split; [exact S2|]. split; [lia|]. split.
  - intros q m Hq. rewrite FR2, FR1 by lia. apply FM. lia.
  - rewrite FR2 by lia. pose proof (set_entry_no _ _ _ _ _ _ S1) as N1. rewrite K1 in N1. exact N1.
Qed.
Definition onpage (x : ix) (o : Z) : Prop := o mod x_ps x = 0.
Lemma onpage_apart x o o' : 30 < x_ps x <= 2^16 -> onpage x o -> onpage x o' -> o <> o' -> o + x_ps x <= o' \/ o' + x_ps x <= o.
Proof. exact (fun H => apart x H o o'). Qed.
Theorem split_walk x junk f key num o c a b recs : index_ok x f (Node o (a ++ Leaf c recs :: b)) -> rec_ok (x_len x) (num, key) -> ~ In key (map snd (t_recs (Node o (a ++ Leaf c recs :: b)))) ->
  Forall (fun t => ends_before key (t_recs t) = true) a -> b = [] \/ ends_before key recs = false -> overflows x f c (added key num recs) -> get f 0 4 = Ok [0; 0; 0; 0] -> zlen junk = x_ps x -> bytes_ok junk ->
  let rs := added key num recs in let n1 := Nat.div2 (length rs) in
  fits x (zlen (firstn n1 rs)) -> fits x (zlen (skipn n1 rs)) -> zlen f mod x_ps x = 0 -> page_no x (zlen f) < 2^32 - 1 ->
  zlen a + 2 + zlen b <= (x_ps x - 12) / (x_len x + 8) -> zlen b <= 1 \/ x_ov x = true ->
  forall fuel, exists f', write_index (S (S fuel)) x junk f key num = Ok (f', x) /\
  forall fuel' room, (height (Node o (a ++ Leaf c recs :: b)) < fuel')%nat -> (S (length (t_leaves (Node o (a ++ Leaf c recs :: b)))) <= fuel')%nat -> zlen (t_recs (Node o (a ++ Leaf c recs :: b))) + 1 <= room ->
  create_recordsindex (get f') fuel' (x_start x) (x_ps x) (x_838 x) room = Ok (map fst (added key num (t_recs (Node o (a ++ Leaf c recs :: b))))).
Proof.
  intros HI Hrec HN HA HB HO HZ Hj BJ. cbv zeta. intros HF1 HF2 Hmod Hno Hroom Hov fuel.
  destruct (child_page x f o c a b recs HI) as [page HG]. destruct (child_split x junk f key num o c a b recs HI Hrec HN HA HB HO HZ Hj fuel page HG) as (f1 & [L1 HWL] & HG1 & EW).
  pose proof (index_tok x f _ HI) as HT. pose proof HI as [I1 I2 I3 I4 I5 I6 [I7 I7'] I8 I9 I10 I11].
  destruct (node_reads x I1 I2 f o _ page HT HG) as (R1 & R2 & R3 & R4 & R5 & R6 & R7). pose proof (sorted_ss _ I8) as SS. fold (ss (t_recs (Node o (a ++ Leaf c recs :: b)))) in SS.
  assert (ER : t_recs (Leaf c recs) = recs) by (unfold t_recs; cbn [t_leaves map concat snd]; apply app_nil_r).
  destruct (halves_in x junk f key num o c a b recs ltac:(eauto) Hrec HN ltac:(auto) ltac:(auto)) as (Hl1 & Hl2 & _).
  pose proof (tok_kid x f o a (Leaf c recs) b HT) as [T1 _ _ _]. cbn [stored] in T1. destruct T1 as (cp & [P1 [P2 P2']] & HU & _ & HL & _). pose proof HO as (page' & p0 & HG' & HP). assert (cp = page') by congruence. subst page'.
  assert (HCin : In c (t_pages (Node o (a ++ Leaf c recs :: b)))) by (cbn [t_pages]; right; apply in_flat_map; exists (Leaf c recs); split; [apply in_or_app; right; now left|now left]).
  destruct (I7' c HCin) as (O1' & O2' & O3' & O4'). destruct (I7' o ltac:(now left)) as (Oo1 & Oo2 & Oo3 & Oo4).
  rewrite recs_node, ER in I9. apply Forall_app in I9. destruct I9 as [_ I9]. apply Forall_app in I9. destruct I9 as [I9 _].
  assert (SSK : ss recs) by (pose proof SS as SS'; rewrite recs_node, ER in SS'; apply ss_app in SS'; destruct SS' as (_ & SS' & _); apply ss_app in SS'; tauto).
  assert (HKN : ~ In key (map snd recs)) by (intros Hi; apply HN; rewrite recs_node, ER, !map_app; apply in_or_app; right; apply in_or_app; now left).
  assert (Hno0 : 0 <= page_no x (zlen f)). { pose proof (zlen_nonneg f). unfold page_no. destruct (x_838 x); [apply Z.div_pos; lia|lia]. }
  destruct (HWL cp P1) as [ou EWL].
  destruct (write_leaf_halves x junk f c cp key num recs p0 f1 ou I1 I2 P2 Hj P2' BJ O1' O2' O3' HU I9 SSK Hrec HKN HP HZ HF1 HF2 ltac:(lia) EWL) as (r1 & r2 & G1 & G2 & LF1 & LF2 & HD1 & HD2).
  destruct (write_leaf_split x junk f c cp key num recs p0 I1 I2 P2 Hj O1' O2' O3' HU I9 SSK Hrec HKN ltac:(lia) HP HZ) as (f1' & EWL' & _ & FR). assert (f1' = f1) by congruence. subst f1'. clear EWL' EWL HWL ou.
  set (l := halves (added key num recs)) in *. set (rs := added key num recs) in *. set (n1 := Nat.div2 (length rs)) in *.
  pose proof (added_rec_ok _ _ _ _ Hrec I9) as HRA. rewrite Forall_forall in HRA. destruct (HRA _ Hl1) as (_ & Z1 & _). destruct (HRA _ Hl2) as (_ & Z2 & _). cbn [snd] in Z1, Z2.
  fold (onpage x c) in O2'. fold (onpage x o) in Oo2. fold (onpage x (zlen f)) in Hmod.
  (* the page of the root *)
  pose proof (zlen_nonneg a) as Ha0. pose proof (zlen_nonneg b) as Hb0. destruct (Z.ltb_spec ((x_ps x - 12) / (x_len x + 8)) (zlen a + 2 + zlen b)); [lia|].
  destruct (root_page x page _ _ (snd (fst l)) (fst (fst l)) (snd (snd l)) (fst (snd l)) (page_no x c) (page_no x (zlen f)) R3 I1 (proj2 I2) Ha0 Hb0 Hroom Z1 Z2 Hov) as (pm & p1 & p2 & EM & S1 & S2 & LP2 & FRP & N1).
  rewrite EM in EW. cbn [rbind] in EW. rewrite S1 in EW. cbn [rbind] in EW. rewrite S2 in EW. cbn [rbind] in EW. destruct (room_mul _ _ _ _ Ha0 Hb0 I1 (proj2 I2) Hroom) as (MM & M0 & M1 & Hk15). assert (Hp20 : 20 + x_len x <= x_ps x) by (clear - MM M0 M1 I1; lia). clear MM M1 EM S1 S2 pm p1 R6 Hroom Hov HL.
  exists (put f1 o p2). split; [exact EW|]. intros fuel' room Hh Hlv Hrm. set (f' := put f1 o p2) in *.
  assert (HF12 : forall q m, (q + m <= 12)%nat -> sub p2 q m = sub page q m) by (clear - FRP M0; intros q m Hq; apply FRP; lia).
  (* pages of the new file *)
  assert (Hof : o + zlen p2 <= zlen f1) by lia.
  assert (GO : get f' o (x_ps x) = Ok p2) by (unfold f'; replace (x_ps x) with (zlen p2) by lia; apply get_put_any; lia).
  assert (Hoc : o <> c). { cbn [t_pages] in I7. apply NoDup_cons_iff in I7. destruct I7 as [I7 _]. intros Eoc. apply I7. rewrite Eoc. apply in_flat_map. exists (Leaf c recs). split; [apply in_or_app; right; now left|now left]. }
  pose proof (onpage_apart x o c I2 Oo2 O2' Hoc) as Aoc.
  assert (GC : get f' c (x_ps x) = Ok r1) by (unfold f'; rewrite get_put_other by lia; exact G1).
  assert (GN : get f' (zlen f) (x_ps x) = Ok r2) by (unfold f'; rewrite get_put_other by lia; exact G2).
  assert (FRM : forall off n, 0 <= off -> 0 <= n -> off + n <= zlen f -> off + n <= c \/ c + x_ps x <= off -> off + n <= o \/ o + x_ps x <= off -> get f' off n = get f off n).
  { clear - Hof FR I2 LP2 Oo1. intros off n K1 K2 K3 K4 K5. unfold f'. rewrite get_put_other by lia. now apply FR. }
  assert (SAME : forall u, In u (t_pages (Node o (a ++ Leaf c recs :: b))) -> u <> o -> u <> c -> same_page x f f' u).
  { intros u Hu K1 K2 q n Q1 Q2 Q3. destruct (I7' u Hu) as (U1 & U2 & U3 & _). fold (onpage x u) in U2. pose proof (onpage_apart x u o I2 U2 Oo2 K1). pose proof (onpage_apart x u c I2 U2 O2' K2). match goal with A : u + _ <= o \/ _, B : u + _ <= c \/ _ |- _ => clear - FRM I2 Q1 Q2 Q3 U1 U3 A B end. apply FRM; lia. }
  cbn [t_pages] in I7. apply NoDup_cons_iff in I7. destruct I7 as [I7a I7b]. rewrite flat_map_app in I7b. cbn [flat_map t_pages app] in I7b. apply NoDup_remove in I7b. destruct I7b as [_ I7b].
  assert (SUB : forall k u, In k a \/ In k b -> In u (t_pages k) -> In u (t_pages (Node o (a ++ Leaf c recs :: b))) /\ u <> o /\ u <> c).
  { intros k u Hk Hu. assert (Hin : In u (flat_map t_pages (a ++ Leaf c recs :: b))) by (apply in_flat_map; exists k; split; [apply in_or_app; destruct Hk; [now left|right; now right]|exact Hu]). split; [right; exact Hin|]. split; [intros ->; contradiction|].
    intros ->. apply I7b. apply in_or_app. destruct Hk as [Hk|Hk]; [left|right]; apply in_flat_map; exists k; auto. }
  assert (KS : forall k, In k a \/ In k b -> stored (get f') (x_ps x) (x_len x) (x_mul x) k).
  { intros k Hk. destruct HT as [T1 T2 _ _]. cbn [stored keyed] in T1, T2. destruct T1 as (_ & _ & _ & _ & _ & _ & _ & T1). destruct T2 as [_ T2]. apply all_kids in T1. apply all_kids in T2. rewrite Forall_forall in T1, T2.
    assert (Hin : In k (a ++ Leaf c recs :: b)) by (apply in_or_app; destruct Hk; [now left|right; now right]).
    apply (frame_tree x I1 I2 f f' k); [|apply T1; exact Hin|apply T2; exact Hin]. intros u Hu. destruct (SUB k u Hk Hu) as (K1 & K2 & K3). now apply SAME. }
  pose proof (leafy_stored x f' c r1 _ GC LF1) as SC. pose proof (leafy_stored x f' (zlen f) r2 _ GN LF2) as SN.
  set (kids := a ++ Leaf c (firstn n1 rs) :: Leaf (zlen f) (skipn n1 rs) :: b).
  assert (KA : Forall (stored (get f') (x_ps x) (x_len x) (x_mul x)) kids).
  { unfold kids. apply Forall_app. split; [apply Forall_forall; intros k Hk; apply KS; now left|]. constructor; [exact SC|]. constructor; [exact SN|]. apply Forall_forall. intros k Hk. apply KS. now right. }
  (* the leaves *)
  assert (EL : flat_map t_leaves kids = flat_map t_leaves a ++ (c, firstn n1 rs) :: (zlen f, skipn n1 rs) :: flat_map t_leaves b) by (unfold kids; rewrite flat_map_app; reflexivity).
  assert (CH : chained (get f') (x_ps x) (x_mul x) (map fst (flat_map t_leaves kids))).
  { rewrite EL, map_app. cbn [map fst]. rewrite node_leaves, map_app in I5. cbn [map fst] in I5. destruct LF1 as (LR1 & BR1 & _), LF2 as (LR2 & BR2 & _).
    apply (chain_split (get f) (get f') (x_ps x) (x_mul x) c (zlen f) r1 r2 cp _ _ I5); try (unfold page_at; tauto).
    - intros u Hu. assert (Hk : exists k, (In k a \/ In k b) /\ In u (t_pages k)).
      { apply in_app_or in Hu. destruct Hu as [Hu|Hu]; apply in_map_iff in Hu; destruct Hu as (q & <- & Hq); apply in_flat_map in Hq; destruct Hq as (k & Hk & Hq); exists k; (split; [auto|]); apply leaf_page; now apply in_map. }
      destruct Hk as (k & Hk & Hu'). destruct (SUB k u Hk Hu') as (K1 & K2 & K3). apply same_whole; [exact I2|]. now apply SAME.
    - rewrite HD1. lia.
    - rewrite HD1. apply page_no_ok; [lia|exact Hmod]. }
  (* the order *)
  assert (EA : concat (map snd (flat_map t_leaves kids)) = added key num (t_recs (Node o (a ++ Leaf c recs :: b)))).
  { rewrite EL, map_app, concat_app. cbn [map snd concat]. rewrite app_assoc with (l := firstn n1 rs), firstn_skipn. rewrite recs_node, ER.
    assert (QA : concat (map snd (flat_map t_leaves a)) = t_recs (Node 0 a)) by reflexivity. assert (QB : concat (map snd (flat_map t_leaves b)) = t_recs (Node 0 b)) by reflexivity. rewrite QA, QB.
    rewrite recs_node, ER in SS. rewrite added_skip.
    - f_equal. destruct HB as [-> | HB]; [change (t_recs (Node 0 [])) with (@nil (Z * list Z)); now rewrite !app_nil_r|]. symmetry. apply added_stop.
      assert (Hne : recs <> []). { intros E. pose proof HP as HP'. fold rs in HP'. destruct (R7 (length a) (Leaf c recs)) as (_ & J2 & _); [rewrite nth_error_app2, Nat.sub_diag by lia; reflexivity|]. apply J2. now rewrite ER. }
      destruct (not_ends key recs SSK Hne (rec_same_len _ _ _ _ Hrec I9) HB) as (n & k & Hin & [Ek|Ek]); [exfalso; apply HKN; rewrite Ek; apply in_map_iff; exists (n, k); auto|]. apply Exists_exists. exists (n, k). auto.
    - apply Forall_forall. intros y Hy. apply ltb_asym. rewrite <- QA in Hy. apply in_concat in Hy. destruct Hy as (q & Hq & Hy). apply in_map_iff in Hq. destruct Hq as (w & <- & Hw). apply in_flat_map in Hw. destruct Hw as (k & Hk & Hw).
      destruct (ss_kids a (Leaf c recs) b) as (SA & _); [rewrite ER; exact SS|]. rewrite Forall_forall in SA, HA. destruct (ends_all key (t_recs k) (SA k Hk) (HA k Hk)) as [_ HE]. rewrite Forall_forall in HE. apply HE. apply (recs_in k w); assumption. }
  (* the first leaf *)
  destruct I11 as (h & EH & EH1 & EH2). pose proof (get_some _ _ _ _ EH) as (H0 & _ & H8 & _). cbn [t_off] in EH1, I10.
  assert (EH' : get f' (x_start x) 8 = Ok h) by (rewrite FRM by lia; exact EH).
  assert (EK : exists k0 kr, kids = k0 :: kr /\ le_val (rev (sub p2 (Z.to_nat (16 + x_len x)) 4)) * x_mul x = t_off k0 /\ (height k0 < fuel' - 1)%nat).
  { unfold kids. destruct a as [|k0 a'].
    - exists (Leaf c (firstn n1 rs)). eexists. split; [reflexivity|]. change (zlen (@nil tree)) with 0 in *. replace (16 + x_len x) with (12 + 0 * (x_len x + 8) + x_len x + 4) by lia. rewrite N1. unfold be4. rewrite rev_involutive, le_val_bytes_small.
      + split; [apply page_no_ok; [lia|exact O2']|]. cbn [height]. cbn [height app map fold_right] in Hh. lia.
      + assert (0 <= page_no x c <= page_no x (zlen f)) by (unfold page_no; destruct (x_838 x); [split; [apply Z.div_pos; lia|apply Z.div_le_mono; lia]|lia]). change (256 ^ Z.of_nat 4) with (2^32). lia.
    - exists k0. eexists. split; [reflexivity|]. rewrite zlen_cons in *. assert (x_len x + 8 <= (1 + zlen a') * (x_len x + 8)) by (pose proof (zlen_nonneg a'); rewrite <- (Z.mul_1_l (x_len x + 8)) at 1; apply Z.mul_le_mono_nonneg_r; lia).
      rewrite FRP by lia. destruct (R7 0%nat k0 eq_refl) as (_ & _ & _ & bb & J4 & J5). apply rdn_some in J4. destruct J4 as (_ & _ & _ & J4).
      replace (12 + Z.of_nat 0 * (x_len x + 8) + x_len x + 4) with (16 + x_len x) in J4 by lia. change (Z.to_nat 4) with 4%nat in J4. rewrite <- J4. split; [exact J5|]. cbn [height app map fold_right] in Hh. lia. }
  destruct EK as (k0 & kr & EK & EO & HH). rewrite EK in KA. pose proof (Forall_inv KA) as SK0.
  assert (PK : exists pk, page_at (get f') (x_ps x) (t_off k0) pk) by (destruct k0; cbn [stored t_off] in *; destruct SK0 as (pk & PK & _); exists pk; exact PK). destruct PK as [pk PK].
  destruct (first_leaf_ok (get f') (x_ps x) (x_len x) (x_mul x) ltac:(lia) ltac:(lia) k0 (fuel' - 1) pk SK0 PK HH) as (fo & fr & rest & fq & EF1 & EF2 & EF3).
  unfold create_recordsindex. fold (x_mul x). rewrite EH'. cbn [rbind]. rewrite EH1, EH2. rewrite GO. cbn [rbind].
  assert (C2 : hd_field p2 2 2 = zlen a + 1 + zlen b) by (unfold hd_field; rewrite HF12 by lia; fold (hd_field page 2 2); rewrite R2, zlen_app, zlen_cons; lia).
  rewrite C2, !i16_small by lia. destruct (Z.eqb_spec (zlen a + 1 + zlen b) 0); [lia|].
  assert (EFL : first_leaf (get f') fuel' (x_ps x) (x_len x) (x_mul x) p2 = Ok fq).
  { destruct fuel' as [|fuel']; [lia|]. replace (S fuel' - 1)%nat with fuel' in EF3 by lia. cbn [first_leaf]. rewrite (nth_sub0 p2 12), HF12, <- (nth_sub0 page 12) by lia.
    rewrite flag_low in R1 by (try exact R4; unfold zlen in *; lia). rewrite R1. cbn [Z.eqb]. rewrite rdn_ok by lia. cbn [rbind]. change (Z.to_nat 4) with 4%nat. rewrite EO. destruct PK as [PK _]. rewrite PK. cbn [rbind]. exact EF3. }
  rewrite EFL. cbn [rbind]. rewrite <- EA.
  assert (LL : length (flat_map t_leaves kids) = S (length (t_leaves (Node o (a ++ Leaf c recs :: b))))) by (rewrite EL, node_leaves, !app_length; cbn [length]; lia).
  apply (leaves_ok (get f') (x_ps x) (x_len x) (x_mul x) ltac:(lia) ltac:(lia)).
  - rewrite <- EK in KA. rewrite Forall_forall in KA. apply Forall_forall. intros w Hw. apply in_flat_map in Hw. destruct Hw as (k & Hk & Hw).
    destruct (leaves_stored (get f') (x_ps x) (x_len x) (x_mul x) k (KA k Hk)) as [HW _]. rewrite Forall_forall in HW. now apply HW.
  - exact CH.
  - rewrite EK. cbn [flat_map]. rewrite EF1. exact EF2.
  - lia.
  - rewrite EA, added_len. lia.
Qed.
