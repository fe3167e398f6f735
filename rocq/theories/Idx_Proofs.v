(** Adding to and removing from an index whose leaves have room. *)
From Verif Require Import Prelude Lists Leaf_Model Leaf_Spec Leaf_Proofs Leaf_Walk Leaf_More Idx_Model Idx_Spec Idx_Order.
Ltac Zify.zify_post_hook ::= idtac.

(** ** The file *)
Lemma get_ok f off n : 0 <= off -> 0 <= n -> off + n <= zlen f -> get f off n = Ok (sub f (Z.to_nat off) (Z.to_nat n)).
Proof. intros H1 H2 H3. unfold get. destruct (Z.ltb_spec off 0); [lia|]. destruct (Z.ltb_spec n 0); [lia|]. destruct (Z.ltb_spec (zlen f) (off + n)); [lia|]. reflexivity. Qed.
Lemma get_some f off n p : get f off n = Ok p -> 0 <= off /\ 0 <= n /\ off + n <= zlen f /\ p = sub f (Z.to_nat off) (Z.to_nat n) /\ zlen p = n.
Proof.
  unfold get. destruct (Z.ltb_spec off 0); [discriminate|]. destruct (Z.ltb_spec n 0); [discriminate|]. destruct (Z.ltb_spec (zlen f) (off + n)); [discriminate|]. cbn [orb].
  intros E. injection E as <-. repeat apply conj; try lia; [reflexivity|]. unfold zlen in *. rewrite sub_length; lia.
Qed.
Lemma get_part f o ps p c n : get f o ps = Ok p -> 0 <= c -> 0 <= n -> c + n <= ps -> get f (o + c) n = Ok (sub p (Z.to_nat c) (Z.to_nat n)).
Proof.
  intros H H1 H2 H3. apply get_some in H. destruct H as (H4 & H5 & H6 & -> & _). rewrite get_ok by lia. rewrite sub_sub by lia. f_equal. f_equal. lia.
Qed.
Lemma put_in f o d : 0 <= o -> o + zlen d <= zlen f -> put f o d = splice f (Z.to_nat o) d.
Proof. intros H1 H2. unfold put. replace (Z.to_nat (o + zlen d - zlen f)) with 0%nat by lia. cbn [repeat]. now rewrite app_nil_r. Qed.
Lemma put_len f o d : 0 <= o -> o + zlen d <= zlen f -> zlen (put f o d) = zlen f.
Proof. intros H1 H2. rewrite put_in by assumption. unfold zlen in *. rewrite splice_length; lia. Qed.
Lemma put_bytes f o d : bytes_ok f -> bytes_ok d -> bytes_ok (put f o d).
Proof. intros H1 H2. unfold put. apply bytes_ok_splice; [|exact H2]. apply bytes_ok_app. split; [exact H1|]. apply Forall_forall. intros z Hz. apply repeat_spec in Hz. subst z. split; lia. Qed.
Lemma sub_splice_in {A} (l d : list A) o c n : (o + length d <= length l)%nat -> (c + n <= length d)%nat -> sub (splice l o d) (o + c) n = sub d c n.
Proof. intros H1 H2. rewrite <- (sub_splice_same l d o H1) at 2. rewrite sub_sub by exact H2. reflexivity. Qed.
Lemma get_put_same f o d c n : 0 <= o -> o + zlen d <= zlen f -> 0 <= c -> 0 <= n -> c + n <= zlen d -> get (put f o d) (o + c) n = Ok (sub d (Z.to_nat c) (Z.to_nat n)).
Proof.
  intros H1 H2 H3 H4 H5. rewrite get_ok; [|lia|lia|rewrite put_len; lia]. rewrite put_in by assumption. f_equal.
  replace (Z.to_nat (o + c)) with (Z.to_nat o + Z.to_nat c)%nat by lia. apply sub_splice_in; unfold zlen in *; lia.
Qed.
Lemma get_put_page f o d : 0 <= o -> o + zlen d <= zlen f -> get (put f o d) o (zlen d) = Ok d.
Proof. intros H1 H2. pose proof (zlen_nonneg d). replace o with (o + 0) at 2 by lia. rewrite get_put_same by lia. f_equal. unfold zlen. rewrite Nat2Z.id. apply sub_all. Qed.
Lemma get_put_other f o d off n : 0 <= o -> o + zlen d <= zlen f -> 0 <= n -> off + n <= o \/ o + zlen d <= off -> get (put f o d) off n = get f off n.
Proof.
  intros H1 H2 H3 H4. unfold get. rewrite put_len by assumption. destruct (Z.ltb_spec off 0); [reflexivity|]. destruct (n <? 0); [reflexivity|]. destruct (zlen f <? off + n); [reflexivity|]. cbn [orb]. f_equal.
  rewrite put_in by assumption. apply sub_splice_other; unfold zlen in *; lia.
Qed.
Lemma splice_self {A} (l : list A) o n : (o + n <= length l)%nat -> splice l o (sub l o n) = l.
Proof.
  intros H. apply nth_error_ext. intros i. rewrite nth_error_splice; rewrite sub_length by lia; [|lia]. destruct (Nat.leb_spec o i); [|reflexivity]. destruct (Nat.ltb_spec i (o + n)); [|reflexivity]. cbn [andb].
  rewrite nth_error_sub. destruct (Nat.ltb_spec (i - o) n); [|lia]. f_equal. lia.
Qed.
Lemma wrn_in (l : list Z) i d : 0 <= i -> i + zlen d <= zlen l -> wrn l i d = Ok (splice l (Z.to_nat i) d).
Proof. intros H1 H2. unfold wrn. destruct (Z.ltb_spec i 0); [lia|]. destruct (Z.ltb_spec (zlen l) (i + zlen d)); [lia|]. reflexivity. Qed.
Lemma zlen_le n v : zlen (le_bytes n v) = Z.of_nat n. Proof. unfold zlen. now rewrite le_bytes_length. Qed.
Lemma zlen_splice (l d : list Z) o : (o + length d <= length l)%nat -> zlen (splice l o d) = zlen l.
Proof. intros H. unfold zlen. now rewrite splice_length. Qed.

(** ** Leaves *)
Lemma leaf_flag len ps p recs : 0 < len -> unpack_leafpage len ps p = Ok recs -> Z.land (hd_field p 0 2) 2 <> 0.
Proof. intros Hl H E. unfold unpack_leafpage in H. destruct (Z.eqb_spec len 0); [lia|]. rewrite E in H. discriminate. Qed.
Lemma leaf_pack primary len pagesize recs extra page flags :
  0 < len < 2^15 -> 30 < pagesize <= 2^16 -> zlen page = pagesize -> bytes_ok page -> Forall (rec_ok len) recs -> sorted (map snd recs) -> 30 + (len + 8) * zlen recs < pagesize ->
  0 <= flags < 2^16 -> Z.land flags 2 <> 0 ->
  exists p1, pack_leafpage primary len pagesize (flat recs ++ extra) (length recs) page = Ok (p1, true) /\ zlen p1 = pagesize /\ bytes_ok p1 /\ sub p1 4 8 = sub page 4 8 /\
    let p2 := splice p1 0 (le_bytes 2 flags) in
    zlen p2 = pagesize /\ bytes_ok p2 /\ unpack_leafpage len pagesize p2 = Ok recs /\ zlen recs = hd_field p2 2 2 /\ 0 <= hd_field p2 28 2 <= 8 /\ sub p2 4 8 = sub page 4 8 /\ sub p2 0 2 = le_bytes 2 flags.
Proof.
  intros Hlen Hps Hpg Hok HR HS Hfit Hfl Hf2. pose proof (zlen_nonneg recs) as Hr0. assert (Hn : zlen recs < 2^13) by nia.
  destruct (pack_total primary len pagesize recs extra page Hlen Hps Hpg Hok HR ltac:(lia) HS) as (p1 & b & E & Hb). rewrite (Hb Hfit) in E. clear Hb b. exists p1. split; [exact E|].
  destruct (pack_layout _ _ _ _ _ _ _ Hlen Hps Hpg Hok HR ltac:(lia) E) as (ps & mids & rbt & nb & free & G & H1 & H2 & H3 & H4 & H5 & H6 & H7 & H8 & H9 & H10 & H11). cbv zeta in *.
  destruct (bits_ok len ltac:(lia)) as (L1 & L2 & L3). specialize (L3 ltac:(lia)). assert (L4 : bits len <= 15) by (apply bits_le; lia).
  set (lb := bits len) in *. clearbody lb.
  assert (H12 : (12 <= length page)%nat) by (unfold zlen in *; lia).
  pose proof (header_fields page (concat (map (ent rbt lb nb) ps) ++ G ++ concat (rev mids)) (zlen recs) free (mask nb) (mask lb) (mask lb) nb lb lb rbt H12) as HF. cbv zeta in HF.
  rewrite <- H7 in HF. destruct HF as (F1 & F2 & F3 & F4 & F5 & F6 & F7 & F8 & F9 & F10).
  pose proof (zlen_nonneg G). pose proof (zlen_nonneg (concat (rev mids))).
  rewrite Z.mod_small in F8 by lia. rewrite Z.mod_small in F7 by lia. rewrite Z.mod_small in F6 by lia. rewrite Z.mod_small in F2 by nia.
  rewrite mask_small32 in F3 by lia. rewrite mask_ok, Z.min_l, ones_small in F4 by lia. rewrite mask_ok, Z.min_l, ones_small in F5 by lia.
  assert (EM : mask lb = Z.ones lb) by (rewrite mask_ok, Z.min_l by lia; reflexivity). rewrite <- EM in F4, F5.
  split; [exact H8|]. split; [exact H9|]. split; [exact F9|].
  set (p2 := splice p1 0 (le_bytes 2 flags)).
  assert (HL2 : (0 + length (le_bytes 2 flags) <= length p1)%nat) by (rewrite le_bytes_length; unfold zlen in *; lia).
  assert (Z2 : zlen p2 = pagesize) by (unfold p2; rewrite zlen_splice by exact HL2; exact H8).
  assert (B2 : bytes_ok p2) by (apply bytes_ok_splice; [exact H9|apply le_bytes_ok]).
  assert (S2 : forall o n, (2 <= o)%nat -> sub p2 o n = sub p1 o n) by (intros o n Ho; apply sub_splice_other; [exact HL2|rewrite le_bytes_length; lia]).
  assert (S0 : sub p2 0 2 = le_bytes 2 flags) by (unfold p2; rewrite <- (le_bytes_length 2 flags) at 2; apply sub_splice_same; exact HL2).
  assert (Ffl : hd_field p2 0 2 = flags) by (unfold hd_field; rewrite S0; apply le_val_bytes_small; cbn; lia).
  assert (FS : forall o n, (2 <= o)%nat -> hd_field p2 o n = hd_field p1 o n) by (intros o n Ho; unfold hd_field; now rewrite S2).
  cbv zeta. split; [exact Z2|]. split; [exact B2|]. split; [|repeat apply conj; [rewrite FS by lia; lia|rewrite FS by lia; lia|rewrite FS by lia; lia|rewrite S2 by lia; exact F9|exact S0]].
  unfold unpack_leafpage. destruct (Z.eqb_spec len 0); [lia|]. rewrite Ffl. destruct (Z.eqb_spec (Z.land flags 2) 0); [contradiction|].
  rewrite !FS by lia. rewrite F2, F3, F4, F5, F6, F7, F8. unfold zlen at 1. rewrite Nat2Z.id.
  set (hh := header page (zlen recs) free (mask nb) (mask lb) (mask lb) nb lb lb rbt) in *.
  assert (HHl0 : length hh = 30%nat) by (apply header_len; exact H12). clearbody hh.
  set (HD := splice hh 0 (le_bytes 2 flags)).
  assert (HHl : zlen HD = 30) by (unfold HD; rewrite zlen_splice; [unfold zlen; now rewrite HHl0|rewrite HHl0, le_bytes_length; lia]).
  assert (E2 : p2 = HD ++ concat (map (ent rbt lb nb) ps) ++ G ++ concat (rev mids)).
  { unfold p2, HD. rewrite H7. unfold splice. rewrite !firstn_O. rewrite skipn_app, HHl0, le_bytes_length. change (0 + 2 - 30)%nat with 0%nat. rewrite skipn_O.
    cbn [app]. repeat rewrite <- app_assoc. reflexivity. }
  rewrite <- HHl at 1.
  replace pagesize with (zlen ((HD ++ concat (map (ent rbt lb nb) ps) ++ G) ++ concat (rev mids))) at 1.
  2:{ rewrite <- Z2, E2. rewrite <- !app_assoc. reflexivity. }
  apply (unpack_recs_ok recs ps mids None p2 HD (G ++ concat (rev mids)) (HD ++ concat (map (ent rbt lb nb) ps) ++ G) []); auto; try lia.
  - rewrite E2, app_nil_r, <- !app_assoc. reflexivity.
  - intros Hne. rewrite Z2, HHl. replace (zlen ps) with (zlen recs) by (unfold zlen; lia). destruct ps as [|q ps]; [congruence|]. assert (1 <= zlen recs) by (unfold zlen; cbn [length] in H6; lia). nia.
Qed.
Lemma sub_hd p o : bytes_ok p -> (o + 4 <= length p)%nat -> le_bytes 4 (hd_field p o 4) = sub p o 4.
Proof. intros B H. unfold hd_field. rewrite <- (sub_length p o 4 H) at 1. apply le_bytes_val. now apply bytes_ok_sub. Qed.
Lemma set_links_same p page flags : bytes_ok page -> zlen page = zlen p -> 12 <= zlen p -> sub p 4 8 = sub page 4 8 ->
  set_links p flags (hd_field page 4 4) (hd_field page 8 4) = Ok (splice p 0 (le_bytes 2 flags)).
Proof.
  intros B HL H12 E. unfold set_links. rewrite wrn_in by (rewrite ?zlen_le; lia). cbn [rbind]. set (q := splice p (Z.to_nat 0) (le_bytes 2 flags)).
  assert (Lq : length q = length p) by (unfold q; apply splice_length; rewrite le_bytes_length; unfold zlen in *; cbn; lia).
  assert (Sq : forall o n, (2 <= o)%nat -> sub q o n = sub p o n) by (intros o n Ho; unfold q; apply sub_splice_other; rewrite le_bytes_length; unfold zlen in *; change (Z.to_nat 0) with 0%nat; lia).
  rewrite !sub_hd by (try exact B; unfold zlen in *; lia).
  assert (E4 : sub page 4 4 = sub q 4 4). { rewrite Sq by lia. transitivity (sub (sub page 4 8) 0 4); [now rewrite sub_sub by lia|]. rewrite <- E. now rewrite sub_sub by lia. }
  assert (E8 : sub page 8 4 = sub q 8 4). { rewrite Sq by lia. transitivity (sub (sub page 4 8) 4 4); [now rewrite sub_sub by lia|]. rewrite <- E. now rewrite sub_sub by lia. }
  rewrite E4, E8. rewrite wrn_in; [|lia|unfold zlen in *; rewrite sub_length; lia]. cbn [rbind]. change (Z.to_nat 4) with 4%nat. rewrite splice_self by (unfold zlen in *; lia).
  rewrite wrn_in; [|lia|unfold zlen in *; rewrite sub_length; lia]. change (Z.to_nat 8) with 8%nat. rewrite splice_self by (unfold zlen in *; lia). reflexivity.
Qed.

(** the outcome: whether the last record is another *)
Definition outcome (key : list Z) (num : Z) (recs : list (Z * list Z)) : out :=
  match last (map Some recs) None with Some (_, k) => if key_ltb k key then O1 key num else O0 | None => O1 key num end.
Definition same_len (key : list Z) (recs : list (Z * list Z)) := Forall (fun r => length (snd r) = length key) recs.
Lemma find_leaf_fresh primary key num recs : forall i0, same_len key recs -> ~ In key (map snd recs) ->
  exists a b, recs = a ++ b /\ added key num recs = a ++ (num, key) :: b /\ find_leaf primary key num recs i0 = Ok (i0 + length a)%nat /\
    Forall (fun r => key_ltb (snd r) key = true) a /\ match b with [] => True | r :: _ => key_ltb key (snd r) = true end.
Proof.
  induction recs as [|[n k] recs IH]; intros i0 L N.
  - exists [], []. repeat split; [cbn [find_leaf length]; f_equal; lia|constructor].
  - pose proof (Forall_inv L) as Lk. cbn [snd] in Lk. cbn [map snd In] in N. cbn [find_leaf added].
    destruct (memcmp_cases key k ltac:(lia)) as [[E _]|[[E M]|[E M]]]; [exfalso; apply N; left; congruence| |]; rewrite M.
    + rewrite E. exists [], ((n, k) :: recs). repeat split; [cbn [Z.eqb Z.ltb Z.compare length]; f_equal; lia|constructor|exact E].
    + rewrite (ltb_asym _ _ E). destruct (IH (S i0) (Forall_inv_tail L) ltac:(tauto)) as (a & b & E1 & E2 & E3 & E4 & E5).
      exists ((n, k) :: a), b. rewrite E1 at 1. rewrite E2. cbn [Z.eqb Z.ltb Z.compare]. rewrite E3. repeat split; [cbn [length]; f_equal; lia|constructor; assumption|exact E5].
Qed.
Lemma rec_same_len len key num recs : rec_ok len (num, key) -> Forall (rec_ok len) recs -> same_len key recs.
Proof. intros (_ & H & _) HR. eapply Forall_impl; [|exact HR]. intros r (_ & H2 & _). cbn [snd] in H. unfold zlen in *. lia. Qed.
Lemma added_rec_ok len key num recs : rec_ok len (num, key) -> Forall (rec_ok len) recs -> Forall (rec_ok len) (added key num recs).
Proof. intros H HR. apply Forall_forall. intros r Hr. apply added_in in Hr. destruct Hr as [-> | Hr]; [exact H|]. rewrite Forall_forall in HR. now apply HR. Qed.
Lemma added_len key num recs : zlen (added key num recs) = zlen recs + 1.
Proof. destruct (added_split key num recs) as (a & b & E1 & E2 & _). rewrite E2. rewrite E1. rewrite !zlen_app, zlen_cons. lia. Qed.

(** a page that holds records, with the links of another *)
Definition holds (x : ix) (page p : list Z) (recs : list (Z * list Z)) : Prop :=
  zlen p = x_ps x /\ bytes_ok p /\ unpack_leafpage (x_len x) (x_ps x) p = Ok recs /\ zlen recs = hd_field p 2 2 /\ zlen recs < 2^15 /\ hd_field p 28 2 < 2^15 /\
  30 + hd_field p 28 2 * zlen recs <= x_ps x /\ sub p 4 8 = sub page 4 8.

Lemma write_leaf_ok x junk f block page key num recs : 0 < x_len x < 2^15 -> 30 < x_ps x <= 2^16 -> zlen page = x_ps x -> bytes_ok page ->
  unpack_leafpage (x_len x) (x_ps x) page = Ok recs -> Forall (rec_ok (x_len x)) recs -> sorted (map snd recs) -> rec_ok (x_len x) (num, key) -> ~ In key (map snd recs) -> fits x (zlen recs + 1) ->
  exists p, write_leaf x junk f block page key num = Ok (put f block p, outcome key num recs) /\ holds x page p (added key num recs).
Proof.
  intros Hlen Hps Hpg Hok HU HR HS Hrec Hfr Hfit. unfold write_leaf. rewrite HU. cbn [rbind].
  pose proof (rec_same_len _ _ _ _ Hrec HR) as HSL.
  destruct (find_leaf_fresh (x_primary x) key num recs 0 HSL Hfr) as (a & b & E1 & E2 & E3 & E4 & E5). rewrite E3. cbn [rbind Nat.add].
  replace (firstn (length a) recs ++ (num, key) :: skipn (length a) recs) with (added key num recs).
  2:{ rewrite E2, E1. rewrite firstn_app, Nat.sub_diag, firstn_all, firstn_O, app_nil_r, skipn_app, Nat.sub_diag, skipn_all. reflexivity. }
  pose proof (added_rec_ok _ _ _ _ Hrec HR) as HR'.
  assert (HS' : sorted (map snd (added key num recs))) by (apply ss_sorted; apply added_ss; [now apply sorted_ss|exact Hfr|exact HSL]).
  pose proof (added_len key num recs) as HLn. unfold fits in Hfit.
  pose proof (leaf_flag _ _ _ _ (proj1 Hlen) HU) as Hfl. pose proof (hd_field_bound page 0 2 Hok) as Hfb. change (256 ^ Z.of_nat 2) with (2^16) in Hfb.
  destruct (leaf_pack (x_primary x) (x_len x) (x_ps x) (added key num recs) [] page (hd_field page 0 2) Hlen Hps Hpg Hok HR' HS' ltac:(rewrite HLn; exact Hfit) Hfb Hfl)
    as (p1 & EP & P1 & P2 & P3 & P4 & P5 & P6 & P7 & P8 & P9 & P10). rewrite app_nil_r in EP. change (unpacked (added key num recs)) with (flat (added key num recs)). rewrite EP. cbn [rbind].
  rewrite set_links_same by (try assumption; lia). cbn [rbind]. eexists. split.
  - f_equal. f_equal. unfold outcome. rewrite E2. destruct b as [|r b].
    + rewrite app_nil_r in E1. subst a. rewrite Nat.eqb_refl, last_last. cbn [fst snd].
      destruct (last_split recs) as [[-> El]|(c & [n k] & -> & El)]; rewrite El; [reflexivity|]. apply Forall_app in E4. destruct E4 as [_ E4]. pose proof (Forall_inv E4) as E6. cbn [snd] in E6. now rewrite E6.
    + replace (Nat.eqb (length a) (length recs)) with false by (symmetry; apply Nat.eqb_neq; rewrite E1, app_length; cbn [length]; lia).
      destruct (last_split recs) as [[-> El]|(c & [n k] & E & El)]; [destruct a; discriminate|]. rewrite El.
      assert (key_ltb key k = true); [|now rewrite (ltb_asym key k)].
      apply sorted_ss in HS. fold (ss recs) in HS. rewrite E1 in HS. apply ss_app in HS. destruct HS as (_ & HS & _).
      assert (Ein : In (n, k) (r :: b)). { rewrite E1, last_app_some in El by discriminate. destruct (last_split (r :: b)) as [[? _]|(c' & y & Ec & El')]; [discriminate|]. rewrite El in El'. injection El' as <-. rewrite Ec. apply in_or_app. right. left. reflexivity. }
      destruct Ein as [->|Ein]; [exact E5|]. eapply ltb_trans; [exact E5|]. apply (ss_app [r] b) in HS. destruct HS as (_ & _ & HS). apply (HS r (n, k)); [left; reflexivity|exact Ein].
  - unfold holds. repeat apply conj; try assumption; try lia. nia.
Qed.
