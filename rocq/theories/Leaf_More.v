(** Packing always works on sorted records; where packing and unpacking leave their buffers. *)
From Verif Require Import Prelude Lists Leaf_Model Leaf_Spec Leaf_Proofs.
Ltac Zify.zify_post_hook ::= idtac.

(** ** Sorted keys *)
Lemma rd_at (a k b : list Z) i x : nth_error k i = Some x -> rd (a ++ k ++ b) (zlen a + Z.of_nat i) = Ok x.
Proof.
  intros H. apply rd_ok; [unfold zlen; lia|]. replace (Z.to_nat (zlen a + Z.of_nat i)) with (length a + i)%nat by (unfold zlen; lia).
  rewrite nth_error_mid; [exact H|]. apply nth_error_Some. congruence.
Qed.
Lemma key_lt_diff a : forall b, bytes_ok a -> key_lt a b -> exists d x y, (d < length b)%nat /\ nth_error a d = Some x /\ nth_error b d = Some y /\ x < y /\ 0 <= x /\
  (forall i, (i < d)%nat -> nth_error a i = nth_error b i).
Proof.
  induction a as [|x a IH]; intros [|y b] Hok H; cbn [key_lt] in H; try contradiction. inversion Hok as [|? ? Hx Hok']; subst.
  destruct H as [H|[-> H]].
  - exists 0%nat, x, y. unfold byte_ok in Hx. repeat split; cbn; try lia. 
  - destruct (IH b Hok' H) as (d & u & v & H1 & H2 & H3 & H4 & H5 & H6). exists (S d), u, v. repeat split; cbn [length nth_error]; auto; [lia|].
    intros [|i] Hi; [reflexivity|]. apply H6. lia.
Qed.
Lemma prefix_stop fuel : forall buf cur step len j d x y, (d - j < fuel)%nat -> (j <= d)%nat -> Z.of_nat d < len ->
  (forall i, (i < d)%nat -> exists z, rd buf (cur + Z.of_nat i) = Ok z /\ rd buf (cur + Z.of_nat i - step) = Ok z) ->
  rd buf (cur + Z.of_nat d) = Ok x -> rd buf (cur + Z.of_nat d - step) = Ok y -> x <> y ->
  prefix_loop fuel buf cur step len (Z.of_nat j) = Ok (Z.of_nat d).
Proof.
  induction fuel as [|k IH]; intros buf cur step len j d x y Hf Hj Hd HI Hx Hy Hne; [lia|]. cbn [prefix_loop].
  destruct (Nat.eq_dec j d) as [->|N].
  - rewrite Hx, Hy. cbn [rbind]. destruct (Z.eqb_spec x y); [contradiction|]. reflexivity.
  - destruct (HI j ltac:(lia)) as (z & E1 & E2). rewrite E1, E2. cbn [rbind]. rewrite Z.eqb_refl. destruct (Z.ltb_spec (Z.of_nat j) len); [|lia]. cbn [andb].
    replace (Z.of_nat j + 1) with (Z.of_nat (S j)) by lia. apply (IH buf cur step len (S j) d x y); auto; lia.
Qed.
Lemma zeros_total fuel : forall buf cur len j, 1 <= j <= len + 1 -> len + 1 - j < Z.of_nat fuel ->
  (forall i, 1 <= i <= len + 1 -> exists z, rd buf (cur + len - i) = Ok z) -> exists j', zeros_loop fuel buf cur len j = Ok j'.
Proof.
  induction fuel as [|k IH]; intros buf cur len j Hj Hf HI; [lia|]. cbn [zeros_loop]. destruct (HI j Hj) as [z ->]. cbn [rbind].
  destruct (Z.eqb_spec z 0); cbn [andb]; [|eexists; reflexivity]. destruct (Z.leb_spec j len); [|eexists; reflexivity]. apply IH; auto; lia.
Qed.
Lemma rd_in (l : list Z) i : 0 <= i < zlen l -> exists z, rd l i = Ok z.
Proof.
  intros H. destruct (nth_error l (Z.to_nat i)) as [z|] eqn:E; [exists z; now apply rd_ok|]. apply nth_error_None in E. unfold zlen in H. lia.
Qed.

Lemma pack_recs_total recs : forall first primary len datasize pre extra page curp plen maxn,
  0 < len < 2^15 -> datasize <= 2^16 -> Forall (rec_ok len) recs -> 0 <= plen < datasize ->
  (first = true /\ sorted (map snd recs) \/ first = false /\ exists pre' q, pre = pre' ++ q /\ zlen q = len /\ bytes_ok q /\ sorted (q :: map snd recs)) ->
  zlen page = datasize + 30 -> curp = datasize + 30 - plen ->
  exists r, pack_recs (length recs) first primary len datasize (pre ++ flat recs ++ extra) (zlen pre) page curp plen maxn = Ok r /\
    (plen + len * zlen recs < datasize -> r <> None).
Proof.
  induction recs as [|[num key] recs IH]; intros first primary len datasize pre extra page curp plen maxn Hlen Hds HR Hpl Hprev Hpg Hcp.
  - eexists. split; [reflexivity|]. discriminate.
  - inversion HR as [|? ? [HRn [HRk HRb]] HR']; subst. cbn [fst snd] in *. cbn [length pack_recs]. rewrite flat_cons.
    assert (HL4 : forall v, zlen (le_bytes 4 v) = 4) by (intros v; unfold zlen; now rewrite le_bytes_length).
    assert (E4 : rdn (pre ++ (le_bytes 4 num ++ key ++ flat recs) ++ extra) (zlen pre) 4 = Ok (le_bytes 4 num)).
    { rewrite rdn_ok by (pose proof (zlen_nonneg pre); pose proof (zlen_nonneg extra); pose proof (zlen_nonneg (key ++ flat recs)); rewrite ?zlen_app, ?HL4 in *; lia).
      unfold zlen. rewrite Nat2Z.id. rewrite <- !app_assoc. rewrite <- (le_bytes_length 4 num) at 2. now rewrite sub_mid. }
    rewrite E4. cbn [rbind]. rewrite le_val_bytes, Z.mod_small by exact HRn.
    set (buf := pre ++ (le_bytes 4 num ++ key ++ flat recs) ++ extra) in *. set (pre2 := pre ++ le_bytes 4 num).
    assert (EB : buf = pre2 ++ key ++ (flat recs ++ extra)) by (unfold buf, pre2; now rewrite <- !app_assoc).
    assert (EC : zlen pre + 4 = zlen pre2) by (unfold pre2; rewrite zlen_app, HL4; reflexivity). rewrite EC.
    assert (HPre2 : 4 <= zlen pre2) by (rewrite <- EC; pose proof (zlen_nonneg pre); lia).
    assert (HBl : zlen pre2 + zlen key <= zlen buf) by (rewrite EB, !zlen_app; pose proof (zlen_nonneg (flat recs)); pose proof (zlen_nonneg extra); lia).
    destruct (zeros_total (S (Z.to_nat (zlen key))) buf (zlen pre2) (zlen key) 1 ltac:(lia) ltac:(lia)) as [jz EZ].
    { intros i Hi. apply rd_in. lia. }
    pose proof EZ as EZ'. apply zeros_some in EZ'; [|lia|intros; lia]. destruct EZ' as [HZ1 HZ2].
    assert (HL : exists lft, (if first then Ok 0 else prefix_loop (S (Z.to_nat (zlen key))) buf (zlen pre2) (zlen key + 4) (zlen key) 0) = Ok lft /\ 0 <= lft /\ lft + (jz - 1) <= zlen key).
    { destruct Hprev as [[-> _]|[-> (pre' & q & Epre & Eq1 & Hqok & [Hlt _])]].
      - exists 0. split; [reflexivity|]. lia.
      - destruct (key_lt_diff q key Hqok Hlt) as (d & x & y & D1 & D2 & D3 & D4 & D5 & D6). exists (Z.of_nat d).
        assert (T1 : forall i z, nth_error key i = Some z -> rd buf (zlen pre2 + Z.of_nat i) = Ok z) by (intros i z Hz; rewrite EB; now apply rd_at).
        assert (T2 : forall i z, nth_error q i = Some z -> rd buf (zlen pre2 + Z.of_nat i - (zlen key + 4)) = Ok z).
        { intros i z Hz. replace (zlen pre2 + Z.of_nat i - (zlen key + 4)) with (zlen pre' + Z.of_nat i) by (rewrite <- EC, Epre, zlen_app; lia).
          unfold buf. rewrite Epre, <- (app_assoc pre' q). now apply rd_at. }
        split; [|split; [lia|]].
        + change 0 with (Z.of_nat 0). apply (prefix_stop _ _ _ _ _ 0 d y x); [unfold zlen; lia|lia|unfold zlen; lia| |now apply T1|now apply T2|lia].
          intros i Hi. destruct (nth_error key i) as [z|] eqn:Ei; [|apply nth_error_None in Ei; lia]. exists z. split; [now apply T1|]. apply T2. now rewrite D6.
        + destruct (Z.le_gt_cases (Z.of_nat d + (jz - 1)) (zlen key)) as [|K]; [assumption|]. exfalso.
          specialize (HZ2 (zlen key - Z.of_nat d) ltac:(unfold zlen in *; lia)). replace (zlen pre2 + zlen key - (zlen key - Z.of_nat d)) with (zlen pre2 + Z.of_nat d) in HZ2 by lia.
          specialize (T1 d y D3). apply rd_some in T1. destruct T1 as [_ T1]. rewrite T1 in HZ2. injection HZ2 as ->. lia. }
    destruct HL as (lft & -> & HL1 & HL2). cbn [rbind]. rewrite EZ. cbn [rbind]. destruct (Z.ltb_spec (zlen key) (lft + (jz - 1))); [lia|]. cbn [rbind].
    set (rgt := jz - 1) in *. set (j := zlen key - lft - rgt) in *.
    assert (Hj : u32 (plen + j) = plen + j) by (unfold u32; apply Z.mod_small; lia). rewrite Hj.
    destruct (Z.leb_spec datasize (plen + j)) as [HP|HP].
    { exists None. split; [reflexivity|]. rewrite zlen_cons. pose proof (zlen_nonneg recs). intros. exfalso. nia. }
    rewrite rdn_ok by lia. cbn [rbind]. set (m := sub buf _ _).
    assert (Hm : zlen m = j) by (unfold m, zlen; rewrite sub_length; unfold zlen in *; lia).
    unfold wrn. rewrite Hm. destruct (Z.ltb_spec (datasize + 30 - plen - j) 0); [lia|].
    destruct (Z.ltb_spec (zlen page) (datasize + 30 - plen - j + j)); [lia|]. cbn [orb rbind].
    assert (EB2 : buf = (pre2 ++ key) ++ flat recs ++ extra) by (rewrite EB, <- app_assoc; reflexivity).
    assert (EC2 : zlen pre2 + zlen key = zlen (pre2 ++ key)) by (rewrite zlen_app; reflexivity). rewrite EB2, EC2.
    set (page1 := splice page (Z.to_nat (datasize + 30 - plen - j)) m).
    assert (Hp1 : zlen page1 = datasize + 30). { unfold page1, zlen. rewrite splice_length; [exact Hpg|]. unfold zlen in *. lia. }
    destruct (IH false primary (zlen key) datasize (pre2 ++ key) extra page1 (datasize + 30 - plen - j) (plen + j) (if maxn <? num then num else maxn) Hlen Hds HR' ltac:(lia)) as (r & Er & Hr); [|exact Hp1|lia|].
    { right. split; [reflexivity|]. exists pre2, key. split; [reflexivity|]. split; [reflexivity|]. split; [exact HRb|].
      destruct Hprev as [[_ HS]|[_ (pre' & q & _ & _ & _ & HS)]]; cbn [map snd] in HS; [exact HS|apply HS]. }
    rewrite Er. cbn [rbind]. destruct r as [[[[ps pg] pl] mx]|].
    + eexists. split; [reflexivity|]. discriminate.
    + eexists. split; [reflexivity|]. intros Hfit. exfalso. rewrite zlen_cons in Hfit. apply Hr; [nia|reflexivity].
Qed.

Lemma pack_total_any primary len pagesize recs extra page :
  0 < len < 2^15 -> 30 < pagesize <= 2^16 -> zlen page = pagesize -> Forall (rec_ok len) recs -> zlen recs < 2^28 -> sorted (map snd recs) ->
  exists page' b, pack_leafpage primary len pagesize (flat recs ++ extra) (length recs) page = Ok (page', b) /\ (30 + (len + 8) * zlen recs < pagesize -> b = true).
Proof.
  intros Hlen Hps Hpg HR Hn HS. unfold pack_leafpage.
  assert (Hz : zlen (repeat 0 (Z.to_nat (pagesize - 30))) = pagesize - 30) by (unfold zlen; rewrite repeat_length; lia).
  unfold wrn at 1. rewrite Hz. destruct (Z.ltb_spec 30 0); [lia|]. destruct (Z.ltb_spec (zlen page) (30 + (pagesize - 30))); [lia|]. cbn [orb rbind].
  set (pz := splice page _ _). assert (Hpz : zlen pz = pagesize) by (unfold pz, zlen in *; rewrite splice_length; [exact Hpg|rewrite repeat_length; change (Z.to_nat 30) with 30%nat; lia]).
  destruct (pack_recs_total recs true primary len (pagesize - 30) [] extra pz pagesize 0 0 Hlen ltac:(lia) HR ltac:(lia) ltac:(left; auto) ltac:(lia) ltac:(lia)) as (r & Er & Hr).
  change ([] ++ flat recs ++ extra) with (flat recs ++ extra) in Er. change (zlen (@nil Z)) with 0 in Er. rewrite Er. cbn [rbind].
  destruct r as [[[[ps pg1] plen] maxn]|].
  2:{ exists pz, false. split; [reflexivity|]. intros Hf. exfalso. apply Hr; [|reflexivity]. pose proof (zlen_nonneg recs). nia. }
  pose proof (pack_recs_ok recs true primary len (pagesize - 30) [] extra pz pagesize 0 0 ps pg1 plen maxn None) as HK.
  destruct HK as (mids & M1 & M2 & M3 & M4 & M5 & M6 & M7); [lia|lia|exact HR|lia|lia|left; auto|lia|lia|exact Er|].
  destruct (bits_ok len ltac:(lia)) as (L1 & L2 & L3). specialize (L3 ltac:(lia)). assert (L4 : bits len <= 15) by (apply bits_le; lia).
  destruct (bits_ok maxn ltac:(lia)) as (X1 & X2 & _). cbv zeta. set (lb := bits len) in *. set (rbt := (bits maxn + lb + lb + 7) / 8) in *.
  assert (HRB : 8 * rbt <= bits maxn + lb + lb + 7 < 8 * rbt + 8).
  { unfold rbt. pose proof (Z.div_mod (bits maxn + lb + lb + 7) 8 ltac:(lia)). pose proof (Z.mod_pos_bound (bits maxn + lb + lb + 7) 8 ltac:(lia)). lia. }
  assert (HRB2 : 1 <= rbt <= 8) by lia. change (Z.of_nat (length recs)) with (zlen recs). clearbody rbt.
  pose proof (zlen_nonneg recs) as Hr0. rewrite Z.add_0_l in M2. pose proof (zlen_nonneg (concat mids)) as Hm0.
  assert (Hrn : 0 <= rbt * zlen recs <= 8 * zlen recs) by (clear - HRB2 Hr0; nia).
  assert (U2 : u32 (u32 (rbt * zlen recs) + plen) = rbt * zlen recs + plen) by (unfold u32; rewrite (Z.mod_small (rbt * zlen recs)) by lia; apply Z.mod_small; lia).
  rewrite U2. clear U2.
  assert (HTm : length (concat (rev mids)) = Z.to_nat plen) by (rewrite len_total, M2; unfold zlen; lia).
  replace (skipn (Z.to_nat pagesize) pz) with (@nil Z) in M4 by (symmetry; apply skipn_all2; unfold zlen in *; lia). rewrite app_nil_r in M4.
  replace (zlen (concat mids)) with plen in M4 by lia.
  assert (Hpg1 : length pg1 = Z.to_nat pagesize) by (rewrite M4, app_length, firstn_length, HTm; unfold zlen in *; lia).
  assert (HMid : zlen (concat mids) <= len * zlen recs).
  { clear - M1 Hlen. revert M1. generalize (@None (list Z)). revert ps mids. induction recs as [|[n k] recs IH]; intros ps mids prev HP; destruct ps as [|p ps]; destruct mids as [|m mids]; try solve [destruct HP]; [cbn; lia|].
    destruct HP as (_ & P2 & P3 & P4 & _ & _ & -> & HP). specialize (IH ps mids _ HP). cbn [concat]. rewrite zlen_app, zlen_cons.
    assert (zlen (sub k (Z.to_nat (pr_lft p)) (Z.to_nat (len - pr_lft p - pr_rgt p))) <= len) by (unfold zlen, sub; rewrite firstn_length; lia). lia. }
  destruct (Z.ltb_spec (pagesize - 30) (rbt * zlen recs + plen)) as [HF|HF].
  { exists pg1, false. split; [reflexivity|]. intros. exfalso. nia. }
  match goal with |- context [wrn pg1 0 ?h] => assert (EH : zlen h = 30) by (unfold zlen; rewrite header_len by (rewrite Hpg1; lia); reflexivity); set (hh := h) in * end.
  unfold wrn at 1. rewrite EH. change (0 <? 0) with false.
  destruct (Z.ltb_spec (zlen pg1) (0 + 30)); [unfold zlen in *; lia|]. cbn [orb rbind]. change 30 with (Z.of_nat 30) at 1.
  rewrite put_entries_ok; [cbn [rbind]; eexists; exists true; split; [reflexivity|auto]|lia|].
  rewrite splice_length by (unfold zlen in *; lia). rewrite Hpg1, M7. unfold zlen in *. nia.
Qed.
Lemma pack_total primary len pagesize recs extra page :
  0 < len < 2^15 -> 30 < pagesize <= 2^16 -> zlen page = pagesize -> bytes_ok page -> Forall (rec_ok len) recs -> zlen recs < 2^28 -> sorted (map snd recs) ->
  exists page' b, pack_leafpage primary len pagesize (flat recs ++ extra) (length recs) page = Ok (page', b) /\ (30 + (len + 8) * zlen recs < pagesize -> b = true).
Proof. intros H1 H2 H3 _. now apply pack_total_any. Qed.

(** ** Equal keys at the end of the buffer *)
Lemma prefix_equal fuel : forall buf cur step len j, (Z.to_nat (len - Z.of_nat j) < fuel)%nat -> Z.of_nat j <= len ->
  (forall i, Z.of_nat i < len -> exists z, rd buf (cur + Z.of_nat i) = Ok z /\ rd buf (cur + Z.of_nat i - step) = Ok z) ->
  rd buf (cur + len) = UB -> prefix_loop fuel buf cur step len (Z.of_nat j) = UB.
Proof.
  induction fuel as [|k IH]; intros buf cur step len j Hf Hj HI HU; [lia|]. cbn [prefix_loop]. destruct (Z.eq_dec (Z.of_nat j) len) as [E|E].
  - rewrite E, HU. reflexivity.
  - destruct (HI j ltac:(lia)) as (z & -> & ->). cbn [rbind]. rewrite Z.eqb_refl. destruct (Z.ltb_spec (Z.of_nat j) len); [|lia]. cbn [andb].
    replace (Z.of_nat j + 1) with (Z.of_nat (S j)) by lia. apply IH; auto; lia.
Qed.
Lemma equal_keys primary len pagesize n1 n2 key page : 0 < len < 2^15 -> 30 + len < pagesize <= 2^16 -> zlen page = pagesize -> rec_ok len (n1, key) -> rec_ok len (n2, key) ->
  pack_leafpage primary len pagesize (flat [(n1, key); (n2, key)]) 2 page = UB.
Proof.
  intros Hlen Hps Hpg (H1 & Hk & Hkb) (H2 & _). cbn [fst snd] in *. unfold pack_leafpage.
  assert (Hz : zlen (repeat 0 (Z.to_nat (pagesize - 30))) = pagesize - 30) by (unfold zlen; rewrite repeat_length; lia).
  unfold wrn at 1. rewrite Hz. destruct (Z.ltb_spec 30 0); [lia|]. destruct (Z.ltb_spec (zlen page) (30 + (pagesize - 30))); [lia|]. cbn [orb rbind].
  set (pz := splice page _ _). assert (Hpz : zlen pz = pagesize) by (unfold pz, zlen in *; rewrite splice_length; [exact Hpg|rewrite repeat_length; change (Z.to_nat 30) with 30%nat; lia]).
  rewrite !flat_cons. change (flat []) with (@nil Z). rewrite app_nil_r.
  assert (HL4 : forall v, length (le_bytes 4 v) = 4%nat) by (intros v; apply le_bytes_length).
  set (buf := le_bytes 4 n1 ++ key ++ le_bytes 4 n2 ++ key).
  assert (Hbuf : zlen buf = 2 * len + 8) by (unfold buf; rewrite !zlen_app; unfold zlen in *; rewrite !HL4; lia).
  cbn [pack_recs]. rewrite rdn_ok by lia. cbn [rbind]. change (Z.to_nat 0) with 0%nat. change (0 + 4) with 4.
  destruct (zeros_total (S (Z.to_nat len)) buf 4 len 1 ltac:(lia) ltac:(lia)) as [jz EZ]. { intros i Hi. apply rd_in. lia. }
  rewrite EZ. cbn [rbind]. apply zeros_some in EZ; [|lia|intros; lia]. destruct EZ as [HZ1 _]. rewrite Z.add_0_l. destruct (Z.ltb_spec len (jz - 1)); [lia|]. cbn [rbind].
  rewrite Z.sub_0_r. assert (Hj : u32 (0 + (len - (jz - 1))) = len - (jz - 1)) by (unfold u32; rewrite Z.add_0_l; apply Z.mod_small; lia). rewrite Hj.
  destruct (Z.leb_spec (pagesize - 30) (len - (jz - 1))); [lia|]. rewrite (rdn_ok buf (4 + 0)) by lia. cbn [rbind]. set (m := sub buf _ _).
  assert (Hm : zlen m = len - (jz - 1)) by (unfold m, zlen; rewrite sub_length; unfold zlen in *; lia).
  unfold wrn. rewrite Hm. destruct (Z.ltb_spec (pagesize - (len - (jz - 1))) 0); [lia|].
  destruct (Z.ltb_spec (zlen pz) (pagesize - (len - (jz - 1)) + (len - (jz - 1)))); [lia|]. cbn [orb rbind].
  rewrite rdn_ok by lia. cbn [rbind].
  rewrite (prefix_equal _ _ _ _ _ 0); [reflexivity|lia|lia| |].
  - intros i Hi. destruct (nth_error key i) as [z|] eqn:Ei; [|apply nth_error_None in Ei; unfold zlen in *; lia]. exists z. split.
    + replace (4 + len + 4 + Z.of_nat i) with (zlen (le_bytes 4 n1 ++ key ++ le_bytes 4 n2) + Z.of_nat i) by (rewrite !zlen_app; unfold zlen in *; rewrite !HL4; lia).
      unfold buf. replace (le_bytes 4 n1 ++ key ++ le_bytes 4 n2 ++ key) with ((le_bytes 4 n1 ++ key ++ le_bytes 4 n2) ++ key ++ []) by (rewrite app_nil_r, <- !app_assoc; reflexivity).
      now apply rd_at.
    + replace (4 + len + 4 + Z.of_nat i - (len + 4)) with (zlen (le_bytes 4 n1) + Z.of_nat i) by (unfold zlen; rewrite HL4; lia). unfold buf. now apply rd_at.
  - unfold rd. destruct (Z.ltb_spec (4 + len + 4 + len) 0); [reflexivity|]. replace (nth_error buf (Z.to_nat (4 + len + 4 + len))) with (@None Z); [reflexivity|].
    symmetry. apply nth_error_None. unfold zlen in *. lia.
Qed.

(** ** A full page is read behind its end *)
Lemma unpack_recs_over recs : forall ps mids prev page A B C D rbt lb nb len,
  0 < len < 2 ^ lb -> 0 <= lb <= 15 -> 0 <= nb -> nb + lb + lb = 8 * rbt -> 0 <= rbt <= 8 -> Forall (fun p => 0 <= pr_num p < 2 ^ nb) ps -> Forall (rec_ok len) recs ->
  packed len prev recs ps mids -> bytes_ok page ->
  page = A ++ concat (map (ent rbt lb nb) ps) ++ B -> page = C ++ concat (rev mids) ++ D -> ps <> [] -> zlen page < zlen A + rbt * (zlen ps - 1) + 8 ->
  unpack_recs (length recs) page (zlen A) (zlen (C ++ concat (rev mids))) len rbt (mask nb) (mask lb) (mask lb) nb lb prev = UB.
Proof.
  induction recs as [|[num key] recs IH]; intros ps mids prev page A B C D rbt lb nb len Hlen Hlb Hnb Hs Hrb Hps HR HP Hok EA EC Hne HB.
  { destruct ps; [congruence|destruct HP]. }
  destruct ps as [|p ps]; [congruence|]. destruct mids as [|m mids]; [destruct HP|]. cbn [packed] in HP. destruct HP as (P1 & P2 & P3 & P4 & P5 & P6 & P7 & P8).
  inversion Hps as [|? ? Hp Hps']; subst x l. inversion HR as [|? ? [HRn [HRk HRb]] HR']; subst x l. cbn [fst snd] in *.
  pose proof (zlen_nonneg A) as HA0. rewrite zlen_cons in HB. pose proof (zlen_nonneg ps) as Hps0.
  cbn [length unpack_recs]. destruct (Z.le_gt_cases (zlen A + 8) (zlen page)) as [HIn|HOut].
  2:{ unfold rdn. destruct (Z.ltb_spec (zlen A) 0); [lia|]. destruct (Z.ltb_spec 8 0); [lia|]. destruct (Z.ltb_spec (zlen page) (zlen A + 8)); [reflexivity|lia]. }
  rewrite rdn_ok by lia. cbn [rbind]. set (e := sub page (Z.to_nat (zlen A)) (Z.to_nat 8)).
  assert (He : zlen e = 8) by (unfold e, zlen; rewrite sub_length; unfold zlen in *; lia).
  assert (Hf : firstn (Z.to_nat rbt) e = le_bytes (Z.to_nat rbt) (entry lb nb p)).
  { unfold e, sub. rewrite firstn_firstn, Nat.min_l by lia. rewrite EA. unfold zlen. rewrite Nat2Z.id. rewrite skipn_app, skipn_all, Nat.sub_diag. cbn [app skipn map concat].
    rewrite <- app_assoc. rewrite firstn_app, ent_len, Nat.sub_diag by exact Hrb. cbn [firstn]. rewrite app_nil_r.
    rewrite firstn_all2 by (rewrite ent_len by exact Hrb; lia). unfold ent. rewrite firstn_le_bytes by lia. reflexivity. }
  destruct (decode lb nb p rbt e Hlb Hnb ltac:(lia) ltac:(lia) Hp ltac:(lia) Hs Hrb He (bytes_ok_sub _ _ _ Hok) Hf) as (D1 & D2 & D3).
  rewrite D1, D2, D3. destruct (Z.ltb_spec len (pr_lft p + pr_rgt p)); [lia|].
  assert (Ea : (if pr_lft p =? 0 then Ok [] else match prev with None => UB | Some q => rdn q 0 (pr_lft p) end) = Ok (firstn (Z.to_nat (pr_lft p)) key)).
  { destruct (Z.eqb_spec (pr_lft p) 0) as [E|E]; [rewrite E; reflexivity|]. destruct P5 as [|(q & -> & Eq & Ef)]; [contradiction|].
    rewrite rdn_ok by lia. change (Z.to_nat 0) with 0%nat. rewrite sub_0_firstn. now rewrite Ef. }
  rewrite Ea. cbn [rbind]. set (j := len - pr_lft p - pr_rgt p) in *.
  assert (Hm : zlen m = j) by (rewrite P7; unfold zlen; rewrite sub_length; unfold zlen in *; lia).
  rewrite concat_rev_cons in EC. rewrite concat_rev_cons.
  assert (Ei : zlen (C ++ concat (rev mids) ++ m) - j = zlen (C ++ concat (rev mids))) by (rewrite app_assoc, zlen_app, Hm; lia). rewrite Ei.
  assert (Eb : rdn page (zlen (C ++ concat (rev mids))) j = Ok m).
  { rewrite rdn_ok; [|apply zlen_nonneg|lia|rewrite EC, !zlen_app, Hm; pose proof (zlen_nonneg D); lia].
    rewrite EC. rewrite <- (app_assoc (concat (rev mids))). rewrite app_assoc. unfold zlen at 1. rewrite Nat2Z.id. rewrite <- Hm. unfold zlen. rewrite Nat2Z.id. now rewrite sub_mid. }
  rewrite Eb. cbn [rbind].
  assert (EK : firstn (Z.to_nat (pr_lft p)) key ++ m ++ repeat 0 (Z.to_nat (pr_rgt p)) = key) by (rewrite P7; unfold j; apply key_parts; auto). rewrite EK.
  replace (zlen A + rbt) with (zlen (A ++ ent rbt lb nb p)) by (rewrite zlen_app; unfold zlen; rewrite ent_len by exact Hrb; lia).
  destruct ps as [|p2 ps]. { exfalso. change (zlen (@nil prec)) with 0 in HB. lia. }
  rewrite (IH (p2 :: ps) mids (Some key) page (A ++ ent rbt lb nb p) B C (m ++ D) rbt lb nb len); auto; [| |discriminate|].
  - rewrite EA. cbn [map concat]. rewrite <- !app_assoc. reflexivity.
  - rewrite EC. rewrite <- !app_assoc. reflexivity.
  - rewrite zlen_app. unfold zlen at 3. rewrite ent_len by exact Hrb. rewrite Z2Nat.id by lia. rewrite zlen_cons in *. nia.
Qed.
Lemma full_page primary len pagesize recs extra page page' :
  0 < len < 2^15 -> 30 < pagesize <= 2^16 -> zlen page = pagesize -> bytes_ok page -> Forall (rec_ok len) recs -> zlen recs < 2^28 -> recs <> [] ->
  pack_leafpage primary len pagesize (flat recs ++ extra) (length recs) page = Ok (page', true) ->
  pagesize < 30 + hd_field page' 28 2 * (zlen recs - 1) + 8 -> unpack_leafpage len pagesize page' = UB.
Proof.
  intros Hlen Hps Hpg Hok HR Hn Hne E HB.
  destruct (pack_layout _ _ _ _ _ _ _ Hlen Hps Hpg Hok HR Hn E) as (ps & mids & rbt & nb & free & G & H1 & H2 & H3 & H4 & H5 & H6 & H7 & H8 & H9 & H10 & H11). cbv zeta in *.
  destruct (bits_ok len ltac:(lia)) as (L1 & L2 & L3). specialize (L3 ltac:(lia)). assert (L4 : bits len <= 15) by (apply bits_le; lia).
  set (lb := bits len) in *. clearbody lb.
  assert (H12 : (12 <= length page)%nat) by (unfold zlen in *; lia).
  pose proof (header_fields page (concat (map (ent rbt lb nb) ps) ++ G ++ concat (rev mids)) (zlen recs) free (mask nb) (mask lb) (mask lb) nb lb lb rbt H12) as HF. cbv zeta in HF.
  rewrite <- H7 in HF. destruct HF as (F1 & F2 & F3 & F4 & F5 & F6 & F7 & F8 & F9 & F10).
  pose proof (zlen_nonneg G). pose proof (zlen_nonneg (concat (rev mids))). pose proof (zlen_nonneg recs).
  rewrite Z.mod_small in F8 by lia. rewrite Z.mod_small in F7 by lia. rewrite Z.mod_small in F6 by lia. rewrite Z.mod_small in F2 by nia.
  rewrite mask_small32 in F3 by lia. rewrite mask_ok, Z.min_l, ones_small in F4 by lia. rewrite mask_ok, Z.min_l, ones_small in F5 by lia.
  assert (EM : mask lb = Z.ones lb) by (rewrite mask_ok, Z.min_l by lia; reflexivity). rewrite <- EM in F4, F5.
  unfold unpack_leafpage. destruct (Z.eqb_spec len 0); [lia|]. rewrite F1. change (Z.land 2 2 =? 0) with false. cbv iota.
  rewrite F2, F3, F4, F5, F6, F7, F8. unfold zlen at 1. rewrite Nat2Z.id.
  set (HD := header page (zlen recs) free (mask nb) (mask lb) (mask lb) nb lb lb rbt) in *.
  assert (HHl : zlen HD = 30) by (unfold zlen, HD; rewrite header_len by exact H12; reflexivity).
  rewrite <- HHl at 1.
  replace pagesize with (zlen ((HD ++ concat (map (ent rbt lb nb) ps) ++ G) ++ concat (rev mids))) at 1.
  2:{ rewrite <- H8, H7. rewrite <- !app_assoc. reflexivity. }
  apply (unpack_recs_over recs ps mids None page' HD (G ++ concat (rev mids)) (HD ++ concat (map (ent rbt lb nb) ps) ++ G) []); auto; try lia.
  - rewrite H7, app_nil_r, <- !app_assoc. reflexivity.
  - intros ->. destruct recs; [congruence|discriminate].
  - rewrite H8, HHl. replace (zlen ps) with (zlen recs) by (unfold zlen; lia). rewrite F8 in HB. lia.
Qed.
