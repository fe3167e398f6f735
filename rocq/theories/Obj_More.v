(** Rejected ranges, the object held in memory, saving to a file, file offsets. *)
From Verif Require Import Prelude Lists Obj_Model Obj_Spec Obj_Proofs.
Ltac Zify.zify_post_hook ::= idtac.

Lemma range_out ps f st n len tabs dp o start m buf : stored ps f st n len tabs dp -> opened f o n len tabs dp ->
  0 <= start -> 0 <= m -> start + m < 2^64 -> Z.of_nat len < start + m -> get_range (Z.of_nat ps) st o start m buf = Throw.
Proof.
  intros Hs (Hb & Hd & Ho) H1 H2 H3 H4. unfold get_range. rewrite Hd. unfold u64. rewrite (Z.mod_small (start + m)) by lia.
  destruct f.
  - destruct Ho as (-> & -> & _). destruct (Z.ltb_spec (Z.of_nat len) (start + m)); [reflexivity|lia].
  - destruct Ho as (-> & _ & -> & _). destruct (Z.ltb_spec (Z.of_nat len) (start + m)); [reflexivity|lia].
  - destruct Ho as (-> & _ & -> & _). destruct (Z.ltb_spec (Z.of_nat len) (start + m)); [reflexivity|lia].
  - destruct Ho as (-> & -> & _). rewrite Z.mod_small by lia. destruct (Z.ltb_spec (Z.of_nat len) (start + m)); [reflexivity|lia].
Qed.
Lemma range_mem ps st o d start m buf : o_data o = Some d -> (start + m <= length d)%nat ->
  get_range ps st o (Z.of_nat start) (Z.of_nat m) buf = Ok (sub d start m).
Proof. intros H Hr. unfold get_range. rewrite H, rdn_ok by (unfold zlen; lia). now rewrite !Nat2Z.id. Qed.

Lemma opened_len ps f st n len tabs dp o : stored ps f st n len tabs dp -> opened f o n len tabs dp -> obj_len o = Z.of_nat len /\ Z.of_nat len < 2^63.
Proof.
  intros (Hst & Hby & H32 & Hm4 & H17 & Hdp & Hpg & h & Hh & Hf) (Hb & Hd & Ho). unfold obj_len.
  pose proof (groups_spec len ps ltac:(lia)) as Hg. rewrite <- Hdp in Hg.
  destruct f.
  - destruct Ho as (-> & -> & _), Hf as (_ & _ & _ & [Hl _] & _). lia.
  - destruct Ho as (-> & _ & -> & _), Hf as (_ & _ & _ & Ht & _). pose proof (quarter ps Hm4) as Hq.
    destruct (flat_bound ps (ps / 4) len (length dp) H17 Hq Ht ltac:(lia)) as [Hx Hy]. lia.
  - destruct Ho as (-> & _ & -> & _), Hf as (_ & _ & _ & Hl & _). lia.
  - destruct Ho as (-> & -> & _), Hf as (_ & _ & _ & _ & Hl & _). unfold u64. rewrite Z.mod_small by lia. lia.
Qed.

Lemma save_loop_ok ps f st n len tabs dp o buf : stored ps f st n len tabs dp -> opened f o n len tabs dp ->
  forall fuel off, (len - off < fuel)%nat -> 
  save_loop fuel (Z.of_nat ps) st o buf (Z.of_nat len) (Z.of_nat off) (u64 (Z.of_nat len - Z.of_nat off)) = Ok (sub (content st dp len) off (len - off)).
Proof.
  intros Hs Hop. pose proof (proj2 (opened_len _ _ _ _ _ _ _ _ Hs Hop)) as H63. pose proof (content_len _ _ _ _ _ _ _ Hs) as Hcl.
  assert (H32 : (32 <= ps)%nat) by apply Hs. assert (H17 : Z.of_nat ps < 2^17) by apply Hs.
  induction fuel as [|fuel IH]; intros off Hf; [lia|]. cbn [save_loop].
  destruct (Z.leb_spec (Z.of_nat len) (Z.of_nat off)) as [Hle|Hgt].
  - replace (len - off)%nat with 0%nat by lia. now rewrite sub_nil.
  - unfold u64 at 1. rewrite (Z.mod_small (Z.of_nat len - Z.of_nat off)) by lia.
    set (k := Nat.min (len - off) ps). assert (Hk : u32 (Z.min (Z.of_nat len - Z.of_nat off) (Z.of_nat ps)) = Z.of_nat k) by (unfold u32; rewrite Z.mod_small by lia; lia).
    rewrite Hk. rewrite (range_ok ps f st n len tabs dp o off k) by (assumption || lia). cbn [rbind].
    unfold u64 at 1. rewrite Z.mod_small by lia. replace (Z.of_nat off + Z.of_nat ps) with (Z.of_nat (off + ps)) by lia.
    unfold u64 at 2. unfold u64 at 1. rewrite Zminus_mod_idemp_l. replace (Z.of_nat len - Z.of_nat off - Z.of_nat ps) with (Z.of_nat len - Z.of_nat (off + ps)) by lia.
    fold (u64 (Z.of_nat len - Z.of_nat (off + ps))). rewrite IH by lia. cbn [rbind]. f_equal.
    destruct (Nat.le_gt_cases len (off + ps)) as [Hc|Hc].
    + replace (len - (off + ps))%nat with 0%nat by lia. rewrite sub_nil, app_nil_r. f_equal. lia.
    + replace (len - off)%nat with (k + (len - (off + ps)))%nat by lia. rewrite <- sub_app_split. f_equal. f_equal. lia.
Qed.
Lemma save_ok ps f st n len tabs dp o buf : stored ps f st n len tabs dp -> opened f o n len tabs dp ->
  save_file (Z.of_nat ps) st o buf = Ok (content st dp len).
Proof.
  intros Hs Hop. pose proof (content_len _ _ _ _ _ _ _ Hs) as Hcl. destruct (opened_len _ _ _ _ _ _ _ _ Hs Hop) as [El H63]. unfold save_file. rewrite El. rewrite Nat2Z.id.
  pose proof (save_loop_ok _ _ _ _ _ _ _ o buf Hs Hop (S len) 0 ltac:(lia)) as E. change (Z.of_nat 0) with 0 in E. rewrite Z.sub_0_r in E. unfold u64 in E. rewrite Z.mod_small in E by lia.
  rewrite E. f_equal. rewrite Nat.sub_0_r. rewrite <- Hcl at 2. apply sub_all.
Qed.

(** ** file offsets *)
Lemma concat_byte ps (st : store) b p r : Forall (fun p => length p = ps) st -> nth_error st b = Some p -> (r < ps)%nat ->
  nth_error (concat st) (b * ps + r) = nth_error p r.
Proof.
  intros Hst Hp Hr. rewrite <- (concat_nth st ps b p Hst Hp). rewrite nth_error_sub. destruct (Nat.ltb_spec r ps); [reflexivity|lia].
Qed.
Definition same_fields (o o' : obj) : Prop := o_ty o = o_ty o' /\ o_fat o = o_fat o' /\ o_len o = o_len o' /\ o_blocks o = o_blocks o'.

Lemma offset_ok ps f st n len tabs dp o off a : stored ps f st n len tabs dp -> opened f o n len tabs dp -> u32 off = Z.of_nat a -> (a < len)%nat ->
  exists b p, nth_error dp (a / ps) = Some b /\ page_is st b p /\
    fileoffset (Z.of_nat ps) st o off = Ok (b * Z.of_nat ps + Z.of_nat (a mod ps)) /\
    nth_error (content st dp len) a = nth_error p (a mod ps).
Proof.
  intros (Hst & Hby & H32 & Hm4 & H17 & Hdp & Hpg & h & Hh & Hf) (Hb & Hd & Ho) Ha Hl.
  pose proof (Nat.div_mod a ps ltac:(lia)) as Hdm. pose proof (Nat.mod_upper_bound a ps ltac:(lia)) as Hmb.
  pose proof (groups_lt len ps a ltac:(lia) Hl) as Hc. rewrite <- Hdp in Hc.
  destruct (nth_error dp (a / ps)) as [b|] eqn:Eb; [|apply nth_error_None in Eb; lia].
  assert (Hp : exists p, page_is st b p) by (rewrite Forall_forall in Hpg; apply Hpg; eapply nth_error_In; eauto). destruct Hp as (p & Hp).
  exists b, p. split; [reflexivity|]. split; [exact Hp|]. split.
  2:{ unfold content. rewrite <- sub_0_firstn, nth_error_sub. destruct (Nat.ltb_spec a len); [|lia]. cbn [Nat.add].
      rewrite <- (flat_page ps st Hst dp _ b p Hpg Eb Hp). rewrite nth_error_sub. destruct (Nat.ltb_spec (a mod ps) ps); [|lia]. f_equal. nia. }
  assert (Hz1 : Z.of_nat a / Z.of_nat ps = Z.of_nat (a / ps)) by now rewrite Nat2Z.inj_div.
  set (c := (a / ps)%nat) in *. set (r := (a mod ps)%nat) in *. clearbody c r.
  assert (Hz2 : Z.of_nat a - Z.of_nat c * Z.of_nat ps = Z.of_nat r) by nia.
  assert (Hls : forall per hdr cnt, (0 < per)%nat -> tables st per hdr cnt tabs dp ->
    (do tb <- rd tabs (Z.of_nat c / Z.of_nat per); do t <- get_page st tb; do b0 <- entry t (Z.of_nat hdr) (Z.of_nat c - Z.of_nat c / Z.of_nat per * Z.of_nat per); Ok (b0 * Z.of_nat ps + Z.of_nat r)) = Ok (b * Z.of_nat ps + Z.of_nat r)).
  { intros per hdr cnt Hper Htab. destruct (tables_lists _ _ _ _ _ _ Hper Htab c b Eb) as (t & tp & E1 & E2 & E3).
    rewrite <- Nat2Z.inj_div. rewrite (rd_ok _ _ t); [|apply Nat2Z.is_nonneg|rewrite Nat2Z.id; exact E1]. cbn [rbind]. rewrite (get_page_ok _ _ _ E2). cbn [rbind].
    pose proof (Nat.div_mod c per ltac:(lia)) as Hdm2. replace (Z.of_nat c - Z.of_nat (c / per) * Z.of_nat per) with (Z.of_nat (c mod per)) by nia.
    rewrite E3. reflexivity. }
  assert (Hdir : forall rest, rd (dp ++ rest) (Z.of_nat c) = Ok b).
  { intros rest. rewrite (rd_ok _ _ b); [reflexivity|lia|]. rewrite Nat2Z.id, nth_error_app1 by exact Hc. exact Eb. }
  unfold fileoffset. rewrite Ha. destruct f.
  - destruct Ho as (-> & _ & -> & _), Hf as (Hp4 & _ & _ & _ & _ & _ & Htab). cbv zeta. rewrite <- Hp4, Hz1, Hz2, <- per80_Z. change 4 with (Z.of_nat 4). now apply (Hls _ _ true per80_pos).
  - destruct Ho as (-> & -> & _ & -> & _). cbv zeta. rewrite Hz1, Hz2, Z.eqb_refl. specialize (Hdir []). rewrite app_nil_r in Hdir. rewrite Hdir. reflexivity.
  - destruct Ho as (-> & -> & _ & -> & _), Hf as (_ & _ & _ & _ & _ & _ & Htab). cbv zeta. rewrite Hz1, Hz2. change (1 =? 0) with false. cbv iota.
    pose proof (quarter ps Hm4) as Hq. assert (Hz3 : Z.of_nat ps / 4 = Z.of_nat (ps / 4)) by (rewrite Nat2Z.inj_div; reflexivity). rewrite Hz3. apply (Hls _ 0%nat false); [lia|exact Htab].
  - destruct Ho as (-> & _ & rest & ->), Hf as (Hp4 & _). cbv zeta. rewrite <- Hp4, Hz1, Hz2, Hdir. reflexivity.
Qed.

Lemma place_ok ps f st n len tabs dp o off a : stored ps f st n len tabs dp -> opened f o n len tabs dp -> u32 off = Z.of_nat a -> (a < len)%nat ->
  fileoffset (Z.of_nat ps) st o off = Ok (place ps dp a).
Proof.
  intros Hs Ho Ha Hl. destruct (offset_ok _ _ _ _ _ _ _ o off a Hs Ho Ha Hl) as (b & p & E1 & E2 & E3 & _). rewrite E3. unfold place. now rewrite (nth_error_nth_Z _ _ _ _ E1).
Qed.
Lemma place_byte ps f st n len tabs dp off : stored ps f st n len tabs dp -> (off < len)%nat ->
  0 <= place ps dp off /\ nth_error (concat st) (Z.to_nat (place ps dp off)) = nth_error (content st dp len) off.
Proof.
  intros (Hst & Hby & H32 & Hm4 & H17 & Hdp & Hpg & _) Hl.
  pose proof (Nat.div_mod off ps ltac:(lia)) as Hdm. pose proof (Nat.mod_upper_bound off ps ltac:(lia)) as Hmb.
  pose proof (groups_lt len ps off ltac:(lia) Hl) as Hc. rewrite <- Hdp in Hc.
  destruct (nth_error dp (off / ps)) as [b|] eqn:Eb; [|apply nth_error_None in Eb; lia].
  assert (Hp : exists p, page_is st b p) by (rewrite Forall_forall in Hpg; apply Hpg; eapply nth_error_In; eauto). destruct Hp as (p & Hp).
  unfold place. rewrite (nth_error_nth_Z _ _ _ _ Eb). destruct Hp as [Hr Hp]. split; [lia|].
  replace (Z.to_nat (b * Z.of_nat ps + Z.of_nat (off mod ps))) with (Z.to_nat b * ps + off mod ps)%nat by nia.
  rewrite (concat_byte ps st _ p) by assumption.
  unfold content. rewrite <- sub_0_firstn, nth_error_sub. destruct (Nat.ltb_spec off len); [|lia]. cbn [Nat.add].
  rewrite <- (flat_page ps st Hst dp _ b p Hpg Eb (conj Hr Hp)). rewrite nth_error_sub. destruct (Nat.ltb_spec (off mod ps) ps); [|lia]. f_equal. nia.
Qed.
Lemma place_wrong ps f st n len tabs dp a b : stored ps f st n len tabs dp -> NoDup dp -> (a < len)%nat -> (b < len)%nat -> (a / ps <> b / ps)%nat -> place ps dp a <> place ps dp b.
Proof.
  intros (Hst & Hby & H32 & Hm4 & H17 & Hdp & Hpg & _) Hnd Ha Hb Hne.
  pose proof (groups_lt len ps a ltac:(lia) Ha) as Hca. pose proof (groups_lt len ps b ltac:(lia) Hb) as Hcb. rewrite <- Hdp in *.
  pose proof (Nat.mod_upper_bound a ps ltac:(lia)). pose proof (Nat.mod_upper_bound b ps ltac:(lia)).
  unfold place. set (x := nth (a / ps) dp 0). set (y := nth (b / ps) dp 0). intros E.
  assert (x = y) by (clear - H H0 E; clearbody x y; nia). apply Hne. subst x y. eapply NoDup_nth; eauto.
Qed.
Lemma wrap_pages (ps a : nat) : (0 < ps)%nat -> Z.of_nat ps < 2^17 -> forall b, Z.of_nat a + 2^32 <= Z.of_nat b -> (a / ps <> b / ps)%nat.
Proof.
  intros H0 H1 b Hb E. pose proof (Nat.div_mod a ps ltac:(lia)). pose proof (Nat.div_mod b ps ltac:(lia)). pose proof (Nat.mod_upper_bound a ps ltac:(lia)). pose proof (Nat.mod_upper_bound b ps ltac:(lia)).
  rewrite E in *. set (c := (b / ps)%nat) in *. clearbody c. nia.
Qed.
Lemma offset_wrong ps f st n len tabs dp o off : stored ps f st n len tabs dp -> opened f o n len tabs dp -> NoDup dp -> 2^32 <= Z.of_nat off -> (off < len)%nat ->
  exists x, fileoffset (Z.of_nat ps) st o (Z.of_nat off) = Ok x /\ x <> place ps dp off.
Proof.
  intros Hs Ho Hnd Hoff Hl. assert (Hm : 0 <= u32 (Z.of_nat off) < 2^32) by (apply Z.mod_pos_bound; lia).
  assert (Hd : Z.of_nat off = 2^32 * (Z.of_nat off / 2^32) + u32 (Z.of_nat off)) by (apply Z.div_mod; lia).
  assert (Hq : 1 <= Z.of_nat off / 2^32) by (apply Z.div_le_lower_bound; lia). set (q := Z.of_nat off / 2^32) in *. clearbody q.
  assert (Ha : u32 (Z.of_nat off) = Z.of_nat (Z.to_nat (u32 (Z.of_nat off)))) by lia. set (a := Z.to_nat (u32 (Z.of_nat off))) in *. clearbody a.
  exists (place ps dp a). split; [apply (place_ok ps f st n len tabs dp); try assumption; lia|].
  apply (place_wrong ps f st n len tabs dp); try assumption; try lia. apply wrap_pages; [|apply Hs|lia].
  assert (32 <= ps)%nat by apply Hs. lia.
Qed.

(** ** requests for nothing *)
Lemma range_zero ps f st n len tabs dp o start buf : stored ps f st n len tabs dp -> opened f o n len tabs dp -> (start < len)%nat ->
  get_range (Z.of_nat ps) st o (Z.of_nat start) 0 buf = Ok [].
Proof.
  intros Hs Hop Hl. pose proof (range_ok ps f st n len tabs dp o start 1 buf Hs Hop ltac:(lia) ltac:(lia)) as E1. destruct (opened_len _ _ _ _ _ _ _ _ Hs Hop) as [_ H63].
  destruct Hop as (Hb & Hd & Ho). unfold get_range in *. rewrite Hd in *.
  assert (Hu1 : u64 (Z.of_nat start + 0) = Z.of_nat start) by (unfold u64; rewrite Z.mod_small; lia).
  assert (Hu2 : u64 (Z.of_nat start + Z.of_nat 1) = Z.of_nat start + 1) by (unfold u64; rewrite Z.mod_small; lia).
  rewrite Hu1. rewrite Hu2 in E1.
  assert (Hs2 : forall per hdr bl cur off r, start2 st (Z.of_nat ps) per hdr bl cur off (Z.of_nat 1) = Ok r -> start2 st (Z.of_nat ps) per hdr bl cur off 0 = Ok []).
  { intros per hdr bl cur off r. unfold start2. destruct (rd bl (cur / per)); cbn [rbind]; try discriminate. destruct (get_page st a); cbn [rbind]; try discriminate. intros _. reflexivity. }
  destruct f.
  - destruct Hs as (_ & _ & _ & _ & _ & _ & _ & h & _ & Hp4 & _). rewrite Hp4 in *. destruct Ho as (Ht & Hle & _). rewrite Ht, Hle in *.
    destruct (Z.ltb_spec (Z.of_nat len) (Z.of_nat start + 1)); [discriminate|]. destruct (Z.ltb_spec (Z.of_nat len) (Z.of_nat start)); [lia|]. eapply Hs2. exact E1.
  - destruct Ho as (Ht & Hfa & Hle & _). rewrite Ht, Hfa, Hle in *. destruct (Z.ltb_spec (Z.of_nat len) (Z.of_nat start)); [lia|]. reflexivity.
  - destruct Ho as (Ht & Hfa & Hle & _). rewrite Ht, Hfa, Hle in *.
    destruct (Z.ltb_spec (Z.of_nat len) (Z.of_nat start + 1)); [discriminate|]. destruct (Z.ltb_spec (Z.of_nat len) (Z.of_nat start)); [lia|]. change (1 =? 0) with false in *. cbv iota zeta in *. eapply Hs2. exact E1.
  - destruct Ho as (Ht & Hle & _). rewrite Ht, Hle in *. assert (u64 (Z.of_nat len) = Z.of_nat len) as -> by (unfold u64; rewrite Z.mod_small; lia).
    destruct (Z.ltb_spec (Z.of_nat len) (Z.of_nat start)); [lia|]. reflexivity.
Qed.
Lemma rd_out {A} (l : list A) i : zlen l <= i -> rd l i = UB.
Proof. intros H. unfold rd. destruct (Z.ltb_spec i 0); [reflexivity|]. assert (E : nth_error l (Z.to_nat i) = None) by (apply nth_error_None; unfold zlen in H; lia). now rewrite E. Qed.
Lemma range_end ps f st n len tabs dp o buf k : stored ps f st n len tabs dp -> opened f o n len tabs dp -> f = F80 \/ f = F838_deep -> (len = k * (per_of f ps * ps))%nat ->
  get_range (Z.of_nat ps) st o (Z.of_nat len) 0 buf = UB.
Proof.
  intros Hs Hop Hk He. destruct (opened_len _ _ _ _ _ _ _ _ Hs Hop) as [_ H63].
  destruct Hs as (Hst & Hby & H32 & Hm4 & H17 & Hdp & Hpg & h & Hh & Hf), Hop as (Hb & Hd & Ho).
  unfold get_range. rewrite Hd. rewrite Z.add_0_r. assert (Hu1 : u64 (Z.of_nat len) = Z.of_nat len) by (unfold u64; rewrite Z.mod_small; lia). rewrite Hu1.
  pose proof (quarter ps Hm4) as Hq.
  assert (Hgen : forall per, (0 < per)%nat -> length tabs = groups (length dp) per -> len = (k * (per * ps))%nat -> (Z.of_nat (k * per) < 2^32) -> forall hdr off,
     start2 st (Z.of_nat ps) (Z.of_nat per) hdr tabs (u32 (Z.of_nat len / Z.of_nat ps)) off 0 = UB).
  { intros per Hper Ht Hlen Hc hdr off. unfold start2. assert (E : Z.of_nat len / Z.of_nat ps = Z.of_nat (k * per)).
    { rewrite <- Nat2Z.inj_div. f_equal. rewrite Hlen, Nat.mul_assoc. apply Nat.div_mul. lia. }
    rewrite E. unfold u32. rewrite Z.mod_small by lia. rewrite <- Nat2Z.inj_div, Nat.div_mul by lia.
    rewrite rd_out; [reflexivity|]. unfold zlen. rewrite Ht, Hdp, groups_groups by lia. apply inj_le. rewrite Hlen.
    rewrite <- (groups_unique (k * (per * ps)) (per * ps) k); nia. }
  destruct Hk as [->| ->].
  - destruct Ho as (-> & -> & -> & _), Hf as (Hp4 & _ & _ & [Hl _] & _ & _ & [Ht _]). rewrite Z.ltb_irrefl. cbv zeta. rewrite <- Hp4. rewrite <- per80_Z.
    apply Hgen; [exact per80_pos|exact Ht|exact He|]. cbn [per_of] in He. pose proof per80_pos. nia.
  - destruct Ho as (-> & -> & -> & -> & _), Hf as (_ & _ & _ & _ & Htl & _ & [Ht _]). rewrite Z.ltb_irrefl. change (1 =? 0) with false. cbv iota zeta.
    assert (Hz3 : Z.of_nat ps / 4 = Z.of_nat (ps / 4)) by (rewrite Nat2Z.inj_div; reflexivity). rewrite Hz3.
    cbn [per_of] in He. apply Hgen; [lia|exact Ht|exact He|].
    assert (Hkt : length tabs = k). { rewrite Ht, Hdp, groups_groups by lia. rewrite He. symmetry. apply groups_unique; nia. }
    set (q := (ps / 4)%nat) in *. clearbody q. rewrite Hkt in Htl. assert (Z.of_nat k < 2^15) by lia. assert (Z.of_nat q < 2^15) by lia. nia.
Qed.
