(** Setting a different length never completes, except when a one-level object grows to at
    least four times its pages. *)
From Verif Require Import Prelude Lists Obj_Model Obj_Spec Obj_Proofs Obj_Write Obj_More Alloc_Model Alloc_Spec Alloc_Proofs Alloc_More Alloc_Len.
Ltac Zify.zify_post_hook ::= idtac.

Ltac bind H :=
  repeat match type of H with
  | rbind ?x _ = Ok _ => let E := fresh "E" in destruct x eqn:E; cbn [rbind] in H; try discriminate H
  | (let '(_, _) := ?x in _) = Ok _ => destruct x
  | (match ?x with None => UB | Some _ => _ end) = Ok _ => destruct x; try discriminate H
  end.

Definition gz (per k : Z) : Z := (k + (per - 1)) / per.
Lemma gz_step per k : 0 < per -> gz per (k + 1) = gz per k + (if k mod per =? 0 then 1 else 0).
Proof.
  intros Hp. unfold gz. pose proof (Z.div_mod k per ltac:(lia)) as Hd. pose proof (Z.mod_pos_bound k per Hp) as Hm. set (q := k / per) in *. set (r := k mod per) in *. clearbody q r.
  destruct (Z.eqb_spec r 0) as [->|Hr].
  - replace ((k + 1 + (per - 1)) / per) with (q + 1) by (apply (Z.div_unique_pos _ _ _ 0); lia). replace ((k + (per - 1)) / per) with q by (apply (Z.div_unique_pos _ _ _ (per - 1)); lia). lia.
  - replace ((k + 1 + (per - 1)) / per) with (q + 1) by (apply (Z.div_unique_pos _ _ _ r); lia). replace ((k + (per - 1)) / per) with (q + 1) by (apply (Z.div_unique_pos _ _ _ (r - 1)); lia). lia.
Qed.
Lemma gz_pos per k : 0 < per -> 0 < k -> 0 < gz per k.
Proof. intros Hp Hk. unfold gz. apply Z.div_str_pos. lia. Qed.
Lemma gz_groups n k : (0 < k)%nat -> gz (Z.of_nat k) (Z.of_nat n) = Z.of_nat (groups n k).
Proof. intros H. unfold gz, groups. rewrite Nat2Z.inj_div. f_equal. lia. Qed.

Lemma u32_small x : 0 <= x < 2^32 -> u32 x = x. Proof. intros H. now apply Z.mod_small. Qed.
Lemma u32_nonneg x : 0 <= u32 x. Proof. apply Z.mod_pos_bound. lia. Qed.
Lemma resized_len o n : zlen (o_blocks o) = o_num o -> 0 <= n -> zlen (resized o n) = n.
Proof. intros Ho Hn. unfold resized. destruct (Z.eqb_spec (o_num o) n); [lia|]. unfold zlen. rewrite repeat_length. lia. Qed.

Section Bad.
Variables (slack : Z) (cached : Z -> bool) (ps : Z).

Lemma grow80_num k : forall hd cur num tb st fl st' fl' num', grow80 cached ps k hd cur num tb st fl = Ok (st', fl', num') -> num = gz 1023 cur -> num' = gz 1023 (cur + Z.of_nat k).
Proof.
  induction k as [|k IH]; intros hd cur num tb st fl st' fl' num' H Hn.
  - cbn in H. injection H as _ _ <-. rewrite Z.add_0_r. exact Hn.
  - cbn [grow80] in H. pose proof (gz_step 1023 cur ltac:(lia)) as Hs. replace (cur + Z.of_nat (S k)) with (cur + 1 + Z.of_nat k) by lia.
    destruct (cur mod 1023 =? 0) eqn:Ei.
    + match type of H with rbind ?x _ = _ => destruct x as [[[[sa fa] na] ta]| | |] eqn:Ea; cbn [rbind] in H; try discriminate H end. bind Ea. injection Ea as _ _ <- _. bind H. eapply IH; [exact H|lia].
    + cbn [rbind] in H. bind H. eapply IH; [exact H|lia].
Qed.
Lemma grow838_num k : 0 < ps / 4 -> forall hd cur num tb st fl st' fl' num', grow838 cached ps k hd cur num tb st fl = Ok (st', fl', num') -> num' = num + gz (ps / 4) (cur + Z.of_nat k) - gz (ps / 4) cur.
Proof.
  intros Hp. induction k as [|k IH]; intros hd cur num tb st fl st' fl' num' H.
  - cbn in H. injection H as _ _ <-. rewrite Z.add_0_r. lia.
  - cbn [grow838] in H. pose proof (gz_step (ps / 4) cur ltac:(lia)) as Hs. replace (cur + Z.of_nat (S k)) with (cur + 1 + Z.of_nat k) by lia.
    destruct (cur mod (ps / 4) =? 0) eqn:Ei.
    + match type of H with rbind ?x _ = _ => destruct x as [[[[sa fa] na] ta]| | |] eqn:Ea; cbn [rbind] in H; try discriminate H end. bind Ea. injection Ea as _ _ <- _. bind H. apply IH in H. lia.
    + cbn [rbind] in H. bind H. apply IH in H. lia.
Qed.

Lemma shrink80_num fuel : forall hd cur dst num tb st fl st' fl' num', shrink80 slack cached ps fuel hd cur dst num tb st fl = Ok (st', fl', num') ->
  0 <= dst <= cur + 1 -> cur < 2^32 -> 0 < dst -> num = gz 1023 (cur + 1) -> num' = gz 1023 dst.
Proof.
  induction fuel as [|fuel IH]; intros hd cur dst num tb st fl st' fl' num' H Hd Hc Hp Hn; cbn [shrink80] in H; destruct (Z.ltb_spec cur dst) as [Hlt|Hge].
  - injection H as _ _ <-. replace dst with (cur + 1) by lia. exact Hn.
  - discriminate.
  - injection H as _ _ <-. replace dst with (cur + 1) by lia. exact Hn.
  - pose proof (gz_step 1023 cur ltac:(lia)) as Hs. pose proof (gz_pos 1023 cur ltac:(lia) ltac:(lia)) as Hpos.
    assert (Hle : gz 1023 cur < 2^32) by (unfold gz; apply Z.div_lt_upper_bound; lia).
    bind H. destruct (cur mod 1023 =? 0) eqn:Ei.
    + bind H. destruct (Z.eqb_spec (u64 (num - 1)) 0).
      * exfalso. unfold u64 in *. rewrite Z.mod_small in * by lia. lia.
      * bind H. eapply IH; [exact H|rewrite u32_small by lia; lia|rewrite u32_small by lia; lia|exact Hp|]. rewrite u32_small by lia. unfold u64. rewrite Z.mod_small by lia. replace (cur - 1 + 1) with cur by lia. lia.
    + eapply IH; [exact H|rewrite u32_small by lia; lia|rewrite u32_small by lia; lia|exact Hp|]. rewrite u32_small by lia. replace (cur - 1 + 1) with cur by lia. lia.
Qed.
Lemma shrink80_zero fuel : forall hd cur num tb st fl r, 0 <= cur -> shrink80 slack cached ps fuel hd cur 0 num tb st fl <> Ok r.
Proof.
  induction fuel as [|fuel IH]; intros hd cur num tb st fl r Hc H; cbn [shrink80] in H; destruct (Z.ltb_spec cur 0); try lia; try discriminate.
  bind H. destruct (_ =? 0) in H; [|eapply IH; [|exact H]; apply u32_nonneg]. bind H. destruct (_ =? 0) in H; bind H; eapply IH; [|exact H| |exact H]; apply u32_nonneg.
Qed.
Lemma shrink_flat_zero fuel : forall hd cur st fl r, 0 <= cur -> shrink_flat slack cached ps fuel hd cur 0 st fl <> Ok r.
Proof.
  induction fuel as [|fuel IH]; intros hd cur st fl r Hc H; cbn [shrink_flat] in H; destruct (Z.ltb_spec cur 0); try lia; try discriminate.
  bind H. eapply IH; [|exact H]; apply u32_nonneg.
Qed.
Lemma finish_num st fl o fat len num v r : finish_len slack cached ps st fl o fat len num v = Ok r -> num <= 0 \/ 4 * num <= zlen v + slack.
Proof.
  unfold finish_len. intros H. bind H. destruct (Z.ltb_spec 0 num); [|left; lia]. right. unfold copy_blocks in E0. bind E0. destruct (Z.ltb_spec (zlen v + slack) (4 * num)); [discriminate|lia].
Qed.
End Bad.

Lemma pages838 (ps len : nat) : (32 <= ps)%nat -> Z.of_nat ps < 2^17 -> Z.of_nat (groups len ps) < 2^32 -> Z.of_nat len < 2^63 -> u32 (u64 (Z.of_nat len + Z.of_nat ps - 1) / Z.of_nat ps) = Z.of_nat (groups len ps).
Proof.
  intros Hps H17 Hg Hl. unfold u64. rewrite (Z.mod_small (Z.of_nat len + Z.of_nat ps - 1)) by lia. replace (Z.of_nat len + Z.of_nat ps - 1) with (Z.of_nat len + (Z.of_nat ps - 1)) by lia.
  pose proof (gz_groups len ps ltac:(lia)) as Hz. unfold gz in Hz. rewrite Hz. apply u32_small. lia.
Qed.

(** completing means: one level before and after, and the number of pages at least fourfold *)
(** the entry before the first one is outside the page *)
Lemma before_first (p : list Z) : zlen p < 2^17 -> entry p 24 (u64 (0 - 1)) = UB.
Proof.
  intros H. unfold entry, u32at, rdn. change (u64 (0 - 1)) with (2^64 - 1). destruct (Z.ltb_spec (zlen p) (24 + 4 * (2 ^ 64 - 1) + 4)); [|lia]. rewrite orb_true_r. reflexivity.
Qed.

Lemma set_len_bad cached ps f st fl o n len tabs dp nlen r : stored ps f st n len tabs dp -> good ps st -> f <> FFree -> opened f (set_cached o None) n len tabs dp -> nlen <> len -> Z.of_nat nlen < 2^32 ->
  set_len 0 cached (Z.of_nat ps) st fl o (Z.of_nat nlen) = Ok r ->
  f <> F80 /\ (0 < len)%nat /\ (groups len ps <= groups nlen ps)%nat /\ (4 <= groups nlen ps <= ps / 4 - 6)%nat /\ (f = F838_flat -> (4 * groups len ps <= groups nlen ps)%nat).
Proof.
  intros Hs Hgood Hnf Hop Hne H32 H. pose proof Hs as (_ & _ & Hps & Hm4 & H17 & Hdp & Hpg & h & Hh & Hf). pose proof (quarter ps Hm4) as Hq.
  pose proof (groups_spec len ps ltac:(lia)) as Gl. pose proof (groups_spec nlen ps ltac:(lia)) as Gn. set (k1 := groups len ps) in *. set (k2 := groups nlen ps) in *.
  assert (Hz1 : k1 = 0%nat -> len = 0%nat) by (clear - Gl; intros E; rewrite E in Gl; lia). assert (Hz2 : k2 = 0%nat -> nlen = 0%nat) by (clear - Gn; intros E; rewrite E in Gn; lia).
  assert (Hz1' : len = 0%nat -> k1 = 0%nat) by (clear - Gl Hps; intros E; rewrite E in Gl; nia).
  assert (Hmono : (k1 < k2 -> len < nlen)%nat) by (clear - Gl Gn; nia). assert (Hmono' : (k2 < k1 -> nlen < len)%nat) by (clear - Gl Gn; nia).
  destruct (page_of _ _ _ Hh) as [Ep Rp]. destruct (good_page ps st n Hgood Rp) as [Ln Bn].
  assert (Hpoke : forall off d st0 l, (off + length d <= ps)%nat -> poke cached (Z.of_nat ps) st n (Z.of_nat off) d = Ok st0 -> get_page st0 n = Ok l -> zlen l < 2^17).
  { intros off d st0 l Hod E1 E2. rewrite (poke_ok cached ps Hps st n off d Hgood Rp Hod) in E1. injection E1 as <-. rewrite get_page_page in E2 by (rewrite upd_len by exact Rp; exact Rp). injection E2 as <-.
    rewrite upd_page by lia. rewrite Z.eqb_refl. unfold zlen. rewrite splice_length by lia. lia. }
  assert (Hk2 : Z.of_nat k2 < 2^28) by (clear - Gn H32 Hps; nia).
  unfold set_len in H. destruct f; try congruence; cbn [opened set_cached o_block o_data o_ty o_fat o_len o_num o_blocks] in Hop; cbn [set_cached o_block o_data o_ty o_fat o_len o_num o_blocks] in Hop.
  - (* older format *)
    destruct Hop as (Ob & _ & Ot & Ol & Obl & On). cbn [set_cached o_block o_data o_ty o_fat o_len o_num o_blocks] in *. destruct Hf as (H4 & _ & _ & Hnum & _ & _ & Htab). destruct Htab as [Htl _]. exfalso.
    assert (Hl32 : Z.of_nat len < 2^32) by apply Hnum.
    rewrite Ol, Ot in H. destruct (Z.eqb_spec (Z.of_nat len) (Z.of_nat nlen)); [lia|]. cbv zeta in H. rewrite !(pages_Z cached ps Hps) in H by lia. fold k1 k2 in H. rewrite (tabs_Z cached ps Hps) in H by lia.
    assert (Hk1 : Z.of_nat k1 < 2^28) by (clear - Gl Hl32 Hps; nia).
    assert (Hnumz : o_num o = gz 1023 (Z.of_nat k1)) by (rewrite On, Htl, Hdp; rewrite <- per80_Z, gz_groups by apply per80_pos; reflexivity).
    assert (Hv : zlen (resized o (Z.of_nat (groups k2 per80))) = gz 1023 (Z.of_nat k2)).
    { rewrite resized_len; [|unfold zlen; rewrite Obl; lia|lia]. rewrite <- per80_Z, gz_groups by apply per80_pos. reflexivity. }
    destruct (poke32 _ _ _ _ _ _) as [st0| | |]; cbn [rbind] in H; try discriminate.
    destruct (Z.ltb_spec (Z.of_nat k1) (Z.of_nat k2)) as [Hg|Hg].
    + bind H. pose proof (grow80_num _ _ _ _ _ _ _ _ _ _ _ _ E0 Hnumz) as En. apply finish_num in H. rewrite Hv in H.
      replace (Z.of_nat k1 + Z.of_nat (Z.to_nat (Z.of_nat k2 - Z.of_nat k1))) with (Z.of_nat k2) in En by lia. pose proof (gz_pos 1023 (Z.of_nat k2) ltac:(lia) ltac:(lia)). lia.
    + destruct (Z.ltb_spec (Z.of_nat k2) (Z.of_nat k1)) as [Hg'|Hg'].
      * bind H. destruct (Nat.eq_dec k2 0) as [E2|E2].
        -- rewrite E2 in E1. eapply shrink80_zero; [|exact E1]. lia.
        -- pose proof (shrink80_num _ _ _ _ _ _ _ _ _ _ _ _ _ _ E1 ltac:(lia) ltac:(lia) ltac:(lia)) as En. replace (Z.of_nat k1 - 1 + 1) with (Z.of_nat k1) in En by lia. specialize (En Hnumz).
           apply finish_num in H. rewrite Hv in H. pose proof (gz_pos 1023 (Z.of_nat k2) ltac:(lia) ltac:(lia)). lia.
      * apply finish_num in H. rewrite Hv, Hnumz in H. assert (Ek : k1 = k2) by lia. rewrite Ek in H. assert (0 < k2)%nat by lia. pose proof (gz_pos 1023 (Z.of_nat k2) ltac:(lia) ltac:(lia)). lia.
  - (* one level *)
    destruct Hop as (Ob & _ & Ot & Of & Ol & Obl & On). cbn [set_cached o_block o_data o_ty o_fat o_len o_num o_blocks] in *. destruct Hf as (_ & _ & _ & Hmax & _).
    assert (Hper : Z.of_nat ps / 4 = Z.of_nat (ps / 4)) by now rewrite Nat2Z.inj_div. set (per := (ps / 4)%nat) in *. clearbody per.
    rewrite Ol, Ot in H. destruct (Z.eqb_spec (Z.of_nat len) (Z.of_nat nlen)); [lia|]. cbv zeta in H. destruct (_ <? _) in H; [discriminate|].
    assert (Hk1 : Z.of_nat k1 < 2^28) by (clear - Hdp Hmax Hq H17; unfold k1; lia). assert (H63 : Z.of_nat len < 2^63) by (clear - Gl Hk1 H17; nia).
    assert (Hk1' : Z.of_nat (groups len ps) < 2^32) by (fold k1; clear - Hk1; lia). assert (Hk2' : Z.of_nat (groups nlen ps) < 2^32) by (fold k2; clear - Hk2; lia). assert (Hn63 : Z.of_nat nlen < 2^63) by (clear - H32; lia).
    rewrite (pages838 ps len Hps H17 Hk1' H63), (pages838 ps nlen Hps H17 Hk2' Hn63) in H. fold k1 k2 in H. rewrite Hper, Of in H. change (0 =? 0) with true in H. cbn [andb] in H. rewrite (u32_small (Z.of_nat per - 6)) in H by lia.
    destruct (poke _ _ _ _ _ _) as [st0| | |] eqn:Epk; cbn [rbind] in H; try discriminate.
    set (nb := if Z.of_nat per - 6 <? Z.of_nat k2 then u32 (Z.of_nat k2 + Z.of_nat per - 1) / Z.of_nat per else Z.of_nat k2) in *.
    assert (Hnb0 : 0 <= nb) by (unfold nb; destruct (_ <? _); [apply Z.div_pos; [apply u32_nonneg|lia]|lia]).
    assert (Hv : zlen (resized o nb) = nb) by (apply resized_len; [unfold zlen; rewrite Obl; lia|exact Hnb0]).
    destruct (Z.ltb_spec (Z.of_nat k1) (Z.of_nat k2)) as [Hg|Hg].
    + destruct (Z.ltb_spec (Z.of_nat per - 6) (Z.of_nat k2)) as [Hdeep|Hdeep].
      * exfalso. assert (Enb : nb = gz (Z.of_nat per) (Z.of_nat k2)) by (unfold nb, gz; rewrite u32_small by lia; f_equal; lia).
        bind H. apply grow838_num in E5; [|lia]. apply finish_num in H. rewrite Hv, Enb in H. rewrite Hper in E5.
        replace (Z.of_nat k1 + Z.of_nat (Z.to_nat (Z.of_nat k2 - Z.of_nat k1))) with (Z.of_nat k2) in E5 by lia.
        pose proof (gz_pos (Z.of_nat per) (Z.of_nat k2) ltac:(lia) ltac:(lia)).
        assert (gz (Z.of_nat per) (Z.of_nat k1) <= 1). { unfold gz. enough ((Z.of_nat k1 + (Z.of_nat per - 1)) / Z.of_nat per < 2) by lia. apply Z.div_lt_upper_bound; lia. }
        lia.
      * assert (Hk0 : k1 <> 0%nat).
        { intros Ek. bind H. rewrite On, Hdp in E0. fold k1 in E0. rewrite Ek in E0. change (Z.of_nat 0) with 0 in E0. rewrite Ob in *. rewrite (before_first _ (Hpoke 16%nat (le_bytes 8 (Z.of_nat nlen)) _ _ ltac:(rewrite le_bytes_length; lia) Epk E)) in E0. discriminate. }
        bind H. apply finish_num in H. rewrite Hv, On, Hdp in H. fold k1 in H. unfold nb in H. split; [discriminate|]. split; [lia|]. split; [fold k1 k2; lia|]. split; [lia|]. intros _. lia.
    + exfalso. destruct (Z.ltb_spec (Z.of_nat k2) (Z.of_nat k1)) as [Hg'|Hg'].
      * assert (Enb : nb = Z.of_nat k2) by (unfold nb; destruct (Z.ltb_spec (Z.of_nat per - 6) (Z.of_nat k2)); [lia|reflexivity]).
        bind H. destruct (Nat.eq_dec k2 0) as [E2|E2].
        -- rewrite E2 in E. eapply shrink_flat_zero; [|exact E]. lia.
        -- apply finish_num in H. rewrite Hv, Enb in H. lia.
      * assert (Enb : nb = Z.of_nat k2) by (unfold nb; destruct (Z.ltb_spec (Z.of_nat per - 6) (Z.of_nat k2)); [lia|reflexivity]).
        apply finish_num in H. rewrite Hv, Enb, On, Hdp in H. fold k1 in H. assert (0 < k2)%nat by lia. lia.
  - (* two levels *)
    destruct Hop as (Ob & _ & Ot & Of & Ol & Obl & On). cbn [set_cached o_block o_data o_ty o_fat o_len o_num o_blocks] in *. destruct Hf as (_ & _ & _ & H63 & Hmax & _ & Htl & _).
    assert (Hper : Z.of_nat ps / 4 = Z.of_nat (ps / 4)) by now rewrite Nat2Z.inj_div. set (per := (ps / 4)%nat) in *. clearbody per.
    assert (Hper0 : (0 < per)%nat) by (clear - Hq Hps; lia). pose proof (groups_spec (length dp) per Hper0) as Gt. rewrite <- Htl in Gt. rewrite Hdp in *. fold k1 in Gt, Htl.
    assert (Hk1 : Z.of_nat k1 < 2^31) by (clear - Gt Hmax Hq H17; nia).
    rewrite Ol, Ot in H. destruct (Z.eqb_spec (Z.of_nat len) (Z.of_nat nlen)); [lia|]. cbv zeta in H. destruct (_ <? _) in H; [discriminate|].
    assert (Hk1' : Z.of_nat (groups len ps) < 2^32) by (fold k1; clear - Hk1; lia). assert (Hk2' : Z.of_nat (groups nlen ps) < 2^32) by (fold k2; clear - Hk2; lia). assert (Hn63 : Z.of_nat nlen < 2^63) by (clear - H32; lia).
    rewrite (pages838 ps len Hps H17 Hk1' H63), (pages838 ps nlen Hps H17 Hk2' Hn63) in H. fold k1 k2 in H. rewrite Hper, Of in H. change (1 =? 0) with false in H. cbn [andb] in H. rewrite (u32_small (Z.of_nat per - 6)) in H by lia.
    destruct (poke _ _ _ _ _ _) as [st0| | |] eqn:Epk; cbn [rbind] in H; try discriminate.
    set (nb := if Z.of_nat per - 6 <? Z.of_nat k2 then u32 (Z.of_nat k2 + Z.of_nat per - 1) / Z.of_nat per else Z.of_nat k2) in *.
    assert (Hnz : o_num o = gz (Z.of_nat per) (Z.of_nat k1)) by (rewrite On, Htl, gz_groups by lia; reflexivity).
    assert (Hv : zlen (resized o nb) = nb). { apply resized_len; [unfold zlen; rewrite Obl; lia|]. unfold nb. destruct (_ <? _); [apply Z.div_pos; [apply u32_nonneg|lia]|lia]. }
    assert (Hend : forall k, k <> 0%nat -> 4 * gz (Z.of_nat per) (Z.of_nat k) <= nb + 0 -> k = k2 -> (4 <= k2 <= per - 6)%nat).
    { intros k Hk0 Hle ->. pose proof (gz_pos (Z.of_nat per) (Z.of_nat k2) ltac:(lia) ltac:(lia)) as Hpos. unfold nb in Hle. destruct (Z.ltb_spec (Z.of_nat per - 6) (Z.of_nat k2)); [|lia].
      exfalso. assert (Hr : 0 <= Z.of_nat k2 + Z.of_nat per - 1 < 2^32) by (clear - Hk2 Hq H17 Hper0; lia). clear - Hr Hle Hpos. unfold gz in *. rewrite u32_small in Hle by exact Hr. replace (Z.of_nat k2 + Z.of_nat per - 1) with (Z.of_nat k2 + (Z.of_nat per - 1)) in Hle by lia. lia. }
    destruct (Z.ltb_spec (Z.of_nat k1) (Z.of_nat k2)) as [Hg|Hg].
    + assert (Hk0 : k1 <> 0%nat).
      { intros Ek. bind H. rewrite Hnz, Ek in E0. change (Z.of_nat 0) with 0 in E0. unfold gz in E0. rewrite Z.add_0_l, Z.div_small in E0 by lia. rewrite Ob in *. rewrite (before_first _ (Hpoke 16%nat (le_bytes 8 (Z.of_nat nlen)) _ _ ltac:(rewrite le_bytes_length; lia) Epk E)) in E0. discriminate. }
      bind H. apply grow838_num in E2; [|lia]. apply finish_num in H. rewrite Hv in H. rewrite Hper in E2.
      replace (Z.of_nat k1 + Z.of_nat (Z.to_nat (Z.of_nat k2 - Z.of_nat k1))) with (Z.of_nat k2) in E2 by lia. pose proof (gz_pos (Z.of_nat per) (Z.of_nat k2) ltac:(lia) ltac:(lia)).
      split; [discriminate|]. split; [lia|]. split; [fold k1 k2; lia|]. split; [apply (Hend k2); lia|discriminate].
    + destruct (Z.ltb_spec (Z.of_nat k2) (Z.of_nat k1)) as [Hg'|Hg']; [discriminate|]. apply finish_num in H. rewrite Hv, Hnz in H. assert (Ek : k1 = k2) by lia. assert (0 < k2)%nat by lia.
      pose proof (gz_pos (Z.of_nat per) (Z.of_nat k1) ltac:(lia) ltac:(lia)).
      split; [discriminate|]. split; [lia|]. split; [fold k1 k2; lia|]. split; [apply (Hend k1); lia|discriminate].
Qed.
