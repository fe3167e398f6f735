(** Changing the length of an object of the older format. *)
From Verif Require Import Prelude Lists Obj_Model Obj_Spec Obj_Proofs Obj_Write Obj_More Obj_Make Alloc_Model Alloc_Spec Alloc_Proofs Alloc_More Alloc_Grow.
Ltac Zify.zify_post_hook ::= idtac.

Lemma entries_any p off k : bytes_ok p -> (off + 4 * k <= length p)%nat -> exists vs, entries p (Z.of_nat off) k = Ok vs /\ length vs = k /\ array_at p off vs.
Proof.
  intros Hb. revert off. induction k as [|k IH]; intros off H.
  - exists []. cbn. split; [reflexivity|]. split; [reflexivity|apply array_nil].
  - destruct (IH (off + 4)%nat ltac:(lia)) as (vs & E & L & A). cbn [entries]. unfold u32at. rewrite rdn_ok by (unfold zlen; lia). cbn [rbind].
    replace (Z.of_nat off + 4) with (Z.of_nat (off + 4)) by lia. rewrite E. cbn [rbind]. eexists. split; [reflexivity|]. split; [cbn; lia|].
    rewrite Nat2Z.id. change (Z.to_nat 4) with 4%nat.
    assert (Hs : bytes_ok (sub p off 4)) by (now apply bytes_ok_sub). assert (Hl : length (sub p off 4) = 4%nat) by (apply sub_length; lia).
    change (le_val (sub p off 4) :: vs) with ([le_val (sub p off 4)] ++ vs). apply array_app. split; [|now rewrite Nat.mul_1_r].
    apply array_one. split; [|rewrite <- (le_bytes_val _ Hs) at 1; now rewrite Hl].
    pose proof (le_val_bound _ Hs) as B. unfold zlen in B. rewrite Hl in B. exact B.
Qed.
Lemma num_at_fun p off a b : num_at p off a -> num_at p off b -> a = b.
Proof. intros [Ha Ea] [Hb Eb]. rewrite Ea in Eb. apply (f_equal le_val) in Eb. rewrite !le_val_bytes_small in Eb by assumption. exact Eb. Qed.
Lemma array_prefix p off vs ws : array_at p off vs -> array_at p off ws -> (length vs <= length ws)%nat -> firstn (length vs) ws = vs.
Proof.
  intros Hv Hw Hl. apply nth_error_ext. intros i. destruct (Nat.ltb_spec i (length vs)) as [Hi|Hi].
  - rewrite <- (sub_0_firstn ws), nth_error_sub. destruct (Nat.ltb_spec i (length vs)); [|lia]. cbn [Nat.add].
    destruct (nth_error vs i) as [a|] eqn:Ea; [|apply nth_error_None in Ea; lia]. destruct (nth_error ws i) as [b|] eqn:Eb; [|apply nth_error_None in Eb; lia].
    f_equal. eapply num_at_fun; [apply Hw; exact Eb|apply Hv; exact Ea].
  - rewrite !(proj2 (nth_error_None _ _)); [reflexivity|lia|rewrite firstn_length; lia].
Qed.

Lemma copy_blocks_ok slack p tabs v : bytes_ok p -> array_at p 24 tabs -> length v = length tabs -> (24 + 16 * length tabs <= length p)%nat -> 3 * zlen tabs <= slack ->
  copy_blocks slack p 24 (zlen tabs) v = Ok tabs.
Proof.
  intros Hb Ha Hv Hl Hs. unfold copy_blocks. change 24 with (Z.of_nat 24). destruct (entries_any p 24 (Z.to_nat (4 * zlen tabs)) Hb) as (vs & E & L & A). { unfold zlen. lia. }
  rewrite E. cbn [rbind]. destruct (Z.ltb_spec (zlen v + slack) (4 * zlen tabs)); [unfold zlen in *; lia|].
  rewrite skipn_all2 by (unfold zlen; lia). rewrite app_nil_r, Hv. f_equal. eapply array_prefix; [exact Ha|exact A|rewrite L; unfold zlen; lia].
Qed.

Section L.
Variables (cached : Z -> bool) (ps : nat).
Hypothesis Hps : (32 <= ps)%nat.
Let P := Z.of_nat ps.

(** writing into the first 24 bytes of the header *)
Lemma ginv_head st fl fb stk n tabs dp R off d : ginv ps st fl fb stk n tabs dp R -> (off + length d <= 24)%nat -> bytes_ok d ->
  let st' := upd st n (splice (page st n) off d) in
  ginv ps st' fl fb stk n tabs dp R /\ zlen st' = zlen st /\ page st' n = splice (page st n) off d /\ (forall m, 0 <= m -> m <> n -> page st' m = page st m).
Proof.
  intros (Hg & Hf & Hnd & Hr & Hh & Htab) Hd Hb st'.
  assert (Rn : 1 < n < zlen st) by (apply (in_forall _ _ n Hr), in_or_app; right; now left).
  destruct (good_page ps st n Hg ltac:(lia)) as [Ln Bn].
  assert (G' : good ps st') by (apply (poke_good cached); [exact Hps|exact Hg|lia|lia|exact Hb]).
  assert (Z' : zlen st' = zlen st) by (apply upd_len; lia).
  assert (En : page st' n = splice (page st n) off d) by (unfold st'; rewrite upd_page, Z.eqb_refl by lia; reflexivity).
  assert (Eo : forall m, 0 <= m -> m <> n -> page st' m = page st m) by (intros m H1 H2; unfold st'; rewrite upd_page by lia; destruct (Z.eqb_spec m n); [contradiction|reflexivity]).
  split; [|now repeat split]. split; [exact G'|]. split.
  { eapply free_frame; [exact Hf|apply Eo; lia| |lia]. intros b Hb'. assert (1 < b < zlen st) by (apply (in_forall _ _ b (proj1 (proj2 (proj2 (proj2 (proj2 (proj2 (proj2 (proj2 (proj2 (proj2 Hf)))))))))) Hb')).
    apply Eo; [lia|]. intros ->. eapply (disjoint_in fb (stk ++ n :: tabs ++ dp ++ R)); [exact Hnd|exact Hb'|]. apply in_or_app. right. now left. }
  split; [exact Hnd|]. split; [rewrite Z'; exact Hr|]. split; [rewrite En; apply array_other; [exact Hh|lia|right; lia]|].
  apply (tables_intro ps); [exact G'|apply Htab|]. intros j t Hj. destruct (tables_page ps st tabs dp j t Hg Htab Hj) as (B1 & B2 & B3).
  assert (t <> n). { intros ->. eapply (disjoint_in [n] tabs n); [cbn [app]; nodup Hnd|now left|eapply nth_error_In; eauto]. }
  rewrite Eo by (lia || assumption). rewrite Z'. auto.
Qed.

Lemma version_ginv st fl fb stk n tabs dp R o : ginv ps st fl fb stk n tabs dp R -> o_block o = n -> o_ty o = Data80 ->
  exists st' o', write_version cached P st o = Ok (st', o') /\ ginv ps st' fl fb stk n tabs dp R /\ zlen st' = zlen st /\
    (forall a b, (a + b <= 12)%nat -> sub (page st' n) a b = sub (page st n) a b) /\ (forall m, 0 <= m -> m <> n -> page st' m = page st m) /\
    o_ty o' = o_ty o /\ o_len o' = o_len o /\ o_num o' = o_num o /\ o_blocks o' = o_blocks o /\ o_block o' = o_block o /\ o_data o' = o_data o.
Proof.
  intros Hi Hb Ht. pose proof Hi as (Hg & Hf & Hnd & Hr & Hh & Htab). unfold write_version. destruct (o_newver o).
  - exists st, o. now repeat (split; [assumption||reflexivity||(intros; reflexivity)|]).
  - assert (Rn : 1 < n < zlen st) by (apply (in_forall _ _ n Hr), in_or_app; right; now left). destruct (good_page ps st n Hg ltac:(lia)) as [Ln Bn].
    set (v := le_bytes 4 (u32 (o_v1 o + 1)) ++ le_bytes 4 (o_v2 o)). assert (Lv : length v = 8%nat) by (unfold v; rewrite app_length, !le_bytes_length; reflexivity).
    assert (Bv : bytes_ok v) by (apply bytes_ok_app; split; apply le_bytes_ok). rewrite Ht, Hb. cbv zeta.
    pose proof (poke_ok cached ps Hps st n 12 v Hg ltac:(lia) ltac:(lia)) as E. unfold poke in E. fold P in E. change (Z.of_nat 12) with 12 in E. rewrite E. cbn [rbind].
    destruct (ginv_head st fl fb stk n tabs dp R 12 v Hi ltac:(lia) Bv) as (I' & Z' & En & Eo). eexists _, _. split; [reflexivity|]. split; [exact I'|]. split; [exact Z'|].
    split; [intros a b Hab; rewrite En; apply sub_splice_other; lia|]. split; [exact Eo|]. cbn [o_ty o_len o_num o_blocks o_block o_data]. now repeat split.
Qed.

Lemma ginv_stored st fl fb stk n tabs dp R len : ginv ps st fl fb stk n tabs dp R -> length dp = groups len ps -> sub (page st n) 0 8 = sig_obj -> num_at (page st n) 8 (Z.of_nat len) ->
  Z.of_nat (length tabs) <= 1018 -> stored ps F80 st n len tabs dp.
Proof.
  intros (Hg & Hf & Hnd & Hr & Hh & Htab) Hdp Hsig Hnum Ht. pose proof Hg as (G1 & G2 & G3 & G4). assert (H4096 : Z.of_nat ps = 4096) by apply Hf.
  assert (Rn : 1 < n < zlen st) by (apply (in_forall _ _ n Hr), in_or_app; right; now left).
  split; [exact G1|]. split; [exact G2|]. split; [exact Hps|]. split. { apply Nat2Z.inj. rewrite Nat2Z.inj_mod, H4096. reflexivity. } split; [lia|]. split; [exact Hdp|]. split.
  { apply Forall_forall. intros b Hb. exists (page st b). assert (1 < b < zlen st) by (apply (in_forall _ _ b Hr); rewrite !in_app_iff; cbn [In]; rewrite !in_app_iff; tauto). apply page_page; lia. }
  exists (page st n). split; [apply page_page; lia|]. now repeat (split; [assumption||lia|]).
Qed.

Lemma stored_ginv st fl fb stk n len tabs dp R : stored ps F80 st n len tabs dp -> good ps st -> free_list ps st fl fb stk -> apart st fb stk (pages_of n tabs dp ++ R) ->
  ginv ps st fl fb stk n tabs dp R /\ sub (page st n) 0 8 = sig_obj /\ num_at (page st n) 8 (Z.of_nat len).
Proof.
  intros (Hst & Hby & H32 & Hm4 & H17 & Hdp & Hpg & h & Hh & A1 & A2 & A3 & A4 & A5 & A6 & A7) Hg Hf [Hnd Hr]. unfold pages_of in *. cbn [app] in *. rewrite <- !app_assoc in *.
  apply page_of in Hh. destruct Hh as [<- Hn]. split; [|now split]. split; [exact Hg|]. split; [exact Hf|]. split; [exact Hnd|]. split; [exact Hr|]. now split.
Qed.

Lemma pages_Z (len : nat) : Z.of_nat ps = 4096 -> Z.of_nat len < 2^32 -> u32 (u64 (Z.of_nat len + 4095) / 4096) = Z.of_nat (groups len ps).
Proof.
  intros H4096 Hl. pose proof (groups_spec len ps ltac:(lia)) as Hg. unfold u64. rewrite (Z.mod_small (Z.of_nat len + 4095)) by lia.
  assert (E : (Z.of_nat len + 4095) / 4096 = Z.of_nat (groups len ps)).
  { symmetry. apply (Z.div_unique_pos _ _ _ (Z.of_nat len + 4095 - 4096 * Z.of_nat (groups len ps))); nia. }
  rewrite E. unfold u32. apply Z.mod_small. nia.
Qed.
Lemma tabs_Z k : Z.of_nat k < 2^31 -> u32 (Z.of_nat k + 1022) / 1023 = Z.of_nat (groups k per80).
Proof.
  intros Hk. pose proof (groups_spec k per80 per80_pos) as Hg. pose proof per80_Z as HZ. unfold u32. rewrite Z.mod_small by lia.
  symmetry. apply (Z.div_unique_pos _ _ _ (Z.of_nat k + 1022 - 1023 * Z.of_nat (groups k per80))); nia.
Qed.

Lemma finish_ok slack st fl fb stk n tabs dp R o v len : ginv ps st fl fb stk n tabs dp R -> o_block o = n -> o_ty o = Data80 -> length v = length tabs ->
  (4 * length tabs <= 1018)%nat -> 3 * zlen tabs <= slack -> sub (page st n) 0 8 = sig_obj -> num_at (page st n) 8 (Z.of_nat len) -> length dp = groups len ps ->
  exists st' o', finish_len slack cached P st fl o (o_fat o) (Z.of_nat len) (zlen tabs) v = Ok (st', fl, o') /\ ginv ps st' fl fb stk n tabs dp R /\ stored ps F80 st' n len tabs dp /\
    opened F80 o' n len tabs dp /\ zlen st' = zlen st /\ (forall m, 0 <= m -> m <> n -> page st' m = page st m).
Proof.
  intros Hi Hb Ht Hv Hl Hs Hsig Hnum Hdp. pose proof Hi as (Hg & Hf & Hnd & Hr & Hh & Htab). assert (H4096 : Z.of_nat ps = 4096) by apply Hf.
  assert (Rn : 1 < n < zlen st) by (apply (in_forall _ _ n Hr), in_or_app; right; now left). destruct (good_page ps st n Hg ltac:(lia)) as [Ln Bn].
  unfold finish_len. rewrite Hb, get_page_page by lia. cbn [rbind].
  assert (E : (if 0 <? zlen tabs then copy_blocks slack (page st n) 24 (zlen tabs) v else Ok v) = Ok tabs).
  { destruct (Z.ltb_spec 0 (zlen tabs)); [apply copy_blocks_ok; try assumption; lia|]. f_equal. destruct tabs; [|unfold zlen in *; cbn in *; lia]. now destruct v. }
  rewrite E. cbn [rbind]. set (o1 := set_shape o (o_fat o) (Z.of_nat len) (zlen tabs) tabs).
  destruct (version_ginv st fl fb stk n tabs dp R o1 Hi Hb Ht) as (st' & o' & E' & I' & Z' & B' & Eo & F1 & F2 & F3 & F4 & F5 & F6). rewrite E'. cbn [rbind fst snd].
  exists st', o'. split; [reflexivity|]. split; [exact I'|]. split.
  - eapply ginv_stored; [exact I'|exact Hdp|rewrite B' by lia; exact Hsig|eapply num_at_same; [exact Hnum|apply B'; lia]|lia].
  - split; [|split; [exact Z'|exact Eo]]. split; [now rewrite F5|]. split; [now rewrite F6|]. rewrite F1, F2, F3, F4. now repeat split.
Qed.

Lemma flat_app st a b : flat st (a ++ b) = flat st a ++ flat st b.
Proof. unfold flat. now rewrite map_app, concat_app. Qed.

Lemma grow_len_ok slack st fl fb stk n len tabs dp R o nlen : stored ps F80 st n len tabs dp -> good ps st -> free_list ps st fl fb stk -> apart st fb stk (pages_of n tabs dp ++ R) ->
  opened F80 (set_cached o None) n len tabs dp -> (len < nlen)%nat -> Z.of_nat nlen < 2^32 -> (4 * ntab80 ps nlen <= 1018)%nat -> 3 * Z.of_nat (ntab80 ps nlen) <= slack ->
  zlen st + 2 * Z.of_nat (groups nlen ps) < 2^32 ->
  exists st' fl' o' stk' new tabs' dp', set_len slack cached P st fl o (Z.of_nat nlen) = Ok (st', fl', o') /\
    stored ps F80 st' n nlen (tabs ++ tabs') (dp ++ dp') /\ good ps st' /\ opened F80 o' n nlen (tabs ++ tabs') (dp ++ dp') /\
    takes (length tabs' + length dp') (stk, zlen st) = ((stk', zlen st'), new) /\
    free_list ps st' fl' fb stk' /\ apart st' fb stk' (pages_of n (tabs ++ tabs') (dp ++ dp') ++ R) /\
    firstn len (content st' (dp ++ dp') nlen) = content st dp len /\ (forall m, In m R -> page st' m = page st m).
Proof.
  intros Hs Hg Hf Hap Hop Hlt Hn32 Hmax Hslack H32. destruct (stored_ginv st fl fb stk n len tabs dp R Hs Hg Hf Hap) as (Hi & Hsig & Hnum).
  assert (H4096 : Z.of_nat ps = 4096) by apply Hf. pose proof per80_pos as HP. pose proof per80_Z as HZ.
  destruct Hop as (Ob & _ & Ot & Ol & Obl & On). cbn [set_cached o_block o_ty o_len o_blocks o_num] in *. destruct Hs as (_ & _ & _ & _ & _ & Hdp & Hpg & _).
  pose proof Hi as (_ & _ & Hnd & Hr & Hh & Htab). assert (Rn : 1 < n < zlen st) by (apply (in_forall _ _ n Hr), in_or_app; right; now left).
  destruct (good_page ps st n Hg ltac:(lia)) as [Ln Bn].
  pose proof (groups_spec len ps ltac:(lia)) as Gl. pose proof (groups_spec nlen ps ltac:(lia)) as Gn. unfold ntab80 in *. set (k1 := groups len ps) in *. set (k2 := groups nlen ps) in *.
  assert (Hk : (k1 <= k2)%nat) by nia.
  destruct (ginv_head st fl fb stk n tabs dp R 8 (le_bytes 4 (u32 (Z.of_nat nlen))) Hi ltac:(rewrite le_bytes_length; lia) (le_bytes_ok _ _)) as (I0 & Z0 & En0 & Eo0).
  set (st0 := upd st n (splice (page st n) 8 (le_bytes 4 (u32 (Z.of_nat nlen))))) in *.
  assert (Hsig0 : sub (page st0 n) 0 8 = sig_obj) by (rewrite En0, sub_splice_other; [exact Hsig|rewrite le_bytes_length; lia|left; lia]).
  assert (Hnum0 : num_at (page st0 n) 8 (Z.of_nat nlen)) by (rewrite En0; apply num_at_splice; lia).
  unfold set_len. rewrite Ol. destruct (Z.eqb_spec (Z.of_nat len) (Z.of_nat nlen)); [lia|]. rewrite Ot, Ob. cbv zeta.
  unfold poke32 at 1. change 8 with (Z.of_nat 8) at 1. fold P. rewrite (poke_ok cached ps Hps) by (try assumption; try lia; rewrite le_bytes_length; lia). cbn [rbind]. fold st0.
  rewrite !pages_Z by lia. fold k1 k2. rewrite tabs_Z by lia.
  assert (Htl : length tabs = groups k1 per80) by (destruct Htab as [-> _]; now rewrite Hdp).
  assert (Lv : length (resized o (Z.of_nat (groups k2 per80))) = groups k2 per80).
  { unfold resized. rewrite On, Obl. destruct (Z.eqb_spec (Z.of_nat (length tabs)) (Z.of_nat (groups k2 per80))); [lia|]. rewrite repeat_length. lia. }
  destruct (Z.ltb_spec (Z.of_nat k1) (Z.of_nat k2)) as [Hgr|Hgr].
  - assert (Etb : exists tb, (if o_num o =? 0 then Ok None else do h <- get_page st0 n; do t <- entry h 24 (o_num o - 1); do _ <- get_page st0 t; Ok (Some t)) = Ok tb /\
      ((length dp mod per80 <> 0)%nat -> exists t, tb = Some t /\ nth_error tabs (length dp / per80) = Some t)).
    { rewrite On. destruct (Z.eqb_spec (Z.of_nat (length tabs)) 0) as [e|e].
      - exists None. split; [reflexivity|]. intros H. exfalso. apply H. assert (groups k1 per80 = 0)%nat by lia. pose proof (groups_spec k1 per80 HP). assert (length dp = 0)%nat by lia. rewrite H2. apply Nat.mod_0_l. lia.
      - pose proof I0 as (G0 & _ & _ & R0 & H0 & T0). rewrite get_page_page by lia. cbn [rbind].
        destruct (nth_error tabs (length tabs - 1)) as [t|] eqn:Et; [|apply nth_error_None in Et; lia].
        replace (Z.of_nat (length tabs) - 1) with (Z.of_nat (length tabs - 1)) by lia. change 24 with (Z.of_nat 24). rewrite (entry_ok _ _ _ _ _ H0 Et). cbn [rbind].
        destruct (tables_page ps st0 tabs dp _ t G0 T0 Et) as (_ & _ & Rt). rewrite get_page_page by lia. cbn [rbind]. exists (Some t). split; [reflexivity|]. intros Hm. exists t. split; [reflexivity|].
        replace (length dp / per80)%nat with (length tabs - 1)%nat; [exact Et|]. rewrite Htl, <- Hdp. rewrite groups_div by exact HP. destruct (Nat.eqb_spec (length dp mod per80) 0); [contradiction|]. lia. }
    destruct Etb as (tb & -> & Htb). cbn [rbind]. replace (Z.to_nat (Z.of_nat k2 - Z.of_nat k1)) with (k2 - k1)%nat by lia. rewrite On.
    destruct (grow80_ok cached ps Hps (k2 - k1) st0 fl fb stk n tabs dp R tb I0) as (st1 & fl1 & stk1 & new & tabs' & dp' & E1 & T1 & I1 & L1 & M1 & B1 & U1).
    { pose proof (need_bound (k2 - k1) (length dp)). rewrite Z0. lia. } { rewrite Hdp. replace (k1 + (k2 - k1))%nat with k2 by lia. lia. } { exact Htb. }
    fold P in E1. rewrite Hdp in E1. unfold zlen at 1 in E1. rewrite E1. cbn [rbind].
    assert (Hd2 : length (dp ++ dp') = groups nlen ps) by (rewrite app_length; fold k2; lia).
    assert (Ht2 : length (tabs ++ tabs') = groups k2 per80) by (destruct I1 as (_ & _ & _ & _ & _ & [-> _]); now rewrite Hd2).
    destruct (finish_ok slack st1 fl1 fb stk1 n (tabs ++ tabs') (dp ++ dp') R o (resized o (Z.of_nat (groups k2 per80))) nlen I1 Ob Ot) as (st' & o' & E2 & I2 & S2 & O2 & Z2 & Eo2).
    { lia. } { lia. } { unfold zlen. lia. }
    { pose proof (f_equal (fun l => sub l 0 8) B1) as B2. cbn beta in B2. rewrite !sub_sub in B2 by lia. cbn [Nat.add] in B2. rewrite B2. exact Hsig0. }
    { eapply num_at_same; [exact Hnum0|]. pose proof (f_equal (fun l => sub l 8 4) B1) as B2. cbn beta in B2. rewrite !sub_sub in B2 by lia. cbn [Nat.add] in B2. exact B2. } { exact Hd2. }
    exists st', fl1, o', stk1, new, tabs', dp'. split; [exact E2|]. split; [exact S2|]. pose proof I2 as (G2 & F2 & N2 & R2 & _). split; [exact G2|]. split; [exact O2|].
    assert (Hneed : forall k c, (need k c + groups c per80 = k + groups (c + k) per80)%nat).
    { induction k as [|k IHk]; intros c; cbn [need]; [rewrite Nat.add_0_r; lia|]. specialize (IHk (S c)). replace (c + S k)%nat with (S c + k)%nat by lia. rewrite groups_snoc in IHk by exact HP. rewrite (groups_div c) by exact HP. destruct (c mod per80 =? 0)%nat; lia. }
    assert (Hnd' : forall m, In m (dp ++ R) -> page st' m = page st m).
    { intros m Hm. assert (Hm1 : 1 < m < zlen st). { apply (in_forall _ _ m Hr). rewrite !in_app_iff in *. cbn [In]. rewrite !in_app_iff. tauto. }
      assert (Hmn : m <> n). { intros ->. eapply (disjoint_in [n] (dp ++ R) n); [cbn [app]; nodup Hnd|now left|exact Hm]. }
      rewrite Eo2 by (lia || assumption). rewrite U1 by exact Hm. apply Eo0; [lia|exact Hmn]. }
    split; [|split; [exact F2|split; [|split; [|intros m Hm; apply Hnd', in_or_app; now right]]]].
    + rewrite Z2, <- Z0. replace (length tabs' + length dp')%nat with (need (k2 - k1) (length dp)); [exact T1|].
      specialize (Hneed (k2 - k1)%nat (length dp)). rewrite Hdp in *. replace (k1 + (k2 - k1))%nat with k2 in Hneed by lia. rewrite app_length in Ht2. lia.
    + unfold apart, pages_of. cbn [app]. rewrite <- !app_assoc in *. now split.
    + unfold content. rewrite firstn_firstn. replace (Nat.min len nlen) with len by lia. rewrite flat_app.
      assert (Hfl : flat st' dp = flat st dp) by (apply flat_stable; intros b Hb; apply Hnd', in_or_app; now left).
      rewrite Hfl. rewrite firstn_app. destruct Hg as (G1 & _). rewrite (flat_len ps st G1 dp Hpg). replace (len - length dp * ps)%nat with 0%nat by lia. cbn. now rewrite app_nil_r.
  - destruct (Z.ltb_spec (Z.of_nat k2) (Z.of_nat k1)); [lia|]. assert (k1 = k2) by lia. rewrite On. fold (zlen tabs).
    destruct (finish_ok slack st0 fl fb stk n tabs dp R o (resized o (Z.of_nat (groups k2 per80))) nlen I0 Ob Ot) as (st' & o' & E2 & I2 & S2 & O2 & Z2 & Eo2).
    { congruence. } { rewrite Htl. congruence. } { unfold zlen. rewrite Htl. congruence. } { exact Hsig0. } { exact Hnum0. } { fold k2. lia. }
    exists st', fl, o', stk, [], [], []. rewrite !app_nil_r. split; [exact E2|]. split; [exact S2|]. pose proof I2 as (G2 & F2 & N2 & R2 & _). split; [exact G2|]. split; [exact O2|].
    assert (Hnd' : forall m, In m (dp ++ R) -> page st' m = page st m).
    { intros m Hm. assert (Hm1 : 1 < m < zlen st). { apply (in_forall _ _ m Hr). rewrite !in_app_iff in *. cbn [In]. rewrite !in_app_iff. tauto. }
      assert (Hmn : m <> n). { intros ->. eapply (disjoint_in [n] (dp ++ R) n); [cbn [app]; nodup Hnd|now left|exact Hm]. }
      rewrite Eo2 by (lia || assumption). apply Eo0; [lia|exact Hmn]. }
    split; [cbn [length Nat.add takes]; now rewrite Z2, Z0|]. split; [exact F2|]. split; [unfold apart, pages_of; cbn [app]; rewrite <- !app_assoc in *; now split|].
    split; [|intros m Hm; apply Hnd', in_or_app; now right].
    unfold content. rewrite firstn_firstn. replace (Nat.min len nlen) with len by lia. f_equal. apply flat_stable. intros b Hb; apply Hnd', in_or_app; now left.
Qed.
End L.
