(** Importing into files of the newer format, of another length, or that are not there. *)
From Verif Require Import Prelude Lists Obj_Model Obj_Spec Obj_Proofs Obj_Write Obj_More Obj_Hist Alloc_Model Alloc_Spec Alloc_Proofs Alloc_More Alloc_Len Alloc_Put Alloc_Whole Alloc_Bad Alloc_New Obj_Make Port_Model Port_Spec Blob_Hist Idx_Add Port_Proofs Port_Import.
Ltac Zify.zify_post_hook ::= idtac.

Local Opaque le_bytes.

(** ** same length, any format: the version numbers are written at byte 12 of the header *)
Lemma one_frame slack cached ps v838 st fl o t b v : is_file ps st o t -> good ps st -> NoDup (pages t) -> bytes_ok b -> length b = t_len t -> (t_f t = F838_deep -> (0 < t_len t)%nat) -> length v = 8%nat -> bytes_ok v ->
  exists st2 o', import_one slack cached (Z.of_nat ps) v838 false st fl (Some o) (Some b) v = Ok (upd st2 (t_n t) (splice (page st2 (t_n t)) 12 v), fl, o', false) /\
    stored ps (t_f t) st2 (t_n t) (t_len t) (t_tabs t) (t_dp t) /\ good ps st2 /\ zlen st2 = zlen st /\ (forall m, 0 <= m -> ~ In m (pages t) -> page st2 m = page st m).
Proof.
  intros (Hs & Hnf & Hop & _) Hg Hnd Hb HL Hdeep Lv Bv.
  destruct (put_all_ok slack cached ps (t_f t) st fl o (t_n t) (t_len t) (t_tabs t) (t_dp t) b Hs Hg Hnd Hnf Hop Hb HL Hdeep) as (st2 & o' & E & S2 & O2 & G2 & Z2 & C2 & F2).
  exists st2, o'. unfold import_one, in_file. cbn [rbind]. rewrite E. cbn [rbind]. unfold put_version. assert (Hb2 : o_block o' = t_n t) by apply O2. rewrite Hb2.
  assert (Rn : 0 <= t_n t < zlen st2) by (eapply stored_n; exact S2). assert (H32 : (32 <= ps)%nat) by apply Hs.
  change 12 with (Z.of_nat 12). rewrite (poke_ok cached ps H32 st2 (t_n t) 12 v G2 Rn ltac:(lia)). cbn [rbind].
  split; [reflexivity|]. split; [exact S2|]. split; [exact G2|]. split; [exact Z2|]. intros m Hm Hi. apply F2; [exact Hm| |]; intros C; apply Hi; [left; congruence|right; apply in_or_app; now right].
Qed.
Lemma upd_facts ps st n v : good ps st -> 0 <= n < zlen st -> (32 <= ps)%nat -> length v = 8%nat -> bytes_ok v ->
  let st' := upd st n (splice (page st n) 12 v) in good ps st' /\ zlen st' = zlen st /\ (forall m, 0 <= m -> m <> n -> page st' m = page st m) /\ page st' n = splice (page st n) 12 v.
Proof.
  intros Hg Rn H32 Lv Bv st'. destruct (good_page ps st n Hg Rn) as [Lh Bh].
  split; [apply upd_good; [exact Hg|exact Rn|rewrite splice_length by lia; exact Lh|now apply bytes_ok_splice]|]. split; [apply upd_len; exact Rn|].
  split; [intros m Hm Hne; unfold st'; rewrite upd_page by assumption; destruct (Z.eqb_spec m n); [lia|reflexivity]|unfold st'; rewrite upd_page, Z.eqb_refl by lia; reflexivity].
Qed.

(** the header of [t] after the import: its version numbers at byte 12, otherwise as before
    up to byte 4 and from byte 20 to 24 *)
Definition head_after (st' : store) (t : thing) (v : list Z) : Prop :=
  sub (page st' (t_n t)) 12 8 = v /\
  match t_f t with
  | F838_flat => sub (page st' (t_n t)) 0 4 = [28; 253; 0; 0] /\ sub (page st' (t_n t)) 20 4 = sub (le_bytes 8 (Z.of_nat (t_len t))) 4 4
  | F838_deep => sub (page st' (t_n t)) 0 4 = [28; 253; 1; 0] /\ sub (page st' (t_n t)) 20 4 = sub (le_bytes 8 (Z.of_nat (t_len t))) 4 4
  | _ => True
  end.
Lemma head_of ps f st n len tabs dp v : stored ps f st n len tabs dp -> good ps st -> length v = 8%nat -> bytes_ok v ->
  head_after (upd st n (splice (page st n) 12 v)) (mkt f n len tabs dp) v.
Proof.
  intros Hs Hg Lv Bv. assert (Rn : 0 <= n < zlen st) by (eapply stored_n; exact Hs). pose proof Hs as (_ & _ & H32 & _ & _ & _ & _ & h & Hh & Hf).
  destruct (upd_facts ps st n v Hg Rn H32 Lv Bv) as (_ & _ & _ & Ep). destruct (page_of _ _ _ Hh) as [Eh _]. unfold head_after. cbn [t_n t_f t_len]. rewrite Ep, Eh.
  destruct (good_page ps st n Hg Rn) as [Lh _]. rewrite Eh in Lh.
  split; [rewrite <- Lv; apply sub_splice_same; lia|].
  destruct f; try exact Logic.I; destruct Hf as (_ & H0 & H16 & _); (rewrite !sub_splice_other by lia; split; [exact H0|]; rewrite <- H16, sub_sub by lia; reflexivity).
Qed.

Section Imp.
Variable slack : Z.
Variable cached : Z -> bool.
Variable ps : nat.
Variable v838 : bool.
Variable root : list Z.
Variable d : files.
Let P := Z.of_nat ps.

Lemma import_any slots : forall ts news i st fl, (1 <= i)%nat -> gives root d i news -> length news = length slots -> slots_ok ps st slots ts ->
  (forall j new t, nth_error news j = Some new -> nth_error ts j = Some t -> same_size (option_map fst new) t) -> NoDup (all_pages ts) -> good ps st ->
  exists st' slots', import_files slack cached P v838 false root d i st fl slots = Ok (st', fl, slots', false) /\ good ps st' /\ zlen st' = zlen st /\ length slots' = length slots /\
    (forall j b v t, nth_error news j = Some (Some (b, v)) -> nth_error ts j = Some (Some t) -> head_after st' t v) /\
    (forall m, 0 <= m -> ~ In m (all_pages ts) -> page st' m = page st m).
Proof.
  induction slots as [|s slots IH]; intros ts news i st fl Hi Hgv HL Hs Hfit Hnd Hg.
  - exists st, []. split; [reflexivity|]. split; [exact Hg|]. split; [reflexivity|]. split; [reflexivity|]. split; [|reflexivity]. intros j b v t Hn. destruct news; [|discriminate]. destruct j; discriminate.
  - inversion Hs as [|a t b r H1 H2]; subst. destruct news as [|new news]; [discriminate|]. injection HL as HL. rewrite all_pages_cons in Hnd. destruct (nodup_parts _ _ Hnd) as (Nd1 & Nd2 & Ndx).
    assert (Hstep : exists st1 s1, step slack cached ps v838 root d i st fl s = Ok (st1, fl, s1, false) /\ good ps st1 /\ zlen st1 = zlen st /\ (forall b v x, new = Some (b, v) -> t = Some x -> head_after st1 x v) /\
      (forall m, 0 <= m -> ~ In m (match t with Some t => pages t | None => [] end) -> page st1 m = page st m)).
    { destruct new as [[b v]|].
      - rewrite (step_some slack cached ps v838 root d i st fl s b v news Hi Hgv). pose proof (Hfit 0%nat _ _ eq_refl eq_refl) as Hf. destruct t as [t|]; cbn [same_size option_map fst] in Hf; [|contradiction]. destruct Hf as (Lb & Hdeep).
        destruct s as [o|]; cbn [slot_ok] in H1; [|contradiction]. destruct (gives_len cached ps root d _ _ _ _ Hgv) as (Lv & Bv & Bb).
        destruct (one_frame slack cached ps v838 st fl o t b v H1 Hg Nd1 Bb Lb Hdeep Lv Bv) as (st2 & o1 & E & A1 & A2 & A3 & A4). rewrite E. cbn [rbind].
        assert (Rn : 0 <= t_n t < zlen st2) by (eapply stored_n; exact A1). destruct (upd_facts ps st2 (t_n t) v A2 Rn ltac:(apply A1) Lv Bv) as (U1 & U2 & U3 & U4).
        exists (upd st2 (t_n t) (splice (page st2 (t_n t)) 12 v)), (Some o1). split; [reflexivity|]. split; [exact U1|]. split; [lia|]. split.
        + intros b' v' x Hx Ex. injection Hx as <- <-. injection Ex as <-. destruct t as [f n len tabs dp]. now apply (head_of ps f st2 n len tabs dp v).
        + intros m Hm Hin. rewrite U3; [now apply A4|exact Hm|]. intros ->. apply Hin. now left.
      - rewrite (step_none slack cached ps v838 root d i st fl s news Hi Hgv). exists st, s. split; [reflexivity|]. split; [exact Hg|]. split; [reflexivity|]. split; [discriminate|reflexivity]. }
    destruct Hstep as (st1 & s1 & E1 & G1 & Z1 & R1 & F1). unfold P. rewrite files_step, E1. cbn [rbind].
    destruct (slots_frame ps st st1 slots r H2 G1 Z1) as [S1 B1]; [intros m Hm H0; apply F1; [exact H0|]; intros C; now apply (Ndx m)|].
    destruct (IH r news (S i) st1 fl ltac:(lia) (gives_tail cached ps root d _ _ _ Hi Hgv) HL S1 (fun j new t A B => Hfit (S j) new t A B) Nd2 G1) as (st2 & r2 & E2 & G2 & Z2 & L2 & R2 & F2).
    fold P. rewrite E2. cbn [rbind orb]. exists st2, (s1 :: r2). split; [reflexivity|]. split; [exact G2|]. split; [lia|]. split; [cbn; lia|]. split.
    + intros [|j] b v x Hn Hx; cbn [nth_error] in Hn, Hx; [|now apply (R2 j b v x)]. injection Hn as ->. injection Hx as ->. specialize (R1 b v x eq_refl eq_refl).
      assert (Ep : page st2 (t_n x) = page st1 (t_n x)). { apply F2; [|intros C; apply (Ndx (t_n x)); [now left|exact C]]. destruct s as [o|]; [|contradiction]. eapply stored_n. apply H1. }
      unfold head_after in *. now rewrite Ep.
    + intros m Hm Hin. rewrite all_pages_cons in Hin. rewrite F2, F1; [reflexivity|exact Hm|intros C; apply Hin, in_or_app; now left|exact Hm|intros C; apply Hin, in_or_app; now right].
Qed.

(** ** files of another length or that are not there (older format) *)
Definition misfit (b : option (list Z)) (t : option thing) : Prop :=
  match b, t with
  | Some b, Some t => length b <> t_len t /\ Z.of_nat (length b) < 2^32
  | Some b, None => (0 < length b)%nat /\ Z.of_nat (length b) < 2^32
  | None, _ => False
  end.
Lemma put_len_bad (st : store) fl o n len tabs dp b r : stored ps F80 st n len tabs dp -> good ps st -> opened F80 (set_cached o None) n len tabs dp -> length b <> len -> Z.of_nat (length b) < 2^32 ->
  put_all 0 cached P false st fl o b <> Ok r.
Proof.
  intros Hs Hg Hop Hne H32 H. unfold put_all in H. assert (Et : o_ty o = Data80) by (destruct Hop as (_ & _ & A & _); exact A). rewrite Et in H.
  destruct (set_len 0 cached P st fl (set_cached o None) (zlen b)) as [x| | |] eqn:E; try discriminate. unfold zlen, P in E.
  now destruct (set_len_bad cached ps F80 st fl (set_cached o None) n len tabs dp (length b) x Hs Hg ltac:(discriminate) Hop Hne H32 E).
Qed.
End Imp.

Lemma import_misfit cached ps root d slots : forall ts news i st fl fb stk, (1 <= i)%nat -> gives root d i news -> length news = length slots -> slots_ok ps st slots ts -> Forall older ts -> NoDup (all_pages ts) -> good ps st ->
  free_list ps st fl fb stk -> apart st fb stk (all_pages ts) -> zlen st + 1 < 2^32 ->
  (exists j new t, nth_error news j = Some new /\ nth_error ts j = Some t /\ misfit (option_map fst new) t) -> (forall j b v, nth_error news j = Some (Some (b, v)) -> Z.of_nat (length b) < 2^32) ->
  (forall j b v, nth_error news j = Some (Some (b, v)) -> nth_error ts j = Some None -> (0 < length b)%nat) ->
  forall r, import_files 0 cached (Z.of_nat ps) false false root d i st fl slots <> Ok r.
Proof.
  induction slots as [|s slots IH]; intros ts news i st fl fb stk Hi Hgv HL Hs Hold Hnd Hg Hfl Hap H32 (j & new & t & Hn & Ht & Hbad) Hsm Hpos r H.
  - destruct news; [|discriminate]. destruct j; discriminate.
  - inversion Hs as [|a t0 b r0 H1 H2]; subst. destruct news as [|new0 news]; [discriminate|]. injection HL as HL. inversion_clear Hold as [|? ? Ho1 Ho2]. pose proof Hnd as Hnd0. rewrite all_pages_cons in Hnd. destruct (nodup_parts _ _ Hnd) as (Nd1 & Nd2 & Ndx).
    rewrite files_step in H. destruct (step 0 cached ps false root d i st fl s) as [[[[st1 fl1] s1] made]| | |] eqn:E1; try discriminate. cbn [rbind] in H.
    destruct new0 as [[b v]|].
    + rewrite (step_some 0 cached ps false root d i st fl s b v news Hi Hgv) in E1. destruct (gives_len cached ps root d _ _ _ _ Hgv) as (Lv & Bv & Bb).
      destruct s as [o|], t0 as [x|]; cbn [slot_ok] in H1; try contradiction.
      * cbn in Ho1. pose proof H1 as (Hst & Hnf & Hop & _). rewrite Ho1 in Hst, Hop.
        destruct (Nat.eq_dec (length b) (t_len x)) as [El|El].
        -- destruct (one_frame 0 cached ps false st fl o x b v H1 Hg Nd1 Bb El ltac:(rewrite Ho1; discriminate) Lv Bv) as (st2 & o1 & E & A1 & A2 & A3 & A4). rewrite E in E1. cbn [rbind] in E1.
           assert (Rn : 0 <= t_n x < zlen st2) by (eapply stored_n; exact A1). destruct (upd_facts ps st2 (t_n x) v A2 Rn ltac:(apply A1) Lv Bv) as (U1 & U2 & U3 & U4).
           apply ok_inj in E1. apply pair_equal_spec in E1. destruct E1 as [E1 _]. apply pair_equal_spec in E1. destruct E1 as [E1 _]. apply pair_equal_spec in E1. destruct E1 as [<- <-].
           set (st1 := upd st2 (t_n x) (splice (page st2 (t_n x)) 12 v)) in *.
           assert (F1 : forall m, 0 <= m -> ~ In m (pages x) -> page st1 m = page st m) by (intros m Hm Hin; unfold st1; rewrite U3; [now apply A4|exact Hm|]; intros ->; apply Hin; now left).
           destruct (slots_frame ps st st1 slots r0 H2 U1 ltac:(lia)) as [S1 _]; [intros m Hm H0; apply F1; [exact H0|]; intros C; now apply (Ndx m)|].
           destruct j as [|j].
           { cbn [nth_error] in Hn, Ht. injection Hn as <-. injection Ht as <-. cbn in Hbad. lia. }
           rewrite all_pages_cons in Hap. destruct Hap as [Ap1 Ap2].
           assert (Hin : forall m, In m (pages x) -> 1 < m < zlen st /\ ~ In m fb /\ ~ In m stk).
           { intros m Hm. split; [apply (in_forall _ _ m Ap2), in_or_app; right; apply in_or_app; now left|]. split; intros C.
             - eapply (disjoint_in fb); [exact Ap1|exact C|]. apply in_or_app; right. apply in_or_app; now left.
             - destruct (nodup_parts _ _ Ap1) as (_ & Ap3 & _). eapply (disjoint_in stk); [exact Ap3|exact C|]. apply in_or_app; now left. }
           destruct (import_files 0 cached (Z.of_nat ps) false false root d (S i) st1 fl slots) as [y| | |] eqn:Ey; try discriminate.
           refine (IH r0 news (S i) st1 fl fb stk ltac:(lia) (gives_tail cached ps root d _ _ _ Hi Hgv) HL S1 Ho2 Nd2 U1 _ _ _ _ _ _ y Ey).
           ++ eapply free_frame; [exact Hfl| | |lia].
              ** apply F1; [lia|]. intros C. destruct (Hin 1 C). lia.
              ** intros q Hq. pose proof Hfl as (_ & _ & _ & _ & _ & _ & _ & _ & _ & A10 & _). pose proof (in_forall _ _ q A10 Hq) as Rq. cbn in Rq. apply F1; [lia|]. intros C. now destruct (Hin q C) as (_ & C2 & _).
           ++ split.
              ** destruct (nodup_parts _ _ Ap1) as (B1 & B2 & B3). destruct (nodup_parts _ _ B2) as (B4 & B5 & B6). destruct (nodup_parts _ _ B5) as (_ & B7 & _).
                 apply NoDup_app_i; [exact B1|apply NoDup_app_i; [exact B4|exact B7|intros z Hz1 Hz2; apply (B6 z Hz1), in_or_app; now right]|].
                 intros z Hz1 Hz2. apply (B3 z Hz1). apply in_app_or in Hz2. apply in_or_app. destruct Hz2 as [Hz2|Hz2]; [now left|right; apply in_or_app; now right].
              ** replace (zlen st1) with (zlen st) by lia. apply Forall_forall. intros z Hz. apply (in_forall _ _ z Ap2). apply in_app_or in Hz. apply in_or_app. destruct Hz; [now left|right; apply in_or_app; now right].
           ++ lia.
           ++ exists j, new, t. auto.
           ++ intros k b' v' Hk. apply (Hsm (S k) b' v' Hk).
           ++ intros k b' v' Hk Hk'. apply (Hpos (S k) b' v' Hk Hk').
        -- unfold import_one, in_file in E1. cbn [rbind] in E1. destruct (put_all 0 cached (Z.of_nat ps) false st fl o b) as [w| | |] eqn:Ew; try discriminate.
           eapply (put_len_bad cached ps st fl o); [exact Hst|exact Hg|exact Hop|exact El|apply (Hsm 0%nat b v eq_refl)|exact Ew].
      * unfold import_one, in_file in E1. destruct (new_obj_ok cached ps st fl fb stk _ Hg Hfl Hap H32) as (st2 & fl2 & o & n & stk' & E & T & S2 & O2 & G2 & _). rewrite E in E1. cbn [rbind] in E1.
        destruct (put_all 0 cached (Z.of_nat ps) false st2 fl2 o b) as [w| | |] eqn:Ew; try discriminate. pose proof (Hpos 0%nat b v eq_refl eq_refl) as Hb.
        eapply (put_len_bad cached ps st2 fl2 o); [exact S2|exact G2| |intros C; rewrite C in Hb; lia|apply (Hsm 0%nat b v eq_refl)|exact Ew]. destruct O2 as (Q1 & Q2 & Q3). split; [exact Q1|]. split; [reflexivity|exact Q3].
    + rewrite (step_none 0 cached ps false root d i st fl s news Hi Hgv) in E1. apply ok_inj in E1. apply pair_equal_spec in E1. destruct E1 as [E1 _]. apply pair_equal_spec in E1. destruct E1 as [E1 _]. apply pair_equal_spec in E1. destruct E1 as [<- <-].
      destruct j as [|j].
      { cbn [nth_error] in Hn, Ht. injection Hn as <-. exact Hbad. }
      destruct (import_files 0 cached (Z.of_nat ps) false false root d (S i) st fl slots) as [y| | |] eqn:Ey; try discriminate.
      destruct Hap as [Ap1 Ap2]. rewrite all_pages_cons in Ap1, Ap2.
      refine (IH r0 news (S i) st fl fb stk ltac:(lia) (gives_tail cached ps root d _ _ _ Hi Hgv) HL H2 Ho2 Nd2 Hg Hfl _ H32 _ _ _ y Ey).
      * split.
        -- destruct (nodup_parts _ _ Ap1) as (B1 & B2 & B3). destruct (nodup_parts _ _ B2) as (B4 & B5 & B6). destruct (nodup_parts _ _ B5) as (_ & B7 & _).
           apply NoDup_app_i; [exact B1|apply NoDup_app_i; [exact B4|exact B7|intros z Hz1 Hz2; apply (B6 z Hz1), in_or_app; now right]|].
           intros z Hz1 Hz2. apply (B3 z Hz1). apply in_app_or in Hz2. apply in_or_app. destruct Hz2 as [Hz2|Hz2]; [now left|right; apply in_or_app; now right].
        -- apply Forall_forall. intros z Hz. apply (in_forall _ _ z Ap2). apply in_app_or in Hz. apply in_or_app. destruct Hz; [now left|right; apply in_or_app; now right].
      * exists j, new, t. auto.
      * intros k b' v' Hk. apply (Hsm (S k) b' v' Hk).
      * intros k b' v' Hk Hk'. apply (Hpos (S k) b' v' Hk Hk').
Qed.
