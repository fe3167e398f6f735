(** Replacing the whole contents: the complete call. *)
From Verif Require Import Prelude Lists Obj_Model Obj_Spec Obj_Proofs Obj_Write Obj_More Obj_Hist Obj_Make Alloc_Model Alloc_Spec Alloc_Proofs Alloc_More Alloc_Grow Alloc_Len Alloc_Put.
Ltac Zify.zify_post_hook ::= idtac.

(** data pages that the call writes *)
Definition written (f : fmt) (ps : nat) (tabs dp D : list Z) : nat :=
  match f with F80 => reached ps dp D tabs per80 | _ => length dp end.

Lemma tables_page_list st per hdr cnt tabs dp : (0 < per)%nat -> tables st per hdr cnt tabs dp ->
  forall c b, nth_error dp c = Some b -> exists t, nth_error tabs (c / per) = Some t /\ entry (page st t) (Z.of_nat hdr) (Z.of_nat (c mod per)) = Ok b.
Proof.
  intros Hp Ht c b Hb. destruct (tables_lists st per hdr cnt tabs dp Hp Ht c b Hb) as (t & tp & E & Hpg & He). exists t. split; [exact E|]. destruct (page_of _ _ _ Hpg) as [-> _]. exact He.
Qed.
Lemma tables_range st per hdr cnt tabs dp n : tables st per hdr cnt tabs dp -> NoDup (pages_of n tabs dp) -> Forall (fun t => 0 <= t < zlen st /\ ~ In t dp) tabs.
Proof.
  intros [_ Ht] Hnd. apply Forall_forall. intros t Hin. destruct (In_nth_error _ _ Hin) as (j & Hj). destruct (Ht j t Hj) as (p & Hp & _). destruct (page_of _ _ _ Hp) as [_ R]. split; [exact R|].
  intros C. inversion_clear Hnd as [|x l Hx Hl]. eapply disjoint_in; eauto.
Qed.

Lemma upto_rest ps st0 dp D c st f n len tabs : upto ps st0 dp D c st -> stored ps f st0 n len tabs dp -> NoDup (pages_of n tabs dp) ->
  page st n = page st0 n /\ zlen st = zlen st0 /\ good ps st /\ (forall t, In t tabs -> 0 <= t -> page st t = page st0 t).
Proof.
  intros (Hg & Hz & Ho & _) (_ & _ & _ & _ & _ & _ & _ & h & Hh & _) Hnd. inversion_clear Hnd as [|x l Hx Hl]. destruct (page_of _ _ _ Hh) as [_ R].
  split; [apply Ho; [lia|intros C; apply Hx, in_or_app; now right]|]. split; [exact Hz|]. split; [exact Hg|]. intros t Ht Hr. apply Ho; [exact Hr|]. intros C. eapply disjoint_in; eauto.
Qed.

Lemma len_groups_div (ps : nat) : (0 < ps)%nat -> Z.of_nat (ps / 4) = Z.of_nat ps / 4.
Proof. intros H. now rewrite Nat2Z.inj_div. Qed.

Lemma put_all_ok slack cached ps f st fl o n len tabs dp D : stored ps f st n len tabs dp -> good ps st -> NoDup (pages_of n tabs dp) -> f <> FFree ->
  opened f (set_cached o None) n len tabs dp -> bytes_ok D -> length D = len -> (f = F838_deep -> (0 < len)%nat) ->
  exists st' o', put_all slack cached (Z.of_nat ps) false st fl o D = Ok (st', fl, o') /\ stored ps f st' n len tabs dp /\ opened f o' n len tabs dp /\ good ps st' /\ zlen st' = zlen st /\
    content st' dp len = firstn (written f ps tabs dp D * ps) D ++ skipn (written f ps tabs dp D * ps) (content st dp len) /\
    (forall m, 0 <= m -> m <> n -> ~ In m dp -> page st' m = page st m).
Proof.
  intros Hs Hg Hnd Hnf Hop HD HL Hpos. pose proof Hs as (Hst & Hby & H32 & Hm4 & H17 & Hdp & Hpg & h & Hh & Hf). destruct (page_of _ _ _ Hh) as [Eh Rh].
  assert (Hnd' : NoDup dp) by (inversion_clear Hnd as [|x l Hx Hl]; clear - Hl; induction tabs as [|t ts IH]; [exact Hl|apply IH; now inversion Hl]).
  assert (Hrg : Forall (fun b => 0 <= b < zlen st) dp) by (eapply Forall_impl; [|exact Hpg]; intros b (p & Hp); apply (page_of _ _ _ Hp)).
  assert (Hlen : length dp = groups (length D) ps) by congruence.
  pose proof (upto_0 ps st dp D Hg) as U0.
  pose proof (quarter ps Hm4) as Hq.
  assert (Hset : set_len slack cached (Z.of_nat ps) st fl (set_cached o None) (zlen D) = Ok (st, fl, set_cached o None)).
  { unfold set_len. assert (El : o_len (set_cached o None) = zlen D) by (unfold zlen; rewrite HL; destruct f; cbn [opened] in Hop; try congruence; now destruct Hop as (_ & _ & Hop); decompose [and] Hop).
    rewrite El, Z.eqb_refl. reflexivity. }
  set (o1 := set_cached o None) in *.
  assert (Hdata : exists st2, match o_ty o1 with
      | Data80 => put_out cached (Z.to_nat (o_num o1)) (o_blocks o1) 0 st D (zlen D) 0
      | _ => if o_fat o1 =? 0 then put1 cached (Z.of_nat ps) (S (length D)) st (o_blocks o1) 0 D
             else do tb <- rd (o_blocks o1) 0; do _ <- get_page st tb; put2 cached (Z.of_nat ps) (S (length D)) st (Z.of_nat ps / 4) (o_blocks o1) tb 1 0 D end = Ok st2 /\
      upto ps st dp D (written f ps tabs dp D) st2).
  { destruct f; cbn [opened] in Hop; try congruence.
    - destruct Hop as (_ & _ & Ot & Ol & Ob & On). rewrite Ot, Ob, On, Nat2Z.id. destruct Hf as (H4 & _ & _ & _ & _ & _ & Htab). cbn [written]. pose proof per80_Z as HZ. pose proof per80_pos as HP.
      destruct (Nat.eq_dec (length tabs) 0) as [E0|E0].
      + rewrite E0. cbn [put_out]. exists st. split; [reflexivity|]. pose proof Htab as [Htl _]. pose proof (groups_spec (length dp) per80 HP) as Gs. assert (Hd0 : length dp = 0%nat) by nia.
        unfold reached. rewrite E0. cbn [Nat.ltb Nat.leb andb]. rewrite Hd0. exact U0.
      + pose proof Htab as [Htl _].
        destruct (put_out_ok cached ps st dp D H32 Hrg Hnd' HD Hlen tabs per80 4 HP (tables_range _ _ _ _ _ _ _ Htab Hnd) (tables_page_list _ _ _ _ _ _ HP Htab) Htl) with (n := length tabs) (g := 0%nat) (st := st) (cl := 0) as (st' & E & U'); try assumption; try reflexivity; try lia.
        * intros g t Et. destruct Htab as [_ Htab]. destruct (Htab g t Et) as (p & Hp & _ & Hn). destruct (page_of _ _ _ Hp) as [-> _]. now apply Hn.
        * exists st'. split; [|exact U']. rewrite <- E. cbn [Nat.mul skipn]. unfold zlen. now rewrite Nat.sub_0_r.
    - destruct Hop as (_ & _ & Ot & Of & Ol & Ob & On). rewrite Ot, Of, Ob. cbn [Z.eqb written].
      destruct (put1_ok cached ps st dp D H32 Hrg Hnd' HD Hlen [] (S (length D)) 0 st U0 ltac:(lia)) as (st' & E & U'). rewrite app_nil_r in E. exists st'. split; [exact E|exact U'].
    - destruct Hop as (_ & _ & Ot & Of & Ol & Ob & On). rewrite Ot, Of, Ob. cbn [Z.eqb written]. specialize (Hpos eq_refl).
      destruct Hf as (_ & _ & _ & _ & _ & _ & Htab). assert (Hper : (0 < ps / 4)%nat) by lia.
      pose proof (groups_spec (length D) ps ltac:(lia)) as Gs. rewrite <- Hlen in Gs.
      destruct (nth_error dp 0) as [b|] eqn:Eb; [|apply nth_error_None in Eb; nia].
      destruct (tables_page_list _ _ _ _ _ _ Hper Htab 0 b Eb) as (t & Et & _). rewrite Nat.div_0_l in Et by lia.
      rewrite (rd_ok _ 0 t) by (try lia; exact Et). cbn [rbind]. pose proof (tables_range _ _ _ _ _ _ _ Htab Hnd) as Htr.
      rewrite get_page_page by (apply (in_forall _ _ t Htr); eapply nth_error_In; eauto). cbn [rbind].
      destruct (put2_ok cached ps st dp D H32 Hrg Hnd' HD Hlen tabs (ps / 4) 0 Hper Htr (tables_page_list _ _ _ _ _ _ Hper Htab) (S (length D)) eq_refl 0 st t U0 ltac:(lia)) as (st' & E & U').
      { intros _. now rewrite Nat.div_0_l by lia. }
      exists st'. split; [|exact U']. rewrite Nat.div_0_l, Nat.mod_0_l, len_groups_div in E by lia. exact E. }
  destruct Hdata as (st2 & E2 & U2). destruct (upto_rest _ _ _ _ _ _ _ _ _ _ U2 Hs Hnd) as (En & Ez & Hg2 & Ett).
  pose proof (upto_content ps st dp D H32 Hg Hrg Hlen _ _ U2) as Hc. rewrite HL in Hc.
  assert (Hob : o_block o1 = n) by apply Hop.
  assert (Hh2 : page_is st2 n h) by (rewrite <- Eh, <- En; apply page_page; [lia|destruct Hg2 as (_ & _ & ? & _); lia]).
  pose proof Hg2 as (Hst2 & Hby2 & Hz2 & Hz2').
  destruct (write_version_ok cached ps st2 o1 n h Hst2 H32 Hh2 Hob) as (st3 & o3 & v & Ev & Bv & Lv & Hst3 & T1 & T2 & T3 & T4 & T5 & T6 & T7).
  assert (Hlh : length h = ps) by (rewrite <- Eh; apply (good_page ps st n Hg Rh)).
  assert (Bh : bytes_ok h) by (rewrite <- Eh; apply (good_page ps st n Hg Rh)).
  assert (Hvo : match o_ty o1 with Data80 | Free80 => 12 | _ => 4 end%nat = ver_off f) by (destruct f; cbn [opened] in Hop; try congruence; destruct Hop as (_ & _ & Ot & _); rewrite Ot; reflexivity).
  rewrite Hvo in Hst3.
  assert (Hvl : (ver_off f + length v <= 24)%nat) by (destruct f; cbn; lia).
  assert (Hup : good ps st3 /\ zlen st3 = zlen st /\ (forall m, 0 <= m -> m <> n -> page st3 m = page st2 m) /\ exists h', page_is st3 n h' /\ (h' = h \/ h' = splice h (ver_off f) v)).
  { destruct Hst3 as [->| ->].
    - split; [exact Hg2|]. split; [exact Ez|]. split; [reflexivity|]. exists h. split; [exact Hh2|now left].
    - change (splice st2 (Z.to_nat n) [splice h (ver_off f) v]) with (upd st2 n (splice h (ver_off f) v)). rewrite upd_len by lia. split; [apply upd_good; [exact Hg2|lia|rewrite splice_length; lia|now apply bytes_ok_splice]|].
      split; [exact Ez|]. split; [intros m Hm Hne; rewrite upd_page by lia; destruct (Z.eqb_spec m n); [lia|reflexivity]|].
      exists (splice h (ver_off f) v). split; [|now right]. replace (splice h (ver_off f) v) with (page (upd st2 n (splice h (ver_off f) v)) n) at 2 by (rewrite upd_page, Z.eqb_refl by lia; reflexivity).
      apply page_page; rewrite upd_len by lia; lia. }
  destruct Hup as (Hg3 & Ez3 & Ho3 & h' & Hh' & Hcase).
  assert (Hnn : ~ In n dp /\ ~ In n tabs) by (inversion_clear Hnd as [|x l Hx Hl]; split; intros C; apply Hx, in_or_app; auto).
  exists st3, o3. unfold put_all. fold o1. replace (o_ty o) with (o_ty o1) by reflexivity.
  split; [|split; [|split; [|split; [|split; [|split]]]]].
  - rewrite Hset. cbn [rbind]. destruct (o_ty o1) eqn:Et; try (destruct f; cbn [opened] in Hop; destruct Hop as (_ & _ & Ot & _); congruence);
      (rewrite E2; cbn [rbind]; rewrite Ev; reflexivity).
  - pose proof Hg3 as (G1 & G2 & G3 & G4). eapply (stored_update ps f st st3); eauto.
    + apply Forall_forall. intros b Hb. exists (page st3 b). pose proof (in_forall _ _ b Hrg Hb) as Rb. cbn in Rb. apply page_page; lia.
    + intros t Ht. assert (Rt : 0 <= t < zlen st).
      { destruct f; try congruence; cbn in Hf; decompose [and] Hf; try (subst tabs; destruct Ht);
        match goal with H : tables _ _ _ _ _ _ |- _ => pose proof (tables_range _ _ _ _ _ _ _ H Hnd) as Htr; apply (in_forall _ _ t Htr Ht) end. }
      rewrite !page_nth by lia. rewrite Ho3, Ett; try lia; try assumption. congruence. intros ->. now apply Hnn.
  - destruct Hop as (P1 & P2 & P3). split; [congruence|]. split; [congruence|]. destruct f; try congruence; rewrite T1, ?T2, T3, T4, T5; exact P3.
  - exact Hg3.
  - lia.
  - rewrite <- Hc. unfold content. f_equal. apply flat_stable. intros b Hb. apply Ho3; [pose proof (in_forall _ _ b Hrg Hb) as Rb; cbn in Rb; lia|]. intros ->. now apply Hnn.
  - intros m Hm Hne Hin. rewrite Ho3 by assumption. destruct U2 as (_ & _ & Ho & _). now apply Ho.
Qed.

Lemma whole_put slack cached ps f st fl o n len tabs dp D : stored ps f st n len tabs dp -> good ps st -> NoDup (pages_of n tabs dp) -> f <> FFree ->
  opened f (set_cached o None) n len tabs dp -> bytes_ok D -> length D = len -> (f = F838_deep -> (0 < len)%nat) -> ~ (f = F80 /\ lone_page F80 ps len) ->
  exists st' o', put_all slack cached (Z.of_nat ps) false st fl o D = Ok (st', fl, o') /\ stored ps f st' n len tabs dp /\ opened f o' n len tabs dp /\ good ps st' /\ zlen st' = zlen st /\
    content st' dp len = D /\ (forall m, 0 <= m -> m <> n -> ~ In m dp -> page st' m = page st m).
Proof.
  intros Hs Hg Hnd Hnf Hop HD HL Hpos Hno. destruct (put_all_ok slack cached ps f st fl o n len tabs dp D Hs Hg Hnd Hnf Hop HD HL Hpos) as (st' & o' & A1 & A2 & A3 & A4 & A5 & A6 & A7).
  exists st', o'. split; [exact A1|]. split; [exact A2|]. split; [exact A3|]. split; [exact A4|]. split; [exact A5|]. split; [|exact A7].
  pose proof (content_len _ _ _ _ _ _ _ Hs) as Hcl. destruct Hs as (_ & _ & H32 & _ & _ & Hdp & _ & h & _ & Hf). pose proof (groups_spec len ps ltac:(lia)) as Gs. rewrite <- Hdp in Gs.
  assert (Hw : (length D <= written f ps tabs dp D * ps)%nat).
  { destruct f; cbn [written]; try lia. unfold reached. destruct (Nat.ltb_spec 1 (length tabs)) as [Ht|]; cbn [andb]; [|lia]. destruct (Nat.leb_spec (length D) ((length tabs - 1) * per80 * ps + ps)) as [Hle|]; [|lia].
    exfalso. apply Hno. split; [reflexivity|]. exists (length tabs - 1)%nat. destruct Hf as (_ & _ & _ & _ & _ & _ & Htab & _). pose proof (groups_spec (length dp) per80 per80_pos) as G2. rewrite <- Htab in G2. split; [lia|].
    split; [|lia]. assert (((length tabs - 1) * per80 + 1 <= length dp)%nat) by (replace (length tabs * per80)%nat with ((length tabs - 1) * per80 + per80)%nat in G2 by nia; lia). nia. }
  rewrite A6. rewrite firstn_all2, skipn_all2 by lia. apply app_nil_r.
Qed.

(** ... and the last page is left as it was in the remaining case *)
Lemma whole_put_lone slack cached ps st fl o n len tabs dp D : stored ps F80 st n len tabs dp -> good ps st -> NoDup (pages_of n tabs dp) ->
  opened F80 (set_cached o None) n len tabs dp -> bytes_ok D -> length D = len -> lone_page F80 ps len ->
  exists st' o', put_all slack cached (Z.of_nat ps) false st fl o D = Ok (st', fl, o') /\ stored ps F80 st' n len tabs dp /\
    exists c, (c < len <= c + ps)%nat /\ content st' dp len = firstn c D ++ skipn c (content st dp len).
Proof.
  intros Hs Hg Hnd Hop HD HL (k & Hk & Hl). destruct (put_all_ok slack cached ps F80 st fl o n len tabs dp D Hs Hg Hnd ltac:(discriminate) Hop HD HL ltac:(discriminate)) as (st' & o' & A1 & A2 & A3 & A4 & A5 & A6 & A7).
  exists st', o'. split; [exact A1|]. split; [exact A2|]. exists (k * per80 * ps)%nat. split; [lia|]. rewrite A6.
  destruct Hs as (_ & _ & H32 & _ & _ & Hdp & _ & h & _ & Hf). pose proof (groups_spec len ps ltac:(lia)) as Gs. rewrite <- Hdp in Gs.
  destruct Hf as (_ & _ & _ & _ & _ & _ & Htab & _). pose proof (groups_spec (length dp) per80 per80_pos) as G2. rewrite <- Htab in G2. pose proof per80_pos.
  assert (E1 : length dp = (k * per80 + 1)%nat) by nia. assert (E2 : length tabs = S k) by nia.
  replace (written F80 ps tabs dp D) with (k * per80)%nat; [reflexivity|]. cbn [written]. unfold reached. rewrite E2. replace (S k - 1)%nat with k by lia.
  destruct (Nat.ltb_spec 1 (S k)); [|lia]. destruct (Nat.leb_spec (length D) (k * per80 * ps + ps)); [reflexivity|lia].
Qed.
