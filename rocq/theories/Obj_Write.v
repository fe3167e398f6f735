(** Overwriting part of an object. *)
From Verif Require Import Prelude Lists Obj_Model Obj_Spec Obj_Proofs.
Ltac Zify.zify_post_hook ::= idtac.

Lemma page_splice (st : store) b q n : (b < length st)%nat -> nth_error (splice st b [q]) n = if (n =? b)%nat then Some q else nth_error st n.
Proof. apply nth_error_splice1. Qed.

Section Wr.
Context (ps : nat) (Hps : (0 < ps)%nat) (dp : list Z) (Hnd : NoDup dp) (cached : Z -> bool).

Definition wf_pages (st : store) : Prop := Forall (fun p => length p = ps) st /\ Forall (fun b => exists p, page_is st b p) dp.

Lemma flat_update st c b p q : wf_pages st -> nth_error dp c = Some b -> page_is st b p -> length q = ps ->
  flat (splice st (Z.to_nat b) [q]) dp = splice (flat st dp) (c * ps) q.
Proof.
  intros [Hst Hdp] E Hp Hq. assert (Hlt : (Z.to_nat b < length st)%nat) by (destruct Hp as [_ Hp]; apply nth_error_Some; congruence).
  assert (Hc : (c < length dp)%nat) by (apply nth_error_Some; congruence).
  unfold flat. rewrite <- (concat_splice _ ps) by (rewrite ?map_length; try assumption; now apply flat_pages). f_equal.
  apply nth_error_ext. intros i. rewrite nth_error_splice1 by (rewrite map_length; lia). rewrite !nth_error_map.
  destruct (Nat.eqb_spec i c) as [->|Hi].
  - rewrite E. cbn. rewrite (nth_error_nth_Z _ _ q); [reflexivity|]. rewrite page_splice, Nat.eqb_refl by exact Hlt. reflexivity.
  - destruct (nth_error dp i) as [b'|] eqn:Eb; [|reflexivity]. cbn. f_equal.
    assert (Hb' : exists p', page_is st b' p') by (rewrite Forall_forall in Hdp; apply Hdp; eapply nth_error_In; eauto). destruct Hb' as (p' & [Hr' Hp']).
    rewrite (nth_error_nth_Z _ _ _ _ Hp'). apply nth_error_nth_Z. rewrite page_splice by exact Hlt.
    destruct (Nat.eqb_spec (Z.to_nat b') (Z.to_nat b)) as [Ebb|]; [|exact Hp'].
    exfalso. apply Hi. apply (NoDup_nth_inj dp i c b Hnd); [|exact E]. destruct Hp as [Hr _]. rewrite Eb. f_equal. lia.
Qed.

(** one page *)
Lemma write_page_ok st c b off d : wf_pages st -> nth_error dp c = Some b -> (off + length d <= ps)%nat ->
  exists st', write_page cached (Z.of_nat ps) st b (negb (zlen d =? Z.of_nat ps)) (Z.of_nat off) d = Ok st' /\ wf_pages st' /\
    flat st' dp = splice (flat st dp) (c * ps + off) d /\ length st' = length st /\
    (forall n, n <> Z.to_nat b -> nth_error st' n = nth_error st n).
Proof.
  intros Hwf E Hd. pose proof Hwf as [Hst Hdp].
  assert (Hb : exists p, page_is st b p) by (rewrite Forall_forall in Hdp; apply Hdp; eapply nth_error_In; eauto). destruct Hb as (p & Hp).
  pose proof (page_len _ _ _ _ Hst Hp) as Hlp. pose proof Hp as [Hr Hn].
  assert (Hlt : (Z.to_nat b < length st)%nat) by (apply nth_error_Some; congruence).
  assert (Hc : (c < length dp)%nat) by (apply nth_error_Some; congruence).
  unfold write_page. destruct (Z.ltb_spec b 0); [lia|]. destruct (Z.ltb_spec (zlen st) b); [unfold zlen in *; lia|]. cbn [orb].
  destruct (Z.eqb_spec b (zlen st)); [unfold zlen in *; lia|].
  rewrite (rd_ok st b p) by (lia || exact Hn). cbn [rbind].
  set (base := if negb (zlen d =? Z.of_nat ps) || cached b then p else repeat 0 (Z.to_nat (Z.of_nat ps))).
  assert (Hbase : splice base off d = splice p off d /\ length base = ps).
  { unfold base. destruct (Z.eqb_spec (zlen d) (Z.of_nat ps)) as [El|]; cbn [negb orb]; [|split; [reflexivity|exact Hlp]].
    destruct (cached b); [split; [reflexivity|exact Hlp]|]. rewrite Nat2Z.id. unfold zlen in El. assert (off = 0)%nat by lia. subst off.
    split; [|apply repeat_length]. rewrite !splice_full; [reflexivity|lia|rewrite repeat_length; lia]. }
  destruct Hbase as [Hbase Hbl].
  unfold wrn. destruct (Z.ltb_spec (Z.of_nat off) 0); [lia|]. destruct (Z.ltb_spec (zlen base) (Z.of_nat off + zlen d)); [unfold zlen in *; lia|].
  cbn [orb rbind]. rewrite Nat2Z.id, Hbase. eexists. split; [reflexivity|].
  assert (Hq : length (splice p off d) = ps) by (rewrite splice_length; lia).
  split; [|split; [|split]].
  - split; [apply Forall_splice; [exact Hst|constructor; [exact Hq|constructor]]|].
    rewrite Forall_forall in *. intros b' Hb'. destruct (Hdp b' Hb') as (p' & Hr' & Hp').
    destruct (Nat.eq_dec (Z.to_nat b') (Z.to_nat b)) as [Ee|Ee].
    + exists (splice p off d). split; [exact Hr'|]. rewrite page_splice by exact Hlt. rewrite Ee, Nat.eqb_refl. reflexivity.
    + exists p'. split; [exact Hr'|]. rewrite page_splice by exact Hlt. destruct (Nat.eqb_spec (Z.to_nat b') (Z.to_nat b)); [contradiction|exact Hp'].
  - rewrite (flat_update st c b p) by assumption. apply splice_inner; [|rewrite (flat_len ps st Hst dp Hdp)|]; rewrite Hlp; try lia; [|nia].
    now apply (flat_page ps st Hst dp c b p).
  - apply splice_length. cbn [length]. lia.
  - intros m Hm. rewrite page_splice by exact Hlt. destruct (Nat.eqb_spec m (Z.to_nat b)); [contradiction|reflexivity].
Qed.

Definition in_pages (n : nat) : Prop := exists b, In b dp /\ n = Z.to_nat b.

Lemma write1_ok fuel : forall st d c off, wf_pages st -> (length d < fuel)%nat -> (off < ps)%nat -> (c * ps + off + length d <= length dp * ps)%nat ->
  exists st', write1 fuel cached st (Z.of_nat ps) dp (Z.of_nat c) (Z.of_nat off) d = Ok st' /\ wf_pages st' /\
    flat st' dp = splice (flat st dp) (c * ps + off) d /\ length st' = length st /\ (forall n, ~ in_pages n -> nth_error st' n = nth_error st n).
Proof.
  induction fuel as [|fuel IH]; intros st d c off Hwf Hf Ho Hl; [lia|].
  destruct d as [|x d0]; [exists st; rewrite splice_nil; cbn [write1]; auto|].
  set (d := x :: d0) in *. assert (Hd0 : (0 < length d)%nat) by (cbn; lia). cbn [write1].
  change (match d with [] => Ok st | _ :: _ => ?e end) with e.
  assert (Hcd : (c < length dp)%nat) by nia. destruct (nth_error dp c) as [b|] eqn:Eb; [|apply nth_error_None in Eb; lia].
  rewrite (rd_ok dp _ b); [|lia|rewrite Nat2Z.id; exact Eb]. cbn [rbind].
  set (cl := Nat.min (ps - off) (length d)).
  replace (Z.min (Z.of_nat ps - Z.of_nat off) (zlen d)) with (Z.of_nat cl) by (unfold zlen; lia). rewrite Nat2Z.id.
  assert (Hfl : length (firstn cl d) = cl) by (rewrite firstn_length; lia).
  destruct (write_page_ok st c b off (firstn cl d) Hwf Eb ltac:(lia)) as (st1 & E1 & W1 & F1 & L1 & O1).
  unfold zlen in E1. rewrite Hfl in E1. rewrite E1. cbn [rbind].
  replace (Z.of_nat c + 1) with (Z.of_nat (S c)) by lia. change 0 with (Z.of_nat 0).
  destruct (IH st1 (skipn cl d) (S c) 0%nat W1) as (st2 & E2 & W2 & F2 & L2 & O2); [rewrite skipn_length; lia|lia|rewrite skipn_length; cbn [Nat.mul]; nia|].
  exists st2. split; [exact E2|]. split; [exact W2|]. split; [|split; [congruence|]].
  - rewrite F2, F1. rewrite <- (firstn_skipn cl d) at 3. destruct Hwf as [Hst Hdp]. pose proof (flat_len ps st Hst dp Hdp) as Hfl'.
    rewrite splice_app; rewrite ?firstn_length, ?skipn_length, ?Hfl'; try nia.
    destruct (Nat.eq_dec cl (length d)) as [Ec|Ec].
    + rewrite (skipn_all2 d) by lia. now rewrite !splice_nil.
    + f_equal. cbn [Nat.mul]. lia.
  - intros n Hn. rewrite O2 by exact Hn. apply O1. intros ->. apply Hn. exists b. split; [eapply nth_error_In; eauto|reflexivity].
Qed.

Context (per hdr : nat) (Hper : (0 < per)%nat) (tabs : list Z) (Hdis : forall t b, In t tabs -> In b dp -> t <> b).

Lemma lists_stable st st' : lists st per hdr tabs dp -> (forall n, ~ in_pages n -> nth_error st' n = nth_error st n) ->
  Forall (fun b => 0 <= b) dp -> lists st' per hdr tabs dp.
Proof.
  intros Hl Ho Hp c b Hb. destruct (Hl c b Hb) as (t & tp & E1 & [Hr E2] & E3). exists t, tp. split; [exact E1|]. split; [|exact E3].
  split; [exact Hr|]. rewrite Ho; [exact E2|]. intros (b' & Hb' & Ee). apply (Hdis t b'); [eapply nth_error_In; eauto|exact Hb'|].
  rewrite Forall_forall in Hp. specialize (Hp b' Hb'). lia.
Qed.
Lemma dp_nonneg st : wf_pages st -> Forall (fun b => 0 <= b) dp.
Proof. intros [_ H]. eapply Forall_impl; [|exact H]. intros b (p & [Hr _]). lia. Qed.

Lemma write2_ok fuel : forall st d c off tb, wf_pages st -> lists st per hdr tabs dp -> (length d < fuel)%nat -> (off < ps)%nat -> (c * ps + off + length d <= length dp * ps)%nat ->
  nth_error tabs (c / per) = Some tb ->
  exists st', write2 fuel cached st (Z.of_nat ps) (Z.of_nat per) (Z.of_nat hdr) tabs tb (Z.of_nat (c / per) + 1) (Z.of_nat (c mod per)) (Z.of_nat off) d = Ok st' /\ wf_pages st' /\
    flat st' dp = splice (flat st dp) (c * ps + off) d /\ length st' = length st /\ (forall n, ~ in_pages n -> nth_error st' n = nth_error st n).
Proof.
  induction fuel as [|fuel IH]; intros st d c off tb Hwf Hli Hf Ho Hl Htb; [lia|].
  destruct d as [|x d0]; [exists st; rewrite splice_nil; cbn [write2]; auto|].
  set (d := x :: d0) in *. assert (Hd0 : (0 < length d)%nat) by (cbn; lia). cbn [write2].
  change (match d with [] => Ok st | _ :: _ => ?e end) with e.
  assert (Hcd : (c < length dp)%nat) by nia. destruct (nth_error dp c) as [b|] eqn:Eb; [|apply nth_error_None in Eb; lia].
  destruct (Hli c b Eb) as (t & tp & E1 & E2 & E3). assert (t = tb) as -> by congruence.
  rewrite (get_page_ok _ _ _ E2). cbn [rbind]. rewrite E3. cbn [rbind].
  set (cl := Nat.min (ps - off) (length d)).
  replace (Z.min (Z.of_nat ps - Z.of_nat off) (zlen d)) with (Z.of_nat cl) by (unfold zlen; lia). rewrite Nat2Z.id.
  assert (Hfl : length (firstn cl d) = cl) by (rewrite firstn_length; lia).
  destruct (write_page_ok st c b off (firstn cl d) Hwf Eb ltac:(lia)) as (st1 & W0 & W1 & F1 & L1 & O1).
  unfold zlen in W0 at 1. rewrite Hfl in W0. rewrite W0. cbn [rbind].
  assert (O1' : forall n, ~ in_pages n -> nth_error st1 n = nth_error st n).
  { intros n Hn. apply O1. intros ->. apply Hn. exists b. split; [eapply nth_error_In; eauto|reflexivity]. }
  pose proof (lists_stable st st1 Hli O1' (dp_nonneg st Hwf)) as Hli1.
  pose proof Hwf as [Hst Hdp]. pose proof (flat_len ps st Hst dp Hdp) as Hfl'.
  assert (Hz : zlen (skipn cl d) = Z.of_nat (length d - cl)) by (unfold zlen; now rewrite skipn_length).
  rewrite Hz.
  destruct (Nat.eq_dec (length d - cl) 0) as [Ez|Ez].
  { rewrite Ez. destruct (Z.ltb_spec 0 (Z.of_nat 0)); [lia|]. cbn [andb]. rewrite (skipn_all2 d) by lia.
    exists st1. split; [destruct fuel; reflexivity|]. split; [exact W1|]. split; [|split; assumption]. rewrite F1. f_equal. rewrite firstn_all2 by lia. reflexivity. }
  destruct (Z.ltb_spec 0 (Z.of_nat (length d - cl))); [|lia]. cbn [andb].
  pose proof (Nat.mod_upper_bound c per ltac:(lia)) as Hm. pose proof (Nat.div_mod c per ltac:(lia)) as Hdm.
  assert (Hnext : (S c < length dp)%nat) by nia.
  destruct (nth_error dp (S c)) as [b'|] eqn:Eb'; [|apply nth_error_None in Eb'; lia].
  destruct (Hli1 (S c) b' Eb') as (t' & tp' & G1 & G2 & _).
  assert (Hcomb : splice (splice (flat st dp) (c * ps + off) (firstn cl d)) (S c * ps + 0) (skipn cl d) = splice (flat st dp) (c * ps + off) d).
  { rewrite <- (firstn_skipn cl d) at 3. rewrite splice_app; rewrite ?firstn_length, ?skipn_length, ?Hfl'; try nia. f_equal. cbn [Nat.mul]. lia. }
  assert (Hfin : forall st2, wf_pages st2 -> flat st2 dp = splice (flat st1 dp) (S c * ps + 0) (skipn cl d) -> length st2 = length st1 -> (forall n, ~ in_pages n -> nth_error st2 n = nth_error st1 n) ->
     wf_pages st2 /\ flat st2 dp = splice (flat st dp) (c * ps + off) d /\ length st2 = length st /\ (forall n, ~ in_pages n -> nth_error st2 n = nth_error st n)).
  { intros st2 A B C D. split; [exact A|]. split; [rewrite B, F1; exact Hcomb|]. split; [congruence|]. intros n Hn. rewrite D by exact Hn. now apply O1'. }
  change 0 with (Z.of_nat 0). destruct (Z.leb_spec (Z.of_nat per) (Z.of_nat (c mod per) + 1)) as [Hw|Hw].
  - assert (Hd : (S c / per = S (c / per))%nat) by (symmetry; apply (Nat.div_unique (S c) per (S (c / per)) 0); [lia|rewrite Nat.mul_succ_r; lia]).
    assert (Hmo : (S c mod per = 0)%nat) by (symmetry; apply (Nat.mod_unique (S c) per (S (c / per)) 0); [lia|rewrite Nat.mul_succ_r; lia]).
    rewrite Hd in G1. rewrite (rd_ok _ _ t'); [| |replace (Z.to_nat (Z.of_nat (c / per) + 1)) with (S (c / per)) by lia; exact G1]; [|lia].
    cbn [rbind]. rewrite (get_page_ok _ _ _ G2). cbn [rbind].
    destruct (IH st1 (skipn cl d) (S c) 0%nat t') as (st2 & E5 & W2 & F2 & L2 & O2); try assumption; [rewrite skipn_length; lia|rewrite skipn_length; cbn [Nat.mul]; nia|rewrite Hd; exact G1|].
    rewrite Hd, Hmo in E5. replace (Z.of_nat (S (c / per)) + 1) with (Z.of_nat (c / per) + 1 + 1) in E5 by lia.
    exists st2. split; [exact E5|]. now apply Hfin.
  - assert (Hd : (S c / per = c / per)%nat) by (symmetry; apply (Nat.div_unique (S c) per (c / per) (S (c mod per))); lia).
    assert (Hmo : (S c mod per = S (c mod per))%nat) by (symmetry; apply (Nat.mod_unique (S c) per (c / per) (S (c mod per))); lia).
    destruct (IH st1 (skipn cl d) (S c) 0%nat tb) as (st2 & E5 & W2 & F2 & L2 & O2); try assumption; [rewrite skipn_length; lia|rewrite skipn_length; cbn [Nat.mul]; nia|rewrite Hd; exact Htb|].
    rewrite Hd, Hmo in E5. replace (Z.of_nat (S (c mod per))) with (Z.of_nat (c mod per) + 1) in E5 by lia.
    exists st2. split; [exact E5|]. now apply Hfin.
Qed.

Lemma wstart2_ok st d c off : wf_pages st -> lists st per hdr tabs dp -> (0 < length d)%nat -> (off < ps)%nat -> (c * ps + off + length d <= length dp * ps)%nat ->
  exists st', wstart2 cached st (Z.of_nat ps) (Z.of_nat per) (Z.of_nat hdr) tabs (Z.of_nat c) (Z.of_nat off) d = Ok st' /\ wf_pages st' /\
    flat st' dp = splice (flat st dp) (c * ps + off) d /\ length st' = length st /\ (forall n, ~ in_pages n -> nth_error st' n = nth_error st n).
Proof.
  intros Hwf Hli H0 Ho Hl. unfold wstart2. assert (Hc : (c < length dp)%nat) by nia.
  destruct (nth_error dp c) as [b|] eqn:Eb; [|apply nth_error_None in Eb; lia].
  destruct (Hli c b Eb) as (t & tp & E1 & E2 & E3). rewrite <- Nat2Z.inj_div.
  rewrite (rd_ok _ _ t); [|apply Nat2Z.is_nonneg|rewrite Nat2Z.id; exact E1]. cbn [rbind]. rewrite (get_page_ok _ _ _ E2). cbn [rbind].
  pose proof (Nat.div_mod c per ltac:(lia)) as Hdm.
  replace (Z.of_nat c - Z.of_nat (c / per) * Z.of_nat per) with (Z.of_nat (c mod per)) by nia.
  apply write2_ok; try assumption; lia.
Qed.
End Wr.

Lemma array_splice p vo v off vs : (vo + length v <= length p)%nat -> (vo + length v <= off)%nat -> array_at p off vs -> array_at (splice p vo v) off vs.
Proof. intros H1 H2 Ha i x Hi. destruct (Ha i x Hi) as [Hr E]. split; [exact Hr|]. rewrite sub_splice_other; [exact E|exact H1|right; lia]. Qed.

Definition ver_off (f : fmt) : nat := match f with F80 | FFree => 12 | _ => 4 end.

Lemma write_version_ok cached ps st o n h : Forall (fun p => length p = ps) st -> (32 <= ps)%nat -> page_is st n h -> o_block o = n ->
  exists st' o' v, write_version cached (Z.of_nat ps) st o = Ok (st', o') /\ bytes_ok v /\ length v = 8%nat /\
    (st' = st \/ st' = splice st (Z.to_nat n) [splice h (match o_ty o with Data80 | Free80 => 12 | _ => 4 end) v]) /\
    o_ty o' = o_ty o /\ o_fat o' = o_fat o /\ o_len o' = o_len o /\ o_num o' = o_num o /\ o_blocks o' = o_blocks o /\ o_block o' = o_block o /\ o_data o' = o_data o.
Proof.
  intros Hst H32 Hh Hb. pose proof (page_len _ _ _ _ Hst Hh) as Hlh. pose proof Hh as [Hr Hn]. unfold write_version.
  set (v := le_bytes 4 (u32 (o_v1 o + 1)) ++ le_bytes 4 (o_v2 o)).
  assert (Hv : bytes_ok v) by (apply bytes_ok_app; split; apply le_bytes_ok).
  assert (Hvl : length v = 8%nat) by (unfold v; rewrite app_length, !le_bytes_length; reflexivity). clearbody v.
  destruct (o_newver o).
  { exists st, o, v. split; [reflexivity|]. split; [exact Hv|]. split; [exact Hvl|]. split; [now left|]. repeat split. }
  assert (Hlt : (Z.to_nat n < length st)%nat) by (apply nth_error_Some; congruence).
  assert (Hvo : forall k, (k = 12 \/ k = 4)%nat -> write_page cached (Z.of_nat ps) st (o_block o) true (Z.of_nat k) v = Ok (splice st (Z.to_nat n) [splice h k v])).
  { intros k Hk. unfold write_page. rewrite Hb. destruct (Z.ltb_spec n 0); [lia|]. destruct (Z.ltb_spec (zlen st) n); [unfold zlen in *; lia|]. cbn [orb].
    destruct (Z.eqb_spec n (zlen st)); [unfold zlen in *; lia|]. rewrite (rd_ok st n h) by (lia || exact Hn). cbn [rbind].
    unfold wrn. destruct (Z.ltb_spec (Z.of_nat k) 0); [lia|]. destruct (Z.ltb_spec (zlen h) (Z.of_nat k + zlen v)); [unfold zlen in *; lia|]. cbn [orb rbind]. now rewrite Nat2Z.id. }
  cbv zeta. set (k := match o_ty o with Data80 | Free80 => 12%nat | _ => 4%nat end).
  replace (match o_ty o with Data80 | Free80 => 12 | _ => 4 end) with (Z.of_nat k) by (unfold k; destruct (o_ty o); reflexivity).
  rewrite Hvo by (unfold k; destruct (o_ty o); auto). cbn [rbind]. eexists _, _, v. split; [reflexivity|]. split; [exact Hv|]. split; [exact Hvl|]. split; [right; reflexivity|]. repeat split.
Qed.

(** a store that differs only in the data pages and the version of the header still holds the object *)
Lemma stored_update ps f st st' n len tabs dp h h' v : stored ps f st n len tabs dp -> NoDup (n :: tabs ++ dp) -> f <> FFree ->
  page_is st n h -> page_is st' n h' -> (h' = h \/ h' = splice h (ver_off f) v) -> length v = 8%nat ->
  Forall (fun p => length p = ps) st' -> Forall bytes_ok st' -> Forall (fun b => exists p, page_is st' b p) dp ->
  (forall t, In t tabs -> nth_error st' (Z.to_nat t) = nth_error st (Z.to_nat t)) -> stored ps f st' n len tabs dp.
Proof.
  intros (Hst & Hby & H32 & Hm4 & H17 & Hdp & Hpg & h0 & Hh0 & Hf) Hnd Hnf Hh Hh' Heq Hv Hst' Hby' Hpg' Htabs.
  assert (h0 = h) as -> by (eapply page_fun; eauto). pose proof (page_len _ _ _ _ Hst Hh) as Hlh.
  split; [exact Hst'|]. split; [exact Hby'|]. split; [exact H32|]. split; [exact Hm4|]. split; [exact H17|]. split; [exact Hdp|]. split; [exact Hpg'|].
  exists h'. split; [exact Hh'|].
  assert (Hvo : (ver_off f + length v <= 24)%nat) by (destruct f; cbn; lia).
  assert (Har : forall vs, array_at h 24 vs -> array_at h' 24 vs).
  { intros vs Ha. destruct Heq as [->| ->]; [exact Ha|]. apply array_splice; [lia|lia|exact Ha]. }
  assert (Hsub : forall o m, (o + m <= ver_off f)%nat \/ (ver_off f + 8 <= o)%nat -> sub h' o m = sub h o m).
  { intros o m Ho. destruct Heq as [->| ->]; [reflexivity|]. apply sub_splice_other; [lia|]. rewrite Hv. lia. }
  assert (Htb : forall per hdr cnt, tables st per hdr cnt tabs dp -> tables st' per hdr cnt tabs dp).
  { intros per hdr cnt [Hl Ht]. split; [exact Hl|]. intros j t Hj. destruct (Ht j t Hj) as (p & [Hr Hp] & Hx). exists p. split; [|exact Hx]. split; [exact Hr|].
    rewrite Htabs; [exact Hp|]. eapply nth_error_In; eauto. }
  destruct f; cbn [ver_off] in *; [| | |congruence].
  - destruct Hf as (A1 & A2 & A3 & [A4 A4'] & A5 & A6 & A7). split; [exact A1|]. split; [exact A2|]. split; [rewrite Hsub; [exact A3|lia]|].
    split; [split; [exact A4|]; rewrite Hsub; [exact A4'|lia]|]. split; [exact A5|]. split; [now apply Har|now apply Htb].
  - destruct Hf as (A1 & A2 & A3 & A4 & A5 & A6). split; [exact A1|]. split; [rewrite Hsub; [exact A2|lia]|]. split; [rewrite Hsub; [exact A3|lia]|].
    split; [exact A4|]. split; [now apply Har|exact A6].
  - destruct Hf as (A1 & A2 & A3 & A4 & A5 & A6 & A7). split; [exact A1|]. split; [rewrite Hsub; [exact A2|lia]|]. split; [rewrite Hsub; [exact A3|lia]|].
    split; [exact A4|]. split; [exact A5|]. split; [now apply Har|now apply Htb].
Qed.

Lemma overwrite_ok grow cached ps f st n len tabs dp o start d :
  stored ps f st n len tabs dp -> NoDup (n :: tabs ++ dp) -> f <> FFree -> opened f (set_cached o None) n len tabs dp ->
  bytes_ok d -> (0 < length d)%nat -> (start + length d <= len)%nat ->
  exists st' o', set_range grow false cached (Z.of_nat ps) st o (Z.of_nat start) d = Ok (st', o') /\
    stored ps f st' n len tabs dp /\ opened f o' n len tabs dp /\
    flat st' dp = splice (flat st dp) start d /\ length st' = length st /\
    (forall m, ~ In m dp -> m <> n -> 0 <= m -> nth_error st' (Z.to_nat m) = nth_error st (Z.to_nat m)) /\
    (forall h h', page_is st n h -> page_is st' n h' -> forall i, (i < ver_off f \/ ver_off f + 8 <= i)%nat -> nth_error h' i = nth_error h i).
Proof.
  intros Hs Hnd Hnf Hop Hd H0 Hr. pose proof Hs as (Hst & Hby & H32 & Hm4 & H17 & Hdp & Hpg & h & Hh & Hf). pose proof (page_len _ _ _ _ Hst Hh) as Hlh.
  pose proof Hop as (Hob & _ & Ho).
  assert (Hnd1 : ~ In n dp /\ NoDup dp /\ (forall t b, In t tabs -> In b dp -> t <> b) /\ ~ In n tabs).
  { inversion_clear Hnd as [|x l Hx Hl]. split; [intros C; apply Hx, in_or_app; now right|]. split; [|split].
    - clear - Hl. induction tabs as [|t ts IH]; [exact Hl|]. apply IH. now inversion Hl.
    - clear - Hl. induction tabs as [|t0 ts IH]; [now intros t b []|]. cbn in Hl. inversion_clear Hl as [|y l' Hy Hl']. intros t b [<-|Ht] Hb.
      + intros <-. apply Hy, in_or_app. now right.
      + now apply IH.
    - intros C; apply Hx, in_or_app; now left. }
  destruct Hnd1 as (Hnn & Hndp & Hdis & Hnt).
  pose proof (groups_spec len ps ltac:(lia)) as Hg. rewrite <- Hdp in Hg.
  pose proof (Nat.div_mod start ps ltac:(lia)) as Hdm. pose proof (Nat.mod_upper_bound start ps ltac:(lia)) as Hmb.
  assert (Heq : (start / ps * ps + start mod ps = start)%nat) by nia.
  assert (Hwf : wf_pages ps dp st) by (split; assumption).
  assert (Hsub : Z.of_nat len < 2^63 -> Z.of_nat (start / ps) < 2^32 -> u64 (Z.of_nat start + zlen d) = Z.of_nat (start + length d) /\ u32 (Z.of_nat start / Z.of_nat ps) = Z.of_nat (start / ps) /\
    u32 (Z.of_nat start - u32 (Z.of_nat (start / ps) * Z.of_nat ps)) = Z.of_nat (start mod ps)).
  { intros H63 Hc. rewrite <- Nat2Z.inj_div. set (c := (start / ps)%nat) in *. set (r := (start mod ps)%nat) in *. clearbody c r.
    unfold u64, u32, zlen. rewrite Z.mod_small by lia. split; [lia|]. split; [apply Z.mod_small; lia|].
    rewrite Zminus_mod_idemp_r. replace (Z.of_nat start - Z.of_nat c * Z.of_nat ps) with (Z.of_nat r) by nia. apply Z.mod_small. lia. }
  assert (Hcap : (start / ps * ps + start mod ps + length d <= length dp * ps)%nat) by lia.
  (* the data pages *)
  assert (Hdata : exists st1, (forall m, ~ in_pages dp m -> nth_error st1 m = nth_error st m) /\ wf_pages ps dp st1 /\ length st1 = length st /\ flat st1 dp = splice (flat st dp) start d /\
     set_range grow false cached (Z.of_nat ps) st o (Z.of_nat start) d = write_version cached (Z.of_nat ps) st1 (set_cached o None)).
  { unfold set_range. cbn [set_cached o_ty o_fat o_len o_blocks] in Ho.
    assert (Hww : forall (G : res store), (exists st1, G = Ok st1 /\ wf_pages ps dp st1 /\ flat st1 dp = splice (flat st dp) (start / ps * ps + start mod ps) d /\ length st1 = length st /\ (forall m, ~ in_pages dp m -> nth_error st1 m = nth_error st m)) ->
      exists st1, (forall m, ~ in_pages dp m -> nth_error st1 m = nth_error st m) /\ wf_pages ps dp st1 /\ length st1 = length st /\ flat st1 dp = splice (flat st dp) start d /\
        (do st' <- G; write_version cached (Z.of_nat ps) st' (set_cached o None)) = write_version cached (Z.of_nat ps) st1 (set_cached o None)).
    { intros G (st1 & -> & W & F & L & O). rewrite Heq in F. exists st1. split; [exact O|]. split; [exact W|]. split; [exact L|]. split; [exact F|]. reflexivity. }
    destruct f; [| | |congruence].
    - destruct Hf as (Hp4 & Hn & Hsig & [Hl32 _] & Ht & Ha & Htab), Ho as (Hty & Hle & Hbl & _). rewrite Hty, Hle.
      destruct Hsub as (E1 & E2 & E3); [lia|nia|]. rewrite E1. destruct (Z.ltb_spec (Z.of_nat len) (Z.of_nat (start + length d))); [lia|]. cbn [rbind set_cached o_blocks o_ty].
      rewrite Hty, Hbl, <- Hp4, E2, E3, <- per80_Z. apply Hww. change 4 with (Z.of_nat 4).
      apply (wstart2_ok ps ltac:(lia) dp Hndp cached per80 4 per80_pos tabs Hdis); try assumption. apply (tables_lists _ _ _ true); [exact per80_pos|exact Htab].
    - destruct Hf as (Hn & Hsig & Hlen & Ht & Ha & _), Ho as (Hty & Hfa & Hle & Hbl & _). rewrite Hty, Hle.
      pose proof (quarter ps Hm4) as Hq. destruct (flat_bound ps (ps / 4) len (length dp) H17 Hq Ht ltac:(lia)) as [Hlmax Hb'].
      destruct Hsub as (E1 & E2 & E3); [lia|apply Z.le_lt_trans with (Z.of_nat start); [apply inj_le, div_le_self; lia|lia]|]. rewrite E1.
      destruct (Z.ltb_spec (Z.of_nat len) (Z.of_nat (start + length d))); [lia|]. cbn [rbind set_cached o_blocks o_ty o_fat].
      rewrite Hty, Hfa, Hbl, E2, E3, Z.eqb_refl. apply Hww. apply (write1_ok ps ltac:(lia) dp Hndp cached); try assumption; lia.
    - destruct Hf as (Hn & Hsig & Hlen & H63 & Ht & Ha & Htab), Ho as (Hty & Hfa & Hle & Hbl & _). rewrite Hty, Hle.
      pose proof (quarter ps Hm4) as Hq. destruct Hsub as (E1 & E2 & E3); [lia| |].
      { pose proof (proj1 Htab) as Htl. pose proof (groups_spec (length dp) (ps / 4) ltac:(lia)).
        apply (deep_bound ps (ps / 4) (length tabs) (length dp) _ H17 Hq Ht); [rewrite Htl; lia|rewrite Hdp; apply groups_lt; lia]. }
      rewrite E1. destruct (Z.ltb_spec (Z.of_nat len) (Z.of_nat (start + length d))); [lia|]. cbn [rbind set_cached o_blocks o_ty o_fat].
      rewrite Hty, Hfa, Hbl, E2, E3. change (1 =? 0) with false. cbv iota. apply Hww.
      assert (Hz3 : Z.of_nat ps / 4 = Z.of_nat (ps / 4)) by (rewrite Nat2Z.inj_div; reflexivity). rewrite Hz3.
      apply (wstart2_ok ps ltac:(lia) dp Hndp cached (ps / 4) 0 ltac:(lia) tabs Hdis); try assumption. apply (tables_lists _ _ _ false); [lia|exact Htab]. }
  destruct Hdata as (st1 & O1 & [W1 W1'] & L1 & F1 & ->).
  assert (Hnd0 : Forall (fun b => 0 <= b) dp) by (eapply Forall_impl; [|exact Hpg]; intros b (p & [Hx _]); lia).
  assert (Hnin : forall m, ~ In m dp -> 0 <= m -> ~ in_pages dp (Z.to_nat m)).
  { intros m Hm Hm0 (b & Hb & Ee). rewrite Forall_forall in Hnd0. specialize (Hnd0 b Hb). apply Hm. replace m with b by lia. exact Hb. }
  assert (Hn0 : 0 <= n) by apply Hh.
  assert (Hh1 : page_is st1 n h) by (split; [apply Hh|rewrite O1; [apply Hh|now apply Hnin]]).
  destruct (write_version_ok cached ps st1 (set_cached o None) n h W1 H32 Hh1 Hob) as (st2 & o2 & v & E2 & Hv & Hvl & Hst2 & Ht & Hfa & Hle & Hnu & Hbl & Hbk & Hda).
  assert (Hvo : match o_ty (set_cached o None) with Data80 | Free80 => 12%nat | _ => 4%nat end = ver_off f).
  { destruct f; [destruct Ho as (-> & _)|destruct Ho as (-> & _)|destruct Ho as (-> & _)|congruence]; reflexivity. }
  rewrite Hvo in Hst2. exists st2, o2. split; [exact E2|].
  assert (Hnl : (Z.to_nat n < length st1)%nat) by (destruct Hh1 as [_ Hx]; apply nth_error_Some; congruence).
  assert (Hother : forall m, m <> Z.to_nat n -> nth_error st2 m = nth_error st1 m).
  { intros m Hm. destruct Hst2 as [->| ->]; [reflexivity|]. rewrite page_splice by exact Hnl. destruct (Nat.eqb_spec m (Z.to_nat n)); [contradiction|reflexivity]. }
  assert (L2 : length st2 = length st1) by (destruct Hst2 as [->| ->]; [reflexivity|apply splice_length; cbn; lia]).
  assert (Hvf : (ver_off f + 8 <= 24)%nat) by (destruct f; cbn; lia).
  assert (Hhd : exists h', page_is st2 n h' /\ (h' = h \/ h' = splice h (ver_off f) v)).
  { destruct Hst2 as [->| ->]; [exists h; auto|]. exists (splice h (ver_off f) v). split; [|now right]. split; [apply Hh|]. rewrite page_splice, Nat.eqb_refl by exact Hnl. reflexivity. }
  destruct Hhd as (h' & Hh' & Hhe).
  assert (W2 : Forall (fun p => length p = ps) st2).
  { destruct Hst2 as [->| ->]; [exact W1|]. apply Forall_splice; [exact W1|]. constructor; [rewrite splice_length; lia|constructor]. }
  assert (Hdpn : forall b, In b dp -> Z.to_nat b <> Z.to_nat n).
  { intros b Hb Ee. apply Hnn. rewrite Forall_forall in Hnd0. specialize (Hnd0 b Hb). replace n with b by lia. exact Hb. }
  assert (Hf2 : flat st2 dp = flat st1 dp).
  { unfold flat. f_equal. apply map_ext_in. intros b Hb. specialize (Hother _ (Hdpn b Hb)). rewrite Forall_forall in W1'. destruct (W1' b Hb) as (p & [_ Hp]).
    rewrite (nth_error_nth_Z _ _ _ _ Hp). apply nth_error_nth_Z. congruence. }
  assert (Hflok : bytes_ok (flat st1 dp)).
  { rewrite F1. apply bytes_ok_splice; [|exact Hd]. unfold flat, bytes_ok. apply Forall_concat, Forall_map, Forall_forall. intros b Hb.
    rewrite Forall_forall in Hpg. destruct (Hpg b Hb) as (p & [_ Hp]). rewrite (nth_error_nth_Z _ _ _ _ Hp). rewrite Forall_forall in Hby. apply Hby. eapply nth_error_In; eauto. }
  assert (By2 : Forall bytes_ok st2).
  { apply Forall_forall. intros p Hp. apply In_nth_error in Hp. destruct Hp as [m Hm]. destruct (Nat.eq_dec m (Z.to_nat n)) as [->|Hmn].
    - assert (p = h') as -> by (destruct Hh' as [_ Hx]; congruence). assert (Hbh : bytes_ok h) by (rewrite Forall_forall in Hby; apply Hby; eapply nth_error_In; apply Hh).
      destruct Hhe as [->| ->]; [exact Hbh|now apply bytes_ok_splice].
    - rewrite Hother in Hm by exact Hmn. destruct (in_dec Nat.eq_dec m (map Z.to_nat dp)) as [Hi|Hi].
      + apply in_map_iff in Hi. destruct Hi as (b & <- & Hb). apply In_nth_error in Hb. destruct Hb as [c Hc].
        assert (Hpb : page_is st1 b p). { rewrite Forall_forall in W1'. destruct (W1' b) as (p' & [Hr' Hp']); [eapply nth_error_In; eauto|]. split; [exact Hr'|exact Hm]. }
        rewrite <- (flat_page ps st1 W1 dp c b p W1' Hc Hpb). now apply bytes_ok_sub.
      + rewrite O1 in Hm. { rewrite Forall_forall in Hby. apply Hby. eapply nth_error_In; eauto. }
        intros (b & Hb & ->). apply Hi. apply in_map. exact Hb. }
  split; [|split; [|split; [|split; [|split]]]].
  - apply (stored_update ps f st st2 n len tabs dp h h' v); try assumption.
    + apply Forall_forall. intros b Hb. rewrite Forall_forall in W1'. destruct (W1' b Hb) as (p & [Hr' Hp]). exists p. split; [exact Hr'|]. rewrite Hother by now apply Hdpn. exact Hp.
    + intros t Htt. assert (Ht0 : 0 <= t).
      { destruct f; [| | |congruence].
        - destruct Hf as (_ & _ & _ & _ & _ & _ & [_ Htab]). apply In_nth_error in Htt. destruct Htt as [j Hj]. destruct (Htab j t Hj) as (p & [Hr' _] & _). lia.
        - destruct Hf as (_ & _ & _ & _ & _ & ->). destruct Htt.
        - destruct Hf as (_ & _ & _ & _ & _ & _ & [_ Htab]). apply In_nth_error in Htt. destruct Htt as [j Hj]. destruct (Htab j t Hj) as (p & [Hr' _] & _). lia. }
      rewrite Hother; [apply O1, Hnin; [|exact Ht0]|].
      * intros C. now apply (Hdis t t).
      * intros Ee. apply Hnt. replace n with t by lia. exact Htt.
  - split; [congruence|]. split; [rewrite Hda; reflexivity|].
    cbn [set_cached o_ty o_fat o_len o_blocks o_num] in *. destruct f; [| | |congruence]; rewrite ?Ht, ?Hfa, ?Hle, ?Hbl, ?Hnu; exact Ho.
  - rewrite Hf2. exact F1.
  - congruence.
  - intros m Hm1 Hm2 Hm0. rewrite Hother by lia. apply O1. now apply Hnin.
  - intros h1 h2 A B i Hi. assert (h1 = h) as -> by (eapply page_fun; eauto). assert (h2 = h') as -> by (eapply page_fun; eauto).
    destruct Hhe as [->| ->]; [reflexivity|]. rewrite nth_error_splice by lia. rewrite Hvl. destruct (Nat.leb_spec (ver_off f) i), (Nat.ltb_spec i (ver_off f + 8)); cbn [andb]; try lia; reflexivity.
Qed.
