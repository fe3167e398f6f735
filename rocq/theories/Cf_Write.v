(** Writing and releasing blocks. *)
From Verif Require Import Prelude Lists Cf_Model Cf_Spec Cf_Proofs.
From Coq Require Import Permutation.
Ltac Zify.zify_post_hook ::= idtac.

Lemma head_range hi ps : layout hi ps -> hi < LAST -> 0 <= head ps <= LAST.
Proof. intros HL HB. destruct ps as [|p r]; cbn [head]; [unfold LAST; lia|]. apply layout_cons in HL. destruct HL as ((A & B & C) & _). lia. Qed.
Lemma last32 v : 0 <= v <= LAST -> 0 <= v < 2^32. Proof. unfold LAST. lia. Qed.

(** one page rewritten: new header, new bytes *)
Lemma page_write data p dsz nx e : pg_ok (zlen data) p -> zlen e <= snd p ->
  let data2 := over data (fst p) (hdr dsz (snd p) nx ++ e) in
  zlen data2 = zlen data /\ at_hdr data2 p dsz nx /\ sub data2 (Z.to_nat (fst p) + 31) (length e) = e /\
  (forall lo hi, 0 <= lo -> hi <= fst p \/ fst p + 31 + snd p <= lo -> agree data data2 lo hi).
Proof.
  intros (H1 & H2 & H3) He data2. assert (HL : zlen (hdr dsz (snd p) nx ++ e) = 31 + zlen e) by (unfold zlen; rewrite app_length, hdr_length; lia). assert (HP : 0 <= fst p <= zlen data) by lia. split; [|split; [|split]].
  - unfold data2. rewrite over_length, HL by exact HP. lia.
  - unfold at_hdr, data2. replace (Z.to_nat (fst p)) with (Z.to_nat (fst p) + 0)%nat by lia. rewrite over_in by (try exact HP; rewrite app_length, hdr_length; lia). rewrite sub_0_firstn. rewrite <- (hdr_length dsz (snd p) nx). now rewrite firstn_app, firstn_all, Nat.sub_diag, firstn_O, app_nil_r.
  - unfold data2. rewrite over_in by (try exact HP; rewrite app_length, hdr_length; lia). unfold sub. rewrite <- (hdr_length dsz (snd p) nx). rewrite skipn_app_len by reflexivity. now rewrite firstn_all.
  - intros lo hi Hlo [Hd|Hd]; [apply (agree_weaken _ _ 0 (fst p)); [apply over_before; exact HP|lia|lia]|]. unfold data2. apply (agree_weaken _ _ (fst p + zlen (hdr dsz (snd p) nx ++ e)) hi); [apply over_after; exact HP|rewrite HL; lia|lia].
Qed.
Lemma same_of l l' hi q (P : Z -> Z -> Prop) : pg_ok hi q -> (forall lo h, 0 <= lo -> P lo h -> agree l l' lo h) -> P (fst q) (fst q + 31 + snd q) -> same l l' q.
Proof. intros (A & B & C) H1 H2. apply H1; [lia|exact H2]. Qed.

(** ** Releasing *)
Lemma free_ok after : In 0 after -> forall ps fuel data h fs, ps <> [] -> layout (zlen data) (ps ++ fs) -> zlen data < LAST -> linked data ps -> linked data fs -> (length ps <= fuel)%nat -> length h = 31%nat ->
  exists data', free_loop fuel after data (head ps) (head fs) h = Ok data' /\ zlen data' = zlen data /\ linked data' (ps ++ fs) /\
    (forall lo hi, 0 <= lo -> (forall p, In p ps -> hi <= fst p \/ fst p + 31 + snd p <= lo) -> agree data data' lo hi).
Proof.
  intros HA. induction ps as [|p r IH]; intros fuel data h fs Hne HL HB HK HF Hfu Hh; [congruence|]. cbn [length app] in *. destruct fuel as [|fuel]; [lia|]. assert (HL0 := HL). apply layout_cons in HL. destruct HL as (HPG & HL & HD). destruct HPG as (O1 & O2 & O3). destruct HK as [(x & X1 & X2) HK].
  assert (HLr : layout (zlen data) r) by (apply layout_app in HL; tauto). assert (HLf : layout (zlen data) fs) by (apply layout_app in HL; tauto).
  cbn [free_loop head]. rewrite read_hdr by (try assumption; lia). cbn [rbind]. unfold at_hdr in X2. rewrite X2. pose proof (head_range _ _ HLr HB) as HR. pose proof (head_range _ _ HLf HB) as HRf. rewrite hdr_next by assumption. cbn [rbind]. rewrite set_data_hdr by (unfold LAST; lia).
  destruct r as [|q r].
  - cbn [head]. rewrite Z.eqb_refl. rewrite set_next_hdr by now apply last32. pose proof (page_write data p LAST (head fs) [] (conj O1 (conj O2 O3)) ltac:(change (zlen (@nil Z)) with 0; lia)) as W. rewrite app_nil_r in W. cbv zeta in W. destruct W as (W1 & W2 & W3 & W4).
    eexists. split; [reflexivity|]. split; [exact W1|]. split; [|intros lo hi Hlo Hp; apply W4; [exact Hlo|]; apply Hp; now left]. cbn [app linked]. split; [exists LAST; split; [unfold LAST; lia|exact W2]|]. apply (linked_frame data _ (zlen data)); [apply HLf| |exact HF].
    apply Forall_forall. intros q Hq. assert (HQ : pg_ok (zlen data) q) by (apply (proj1 (Forall_forall _ _) (proj2 HLf)); exact Hq). apply W4; [unfold pg_ok in HQ; lia|]. pose proof (HD q Hq) as DJ. unfold disj in DJ. lia.
  - destruct (Z.eqb_spec (head (q :: r)) LAST) as [E|E]; [exfalso; apply layout_cons in HLr; destruct HLr as ((A & B & C) & _); cbn [head] in E; lia|].
    pose proof (page_write data p LAST (head (q :: r)) [] (conj O1 (conj O2 O3)) ltac:(change (zlen (@nil Z)) with 0; lia)) as W. rewrite app_nil_r in W. cbv zeta in W. destruct W as (W1 & W2 & W3 & W4). set (data2 := over data (fst p) (hdr LAST (snd p) (head (q :: r)))) in *.
    assert (HS : forall l, (forall z, In z l -> In z ((q :: r) ++ fs)) -> Forall (same data data2) l). { intros l Hl. apply Forall_forall. intros z Hz. assert (HQ : pg_ok (zlen data) z) by (apply (proj1 (Forall_forall _ _) (proj2 HL)); now apply Hl). apply W4; [unfold pg_ok in HQ; lia|]. pose proof (HD z (Hl z Hz)) as DJ. unfold disj in DJ. lia. }
    destruct (IH fuel data2 (hdr LAST (snd p) (head (q :: r))) fs ltac:(discriminate)) as (data' & R1 & R2 & R3 & R4).
    + rewrite W1. exact HL.
    + rewrite W1. exact HB.
    + apply (linked_frame data _ (zlen data)); [apply HLr|apply HS; intros z Hz; apply in_or_app; now left|exact HK].
    + apply (linked_frame data _ (zlen data)); [apply HLf|apply HS; intros z Hz; apply in_or_app; now right|exact HF].
    + cbn [length] in *. lia.
    + apply hdr_length.
    + exists data'. split; [exact R1|]. split; [now rewrite R2|]. split.
      * cbn [app linked]. split; [|exact R3]. exists LAST. split; [unfold LAST; lia|]. apply (at_frame data2 data'); [lia|lia| |exact W2]. apply R4; [lia|]. intros z Hz. pose proof (HD z ltac:(apply in_or_app; now left)) as DJ. unfold disj in DJ. lia.
      * intros lo hi Hlo Hp. apply (agree_trans _ data2); [apply W4; [exact Hlo|apply Hp; now left]|]. apply R4; [exact Hlo|]. intros z Hz. apply Hp. now right.
Qed.

(** ** Writing *)
Definition start_of (own fs : list page) (size : Z) : Z := match own ++ fs with [] => size | p :: _ => fst p end.
Lemma copied_block (block : list Z) bpos d n : d = skipn (Z.to_nat bpos) block -> 0 <= bpos -> 0 < n <= zlen d -> copied block bpos n = (firstn (Z.to_nat n) d, bpos + n).
Proof.
  intros -> H1 H2. rewrite copied_some; [reflexivity|lia|exact H1|]. unfold zlen in *. rewrite skipn_length in H2. lia.
Qed.
Lemma i32_small v : 0 <= v <= LAST -> i32 v = v.
Proof. intros H. unfold i32, u32, LAST in *. rewrite Z.mod_small by lia. destruct (Z.ltb_spec v (2^31)); lia. Qed.
Lemma next_block_head own fs c : layout (zlen (c_data c)) (own ++ fs) -> zlen (c_data c) < LAST -> c_free c = head fs -> next_block c (head own) = start_of own fs (zlen (c_data c)).
Proof.
  intros HL HB HF. assert (HLs := HL). apply layout_app in HLs. destruct HLs as (L1 & L2 & _). pose proof (zlen_nonneg (c_data c)) as Z0. unfold next_block, start_of. destruct own as [|p r]; cbn [head app].
  - rewrite Z.eqb_refl, orb_true_r, HF. destruct fs as [|q s]; cbn [head]; [rewrite Z.eqb_refl; apply i32_small; lia|]. apply layout_cons in L2. destruct L2 as ((A & B & C) & _). destruct (Z.eqb_spec (fst q) LAST); [lia|]. apply i32_small. lia.
  - apply layout_cons in L1. destruct L1 as ((A & B & C) & _). destruct (Z.eqb_spec (fst p) 0); [lia|]. destruct (Z.eqb_spec (fst p) LAST); [lia|]. cbn [orb]. apply i32_small. lia.
Qed.
Definition wb_post (data : list Z) (c : cat) (own fs others : list page) (d : list Z) (isfirst : bool) (r : res (cat * Z)) : Prop :=
  exists data' us own' fs', r = Ok (CT data' (head fs') (c_page c), start_of own' fs' (zlen data')) /\
    layout (zlen data') (us ++ own' ++ fs' ++ others) /\ zlen data <= zlen data' <= zlen data + 31 + Z.max (zlen d) (c_page c) /\
    linked data' us /\ linked data' own' /\ linked data' fs' /\ holds data' us d /\
    match us with [] => False | p :: t => fst p = start_of own fs (zlen data) /\ at_hdr data' p (if isfirst then zlen d else 0) (head t) end /\
    (forall lo hi, 0 <= lo -> hi <= zlen data -> (forall p, In p (own ++ fs) -> hi <= fst p \/ fst p + 31 + snd p <= lo) -> agree data data' lo hi).
Lemma wb_ok after : In 0 after -> forall fuel c own fs others block bpos d usep isfirst h,
  layout (zlen (c_data c)) (own ++ fs ++ others) -> linked (c_data c) own -> linked (c_data c) fs -> c_free c = head fs -> 0 < c_page c ->
  16 <= zlen (c_data c) -> zlen (c_data c) + 31 + Z.max (zlen d) (c_page c) < LAST ->
  d = skipn (Z.to_nat bpos) block -> 0 <= bpos -> (d <> [] \/ (block = [] /\ (own ++ fs <> [] \/ usep = true))) -> (length d < fuel)%nat -> length h = 31%nat ->
  wb_post (c_data c) c own fs others d isfirst (wb_loop fuel after c block bpos (start_of own fs (zlen (c_data c))) (zlen d) usep isfirst h).
Proof.
  intros HA. induction fuel as [|fuel IH]; intros c own fs others block bpos d usep isfirst h HL HKo HKf HFr HPg H16 HB Hd Hb Hne Hfu Hh; [lia|]. pose proof (zlen_nonneg d) as Z0.
  (* a page that exists: what is common to both cases *)
  assert (STEP : forall p own1 fs1, own ++ fs = p :: own1 ++ fs1 -> linked (c_data c) own1 -> linked (c_data c) fs1 -> (exists x, 0 <= x <= LAST /\ at_hdr (c_data c) p x (head (if own then fs1 else own1))) -> (own = [] -> own1 = []) ->
    layout (zlen (c_data c)) (p :: own1 ++ fs1 ++ others) ->
    wb_post (c_data c) c own fs others d isfirst
      (let h := hdr (if isfirst then zlen d else 0) (snd p) (if zlen d <=? snd p then LAST else start_of own1 fs1 (zlen (c_data c))) in
       let '(e, bpos') := copied block bpos (Z.min (snd p) (zlen d)) in
       let c2 := CT (over (c_data c) (fst p) (h ++ e)) (head fs1) (c_page c) in
       if 0 <? zlen d - Z.min (snd p) (zlen d) then wb_loop fuel after c2 block bpos' (start_of own1 fs1 (zlen (c_data c))) (zlen d - Z.min (snd p) (zlen d)) usep false h
       else Ok (c2, start_of own1 fs1 (zlen (c_data c))))).
  { intros p own1 fs1 EQ K1 K2 _ _ HL1. assert (HLc := HL1). apply layout_cons in HLc. destruct HLc as (HPG & HL2 & HD). assert (HPG2 := HPG). destruct HPG2 as (O1 & O2 & O3).
    assert (ES : start_of own fs (zlen (c_data c)) = fst p) by (unfold start_of; rewrite EQ; reflexivity).
    assert (HL3 : layout (zlen (c_data c)) (own1 ++ fs1)) by (rewrite app_assoc in HL2; apply layout_app in HL2; tauto).
    assert (HLo : layout (zlen (c_data c)) own1) by (apply layout_app in HL3; tauto). assert (HLf : layout (zlen (c_data c)) fs1) by (apply layout_app in HL3; tauto).
    destruct (Z.leb_spec (zlen d) (snd p)) as [Hfit|Hfit].
    - (* the last page *) rewrite Z.min_r by lia. assert (EC : exists b2, copied block bpos (zlen d) = (d, b2)).
      { destruct d as [|y t]; [destruct Hne as [Hne|[-> _]]; [congruence|]; exists 0; reflexivity|]. eexists. rewrite (copied_block block bpos (y :: t)) by (try assumption; rewrite zlen_cons in *; pose proof (zlen_nonneg t); lia). f_equal. unfold zlen. rewrite Nat2Z.id. apply firstn_all. }
      destruct EC as [b2 ->]. destruct (Z.ltb_spec 0 (zlen d - zlen d)); [lia|]. pose proof (page_write (c_data c) p (if isfirst then zlen d else 0) LAST d HPG ltac:(lia)) as W. cbv zeta in W |- *. destruct W as (W1 & W2 & W3 & W4). set (data2 := over _ _ _) in *.
      assert (HS : forall l, (forall z, In z l -> In z (own1 ++ fs1 ++ others)) -> Forall (same (c_data c) data2) l). { intros l Hl. apply Forall_forall. intros z Hz. assert (HQ : pg_ok (zlen (c_data c)) z) by (apply (proj1 (Forall_forall _ _) (proj2 HL2)); now apply Hl). apply W4; [unfold pg_ok in HQ; lia|]. pose proof (HD z (Hl z Hz)) as DJ. unfold disj in DJ. lia. }
      exists data2, [p], own1, fs1. rewrite W1. split; [reflexivity|]. split; [exact HL1|]. split; [lia|]. split; [|split; [|split; [|split; [|split]]]].
      + split; [|exact I]. exists (if isfirst then zlen d else 0). split; [destruct isfirst; unfold LAST in *; lia|exact W2].
      + apply (linked_frame (c_data c) _ (zlen (c_data c))); [apply HLo|apply HS; intros z Hz; apply in_or_app; now left|exact K1].
      + apply (linked_frame (c_data c) _ (zlen (c_data c))); [apply HLf|apply HS; intros z Hz; apply in_or_app; right; apply in_or_app; now left|exact K2].
      + split; [lia|exact W3].
      + split; [now symmetry|exact W2].
      + intros lo hi Hlo _ Hp. apply W4; [exact Hlo|]. apply Hp. rewrite EQ. now left.
    - (* more pages follow *) rewrite Z.min_l by lia. rewrite (copied_block block bpos d) by (try assumption; lia). destruct (Z.ltb_spec 0 (zlen d - snd p)); [|lia]. pose proof (head_range _ _ HLf ltac:(unfold LAST in *; lia)) as HRf.
      assert (HST : 0 <= start_of own1 fs1 (zlen (c_data c)) <= LAST). { unfold start_of. destruct (own1 ++ fs1) as [|q t]; [unfold LAST in *; lia|]. apply layout_cons in HL3. destruct HL3 as ((Q1 & Q2 & Q3) & _). unfold LAST in *. lia. }
      set (e := firstn (Z.to_nat (snd p)) d). assert (He : zlen e = snd p) by (unfold e, zlen in *; rewrite firstn_length; lia). set (nx := start_of own1 fs1 (zlen (c_data c))) in *. set (dz := if isfirst then zlen d else 0).
      pose proof (page_write (c_data c) p dz nx e HPG ltac:(lia)) as W. cbv zeta in W |- *. destruct W as (W1 & W2 & W3 & W4). set (data2 := over _ _ _) in *.
      assert (HS : forall l, (forall z, In z l -> In z (own1 ++ fs1 ++ others)) -> Forall (same (c_data c) data2) l). { intros l Hl. apply Forall_forall. intros z Hz. assert (HQ : pg_ok (zlen (c_data c)) z) by (apply (proj1 (Forall_forall _ _) (proj2 HL2)); now apply Hl). apply W4; [unfold pg_ok in HQ; lia|]. pose proof (HD z (Hl z Hz)) as DJ. unfold disj in DJ. lia. }
      set (d2 := skipn (Z.to_nat (snd p)) d). assert (Hd2 : zlen d2 = zlen d - snd p) by (unfold d2, zlen in *; rewrite skipn_length; lia). rewrite <- Hd2. unfold nx. rewrite <- W1.
      destruct (IH (CT data2 (head fs1) (c_page c)) own1 fs1 (p :: others) block (bpos + snd p) d2 usep false (hdr dz (snd p) (start_of own1 fs1 (zlen data2)))) as (data' & us & own' & fs' & R1 & R2 & R3 & R4 & R5 & R6 & R7 & R8 & R9); cbn [c_data c_free c_page].
      + rewrite W1. apply (layout_perm _ (p :: own1 ++ fs1 ++ others)); [|exact HL1]. rewrite !app_assoc. apply Permutation_middle.
      + apply (linked_frame (c_data c) _ (zlen (c_data c))); [apply HLo|apply HS; intros z Hz; apply in_or_app; now left|exact K1].
      + apply (linked_frame (c_data c) _ (zlen (c_data c))); [apply HLf|apply HS; intros z Hz; apply in_or_app; right; apply in_or_app; now left|exact K2].
      + reflexivity.
      + exact HPg.
      + lia.
      + lia.
      + unfold d2. rewrite Hd, skipn_plus. f_equal. lia.
      + lia.
      + left. intros E. apply (f_equal (@length Z)) in E. unfold zlen in *. cbn [length] in E. lia.
      + unfold zlen in *. lia.
      + apply hdr_length.
      + cbn [c_data c_page] in *. exists data', (p :: us), own', fs'. split; [exact R1|]. split; [|split; [lia|]].
        { apply (layout_perm _ (us ++ own' ++ fs' ++ p :: others)); [|exact R2]. rewrite !app_assoc. cbn [app]. symmetry. rewrite <- !app_assoc. cbn [app]. rewrite !app_assoc. apply Permutation_middle. }
        assert (SP : same data2 data' p). { apply R9; [lia|lia|]. intros z Hz. pose proof (HD z ltac:(rewrite app_assoc; apply in_or_app; now left)) as DJ. unfold disj in DJ. lia. }
        destruct us as [|u us]; [destruct R8|]. destruct R8 as [R8 R8b]. assert (ENX : nx = head (u :: us)) by (cbn [head]; rewrite R8; unfold nx; now rewrite W1).
        assert (AP : at_hdr data' p dz (head (u :: us))) by (rewrite <- ENX; apply (at_frame data2); [lia|lia|exact SP|exact W2]).
        split; [|split; [exact R5|split; [exact R6|split; [|split]]]].
        * split; [|exact R4]. exists dz. split; [unfold dz; destruct isfirst; unfold LAST in *; lia|exact AP].
        * rewrite holds_cons by discriminate. split; [lia|]. split; [|exact R7]. fold e. transitivity (sub data2 (Z.to_nat (fst p) + 31) (length e)); [|exact W3]. assert (LE : length e = Z.to_nat (snd p)) by (unfold zlen in He; lia). rewrite LE. apply (agree_sub data2 data' _ _ _ _ SP); lia.
        * split; [now symmetry|exact AP].
        * intros lo hi Hlo Hhi Hp. apply (agree_trans _ data2); [apply W4; [exact Hlo|apply Hp; rewrite EQ; now left]|]. apply R9; [exact Hlo|lia|]. intros z Hz. apply Hp. rewrite EQ. now right. }
  cbn [wb_loop]. destruct own as [|p own1].
  - destruct fs as [|p fs1].
    + (* a new block *) clear STEP. unfold start_of. cbn [app head] in *. destruct (Z.eqb_spec (zlen (c_data c)) (c_free c)) as [E|_]; [rewrite HFr in E; unfold LAST in *; lia|]. rewrite Z.eqb_refl. cbn [rbind]. rewrite create_hdr by lia.
      set (bl := if usep then if c_page c <? zlen d then zlen d else c_page c else zlen d). assert (HBL : zlen d <= bl <= Z.max (zlen d) (c_page c)) by (unfold bl; destruct usep; [destruct (Z.ltb_spec (c_page c) (zlen d)); lia|lia]).
      assert (HB0 : 0 < bl). { destruct Hne as [Hne|[_ [Hne|Hne]]]; [destruct d; [congruence|rewrite zlen_cons in *; pose proof (zlen_nonneg d); lia]|congruence|]. unfold bl. rewrite Hne. destruct (Z.ltb_spec (c_page c) (zlen d)); lia. }
      rewrite set_page_hdr by (unfold LAST in *; lia). rewrite set_data_hdr by (destruct isfirst; unfold LAST in *; lia). rewrite Z.eqb_refl. rewrite i32_small by lia. rewrite Z.min_r by lia. destruct (Z.leb_spec (zlen d) bl); [|lia]. rewrite set_next_hdr by (unfold LAST; lia).
      destruct (Z.ltb_spec (zlen (c_data c)) 0); [lia|]. rewrite Z.ltb_irrefl. cbn [orb]. assert (EC : exists b2, copied block bpos (zlen d) = (d, b2)).
      { destruct d as [|y t]; [destruct Hne as [Hne|[-> _]]; [congruence|]; exists 0; reflexivity|]. eexists. rewrite (copied_block block bpos (y :: t)) by (try assumption; rewrite zlen_cons in *; pose proof (zlen_nonneg t); lia). f_equal. unfold zlen. rewrite Nat2Z.id. apply firstn_all. }
      destruct EC as [b2 ->]. destruct (Z.ltb_spec 0 (zlen d - zlen d)); [lia|]. set (dz := if isfirst then zlen d else 0). set (z := if zlen d <? bl then repeat 0 (Z.to_nat (bl - zlen d)) else []).
      assert (HZ : zlen z = bl - zlen d) by (unfold z; destruct (Z.ltb_spec (zlen d) bl); [unfold zlen; rewrite repeat_length; unfold zlen in *; lia|change (zlen (@nil Z)) with 0; lia]). set (w := hdr dz bl LAST ++ d ++ z).
      assert (HW : zlen w = 31 + bl) by (unfold w, zlen in *; rewrite !app_length, hdr_length; lia). assert (HP0 : 0 <= zlen (c_data c) <= zlen (c_data c)) by lia. set (data' := over (c_data c) (zlen (c_data c)) w).
      assert (HL' : zlen data' = zlen (c_data c) + 31 + bl) by (unfold data'; rewrite over_length, HW by exact HP0; lia).
      assert (AT : at_hdr data' (zlen (c_data c), bl) dz LAST). { unfold at_hdr, data'. cbn [fst snd]. replace (Z.to_nat (zlen (c_data c))) with (Z.to_nat (zlen (c_data c)) + 0)%nat by lia. rewrite over_in by (try exact HP0; unfold zlen in HW; lia). rewrite sub_0_firstn. unfold w. rewrite <- (hdr_length dz bl LAST). now rewrite firstn_app, firstn_all, Nat.sub_diag, firstn_O, app_nil_r. }
      exists data', [(zlen (c_data c), bl)], [], []. unfold start_of. cbn [app head]. split; [rewrite HFr, HL'; reflexivity|]. split; [|split; [lia|]].
      * apply layout_cons. split; [unfold pg_ok; cbn [fst snd]; lia|]. split; [apply (layout_mono (zlen (c_data c))); [lia|exact HL]|]. intros q Hq. pose proof (proj1 (Forall_forall _ _) (proj2 HL) q Hq) as (A & B & C). unfold disj. cbn [fst snd]. lia.
      * split; [split; [exists dz; split; [unfold dz; destruct isfirst; unfold LAST in *; lia|exact AT]|exact I]|]. split; [exact I|]. split; [exact I|]. split; [|split; [split; [reflexivity|exact AT]|]].
        -- cbn [holds fst snd]. split; [lia|]. unfold data'. rewrite over_in by (try exact HP0; unfold zlen in *; lia). unfold sub, w. rewrite skipn_app_len by apply hdr_length. now rewrite firstn_app, firstn_all, Nat.sub_diag, firstn_O, app_nil_r.
        -- intros lo hi Hlo Hhi _. apply (agree_weaken _ _ 0 (zlen (c_data c))); [apply over_before; exact HP0|lia|lia].
    + (* a free page *) cbn [app] in HL. assert (HLc := HL). apply layout_cons in HLc. destruct HLc as ((O1 & O2 & O3) & HL2 & HD). destruct HKf as [(x & X1 & X2) HKf]. specialize (STEP p [] fs1 eq_refl I HKf ltac:(exists x; split; assumption) ltac:(reflexivity) HL).
      assert (ES : start_of [] (p :: fs1) (zlen (c_data c)) = fst p) by reflexivity. rewrite !ES. rewrite HFr. cbn [head]. rewrite Z.eqb_refl. rewrite read_hdr by (try assumption; lia). cbn [rbind]. assert (X3 := X2). unfold at_hdr in X3. rewrite X3. assert (HLf : layout (zlen (c_data c)) fs1) by (apply layout_app in HL2; tauto). assert (HB1 : zlen (c_data c) < LAST) by lia. pose proof (head_range _ _ HLf HB1) as HR.
      rewrite hdr_page by (try assumption; unfold LAST in *; lia). cbn [rbind]. rewrite hdr_next by assumption. cbn [rbind]. rewrite set_data_hdr by (destruct isfirst; unfold LAST in *; lia).
      assert (HH0 : (head fs1 =? 0) = false) by (apply Z.eqb_neq; destruct fs1 as [|q t]; cbn [head]; [unfold LAST; lia|apply layout_cons in HLf; destruct HLf as ((A & B & C) & _); lia]). rewrite HH0.
      assert (EN : next_block (CT (c_data c) (head fs1) (c_page c)) (head fs1) = start_of [] fs1 (zlen (c_data c))).
      { pose proof (zlen_nonneg (c_data c)). unfold next_block, start_of. cbn [c_free c_data app]. rewrite HH0. cbn [orb]. destruct fs1 as [|q t]; cbn [head]; [rewrite Z.eqb_refl; apply i32_small; lia|]. apply layout_cons in HLf. destruct HLf as ((A & B & C) & _). destruct (Z.eqb_spec (fst q) LAST); [lia|]. apply i32_small. lia. }
      rewrite EN. rewrite set_next_hdr.
      2:{ destruct (zlen d <=? snd p); [unfold LAST; lia|]. unfold start_of. cbn [app]. destruct fs1 as [|q t]; [unfold LAST in *; lia|]. apply layout_cons in HLf. destruct HLf as ((A & B & C) & _). unfold LAST in *. lia. }
      destruct (Z.ltb_spec (fst p) 0); [lia|]. destruct (Z.ltb_spec (zlen (c_data c)) (fst p)); [lia|]. cbn [orb c_free c_page]. cbv zeta in STEP. destruct (copied block bpos (Z.min (snd p) (zlen d))) as [e b2]. rewrite app_nil_r. exact STEP.
  - (* a page of the file *) cbn [app] in HL. assert (HLc := HL). apply layout_cons in HLc. destruct HLc as ((O1 & O2 & O3) & HL2 & HD). destruct HKo as [(x & X1 & X2) HKo]. specialize (STEP p own1 fs eq_refl HKo HKf ltac:(exists x; split; assumption) ltac:(discriminate) HL).
    assert (HL3 : layout (zlen (c_data c)) (own1 ++ fs)) by (rewrite app_assoc in HL2; apply layout_app in HL2; tauto). assert (HLo : layout (zlen (c_data c)) own1) by (apply layout_app in HL3; tauto). assert (HLf : layout (zlen (c_data c)) fs) by (apply layout_app in HL3; tauto). assert (HB1 : zlen (c_data c) < LAST) by lia. pose proof (head_range _ _ HLo HB1) as HR.
    assert (ES : start_of (p :: own1) fs (zlen (c_data c)) = fst p) by reflexivity. rewrite !ES. assert (HNE : fst p <> c_free c). { rewrite HFr. destruct fs as [|q t]; cbn [head]; [unfold LAST in *; lia|]. pose proof (HD q ltac:(apply in_or_app; right; now left)) as DJ. apply layout_cons in HLf. destruct HLf as ((A & B & C) & _). unfold disj in DJ. lia. }
    destruct (Z.eqb_spec (fst p) (c_free c)); [contradiction|]. destruct (Z.eqb_spec (fst p) (zlen (c_data c))); [lia|]. rewrite read_hdr by (try assumption; lia). cbn [rbind]. assert (X3 := X2). unfold at_hdr in X3. rewrite X3.
    rewrite hdr_page by (try assumption; unfold LAST in *; lia). cbn [rbind]. rewrite hdr_next by assumption. cbn [rbind]. rewrite set_data_hdr by (destruct isfirst; unfold LAST in *; lia).
    assert (HH0 : (head own1 =? 0) = false) by (apply Z.eqb_neq; destruct own1 as [|q t]; cbn [head]; [unfold LAST; lia|apply layout_cons in HLo; destruct HLo as ((A & B & C) & _); lia]). rewrite HH0.
    rewrite (next_block_head own1 fs c HL3 HB1 HFr). rewrite set_next_hdr.
    2:{ destruct (zlen d <=? snd p); [unfold LAST; lia|]. unfold start_of. destruct (own1 ++ fs) as [|q t]; [unfold LAST in *; lia|]. apply layout_cons in HL3. destruct HL3 as ((A & B & C) & _). unfold LAST in *. lia. }
    destruct (Z.ltb_spec (fst p) 0); [lia|]. destruct (Z.ltb_spec (zlen (c_data c)) (fst p)); [lia|]. cbn [orb c_free c_page]. cbv zeta in STEP. destruct (copied block bpos (Z.min (snd p) (zlen d))) as [e b2]. rewrite app_nil_r, HFr. exact STEP.
Qed.

(** ** One write *)
Lemma starts_nodup hi ps : layout hi ps -> NoDup (map fst ps).
Proof.
  induction ps as [|p r IH]; intros H; [constructor|]. apply layout_cons in H. destruct H as ((A & B & C) & H & D). cbn [map]. constructor; [|now apply IH]. intros Hin. apply in_map_iff in Hin. destruct Hin as (q & E & Hq). pose proof (D q Hq) as DJ. pose proof (proj1 (Forall_forall _ _) (proj2 H) q Hq) as (Q1 & Q2 & Q3). unfold disj in DJ. lia.
Qed.
Lemma layout_count hi ps : layout hi ps -> Z.of_nat (length ps) <= Z.max 0 hi.
Proof.
  intros H. pose proof (starts_nodup hi ps H) as ND. assert (L : (length (map fst ps) <= length (map Z.of_nat (seq 0 (Z.to_nat hi))))%nat).
  { apply NoDup_incl_length; [exact ND|]. intros x Hx. apply in_map_iff in Hx. destruct Hx as (q & <- & Hq). pose proof (proj1 (Forall_forall _ _) (proj2 H) q Hq) as (Q1 & Q2 & Q3). apply in_map_iff. exists (Z.to_nat (fst q)). split; [lia|]. apply in_seq. lia. }
  rewrite !map_length, seq_length in L. unfold page in *. lia.
Qed.
Definition wm_post (c : cat) (others : list page) (d : list Z) (r : res (cat * Z)) : Prop :=
  exists data' us fs', r = Ok (CT data' (head fs') (c_page c), head us) /\ layout (zlen data') (us ++ fs' ++ others) /\
    zlen (c_data c) <= zlen data' <= zlen (c_data c) + 31 + Z.max (zlen d) (c_page c) /\
    file_in data' us d /\ linked data' fs' /\ Forall (same (c_data c) data') others /\ agree (c_data c) data' 0 16.
Lemma wm_ok after : In 0 after -> forall fuel c own fs others d start usep,
  layout (zlen (c_data c)) (own ++ fs ++ others) -> linked (c_data c) own -> linked (c_data c) fs -> c_free c = head fs -> 0 < c_page c ->
  16 <= zlen (c_data c) -> zlen (c_data c) + 31 + Z.max (zlen d) (c_page c) < LAST ->
  next_block c start = start_of own fs (zlen (c_data c)) -> (own <> [] -> start_of own fs (zlen (c_data c)) = head own) ->
  (d <> [] \/ own ++ fs <> [] \/ usep = true) -> zlen (c_data c) + 31 + Z.max (zlen d) (c_page c) <= Z.of_nat fuel ->
  wm_post c others d (wb_main fuel after c d 0 start (-1) usep) /\
  (own <> [] -> exists c', wb_main fuel after c d 0 start (-1) usep = Ok (c', head own)).
Proof.
  intros HA fuel c own fs others d start usep HL HKo HKf HFr HPg H16 HB HN HO Hne Hfu. pose proof (zlen_nonneg d) as Z0.
  assert (Hfu2 : (length d < fuel)%nat) by (unfold zlen in *; lia).
  destruct (wb_ok after HA fuel c own fs others d 0 d usep true blank HL HKo HKf HFr HPg H16 HB eq_refl ltac:(lia) ltac:(destruct d; [right; split; [reflexivity|]; destruct Hne as [Hne|Hne]; [congruence|exact Hne]|left; discriminate]) Hfu2 eq_refl) as (data' & us & own' & fs' & R1 & R2 & R3 & R4 & R5 & R6 & R7 & R8 & R9).
  unfold wb_main. change (-1 =? -1) with true. cbv iota. rewrite HN. rewrite R1. cbn [rbind c_data c_free].
  assert (HU : start_of own fs (zlen (c_data c)) = head us) by (destruct us as [|u t]; [destruct R8|]; destruct R8 as [E _]; now rewrite <- E).
  assert (HFI : file_in data' us d) by (split; [exact R4|]; split; [exact R7|]; destruct us as [|u t]; [exact R8|]; split; [apply R8|lia]).
  assert (HLO : layout (zlen (c_data c)) others /\ (forall p q, In p (own ++ fs) -> In q others -> disj p q)) by (rewrite app_assoc in HL; apply layout_app in HL; tauto).
  assert (HSO : Forall (same (c_data c) data') others).
  { apply Forall_forall. intros q Hq. destruct HLO as [HLO HDJ]. pose proof (proj1 (Forall_forall _ _) (proj2 HLO) q Hq) as (Q1 & Q2 & Q3). apply R9; [lia|lia|]. intros p Hp. pose proof (HDJ p q Hp Hq) as DJ. unfold disj in DJ. lia. }
  assert (HA16 : agree (c_data c) data' 0 16). { apply R9; [lia|lia|]. intros p Hp. assert (HP : pg_ok (zlen (c_data c)) p) by (apply (proj1 (Forall_forall _ _) (proj2 HL)); rewrite app_assoc; apply in_or_app; now left). destruct HP as (P1 & P2 & P3). lia. }
  assert (HLo' : layout (zlen data') own') by (apply layout_app in R2; destruct R2 as (_ & R2 & _); apply layout_app in R2; tauto).
  assert (HLr' : layout (zlen data') (own' ++ fs' ++ others)) by (apply layout_app in R2; tauto).
  assert (FIN : forall fs2 data2, (if (start_of own' fs' (zlen data') <? zlen data') && negb (start_of own' fs' (zlen data') =? head fs') then free_block fuel after (CT data' (head fs') (c_page c)) (start_of own' fs' (zlen data')) else Ok (CT data' (head fs') (c_page c))) = Ok (CT data2 (head fs2) (c_page c)) ->
     layout (zlen data2) (us ++ fs2 ++ others) -> zlen data2 = zlen data' -> linked data2 fs2 -> Forall (same data' data2) (us ++ others) -> agree data' data2 0 16 ->
     wm_post c others d (do c0 <- (if (start_of own' fs' (zlen data') <? zlen data') && negb (start_of own' fs' (zlen data') =? head fs') then free_block fuel after (CT data' (head fs') (c_page c)) (start_of own' fs' (zlen data')) else Ok (CT data' (head fs') (c_page c))); Ok (c0, start_of own fs (zlen (c_data c)))) /\
     (own <> [] -> exists c', (do c0 <- (if (start_of own' fs' (zlen data') <? zlen data') && negb (start_of own' fs' (zlen data') =? head fs') then free_block fuel after (CT data' (head fs') (c_page c)) (start_of own' fs' (zlen data')) else Ok (CT data' (head fs') (c_page c))); Ok (c0, start_of own fs (zlen (c_data c)))) = Ok (c', head own))).
  { intros fs2 data2 E L2 Z2 K2 S2 A2. rewrite E. cbn [rbind]. split; [|intros Hown; rewrite (HO Hown); eexists; reflexivity]. exists data2, us, fs2. apply Forall_app in S2. destruct S2 as [S2 S3]. rewrite HU. split; [reflexivity|]. split; [exact L2|]. split; [lia|]. split.
    - apply (file_frame data' data2 (zlen data')); [|exact S2|exact HFI]. apply layout_app in R2. apply R2.
    - split; [exact K2|]. split.
      + apply Forall_forall. intros q Hq. apply (agree_trans _ data'); [exact (proj1 (Forall_forall _ _) HSO q Hq)|exact (proj1 (Forall_forall _ _) S3 q Hq)].
      + exact (agree_trans _ data' _ _ _ HA16 A2). }
  destruct own' as [|p t].
  - (* nothing left over *) apply (FIN fs' data'); try assumption; [|reflexivity|apply Forall_forall; intros q _; apply agree_refl|apply agree_refl].
    assert (EC : (start_of [] fs' (zlen data') <? zlen data') && negb (start_of [] fs' (zlen data') =? head fs') = false); [|rewrite EC; reflexivity].
    unfold start_of. cbn [app]. destruct fs' as [|q t]; [rewrite Z.ltb_irrefl; reflexivity|]. cbn [head]. rewrite Z.eqb_refl. apply andb_false_r.
  - (* the rest of the chain is released *)
    assert (ES : start_of (p :: t) fs' (zlen data') = fst p) by reflexivity. rewrite ES in *. assert (HLp := HLr'). cbn [app] in HLp. apply layout_cons in HLp. destruct HLp as ((P1 & P2 & P3) & HLt & HD).
    assert (HNE : (fst p =? head fs') = false). { apply Z.eqb_neq. destruct fs' as [|q s]; cbn [head]; [lia|]. pose proof (HD q ltac:(apply in_or_app; right; now left)) as DJ. assert (HQ : pg_ok (zlen data') q) by (apply (proj1 (Forall_forall _ _) (proj2 HLt)); apply in_or_app; right; now left). destruct HQ as (Q1 & Q2 & Q3). unfold disj in DJ. lia. }
    assert (HLpf : layout (zlen data') ((p :: t) ++ fs')) by (rewrite app_assoc in HLr'; apply layout_app in HLr'; tauto).
    destruct (free_ok after HA (p :: t) fuel data' blank fs' ltac:(discriminate) HLpf ltac:(lia) R5 R6 ltac:(pose proof (layout_count _ _ HLo'); lia) eq_refl) as (data2 & F1 & F2 & F3 & F4).
    assert (EC : (if (fst p <? zlen data') && negb (fst p =? head fs') then free_block fuel after (CT data' (head fs') (c_page c)) (fst p) else Ok (CT data' (head fs') (c_page c))) = Ok (CT data2 (head ((p :: t) ++ fs')) (c_page c))).
    { rewrite HNE. destruct (Z.ltb_spec (fst p) (zlen data')); [|lia]. cbn [andb negb]. unfold free_block. destruct (Z.eqb_spec (fst p) 0); [lia|]. destruct (Z.eqb_spec (fst p) LAST); [lia|]. cbn [orb c_data c_free c_page]. cbn [head] in F1. rewrite F1. reflexivity. }
    apply (FIN ((p :: t) ++ fs') data2); [exact EC|rewrite F2, <- app_assoc; exact R2|exact F2|exact F3| |].
    + apply Forall_forall. intros q Hq. assert (HDQ : forall z, In z (p :: t) -> disj q z).
      { intros z Hz. apply in_app_or in Hq. destruct Hq as [Hq|Hq].
        - apply layout_app in R2. destruct R2 as (_ & _ & R2). apply (R2 q z Hq). apply in_or_app. now left.
        - apply layout_app in HLr'. destruct HLr' as (_ & _ & HX). apply disj_sym. apply (HX z q Hz). apply in_or_app. now right. }
      assert (HQ : pg_ok (zlen data') q). { apply (proj1 (Forall_forall _ _) (proj2 R2)). apply in_app_or in Hq. destruct Hq as [Hq|Hq]; apply in_or_app; [now left|right; apply in_or_app; right; apply in_or_app; now right]. }
      destruct HQ as (Q1 & Q2 & Q3). apply F4; [lia|]. intros z Hz. pose proof (HDQ z Hz) as DJ. unfold disj in DJ. lia.
    + apply F4; [lia|]. intros z Hz. pose proof (proj1 (Forall_forall _ _) (proj2 HLo') z Hz) as (Q1 & Q2 & Q3). lia.
Qed.
