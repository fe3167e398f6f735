(** Proofs about the kept answer whether an element is a container. *)
From Verif Require Import Prelude Lists Stream_Model Cf_Model Elem_Model Elem_Spec Elem_Proofs Kind_Model Kind_Spec.
Ltac Zify.zify_post_hook ::= idtac.

(** ** The test *)
Lemma marks_block l p : 0 <= p -> p + 31 <= zlen l -> (marks_ok (firstn 31 (skipn (Z.to_nat p) l)) = true <-> block_at l p).
Proof.
  intros Hp HL. split.
  - intros M. set (h := firstn 31 (skipn (Z.to_nat p) l)) in *.
    assert (HH : length h = 31%nat) by (unfold h; rewrite firstn_length, skipn_length; unfold zlen in HL; lia).
    assert (E : l = firstn (Z.to_nat p) l ++ h ++ skipn (Z.to_nat p + 31) l).
    { unfold h. rewrite <- (firstn_skipn (Z.to_nat p) l) at 1. f_equal. rewrite <- (firstn_skipn 31 (skipn (Z.to_nat p) l)) at 1. f_equal. rewrite skipn_plus. reflexivity. }
    assert (L0 : zlen (firstn (Z.to_nat p) l) = p) by (unfold zlen in *; rewrite firstn_length; lia).
    clearbody h. do 31 (destruct h as [|? h]; [discriminate HH|]). destruct h; [|discriminate HH].
    unfold marks_ok in M. cbn [nth] in M. rewrite !andb_true_iff in M. destruct M as [[[[[[M0 M1] M2] M3] M4] M5] M6].
    apply Z.eqb_eq in M0, M1, M2, M3, M4, M5, M6. subst.
    match type of E with _ = _ ++ [_; _; ?a0; ?a1; ?a2; ?a3; ?a4; ?a5; ?a6; ?a7; _; ?b0; ?b1; ?b2; ?b3; ?b4; ?b5; ?b6; ?b7; _; ?c0; ?c1; ?c2; ?c3; ?c4; ?c5; ?c6; ?c7; _; _; _] ++ _ =>
      exists (firstn (Z.to_nat p) l), [a0; a1; a2; a3; a4; a5; a6; a7], [b0; b1; b2; b3; b4; b5; b6; b7], [c0; c1; c2; c3; c4; c5; c6; c7], (skipn (Z.to_nat p + 31) l) end.
    split; [exact E|]. split; [exact L0|]. auto.
  - intros (before & a & b & c & after & E & L0 & La & Lb & Lc).
    assert (Q : skipn (Z.to_nat p) l = [13; 10] ++ a ++ [32] ++ b ++ [32] ++ c ++ [32; 13; 10] ++ after).
    { rewrite E, skipn_app, skipn_all2 by (unfold zlen in L0; lia). replace (Z.to_nat p - length before)%nat with 0%nat by (unfold zlen in L0; lia). reflexivity. }
    rewrite Q. do 8 (destruct a as [|? a]; [discriminate La|]). destruct a; [|discriminate La]. do 8 (destruct b as [|? b]; [discriminate Lb|]). destruct b; [|discriminate Lb].
    do 8 (destruct c as [|? c]; [discriminate Lc|]). destruct c; [|discriminate Lc]. reflexivity.
Qed.
Lemma block_fits l p : block_at l p -> 0 <= p /\ p + 31 <= zlen l.
Proof.
  intros (before & a & b & c & after & E & L0 & La & Lb & Lc). subst l. unfold zlen in *. rewrite !app_length. cbn [length]. lia.
Qed.
Lemma header_in l e junk : 0 <= e -> e + 31 <= zlen l -> length junk = 31%nat -> read_header l e junk = Ok (firstn 31 (skipn (Z.to_nat e) l)).
Proof.
  intros H0 H1 HJ. unfold read_header. destruct (zlen l <? e) eqn:A; [lia|]. destruct (e <? 0) eqn:B; [lia|]. cbv zeta. f_equal.
  rewrite (skipn_all2 junk); [apply app_nil_r|]. rewrite HJ, firstn_length, skipn_length. unfold zlen in H1. lia.
Qed.
Lemma le4 a b c d : le_val [a; b; c; d] = a + 256 * b + 65536 * c + 16777216 * d.
Proof. cbn [le_val]. ring. Qed.
Lemma first_val l : (if zlen l <? 4 then le_val (l ++ skipn (length l) [255; 255; 255; 255]) else le_val (firstn 4 l)) = first_word l.
Proof.
  unfold first_word. destruct l as [|a [|b [|c [|d r]]]]; cbn [length skipn app nth]; try (change (zlen _ <? 4) with true; cbv iota; apply le4).
  replace (zlen (a :: b :: c :: d :: r) <? 4) with false by (unfold zlen; cbn [length]; lia). cbn [firstn]. apply le4.
Qed.
Lemma word_range l : Forall byte_ok l -> 0 <= first_word l < 2^32.
Proof.
  intros H. assert (B : forall i, 0 <= nth i l 255 < 256).
  { intros i. destruct (Nat.lt_ge_cases i (length l)) as [C|C].
    - rewrite Forall_forall in H. specialize (H (nth i l 255) (nth_In l 255 C)). unfold byte_ok in H. lia.
    - rewrite nth_overflow by lia. lia. }
  unfold first_word. pose proof (B 0%nat). pose proof (B 1%nat). pose proof (B 2%nat). pose proof (B 3%nat). lia.
Qed.
Lemma test_ok junk l : length junk = 31%nat -> Forall byte_ok l -> answerable l -> zlen l < 2^31 -> exists b, is_catalog junk l = Ok b /\ (b = true <-> looks l).
Proof.
  intros HJ HB HA HL. pose proof (word_range l HB) as HW. unfold is_catalog. destruct (zlen l =? 16) eqn:E16.
  - eexists. split; [reflexivity|]. destruct (list_eq_dec Z.eq_dec l template) as [E|E].
    + split; [|reflexivity]. intros _. left. exact E.
    + split; [discriminate|]. intros [L|[L _]]; [elim E; exact L|]. apply block_fits in L. lia.
  - cbv zeta. rewrite first_val. set (e := first_word l) in *.
    assert (T : forall t, (t = true <-> block_at l 16) -> (t = true <-> looks l) -> (t = true <-> looks l)) by auto. clear T.
    assert (NT : l <> [255; 255; 255; 127; 0; 2; 0; 0; 0; 0; 0; 0; 0; 0; 0; 0]) by (intros ->; discriminate E16).
    assert (M : exists ok, (if e =? LAST then Ok true else if zlen l <=? u32 (e + 31) then Ok false else do h <- read_header l e junk; Ok (marks_ok h)) = Ok ok /\
      (ok = true <-> (e = 2147483647 \/ block_at l e /\ e + 31 < zlen l))).
    { destruct (Z.eqb_spec e LAST) as [EL|EL].
      - exists true. split; [reflexivity|]. split; [left; exact EL|reflexivity].
      - destruct (Z_lt_le_dec (e + 31) (2^32)) as [W|W].
        + unfold u32. rewrite Z.mod_small by lia. destruct (zlen l <=? e + 31) eqn:C.
          * exists false. split; [reflexivity|]. split; [discriminate|]. intros [H|[_ H]]; [elim EL; exact H|lia].
          * rewrite header_in by lia. cbn [rbind]. eexists. split; [reflexivity|]. rewrite marks_block by lia. split; [intros K; right; split; [exact K|lia]|]. intros [H|[H _]]; [elim EL; exact H|exact H].
        + assert (U : u32 (e + 31) = e + 31 - 2^32) by (unfold u32; symmetry; apply Z.mod_unique with 1; lia).
          rewrite U. destruct HA as [HA|[HA|HA]]; [unfold zlen in E16; lia|fold e in HA; lia|fold e in HA]. replace (zlen l <=? e + 31 - 2^32) with true by lia.
          exists false. split; [reflexivity|]. split; [discriminate|]. intros [H|[_ H]]; [elim EL; exact H|lia]. }
    destruct M as (ok & -> & M). cbn [rbind]. destruct ok; cbn [negb].
    + destruct (zlen l <? 47) eqn:C.
      * exists false. split; [reflexivity|]. split; [discriminate|]. intros [H|[H _]]; [elim NT; exact H|]. apply block_fits in H. lia.
      * rewrite header_in by lia. cbn [rbind]. eexists. split; [reflexivity|]. change 16%nat with (Z.to_nat 16). rewrite marks_block by lia. split.
        -- intros H. right. split; [exact H|]. apply M. reflexivity.
        -- intros [H|[H _]]; [elim NT; exact H|exact H].
    + exists false. split; [reflexivity|]. split; [discriminate|]. intros [H|[_ H]]; [elim NT; exact H|]. apply M in H. exact H.
Qed.
Lemma test_throws junk l : zlen l < 2^31 -> Forall byte_ok l -> ~ answerable l -> is_catalog junk l = Throw /\ ~ looks l.
Proof.
  intros HL HB HA. unfold answerable in HA. pose proof (word_range l HB) as HW. set (e := first_word l) in *.
  assert (H1 : length l <> 16%nat) by tauto. assert (H2 : 2^32 <= e + 31) by lia. assert (H3 : e + 31 - 2^32 < zlen l) by lia. split.
  - unfold is_catalog. replace (zlen l =? 16) with false by (unfold zlen; lia). cbv zeta. rewrite first_val. fold e. replace (e =? LAST) with false by (unfold LAST; lia).
    assert (U : u32 (e + 31) = e + 31 - 2^32) by (unfold u32; symmetry; apply Z.mod_unique with 1; lia). rewrite U. replace (zlen l <=? e + 31 - 2^32) with false by lia.
    unfold read_header. replace (zlen l <? e) with true by lia. reflexivity.
  - intros [L|[_ [L|[_ L]]]]; [apply H1; subst l; reflexivity|fold e in L; lia|fold e in L; lia].
Qed.

(** ** The element *)
Section Run.
Variables (deflate inflate : list Z -> list Z) (zipped selfz : bool) (junk : list Z).
Hypothesis HD : forall d, inflate (deflate d) = d.
Hypothesis HZ : selfz = true -> zipped = true.
Hypothesis HJ : length junk = 31%nat.
Let step := kstep deflate inflate zipped selfz junk.
Let steps := ksteps deflate inflate zipped selfz junk.

Lemma load_stored d : load inflate zipped (Some (stored_as deflate zipped selfz d)) = d.
Proof using HD HZ.
  clear - HD HZ. unfold load, shown_as, stored_as. destruct zipped, selfz; cbn [orb]; try apply HD; try reflexivity. specialize (HZ eq_refl). discriminate.
Qed.
(** the bytes an element has, opened or not *)
Definition has (f : vfile) (c : option (list Z)) : Prop :=
  match c with
  | None => v_parent f = false /\ v_data f = None /\ v_kind f = KNo
  | Some l => v_parent f = true /\ zlen l < 2^31 /\ Forall byte_ok l /\ (match v_data f with Some m => ms_data m = l /\ (v_changed f = false -> load inflate zipped (v_store f) = l) | None => load inflate zipped (v_store f) = l /\ v_changed f = false end)
  end.
Definition kept (f : vfile) (c : option (list Z)) (asked : bool) : Prop :=
  match c with
  | None => True
  | Some l => match v_kind f with
              | KUnknown => True
              | KYes => asked = true /\ looks l /\ v_data f <> None
              | KNo => asked = true /\ ~ looks l /\ v_data f <> None
              end
  end.
Lemma opens f l : has f (Some l) -> exists m, ms_data m = l /\ try_open inflate zipped f = Some (VF true (v_store f) (Some m) (v_kind f) (v_changed f), m) /\ (v_changed f = false -> load inflate zipped (v_store f) = l).
Proof using. clear HD HZ HJ.
  intros (HP & HL & HB & HM). unfold try_open. destruct f as [par st da ki ch]. cbn [v_parent v_store v_data v_kind v_changed] in *. subst par. destruct da as [m|].
  - exists m. destruct HM as [HM HM']. split; [exact HM|]. split; [reflexivity|exact HM'].
  - destruct HM as [HM HM']. eexists. split; [|split; [reflexivity|]]; [exact HM|intros _; exact HM].
Qed.
Lemma shut f : has f None -> try_open inflate zipped f = None.
Proof using. clear HD HZ HJ. intros (HP & HM & _). unfold try_open. rewrite HM, HP. reflexivity. Qed.
Lemma part_len l s (d : list Z) : (s <= length l)%nat -> zlen l < 2^31 -> Z.of_nat s + zlen d < 2^31 -> zlen (over_at l s d) < 2^31.
Proof using. clear HD HZ HJ. intros H1 H2 H3. change (over_at l s d) with (written l s d). unfold zlen in *. rewrite written_len by exact H1. lia. Qed.
Lemma part_bytes l s d : Forall byte_ok l -> Forall byte_ok d -> Forall byte_ok (over_at l s d).
Proof using. clear HD HZ HJ. intros H1 H2. unfold over_at. apply Forall_app. split; [apply Forall_firstn'; exact H1|]. apply Forall_app. split; [exact H2|apply Forall_skipn'; exact H1]. Qed.
(** what a write does to an element that is there *)
Lemma changes f l w l' : has f (Some l) -> zlen l' < 2^31 -> Forall byte_ok l' -> (forall q, exists q', w (MS l q) = Ok (MS l' q')) ->
  exists f', change inflate zipped f w = Ok f' /\ has f' (Some l') /\ v_kind f' = v_kind f.
Proof using. clear HD HZ HJ.
  intros H HL HB HW. destruct (opens f l H) as (m & E & T & _). destruct m as [ml mp]. cbn [ms_data] in E. subst ml. destruct (HW mp) as (q' & W).
  unfold change. rewrite T, W. cbn [rbind v_parent v_store v_kind]. eexists. split; [reflexivity|]. split; [|reflexivity]. unfold has. cbn [v_parent v_data v_changed v_store ms_data].
  split; [reflexivity|]. split; [exact HL|]. split; [exact HB|]. split; [reflexivity|discriminate].
Qed.
Lemma kept_fresh f l f' : kept f (Some l) false -> v_kind f' = v_kind f -> forall l', kept f' (Some l') false.
Proof using. clear HD HZ HJ. unfold kept. intros K ->. intros l'. destruct (v_kind f); [exact Logic.I|destruct K as [K _]; discriminate|destruct K as [K _]; discriminate]. Qed.
Definition next_asked (asked : bool) (x : kop) : bool := match x with KAsk => true | KGet => asked | _ => false end.
Definition allowed (asked : bool) (c : option (list Z)) (x : kop) : Prop := c = None \/ match x with KAll _ | KFrom _ _ | KPart _ _ => asked = false | _ => True end.
Lemma step_ok f c asked x : has f c -> kept f c asked -> fits c x -> allowed asked c x ->
  exists f' o, step f x = Ok (f', o) /\ told c x o /\ has f' (now_holds c x) /\ kept f' (now_holds c x) (next_asked asked x).
Proof using HD HZ HJ.
  intros H K F A. destruct c as [l|].
  - assert (HLB : zlen l < 2^31 /\ Forall byte_ok l) by (destruct H as (_ & ? & ? & _); auto). destruct HLB as [HL HB].
    assert (HPar : v_parent f = true) by (destruct H as (? & _); assumption).
    destruct A as [A|A]; [discriminate|]. destruct x; cbn [fits now_holds next_asked] in *; unfold step, kstep.
    + (* question *) destruct (opens f l H) as (m & E & T & SL). unfold ask. destruct (v_kind f) eqn:EK.
      * rewrite T. rewrite E. destruct (test_ok junk l HJ HB F HL) as (b & -> & B). cbn [rbind fst snd with_kind v_parent v_store v_data v_changed v_kind]. eexists _, _. split; [reflexivity|]. split; [exact B|].
        split.
        -- unfold has. cbn [v_parent v_data v_changed v_store]. split; [reflexivity|]. split; [exact HL|]. split; [exact HB|]. split; [exact E|exact SL].
        -- unfold kept. cbn [v_kind v_data]. destruct b; split; auto; split; try discriminate.
           ++ apply B. reflexivity.
           ++ intros X. apply B in X. discriminate.
      * cbn [rbind fst snd]. eexists _, _. split; [reflexivity|]. unfold kept in K. rewrite EK in K. destruct K as (_ & K & K'). split; [split; auto|]. split; [exact H|]. unfold kept. rewrite EK. auto.
      * cbn [rbind fst snd]. eexists _, _. split; [reflexivity|]. unfold kept in K. rewrite EK in K. destruct K as (_ & K & K'). split; [split; [discriminate|intros X; elim K; exact X]|]. split; [exact H|]. unfold kept. rewrite EK. auto.
    + subst asked. destruct F as [F1 F2]. destruct (changes f l (fun m => do r <- el_write_all m d; Ok (fst r)) d H F1 F2) as (f' & E & H' & EK).
      { intros q. rewrite all_in by auto. cbn [rbind fst]. eauto. }
      unfold write_whole. rewrite E. cbn [rbind]. eexists _, _. split; [reflexivity|]. split; [exact Logic.I|]. split; [exact H'|]. exact (kept_fresh f l f' K EK d).
    + subst asked. destruct F as [F1 F2]. destruct (changes f l (fun m => do r <- el_put_all m (MS d (Z.of_nat p)); Ok (fst (fst r))) d H F1 F2) as (f' & E & H' & EK).
      { intros q. rewrite all_from by auto. cbn [rbind fst]. eauto. }
      unfold write_from. rewrite E. cbn [rbind]. eexists _, _. split; [reflexivity|]. split; [exact Logic.I|]. split; [exact H'|]. exact (kept_fresh f l f' K EK d).
    + subst asked. destruct F as (F1 & F2 & F3). destruct (changes f l (fun m => do r <- el_write m (Z.of_nat start) d; Ok (fst r)) (over_at l start d) H (part_len l start d F3 HL F2) (part_bytes l start d HB F1)) as (f' & E & H' & EK).
      { intros q. pose proof (write_in l q start d HL F3 F2) as W. rewrite W. cbn [rbind fst]. eauto. }
      unfold write_part. rewrite E. cbn [rbind]. eexists _, _. split; [reflexivity|]. split; [exact Logic.I|]. split; [exact H'|]. exact (kept_fresh f l f' K EK _).
    + eexists _, _. split; [reflexivity|]. split; [exact Logic.I|]. unfold close. rewrite HPar. cbn [negb]. destruct H as (HP & _ & _ & HM). destruct (v_data f) as [m|] eqn:EM.
      * split; [|exact Logic.I]. unfold has. cbn [v_parent v_data v_store v_changed]. split; [reflexivity|]. split; [exact HL|]. split; [exact HB|]. split; [|reflexivity].
        destruct HM as [E SL]. destruct (v_changed f); [rewrite E; apply load_stored|apply SL; reflexivity].
      * split.
        -- unfold has. rewrite EM. auto.
        -- unfold kept in *. destruct (v_kind f); [exact Logic.I|destruct K as (_ & _ & K)|destruct K as (_ & _ & K)]; elim K; exact EM.
    + destruct (opens f l H) as (m & E & T & SL). unfold write_and_close. rewrite T. cbn [v_parent negb]. eexists _, _. split; [reflexivity|]. split; [exact Logic.I|]. destruct F as [F1 F2]. split; [|exact Logic.I].
      unfold has. cbn [v_parent v_data v_store v_changed]. split; [reflexivity|]. split; [exact F1|]. split; [exact F2|]. split; [apply load_stored|reflexivity].
    + eexists _, _. split; [reflexivity|]. split; [exact Logic.I|]. split; [|exact Logic.I]. unfold has, remove. auto.
    + destruct (opens f l H) as (m & E & T & SL). unfold contents. rewrite T. cbn [fst snd]. eexists _, _. split; [reflexivity|]. split; [exact E|]. split.
      * unfold has. cbn [v_parent v_data v_changed v_store]. split; [reflexivity|]. split; [exact HL|]. split; [exact HB|]. split; [exact E|exact SL].
      * unfold kept in *. cbn [v_kind v_data]. destruct (v_kind f); [exact Logic.I|destruct K as (K1 & K2 & _)|destruct K as (K1 & K2 & _)]; split; auto; split; auto; discriminate.
  - pose proof (shut f H) as T. assert (N : forall x, now_holds None x = None) by reflexivity. rewrite N. assert (HK : v_kind f = KNo) by (destruct H as (_ & _ & ?); assumption).
    assert (HPar : v_parent f = false) by (destruct H as (? & _); assumption).
    destruct x; unfold step, kstep, ask, write_whole, write_from, write_part, change, close, write_and_close, contents; rewrite ?T, ?HK, ?HPar; cbn [rbind fst snd negb]; eexists _, _; (split; [reflexivity|]); (split; [try exact Logic.I; try reflexivity|]); (split; [try exact H|exact Logic.I]).
    unfold has, remove. auto.
Qed.
Lemma allowed_next asked c x r : closed_first asked (x :: r) \/ c = None -> allowed asked c x /\ (closed_first (next_asked asked x) r \/ now_holds c x = None).
Proof using. clear HD HZ HJ.
  intros [H| ->]; [|split; [left; reflexivity|right; reflexivity]].
  destruct x; cbn [closed_first next_asked] in *; (split; [right; try exact Logic.I; try (destruct H as [H _]; exact H)|]); try (left; tauto).
  right. destruct c; reflexivity.
Qed.
Lemma run_ok xs : forall f c asked, has f c -> kept f c asked -> all_fit c xs -> (closed_first asked xs \/ c = None) ->
  exists f' os, steps f xs = Ok (f', os) /\ all_told c xs os /\ has f' (finally c xs) /\ kept f' (finally c xs) (fold_left next_asked xs asked).
Proof using HD HZ HJ.
  induction xs as [|x r IH]; intros f c asked H K F A.
  - exists f, []. split; [reflexivity|]. split; [exact Logic.I|]. split; [exact H|exact K].
  - destruct F as [F1 F2]. destruct (allowed_next asked c x r A) as [A1 A2]. destruct (step_ok f c asked x H K F1 A1) as (f1 & o & E1 & T1 & H1 & K1).
    destruct (IH f1 (now_holds c x) (next_asked asked x) H1 K1 F2 A2) as (f2 & os & E2 & T2 & H2 & K2). exists f2, (o :: os). split; [|split; [split; assumption|split; [exact H2|exact K2]]].
    unfold steps. cbn [ksteps]. unfold step in E1. rewrite E1. cbn [rbind fst snd]. unfold steps in E2. rewrite E2. reflexivity.
Qed.
Lemma gone xs : finally None xs = None.
Proof using. clear HD HZ HJ. induction xs; [reflexivity|assumption]. Qed.
Lemma not_asked d xs : forall asked c, closed_first asked (xs ++ [KAll d]) -> finally c xs <> None -> fold_left next_asked xs asked = false /\ closed_first asked xs.
Proof using.
  clear HD HZ HJ. induction xs as [|x r IH]; intros asked c H N.
  - destruct H as [H _]. split; [exact H|exact Logic.I].
  - cbn [app finally fold_left] in *. destruct x; cbn [closed_first next_asked] in *; try (specialize (IH _ _ H N); exact IH); try (destruct H as [H1 H2]; specialize (IH _ _ H2 N); tauto).
    elim N. destruct c; apply gone.
Qed.
(** an element as it is stored *)
Definition begins (st : option (list Z)) (l : list Z) : Prop := st = Some (if zipped then deflate l else l) \/ st = None /\ l = [].
Lemma begins_has st l : begins st l -> zlen l < 2^31 -> Forall byte_ok l -> has (VF true st None KUnknown false) (Some l).
Proof using HD.
  clear - HD. intros B HL HB. unfold has. cbn [v_parent v_data v_store v_changed]. split; [reflexivity|]. split; [exact HL|]. split; [exact HB|]. split; [|reflexivity].
  destruct B as [-> |[-> ->]]; [|reflexivity]. unfold load, shown_as. destruct zipped; [apply HD|reflexivity].
Qed.
Lemma from_start st l xs : begins st l -> zlen l < 2^31 -> Forall byte_ok l -> all_fit (Some l) xs -> closed_first false xs ->
  exists f' os, steps (VF true st None KUnknown false) xs = Ok (f', os) /\ all_told (Some l) xs os /\ has f' (finally (Some l) xs) /\ kept f' (finally (Some l) xs) (fold_left next_asked xs false).
Proof using HD HZ HJ. intros B HL HB F A. apply run_ok; [apply begins_has; assumption|exact Logic.I|exact F|left; exact A]. Qed.
Lemma stale st d1 d2 : begins st d1 -> zlen d1 < 2^31 -> Forall byte_ok d1 -> answerable d1 -> zlen d2 < 2^31 -> Forall byte_ok d2 ->
  exists f b, steps (VF true st None KUnknown false) [KAsk; KAll d2; KAsk; KGet] = Ok (f, [OBool b; ODone; OBool b; OBytes d2]) /\ (b = true <-> looks d1).
Proof using HD HZ HJ.
  intros B HL HB A HL2 HB2. pose proof (begins_has st d1 B HL HB) as H. set (f0 := VF true st None KUnknown false) in *.
  destruct (opens f0 d1 H) as (m & E & T & _). destruct m as [ml mp]. cbn [ms_data] in E. subst ml. destruct (test_ok junk d1 HJ HB A HL) as (b & Eb & Lb).
  exists (VF true st (Some (MS d2 (zlen d2))) (if b then KYes else KNo) true), b. split; [|exact Lb].
  unfold steps. cbn [ksteps kstep]. unfold ask at 1. change (v_kind f0) with KUnknown. cbv iota. rewrite T. cbn [ms_data]. rewrite Eb. cbn [rbind fst snd].
  unfold write_whole, change, with_kind, try_open. cbn [v_parent v_store v_data v_kind v_changed]. rewrite all_in by assumption. cbn [rbind fst snd v_parent v_store v_data v_kind v_changed].
  unfold ask. cbn [v_kind]. destruct b; cbn [rbind fst snd]; reflexivity.
Qed.
Lemma no_answer st l : begins st l -> zlen l < 2^31 -> Forall byte_ok l -> ~ answerable l -> steps (VF true st None KUnknown false) [KAsk] = Throw /\ ~ looks l.
Proof using HD HZ HJ.
  intros B HL HB A. destruct (opens _ l (begins_has st l B HL HB)) as (m & E & T & _). destruct (test_throws junk l HL HB A) as [E1 E2]. split; [|exact E2].
  unfold steps. cbn [ksteps kstep]. unfold ask. cbn [v_kind]. rewrite T, E, E1. reflexivity.
Qed.

(** ** CreateCatalog *)
Lemma template_ok : zlen template < 2^31 /\ Forall byte_ok template /\ answerable template /\ looks template.
Proof using. clear HD HZ HJ. split; [reflexivity|]. split; [unfold template; repeat (constructor; [unfold byte_ok; lia|]); constructor|]. split; [left; reflexivity|left; reflexivity]. Qed.
Lemma contents_has f l asked : has f (Some l) -> kept f (Some l) asked -> exists f', contents inflate zipped f = (f', l) /\ has f' (Some l) /\ kept f' (Some l) asked.
Proof using HD HZ HJ.
  intros H K. destruct (step_ok f (Some l) asked KGet H K Logic.I (or_intror Logic.I)) as (f' & o & E & T & H' & K'). cbn [now_holds next_asked] in *. unfold step in E. cbn [kstep] in E.
  destruct (contents inflate zipped f) as [g d] eqn:EC. cbn [fst snd] in E. exists f'. assert (g = f' /\ OBytes d = o) as [-> <-] by (split; congruence). cbn [told] in T. subst d. auto.
Qed.
Let create := create_catalog inflate zipped junk.
Lemma create_ok f l : has f (Some l) -> kept f (Some l) false -> answerable l ->
  exists f' b, create (Some f) = Ok (f', b) /\ (b = true <-> l = [] \/ looks l) /\ snd (contents inflate zipped f') = (if zlen l =? 0 then template else l).
Proof using HD HZ HJ.
  intros H K A. destruct (contents_has f l false H K) as (f1 & E1 & H1 & K1). unfold create, create_catalog. rewrite E1. destruct (0 <? zlen l) eqn:EL.
  - destruct (step_ok f1 (Some l) false KAsk H1 K1 A (or_intror Logic.I)) as (f2 & o & E2 & T2 & H2 & K2). cbn [now_holds next_asked] in *. unfold step in E2. cbn [kstep] in E2.
    destruct (ask inflate zipped junk f1) as [[g b]| | |] eqn:EA; cbn [rbind fst snd] in E2; try discriminate. assert (g = f2 /\ OBool b = o) as [-> <-] by (split; congruence). cbn [told] in T2.
    exists f2, b. split; [reflexivity|]. split; [|destruct (contents_has f2 l true H2 K2) as (f3 & -> & _); replace (zlen l =? 0) with false by lia; reflexivity].
    rewrite T2. split; [auto|]. intros [-> |L]; [discriminate EL|exact L].
  - assert (l = []) as -> by (destruct l; [reflexivity|unfold zlen in EL; cbn [length] in EL; lia]). destruct template_ok as (T1 & T2 & T3 & T4).
    destruct (step_ok f1 (Some []) false (KAll template) H1 K1 (conj T1 T2) (or_intror eq_refl)) as (f2 & o & E2 & _ & H2 & K2). cbn [now_holds next_asked] in *. unfold step in E2. cbn [kstep] in E2.
    destruct (write_whole inflate zipped f1 template) as [g| | |] eqn:EW; cbn [rbind] in E2; try discriminate. assert (g = f2) as -> by congruence.
    destruct (step_ok f2 (Some template) false KAsk H2 K2 T3 (or_intror Logic.I)) as (f3 & o' & E3 & T & H3 & K3). cbn [now_holds next_asked] in *. unfold step in E3. cbn [kstep] in E3. cbn [rbind].
    destruct (ask inflate zipped junk f2) as [[h b]| | |] eqn:EA; cbn [rbind fst snd] in E3; try discriminate. assert (h = f3 /\ OBool b = o') as [-> <-] by (split; congruence). cbn [told] in T.
    exists f3, b. split; [reflexivity|]. split; [|destruct (contents_has f3 template true H3 K3) as (f4 & -> & _); reflexivity].
    split; [auto|]. intros _. apply T. exact T4.
Qed.
Lemma create_new : exists f', create None = Ok (f', true) /\ snd (contents inflate zipped f') = template.
Proof using HD HZ HJ.
  assert (B : has new_elem (Some [])) by (apply begins_has; [right; split; reflexivity|reflexivity|constructor]).
  destruct (create_ok new_elem [] B Logic.I) as (f' & b & E & L & C); [right; right; vm_compute; discriminate|]. exists f'. split; [|exact C]. replace true with b by (apply L; left; reflexivity). exact E.
Qed.
Lemma create_stale f : has f (Some []) -> v_kind f = KNo -> exists f', create (Some f) = Ok (f', false) /\ snd (contents inflate zipped f') = template.
Proof using HD HZ HJ.
  intros H EK. destruct (opens f [] H) as (m & E & T & SL). unfold create, create_catalog, contents. rewrite T, E. cbn [zlen length]. change (0 <? Z.of_nat 0) with false. cbv iota.
  destruct m as [ml mp]. cbn [ms_data] in E. subst ml. unfold write_whole, change, try_open. cbn [v_data v_parent v_store v_kind]. destruct template_ok as (T1 & _).
  rewrite (all_in [] mp template) by (auto; reflexivity). cbn [rbind fst snd v_parent v_store v_kind]. unfold ask. cbn [v_kind]. rewrite EK. eexists. split; [reflexivity|]. reflexivity.
Qed.
Lemma ask_known f f' b : ask inflate zipped junk f = Ok (f', b) -> v_parent f = true -> v_kind f' = if b then KYes else KNo.
Proof using.
  clear HD HZ HJ. intros E P. unfold ask in E. destruct (v_kind f) eqn:EK; [|assert (f = f' /\ true = b) as [<- <-] by (split; congruence); exact EK|assert (f = f' /\ false = b) as [<- <-] by (split; congruence); exact EK].
  unfold try_open in E. rewrite P in E. destruct (v_data f) as [m|].
  - destruct (is_catalog junk (ms_data m)) as [c| | |]; cbn [rbind] in E; try discriminate. assert (with_kind f c = f' /\ c = b) as [<- <-] by (split; congruence). reflexivity.
  - cbv zeta in E. destruct (is_catalog junk _) as [c| | |]; cbn [rbind] in E; try discriminate. assert (c = b) as <- by congruence. assert (f' = with_kind (VF true (v_store f) (Some (MS (load inflate zipped (v_store f)) 0)) KUnknown (v_changed f)) c) as -> by congruence. reflexivity.
Qed.
Lemma steps_app a b f g o1 h o2 : steps f a = Ok (g, o1) -> steps g b = Ok (h, o2) -> steps f (a ++ b) = Ok (h, o1 ++ o2).
Proof using.
  clear HD HZ HJ. unfold steps. revert f o1. induction a as [|x r IH]; intros f o1 E1 E2; cbn [app ksteps] in *.
  - assert (f = g /\ o1 = []) as [-> ->] by (split; congruence). exact E2.
  - destruct (kstep deflate inflate zipped selfz junk f x) as [[f1 o]| | |]; cbn [rbind fst snd] in *; try discriminate.
    destruct (ksteps deflate inflate zipped selfz junk f1 r) as [[f2 os]| | |] eqn:E; cbn [rbind fst snd] in *; try discriminate.
    assert (f2 = g /\ o1 = o :: os) as [-> ->] by (split; congruence). rewrite (IH f1 os E E2). reflexivity.
Qed.
Lemma asked_then_created st l xs : begins st l -> zlen l < 2^31 -> Forall byte_ok l -> all_fit (Some l) xs -> closed_first false xs -> finally (Some l) xs = Some [] ->
  exists f os f', steps (VF true st None KUnknown false) (xs ++ [KAsk]) = Ok (f, os ++ [OBool false]) /\ create (Some f) = Ok (f', false) /\ snd (contents inflate zipped f') = template.
Proof using HD HZ HJ.
  intros B HL HB F A N. destruct (from_start st l xs B HL HB F A) as (f1 & os & E1 & _ & H1 & K1). rewrite N in H1, K1.
  assert (AN : answerable []) by (right; right; vm_compute; discriminate).
  destruct (step_ok f1 (Some []) (fold_left next_asked xs false) KAsk H1 K1 AN (or_intror Logic.I)) as (f2 & o & E2 & T2 & H2 & _). cbn [now_holds] in H2.
  unfold step in E2. cbn [kstep] in E2. destruct (ask inflate zipped junk f1) as [[g b]| | |] eqn:EA; cbn [rbind fst snd] in E2; try discriminate. assert (g = f2 /\ OBool b = o) as [-> <-] by (split; congruence).
  cbn [told] in T2. assert (b = false) as ->.
  { destruct b; [|reflexivity]. destruct T2 as [T2 _]. destruct (T2 eq_refl) as [L|[L _]]; [discriminate|]. apply block_fits in L. cbn in L. lia. }
  assert (P1 : v_parent f1 = true) by (destruct H1; assumption).
  destruct (create_stale f2 H2 (ask_known f1 f2 false EA P1)) as (f' & C1 & C2). exists f2, os, f'. split; [|split; assumption].
  apply (steps_app xs [KAsk] _ f1 os f2 [OBool false] E1). unfold steps. cbn [ksteps kstep]. rewrite EA. reflexivity.
Qed.
End Run.
