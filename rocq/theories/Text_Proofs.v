From Verif Require Import Prelude Text_Model Text_Spec Codec_Proofs.

(** ** bit operations as arithmetic *)
Lemma land_ones_mod x n : 0 <= n -> Z.land x (2 ^ n - 1) = x mod 2 ^ n.
Proof. intros H. rewrite <- Z.land_ones by assumption. f_equal. rewrite Z.ones_equiv. lia. Qed.
Lemma land63 x : Z.land x 0x3f = x mod 64. Proof. exact (land_ones_mod x 6 ltac:(lia)). Qed.
Lemma land7ff x : Z.land x 0x7ff = x mod 2048. Proof. exact (land_ones_mod x 11 ltac:(lia)). Qed.
Lemma landfff x : Z.land x 0xfff = x mod 4096. Proof. exact (land_ones_mod x 12 ltac:(lia)). Qed.
Lemma landffff x : Z.land x 0xffff = x mod 65536. Proof. exact (land_ones_mod x 16 ltac:(lia)). Qed.
Lemma land3ffff x : Z.land x 0x3ffff = x mod 262144. Proof. exact (land_ones_mod x 18 ltac:(lia)). Qed.
Lemma land1fffff x : Z.land x 0x1fffff = x mod 2097152. Proof. exact (land_ones_mod x 21 ltac:(lia)). Qed.
Lemma land3ff x : Z.land x 0x3ff = x mod 1024. Proof. exact (land_ones_mod x 10 ltac:(lia)). Qed.
Lemma land255 x : Z.land x 255 = x mod 256. Proof. exact (land_ones_mod x 8 ltac:(lia)). Qed.
Lemma shr x n : 0 <= n -> Z.shiftr x n = x / 2 ^ n. Proof. intros; now apply Z.shiftr_div_pow2. Qed.
Lemma shl x n : 0 <= n -> Z.shiftl x n = x * 2 ^ n. Proof. intros; now apply Z.shiftl_mul_pow2. Qed.
Lemma lor80 x : 0 <= x < 64 -> Z.lor x 0x80 = 0x80 + x.
Proof. intros H. apply Z.eqb_eq. apply (sweep1 64 (fun x => Z.lor x 0x80 =? 0x80 + x)); [reflexivity|exact H]. Qed.
Lemma lorc0 x : 0 <= x < 32 -> Z.lor x 0xc0 = 0xc0 + x.
Proof. intros H. apply Z.eqb_eq. apply (sweep1 32 (fun x => Z.lor x 0xc0 =? 0xc0 + x)); [reflexivity|exact H]. Qed.
Lemma lore0 x : 0 <= x < 16 -> Z.lor x 0xe0 = 0xe0 + x.
Proof. intros H. apply Z.eqb_eq. apply (sweep1 16 (fun x => Z.lor x 0xe0 =? 0xe0 + x)); [reflexivity|exact H]. Qed.
Lemma lorf0 x : 0 <= x < 8 -> Z.lor x 0xf0 = 0xf0 + x.
Proof. intros H. apply Z.eqb_eq. apply (sweep1 8 (fun x => Z.lor x 0xf0 =? 0xf0 + x)); [reflexivity|exact H]. Qed.

Ltac pow2 := change (2 ^ 5) with 32 in *; change (2 ^ 4) with 16 in *; change (2 ^ 3) with 8 in *;
  change (2 ^ 6) with 64 in *; change (2 ^ 12) with 4096 in *; change (2 ^ 18) with 262144 in *;
  change (2 ^ 10) with 1024 in *; change (2 ^ 8) with 256 in *.

Lemma is_trail_spec b : byte_ok b -> is_trail b = (128 <=? b) && (b <? 192).
Proof.
  intros H. unfold is_trail. rewrite land255, shr by lia. pow2. unfold byte_ok in H.
  rewrite Z.mod_small by lia. lia.
Qed.
Lemma seq_length_spec b : byte_ok b ->
  seq_length b = if b <? 128 then 1 else if (192 <=? b) && (b <? 224) then 2
                 else if (224 <=? b) && (b <? 240) then 3
                 else if (240 <=? b) && (b <? 248) then 4 else 0.
Proof.
  intros H. unfold seq_length. rewrite !shr by lia. pow2. unfold byte_ok in H.
  destruct (Z.ltb_spec b 128); [reflexivity|].
  destruct (Z.eqb_spec (b / 32) 6).
  - replace ((192 <=? b) && (b <? 224)) with true by lia. reflexivity.
  - replace ((192 <=? b) && (b <? 224)) with false by lia.
    destruct (Z.eqb_spec (b / 16) 14).
    + replace ((224 <=? b) && (b <? 240)) with true by lia. reflexivity.
    + replace ((224 <=? b) && (b <? 240)) with false by lia.
      destruct (Z.eqb_spec (b / 8) 30).
      * replace ((240 <=? b) && (b <? 248)) with true by lia. reflexivity.
      * replace ((240 <=? b) && (b <? 248)) with false by lia. reflexivity.
Qed.

Lemma cp_valid_spec c : 0 <= c -> cp_valid c = true <-> scalar c.
Proof. unfold cp_valid, is_surrogate, scalar. lia. Qed.

Lemma append_ok c : scalar c -> utf8_append c = Ok (enc8 c).
Proof.
  intros H. unfold utf8_append. rewrite (proj2 (cp_valid_spec c ltac:(unfold scalar in H; lia)) H). cbn [negb].
  unfold scalar in H. unfold enc8. rewrite !land63, !shr by lia. pow2.
  destruct (Z.ltb_spec c 128); [f_equal; f_equal; lia|].
  destruct (Z.ltb_spec c 2048).
  { rewrite lorc0, lor80 by lia. f_equal. f_equal; [lia|]. f_equal. lia. }
  destruct (Z.ltb_spec c 65536).
  { rewrite lore0, !lor80 by lia. f_equal. f_equal; [lia|]. f_equal; [lia|]. f_equal. lia. }
  rewrite lorf0, !lor80 by lia. f_equal. f_equal; [lia|]. f_equal; [lia|]. f_equal; [lia|]. f_equal. lia.
Qed.

Lemma append_not_ok c : 0 <= c -> ~ scalar c -> utf8_append c = Throw.
Proof.
  intros H0 H. unfold utf8_append. destruct (cp_valid c) eqn:E; [|reflexivity].
  exfalso. apply H. now apply cp_valid_spec.
Qed.

Lemma trail_next_ok b t : 128 <= b < 192 -> trail_next (b :: t) = Ok (b, t).
Proof.
  intros H. unfold trail_next. rewrite is_trail_spec by (unfold byte_ok; lia).
  now replace ((128 <=? b) && (b <? 192)) with true by lia.
Qed.

Lemma enc8_bytes c : scalar c -> bytes_ok (enc8 c).
Proof.
  intros H. unfold scalar in H. unfold enc8, bytes_ok.
  destruct (Z.ltb_spec c 128); [|destruct (Z.ltb_spec c 2048); [|destruct (Z.ltb_spec c 65536)]];
  repeat (apply Forall_cons; [unfold byte_ok; lia|]); constructor.
Qed.
Lemma enc8_nonempty c : enc8 c <> [].
Proof. unfold enc8. destruct (c <? 128); [|destruct (c <? 2048); [|destruct (c <? 65536)]]; discriminate. Qed.

Lemma next_enc8 c t : scalar c -> utf8_next (enc8 c ++ t) = Ok (c, t).
Proof.
  intros H. pose proof (proj2 (cp_valid_spec c ltac:(unfold scalar in H; lia)) H) as Hv.
  pose proof (enc8_bytes c H) as Hb.
  unfold scalar in H. unfold enc8 in *.
  destruct (Z.ltb_spec c 128) as [H1|H1].
  { cbn [app utf8_next]. inversion Hb; subst. rewrite seq_length_spec by assumption.
    replace (c <? 128) with true by lia. cbv iota zeta. unfold get_sequence. cbn [Z.eqb Pos.eqb rbind].
    rewrite Hv. unfold overlong. now replace (c <? 128) with true by lia. }
  destruct (Z.ltb_spec c 2048) as [H2|H2].
  { cbn [app utf8_next]. inversion Hb; subst. rewrite seq_length_spec by assumption.
    replace (0xc0 + c / 64 <? 128) with false by lia.
    replace ((192 <=? 0xc0 + c / 64) && (0xc0 + c / 64 <? 224)) with true by lia. cbv iota zeta.
    unfold get_sequence. cbn [Z.eqb Pos.eqb]. rewrite trail_next_ok by lia. cbn [rbind].
    rewrite land7ff, land63, shl by lia. pow2.
    replace ((192 + c / 64) * 64 mod 2048 + (128 + c mod 64) mod 64) with c by lia.
    rewrite Hv. unfold overlong. replace (c <? 128) with false by lia. now replace (c <? 2048) with true by lia. }
  destruct (Z.ltb_spec c 65536) as [H3|H3].
  { cbn [app utf8_next]. inversion Hb; subst. rewrite seq_length_spec by assumption.
    replace (0xe0 + c / 4096 <? 128) with false by lia.
    replace ((192 <=? 0xe0 + c / 4096) && (0xe0 + c / 4096 <? 224)) with false by lia.
    replace ((224 <=? 0xe0 + c / 4096) && (0xe0 + c / 4096 <? 240)) with true by lia. cbv iota zeta.
    unfold get_sequence. cbn [Z.eqb Pos.eqb]. rewrite trail_next_ok by lia. cbn [rbind].
    rewrite trail_next_ok by lia. cbn [rbind].
    rewrite landffff, landfff, land63, !shl by lia. pow2.
    replace ((224 + c / 4096) * 4096 mod 65536 + (128 + c / 64 mod 64) * 64 mod 4096 + (128 + c mod 64) mod 64) with c by lia.
    rewrite Hv. unfold overlong. replace (c <? 128) with false by lia. replace (c <? 2048) with false by lia.
    now replace (c <? 65536) with true by lia. }
  { cbn [app utf8_next]. inversion Hb; subst. rewrite seq_length_spec by assumption.
    replace (0xf0 + c / 262144 <? 128) with false by lia.
    replace ((192 <=? 0xf0 + c / 262144) && (0xf0 + c / 262144 <? 224)) with false by lia.
    replace ((224 <=? 0xf0 + c / 262144) && (0xf0 + c / 262144 <? 240)) with false by lia.
    replace ((240 <=? 0xf0 + c / 262144) && (0xf0 + c / 262144 <? 248)) with true by lia. cbv iota zeta.
    unfold get_sequence. cbn [Z.eqb Pos.eqb]. rewrite trail_next_ok by lia. cbn [rbind].
    rewrite trail_next_ok by lia. cbn [rbind]. rewrite trail_next_ok by lia. cbn [rbind].
    rewrite land1fffff, land3ffff, landfff, land63, !shl by lia. pow2.
    replace ((240 + c / 262144) * 262144 mod 2097152 + (128 + c / 4096 mod 64) * 4096 mod 262144
       + (128 + c / 64 mod 64) * 64 mod 4096 + (128 + c mod 64) mod 64) with c by lia.
    rewrite Hv. unfold overlong. replace (c <? 128) with false by lia. replace (c <? 2048) with false by lia.
    now replace (c <? 65536) with false by lia. }
Qed.

Lemma trail_next_inv t b t' : bytes_ok t -> trail_next t = Ok (b, t') -> t = b :: t' /\ 128 <= b < 192 /\ bytes_ok t'.
Proof.
  intros Hok. unfold trail_next. destruct t as [|x t]; [discriminate|]. inversion Hok; subst.
  rewrite is_trail_spec by assumption.
  destruct ((128 <=? x) && (x <? 192)) eqn:E; [|discriminate]. intros Heq. injection Heq as <- <-.
  split; [reflexivity|]. split; [lia|assumption].
Qed.

Lemma next_inv bs c t : bytes_ok bs -> utf8_next bs = Ok (c, t) -> scalar c /\ bs = enc8 c ++ t.
Proof.
  intros Hok. destruct bs as [|l r]; [discriminate|]. inversion Hok as [|? ? Hl Hr]; subst.
  cbn [utf8_next]. cbv zeta. rewrite seq_length_spec by assumption.
  assert (Hfin : forall cp t' len, 0 <= cp -> (if cp_valid cp then if overlong cp len then Throw else Ok (cp, t') else Throw) = Ok (c, t) ->
            cp = c /\ t' = t /\ scalar c /\ overlong cp len = false).
  { intros cp t' len H0. destruct (cp_valid cp) eqn:E1; [|discriminate]. destruct (overlong cp len) eqn:E2; [discriminate|].
    intros E. injection E as -> ->. rewrite cp_valid_spec in E1 by lia. auto. }
  unfold byte_ok in Hl.
  destruct (Z.ltb_spec l 128).
  { unfold get_sequence. cbn [Z.eqb Pos.eqb rbind]. intros E. apply Hfin in E; [|lia]. destruct E as (<- & <- & Hs & Ho).
    split; [exact Hs|]. unfold enc8. now replace (l <? 128) with true by lia. }
  destruct ((192 <=? l) && (l <? 224)) eqn:E2.
  { unfold get_sequence. cbn [Z.eqb Pos.eqb].
    destruct (trail_next r) as [[b1 r1]| | |] eqn:T1; cbn [rbind]; try discriminate.
    destruct (trail_next_inv _ _ _ Hr T1) as (-> & B1 & _).
    rewrite land7ff, land63, shl by lia. pow2. intros E.
    apply Hfin in E; [|lia]. destruct E as (<- & <- & Hs & Ho). split; [exact Hs|].
    unfold overlong in Ho. cbn [Z.eqb Pos.eqb negb] in Ho.
    set (c := l * 64 mod 2048 + b1 mod 64) in *.
    assert (Hc : l = 0xc0 + c / 64 /\ b1 = 0x80 + c mod 64 /\ c < 2048) by (unfold c; lia).
    destruct (Z.ltb_spec c 128); [discriminate|].
    destruct Hc as (Hc1 & Hc2 & Hc3). unfold enc8. replace (c <? 128) with false by lia. replace (c <? 2048) with true by lia.
    rewrite <- Hc1, <- Hc2. reflexivity. }
  destruct ((224 <=? l) && (l <? 240)) eqn:E3.
  { unfold get_sequence. cbn [Z.eqb Pos.eqb].
    destruct (trail_next r) as [[b1 r1]| | |] eqn:T1; cbn [rbind]; try discriminate.
    destruct (trail_next_inv _ _ _ Hr T1) as (-> & B1 & Hr1).
    destruct (trail_next r1) as [[b2 r2]| | |] eqn:T2; cbn [rbind]; try discriminate.
    destruct (trail_next_inv _ _ _ Hr1 T2) as (-> & B2 & _).
    rewrite landffff, landfff, land63, !shl by lia. pow2. intros E.
    apply Hfin in E; [|lia]. destruct E as (<- & <- & Hs & Ho). split; [exact Hs|].
    unfold overlong in Ho. cbn [Z.eqb Pos.eqb negb] in Ho.
    set (c := l * 4096 mod 65536 + b1 * 64 mod 4096 + b2 mod 64) in *.
    assert (Ec : c = (l - 224) * 4096 + (b1 - 128) * 64 + (b2 - 128)) by (unfold c; lia). clearbody c.
    assert (Hc : l = 0xe0 + c / 4096 /\ b1 = 0x80 + c / 64 mod 64 /\ b2 = 0x80 + c mod 64 /\ c < 65536) by (clear - Ec E3 B1 B2; lia).
    destruct (Z.ltb_spec c 128); [discriminate|]. destruct (Z.ltb_spec c 2048); [discriminate|].
    destruct Hc as (Hc1 & Hc2 & Hc3 & Hc4). unfold enc8. replace (c <? 128) with false by lia. replace (c <? 2048) with false by lia.
    replace (c <? 65536) with true by lia.
    rewrite <- Hc1, <- Hc2, <- Hc3. reflexivity. }
  destruct ((240 <=? l) && (l <? 248)) eqn:E4.
  { unfold get_sequence. cbn [Z.eqb Pos.eqb].
    destruct (trail_next r) as [[b1 r1]| | |] eqn:T1; cbn [rbind]; try discriminate.
    destruct (trail_next_inv _ _ _ Hr T1) as (-> & B1 & Hr1).
    destruct (trail_next r1) as [[b2 r2]| | |] eqn:T2; cbn [rbind]; try discriminate.
    destruct (trail_next_inv _ _ _ Hr1 T2) as (-> & B2 & Hr2).
    destruct (trail_next r2) as [[b3 r3]| | |] eqn:T3; cbn [rbind]; try discriminate.
    destruct (trail_next_inv _ _ _ Hr2 T3) as (-> & B3 & _).
    rewrite land1fffff, land3ffff, landfff, land63, !shl by lia. pow2. intros E.
    apply Hfin in E; [|lia]. destruct E as (<- & <- & Hs & Ho). split; [exact Hs|].
    unfold overlong in Ho. cbn [Z.eqb Pos.eqb negb] in Ho.
    set (c := l * 262144 mod 2097152 + b1 * 4096 mod 262144 + b2 * 64 mod 4096 + b3 mod 64) in *.
    assert (Ec : c = (l - 240) * 262144 + (b1 - 128) * 4096 + (b2 - 128) * 64 + (b3 - 128)) by (unfold c; lia). clearbody c.
    assert (Hc : l = 0xf0 + c / 262144 /\ b1 = 0x80 + c / 4096 mod 64 /\ b2 = 0x80 + c / 64 mod 64 /\ b3 = 0x80 + c mod 64) by (clear - Ec E4 B1 B2 B3; lia).
    destruct (Z.ltb_spec c 128); [discriminate|]. destruct (Z.ltb_spec c 2048); [discriminate|].
    destruct (Z.ltb_spec c 65536); [discriminate|].
    destruct Hc as (Hc1 & Hc2 & Hc3 & Hc4). unfold enc8. replace (c <? 128) with false by lia. replace (c <? 2048) with false by lia.
    replace (c <? 65536) with false by lia.
    rewrite <- Hc1, <- Hc2, <- Hc3, <- Hc4. reflexivity. }
  unfold get_sequence. cbn [Z.eqb]. cbn [rbind]. discriminate.
Qed.

(** ** whole texts *)
Lemma utf8_of_cons c t : utf8_of (c :: t) = enc8 c ++ utf8_of t. Proof. reflexivity. Qed.
Lemma utf8_of_app a b : utf8_of (a ++ b) = utf8_of a ++ utf8_of b.
Proof. unfold utf8_of. apply flat_map_app. Qed.
Lemma utf8_of_bytes cps : Forall scalar cps -> bytes_ok (utf8_of cps).
Proof.
  induction 1; [constructor|]. rewrite utf8_of_cons. apply bytes_ok_app. split; [now apply enc8_bytes|assumption].
Qed.

Lemma decode_of_aux cps : Forall scalar cps -> forall k, (length (utf8_of cps) < k)%nat ->
  utf8_decode k (utf8_of cps) = Ok cps.
Proof.
  induction 1 as [|c cps Hc Hcps IH]; intros [|k] Hk; try lia; [reflexivity|].
  rewrite utf8_of_cons in *. rewrite app_length in Hk.
  assert (length (enc8 c) <> 0)%nat by (pose proof (enc8_nonempty c); destruct (enc8 c); simpl; congruence).
  cbn [utf8_decode]. rewrite next_enc8 by assumption. cbn [rbind]. rewrite IH by lia. cbn [rbind].
  destruct (enc8 c ++ utf8_of cps) eqn:E; [|reflexivity].
  apply app_eq_nil in E. destruct E as [E _]. now apply enc8_nonempty in E.
Qed.
Lemma decode_of cps : Forall scalar cps -> decode (utf8_of cps) = Ok cps.
Proof. intros H. apply decode_of_aux; [assumption|lia]. Qed.

Lemma decode_inv_aux k : forall bs cps, bytes_ok bs -> utf8_decode k bs = Ok cps ->
  Forall scalar cps /\ bs = utf8_of cps.
Proof.
  induction k as [|k IH]; intros bs cps Hok; [discriminate|]. cbn [utf8_decode].
  destruct bs as [|b bs]; [intros E; injection E as <-; split; constructor|].
  destruct (utf8_next (b :: bs)) as [[c t]| | |] eqn:N; cbn [rbind]; try discriminate.
  destruct (next_inv _ _ _ Hok N) as [Hs E0]. rewrite E0 in Hok. apply bytes_ok_app in Hok. destruct Hok as [_ Hok].
  destruct (utf8_decode k t) as [r| | |] eqn:D; cbn [rbind]; try discriminate.
  destruct (IH _ _ Hok D) as [Hr ->]. intros E. injection E as <-. split; [now constructor|]. exact E0.
Qed.
Lemma decode_inv bs cps : bytes_ok bs -> decode bs = Ok cps -> Forall scalar cps /\ bs = utf8_of cps.
Proof. apply decode_inv_aux. Qed.

(** decoding never runs out of fuel and never has undefined behaviour *)
Lemma next_outcome bs : utf8_next bs = Throw \/ exists c t, utf8_next bs = Ok (c, t) /\ (length t < length bs)%nat.
Proof.
  destruct bs as [|l r]; [left; reflexivity|]. cbn [utf8_next]. cbv zeta.
  assert (Ht : forall r, trail_next r = Throw \/ exists b t, trail_next r = Ok (b, t) /\ (length t < length r)%nat).
  { intros [|x r']; [left; reflexivity|]. unfold trail_next. destruct (is_trail x); [right|left; reflexivity].
    do 2 eexists. split; [reflexivity|]. simpl. lia. }
  assert (Hg : forall len, get_sequence len l r = Throw \/ exists c t, get_sequence len l r = Ok (c, t) /\ (length t <= length r)%nat).
  { intros len. unfold get_sequence.
    destruct (len =? 1); [right; do 2 eexists; split; [reflexivity|lia]|].
    destruct (len =? 2).
    { destruct (Ht r) as [->|(b & t & -> & L)]; [left; reflexivity|]. right. do 2 eexists. split; [reflexivity|lia]. }
    destruct (len =? 3).
    { destruct (Ht r) as [->|(b & t & -> & L)]; [left; reflexivity|]. cbn [rbind].
      destruct (Ht t) as [->|(b2 & t2 & -> & L2)]; [left; reflexivity|]. right. do 2 eexists. split; [reflexivity|lia]. }
    destruct (len =? 4).
    { destruct (Ht r) as [->|(b & t & -> & L)]; [left; reflexivity|]. cbn [rbind].
      destruct (Ht t) as [->|(b2 & t2 & -> & L2)]; [left; reflexivity|]. cbn [rbind].
      destruct (Ht t2) as [->|(b3 & t3 & -> & L3)]; [left; reflexivity|]. right. do 2 eexists. split; [reflexivity|lia]. }
    left. reflexivity. }
  destruct (Hg (seq_length l)) as [->|(c & t & -> & L)]; [left; reflexivity|]. cbn [rbind].
  destruct (cp_valid c); [|left; reflexivity]. destruct (overlong c (seq_length l)); [left; reflexivity|].
  right. do 2 eexists. split; [reflexivity|]. simpl. lia.
Qed.
Lemma decode_outcome_aux k : forall bs, (length bs < k)%nat ->
  utf8_decode k bs = Throw \/ exists cps, utf8_decode k bs = Ok cps.
Proof.
  induction k as [|k IH]; intros bs Hk; [lia|]. cbn [utf8_decode].
  destruct bs as [|b bs]; [right; eexists; reflexivity|].
  destruct (next_outcome (b :: bs)) as [->|(c & t & -> & L)]; [left; reflexivity|]. cbn [rbind].
  destruct (IH t ltac:(lia)) as [->|(r & ->)]; [left; reflexivity|right; eexists; reflexivity].
Qed.
Lemma decode_outcome bs : decode bs = Throw \/ exists cps, decode bs = Ok cps.
Proof. apply decode_outcome_aux. lia. Qed.

Lemma to_units_enc16 c : scalar c -> to_units c = enc16 c.
Proof.
  intros H. unfold scalar in H. unfold to_units, enc16, lead_offset.
  rewrite land3ff, !shr by lia. pow2. change (0x10000 / 1024) with 64.
  destruct (Z.ltb_spec 65535 c).
  - replace (c <? 65536) with false by lia. f_equal; [lia|]. f_equal. lia.
  - replace (c <? 65536) with true by lia. f_equal. lia.
Qed.
Lemma units_of_text cps : Forall scalar cps -> flat_map to_units cps = utf16_of cps.
Proof.
  induction 1 as [|c cps Hc Hcps IH]; [reflexivity|]. unfold utf16_of in *. cbn [flat_map].
  now rewrite to_units_enc16, IH.
Qed.

Lemma utf8to16_of cps : Forall scalar cps -> utf8to16 (utf8_of cps) = Ok (utf16_of cps).
Proof. intros H. unfold utf8to16. rewrite decode_of by assumption. cbn [rbind]. now rewrite units_of_text. Qed.

Lemma utf16to8_enc16 c t : scalar c -> utf16to8 (enc16 c ++ t) = do r <- utf16to8 t; Ok (enc8 c ++ r).
Proof.
  intros H. unfold enc16. pose proof H as H'. unfold scalar in H'.
  destruct (Z.ltb_spec c 65536).
  - cbn [app utf16to8]. unfold is_lead_surrogate, is_trail_surrogate.
    replace ((0xd800 <=? c) && (c <=? 0xdbff)) with false by lia.
    replace ((0xdc00 <=? c) && (c <=? 0xdfff)) with false by lia.
    rewrite append_ok by assumption. reflexivity.
  - cbn [app utf16to8]. unfold is_lead_surrogate, is_trail_surrogate.
    replace ((0xd800 <=? 0xd800 + (c - 0x10000) / 1024) && (0xd800 + (c - 0x10000) / 1024 <=? 0xdbff)) with true by lia.
    replace ((0xdc00 <=? 0xdc00 + (c - 0x10000) mod 1024) && (0xdc00 + (c - 0x10000) mod 1024 <=? 0xdfff)) with true by lia.
    replace (u32 (u32 (Z.shiftl (0xd800 + (c - 0x10000) / 1024) 10) + (0xdc00 + (c - 0x10000) mod 1024) + surrogate_offset)) with c.
    2:{ rewrite shl by lia. pow2. change surrogate_offset with 4238353408. unfold u32. change (2 ^ 32) with 4294967296. lia. }
    rewrite append_ok by assumption. reflexivity.
Qed.

Lemma utf16to8_of cps : Forall scalar cps -> utf16to8 (utf16_of cps) = Ok (utf8_of cps).
Proof.
  induction 1 as [|c cps Hc Hcps IH]; [reflexivity|]. unfold utf16_of in *. cbn [flat_map].
  rewrite utf16to8_enc16 by assumption. rewrite IH. reflexivity.
Qed.

Definition unit_ok (u : Z) : Prop := 0 <= u < 65536.
Lemma utf16to8_inv_aux n : forall us bs, (length us <= n)%nat -> Forall unit_ok us -> utf16to8 us = Ok bs ->
  exists cps, Forall scalar cps /\ us = utf16_of cps /\ bs = utf8_of cps.
Proof.
  induction n as [|n IH]; intros us bs Hn Hok E.
  - destruct us; [|simpl in Hn; lia]. injection E as <-. exists []. repeat constructor.
  - destruct us as [|u t]; [injection E as <-; exists []; repeat constructor|].
    inversion Hok as [|? ? Hu Ht]; subst. cbn [utf16to8] in E.
    unfold is_lead_surrogate, is_trail_surrogate in E.
    destruct ((0xd800 <=? u) && (u <=? 0xdbff)) eqn:E1.
    + destruct t as [|v t']; [discriminate|]. inversion Ht as [|? ? Hv Ht']; subst.
      destruct ((0xdc00 <=? v) && (v <=? 0xdfff)) eqn:E2; [|discriminate].
      set (c := u32 (u32 (Z.shiftl u 10) + v + surrogate_offset)) in *.
      assert (Hc : c = 0x10000 + (u - 0xd800) * 1024 + (v - 0xdc00)).
      { unfold c. rewrite shl by lia. pow2. change surrogate_offset with 4238353408. unfold u32. change (2 ^ 32) with 4294967296. lia. }
      assert (Hs : scalar c) by (unfold scalar; lia).
      rewrite append_ok in E by assumption. cbn [rbind] in E.
      destruct (utf16to8 t') as [r| | |] eqn:D; cbn [rbind] in E; try discriminate.
      destruct (IH t' r ltac:(simpl in Hn; lia) Ht' D) as (cps & Hcps & -> & ->). injection E as <-.
      exists (c :: cps). split; [now constructor|]. split; [|reflexivity].
      unfold utf16_of at 2. cbn [flat_map]. fold (utf16_of cps). unfold enc16.
      replace (c <? 65536) with false by lia. cbn [app]. f_equal; [lia|]. f_equal. lia.
    + destruct ((0xdc00 <=? u) && (u <=? 0xdfff)) eqn:E2; [discriminate|].
      assert (Hs : scalar u) by (unfold scalar, unit_ok in *; lia).
      rewrite append_ok in E by assumption. cbn [rbind] in E.
      destruct (utf16to8 t) as [r| | |] eqn:D; cbn [rbind] in E; try discriminate.
      destruct (IH t r ltac:(simpl in Hn; lia) Ht D) as (cps & Hcps & -> & ->). injection E as <-.
      exists (u :: cps). split; [now constructor|]. split; [|reflexivity].
      unfold utf16_of at 2. cbn [flat_map]. fold (utf16_of cps). unfold enc16, unit_ok in *.
      replace (u <? 65536) with true by lia. reflexivity.
Qed.
Lemma utf16to8_inv us bs : Forall unit_ok us -> utf16to8 us = Ok bs ->
  exists cps, Forall scalar cps /\ us = utf16_of cps /\ bs = utf8_of cps.
Proof. apply (utf16to8_inv_aux (length us)). lia. Qed.

Lemma enc16_units c : scalar c -> Forall unit_ok (enc16 c).
Proof.
  intros H. unfold scalar, enc16, unit_ok in *. destruct (Z.ltb_spec c 65536);
  repeat (apply Forall_cons; [lia|]); constructor.
Qed.
Lemma utf16_of_units cps : Forall scalar cps -> Forall unit_ok (utf16_of cps).
Proof.
  induction 1; [constructor|]. unfold utf16_of in *. cbn [flat_map]. apply Forall_app. split; [now apply enc16_units|assumption].
Qed.

Lemma units_le16 us : Forall unit_ok us -> units_of (le16 us) = us.
Proof.
  induction 1 as [|u us Hu Hus IH]; [reflexivity|]. unfold le16 in *. cbn [flat_map app units_of]. rewrite IH.
  f_equal. unfold unit_ok in Hu. lia.
Qed.
Lemma le16_units bs : bytes_ok bs -> Z.even (zlen bs) = true -> le16 (units_of bs) = bs /\ Forall unit_ok (units_of bs).
Proof.
  remember (length bs) as n eqn:En. assert (Hn : (length bs <= n)%nat) by lia. clear En. revert bs Hn.
  induction n as [|n IH]; intros bs Hn Hok He.
  - destruct bs; [split; constructor|simpl in Hn; lia].
  - destruct bs as [|a [|b t]]; [split; constructor|discriminate|].
    inversion Hok as [|? ? Ha Hok']; subst. inversion Hok' as [|? ? Hb Hok'']; subst.
    destruct (IH t) as [E F]; [simpl in Hn; lia|assumption| |].
    { rewrite !zlen_cons in He. replace (1 + (1 + zlen t)) with (zlen t + 2) in He by lia.
      rewrite Z.even_add in He. destruct (Z.even (zlen t)); [reflexivity|discriminate]. }
    cbn [units_of]. unfold le16 in *. cbn [flat_map app]. rewrite E. unfold byte_ok in *.
    split; [f_equal; [lia|]; f_equal; lia|]. constructor; [unfold unit_ok; lia|assumption].
Qed.
Lemma from_le16 us : Forall unit_ok us -> flat_map (fun u => [Z.land u 255; Z.shiftr u 8]) us = le16 us.
Proof.
  induction 1 as [|u us Hu Hus IH]; [reflexivity|]. unfold le16 in *. cbn [flat_map]. rewrite IH, land255, shr by lia. reflexivity.
Qed.

(** C12 *)
Lemma text_store_show cps : Forall scalar cps ->
  ucs2_from_utf8 (utf8_of cps) = Ok (le16 (utf16_of cps)) /\
  ucs2_to_utf8 (le16 (utf16_of cps)) = Ok (utf8_of cps).
Proof.
  intros H. unfold ucs2_from_utf8, ucs2_to_utf8. rewrite utf8to16_of by assumption. cbn [rbind].
  pose proof (utf16_of_units cps H) as Hu. rewrite from_le16, units_le16 by assumption.
  split; [reflexivity|]. now apply utf16to8_of.
Qed.
Lemma text_show_store bs s : bytes_ok bs -> Z.even (zlen bs) = true -> ucs2_to_utf8 bs = Ok s ->
  exists cps, Forall scalar cps /\ bs = le16 (utf16_of cps) /\ s = utf8_of cps /\ ucs2_from_utf8 s = Ok bs.
Proof.
  intros Hok He E. destruct (le16_units bs Hok He) as [E1 Hu]. unfold ucs2_to_utf8 in E.
  destruct (utf16to8_inv _ _ Hu E) as (cps & Hc & E2 & ->). exists cps. split; [assumption|].
  assert (Eb : bs = le16 (utf16_of cps)) by congruence. split; [exact Eb|]. split; [reflexivity|].
  rewrite Eb. now apply text_store_show.
Qed.
Lemma utf8_accept_exact bs u : bytes_ok bs -> utf8to16 bs = Ok u ->
  exists cps, Forall scalar cps /\ bs = utf8_of cps /\ u = utf16_of cps.
Proof.
  intros Hok. unfold utf8to16. destruct (decode bs) as [cps| | |] eqn:D; cbn [rbind]; try discriminate.
  destruct (decode_inv _ _ Hok D) as [Hs ->]. intros E. injection E as <-. exists cps.
  split; [assumption|]. split; [reflexivity|]. now apply units_of_text.
Qed.

(** encodings are uniquely decodable *)
Lemma utf8_of_inj a b : Forall scalar a -> Forall scalar b -> utf8_of a = utf8_of b -> a = b.
Proof. intros Ha Hb E. pose proof (decode_of a Ha). pose proof (decode_of b Hb). congruence. Qed.

(** a text has undefined outcome only Throw *)
Lemma utf16to8_outcome n : forall us, (length us <= n)%nat -> Forall unit_ok us -> utf16to8 us = Throw \/ exists bs, utf16to8 us = Ok bs.
Proof.
  induction n as [|n IH]; intros us Hn Hok.
  - destruct us; [right; eexists; reflexivity|simpl in Hn; lia].
  - destruct us as [|u t]; [right; eexists; reflexivity|]. cbn [utf16to8].
    inversion Hok as [|? ? Hu Ht]; subst.
    assert (Ha : forall c, utf8_append c = Throw \/ exists a, utf8_append c = Ok a).
    { intros c. unfold utf8_append. destruct (negb (cp_valid c)); [left; reflexivity|].
      destruct (c <? 128); [|destruct (c <? 2048); [|destruct (c <? 65536)]]; right; eexists; reflexivity. }
    destruct (is_lead_surrogate u).
    + destruct t as [|v t']; [left; reflexivity|]. destruct (is_trail_surrogate v); [|left; reflexivity].
      destruct (Ha (u32 (u32 (Z.shiftl u 10) + v + surrogate_offset))) as [->|[a ->]]; [left; reflexivity|]. cbn [rbind].
      inversion Ht; subst.
      destruct (IH t' ltac:(simpl in Hn; lia) ltac:(assumption)) as [->|[r ->]]; [left; reflexivity|right; eexists; reflexivity].
    + destruct (is_trail_surrogate u); [left; reflexivity|].
      destruct (Ha u) as [->|[a ->]]; [left; reflexivity|]. cbn [rbind].
      destruct (IH t ltac:(simpl in Hn; lia) ltac:(assumption)) as [->|[r ->]]; [left; reflexivity|right; eexists; reflexivity].
Qed.

(** ** letter case *)
Lemma to_lower_scalar c : scalar c -> scalar (to_lower c).
Proof. unfold scalar, to_lower. repeat match goal with |- context [if ?b then _ else _] => destruct b eqn:? end; lia. Qed.
Lemma to_upper_scalar c : scalar c -> scalar (to_upper c).
Proof. unfold scalar, to_upper. repeat match goal with |- context [if ?b then _ else _] => destruct b eqn:? end; lia. Qed.
Lemma to_lower_idem c : to_lower (to_lower c) = to_lower c.
Proof. unfold to_lower. repeat match goal with |- context [if ?b then _ else _] => destruct b eqn:? end; lia. Qed.
Lemma to_lower_cases x : (65 <= x <= 90 /\ to_lower x = x + 32) \/ (1040 <= x <= 1071 /\ to_lower x = x + 32) \/
  (x = 1025 /\ to_lower x = x + 80) \/ ((~ 65 <= x <= 90) /\ (~ 1040 <= x <= 1071) /\ x <> 1025 /\ to_lower x = x).
Proof. unfold to_lower. repeat match goal with |- context [if ?b then _ else _] => destruct b eqn:? end; lia. Qed.
Lemma to_lower_same c d : to_lower c = to_lower d <-> same_letter c d.
Proof.
  unfold same_letter, case_pair.
  destruct (to_lower_cases c) as [[Hc Ec]|[[Hc Ec]|[[Hc Ec]|(Hc1 & Hc2 & Hc3 & Ec)]]];
  destruct (to_lower_cases d) as [[Hd Ed]|[[Hd Ed]|[[Hd Ed]|(Hd1 & Hd2 & Hd3 & Ed)]]];
  rewrite Ec, Ed; clear Ec Ed;
  (split; [intros H | intros [H|[[H|[H|H]]|[H|[H|H]]]]; lia]);
  first [exfalso; lia | left; lia | right; left; left; lia | right; left; right; left; lia | right; left; right; right; lia
        | right; right; left; lia | right; right; right; left; lia | right; right; right; right; lia].
Qed.
Lemma to_upper_cases x : (97 <= x <= 122 /\ to_upper x = x - 32) \/ (1072 <= x <= 1103 /\ to_upper x = x - 32) \/
  (x = 1105 /\ to_upper x = x - 80) \/ ((~ 97 <= x <= 122) /\ (~ 1072 <= x <= 1103) /\ x <> 1105 /\ to_upper x = x).
Proof. unfold to_upper. repeat match goal with |- context [if ?b then _ else _] => destruct b eqn:? end; lia. Qed.
Lemma to_upper_same c d : to_upper c = to_upper d <-> same_letter c d.
Proof.
  unfold same_letter, case_pair.
  destruct (to_upper_cases c) as [[Hc Ec]|[[Hc Ec]|[[Hc Ec]|(Hc1 & Hc2 & Hc3 & Ec)]]];
  destruct (to_upper_cases d) as [[Hd Ed]|[[Hd Ed]|[[Hd Ed]|(Hd1 & Hd2 & Hd3 & Ed)]]];
  rewrite Ec, Ed; clear Ec Ed;
  (split; [intros H | intros [H|[[H|[H|H]]|[H|[H|H]]]]; lia]);
  first [exfalso; lia | left; lia | right; left; left; lia | right; left; right; left; lia | right; left; right; right; lia
        | right; right; left; lia | right; right; right; left; lia | right; right; right; right; lia].
Qed.
Lemma to_lower_0 c : to_lower c = 0 <-> c = 0.
Proof. unfold to_lower. repeat match goal with |- context [if ?b then _ else _] => destruct b eqn:? end; lia. Qed.
Lemma to_upper_0 c : to_upper c = 0 <-> c = 0.
Proof. unfold to_upper. repeat match goal with |- context [if ?b then _ else _] => destruct b eqn:? end; lia. Qed.
Lemma enc8_len_lower c : length (enc8 (to_lower c)) = length (enc8 c).
Proof.
  unfold enc8, to_lower.
  destruct ((65 <=? c) && (c <=? 90)) eqn:A.
  { replace (c - 65 + 97 <? 128) with true by lia. replace (c <? 128) with true by lia. reflexivity. }
  destruct (Z.eqb_spec c 1025) as [->|]; [reflexivity|].
  destruct ((1040 <=? c) && (c <=? 1071)) eqn:B; [|reflexivity].
  replace (c - 1040 + 1072 <? 128) with false by lia. replace (c <? 128) with false by lia.
  replace (c - 1040 + 1072 <? 2048) with true by lia. replace (c <? 2048) with true by lia. reflexivity.
Qed.
Lemma enc8_len_upper c : length (enc8 (to_upper c)) = length (enc8 c).
Proof.
  unfold enc8, to_upper.
  destruct ((97 <=? c) && (c <=? 122)) eqn:A.
  { replace (c - 97 + 65 <? 128) with true by lia. replace (c <? 128) with true by lia. reflexivity. }
  destruct (Z.eqb_spec c 1105) as [->|]; [reflexivity|].
  destruct ((1072 <=? c) && (c <=? 1103)) eqn:B; [|reflexivity].
  replace (c - 1072 + 1040 <? 128) with false by lia. replace (c <? 128) with false by lia.
  replace (c - 1072 + 1040 <? 2048) with true by lia. replace (c <? 2048) with true by lia. reflexivity.
Qed.

Lemma append_all_ok cps : Forall scalar cps -> append_all cps = Ok (utf8_of cps).
Proof.
  induction 1 as [|c cps Hc Hcps IH]; [reflexivity|]. cbn [append_all]. rewrite append_ok by assumption. cbn [rbind].
  rewrite IH. reflexivity.
Qed.

(** a text up to (excluding) its first NUL *)
Definition before_nul (cps : list Z) : list Z := cstr cps.

Lemma cstr_app_nz a b : Forall (fun x => x <> 0) a -> cstr (a ++ b) = a ++ cstr b.
Proof.
  induction 1 as [|x a Hx Ha IH]; [reflexivity|]. cbn [app cstr]. destruct (Z.eqb_spec x 0); [congruence|]. now rewrite IH.
Qed.
Lemma enc8_nz c : scalar c -> c <> 0 -> Forall (fun x => x <> 0) (enc8 c).
Proof.
  intros H Hn. unfold scalar in H. unfold enc8.
  destruct (Z.ltb_spec c 128); [|destruct (Z.ltb_spec c 2048); [|destruct (Z.ltb_spec c 65536)]];
  repeat (apply Forall_cons; [lia|]); constructor.
Qed.
Lemma cstr_utf8 cps : Forall scalar cps -> cstr (utf8_of cps ++ [0]) = utf8_of (before_nul cps).
Proof.
  induction 1 as [|c cps Hc Hcps IH]; [reflexivity|]. rewrite utf8_of_cons. unfold before_nul in *. cbn [cstr].
  destruct (Z.eqb_spec c 0) as [->|Hn]; [reflexivity|]. rewrite <- app_assoc, cstr_app_nz by now apply enc8_nz.
  rewrite IH. reflexivity.
Qed.

Section MapCase.
Variable f : Z -> Z.
Hypothesis f_scalar : forall c, scalar c -> scalar (f c).
Hypothesis f_len : forall c, length (enc8 (f c)) = length (enc8 c).
Hypothesis f_0 : forall c, f c = 0 <-> c = 0.

Lemma map_f_scalar cps : Forall scalar cps -> Forall scalar (map f cps).
Proof. induction 1; constructor; auto. Qed.
Lemma map_f_len cps : length (utf8_of (map f cps)) = length (utf8_of cps).
Proof. induction cps as [|c cps IH]; [reflexivity|]. cbn [map]. rewrite !utf8_of_cons, !app_length, IH, f_len. reflexivity. Qed.
Lemma before_nul_map cps : before_nul (map f cps) = map f (before_nul cps).
Proof.
  unfold before_nul. induction cps as [|c cps IH]; [reflexivity|]. cbn [map cstr].
  destruct (Z.eqb_spec (f c) 0) as [E|E]; destruct (Z.eqb_spec c 0) as [E2|E2]; try (rewrite f_0 in E; congruence); [reflexivity|].
  cbn [map]. now rewrite IH.
Qed.
Lemma map_case_of cps : Forall scalar cps -> map_case f (utf8_of cps) = Ok (utf8_of (map f (before_nul cps))).
Proof.
  intros H. unfold map_case. rewrite decode_of by assumption. cbn [rbind].
  rewrite append_all_ok by now apply map_f_scalar. cbn [rbind]. rewrite map_f_len.
  replace (length (utf8_of cps) + 1 <? length (utf8_of cps))%nat with false by (symmetry; apply Nat.ltb_ge; lia).
  replace (length (utf8_of cps) + 1 - length (utf8_of cps))%nat with 1%nat by lia. cbn [repeat].
  f_equal. rewrite <- map_f_len, firstn_app, Nat.sub_diag, firstn_all. cbn [firstn]. rewrite app_nil_r.
  rewrite cstr_utf8 by now apply map_f_scalar. now rewrite before_nul_map.
Qed.
Lemma map_case_invalid s : bytes_ok s -> (forall cps, Forall scalar cps -> s <> utf8_of cps) -> map_case f s = Throw.
Proof.
  intros Hok Hne. unfold map_case. destruct (decode_outcome s) as [->|[cps E]]; [reflexivity|].
  destruct (decode_inv _ _ Hok E) as [Hs ->]. exfalso. now apply (Hne cps).
Qed.
End MapCase.

Lemma lower_of cps : Forall scalar cps -> lower_case (utf8_of cps) = Ok (utf8_of (map to_lower (before_nul cps))).
Proof. apply map_case_of; [apply to_lower_scalar|apply enc8_len_lower|apply to_lower_0]. Qed.
Lemma upper_of cps : Forall scalar cps -> upper_case (utf8_of cps) = Ok (utf8_of (map to_upper (before_nul cps))).
Proof. apply map_case_of; [apply to_upper_scalar|apply enc8_len_upper|apply to_upper_0]. Qed.

Lemma before_nul_scalar cps : Forall scalar cps -> Forall scalar (before_nul cps).
Proof.
  unfold before_nul. induction 1 as [|c cps Hc Hcps IH]; [constructor|]. cbn [cstr]. destruct (c =? 0); constructor; auto.
Qed.
Lemma before_nul_id cps : ~ In 0 cps -> before_nul cps = cps.
Proof.
  unfold before_nul. induction cps as [|c cps IH]; intros H; [reflexivity|]. cbn [cstr].
  destruct (Z.eqb_spec c 0) as [->|]; [exfalso; apply H; now left|]. f_equal. apply IH. intros Hin. apply H. now right.
Qed.
Lemma before_nul_idem cps : before_nul (before_nul cps) = before_nul cps.
Proof.
  unfold before_nul. induction cps as [|c cps IH]; [reflexivity|]. cbn [cstr]. destruct (Z.eqb_spec c 0) as [->|E]; [reflexivity|].
  cbn [cstr]. destruct (Z.eqb_spec c 0); [congruence|]. now rewrite IH.
Qed.

Lemma str_compare_0 a : forall b, str_compare a b = 0 <-> a = b.
Proof.
  induction a as [|x a IH]; intros [|y b]; cbn [str_compare]; try (split; [discriminate|discriminate]); [split; reflexivity|].
  destruct (Z.ltb_spec x y); [split; [discriminate|intros E; injection E as -> _; lia]|].
  destruct (Z.ltb_spec y x); [split; [discriminate|intros E; injection E as -> _; lia]|].
  rewrite IH. split; [intros ->; f_equal; lia|intros E; now injection E].
Qed.

Lemma equal_ic_of a b : Forall scalar a -> Forall scalar b ->
  exists r, equal_ic (utf8_of a) (utf8_of b) = Ok r /\
    (r = true <-> Forall2 same_letter (before_nul a) (before_nul b)).
Proof.
  intros Ha Hb. unfold equal_ic, compare_ic. rewrite !lower_of by assumption. cbn [rbind].
  eexists. split; [reflexivity|]. rewrite Z.eqb_eq, str_compare_0.
  assert (E : utf8_of (map to_lower (before_nul a)) = utf8_of (map to_lower (before_nul b)) <->
              map to_lower (before_nul a) = map to_lower (before_nul b)).
  { split; [|congruence]. apply utf8_of_inj; apply map_f_scalar; try apply to_lower_scalar; now apply before_nul_scalar. }
  rewrite E. generalize (before_nul a) (before_nul b). clear.
  induction l as [|x l IH]; intros [|y m]; cbn [map]; (split; [intros H|intros H; inversion H; subst]); try discriminate; try constructor.
  - injection H as H1 H2. now apply to_lower_same.
  - injection H as H1 H2. now apply IH.
  - f_equal; [now apply to_lower_same|now apply IH].
Qed.

Lemma same_letter_equiv c d e : same_letter c c /\ (same_letter c d -> same_letter d c) /\
  (same_letter c d -> same_letter d e -> same_letter c e).
Proof. rewrite <- !to_lower_same. split; [reflexivity|]. split; congruence. Qed.

Lemma equal_ic_equivalence a b c : Forall scalar a -> Forall scalar b -> Forall scalar c ->
  equal_ic (utf8_of a) (utf8_of a) = Ok true /\
  (equal_ic (utf8_of a) (utf8_of b) = Ok true -> equal_ic (utf8_of b) (utf8_of a) = Ok true) /\
  (equal_ic (utf8_of a) (utf8_of b) = Ok true -> equal_ic (utf8_of b) (utf8_of c) = Ok true ->
   equal_ic (utf8_of a) (utf8_of c) = Ok true).
Proof.
  intros Ha Hb Hc. unfold equal_ic, compare_ic. rewrite !lower_of by assumption. cbn [rbind].
  generalize (utf8_of (map to_lower (before_nul a))) (utf8_of (map to_lower (before_nul b))) (utf8_of (map to_lower (before_nul c))).
  clear. intros x y z.
  assert (H : forall x y, Ok (str_compare x y =? 0) = Ok true <-> x = y).
  { intros u v. rewrite <- str_compare_0. split; [intros E; injection E; lia|intros ->; reflexivity]. }
  rewrite !H. split; [reflexivity|]. split; congruence.
Qed.

(** lower-casing: keeps the number of characters, idempotent *)
Lemma lower_properties cps : Forall scalar cps -> ~ In 0 cps ->
  exists low, lower_case (utf8_of cps) = Ok (utf8_of low) /\ length low = length cps /\
    Forall scalar low /\ Forall2 same_letter cps low /\ length (utf8_of low) = length (utf8_of cps) /\
    lower_case (utf8_of low) = Ok (utf8_of low).
Proof.
  intros H H0. exists (map to_lower cps). rewrite lower_of, before_nul_id by assumption.
  split; [reflexivity|]. split; [apply map_length|]. split; [now apply map_f_scalar; [apply to_lower_scalar|]|].
  split.
  { clear. induction cps; constructor; [|assumption]. rewrite <- to_lower_same. now rewrite to_lower_idem. }
  split; [now apply map_f_len, enc8_len_lower|].
  rewrite lower_of by (apply map_f_scalar; [apply to_lower_scalar|assumption]).
  rewrite before_nul_map by apply to_lower_0. rewrite before_nul_id by assumption.
  f_equal. f_equal. rewrite map_map. apply map_ext. apply to_lower_idem.
Qed.

Lemma equal_ic_nul_refuted : exists a b, Forall scalar a /\ Forall scalar b /\
  ~ Forall2 same_letter a b /\ equal_ic (utf8_of a) (utf8_of b) = Ok true.
Proof.
  exists [97;0;98], [97;0;99]. unfold scalar, same_letter, case_pair.
  split; [repeat (apply Forall_cons; [lia|]); constructor|]. split; [repeat (apply Forall_cons; [lia|]); constructor|].
  split; [|reflexivity]. intros H. inversion H as [|? ? ? ? _ H2]; subst. inversion H2 as [|? ? ? ? _ H3]; subst.
  inversion H3; subst. lia.
Qed.

(** ** EndsWithIC *)
Lemma utf8_split cps : Forall scalar cps -> forall n, (n <= length (utf8_of cps))%nat ->
  (exists p q, cps = p ++ q /\ skipn n (utf8_of cps) = utf8_of q) \/
  (exists b t, skipn n (utf8_of cps) = b :: t /\ 128 <= b < 192).
Proof.
  induction 1 as [|c cps Hc Hcps IH]; intros n Hn.
  - left. exists [], []. split; [reflexivity|]. now rewrite skipn_nil.
  - rewrite utf8_of_cons in *. rewrite app_length in Hn.
    destruct (Nat.eq_dec n 0) as [->|Hn0]; [left; exists [], (c :: cps); split; reflexivity|].
    destruct (Nat.leb_spec (length (enc8 c)) n) as [Hle|Hlt].
    + rewrite skipn_app, skipn_all2 by assumption. cbn [app].
      destruct (IH (n - length (enc8 c))%nat ltac:(lia)) as [(p & q & -> & E)|(b & t & E & Hb)].
      * left. exists (c :: p), q. split; [reflexivity|exact E].
      * right. exists b, t. split; [exact E|exact Hb].
    + right. rewrite skipn_app. replace (n - length (enc8 c))%nat with 0%nat by lia. cbn [skipn].
      unfold scalar in Hc. unfold enc8 in *.
      destruct (Z.ltb_spec c 128); [simpl in Hlt; lia|].
      destruct (Z.ltb_spec c 2048); [|destruct (Z.ltb_spec c 65536)]; cbn [length] in Hlt;
      (destruct n as [|[|[|[|n]]]]; [congruence|..]; cbn [skipn app]; try (exfalso; lia);
       do 2 eexists; (split; [reflexivity|lia])).
Qed.

Lemma trail_first_throw b t f : 128 <= b < 192 -> map_case f (b :: t) = Throw.
Proof.
  intros H. unfold map_case, decode. cbn [length utf8_decode utf8_next]. cbv zeta.
  rewrite seq_length_spec by (unfold byte_ok; lia).
  replace (b <? 128) with false by lia. replace ((192 <=? b) && (b <? 224)) with false by lia.
  replace ((224 <=? b) && (b <? 240)) with false by lia. replace ((240 <=? b) && (b <? 248)) with false by lia.
  reflexivity.
Qed.

Lemma ends_with_ic_char s sfx : Forall scalar s -> Forall scalar sfx -> sfx <> [] ->
  (length (utf8_of s) < length (utf8_of sfx))%nat /\ ends_with_ic (utf8_of s) (utf8_of sfx) = Ok false \/
  (exists p q, s = p ++ q /\ length (utf8_of q) = length (utf8_of sfx) /\
     ends_with_ic (utf8_of s) (utf8_of sfx) = equal_ic (utf8_of q) (utf8_of sfx)) \/
  (~ (exists p q, s = p ++ q /\ length (utf8_of q) = length (utf8_of sfx)) /\
     ends_with_ic (utf8_of s) (utf8_of sfx) = Throw).
Proof.
  intros Hs Hx Hne. destruct sfx as [|c sfx]; [congruence|]. set (x := c :: sfx) in *.
  assert (Hx0 : exists b t, utf8_of x = b :: t).
  { unfold x. rewrite utf8_of_cons. pose proof (enc8_nonempty c). destruct (enc8 c); [congruence|]. do 2 eexists; reflexivity. }
  assert (E : ends_with_ic (utf8_of s) (utf8_of x) = if (length (utf8_of s) <? length (utf8_of x))%nat then Ok false
         else equal_ic (skipn (length (utf8_of s) - length (utf8_of x)) (utf8_of s)) (utf8_of x)).
  { destruct Hx0 as (b & t & E0). unfold ends_with_ic. rewrite E0. reflexivity. }
  rewrite E. destruct (Nat.ltb_spec (length (utf8_of s)) (length (utf8_of x))) as [Hl|Hl].
  { left. auto. }
  right. destruct (utf8_split s Hs (length (utf8_of s) - length (utf8_of x))%nat ltac:(lia)) as [(p & q & Es & Eq)|(b & t & Eb & Hb)].
  - left. exists p, q. split; [exact Es|]. split; [rewrite <- Eq, skipn_length; lia|]. now rewrite Eq.
  - right. split.
    + intros (p & q & Es & Eq). subst s. rewrite utf8_of_app in Eb. rewrite skipn_app in Eb.
      rewrite app_length in Eb. rewrite skipn_all2 in Eb by lia.
      replace (length (utf8_of p) + length (utf8_of q) - length (utf8_of x) - length (utf8_of p))%nat with 0%nat in Eb by lia.
      cbn [skipn app] in Eb.
      apply Forall_app in Hs. destruct Hs as [_ Hq].
      pose proof (lower_of q Hq) as L. rewrite Eb in L. unfold lower_case in L. rewrite trail_first_throw in L by assumption. discriminate.
    + rewrite Eb. unfold equal_ic, compare_ic, lower_case. rewrite trail_first_throw by assumption. reflexivity.
Qed.
Lemma ends_with_ic_throws : exists s sfx, Forall scalar s /\ Forall scalar sfx /\
  ends_with_ic (utf8_of s) (utf8_of sfx) = Throw.
Proof.
  exists [0x430; 0x44f], [46;120;98]. split; [|split; [|reflexivity]];
  unfold scalar; repeat (apply Forall_cons; [lia|]); constructor.
Qed.

(** ** ToIntDef *)
Lemma take_digits_value ds : Forall (fun d => 0 <= d <= 9) ds -> forall acc t,
  (match t with [] => True | c :: _ => ~ (48 <= c <= 57) end) ->
  take_digits (map (fun d => d + 48) ds ++ t) acc =
    match ds with [] => acc | _ => Some (fold_left (fun a d => 10 * a + d) ds (match acc with Some a => a | None => 0 end)) end.
Proof.
  induction 1 as [|d ds Hd Hds IH]; intros acc t Ht.
  - cbn [map app]. destruct t as [|c t]; [reflexivity|]. cbn [take_digits].
    now replace ((48 <=? c) && (c <=? 57)) with false by lia.
  - cbn [map app take_digits]. replace ((48 <=? d + 48) && (d + 48 <=? 57)) with true by lia.
    rewrite IH by assumption. destruct ds as [|d2 ds]; cbn [fold_left].
    + replace (d + 48 - 48) with d by lia. reflexivity.
    + replace (d + 48 - 48) with d by lia. reflexivity.
Qed.
Lemma digits_value_nonneg ds : Forall (fun d => 0 <= d <= 9) ds -> 0 <= digits_value ds.
Proof.
  unfold digits_value. assert (H : forall a, 0 <= a -> Forall (fun d => 0 <= d <= 9) ds -> 0 <= fold_left (fun a d => 10 * a + d) ds a).
  { induction ds as [|d ds IH]; intros a Ha Hf; [exact Ha|]. inversion Hf; subst. cbn [fold_left]. apply IH; [lia|assumption]. }
  intros Hf. now apply H.
Qed.

Lemma to_int_def_digits ds dflt : ds <> [] -> Forall (fun d => 0 <= d <= 9) ds ->
  to_int_def (map (fun d => d + 48) ds) dflt =
    if digits_value ds <=? 2147483647 then Ok (digits_value ds) else Throw.
Proof.
  intros Hne H. pose proof (digits_value_nonneg ds H) as Hpos.
  unfold to_int_def, strtol10.
  assert (E : skip_space (map (fun d => d + 48) ds) = map (fun d => d + 48) ds).
  { destruct H as [|d ds Hd Hds]; [congruence|]. cbn [map skip_space]. unfold is_space.
    now replace ((d + 48 =? 32) || (9 <=? d + 48) && (d + 48 <=? 13)) with false by lia. }
  rewrite E.
  assert (E2 : match map (fun d => d + 48) ds with
     | 45 :: t => option_map Z.opp (take_digits t None)
     | 43 :: t => take_digits t None
     | t => take_digits t None end = take_digits (map (fun d => d + 48) ds) None).
  { destruct H as [|d ds Hd Hds]; [congruence|]. cbn [map].
    assert (d = 0 \/ d = 1 \/ d = 2 \/ d = 3 \/ d = 4 \/ d = 5 \/ d = 6 \/ d = 7 \/ d = 8 \/ d = 9) as Hc by lia.
    destruct Hc as [->|[->|[->|[->|[->|[->|[->|[->|[->| ->]]]]]]]]]; reflexivity. }
  rewrite E2. rewrite <- (app_nil_r (map _ ds)). rewrite take_digits_value by (assumption || exact I).
  destruct ds as [|d ds]; [congruence|]. fold (digits_value (d :: ds)).
  destruct (Z.leb_spec (digits_value (d :: ds)) 2147483647).
  - now replace ((digits_value (d :: ds) <? -2147483648) || (2147483647 <? digits_value (d :: ds))) with false by lia.
  - now replace ((digits_value (d :: ds) <? -2147483648) || (2147483647 <? digits_value (d :: ds))) with true by lia.
Qed.

Lemma odd_byte_dropped bs b : Z.even (zlen bs) = true -> ucs2_to_utf8 (bs ++ [b]) = ucs2_to_utf8 bs.
Proof.
  intros He. unfold ucs2_to_utf8. f_equal.
  remember (length bs) as n eqn:En. assert (Hn : (length bs <= n)%nat) by lia. clear En. revert bs Hn He.
  induction n as [|n IH]; intros bs Hn He.
  - destruct bs; [reflexivity|simpl in Hn; lia].
  - destruct bs as [|x [|y t]]; [reflexivity|discriminate|]. cbn [app units_of]. f_equal. apply IH; [simpl in Hn; lia|].
    rewrite !zlen_cons in He. replace (1 + (1 + zlen t)) with (zlen t + 2) in He by lia.
    rewrite Z.even_add in He. destruct (Z.even (zlen t)); [reflexivity|discriminate].
Qed.
Lemma to_int_def_throws : exists s, forall dflt, to_int_def s dflt = Throw.
Proof. exists [57;57;57;57;57;57;57;57;57;57]. reflexivity. Qed.
