(** Proofs about the export as XML: the values, the records, the whole file. *)
From Coq Require String Ascii.
From Verif Require Import Prelude Lists Bcd_Model Codec_Model Text_Model Field_Model Rec_Model Bcd_Spec Codec_Spec Text_Spec Field_Spec
  Bcd_Proofs Codec_Proofs Text_Proofs Field_Proofs Xml_Model Xml_Spec Xml_Proofs.
Import String.StringSyntax.
Ltac Zify.zify_post_hook ::= idtac.

(** ** Numbers as text *)
Lemma dval_low ds : Forall digit ds -> ds <> [] -> hd 0 ds <> 0 -> 10 ^ (zlen ds - 1) <= dval ds.
Proof.
  intros H N Z. destruct ds as [|d ds]; [congruence|]. rewrite dval_cons. inversion H; subst. cbn [hd] in Z. unfold digit in H2.
  pose proof (dval_bound ds H3). rewrite zlen_cons. replace (1 + zlen ds - 1) with (zlen ds) by lia.
  assert (0 < 10 ^ zlen ds) by (apply Z.pow_pos_nonneg; [lia|apply zlen_nonneg]). nia.
Qed.
Lemma udec_chars k : forall ds, Forall digit ds -> ds <> [] -> (hd 0 ds = 0 -> ds = [0]) -> (length ds <= k)%nat -> udec k (dval ds) = chars ds.
Proof.
  induction k as [|k IH]; intros ds H N Z L; [destruct ds; [congruence|cbn in L; lia]|].
  destruct (exists_last N) as (ds' & d & ->). apply Forall_app in H. destruct H as [H Hd]. inversion Hd; subst. unfold digit in H2.
  rewrite dval_app. change (zlen [d]) with 1. change (10 ^ 1) with 10. change (dval [d]) with d.
  destruct ds' as [|e ds'].
  - cbn [dval fold_left]. change (dval []) with 0. cbn [udec]. destruct (Z.ltb_spec (0 * 10 + d) 10); [|lia]. change (0 * 10 + d) with d. unfold chars. cbn [app map]. f_equal. lia.
  - assert (E : e <> 0).
    { intros ->. assert (Q : (0 :: ds') ++ [d] = [0]) by (apply Z; reflexivity). destruct ds'; discriminate. }
    assert (B : 1 <= dval (e :: ds')).
    { pose proof (dval_low (e :: ds') H ltac:(discriminate) E). pose proof (zlen_nonneg ds'). rewrite zlen_cons in H0.
      assert (0 < 10 ^ (1 + zlen ds' - 1)) by (apply Z.pow_pos_nonneg; lia). lia. }
    cbn [udec]. destruct (Z.ltb_spec (dval (e :: ds') * 10 + d) 10); [lia|].
    rewrite Z.div_add_l, (Z.div_small d 10), Z.add_0_r by lia.
    rewrite (Z.add_comm (dval (e :: ds') * 10) d), Z.mod_add, (Z.mod_small d 10) by lia.
    rewrite IH; [|assumption|discriminate|intros; contradiction|rewrite app_length in L; cbn in *; lia].
    unfold chars. rewrite map_app. cbn [map]. do 2 f_equal. apply Z.add_comm.
Qed.
Lemma is_int_length ds : Forall digit ds -> ds <> [] -> (hd 0 ds = 0 -> ds = [0]) -> dval ds < 10 ^ 10 -> (length ds <= 10)%nat.
Proof.
  intros H N Z B. destruct (Z.eq_dec (hd 0 ds) 0) as [E|E]; [rewrite (Z E); cbn; lia|].
  pose proof (dval_low ds H N E). destruct (Nat.le_gt_cases (length ds) 10); [assumption|]. exfalso.
  assert (10 ^ 10 <= 10 ^ (zlen ds - 1)) by (apply Z.pow_le_mono_r; unfold zlen; lia). lia.
Qed.
Lemma to_str_int t v : is_int t v -> - 10 ^ 10 < v < 10 ^ 10 -> to_str v = t.
Proof.
  intros (ds & H & N & Z & [[-> ->] | (-> & -> & NZ)]) B; pose proof (dval_bound ds H) as D; unfold to_str.
  - destruct (Z.ltb_spec (dval ds) 0); [lia|]. apply udec_chars; try assumption. apply is_int_length; try assumption. lia.
  - assert (hd 0 ds <> 0) by (intros E; apply NZ; now apply Z).
    pose proof (dval_low ds H N H0). assert (0 < 10 ^ (zlen ds - 1)) by (apply Z.pow_pos_nonneg; [lia|destruct ds; [congruence|rewrite zlen_cons; pose proof (zlen_nonneg ds); lia]]).
    destruct (Z.ltb_spec (- dval ds) 0); [|lia]. f_equal. rewrite Z.opp_involutive. apply udec_chars; try assumption. apply is_int_length; try assumption. lia.
Qed.
(** characters that need no care *)
Definition mild (c : Z) : Prop := xml_char c = true /\ c <> 13 /\ c <> 60 /\ c <> 38 /\ c <> 62 /\ c <> 39 /\ c <> 34.
Lemma mild_chars ds : Forall digit ds -> Forall mild (chars ds).
Proof.
  induction 1 as [|d ds Hd _ IH]; [constructor|]. cbn [chars map]. constructor; [|exact IH]. unfold digit in Hd. unfold mild, xml_char.
  destruct (Z.leb_spec 32 (d + 48)); [|lia]. repeat split; lia.
Qed.
Lemma mild_int t v : is_int t v -> Forall mild t.
Proof.
  intros (ds & H & _ & _ & [[-> _] | (-> & _)]); [now apply mild_chars|]. constructor; [unfold mild; repeat split; lia|now apply mild_chars].
Qed.
Lemma mild_good t : Forall mild t -> good t t.
Proof.
  intros H. split; [eapply Forall_impl; [|exact H]; unfold mild; cbn; tauto|]. intros acc. apply steps_text.
  eapply Forall_impl; [|exact H]. unfold mild. cbn. tauto.
Qed.
Lemma entity_good acc c : xml_char c = true -> steps (SText acc) (xml_entity c) = Some ([], SText (c :: acc)).
Proof.
  intros H. unfold xml_entity.
  destruct (Z.eqb_spec c 38) as [->|]; [reflexivity|]. destruct (Z.eqb_spec c 60) as [->|]; [reflexivity|].
  destruct (Z.eqb_spec c 62) as [->|]; [reflexivity|]. destruct (Z.eqb_spec c 39) as [->|]; [reflexivity|].
  destruct (Z.eqb_spec c 34) as [->|]; [reflexivity|]. cbn [steps step]. destruct (Z.eqb_spec c 60); [contradiction|].
  destruct (Z.eqb_spec c 38); [contradiction|]. reflexivity.
Qed.
Lemma escape_good t : Forall (fun c => xml_char c = true /\ c <> 13) t -> good (xml_escape t) t.
Proof.
  intros H. split.
  - unfold xml_escape. induction H as [|c t [X N] _ IH]; [constructor|]. cbn [flat_map]. apply Forall_app. split; [|exact IH].
    unfold xml_entity. repeat match goal with |- context [if ?b then _ else _] => destruct b end; try chars_ok.
    constructor; [auto|constructor].
  - induction H as [|c t [X N] _ IH]; intros acc; [reflexivity|]. unfold xml_escape in *. cbn [flat_map]. rewrite steps_app, entity_good by assumption.
    rewrite IH. cbn [rev app]. now rewrite <- app_assoc.
Qed.
Lemma plain_xml t : plain t -> exists w, to_xml t = Ok w /\ good w t.
Proof. intros [H O]. exists (xml_escape t). split; [now apply to_xml_once|now apply escape_good]. Qed.
Lemma mild_xml t : Forall mild t -> exists w, to_xml t = Ok w /\ good w t.
Proof.
  intros H. apply plain_xml. split; [eapply Forall_impl; [|exact H]; unfold mild; cbn; tauto|].
  intros c S. assert (occ c t = 0%nat) as ->; [|lia]. unfold occ. apply count_occ_not_In. intros I.
  pose proof (proj1 (Forall_forall _ _) H c I) as M. unfold mild in M. unfold xml_special in S. intuition congruence.
Qed.

(** ** Values by kind *)
Lemma part_length rec p n : 0 <= p -> 0 <= n -> p + n <= zlen rec -> zlen (part rec p n) = n.
Proof. intros. unfold part, zlen in *. rewrite firstn_length, skipn_length. lia. Qed.
Lemma rdn_part rec p n : 0 <= p -> 0 <= n -> p + n <= zlen rec -> rdn rec p n = Ok (part rec p n).
Proof. intros. rewrite rdn_ok by lia. reflexivity. Qed.
Lemma after_part rec p n : 0 <= p -> 0 <= n -> p + n <= zlen rec -> after rec p = part rec p n ++ after rec (p + n).
Proof.
  intros. unfold after, part. rewrite Z2Nat.inj_add by lia. rewrite <- skipn_plus. now rewrite firstn_skipn.
Qed.
Lemma firstn_app_exact {A} (a b : list A) n : n = length a -> firstn n (a ++ b) = a.
Proof. intros ->. rewrite firstn_app, Nat.sub_diag, firstn_O, app_nil_r. apply firstn_all. Qed.
Lemma skipn_app_exact {A} (a b : list A) n : n = length a -> skipn n (a ++ b) = b.
Proof. intros ->. rewrite skipn_app, Nat.sub_diag, skipn_all. reflexivity. Qed.
Lemma hd_rev_last (l : list Z) : l <> [] -> hd 0 (rev l) = last l 0.
Proof. intros N. destruct (exists_last N) as (l' & x & ->). now rewrite rev_app_distr, last_last. Qed.
Lemma nibs_length v : length (nibs v) = (2 * length v)%nat.
Proof. exact (nibbles_length v). Qed.
Lemma div2_div n : Z.of_nat (Nat.div2 n) = Z.of_nat n / 2.
Proof.
  pose proof (Nat.div2_odd n) as E. destruct (Nat.odd n); cbn [Nat.b2n] in E.
  - replace (Z.of_nat n) with (Z.of_nat (Nat.div2 n) * 2 + 1) by lia. rewrite Z.div_add_l by lia. change (1 / 2) with 0. lia.
  - replace (Z.of_nat n) with (Z.of_nat (Nat.div2 n) * 2) by lia. now rewrite Z.div_mul by lia.
Qed.
Lemma num_len L v : 1 <= L -> num_ok (Z.to_nat L) v -> zlen v = (L + 2) / 2 /\ (Z.to_nat L <= 2 * length v - 1)%nat.
Proof.
  intros HL (_ & E & _). unfold zlen. rewrite E, div2_div. split; [f_equal; lia|].
  pose proof (Nat.div2_odd (Z.to_nat L + 2)) as O. destruct (Nat.odd (Z.to_nat L + 2)); cbn [Nat.b2n] in O; lia.
Qed.
Lemma num_show L P v rest d t : means KNum L P false v d t -> numeric_show (v ++ rest) L P = Ok t /\ Forall mild t.
Proof.
  intros (HL & HP & NO & k & m & ip & fp & E & EP & HI & HF & ->).
  destruct (num_len L v HL NO) as [Hz Hle]. pose proof NO as (Hb & _ & H9 & H1 & _).
  assert (DG : Forall digit (firstn (Z.to_nat L) (tl (nibs v)))).
  { apply Forall_firstn'. assert (G : Forall digit (nibs v)).
    { assert (N0 : forall l, bytes_ok l -> Forall (fun x => 0 <= x) (nibs l)).
      { induction 1 as [|b l Bb _ IH]; [constructor|]. change (nibs (b :: l)) with ([b / 16; b mod 16] ++ nibs l). unfold byte_ok in Bb.
        constructor; [apply Z.div_pos; lia|]. constructor; [apply Z.mod_pos_bound; lia|exact IH]. }
      specialize (N0 v Hb). apply Forall_forall. intros x Hx. unfold digit.
      pose proof (proj1 (Forall_forall _ _) N0 x Hx). pose proof (proj1 (Forall_forall _ _) H9 x Hx). cbn in *. lia. }
    destruct (nibs v); [exact G|now inversion G]. }
  unfold numeric_show. rewrite bdn_of_raw_ok by lia. cbn [rbind].
  assert (ED : digits_of true L v = firstn (Z.to_nat L) (tl (nibs v))).
  { unfold digits_of. change (nibbles v) with (nibs v). now destruct (nibs v). }
  assert (SG : sign_of true v = if hd 0 (nibs v) =? 0 then -1 else 1).
  { unfold sign_of. destruct v as [|b v]; [|reflexivity]. exfalso. unfold zlen in Hz. cbn in Hz. 
    assert (1 <= (L + 2) / 2) by (apply Z.div_le_lower_bound; lia). lia. }
  rewrite ED, SG, E. rewrite E in DG.
  assert (LN : zlen (repeat 0 k ++ ip ++ fp ++ repeat 0 m) = L).
  { rewrite <- E. unfold zlen. rewrite firstn_length. assert (T : length (tl (nibs v)) = (2 * length v - 1)%nat) by (destruct (nibs v) eqn:EN; cbn [tl length]; pose proof (nibs_length v) as NL; rewrite EN in NL; cbn [length] in NL; lia).
    rewrite T. lia. }
  unfold bdn_show. cbn [b_data b_prec b_flag b_sign]. rewrite LN.
  destruct (Z.ltb_spec P 0); [lia|]. destruct (Z.ltb_spec L P); [lia|]. cbn [orb].
  assert (IS : Z.to_nat (L - P) = length (repeat 0 k ++ ip)).
  { unfold zlen in LN, EP. rewrite !app_length, !repeat_length in *. lia. }
  replace (repeat 0 k ++ ip ++ fp ++ repeat 0 m) with ((repeat 0 k ++ ip) ++ (fp ++ repeat 0 m)) by (now rewrite <- !app_assoc).
  rewrite firstn_app_exact, skipn_app_exact by assumption. rewrite drop_zeros_repeat, drop_zeros_id by assumption.
  rewrite rev_app_distr, rev_repeat, drop_zeros_repeat, drop_zeros_id.
  2:{ destruct HF as [->|HF]; [now left|]. destruct fp as [|x fp]; [now left|]. right. rewrite hd_rev_last by discriminate. exact HF. }
  rewrite rev_involutive.
  apply Forall_app in DG. destruct DG as [_ DG]. apply Forall_app in DG. destruct DG as [DI DG]. apply Forall_app in DG. destruct DG as [DF _].
  assert (FR : (if P =? 0 then [] else if existsb (fun d0 => negb (d0 =? 0)) fp then 46 :: map (fun d0 => d0 + 48) fp else []) = match fp with [] => [] | _ => 46 :: chars fp end).
  { destruct fp as [|x fp]; [now destruct (P =? 0)|]. destruct (Z.eqb_spec P 0); [rewrite zlen_cons in EP; pose proof (zlen_nonneg fp); lia|].
    destruct HF as [HF|HF]; [discriminate|].
    assert (existsb (fun d0 => negb (d0 =? 0)) (x :: fp) = true) as ->; [|reflexivity].
    apply existsb_exists. exists (last (x :: fp) 0). split; [|destruct (Z.eqb_spec (last (x :: fp) 0) 0); [contradiction|reflexivity]].
    destruct (exists_last (l := x :: fp) ltac:(discriminate)) as (l' & y & Ey). rewrite Ey, last_last. apply in_or_app. right. now left. }
  rewrite FR. split.
  - unfold normal_text. destruct (hd 0 (nibs v) =? 0), ip, fp; reflexivity.
  - apply Forall_app. split.
    + destruct (hd 0 (nibs v) =? 0); [|constructor]. constructor; [unfold mild; repeat split; lia|constructor].
    + unfold normal_text. apply Forall_app. split; [apply mild_chars; destruct ip; [repeat constructor; unfold digit; lia|assumption]|].
      destruct fp; [constructor|]. constructor; [unfold mild; repeat split; lia|now apply mild_chars].
Qed.
(** dates *)
Lemma two_digits a b : digit a -> digit b -> s02 (to_str (a * 10 + b)) = [a + 48; b + 48].
Proof.
  unfold digit. intros Ha Hb. unfold to_str. destruct (Z.ltb_spec (a * 10 + b) 0); [lia|].
  destruct (Z.eq_dec a 0) as [->|N].
  - cbn [udec]. destruct (Z.ltb_spec (0 * 10 + b) 10); [|lia]. change (0 * 10 + b) with b. unfold s02, zlen. cbn [length Z.of_nat]. change (Z.pos (Pos.of_succ_nat 0) <? 2) with true. cbv iota.
    f_equal. f_equal. lia.
  - replace (a * 10 + b) with (dval [a; b]) by (unfold dval; cbn [fold_left]; lia).
    rewrite udec_chars; [reflexivity|repeat (constructor; [unfold digit; lia|]); constructor|discriminate|cbn [hd]; lia|cbn [length]; lia].
Qed.
Lemma nibs7 v : date_ok v -> exists y1 y2 y3 y4 m1 m2 d1 d2 h1 h2 n1 n2 s1 s2,
  nibs v = [y1; y2; y3; y4; m1; m2; d1; d2; h1; h2; n1; n2; s1; s2] /\ Forall digit [y1; y2; y3; y4; m1; m2; d1; d2; h1; h2; n1; n2; s1; s2].
Proof.
  intros (Hb & Hl & H9). do 7 (destruct v as [|? v]; [discriminate|]). destruct v; [|discriminate].
  unfold nibs in *. cbn [flat_map app] in *. do 14 eexists. split; [reflexivity|].
  repeat match goal with H : bytes_ok (_ :: _) |- _ => inversion H; clear H; subst | H : Forall byte_ok (_ :: _) |- _ => inversion H; clear H; subst end.
  repeat match goal with H : Forall (fun _ => _ <= 9) (_ :: _) |- _ => inversion H; clear H; subst end.
  unfold byte_ok in *. repeat (constructor; [split; [first [apply Z.div_pos; lia|apply Z.mod_pos_bound; lia]|assumption]|]). constructor.
Qed.
Lemma date_show_iso v rest d t : means KDate 0 0 false v d t -> (3 <= length rest)%nat ->
  exists n, date_of_raw (v ++ rest) = Ok n /\ date_xml n = t /\ Forall mild t.
Proof.
  intros (D & Y & ->) R. pose proof D as (_ & Hl & _).
  destruct (date_of_raw_ok v rest Hl R) as [tail E]. change (nibbles v) with (nibs v) in E.
  destruct (nibs7 v D) as (y1 & y2 & y3 & y4 & m1 & m2 & d1 & d2 & h1 & h2 & n1 & n2 & s1 & s2 & EN & DG). rewrite EN in *.
  eexists. split; [exact E|]. cbn [hd] in Y.
  repeat match goal with H : Forall digit (_ :: _) |- _ => inversion H; clear H; subst end.
  unfold date_xml, two. cbn [b_data app nth]. rewrite !two_digits by assumption.
  assert (E4 : to_str (y1 * 1000 + y2 * 100 + y3 * 10 + y4) = [y1 + 48; y2 + 48; y3 + 48; y4 + 48]).
  { unfold digit in *. unfold to_str. destruct (Z.ltb_spec (y1 * 1000 + y2 * 100 + y3 * 10 + y4) 0); [lia|].
    replace (y1 * 1000 + y2 * 100 + y3 * 10 + y4) with (dval [y1; y2; y3; y4]) by (unfold dval; cbn [fold_left]; lia).
    rewrite udec_chars; [reflexivity|repeat (constructor; [unfold digit; lia|]); constructor|discriminate|cbn [hd]; lia|cbn [length]; lia]. }
  rewrite E4. unfold iso. cbn [nth app]. split; [reflexivity|].
  unfold digit in *. repeat (constructor; [unfold mild, xml_char; match goal with |- context [32 <=? ?x] => destruct (Z.leb_spec 32 x) end; [repeat split; lia|lia]|]). constructor.
Qed.
(** identifiers *)
Definition hexd_test (b : Z) : bool :=
  (hexdigit (Z.shiftr b 4) =? hexd (b / 16)) && (hexdigit (Z.land b 15) =? hexd (b mod 16)) &&
  forallb (fun c => (45 <? c) && (c <? 60) || (62 <? c)) [hexd (b / 16); hexd (b mod 16)].
Lemma hexd_eq b : byte_ok b -> hexdigit (Z.shiftr b 4) = hexd (b / 16) /\ hexdigit (Z.land b 15) = hexd (b mod 16) /\ mild (hexd (b / 16)) /\ mild (hexd (b mod 16)).
Proof.
  intros H.
  assert (E : hexd_test b = true).
  { unfold byte_ok in H. apply (sweep1 256 hexd_test); [vm_compute; reflexivity|exact H]. }
  unfold hexd_test in E.
  apply andb_prop in E. destruct E as [E F]. apply andb_prop in E. destruct E as [E1 E2]. apply Z.eqb_eq in E1, E2.
  repeat split; try assumption; cbn [forallb] in F; unfold xml_char;
  repeat match goal with F : context [?x <? ?y] |- _ => destruct (Z.ltb_spec x y) end; cbn in F; try discriminate;
  repeat match goal with |- context [32 <=? ?x] => destruct (Z.leb_spec 32 x) end; try reflexivity; try lia.
Qed.
Lemma guid_show v : is_guid v -> guid_as_1C v = Ok (guid_text v) /\ Forall mild (guid_text v).
Proof.
  intros [Hl Hb]. destruct (guid_list v Hl) as (b0 & b1 & b2 & b3 & b4 & b5 & b6 & b7 & b8 & b9 & b10 & b11 & b12 & b13 & b14 & b15 & ->).
  repeat match goal with H : bytes_ok (_ :: _) |- _ => inversion H; clear H; subst | H : Forall byte_ok (_ :: _) |- _ => inversion H; clear H; subst end.
  repeat match goal with H : byte_ok ?b |- _ => destruct (hexd_eq b H) as (? & ? & ? & ?); clear H end.
  split.
  - match goal with |- guid_as_1C ?l = _ => assert (exists s, guid_as_1C l = Ok s /\
      s = flat_map (fun i => if i =? -1 then [45] else let b := nth (Z.to_nat i) l 0 in [hexdigit (Z.shiftr b 4); hexdigit (Z.land b 15)]) idx_1C) as (s & -> & ->) end.
    { eexists. split; reflexivity. }
    f_equal. unfold guid_text, idx_1C. cbn [flat_map nth app].
    repeat (apply (f_equal2 (@cons Z)); [assumption || reflexivity|]). reflexivity.
  - assert (M45 : mild 45) by (clear; unfold mild; repeat split; lia).
    unfold guid_text. cbn [flat_map nth app]. repeat (apply Forall_cons; [assumption|]). constructor.
Qed.
(** texts *)
Lemma le16_length us : length (le16 us) = (2 * length us)%nat.
Proof. induction us as [|u us IH]; [reflexivity|]. change (le16 (u :: us)) with ([u mod 256; u / 256] ++ le16 us). rewrite app_length, IH. cbn. lia. Qed.
Lemma text_show cps : Forall scalar cps -> ucs2_to_utf8 (le16 (utf16_of cps)) = Ok (utf8_of cps).
Proof. intros H. now destruct (text_store_show cps H). Qed.
Lemma i16_small n : 0 <= n < 2 ^ 15 -> i16 n = n.
Proof. intros H. unfold i16. change (2 ^ 16) with 65536. rewrite Z.mod_small by (change (2 ^ 15) with 32768 in *; lia). lia. Qed.
Lemma varchar_show rec p L cps pad : 0 <= p -> 0 <= L -> p + (2 + 2 * L) <= zlen rec -> zlen (utf16_of cps) < 2 ^ 15 ->
  part rec p (2 + 2 * L) = le_bytes 2 (zlen (utf16_of cps)) ++ le16 (utf16_of cps) ++ pad ->
  varchar_bytes L rec p = Ok (le16 (utf16_of cps)).
Proof.
  intros Hp HL Hz Hn E. set (us := utf16_of cps) in *. pose proof (zlen_nonneg us) as N0.
  assert (LE : zlen (part rec p (2 + 2 * L)) = 2 + 2 * L) by (apply part_length; lia).
  assert (Q : 2 * zlen us <= 2 * L).
  { rewrite E in LE. unfold zlen in *. rewrite !app_length, le_bytes_length, le16_length in LE. lia. }
  unfold varchar_bytes. rewrite rdn_part by lia.
  assert (P2 : part rec p 2 = le_bytes 2 (zlen us)).
  { transitivity (firstn 2 (part rec p (2 + 2 * L))).
    - unfold part. rewrite firstn_firstn. f_equal. lia.
    - rewrite E. apply firstn_app_exact. now rewrite le_bytes_length. }
  rewrite P2. cbn [rbind]. rewrite le_val_bytes_small by (change (256 ^ Z.of_nat 2) with 65536; change (2 ^ 15) with 32768 in Hn; lia).
  rewrite i16_small by lia. unfold u64. rewrite Z.mod_small by (change (2 ^ 15) with 32768 in Hn; change (2 ^ 64) with 18446744073709551616; lia).
  unfold type_size. destruct (Z.ltb_spec (L * 2 + 2) (zlen us * 2)); [lia|].
  rewrite rdn_part by lia. f_equal.
  transitivity (firstn (Z.to_nat (zlen us * 2)) (skipn 2 (part rec p (2 + 2 * L)))).
  - unfold part. rewrite skipn_firstn_comm, firstn_firstn, skipn_plus. f_equal; [lia|]. f_equal. lia.
  - rewrite E, skipn_app_exact by now rewrite le_bytes_length. apply firstn_app_exact. rewrite le16_length. unfold zlen. lia.
Qed.
(** versions *)
Lemma int_at_0 n v : - 2 ^ 31 <= n < 2 ^ 31 -> int_at (le_bytes 4 (n mod 2 ^ 32) ++ v) 0 = n.
Proof.
  intros H. unfold int_at, sub. cbn [skipn]. rewrite firstn_app_exact by now rewrite le_bytes_length.
  rewrite le_val_bytes_small by (change (256 ^ Z.of_nat 4) with (2 ^ 32); apply Z.mod_pos_bound; lia).
  unfold i32. rewrite Z.add_mod_idemp_l by lia. rewrite Z.mod_small by lia. lia.
Qed.
Lemma int_at_next b v i : length b = 4%nat -> int_at (b ++ v) (4 + i) = int_at v i.
Proof. intros H. unfold int_at, sub. rewrite <- skipn_plus, skipn_app_exact by lia. reflexivity. Qed.
Lemma numbers_show ns : forall v t, numbers_text ns v t -> version_text (length ns) v = t /\ Forall mild t.
Proof.
  assert (G : forall ns v t, numbers_text ns v t -> forall b, length b = 4%nat ->
    flat_map (fun i => 58 :: to_str (int_at (b ++ v) (4 * i))) (seq 1 (length ns)) = 58 :: t).
  { clear ns. induction ns as [|n ns IH]; intros v t H b Hb; [destruct H|]. destruct H as (t1 & R & I & H).
    cbn [length seq flat_map]. change (4 * 1)%nat with (4 + 0)%nat. rewrite int_at_next by assumption.
    assert (T1 : to_str n = t1) by (apply to_str_int; [assumption|lia]).
    destruct ns as [|n' ns].
    - destruct H as [-> ->]. rewrite <- (app_nil_r (le_bytes 4 (n mod 2 ^ 32))), int_at_0 by assumption. cbn [length seq flat_map]. now rewrite T1, app_nil_r.
    - destruct H as (v' & t' & H & -> & ->). rewrite int_at_0 by assumption. rewrite T1. cbn [app]. do 2 f_equal.
      rewrite <- (IH v' t' H (le_bytes 4 (n mod 2 ^ 32))) by now rewrite le_bytes_length.
      rewrite <- seq_shift, flat_map_concat_map, map_map, <- flat_map_concat_map. apply flat_map_ext. intros i.
      do 2 f_equal. replace (4 * S i)%nat with (4 + 4 * i)%nat by lia. now rewrite int_at_next. }
  assert (M : forall ns v t, numbers_text ns v t -> Forall mild t).
  { clear ns. induction ns as [|n ns IH]; intros v t H; [destruct H|]. destruct H as (t1 & R & I & H). destruct ns as [|n' ns].
    - destruct H as [_ ->]. now apply mild_int in I.
    - destruct H as (v' & t' & H & _ & ->). apply Forall_app. split; [now apply mild_int in I|]. constructor; [unfold mild; repeat split; lia|]. now apply IH in H. }
  intros v t H. split; [|now apply M in H]. destruct ns as [|n ns]; [destruct H|]. destruct H as (t1 & R & I & H). cbn [length version_text].
  assert (T1 : to_str n = t1) by (apply to_str_int; [assumption|lia]).
  destruct ns as [|n' ns].
  - destruct H as [-> ->]. rewrite <- (app_nil_r (le_bytes 4 (n mod 2 ^ 32))), int_at_0 by assumption. cbn. now rewrite T1, app_nil_r.
  - destruct H as (v' & t' & H & -> & ->). rewrite int_at_0 by assumption. rewrite T1. f_equal. apply G; [exact H|now rewrite le_bytes_length].
Qed.
(** pictures *)
Definition c64_test (i : Z) : bool := (c64 i =? b64_char i) && ((42 <? b64_char i) && (b64_char i <? 60) || (62 <? b64_char i)).
Lemma c64_eq i : 0 <= i < 64 -> c64 i = b64_char i /\ mild (b64_char i).
Proof.
  intros H.
  assert (E : c64_test i = true) by (apply (sweep1 64 c64_test); [vm_compute; reflexivity|exact H]).
  unfold c64_test in E.
  apply andb_prop in E. destruct E as [E F]. apply Z.eqb_eq in E. split; [assumption|]. unfold mild, xml_char.
  repeat match goal with F : context [?x <? ?y] |- _ => destruct (Z.ltb_spec x y) end; cbn in F; try discriminate;
  (destruct (Z.leb_spec 32 (b64_char i)); [repeat split; lia|lia]).
Qed.
Lemma b64_line nl k : forall d bo, (length d <= k)%nat -> bytes_ok d -> 0 <= bo -> 3 * bo + zlen d <= 54 -> b64_enc nl 72 d bo = b64 d /\ Forall mild (b64 d).
Proof.
  induction k as [|k IH]; intros d bo Hk Hb H0 Hn; [destruct d; [split; [reflexivity|constructor]|cbn in Hk; lia]|].
  assert (M61 : mild 61) by (unfold mild; repeat split; lia).
  destruct d as [|a [|b [|c r]]]; [split; [reflexivity|constructor]| | |].
  - pose proof (Forall_inv Hb) as Ba. unfold zlen in Hn. cbn [length Z.of_nat] in Hn. cbn [b64_enc b64]. unfold need_nl. change (Z.quot 72 4) with 18.
    destruct (Z.leb_spec 18 bo); [lia|]. cbn [andb app]. fold (s0 a) (s1 a 0).
    assert (Z0 : byte_ok 0) by (unfold byte_ok; lia).
    rewrite (s0_val a), (s1_val a 0) by assumption. change (0 / 16) with 0. rewrite Z.add_0_r.
    assert (R0 : 0 <= a / 4 < 64) by (unfold byte_ok in *; split; [apply Z.div_pos; lia|apply Z.div_lt_upper_bound; lia]).
    assert (R1 : 0 <= a mod 4 * 16 < 64) by (pose proof (Z.mod_pos_bound a 4); lia).
    destruct (c64_eq _ R0) as [-> M0]. destruct (c64_eq _ R1) as [-> M1]. split; [reflexivity|]. repeat (constructor; [assumption|]). constructor.
  - pose proof (Forall_inv Hb) as Ba. pose proof (Forall_inv (Forall_inv_tail Hb)) as Bb. unfold zlen in Hn. cbn [length Z.of_nat] in Hn. cbn [b64_enc b64]. unfold need_nl. change (Z.quot 72 4) with 18.
    destruct (Z.leb_spec 18 bo); [lia|]. cbn [andb app]. fold (s0 a) (s1 a b) (s2 b 0).
    assert (Z0 : byte_ok 0) by (unfold byte_ok; lia).
    rewrite (s0_val a), (s1_val a b), (s2_val b 0) by assumption. change (0 / 64) with 0. rewrite Z.add_0_r.
    assert (R0 : 0 <= a / 4 < 64) by (unfold byte_ok in *; split; [apply Z.div_pos; lia|apply Z.div_lt_upper_bound; lia]).
    assert (R1 : 0 <= a mod 4 * 16 + b / 16 < 64) by (unfold byte_ok in *; pose proof (Z.mod_pos_bound a 4); assert (0 <= b / 16 < 16) by (split; [apply Z.div_pos; lia|apply Z.div_lt_upper_bound; lia]); lia).
    assert (R2 : 0 <= b mod 16 * 4 < 64) by (pose proof (Z.mod_pos_bound b 16); lia).
    destruct (c64_eq _ R0) as [-> M0]. destruct (c64_eq _ R1) as [-> M1]. destruct (c64_eq _ R2) as [-> M2]. split; [reflexivity|]. repeat (constructor; [assumption|]). constructor.
  - pose proof (Forall_inv Hb) as Ba. pose proof (Forall_inv (Forall_inv_tail Hb)) as Bb. pose proof (Forall_inv (Forall_inv_tail (Forall_inv_tail Hb))) as Bc. pose proof (Forall_inv_tail (Forall_inv_tail (Forall_inv_tail Hb))) as Br. rewrite !zlen_cons in Hn. pose proof (zlen_nonneg r).
    destruct (IH r (bo + 1) ltac:(cbn in Hk; lia) ltac:(assumption) ltac:(lia) ltac:(lia)) as [E F].
    cbn [b64_enc b64]. unfold need_nl. change (Z.quot 72 4) with 18. destruct (Z.leb_spec 18 bo); [lia|]. cbn [andb]. rewrite E.
    unfold enc_block. fold (s0 a) (s1 a b) (s2 b c) (s3 c).
    rewrite (s0_val a), (s1_val a b), (s2_val b c), (s3_val c) by assumption.
    assert (R0 : 0 <= a / 4 < 64) by (unfold byte_ok in *; split; [apply Z.div_pos; lia|apply Z.div_lt_upper_bound; lia]).
    assert (R1 : 0 <= a mod 4 * 16 + b / 16 < 64) by (unfold byte_ok in *; pose proof (Z.mod_pos_bound a 4); assert (0 <= b / 16 < 16) by (split; [apply Z.div_pos; lia|apply Z.div_lt_upper_bound; lia]); lia).
    assert (R2 : 0 <= b mod 16 * 4 + c / 64 < 64) by (unfold byte_ok in *; pose proof (Z.mod_pos_bound b 16); assert (0 <= c / 64 < 4) by (split; [apply Z.div_pos; lia|apply Z.div_lt_upper_bound; lia]); lia).
    assert (R3 : 0 <= c mod 64 < 64) by (apply Z.mod_pos_bound; lia).
    destruct (c64_eq _ R0) as [-> M0]. destruct (c64_eq _ R1) as [-> M1]. destruct (c64_eq _ R2) as [-> M2]. destruct (c64_eq _ R3) as [-> M3].
    split; [reflexivity|]. cbn [app]. repeat (constructor; [assumption|]). exact F.
Qed.
