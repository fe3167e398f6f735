From Coq Require Export Permutation.
From Verif Require Import Prelude Codec_Model Codec_Spec.

(** ** finite sweeps *)
Definition zseq (n : nat) : list Z := map Z.of_nat (seq 0 n).
Lemma in_zseq n x : 0 <= x < Z.of_nat n -> In x (zseq n).
Proof.
  intros H. unfold zseq. apply in_map_iff. exists (Z.to_nat x). split; [lia|]. apply in_seq. lia.
Qed.
Lemma sweep1 n (f : Z -> bool) : forallb f (zseq n) = true -> forall x, 0 <= x < Z.of_nat n -> f x = true.
Proof. intros H x Hx. rewrite forallb_forall in H. apply H, in_zseq, Hx. Qed.
Lemma sweep2 n m (f : Z -> Z -> bool) :
  forallb (fun x => forallb (f x) (zseq m)) (zseq n) = true ->
  forall x y, 0 <= x < Z.of_nat n -> 0 <= y < Z.of_nat m -> f x y = true.
Proof.
  intros H x y Hx Hy. pose proof (sweep1 n _ H x Hx) as H1. cbv beta in H1. exact (sweep1 m _ H1 y Hy).
Qed.

(** ** hexadecimal *)
Definition hexok (b : Z) : bool :=
  let h := hexdigit (Z.shiftr b 4) in let l := hexdigit (Z.land b 15) in
  (16 * hex_value h + hex_value l =? b) &&
  (((48 <=? h) && (h <=? 57)) || ((97 <=? h) && (h <=? 102))) &&
  (((48 <=? l) && (l <=? 57)) || ((97 <=? l) && (l <=? 102))) &&
  (Z.lor (Z.shiftl (from_hex_digit h) 4) (from_hex_digit l) mod 256 =? b) &&
  (match two_hex_digits_to_byte h l with Some v => v =? b | None => false end).
Lemma hexok_all b : byte_ok b -> hexok b = true.
Proof.
  intros H. apply (sweep1 256 hexok); [vm_compute; reflexivity|]. unfold byte_ok in H. lia.
Qed.
Lemma hexok_inv b : byte_ok b ->
  16 * hex_value (hexdigit (Z.shiftr b 4)) + hex_value (hexdigit (Z.land b 15)) = b /\
  is_lower_hex (hexdigit (Z.shiftr b 4)) /\ is_lower_hex (hexdigit (Z.land b 15)) /\
  Z.lor (Z.shiftl (from_hex_digit (hexdigit (Z.shiftr b 4))) 4)
        (from_hex_digit (hexdigit (Z.land b 15))) mod 256 = b /\
  two_hex_digits_to_byte (hexdigit (Z.shiftr b 4)) (hexdigit (Z.land b 15)) = Some b.
Proof.
  intros H. pose proof (hexok_all b H) as E. unfold hexok in E.
  rewrite !andb_true_iff in E. destruct E as [[[[E1 E2] E3] E4] E5].
  destruct (two_hex_digits_to_byte (hexdigit (Z.shiftr b 4)) (hexdigit (Z.land b 15))); [|discriminate].
  unfold is_lower_hex. repeat split; try lia. f_equal. lia.
Qed.

Lemma hexstring_length bs : length (hexstring bs) = (2 * length bs)%nat.
Proof. induction bs as [|b bs IH]; [reflexivity|]. cbn [hexstring length]. rewrite IH. lia. Qed.

Lemma hexstring_spec bs : bytes_ok bs ->
  length (hexstring bs) = (2 * length bs)%nat /\
  Forall is_lower_hex (hexstring bs) /\ unhex (hexstring bs) = bs.
Proof.
  intros H. split; [apply hexstring_length|].
  induction H as [|b bs Hb Hbs [IH1 IH2]]; [split; constructor|].
  destruct (hexok_inv b Hb) as (E1 & E2 & E3 & _ & _). cbn [hexstring].
  split; [repeat (apply Forall_cons; [assumption|]); assumption|]. cbn [unhex]. now rewrite E1, IH2.
Qed.

Lemma two_hex_roundtrip b : byte_ok b ->
  two_hex_digits_to_byte (hexdigit (Z.shiftr b 4)) (hexdigit (Z.land b 15)) = Some b.
Proof. intros H. now destruct (hexok_inv b H) as (_ & _ & _ & _ & E). Qed.

(** rejection: exactly the non-hexadecimal characters *)
Definition is_hex_char (c : Z) : Prop := 48 <= c <= 57 \/ 97 <= c <= 102 \/ 65 <= c <= 70.
Lemma two_hex_some hi lo :
  (exists v, two_hex_digits_to_byte hi lo = Some v) <-> is_hex_char hi /\ is_hex_char lo.
Proof.
  unfold two_hex_digits_to_byte, hexval, is_hex_char.
  destruct ((48 <=? hi) && (hi <=? 57)) eqn:A1;
  [|destruct ((97 <=? hi) && (hi <=? 102)) eqn:A2; [|destruct ((65 <=? hi) && (hi <=? 70)) eqn:A3]];
  (destruct ((48 <=? lo) && (lo <=? 57)) eqn:B1;
  [|destruct ((97 <=? lo) && (lo <=? 102)) eqn:B2; [|destruct ((65 <=? lo) && (lo <=? 70)) eqn:B3]]);
  (split; [intros [v Hv]; try discriminate; lia | intros [H1 H2]; try (eexists; reflexivity); exfalso; lia]).
Qed.

(** ** GUIDs *)
Lemma guid_list (g : list Z) : length g = 16%nat -> exists b0 b1 b2 b3 b4 b5 b6 b7 b8 b9 b10 b11 b12 b13 b14 b15,
  g = [b0;b1;b2;b3;b4;b5;b6;b7;b8;b9;b10;b11;b12;b13;b14;b15].
Proof.
  intros H. do 16 (destruct g as [|? g]; [discriminate|]). destruct g; [|discriminate].
  repeat eexists.
Qed.

Ltac guid_bytes Hg :=
  let Hl := fresh "Hl" in let Hok := fresh "Hok" in
  destruct Hg as [Hl Hok];
  destruct (guid_list _ Hl) as (b0&b1&b2&b3&b4&b5&b6&b7&b8&b9&b10&b11&b12&b13&b14&b15&->);
  repeat match goal with H : bytes_ok (_ :: _) |- _ => inversion H; clear H; subst
                       | H : Forall byte_ok (_ :: _) |- _ => inversion H; clear H; subst end.

Lemma subbyte_at s i b h l : chr s i = h -> chr s (i + 1) = l -> byte_ok b ->
  h = hexdigit (Z.shiftr b 4) -> l = hexdigit (Z.land b 15) -> get_subbyte s i = b.
Proof.
  intros H1 H2 Hb Hh Hl'. unfold get_subbyte. rewrite H1, H2, Hh, Hl'. now apply hexok_inv.
Qed.

Lemma guid_1C_roundtrip g : is_guid g ->
  exists s, guid_as_1C g = Ok s /\ zlen s = 36 /\ guid_of_text s = Ok g.
Proof.
  intros Hg. guid_bytes Hg.
  eexists. split; [reflexivity|]. split; [reflexivity|].
  unfold guid_of_text.
  match goal with |- (if zlen ?s =? 32 then _ else _) = _ =>
    replace (zlen s =? 32) with false by reflexivity;
    replace (negb (zlen s =? 36)) with false by reflexivity end.
  cbv iota. f_equal. cbn [map].
  repeat (apply (f_equal2 (@cons Z)); [eapply subbyte_at; [reflexivity|reflexivity|assumption|reflexivity|reflexivity]|]).
  reflexivity.
Qed.

Lemma guid_flat_roundtrip g : is_guid g -> guid_of_text (hexstring g) = Ok g.
Proof.
  intros Hg. guid_bytes Hg.
  unfold guid_of_text. cbn [hexstring].
  match goal with |- (if zlen ?s =? 32 then _ else _) = _ =>
    replace (zlen s =? 32) with true by reflexivity end.
  cbv iota. f_equal. cbn [map seq].
  repeat (apply (f_equal2 (@cons Z)); [eapply subbyte_at; [reflexivity|reflexivity|assumption|reflexivity|reflexivity]|]).
  reflexivity.
Qed.

(** the byte permutation between the two spellings *)
Definition ms_perm (g : list Z) : list Z :=
  map (fun i => nth i g 0) [8;9;10;11;12;13;14;15;7;6;5;4;3;2;1;0]%nat.

Lemma ms_perm_guid g : is_guid g -> is_guid (ms_perm g).
Proof.
  intros Hg. guid_bytes Hg. split; [reflexivity|]. unfold ms_perm. cbn [map nth].
  repeat (apply Forall_cons; [assumption|]). constructor.
Qed.

Lemma guid_MS_as_1C g : is_guid g -> guid_as_MS g = guid_as_1C (ms_perm g).
Proof. intros Hg. guid_bytes Hg. reflexivity. Qed.

Lemma ms_perm_inj g h : is_guid g -> is_guid h -> ms_perm g = ms_perm h -> g = h.
Proof.
  intros [Hg _] [Hh _].
  destruct (guid_list _ Hg) as (b0&b1&b2&b3&b4&b5&b6&b7&b8&b9&b10&b11&b12&b13&b14&b15&->).
  destruct (guid_list _ Hh) as (c0&c1&c2&c3&c4&c5&c6&c7&c8&c9&c10&c11&c12&c13&c14&c15&->).
  unfold ms_perm. cbn [map nth]. intros E. injection E. intros. subst. reflexivity.
Qed.

Lemma guid_1C_inj g h : is_guid g -> is_guid h -> guid_as_1C g = guid_as_1C h -> g = h.
Proof.
  intros Hg Hh E. destruct (guid_1C_roundtrip g Hg) as (s & E1 & _ & E2).
  destruct (guid_1C_roundtrip h Hh) as (s' & E1' & _ & E2').
  rewrite E1, E1' in E. injection E as <-. congruence.
Qed.

Lemma guid_MS_inj g h : is_guid g -> is_guid h -> guid_as_MS g = guid_as_MS h -> g = h.
Proof.
  intros Hg Hh E. rewrite (guid_MS_as_1C g Hg), (guid_MS_as_1C h Hh) in E.
  apply ms_perm_inj; [assumption..|]. apply guid_1C_inj; [now apply ms_perm_guid..|exact E].
Qed.

Lemma guid_MS_ok g : is_guid g -> exists s, guid_as_MS g = Ok s /\ zlen s = 36.
Proof. intros Hg. guid_bytes Hg. eexists. split; reflexivity. Qed.

Lemma guid_of_text_throw s : guid_of_text s = Throw <-> (zlen s <> 32 /\ zlen s <> 36).
Proof.
  unfold guid_of_text. destruct (Z.eqb_spec (zlen s) 32) as [E|E].
  - split; [discriminate|lia].
  - destruct (Z.eqb_spec (zlen s) 36) as [E2|E2]; cbn [negb]; split; intros; try discriminate; try lia; reflexivity.
Qed.

(** comparison *)
Lemma be_val_acc l a : fold_left (fun a b => 256 * a + b) l a = a * 256 ^ zlen l + be_val l.
Proof.
  unfold be_val. revert a. induction l as [|x l IH]; intros a.
  - unfold zlen; simpl. lia.
  - cbn [fold_left]. rewrite IH. rewrite (IH (256 * 0 + x)). rewrite zlen_cons.
    rewrite Z.pow_add_r by (pose proof (zlen_nonneg l); lia). lia.
Qed.
Lemma be_val_cons x l : be_val (x :: l) = x * 256 ^ zlen l + be_val l.
Proof. unfold be_val at 1. cbn [fold_left]. rewrite be_val_acc. lia. Qed.
Lemma be_val_bound l : bytes_ok l -> 0 <= be_val l < 256 ^ zlen l.
Proof.
  induction 1 as [|b l Hb Hl IH]; [unfold zlen, be_val; simpl; lia|].
  rewrite be_val_cons, zlen_cons, Z.pow_add_r by (pose proof (zlen_nonneg l); lia).
  unfold byte_ok in Hb. nia.
Qed.
Lemma be_val_inj a b : length a = length b -> bytes_ok a -> bytes_ok b -> be_val a = be_val b -> a = b.
Proof.
  intros Hl Ha. revert b Hl. induction Ha as [|x a Hx Ha IH]; intros [|y b] Hl Hb E; simpl in Hl; try discriminate.
  - reflexivity.
  - inversion Hb as [|? ? Hy Hb']; subst. rewrite !be_val_cons in E.
    replace (zlen a) with (zlen b) in E by (unfold zlen; lia).
    pose proof (be_val_bound a Ha) as B1. pose proof (be_val_bound b Hb') as B2.
    replace (zlen a) with (zlen b) in B1 by (unfold zlen; lia).
    assert (x = y) by nia. subst y. f_equal. apply IH; [lia|assumption|lia].
Qed.

Lemma gt_loop_spec n : forall a b i, length a = (i + n)%nat -> length b = (i + n)%nat ->
  bytes_ok a -> bytes_ok b ->
  guid_gt_loop a b i n = (be_val (skipn i b) <? be_val (skipn i a)).
Proof.
  assert (Hsk : forall (l : list Z) i, (i < length l)%nat -> skipn i l = nth i l 0 :: skipn (S i) l).
  { induction l as [|x l IH]; intros [|i] H; simpl in *; try lia; [reflexivity|]. apply IH. lia. }
  induction n as [|n IH]; intros a b i Ha Hb Hoa Hob; cbn [guid_gt_loop].
  - rewrite !skipn_all2 by lia. reflexivity.
  - rewrite (Hsk a i), (Hsk b i) by lia. rewrite !be_val_cons.
    pose proof (be_val_bound (skipn (S i) a) ltac:(now apply Forall_skipn')) as B1.
    pose proof (be_val_bound (skipn (S i) b) ltac:(now apply Forall_skipn')) as B2.
    assert (Ez : zlen (skipn (S i) a) = zlen (skipn (S i) b)) by (unfold zlen; rewrite !skipn_length; lia).
    rewrite Ez in *. set (P := 256 ^ zlen (skipn (S i) b)) in *.
    destruct (Z.ltb_spec (nth i b 0) (nth i a 0)) as [H1|H1].
    + symmetry. apply Z.ltb_lt. nia.
    + destruct (Z.ltb_spec (nth i a 0) (nth i b 0)) as [H2|H2].
      * symmetry. apply Z.ltb_ge. nia.
      * assert (nth i a 0 = nth i b 0) as -> by lia.
        rewrite IH by (assumption || lia).
        destruct (Z.ltb_spec (be_val (skipn (S i) b)) (be_val (skipn (S i) a)));
        symmetry; [apply Z.ltb_lt|apply Z.ltb_ge]; lia.
Qed.

Lemma guid_gt_spec a b : is_guid a -> is_guid b -> guid_gtb a b = (be_val b <? be_val a).
Proof. intros [Ha Hoa] [Hb Hob]. unfold guid_gtb. rewrite gt_loop_spec by assumption. reflexivity. Qed.

Lemma eq_loop_spec n : forall a b, guid_eq_loop a b n = true <-> (forall k, (k < n)%nat -> nth k a 0 = nth k b 0).
Proof.
  induction n as [|n IH]; intros a b; cbn [guid_eq_loop]; [split; [lia|reflexivity]|].
  destruct (Z.eqb_spec (nth n a 0) (nth n b 0)) as [E|E]; cbn [negb].
  - rewrite IH. split; intros H k Hk; [|apply H; lia].
    destruct (Nat.eq_dec k n) as [->|]; [assumption|apply H; lia].
  - split; [discriminate|]. intros H. exfalso. apply E, H. lia.
Qed.

Lemma guid_eq_spec a b : is_guid a -> is_guid b -> guid_eqb a b = true <-> a = b.
Proof.
  intros [Ha _] [Hb _]. unfold guid_eqb. rewrite eq_loop_spec. split; [|intros ->; reflexivity].
  intros H. apply nth_ext with (d := 0) (d' := 0); [congruence|]. intros n Hn. apply H. lia.
Qed.

Lemma guid_order a b c : is_guid a -> is_guid b -> is_guid c ->
  guid_gtb a a = false /\
  (guid_gtb a b = true -> guid_gtb b c = true -> guid_gtb a c = true) /\
  (guid_gtb a b = true -> guid_gtb b a = false) /\
  (guid_gtb a b = false -> guid_gtb b a = false -> a = b) /\
  (guid_eqb a b = true <-> a = b) /\
  guid_gtb a b = (be_val b <? be_val a).
Proof.
  intros Ha Hb Hc. rewrite !guid_gt_spec by assumption.
  split; [lia|]. split; [lia|]. split; [lia|]. split; [|split; [now apply guid_eq_spec|reflexivity]].
  intros H1 H2. destruct Ha, Hb. apply be_val_inj; [congruence|assumption..|lia].
Qed.

(** ** Base64 *)
Lemma dec_noise c : is_noise c -> dec_char c = None.
Proof.
  unfold is_noise, is_b64_char. intros H. unfold dec_char.
  destruct ((c <? 43) || (122 <? c)) eqn:E; [reflexivity|].
  assert (Hf : forall x, 0 <= x < 80 ->
    (let v := nth (Z.to_nat x) cd64 0 in
     let c := x + 43 in
     (((65 <=? c) && (c <=? 90)) || ((97 <=? c) && (c <=? 122)) || ((48 <=? c) && (c <=? 57)) || (c =? 43) || (c =? 47))
     || (v =? 36)) = true).
  { apply (sweep1 80). vm_compute. reflexivity. }
  specialize (Hf (c - 43) ltac:(lia)). cbv zeta in Hf.
  replace (c - 43 + 43) with c in Hf by lia.
  destruct (Z.eqb_spec (nth (Z.to_nat (c - 43)) cd64 0) 36) as [E2|E2].
  - rewrite E2. reflexivity.
  - exfalso. apply H. lia.
Qed.

Lemma dec_c64 v : 0 <= v < 64 -> dec_char (c64 v) = Some v.
Proof.
  intros H.
  assert (Hf : (match dec_char (c64 v) with Some w => w =? v | None => false end) = true).
  { apply (sweep1 64 (fun v => match dec_char (c64 v) with Some w => w =? v | None => false end));
    [vm_compute; reflexivity|lia]. }
  destruct (dec_char (c64 v)); [|discriminate]. f_equal. lia.
Qed.

Lemma c64_char v : 0 <= v < 64 -> is_b64_char (c64 v).
Proof.
  intros H. unfold is_b64_char.
  assert (Hf : (let c := c64 v in ((65 <=? c) && (c <=? 90)) || ((97 <=? c) && (c <=? 122)) || ((48 <=? c) && (c <=? 57)) || (c =? 43) || (c =? 47)) = true).
  { apply (sweep1 64 (fun v => let c := c64 v in ((65 <=? c) && (c <=? 90)) || ((97 <=? c) && (c <=? 122)) || ((48 <=? c) && (c <=? 57)) || (c =? 43) || (c =? 47)));
    [vm_compute; reflexivity|lia]. }
  cbv zeta in Hf. lia.
Qed.

Definition s0 (a : Z) := Z.shiftr a 2.
Definition s1 (a b : Z) := Z.lor (Z.shiftl (Z.land a 3) 4) (Z.shiftr (Z.land b 240) 4).
Definition s2 (b c : Z) := Z.lor (Z.shiftl (Z.land b 15) 2) (Z.shiftr (Z.land c 192) 6).
Definition s3 (c : Z) := Z.land c 63.

Lemma s0_val a : byte_ok a -> s0 a = a / 4.
Proof.
  intros H. apply Z.eqb_eq. apply (sweep1 256 (fun a => s0 a =? a / 4)); [vm_compute; reflexivity|exact H].
Qed.
Lemma s1_val a b : byte_ok a -> byte_ok b -> s1 a b = (a mod 4) * 16 + b / 16.
Proof.
  intros Ha Hb. apply Z.eqb_eq.
  apply (sweep2 256 256 (fun a b => s1 a b =? (a mod 4) * 16 + b / 16)); [vm_compute; reflexivity|exact Ha|exact Hb].
Qed.
Lemma s2_val a b : byte_ok a -> byte_ok b -> s2 a b = (a mod 16) * 4 + b / 64.
Proof.
  intros Ha Hb. apply Z.eqb_eq.
  apply (sweep2 256 256 (fun a b => s2 a b =? (a mod 16) * 4 + b / 64)); [vm_compute; reflexivity|exact Ha|exact Hb].
Qed.
Lemma s3_val a : byte_ok a -> s3 a = a mod 64.
Proof.
  intros H. apply Z.eqb_eq. apply (sweep1 256 (fun a => s3 a =? a mod 64)); [vm_compute; reflexivity|exact H].
Qed.

Lemma o0_val x y : 0 <= x < 64 -> 0 <= y < 64 -> Z.lor (Z.shiftl x 2) (Z.shiftr y 4) mod 256 = (x * 4 + y / 16) mod 256.
Proof.
  intros Ha Hb. apply Z.eqb_eq.
  apply (sweep2 64 64 (fun x y => Z.lor (Z.shiftl x 2) (Z.shiftr y 4) mod 256 =? (x * 4 + y / 16) mod 256)); [vm_compute; reflexivity|exact Ha|exact Hb].
Qed.
Lemma o1_val x y : 0 <= x < 64 -> 0 <= y < 64 -> Z.lor (Z.shiftl x 4) (Z.shiftr y 2) mod 256 = (x * 16 + y / 4) mod 256.
Proof.
  intros Ha Hb. apply Z.eqb_eq.
  apply (sweep2 64 64 (fun x y => Z.lor (Z.shiftl x 4) (Z.shiftr y 2) mod 256 =? (x * 16 + y / 4) mod 256)); [vm_compute; reflexivity|exact Ha|exact Hb].
Qed.
Lemma o2_val x y : 0 <= x < 64 -> 0 <= y < 64 -> Z.lor (Z.land (Z.shiftl x 6) 192) y mod 256 = (x mod 4) * 64 + y.
Proof.
  intros Ha Hb. apply Z.eqb_eq.
  apply (sweep2 64 64 (fun x y => Z.lor (Z.land (Z.shiftl x 6) 192) y mod 256 =? (x mod 4) * 64 + y)); [vm_compute; reflexivity|exact Ha|exact Hb].
Qed.

Lemma s_ranges a b : byte_ok a -> byte_ok b ->
  0 <= s0 a < 64 /\ 0 <= s1 a b < 64 /\ 0 <= s2 a b < 64 /\ 0 <= s3 a < 64.
Proof.
  intros Ha Hb. rewrite s0_val, s1_val, s2_val, s3_val by assumption. unfold byte_ok in *. lia.
Qed.

Lemma dec_group_full a b c : byte_ok a -> byte_ok b -> byte_ok c ->
  dec_group [s0 a; s1 a b; s2 b c; s3 c] = [a; b; c].
Proof.
  intros Ha Hb Hc. destruct (s_ranges a b Ha Hb) as (R0 & R1 & _ & _).
  destruct (s_ranges b c Hb Hc) as (_ & _ & R2 & _). destruct (s_ranges c c Hc Hc) as (_ & _ & _ & R3).
  unfold dec_group. cbn [nth length Nat.sub firstn].
  rewrite o0_val, o1_val, o2_val by assumption.
  rewrite s0_val, s1_val, s2_val, s3_val by assumption. unfold byte_ok in *.
  f_equal; [|f_equal; [|f_equal]]; lia.
Qed.

Lemma dec_group_2 a b : byte_ok a -> byte_ok b ->
  dec_group [s0 a; s1 a b; s2 b 0] = [a; b].
Proof.
  intros Ha Hb. assert (H0 : byte_ok 0) by (unfold byte_ok; lia).
  destruct (s_ranges a b Ha Hb) as (R0 & R1 & _ & _).
  destruct (s_ranges b 0 Hb H0) as (_ & _ & R2 & _).
  unfold dec_group. cbn [nth length Nat.sub firstn].
  rewrite o0_val, o1_val by assumption.
  rewrite s0_val, s1_val, s2_val by assumption. unfold byte_ok in *.
  f_equal; [|f_equal]; lia.
Qed.

Lemma dec_group_1 a : byte_ok a -> dec_group [s0 a; s1 a 0] = [a].
Proof.
  intros Ha. assert (H0 : byte_ok 0) by (unfold byte_ok; lia).
  destruct (s_ranges a 0 Ha H0) as (R0 & R1 & _ & _).
  unfold dec_group. cbn [nth length Nat.sub firstn].
  rewrite o0_val by assumption.
  rewrite s0_val, s1_val by assumption. unfold byte_ok in *. f_equal. lia.
Qed.

Lemma b64_dec_noise nl t g : Forall is_noise nl -> b64_dec (nl ++ t) g = b64_dec t g.
Proof.
  induction 1 as [|c nl Hc Hnl IH]; [reflexivity|]. cbn [app b64_dec]. rewrite (dec_noise c Hc). exact IH.
Qed.

Lemma noise61 : is_noise 61.
Proof. unfold is_noise, is_b64_char. lia. Qed.

Lemma b64_dec_block a b c t : byte_ok a -> byte_ok b -> byte_ok c ->
  b64_dec (enc_block a b c ++ t) [] = [a; b; c] ++ b64_dec t [].
Proof.
  intros Ha Hb Hc. unfold enc_block. fold (s0 a) (s1 a b) (s2 b c) (s3 c).
  destruct (s_ranges a b Ha Hb) as (R0 & R1 & _ & _).
  destruct (s_ranges b c Hb Hc) as (_ & _ & R2 & _). destruct (s_ranges c c Hc Hc) as (_ & _ & _ & R3).
  cbn [app b64_dec]. rewrite (dec_c64 _ R0). cbn [length Nat.eqb app b64_dec].
  rewrite (dec_c64 _ R1). cbn [length Nat.eqb app b64_dec].
  rewrite (dec_c64 _ R2). cbn [length Nat.eqb app b64_dec].
  rewrite (dec_c64 _ R3). cbn [length Nat.eqb app].
  rewrite dec_group_full by assumption. reflexivity.
Qed.

Lemma b64_roundtrip_aux nl ls : Forall is_noise nl -> forall n data bo,
  (length data <= n)%nat -> bytes_ok data -> b64_dec (b64_enc nl ls data bo) [] = data.
Proof.
  intros Hnl. induction n as [|n IH]; intros data bo Hlen Hok.
  - destruct data; [reflexivity|simpl in Hlen; lia].
  - destruct data as [|a [|b [|c t]]].
    + reflexivity.
    + inversion Hok as [|? ? Ha _]; subst. cbn [b64_enc].
      assert (H0 : byte_ok 0) by (unfold byte_ok; lia).
      destruct (s_ranges a 0 Ha H0) as (R0 & R1 & _ & _).
      assert (E : forall g0, g0 = [] -> b64_dec [c64 (s0 a); c64 (s1 a 0); 61; 61] g0 = [a]).
      { intros g0 ->. cbn [b64_dec]. rewrite (dec_c64 _ R0). cbn [length Nat.eqb app b64_dec].
        rewrite (dec_c64 _ R1). cbn [length Nat.eqb app b64_dec].
        rewrite (dec_noise 61 noise61). cbn [b64_dec]. apply dec_group_1, Ha. }
      destruct (need_nl bo ls).
      * rewrite b64_dec_noise by assumption. now apply E.
      * now apply E.
    + inversion Hok as [|? ? Ha Hok']; subst. inversion Hok' as [|? ? Hb _]; subst. cbn [b64_enc].
      assert (H0 : byte_ok 0) by (unfold byte_ok; lia).
      destruct (s_ranges a b Ha Hb) as (R0 & R1 & _ & _).
      destruct (s_ranges b 0 Hb H0) as (_ & _ & R2 & _).
      assert (E : forall g0, g0 = [] -> b64_dec [c64 (s0 a); c64 (s1 a b); c64 (s2 b 0); 61] g0 = [a; b]).
      { intros g0 ->. cbn [b64_dec]. rewrite (dec_c64 _ R0). cbn [length Nat.eqb app b64_dec].
        rewrite (dec_c64 _ R1). cbn [length Nat.eqb app b64_dec].
        rewrite (dec_c64 _ R2). cbn [length Nat.eqb app b64_dec].
        rewrite (dec_noise 61 noise61). apply dec_group_2; assumption. }
      destruct (need_nl bo ls).
      * rewrite b64_dec_noise by assumption. now apply E.
      * now apply E.
    + inversion Hok as [|? ? Ha Hok']; subst. inversion Hok' as [|? ? Hb Hok'']; subst.
      inversion Hok'' as [|? ? Hc Hok3]; subst. cbn [b64_enc].
      destruct (need_nl bo ls).
      * rewrite b64_dec_noise by assumption. rewrite b64_dec_block by assumption.
        rewrite IH; [reflexivity|simpl in Hlen; lia|assumption].
      * rewrite b64_dec_block by assumption.
        rewrite IH; [reflexivity|simpl in Hlen; lia|assumption].
Qed.

Lemma b64_roundtrip nl ls data : Forall is_noise nl -> bytes_ok data ->
  base64_decode (base64_encode nl ls data) = data.
Proof. intros H1 H2. unfold base64_decode, base64_encode. now apply (b64_roundtrip_aux nl ls H1 (length data)). Qed.

(** alphabet of the encoded text *)
Definition b64_text_char (nl : list Z) (c : Z) : Prop := is_b64_char c \/ c = 61 \/ In c nl.

Lemma enc_block_chars nl a b c : byte_ok a -> byte_ok b -> byte_ok c ->
  Forall (b64_text_char nl) (enc_block a b c).
Proof.
  intros Ha Hb Hc. unfold enc_block. fold (s0 a) (s1 a b) (s2 b c) (s3 c).
  destruct (s_ranges a b Ha Hb) as (R0 & R1 & _ & _).
  destruct (s_ranges b c Hb Hc) as (_ & _ & R2 & _). destruct (s_ranges c c Hc Hc) as (_ & _ & _ & R3).
  repeat (apply Forall_cons; [left; apply c64_char; assumption|]). constructor.
Qed.

Lemma b64_alphabet_aux nl ls : forall n data bo,
  (length data <= n)%nat -> bytes_ok data -> Forall (b64_text_char nl) (b64_enc nl ls data bo).
Proof.
  assert (Hnl : Forall (b64_text_char nl) nl).
  { apply Forall_forall. intros x Hx. right. right. exact Hx. }
  assert (H0 : byte_ok 0) by (unfold byte_ok; lia).
  induction n as [|n IH]; intros data bo Hlen Hok.
  - destruct data; [constructor|simpl in Hlen; lia].
  - destruct data as [|a [|b [|c t]]].
    + constructor.
    + inversion Hok as [|? ? Ha _]; subst. cbn [b64_enc].
      apply Forall_app. split; [destruct (need_nl bo ls); [exact Hnl|constructor]|].
      destruct (s_ranges a 0 Ha H0) as (R0 & R1 & _ & _). unfold s0, s1 in *.
      repeat (apply Forall_cons; [first [left; apply c64_char; assumption|right; left; reflexivity]|]). constructor.
    + inversion Hok as [|? ? Ha Hok']; subst. inversion Hok' as [|? ? Hb _]; subst. cbn [b64_enc].
      apply Forall_app. split; [destruct (need_nl bo ls); [exact Hnl|constructor]|].
      destruct (s_ranges a b Ha Hb) as (R0 & R1 & _ & _).
      destruct (s_ranges b 0 Hb H0) as (_ & _ & R2 & _). unfold s0, s1, s2 in *.
      repeat (apply Forall_cons; [first [left; apply c64_char; assumption|right; left; reflexivity]|]). constructor.
    + inversion Hok as [|? ? Ha Hok']; subst. inversion Hok' as [|? ? Hb Hok'']; subst.
      inversion Hok'' as [|? ? Hc Hok3]; subst. cbn [b64_enc].
      destruct (need_nl bo ls).
      * apply Forall_app. split; [exact Hnl|]. apply Forall_app.
        split; [now apply enc_block_chars|]. apply IH; [simpl in Hlen; lia|assumption].
      * apply Forall_app.
        split; [now apply enc_block_chars|]. apply IH; [simpl in Hlen; lia|assumption].
Qed.

Lemma b64_alphabet nl ls data : bytes_ok data -> Forall (b64_text_char nl) (base64_encode nl ls data).
Proof. intros H. now apply (b64_alphabet_aux nl ls (length data)). Qed.

(** decoding ignores everything outside the alphabet *)
Lemma b64_dec_filter t : forall g, b64_dec t g = b64_dec (filter (fun c => match dec_char c with Some _ => true | None => false end) t) g.
Proof.
  induction t as [|c t IH]; intros g; [reflexivity|]. cbn [b64_dec filter].
  destruct (dec_char c) as [v|] eqn:E; [|apply IH].
  cbn [b64_dec]. rewrite E. destruct (Nat.eqb (length g) 3); [now rewrite IH|apply IH].
Qed.

(** length without line breaks *)
Lemma b64_length_aux : forall n data bo, (length data <= n)%nat ->
  zlen (b64_enc [] 0 data bo) = 4 * ((zlen data + 2) / 3).
Proof.
  induction n as [|n IH]; intros data bo Hlen.
  - destruct data; [reflexivity|simpl in Hlen; lia].
  - destruct data as [|a [|b [|c t]]]; [reflexivity|cbn [b64_enc]; unfold need_nl; now rewrite andb_false_r..|].
    cbn [b64_enc]. unfold need_nl. rewrite andb_false_r. rewrite zlen_app, IH by (simpl in Hlen; lia).
    rewrite !zlen_cons. change (zlen (enc_block a b c)) with 4. lia.
Qed.

(** ** StringReplace with a one-character pattern *)
Lemma eq_list_true a b : eq_list a b = true <-> a = b.
Proof. unfold eq_list. destruct (list_eq_dec Z.eq_dec a b); split; intros; congruence. Qed.

Lemma sfind_char c s :
  sfind s [c] = match s with
                | [] => None
                | x :: t => if x =? c then Some 0%nat else option_map S (sfind t [c])
                end.
Proof.
  destruct s as [|x t]; [reflexivity|]. cbn [sfind length firstn].
  assert (E : eq_list [x] [c] = (x =? c)).
  { destruct (Z.eqb_spec x c) as [->|Hne]; [now apply eq_list_true|].
    destruct (eq_list [x] [c]) eqn:E; [|reflexivity]. apply eq_list_true in E. congruence. }
  rewrite E. reflexivity.
Qed.

Lemma sfind_split c s : match sfind s [c] with
  | None => ~ In c s
  | Some p => exists a b, s = a ++ c :: b /\ length a = p /\ ~ In c a
  end.
Proof.
  induction s as [|x s IH]; rewrite sfind_char; [intros []|].
  destruct (Z.eqb_spec x c) as [->|Hne].
  - exists [], s. simpl. auto.
  - destruct (sfind s [c]) as [p|]; simpl.
    + destruct IH as (a & b & -> & Hl & Hn). exists (x :: a), b. simpl. split; [reflexivity|]. split; [lia|].
      intros [H|H]; auto.
    + intros [H|H]; auto.
Qed.

Definition subst1 (c : Z) (new : list Z) (s : list Z) : list Z :=
  flat_map (fun x => if x =? c then new else [x]) s.

Lemma subst1_notin c new s : ~ In c s -> subst1 c new s = s.
Proof.
  induction s as [|x s IH]; intros H; [reflexivity|]. cbn [subst1 flat_map].
  destruct (Z.eqb_spec x c) as [->|]; [exfalso; apply H; now left|].
  simpl. f_equal. apply IH. intros Hin. apply H. now right.
Qed.

Lemma replace_first s c new :
  string_replace s [c] new false =
  match sfind s [c] with None => Ok s
  | Some p => Ok (firstn p s ++ new ++ skipn (p + 1) s) end.
Proof. unfold string_replace. cbn [string_replace_loop]. destruct (sfind s [c]); reflexivity. Qed.

Lemma replace_all_loop c new : forall n s, (length s < n)%nat ->
  string_replace_loop n s [c] new true = Ok (subst1 c new s).
Proof.
  induction n as [|n IH]; intros s Hn; [lia|]. cbn [string_replace_loop].
  pose proof (sfind_split c s) as H. destruct (sfind s [c]) as [p|].
  - destruct H as (a & b & -> & <- & Hna).
    rewrite firstn_app, Nat.sub_diag, firstn_all. simpl firstn. rewrite app_nil_r.
    replace (skipn (length a + length [c]) (a ++ c :: b)) with b.
    2:{ rewrite skipn_app, skipn_all2 by (simpl; lia). simpl length.
        replace (length a + 1 - length a)%nat with 1%nat by lia. reflexivity. }
    rewrite IH by (rewrite app_length in Hn; simpl in Hn; lia). cbn [rbind].
    f_equal. unfold subst1. rewrite flat_map_app. fold (subst1 c new a). rewrite subst1_notin by assumption.
    cbn [flat_map]. rewrite Z.eqb_refl. reflexivity.
  - f_equal. symmetry. now apply subst1_notin.
Qed.

Lemma replace_all s c new : string_replace s [c] new true = Ok (subst1 c new s).
Proof. apply replace_all_loop. lia. Qed.

(** an empty pattern with rfReplaceAll loops for every amount of fuel *)
Lemma replace_empty_hangs fuel s new : string_replace_loop fuel s [] new true = Hang.
Proof.
  revert s. induction fuel as [|k IH]; intros s; [reflexivity|]. cbn [string_replace_loop].
  assert (E : sfind s [] = Some 0%nat) by (destruct s; reflexivity). rewrite E.
  cbn [Nat.add length skipn firstn]. now rewrite IH.
Qed.

(** occurrences after replacing the first one *)
Lemma occ_app c a b : occ c (a ++ b) = (occ c a + occ c b)%nat.
Proof. unfold occ. apply count_occ_app. Qed.

Lemma replace_first_occ s c new d :
  exists r, string_replace s [c] new false = Ok r /\
    (occ c s = 0%nat -> r = s) /\
    (occ c s <> 0%nat -> occ d r = (occ d s + occ d new - (if Z.eq_dec c d then 1 else 0))%nat).
Proof.
  rewrite replace_first. pose proof (sfind_split c s) as H. destruct (sfind s [c]) as [p|].
  - destruct H as (a & b & -> & <- & Hna). eexists. split; [reflexivity|]. split.
    + intros H. rewrite occ_app in H. unfold occ in H. simpl in H. destruct (Z.eq_dec c c); [lia|congruence].
    + intros _. rewrite firstn_app, Nat.sub_diag, firstn_all. simpl firstn. rewrite app_nil_r.
      replace (skipn (length a + 1) (a ++ c :: b)) with b.
      2:{ rewrite skipn_app, skipn_all2 by lia. replace (length a + 1 - length a)%nat with 1%nat by lia. reflexivity. }
      rewrite !occ_app. unfold occ at 5. simpl count_occ. fold (occ d b). destruct (Z.eq_dec c d); unfold occ; lia.
  - eexists. split; [reflexivity|]. split; [reflexivity|]. intros Hc. exfalso. apply Hc.
    unfold occ. now apply count_occ_not_In.
Qed.

Lemma replace_first_once s c new : (occ c s <= 1)%nat -> string_replace s [c] new false = Ok (subst1 c new s).
Proof.
  intros Hc. rewrite replace_first. pose proof (sfind_split c s) as H. destruct (sfind s [c]) as [p|].
  - destruct H as (a & b & -> & <- & Hna).
    rewrite occ_app in Hc. unfold occ at 2 in Hc. simpl in Hc. destruct (Z.eq_dec c c); [|congruence].
    assert (Hnb : ~ In c b) by (rewrite (count_occ_In Z.eq_dec); lia).
    rewrite firstn_app, Nat.sub_diag, firstn_all. simpl firstn. rewrite app_nil_r.
    replace (skipn (length a + 1) (a ++ c :: b)) with b.
    2:{ rewrite skipn_app, skipn_all2 by lia. replace (length a + 1 - length a)%nat with 1%nat by lia. reflexivity. }
    f_equal. unfold subst1. rewrite flat_map_app. fold (subst1 c new a). rewrite subst1_notin by assumption.
    cbn [flat_map]. rewrite Z.eqb_refl. fold (subst1 c new b). now rewrite subst1_notin.
  - f_equal. symmetry. now apply subst1_notin.
Qed.

Lemma occ_subst1 c new s d : c <> d -> occ d new = 0%nat -> occ d (subst1 c new s) = occ d s.
Proof.
  intros Hne Hn. induction s as [|x s IH]; [reflexivity|]. cbn [subst1 flat_map]. fold (subst1 c new s).
  rewrite occ_app, IH. destruct (Z.eqb_spec x c) as [->|Hx].
  - rewrite Hn. unfold occ. simpl. destruct (Z.eq_dec c d); [congruence|reflexivity].
  - unfold occ. simpl. destruct (Z.eq_dec x d); reflexivity.
Qed.

Lemma five_passes s :
  subst1 34 [38;113;117;111;116;59] (subst1 39 [38;97;112;111;115;59] (subst1 62 [38;103;116;59]
   (subst1 60 [38;108;116;59] (subst1 38 [38;97;109;112;59] s)))) = xml_escape s.
Proof.
  induction s as [|x s IH]; [reflexivity|].
  assert (Hc : forall c new x l, subst1 c new (x :: l) = (if x =? c then new else [x]) ++ subst1 c new l) by reflexivity.
  assert (Happ : forall c new a b, subst1 c new (a ++ b) = subst1 c new a ++ subst1 c new b)
    by (intros; unfold subst1; apply flat_map_app).
  unfold xml_escape in *. cbn [flat_map]. rewrite <- IH. rewrite Hc, !Happ. f_equal.
  unfold xml_entity.
  destruct (Z.eqb_spec x 38) as [->|H1]; [reflexivity|].
  rewrite Hc. destruct (Z.eqb_spec x 60) as [->|H2]; [reflexivity|]. simpl app.
  rewrite Hc. destruct (Z.eqb_spec x 62) as [->|H3]; [reflexivity|]. simpl app.
  rewrite Hc. destruct (Z.eqb_spec x 39) as [->|H4]; [reflexivity|]. simpl app.
  rewrite Hc. destruct (Z.eqb_spec x 34) as [->|H5]; reflexivity.
Qed.

Lemma to_xml_once s : (forall c, xml_special c -> (occ c s <= 1)%nat) -> to_xml s = Ok (xml_escape s).
Proof.
  intros H. unfold xml_special in H.
  assert (H38 := H 38 ltac:(lia)). assert (H60 := H 60 ltac:(lia)). assert (H62 := H 62 ltac:(lia)).
  assert (H39 := H 39 ltac:(lia)). assert (H34 := H 34 ltac:(lia)).
  unfold to_xml.
  rewrite replace_first_once by assumption. cbn [rbind].
  rewrite replace_first_once by (rewrite !occ_subst1; [assumption|lia..|reflexivity]). cbn [rbind].
  rewrite replace_first_once by (rewrite !occ_subst1; [assumption|lia..|reflexivity|lia|reflexivity]). cbn [rbind].
  rewrite replace_first_once by (rewrite !occ_subst1; [assumption|lia..|reflexivity|lia|reflexivity|lia|reflexivity]). cbn [rbind].
  rewrite replace_first_once by (rewrite !occ_subst1; [assumption|lia..|reflexivity|lia|reflexivity|lia|reflexivity|lia|reflexivity]).
  now rewrite five_passes.
Qed.

Lemma rf_occ s c new : exists r, string_replace s [c] new false = Ok r /\
   (forall d, d <> c -> occ d new = 0%nat -> occ d r = occ d s) /\
   (occ c new = 0%nat -> occ c r = (occ c s - 1)%nat).
Proof.
  rewrite replace_first. pose proof (sfind_split c s) as H. destruct (sfind s [c]) as [p|].
  - destruct H as (a & b & -> & <- & Hna). eexists. split; [reflexivity|].
    rewrite firstn_app, Nat.sub_diag, firstn_all. simpl firstn. rewrite app_nil_r.
    replace (skipn (length a + 1) (a ++ c :: b)) with b.
    2:{ rewrite skipn_app, skipn_all2 by lia. replace (length a + 1 - length a)%nat with 1%nat by lia. reflexivity. }
    split.
    + intros d Hd Hn. rewrite !occ_app, Hn. unfold occ. simpl. destruct (Z.eq_dec c d); [congruence|lia].
    + intros Hn. rewrite !occ_app, Hn. unfold occ. simpl. destruct (Z.eq_dec c c); [lia|congruence].
  - eexists. split; [reflexivity|]. split; [reflexivity|]. intros _.
    assert (occ c s = 0%nat) by (unfold occ; now apply count_occ_not_In). lia.
Qed.

(** every occurrence of '<', '>', quotes but the first survives unescaped *)
Lemma to_xml_leaves_rest s c : c = 60 \/ c = 62 \/ c = 39 \/ c = 34 ->
  exists r, to_xml s = Ok r /\ occ c r = (occ c s - 1)%nat.
Proof.
  intros Hc. unfold to_xml.
  destruct (rf_occ s 38 [38;97;109;112;59]) as (r1 & E1 & O1 & _). rewrite E1. cbn [rbind].
  destruct (rf_occ r1 60 [38;108;116;59]) as (r2 & E2 & O2 & C2). rewrite E2. cbn [rbind].
  destruct (rf_occ r2 62 [38;103;116;59]) as (r3 & E3 & O3 & C3). rewrite E3. cbn [rbind].
  destruct (rf_occ r3 39 [38;97;112;111;115;59]) as (r4 & E4 & O4 & C4). rewrite E4. cbn [rbind].
  destruct (rf_occ r4 34 [38;113;117;111;116;59]) as (r5 & E5 & O5 & C5). rewrite E5.
  exists r5. split; [reflexivity|].
  destruct Hc as [->|[->|[->| ->]]].
  - rewrite O5, O4, O3, C2, O1 by (lia || reflexivity). reflexivity.
  - rewrite O5, O4, C3, O2, O1 by (lia || reflexivity). reflexivity.
  - rewrite O5, C4, O3, O2, O1 by (lia || reflexivity). reflexivity.
  - rewrite C5, O4, O3, O2, O1 by (lia || reflexivity). reflexivity.
Qed.

(** the escaping specification itself is invertible *)
Lemma unescape_plain k c t : c <> 38 -> xml_unescape (S k) (c :: t) = c :: xml_unescape k t.
Proof.
  intros H. cbn [xml_unescape]. 
  destruct c as [|p|p]; try reflexivity.
  repeat (destruct p as [p|p|]; try reflexivity). congruence.
Qed.

Lemma unescape_escape s : forall k, (length s < k)%nat -> xml_unescape k (xml_escape s) = s.
Proof.
  induction s as [|x s IH]; intros [|k] Hk; simpl in Hk; try lia; [reflexivity|].
  unfold xml_escape in *. cbn [flat_map].
  unfold xml_entity at 1.
  destruct (Z.eqb_spec x 38) as [->|H1]; [cbn [app xml_unescape]; now rewrite IH by lia|].
  destruct (Z.eqb_spec x 60) as [->|H2]; [cbn [app xml_unescape]; now rewrite IH by lia|].
  destruct (Z.eqb_spec x 62) as [->|H3]; [cbn [app xml_unescape]; now rewrite IH by lia|].
  destruct (Z.eqb_spec x 39) as [->|H4]; [cbn [app xml_unescape]; now rewrite IH by lia|].
  destruct (Z.eqb_spec x 34) as [->|H5]; [cbn [app xml_unescape]; now rewrite IH by lia|].
  cbn [app]. rewrite unescape_plain by assumption. now rewrite IH by lia.
Qed.

Lemma escape_no_special s c : xml_special c -> c <> 38 -> ~ In c (xml_escape s).
Proof.
  intros Hc Hne Hin. unfold xml_escape in Hin. apply in_flat_map in Hin. destruct Hin as (x & _ & Hx).
  unfold xml_entity, xml_special in *.
  destruct (Z.eqb_spec x 38); [|destruct (Z.eqb_spec x 60); [|destruct (Z.eqb_spec x 62); [|destruct (Z.eqb_spec x 39); [|destruct (Z.eqb_spec x 34)]]]];
  cbn [In] in Hx; lia.
Qed.

(** ** line width of Base64 text *)
Lemma lines_fit_word brk n w t : forall cur, (forall c, In c w -> brk c = false) -> 0 <= cur -> cur + zlen w <= n ->
  lines_fit brk n (cur + zlen w) t -> lines_fit brk n cur (w ++ t).
Proof.
  induction w as [|c w IH]; intros cur Hw Hc Hn Ht; [unfold zlen in Ht; simpl in *; now rewrite Z.add_0_r in Ht|].
  rewrite zlen_cons in *. cbn [app lines_fit]. rewrite (Hw c) by now left.
  pose proof (zlen_nonneg w). split; [lia|]. apply IH; [intros; apply Hw; now right|lia|lia|].
  now replace (cur + 1 + zlen w) with (cur + (1 + zlen w)) by lia.
Qed.
Lemma lines_fit_nl brk n nl t cur : nl <> [] -> (forall c, In c nl -> brk c = true) -> lines_fit brk n 0 t ->
  lines_fit brk n cur (nl ++ t).
Proof.
  intros Hne. revert cur. induction nl as [|c nl IH]; intros cur Hb Ht; [congruence|].
  cbn [app lines_fit]. rewrite (Hb c) by now left.
  destruct nl as [|d nl]; [exact Ht|]. apply IH; [discriminate|intros; apply Hb; now right|exact Ht].
Qed.

Lemma b64_lines_aux nl ls brk : nl <> [] -> (forall c, In c nl -> brk c = true) -> 4 <= ls ->
  (forall c, is_b64_char c \/ c = 61 -> brk c = false) ->
  forall n data bo, (length data <= n)%nat -> bytes_ok data -> 0 <= bo -> 4 * bo <= ls ->
  lines_fit brk ls (4 * bo) (b64_enc nl ls data bo).
Proof.
  intros Hne Hnl Hls Hbrk.
  assert (H0 : byte_ok 0) by (unfold byte_ok; lia).
  assert (Hq : Z.quot ls 4 = ls / 4) by (apply Z.quot_div_nonneg; lia).
  assert (Hneed : forall bo, need_nl bo ls = true \/ (need_nl bo ls = false /\ 4 * bo + 4 <= ls)).
  { intros bo. unfold need_nl. rewrite Hq. destruct (Z.leb_spec (ls / 4) bo); [left; lia|right; split; [reflexivity|lia]]. }
  assert (Hword : forall w t bo, zlen w = 4 -> (forall c, In c w -> is_b64_char c \/ c = 61) -> 0 <= bo ->
    4 * bo + 4 <= ls -> lines_fit brk ls (4 * (bo + 1)) t -> lines_fit brk ls (4 * bo) (w ++ t)).
  { intros w t bo Hw Hc Hbo Hfit Ht. apply lines_fit_word; [intros c Hin; apply Hbrk, Hc, Hin|lia|lia|].
    rewrite Hw. now replace (4 * bo + 4) with (4 * (bo + 1)) by lia. }
  induction n as [|n IH]; intros data bo Hlen Hok Hbo Hfit.
  - destruct data; [exact I|simpl in Hlen; lia].
  - destruct data as [|a [|b [|c t]]].
    + exact I.
    + inversion Hok as [|? ? Ha _]; subst. cbn [b64_enc].
      destruct (s_ranges a 0 Ha H0) as (R0 & R1 & _ & _). unfold s0, s1 in *.
      assert (Hw : forall c, In c [c64 (Z.shiftr a 2); c64 (Z.lor (Z.shiftl (Z.land a 3) 4) (Z.shiftr (Z.land 0 240) 4)); 61; 61] -> is_b64_char c \/ c = 61).
      { intros c [<-|[<-|[<-|[<-|[]]]]]; [left; apply c64_char; assumption..|right; reflexivity|right; reflexivity]. }
      destruct (Hneed bo) as [->|[-> Hf]].
      * apply lines_fit_nl; [assumption..|]. rewrite <- app_nil_r. apply (Hword _ [] 0); [reflexivity|exact Hw|lia|lia|exact I].
      * cbn [app]. match goal with |- lines_fit _ _ _ ?w => change w with (w ++ []) end.
        apply (Hword _ [] bo); [reflexivity|exact Hw|lia|lia|exact I].
    + inversion Hok as [|? ? Ha Hok']; subst. inversion Hok' as [|? ? Hb _]; subst. cbn [b64_enc].
      destruct (s_ranges a b Ha Hb) as (R0 & R1 & _ & _).
      destruct (s_ranges b 0 Hb H0) as (_ & _ & R2 & _). unfold s0, s1, s2 in *.
      assert (Hw : forall c, In c [c64 (Z.shiftr a 2); c64 (Z.lor (Z.shiftl (Z.land a 3) 4) (Z.shiftr (Z.land b 240) 4)); c64 (Z.lor (Z.shiftl (Z.land b 15) 2) (Z.shiftr (Z.land 0 192) 6)); 61] -> is_b64_char c \/ c = 61).
      { intros c [<-|[<-|[<-|[<-|[]]]]]; [left; apply c64_char; assumption..|right; reflexivity]. }
      destruct (Hneed bo) as [->|[-> Hf]].
      * apply lines_fit_nl; [assumption..|]. rewrite <- app_nil_r. apply (Hword _ [] 0); [reflexivity|exact Hw|lia|lia|exact I].
      * cbn [app]. match goal with |- lines_fit _ _ _ ?w => change w with (w ++ []) end.
        apply (Hword _ [] bo); [reflexivity|exact Hw|lia|lia|exact I].
    + inversion Hok as [|? ? Ha Hok']; subst. inversion Hok' as [|? ? Hb Hok'']; subst.
      inversion Hok'' as [|? ? Hc Hok3]; subst. cbn [b64_enc].
      assert (Hw : forall x, In x (enc_block a b c) -> is_b64_char x \/ x = 61).
      { pose proof (enc_block_chars [] a b c Ha Hb Hc) as F. rewrite Forall_forall in F. intros x Hx.
        destruct (F x Hx) as [H|[H|[]]]; auto. }
      destruct (Hneed bo) as [->|[-> Hf]].
      * apply lines_fit_nl; [assumption..|]. apply (Hword _ _ 0); [reflexivity|exact Hw|lia|lia|].
        apply IH; [simpl in Hlen; lia|assumption|lia|lia].
      * apply Hword; [reflexivity|exact Hw|lia|lia|]. apply IH; [simpl in Hlen; lia|assumption|lia|lia].
Qed.

Definition is_break (nl : list Z) (c : Z) : bool := existsb (Z.eqb c) nl.
Lemma b64_lines nl ls data : nl <> [] -> Forall (fun c => is_noise c /\ c <> 61) nl -> 4 <= ls -> bytes_ok data ->
  lines_fit (is_break nl) ls 0 (base64_encode nl ls data).
Proof.
  intros Hne Hn Hls Hok. apply (b64_lines_aux nl ls (is_break nl)) with (n := length data) (bo := 0); auto; try lia.
  - intros c Hc. unfold is_break. apply existsb_exists. exists c. split; [exact Hc|apply Z.eqb_refl].
  - intros c Hc. unfold is_break. apply not_true_is_false. intros H. apply existsb_exists in H.
    destruct H as (x & Hx & E). rewrite Forall_forall in Hn. destruct (Hn x Hx) as [N1 N2].
    assert (c = x) by lia. subst. unfold is_noise in N1. tauto.
Qed.

Lemma crlf_noise : Forall is_noise [13;10] /\ Forall is_noise [13;0].
Proof. unfold is_noise, is_b64_char. split; repeat (apply Forall_cons; [lia|]); constructor. Qed.

(** non-hexadecimal characters in a GUID text are read as 0 *)
Lemma guid_text_not_checked : exists s, length s = 32%nat /\ ~ Forall is_hex_char s /\ guid_of_text s = Ok (repeat 0 16).
Proof.
  exists (repeat 122 32). split; [reflexivity|]. split; [|reflexivity].
  intros H. inversion H as [|? ? Hc _]. unfold is_hex_char in Hc. lia.
Qed.

Lemma guid_MS_permutation g : is_guid g ->
  is_guid (ms_perm g) /\ guid_as_MS g = guid_as_1C (ms_perm g) /\ Permutation g (ms_perm g).
Proof.
  intros Hg. split; [now apply ms_perm_guid|]. split; [now apply guid_MS_as_1C|].
  destruct Hg as [Hl _]. destruct (guid_list _ Hl) as (b0&b1&b2&b3&b4&b5&b6&b7&b8&b9&b10&b11&b12&b13&b14&b15&->).
  unfold ms_perm. cbn [map nth].
  match goal with |- Permutation ?a _ =>
    apply (Permutation_trans (l' := skipn 8 a ++ firstn 8 a));
    [rewrite <- (firstn_skipn 8 a) at 1; apply Permutation_app_comm|] end.
  cbn [skipn firstn app]. do 8 apply perm_skip.
  match goal with |- Permutation ?a ?b => change b with (rev a); apply Permutation_rev end.
Qed.

Lemma hexstring_inj a b : bytes_ok a -> bytes_ok b -> hexstring a = hexstring b -> a = b.
Proof.
  intros Ha Hb E. destruct (hexstring_spec a Ha) as (_ & _ & <-). destruct (hexstring_spec b Hb) as (_ & _ & <-).
  now rewrite E.
Qed.
Lemma guid_texts_inj g h : is_guid g -> is_guid h ->
  (guid_as_MS g = guid_as_MS h \/ guid_as_1C g = guid_as_1C h \/ hexstring g = hexstring h) -> g = h.
Proof.
  intros Hg Hh [E|[E|E]]; [now apply guid_MS_inj|now apply guid_1C_inj|].
  destruct Hg, Hh. now apply hexstring_inj.
Qed.
Lemma b64_linux_nul : exists data, bytes_ok data /\ In 0 (base64_encode [13;0] 72 data).
Proof.
  exists (repeat 0 57). split; [apply bytes_okb_spec; reflexivity|].
  apply (nth_error_In _ 73). reflexivity.
Qed.
Lemma hexstring_pair_parse b : byte_ok b -> exists h l, hexstring [b] = [h; l] /\ two_hex_digits_to_byte h l = Some b.
Proof. intros H. do 2 eexists. split; [reflexivity|]. now apply two_hex_roundtrip. Qed.
Lemma to_xml_partial s : (forall c, xml_special c -> (occ c s <= 1)%nat) ->
    exists r, to_xml s = Ok r /\ r = xml_escape s /\
      (forall c, xml_special c -> c <> 38 -> ~ In c r) /\
      xml_unescape (S (length s)) r = s.
Proof.
  intros H. eexists. split; [now apply to_xml_once|]. split; [reflexivity|].
  split; [intros; now apply escape_no_special|]. apply unescape_escape. lia.
Qed.
Lemma to_xml_refuted s c : c = 60 \/ c = 62 \/ c = 39 \/ c = 34 -> (2 <= occ c s)%nat ->
    exists r, to_xml s = Ok r /\ In c r /\ r <> xml_escape s.
Proof.
  intros Hc H2. destruct (to_xml_leaves_rest s c Hc) as (r & E & O). exists r. split; [exact E|].
  assert (Hin : In c r) by (rewrite (count_occ_In Z.eq_dec); unfold occ in O, H2; lia).
  split; [exact Hin|]. intros ->. revert Hin. apply escape_no_special; unfold xml_special; lia.
Qed.
