From Verif Require Import Prelude Lists Obj_Model Obj_Spec Obj_Proofs Obj_Write Obj_Make Alloc_Model Alloc_Spec.
Ltac Zify.zify_post_hook ::= idtac.

(** ** pages of a store *)
Lemma page_nth st n : 0 <= n < zlen st -> nth_error st (Z.to_nat n) = Some (page st n).
Proof. intros H. unfold page, zlen in *. apply nth_error_nth'. lia. Qed.
Lemma page_page st n : 0 <= n < zlen st -> zlen st <= 2^32 -> page_is st n (page st n).
Proof. intros H H2. split; [lia|]. now apply page_nth. Qed.
Lemma get_page_page st n : 0 <= n < zlen st -> get_page st n = Ok (page st n).
Proof. intros H. unfold get_page. destruct (Z.ltb_spec n 0); [lia|]. now rewrite page_nth. Qed.
Lemma page_of st n p : page_is st n p -> page st n = p /\ 0 <= n < zlen st.
Proof. intros [H1 H2]. split; [now apply nth_error_nth_Z|]. unfold zlen. assert (Z.to_nat n < length st)%nat by (apply nth_error_Some; congruence). lia. Qed.
Lemma good_page ps st n : good ps st -> 0 <= n < zlen st -> length (page st n) = ps /\ bytes_ok (page st n).
Proof.
  intros (H1 & H2 & _) Hn. apply page_nth in Hn. rewrite Forall_forall in H1, H2. split; [apply H1|apply H2]; eapply nth_error_In; eauto.
Qed.

Definition upd (st : store) (n : Z) (q : list Z) : store := splice st (Z.to_nat n) [q].
Lemma upd_len st n q : 0 <= n < zlen st -> zlen (upd st n q) = zlen st.
Proof. intros H. unfold upd, zlen in *. rewrite splice_length; [reflexivity|cbn; lia]. Qed.
Lemma upd_page st n q m : 0 <= n < zlen st -> 0 <= m -> page (upd st n q) m = if m =? n then q else page st m.
Proof.
  intros H Hm. unfold page, upd. rewrite !nth_default_eq || idtac.
  assert (E : nth_error (splice st (Z.to_nat n) [q]) (Z.to_nat m) = if (Z.to_nat m =? Z.to_nat n)%nat then Some q else nth_error st (Z.to_nat m)) by (apply page_splice; unfold zlen in H; lia).
  destruct (Z.eqb_spec m n) as [->|Hne].
  - rewrite Nat.eqb_refl in E. now apply nth_error_nth_Z.
  - destruct (Nat.eqb_spec (Z.to_nat m) (Z.to_nat n)); [lia|].
    destruct (nth_error st (Z.to_nat m)) as [x|] eqn:Ex; [now rewrite (nth_error_nth_Z _ _ _ _ E), (nth_error_nth_Z _ _ _ _ Ex)|].
    rewrite !nth_overflow; [reflexivity|apply nth_error_None; exact Ex|apply nth_error_None; exact E].
Qed.
Lemma upd_good ps st n q : good ps st -> 0 <= n < zlen st -> length q = ps -> bytes_ok q -> good ps (upd st n q).
Proof.
  intros (H1 & H2 & H3 & H4) Hn Hq Hb. unfold good. rewrite upd_len by exact Hn. split; [apply Forall_splice; [exact H1|now constructor]|].
  split; [apply Forall_splice; [exact H2|now constructor]|]. now split.
Qed.

Lemma wrn_ok {A} (l d : list A) off : (off + length d <= length l)%nat -> wrn l (Z.of_nat off) d = Ok (splice l off d).
Proof. intros H. unfold wrn, zlen. destruct (Z.ltb_spec (Z.of_nat off) 0); [lia|]. destruct (Z.ltb_spec (Z.of_nat (length l)) (Z.of_nat off + Z.of_nat (length d))); [lia|]. cbn. now rewrite Nat2Z.id. Qed.

(** ** numbers in pages *)
Lemma num_at_same p q off v : num_at p off v -> sub q off 4 = sub p off 4 -> num_at q off v.
Proof. intros [H1 H2] H. split; [exact H1|]. now rewrite H. Qed.
Lemma num_at_splice p off v : (off + 4 <= length p)%nat -> 0 <= v < 2^32 -> num_at (splice p off (le_bytes 4 (u32 v))) off v.
Proof. intros H Hv. split; [exact Hv|]. unfold u32. rewrite Z.mod_small by lia. pose proof (sub_splice_same p (le_bytes 4 v) off ltac:(rewrite le_bytes_length; lia)) as E. now rewrite le_bytes_length in E. Qed.
Lemma num_at_other p off v o d : num_at p off v -> (o + length d <= length p)%nat -> (off + 4 <= o \/ o + length d <= off)%nat -> num_at (splice p o d) off v.
Proof. intros H Hl Ho. eapply num_at_same; [exact H|]. apply sub_splice_other; lia. Qed.
Lemma array_other p off vs o d : array_at p off vs -> (o + length d <= length p)%nat -> (off + 4 * length vs <= o \/ o + length d <= off)%nat -> array_at (splice p o d) off vs.
Proof. intros H Hl Ho i v Hi. assert (i < length vs)%nat by (apply nth_error_Some; congruence). apply num_at_other; [now apply H|exact Hl|lia]. Qed.
Lemma array_app p off a b : array_at p off (a ++ b) <-> array_at p off a /\ array_at p (off + 4 * length a) b.
Proof.
  split.
  - intros H. split; intros i v Hi.
    + apply H. rewrite nth_error_app1; [exact Hi|]. apply nth_error_Some. congruence.
    + replace (off + 4 * length a + 4 * i)%nat with (off + 4 * (length a + i))%nat by lia. apply H. rewrite nth_error_app2 by lia. now replace (length a + i - length a)%nat with i by lia.
  - intros [H1 H2] i v Hi. destruct (Nat.ltb_spec i (length a)) as [Hl|Hl].
    + apply H1. now rewrite nth_error_app1 in Hi by lia.
    + rewrite nth_error_app2 in Hi by lia. specialize (H2 _ _ Hi). now replace (off + 4 * length a + 4 * (i - length a))%nat with (off + 4 * i)%nat in H2 by lia.
Qed.
Lemma array_one p off v : array_at p off [v] <-> num_at p off v.
Proof.
  split; [intros H; specialize (H 0%nat v eq_refl); now rewrite Nat.add_0_r in H|].
  intros H [|[|i]] w Hi; try discriminate. cbn in Hi. injection Hi as <-. now rewrite Nat.add_0_r.
Qed.
Lemma array_set p off vs v : array_at p off vs -> (off + 4 * (length vs + 1) <= length p)%nat -> 0 <= v < 2^32 ->
  array_at (splice p (off + 4 * length vs) (le_bytes 4 (u32 v))) off (vs ++ [v]).
Proof.
  intros H Hl Hv. apply array_app. split.
  - apply array_other; [exact H|rewrite le_bytes_length; lia|left; lia].
  - apply array_one. apply num_at_splice; [lia|exact Hv].
Qed.

Definition k1 : nat := 1024.
Lemma k1_Z : Z.of_nat k1 = 1024. Proof. reflexivity. Qed.
Lemma k1_pos : k1 <> 0%nat. Proof. discriminate. Qed.
Lemma k1_div n : Z.of_nat n / 1024 = Z.of_nat (n / k1).
Proof. rewrite <- k1_Z. symmetry. apply Nat2Z.inj_div. Qed.
Lemma k1_mod n : Z.of_nat n mod 1024 = Z.of_nat (n mod k1).
Proof. rewrite <- k1_Z. symmetry. apply Nat2Z.inj_mod. Qed.
Global Opaque k1.
Section Pg.
Variables (slack : Z) (cached : Z -> bool) (ps : nat).
Hypothesis Hps : (32 <= ps)%nat.
Let P := Z.of_nat ps.

Lemma poke_ok st n off d : good ps st -> 0 <= n < zlen st -> (off + length d <= ps)%nat ->
  poke cached P st n (Z.of_nat off) d = Ok (upd st n (splice (page st n) off d)).
Proof.
  intros Hg Hn Hd. destruct (good_page ps st n Hg Hn) as [Hl _]. unfold poke, write_page.
  destruct (Z.ltb_spec n 0); [lia|]. destruct (Z.ltb_spec (zlen st) n); [lia|]. cbn [orb]. destruct (Z.eqb_spec n (zlen st)); [lia|].
  rewrite (rd_ok _ _ (page st n)); [|lia|now apply page_nth]. cbn [rbind orb]. rewrite wrn_ok by lia. reflexivity.
Qed.
Lemma poke_good st n off d : good ps st -> 0 <= n < zlen st -> (off + length d <= ps)%nat -> bytes_ok d -> good ps (upd st n (splice (page st n) off d)).
Proof.
  intros Hg Hn Hd Hb. destruct (good_page ps st n Hg Hn) as [Hl Hbp]. apply upd_good; try assumption; [rewrite splice_length; lia|now apply bytes_ok_splice].
Qed.
(** a page taken without loading: unknown contents, then [d] *)
Lemma fresh_ok st n d : good ps st -> 0 <= n < zlen st -> (length d <= ps)%nat -> bytes_ok d ->
  exists q, write_page cached P st n false 0 d = Ok (upd st n (splice q 0 d)) /\ length q = ps /\ bytes_ok q.
Proof.
  intros Hg Hn Hd Hb. destruct (good_page ps st n Hg Hn) as [Hl Hbp]. unfold write_page.
  destruct (Z.ltb_spec n 0); [lia|]. destruct (Z.ltb_spec (zlen st) n); [lia|]. cbn [orb]. destruct (Z.eqb_spec n (zlen st)); [lia|].
  rewrite (rd_ok _ _ (page st n)); [|lia|now apply page_nth]. cbn [rbind orb]. change 0 with (Z.of_nat 0).
  destruct (cached n).
  - rewrite wrn_ok by lia. exists (page st n). now split.
  - unfold P. rewrite Nat2Z.id, wrn_ok by (rewrite repeat_length; lia). exists (repeat (Z.of_nat 0) ps). split; [reflexivity|]. split; [apply repeat_length|apply zeros_ok].
Qed.
Lemma append_ok st d : good ps st -> zlen st + 1 < 2^32 -> (length d <= ps)%nat -> bytes_ok d ->
  exists st', write_page cached P st (zlen st) false 0 d = Ok st' /\ good ps st' /\ zlen st' = zlen st + 1 /\
    (forall m, 0 < m < zlen st -> page st' m = page st m) /\ page st' (zlen st) = splice (repeat 0 ps) 0 d.
Proof.
  intros Hg H32 Hd Hb. pose proof Hg as (G1 & G2 & G3 & G4). destruct (good_page ps st 0 Hg ltac:(lia)) as [Hl Hbp]. unfold write_page.
  destruct (Z.ltb_spec (zlen st) 0); [lia|]. destruct (Z.ltb_spec (zlen st) (zlen st)); [lia|]. cbn [orb]. rewrite Z.eqb_refl.
  rewrite (rd_ok _ _ (page st 0)); [|lia|apply page_nth; lia]. cbn [rbind]. change 12 with (Z.of_nat 12). rewrite wrn_ok by (rewrite le_bytes_length; lia).
  cbn [rbind]. change 0 with (Z.of_nat 0) at 2. unfold P. rewrite Nat2Z.id, wrn_ok by (rewrite repeat_length; lia). cbn [rbind].
  set (h' := splice (page st 0) 12 _). set (q := splice (repeat 0 ps) 0 d). change (splice st 0 [h']) with (upd st 0 h').
  assert (Hh' : length h' = ps) by (unfold h'; rewrite splice_length; [exact Hl|rewrite le_bytes_length; lia]).
  assert (Hu : zlen (upd st 0 h') = zlen st) by (apply upd_len; lia).
  exists (upd st 0 h' ++ [q]). split; [reflexivity|]. split.
  { destruct (upd_good ps st 0 h' Hg ltac:(lia) Hh') as (A & B & C & D); [unfold h'; apply bytes_ok_splice; [exact Hbp|apply le_bytes_ok]|].
    split; [apply Forall_app; split; [exact A|constructor; [|constructor]]|].
    { unfold q. rewrite splice_length by (rewrite repeat_length; lia). apply repeat_length. }
    split; [apply Forall_app; split; [exact B|constructor; [|constructor]]|].
    { unfold q. apply bytes_ok_splice; [apply zeros_ok|exact Hb]. }
    rewrite zlen_app, Hu. change (zlen [q]) with 1. lia. }
  split; [rewrite zlen_app, Hu; reflexivity|]. split.
  - intros m Hm. unfold page. rewrite app_nth1 by (unfold zlen in Hu, Hm; lia). change (page (upd st 0 h') m = page st m).
    rewrite upd_page by lia. destruct (Z.eqb_spec m 0); [lia|reflexivity].
  - unfold page. rewrite app_nth2 by (unfold zlen in *; lia). replace (Z.to_nat (zlen st) - length (upd st 0 h'))%nat with 0%nat by (unfold zlen in *; lia). reflexivity.
Qed.

(** the number at position [i] of the listing pages *)
Lemma fb_spot st fb i : good ps st -> Forall (fun b => 1 < b < zlen st) fb -> P = 4096 -> (i < k1 * length fb)%nat ->
  exists b, nth_error fb (i / k1) = Some b /\ 1 < b < zlen st /\ forall v, num_at (page st b) (4 * (i mod k1)) v <-> num_at (flat st fb) (4 * i) v.
Proof.
  pose proof k1_Z as HK.   intros Hg Hfb Hp Hi. pose proof (Nat.div_mod i k1 k1_pos) as Hdm. pose proof (Nat.mod_upper_bound i k1 k1_pos) as Hub.
  set (c := (i / k1)%nat) in *. set (r := (i mod k1)%nat) in *. clearbody c r.
  destruct (nth_error fb c) as [b|] eqn:Eb; [|apply nth_error_None in Eb; lia]. pose proof Hg as (G1 & _ & G3 & _).
  assert (Hb : 1 < b < zlen st) by (rewrite Forall_forall in Hfb; apply Hfb; eapply nth_error_In; eauto). exists b. split; [reflexivity|]. split; [exact Hb|]. intros v.
  assert (E : sub (flat st fb) (c * ps) ps = page st b).
  { apply (flat_page ps st G1 fb c b); [|exact Eb|apply page_page; lia]. eapply Forall_impl; [|exact Hfb]. intros x Hx. exists (page st x). apply page_page; cbn in Hx; lia. }
  rewrite <- E. replace (4 * i)%nat with (c * ps + 4 * r)%nat by (unfold P in Hp; nia). unfold num_at. rewrite sub_sub by (unfold P in Hp; lia). reflexivity.
Qed.

Lemma fl_rd (fb : list Z) i b : nth_error fb (i / k1) = Some b -> rd fb (Z.of_nat i / 1024) = Ok b.
Proof. intros H. apply rd_ok; [apply Z.div_pos; lia|]. rewrite k1_div. now rewrite Nat2Z.id. Qed.

Lemma flat_stable st st' fb : (forall b, In b fb -> page st' b = page st b) -> flat st' fb = flat st fb.
Proof. intros H. unfold flat. f_equal. apply map_ext_in. exact H. Qed.

Lemma flat_upd st fb j b q : good ps st -> Forall (fun b => 1 < b < zlen st) fb -> NoDup fb -> nth_error fb j = Some b -> length q = ps ->
  flat (upd st b q) fb = splice (flat st fb) (j * ps) q.
Proof.
  pose proof k1_Z as HK.   intros Hg Hfb Hnd Hj Hq. pose proof Hg as (G1 & _ & G3 & _).
  assert (Hb : 1 < b < zlen st) by (rewrite Forall_forall in Hfb; apply Hfb; eapply nth_error_In; eauto).
  unfold flat. assert (Hlen : (j < length fb)%nat) by (apply nth_error_Some; congruence).
  rewrite <- (concat_splice (map (fun b => nth (Z.to_nat b) st []) fb) ps j q); [|apply Forall_map; eapply Forall_impl; [|exact Hfb]; intros x Hx; cbn in Hx; apply (good_page ps st x Hg); lia|now rewrite map_length|exact Hq].
  f_equal. apply nth_error_ext. intros i. rewrite nth_error_map, nth_error_splice1 by now rewrite map_length. rewrite nth_error_map.
  destruct (Nat.eqb_spec i j) as [->|Hne].
  - rewrite Hj. cbn [option_map]. f_equal. change (page (upd st b q) b = q). rewrite upd_page by lia. now rewrite Z.eqb_refl.
  - destruct (nth_error fb i) as [x|] eqn:Ex; [|reflexivity]. cbn [option_map]. f_equal. change (page (upd st b q) x = page st x).
    assert (Hx : 1 < x < zlen st) by (rewrite Forall_forall in Hfb; apply Hfb; eapply nth_error_In; eauto).
    rewrite upd_page by lia. destruct (Z.eqb_spec x b) as [->|]; [|reflexivity]. exfalso. apply Hne. eapply NoDup_nth_inj; eauto.
Qed.

Definition only (st st' : store) (fb : list Z) : Prop := forall m, 1 < m < zlen st -> ~ In m fb -> page st' m = page st m.

(** write of one number into a listing page and of the count into page 1 *)
Lemma spot_write st fl fb stk stk' i v : good ps st -> free_list ps st fl fb stk -> 0 <= v < 2^32 -> (i < k1 * length fb)%nat -> zlen stk' < 2^32 ->
  (forall k x, nth_error stk' k = Some x -> k = i /\ x = v \/ k <> i /\ nth_error stk k = Some x) -> (length stk' <= k1 * length fb)%nat -> forall fl', o_ty fl' = o_ty fl -> o_block fl' = o_block fl -> o_real fl' = o_real fl -> o_blocks fl' = o_blocks fl -> o_len fl' = zlen stk' ->
  exists b, nth_error fb (i / k1) = Some b /\ 1 < b < zlen st /\
  let st1 := upd st 1 (splice (page st 1) 8 (le_bytes 4 (u32 (zlen stk')))) in
  let st2 := upd st1 b (splice (page st1 b) (4 * (i mod k1)) (le_bytes 4 (u32 v))) in
  good ps st1 /\ good ps st2 /\ free_list ps st2 fl' fb stk' /\ only st st2 fb /\ zlen st2 = zlen st /\ page st2 0 = page st 0 /\ page st1 b = page st b.
Proof.
  pose proof k1_Z as HK.   intros Hg Hf Hv Hi H32 Hstk Hcap fl' F1 F2 F3 F4 F5.
  destruct Hf as (A1 & A2 & A3 & A4 & A5 & A6 & A7 & A8 & A9 & A10 & A11 & A12 & A13 & A14 & A15). pose proof Hg as (G1 & G2 & G3 & G4).
  destruct (fb_spot st fb i Hg A10 A1 Hi) as (b & Eb & Hb & Hspot). exists b. split; [exact Eb|]. split; [exact Hb|]. intros st1 st2.
  destruct (good_page ps st 1 Hg ltac:(lia)) as [L1 B1]. assert (Hub : (i mod k1 < k1)%nat) by (apply Nat.mod_upper_bound, k1_pos).
  assert (Hs1 : good ps st1) by (apply poke_good; [exact Hg|lia|rewrite le_bytes_length; lia|apply le_bytes_ok]).
  assert (Z1 : zlen st1 = zlen st) by (apply upd_len; lia).
  assert (Hp1 : forall m, 1 < m -> page st1 m = page st m) by (intros m Hm; unfold st1; rewrite upd_page by lia; destruct (Z.eqb_spec m 1); [lia|reflexivity]).
  assert (Hs2 : good ps st2) by (apply poke_good; [exact Hs1|lia|rewrite le_bytes_length; lia|apply le_bytes_ok]).
  assert (Z2 : zlen st2 = zlen st) by (unfold st2; rewrite upd_len by lia; exact Z1).
  assert (Ep1 : page st2 1 = splice (page st 1) 8 (le_bytes 4 (u32 (zlen stk')))).
  { unfold st2. rewrite upd_page by lia. destruct (Z.eqb_spec 1 b); [lia|]. unfold st1. rewrite upd_page by lia. reflexivity. }
  assert (Efl : flat st1 fb = flat st fb). { apply flat_stable. intros x Hx. apply Hp1. rewrite Forall_forall in A10. apply A10 in Hx. lia. }
  assert (Lb : length (page st1 b) = ps) by (apply good_page; [exact Hs1|lia]).
  assert (Efl2 : flat st2 fb = splice (flat st fb) (4 * i) (le_bytes 4 (u32 v))).
  { unfold st2. rewrite (flat_upd st1 fb (i / k1) b); [|exact Hs1|now rewrite Z1|exact A9|exact Eb|rewrite splice_length; rewrite ?le_bytes_length; lia]. rewrite Efl.
    assert (Hlf : length (flat st fb) = (length fb * ps)%nat). { apply flat_len; [exact G1|]. eapply Forall_impl; [|exact A10]. intros x Hx. exists (page st x). apply page_page; cbn in Hx; lia. }
    assert (Hjl : (i / k1 < length fb)%nat) by (apply nth_error_Some; congruence).
    pose proof (Nat.div_mod i k1 k1_pos) as Hdm. set (c := (i / k1)%nat) in *. set (r := (i mod k1)%nat) in *. clearbody c r.
    assert (Ep : sub (flat st fb) (c * ps) ps = page st1 b).
    { rewrite Hp1 by lia. apply (flat_page ps st G1 fb c b); [|exact Eb|apply page_page; lia]. eapply Forall_impl; [|exact A10]. intros x Hx. exists (page st x). apply page_page; cbn in Hx; lia. }
    replace (4 * i)%nat with (c * ps + 4 * r)%nat by nia.
    apply splice_inner; rewrite Lb; [exact Ep|nia|rewrite le_bytes_length; lia]. }
  split; [exact Hs1|]. split; [exact Hs2|]. split.
  - unfold free_list. rewrite F1, F2, F3, F4, F5, Z2, Ep1. split; [exact A1|]. split; [exact A2|]. split; [exact A3|]. split; [reflexivity|]. split; [exact A5|]. split; [exact A6|].
    assert (Hzs : 0 <= zlen stk') by (unfold zlen; lia).
    assert (Hlf : length (flat st fb) = (length fb * ps)%nat). { apply flat_len; [exact G1|]. eapply Forall_impl; [|exact A10]. intros x Hx. exists (page st x). apply page_page; cbn in Hx; lia. }
    split; [unfold zlen; lia|]. split; [exact A8|]. split; [exact A9|]. split; [exact A10|]. split.
    { apply Forall_forall. intros x Hx. apply In_nth_error in Hx. destruct Hx as [k Hk]. destruct (Hstk k x Hk) as [[_ ->]|[_ Hk']]; [exact Hv|]. rewrite Forall_forall in A11. apply A11. eapply nth_error_In; eauto. }
    split; [rewrite sub_splice_other; [exact A12|rewrite le_bytes_length; lia|lia]|]. split; [apply num_at_splice; lia|].
    split; [apply array_other; [exact A14|rewrite le_bytes_length; lia|right; rewrite le_bytes_length; lia]|].
    intros k x Hk. rewrite Efl2. assert (k < length stk')%nat by (apply nth_error_Some; congruence).
    destruct (Hstk k x Hk) as [[-> ->]|[Hne Hk']]; [rewrite Nat.add_0_l; apply num_at_splice; [nia|exact Hv]|].
    apply num_at_other; [now apply A15|rewrite le_bytes_length; nia|rewrite le_bytes_length; lia].
  - split; [|split; [exact Z2|split; [|apply Hp1; lia]]].
    + intros m Hm Hin. unfold st2. rewrite upd_page by lia. destruct (Z.eqb_spec m b) as [->|]; [exfalso; apply Hin; eapply nth_error_In; eauto|]. apply Hp1. lia.
    + unfold st2. rewrite upd_page by lia. destruct (Z.eqb_spec 0 b); [lia|]. unfold st1. rewrite upd_page by lia. reflexivity.
Qed.

Lemma push_ok st fl fb stk v : good ps st -> free_list ps st fl fb stk -> 0 <= v < 2^32 -> zlen stk < 1024 * zlen fb ->
  exists st' fl', push_free slack cached P st fl v = Ok (st', fl') /\ good ps st' /\ free_list ps st' fl' fb (stk ++ [v]) /\ only st st' fb /\ zlen st' = zlen st.
Proof.
  pose proof k1_Z as HK.   intros Hg Hf Hv Hcap. pose proof Hf as (A1 & A2 & A3 & A4 & A5 & A6 & A7 & A8 & A9 & A10 & A11 & A12 & A13 & A14 & A15). pose proof Hg as (G1 & G2 & G3 & G4).
  assert (Hi : (length stk < k1 * length fb)%nat) by (unfold zlen in Hcap; lia).
  assert (H32 : zlen (stk ++ [v]) < 2^32) by (rewrite zlen_app; change (zlen [v]) with 1; unfold zlen in *; lia).
  assert (Ej : o_len fl / 1024 = Z.of_nat (length stk / k1)) by (rewrite A4; apply k1_div).
  assert (Ei : o_len fl mod 1024 = Z.of_nat (length stk mod k1)) by (rewrite A4; apply k1_mod).
  set (fl' := set_len_field fl (u32 (o_len fl + 1)) (if o_num fl <=? o_len fl / 1024 then o_len fl / 1024 + 1 else o_num fl)).
  assert (El : u32 (o_len fl + 1) = zlen (stk ++ [v])). { rewrite A4, zlen_app. change (zlen [v]) with 1. unfold u32. apply Z.mod_small. rewrite zlen_app in H32. change (zlen [v]) with 1 in H32. unfold zlen in *. lia. }
  destruct (spot_write st fl fb stk (stk ++ [v]) (length stk) v Hg Hf Hv Hi H32) with (fl' := fl') as (b & Eb & Hb & S1 & S2 & S3 & S4 & S5 & S6 & S7).
  { intros k x Hk. destruct (Nat.eq_dec k (length stk)) as [->|Hne]; [left; rewrite nth_error_app2, Nat.sub_diag in Hk by lia; cbn in Hk; split; congruence|right].
    split; [exact Hne|]. assert (k < length (stk ++ [v]))%nat by (apply nth_error_Some; congruence). rewrite app_length in H. cbn in H. now rewrite nth_error_app1 in Hk by lia. }
  { rewrite app_length. cbn. lia. }
  all: try reflexivity. { exact El. }
  exists (upd (upd st 1 (splice (page st 1) 8 (le_bytes 4 (u32 (zlen (stk ++ [v])))))) b (splice (page (upd st 1 (splice (page st 1) 8 (le_bytes 4 (u32 (zlen (stk ++ [v])))))) b) (4 * (length stk mod k1)) (le_bytes 4 (u32 v)))), fl'.
  split; [|split; [exact S2|]; split; [exact S3|]; split; assumption].
  unfold push_free. rewrite A3. change (1 =? 1) with true. cbn [negb]. rewrite Ej, Ei, A5.
  assert (Hj : (length stk / k1 < length fb)%nat) by (apply nth_error_Some; congruence).
  destruct (Z.ltb_spec (Z.of_nat (length stk / k1)) (zlen fb)); [|unfold zlen in *; lia]. rewrite El. unfold poke32. change 8 with (Z.of_nat 8).
  rewrite poke_ok; [|exact Hg|lia|rewrite le_bytes_length; lia]. cbn [rbind]. rewrite A6. rewrite (rd_ok _ _ b); [|lia|now rewrite Nat2Z.id]. cbn [rbind].
  replace (4 * Z.of_nat (length stk mod k1)) with (Z.of_nat (4 * (length stk mod k1))) by lia. assert (Hub : (length stk mod k1 < k1)%nat) by (apply Nat.mod_upper_bound, k1_pos).
  rewrite poke_ok; [|exact S1|rewrite upd_len; lia|rewrite le_bytes_length; lia]. cbn [rbind]. unfold fl'. now rewrite Ej, El.
Qed.

Lemma pop_some st fl fb stk v : good ps st -> free_list ps st fl fb (stk ++ [v]) ->
  exists st' fl', pop_free cached P st fl = Ok (st', fl', v) /\ good ps st' /\ free_list ps st' fl' fb stk /\ only st st' fb /\ zlen st' = zlen st.
Proof.
  pose proof k1_Z as HK.   intros Hg Hf. pose proof Hf as (A1 & A2 & A3 & A4 & A5 & A6 & A7 & A8 & A9 & A10 & A11 & A12 & A13 & A14 & A15). pose proof Hg as (G1 & G2 & G3 & G4).
  assert (El : o_len fl - 1 = zlen stk) by (rewrite A4, zlen_app; change (zlen [v]) with 1; lia).
  assert (Hi : (length stk < k1 * length fb)%nat) by (rewrite zlen_app in A7; change (zlen [v]) with 1 in A7; unfold zlen in A7; lia).
  assert (H32 : zlen stk < 2^32) by (unfold zlen in *; lia).
  assert (Hst0 : 0 <= zlen stk) by (unfold zlen; lia).
  set (fl' := set_len_field fl (o_len fl - 1) (o_num fl)).
  destruct (spot_write st fl fb (stk ++ [v]) stk (length stk) 0 Hg Hf ltac:(lia) Hi H32) with (fl' := fl') as (b & Eb & Hb & S1 & S2 & S3 & S4 & S5 & S6 & S7).
  { intros k x Hk. right. assert (k < length stk)%nat by (apply nth_error_Some; congruence). split; [lia|]. now rewrite nth_error_app1 by lia. }
  { lia. }
  all: try reflexivity. { exact El. }
  destruct (fb_spot st fb (length stk) Hg A10 A1 Hi) as (b' & Eb' & _ & Hspot). assert (b' = b) by congruence. subst b'. clear Eb'.
  assert (Hv : num_at (page st b) (4 * (length stk mod k1)) v). { apply Hspot. apply (A15 (length stk) v). now rewrite nth_error_app2, Nat.sub_diag by lia. }
  assert (Hub : (length stk mod k1 < k1)%nat) by (apply Nat.mod_upper_bound, k1_pos).
  assert (Ej : zlen stk / 1024 = Z.of_nat (length stk / k1)) by (apply k1_div).
  assert (Ei : zlen stk mod 1024 = Z.of_nat (length stk mod k1)) by (apply k1_mod).
  set (st1 := upd st 1 (splice (page st 1) 8 (le_bytes 4 (u32 (zlen stk))))) in *.
  set (st2 := upd st1 b (splice (page st1 b) (4 * (length stk mod k1)) (le_bytes 4 (u32 0)))) in *.
  exists st2, fl'. split; [|split; [exact S2|]; split; [exact S3|]; split; assumption].
  unfold pop_free. rewrite A3. change (1 =? 1) with true. cbn [negb]. destruct (Z.eqb_spec (o_len fl) 0); [lia|]. cbn [negb]. rewrite El, Ej, Ei, A6.
  rewrite (rd_ok _ _ b); [|lia|now rewrite Nat2Z.id]. cbn [rbind]. rewrite get_page_page by lia. cbn [rbind].
  unfold entry. replace (0 + 4 * Z.of_nat (length stk mod k1)) with (Z.of_nat (4 * (length stk mod k1))) by lia. rewrite (u32at_ok _ _ v Hv). cbn [rbind].
  replace (4 * Z.of_nat (length stk mod k1)) with (Z.of_nat (4 * (length stk mod k1))) by lia. unfold poke32.
  rewrite poke_ok; [|exact Hg|lia|rewrite le_bytes_length; lia]. cbn [rbind]. change 8 with (Z.of_nat 8).
  set (w := splice (page st b) _ _). rewrite poke_ok; [|apply poke_good; [exact Hg|lia|rewrite le_bytes_length; lia|apply le_bytes_ok]|rewrite upd_len; lia|rewrite le_bytes_length; lia]. cbn [rbind].
  assert (Est : upd (upd st b w) 1 (splice (page (upd st b w) 1) 8 (le_bytes 4 (u32 (zlen stk)))) = st2).
  { rewrite upd_page by lia. destruct (Z.eqb_spec 1 b); [lia|]. apply nth_error_ext. intros k. unfold st2. rewrite S7. fold w. unfold st1, upd.
    assert (length (splice st (Z.to_nat b) [w]) = length st) by (apply splice_length; unfold zlen in Hb; cbn; lia).
    assert (length (splice st (Z.to_nat 1) [splice (page st 1) 8 (le_bytes 4 (u32 (zlen stk)))]) = length st) by (apply splice_length; unfold zlen in G4; cbn; lia).
    rewrite !page_splice by (unfold zlen in *; lia). destruct (Nat.eqb_spec k (Z.to_nat 1)), (Nat.eqb_spec k (Z.to_nat b)); try reflexivity; lia. }
  rewrite Est. unfold fl'. now rewrite El.
Qed.

Lemma pop_none st fl fb : good ps st -> free_list ps st fl fb [] -> zlen st + 1 < 2^32 ->
  exists st', pop_free cached P st fl = Ok (st', fl, zlen st) /\ good ps st' /\ free_list ps st' fl fb [] /\ only st st' fb /\ zlen st' = zlen st + 1.
Proof.
  pose proof k1_Z as HK.   intros Hg Hf H32. pose proof Hf as (A1 & A2 & A3 & A4 & A5 & A6 & A7 & A8 & A9 & A10 & A11 & A12 & A13 & A14 & A15). pose proof Hg as (G1 & G2 & G3 & G4).
  destruct (append_ok st [] Hg H32 ltac:(cbn; lia) ltac:(constructor)) as (st' & E & Hg' & Hl & Hp & Hq). exists st'.
  unfold pop_free, touch. rewrite A3, A4. cbn [negb Z.eqb zlen length Z.of_nat]. change (1 =? 1) with true. cbn [negb]. fold P. rewrite E. cbn [rbind].
  split; [reflexivity|]. split; [exact Hg'|]. split.
  - unfold free_list. rewrite Hl, (Hp 1) by lia. repeat (split; [assumption|]). split.
    { eapply Forall_impl; [|exact A10]. intros x Hx. cbn in *. lia. }
    repeat (split; [assumption|]). intros k x Hk. destruct k; discriminate.
  - split; [intros m Hm _; apply Hp; lia|exact Hl].
Qed.
End Pg.
