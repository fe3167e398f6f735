(** Creating an object; files built by the operations themselves. *)
From Verif Require Import Prelude Lists Obj_Model Obj_Spec Obj_Proofs Obj_Write Obj_More Obj_Hist Obj_Make Alloc_Model Alloc_Spec Alloc_Proofs Alloc_More Alloc_Grow Alloc_Len.
Ltac Zify.zify_post_hook ::= idtac.

Lemma new_obj_ok cached ps st fl fb stk U : good ps st -> free_list ps st fl fb stk -> apart st fb stk U -> zlen st + 1 < 2^32 ->
  exists st' fl' o n stk', new_obj cached (Z.of_nat ps) false st fl = Ok (st', fl', o) /\ take (stk, zlen st) = ((stk', zlen st'), n) /\
    stored ps F80 st' n 0 [] [] /\ opened F80 o n 0 [] [] /\ good ps st' /\ free_list ps st' fl' fb stk' /\ apart st' fb stk' (n :: U) /\ (forall m, In m U -> page st' m = page st m).
Proof.
  intros Hg Hf [Hnd Hr] H32. assert (H4096 : Z.of_nat ps = 4096) by apply Hf. assert (Hps : (32 <= ps)%nat) by lia.
  destruct (pop_used ps Hps cached st fl fb stk U Hg Hf H32 Hnd Hr) as (st1 & fl1 & n & stk1 & E1 & T1 & G1 & F1 & N1 & R1 & Z1 & P1).
  assert (Rn : 1 < n < zlen st1) by (apply (in_forall _ _ n R1), in_or_app; right; now left).
  unfold new_obj. rewrite E1. cbn [rbind]. set (d := sig_obj ++ repeat 0 (Z.to_nat (Z.of_nat ps) - length sig_obj)).
  assert (Ld : length d = ps) by (unfold d; rewrite app_length, repeat_length; change (length sig_obj) with 8%nat; lia).
  assert (Bd : bytes_ok d) by (apply bytes_ok_app; split; [apply bytes_okb_spec; reflexivity|apply zeros_ok]).
  destruct (fresh_ok cached ps Hps st1 n d G1 ltac:(lia) ltac:(lia) Bd) as (q & E2 & Lq & Bq). rewrite E2. cbn [rbind].
  assert (Es : splice q 0 d = d) by (unfold splice; cbn [firstn app]; rewrite skipn_all2 by lia; apply app_nil_r). rewrite Es in *.
  set (st2 := upd st1 n d). assert (Z2 : zlen st2 = zlen st1) by (apply upd_len; lia).
  assert (G2 : good ps st2) by (apply upd_good; try assumption; lia).
  assert (P2 : forall m, 0 <= m -> m <> n -> page st2 m = page st1 m) by (intros m Hm Hne; unfold st2; rewrite upd_page by lia; destruct (Z.eqb_spec m n); [lia|reflexivity]).
  assert (Pn : page st2 n = d) by (unfold st2; rewrite upd_page, Z.eqb_refl by lia; reflexivity).
  assert (Hs : stored ps F80 st2 n 0 [] []).
  { pose proof G2 as (A & B & C & D). split; [exact A|]. split; [exact B|]. split; [exact Hps|]. split; [apply Nat2Z.inj; rewrite Nat2Z.inj_mod, H4096; reflexivity|]. split; [lia|].
    split; [symmetry; apply groups_0; lia|]. split; [constructor|]. exists d. split; [rewrite <- Pn; apply page_page; lia|].
    split; [exact H4096|]. split; [lia|]. split; [unfold d; rewrite sub_app_l by (cbn; lia); reflexivity|]. split.
    - split; [lia|]. unfold d. rewrite sub_app_r by (cbn; lia). change (8 - length sig_obj)%nat with 0%nat. destruct (Z.to_nat (Z.of_nat ps) - length sig_obj)%nat as [|[|[|[|k]]]] eqn:Ek; try (change (length sig_obj) with 8%nat in Ek; lia). reflexivity.
    - split; [cbn; lia|]. split; [apply array_nil|]. split; [reflexivity|]. intros [|j] t Ht; discriminate. }
  destruct (open_ok _ _ _ _ _ _ _ Hs) as (o & Eo & Ho). cbn [is838] in Eo. rewrite Eo. cbn [rbind].
  exists st2, fl1, o, n, stk1. split; [reflexivity|]. split; [rewrite Z2; exact T1|]. split; [exact Hs|]. split; [exact Ho|]. split; [exact G2|].
  split. { eapply free_frame; [exact F1|apply P2; lia| |lia]. intros b Hb. pose proof F1 as (_ & _ & _ & _ & _ & _ & _ & _ & _ & A10 & _). pose proof (in_forall _ _ b A10 Hb) as Rb. cbn in Rb. apply P2; [lia|]. intros ->. eapply (disjoint_in fb); [exact N1|exact Hb|]. apply in_or_app; right; now left. }
  split; [split; [exact N1|rewrite Z2; exact R1]|]. intros m Hm. rewrite P2; [now apply P1| |].
  - assert (1 < m < zlen st1) by (apply (in_forall _ _ m R1), in_or_app; right; now right). lia.
  - intros ->. assert (Hx : NoDup (n :: U)) by (clear - N1; induction fb; [induction stk1; [exact N1|apply IHstk1; now inversion N1]|apply IHfb; now inversion N1]). now inversion Hx.
Qed.

(** a file with a list of [m] pages for free pages, none free *)
Definition base_head (m : nat) : list Z := sig_obj ++ repeat 0 16 ++ enc (zseq 2 m ++ [0]).
Definition base (ps m : nat) : store := repeat 0 ps :: pad ps (base_head m) :: repeat (repeat 0 ps) m.
Definition base_free (m : nat) : obj := mko Free80 0 0 0 (Z.of_nat m) (zseq 2 m) 1 None 0 0 false.
Lemma base_ok ps m : Z.of_nat ps = 4096 -> Z.of_nat m < 1018 -> good ps (base ps m) /\ free_list ps (base ps m) (base_free m) (zseq 2 m) [] /\ apart (base ps m) (zseq 2 m) [] [] /\ zlen (base ps m) = Z.of_nat m + 2.
Proof.
  intros Hps Hm. assert (Lh : (length (base_head m) <= ps)%nat) by (unfold base_head; rewrite !app_length, repeat_length, enc_len, app_length, zseq_len; change (length sig_obj) with 8%nat; cbn [length]; lia).
  assert (Bh : bytes_ok (base_head m)) by (unfold base_head; repeat (apply bytes_ok_app; split); [apply bytes_okb_spec; reflexivity|apply zeros_ok|apply enc_ok]).
  assert (Hz : zlen (base ps m) = Z.of_nat m + 2) by (unfold base; rewrite !zlen_cons; unfold zlen; rewrite repeat_length; lia).
  split; [|split; [|split; [|exact Hz]]].
  - split; [|split; [|lia]].
    + constructor; [apply repeat_length|]. constructor; [now apply pad_len|]. apply Forall_forall. intros p Hp. apply repeat_spec in Hp. subst p. apply repeat_length.
    + constructor; [apply zeros_ok|]. constructor; [now apply pad_ok|]. apply Forall_forall. intros p Hp. apply repeat_spec in Hp. subst p. apply zeros_ok.
  - assert (Hrange : Forall (fun b => 1 < b < zlen (base ps m)) (zseq 2 m)). { apply Forall_forall. intros b Hb. unfold zseq in Hb. apply in_map_iff in Hb. destruct Hb as (y & <- & Hy). apply in_seq in Hy. lia. }
    assert (Zs : zlen (zseq 2 m) = Z.of_nat m) by (unfold zlen; now rewrite zseq_len).
    unfold free_list. change (page (base ps m) 1) with (pad ps (base_head m)). unfold base_free. cbn [o_ty o_block o_len o_real o_blocks].
    split; [exact Hps|]. split; [reflexivity|]. split; [reflexivity|]. split; [reflexivity|]. split; [lia|]. split; [reflexivity|]. split; [change (zlen (@nil Z)) with 0; lia|]. split; [lia|].
    split; [apply zseq_nodup|]. split; [exact Hrange|]. split; [constructor|]. split; [reflexivity|]. split; [change (zlen (@nil Z)) with 0; split; [lia|reflexivity]|]. split; [|apply array_nil].
    unfold pad, base_head. rewrite <- !app_assoc. rewrite (app_assoc sig_obj). apply enc_array; [reflexivity|]. apply Forall_app. split; [|constructor; [lia|constructor]]. apply zseq_range. lia.
  - split; [rewrite app_nil_r; apply zseq_nodup|constructor].
Qed.

(** files with one object of any length up to 254 table pages: created, then grown *)
Lemma made ps m len : Z.of_nat ps = 4096 -> Z.of_nat m < 1018 -> Z.of_nat len < 2^32 -> (4 * ntab80 ps len <= 1018)%nat -> (0 < len)%nat ->
  exists st fl fb n tabs dp o, stored ps F80 st n len tabs dp /\ good ps st /\ free_list ps st fl fb [] /\ apart st fb [] (pages_of n tabs dp) /\ opened F80 (set_cached o None) n len tabs dp /\
    zlen fb = Z.of_nat m /\ n = Z.of_nat m + 2 /\ zlen st <= 2^21 + 2000.
Proof.
  intros Hps Hm Hl Hmax H0. destruct (base_ok ps m Hps Hm) as (G0 & F0 & A0 & Z0).
  destruct (new_obj_ok (fun _ => true) ps _ _ _ _ _ G0 F0 A0 ltac:(lia)) as (st1 & fl1 & o1 & n & stk1 & E1 & T1 & S1 & O1 & G1 & F1 & A1 & _).
  rewrite take_nil in T1. assert (Ez : zlen (base ps m) + 1 = zlen st1) by congruence. assert (En : zlen (base ps m) = n) by congruence. assert (Es : [] = stk1) by congruence. clear T1. subst n stk1.
  pose proof (groups_spec len ps ltac:(lia)) as Gs. assert (Hgl : Z.of_nat (groups len ps) <= 2^20) by nia.
  assert (O1' : opened F80 (set_cached o1 None) (zlen (base ps m)) 0 [] []) by (destruct O1 as (P1 & P2 & P3); split; [exact P1|]; split; [reflexivity|exact P3]).
  assert (Z1 : zlen st1 + 2 * Z.of_nat (groups len ps) < 2^32) by lia.
  destruct (grow_len_ok (fun _ => true) ps ltac:(lia) (3 * Z.of_nat (ntab80 ps len)) st1 fl1 _ _ _ 0 [] [] [] o1 len S1 G1 F1 A1 O1' H0 Hl Hmax (Z.le_refl _) Z1) as (st & fl & o & stk & new & tabs & dp & E2 & S2 & G2 & O2 & T2 & F2 & A2 & _).
  cbn [app] in *. rewrite app_nil_r in A2. assert (Hstk : stk = [] /\ zlen st = zlen st1 + Z.of_nat (length tabs + length dp)).
  { clear - T2. revert T2. generalize (length tabs + length dp)%nat as k. intros k. generalize (zlen st1) as N. revert new. induction k as [|k IH]; intros new N; cbn [takes]; [intros E; injection E; intros; split; [congruence|lia]|].
    rewrite take_nil. destruct (takes k ([], N + 1)) as [s2 r] eqn:E. intros H. injection H as H1 H2. specialize (IH r (N + 1)). rewrite E, H1 in IH. destruct (IH eq_refl) as [A B]. split; [exact A|lia]. }
  destruct Hstk as [-> Hz]. exists st, fl, (zseq 2 m), (zlen (base ps m)), tabs, dp, o. split; [exact S2|]. split; [exact G2|]. split; [exact F2|]. split; [exact A2|]. split.
  { destruct O2 as (P1 & P2 & P3). split; [exact P1|]. split; [reflexivity|exact P3]. }
  split; [unfold zlen; now rewrite zseq_len|]. split; [exact Z0|]. destruct S2 as (_ & _ & _ & _ & _ & Hdp & _ & h & _ & _ & _ & _ & _ & Ht & _). rewrite Hz, <- Ez, Z0, Hdp. lia.
Qed.
