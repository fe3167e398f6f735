(** The allocation lemmas in the shape of the properties, and worked examples. *)
From Coq Require Import Permutation.
From Verif Require Import Prelude Lists Obj_Model Obj_Spec Obj_Proofs Obj_Write Obj_More Obj_Hist Obj_Make Alloc_Model Alloc_Spec Alloc_Proofs Alloc_More Alloc_Grow Alloc_Len Alloc_Put Alloc_Whole Alloc_Del Alloc_Bad Alloc_New.
Ltac Zify.zify_post_hook ::= idtac.

(** ** no page is handed out twice *)
Lemma take_cases s : let '(s', k) := take s in (fst s = fst s' ++ [k] /\ snd s' = snd s) \/ (fst s = [] /\ fst s' = [] /\ k = snd s /\ snd s' = snd s + 1).
Proof.
  destruct s as [stk N]. unfold take. cbn [fst snd]. destruct (rev stk) as [|k r] eqn:E; apply (f_equal (@rev Z)) in E; rewrite rev_involutive in E; cbn in E; subst stk; cbn [fst snd]; auto.
Qed.
Lemma remove_perm U n : NoDup U -> In n U -> Permutation U (n :: remove Z.eq_dec n U).
Proof.
  induction U as [|x U IH]; intros Hnd Hin; [destruct Hin|]. inversion_clear Hnd as [|y l Hx Hl]. cbn [remove]. destruct (Z.eq_dec n x) as [->|Hne].
  - apply perm_skip. rewrite notin_remove by exact Hx. apply Permutation_refl.
  - destruct Hin as [->|Hin]; [congruence|]. rewrite perm_swap. apply perm_skip. now apply IH.
Qed.
Lemma no_double xs : forall s U, NoDup (fst s ++ U) -> Forall (fun b => b < snd s) (fst s ++ U) -> held s U xs -> new_only s U xs.
Proof.
  induction xs as [|[x c] xs IH]; intros s U Hnd Hr Hh; [exact I|]. cbn [held new_only] in *. destruct x as [n|].
  - destruct Hh as [Hin Hh]. apply IH; [| |exact Hh].
    + cbn [fst]. rewrite <- app_assoc. eapply Permutation_NoDup; [|exact Hnd]. apply Permutation_app_head. apply remove_perm; [|exact Hin]. clear - Hnd. induction (fst s); [exact Hnd|apply IHl; now inversion Hnd].
    + cbn [fst snd]. rewrite <- app_assoc. eapply Permutation_Forall; [|exact Hr]. apply Permutation_app_head. apply remove_perm; [|exact Hin]. clear - Hnd. induction (fst s); [exact Hnd|apply IHl; now inversion Hnd].
  - pose proof (take_cases s) as Ht. destruct (take s) as [s' k]. destruct Ht as [[E1 E2]|(E1 & E2 & E3 & E4)].
    + rewrite E1, <- app_assoc in *. cbn [app] in *. split.
      * intros C. apply NoDup_remove_2 in Hnd. apply Hnd, in_or_app. now right.
      * apply IH; [exact Hnd|rewrite E2; exact Hr|exact Hh].
    + rewrite E1 in *. cbn [app] in *. split.
      * intros C. pose proof (in_forall _ _ k Hr C) as Hx. cbn in Hx. lia.
      * apply IH; [| |exact Hh]; rewrite E2; cbn [app].
        -- constructor; [|exact Hnd]. intros C. pose proof (in_forall _ _ k Hr C) as Hx. cbn in Hx. lia.
        -- constructor; [lia|]. eapply Forall_impl; [|exact Hr]. intros b Hb. cbn in *. lia.
Qed.

(** the newer list: its first page number is overwritten by a count *)
Lemma push_newer slack cached ps st fl b rest v : good ps st -> (32 <= ps)%nat -> o_block fl = 1 -> o_len fl = 0 -> o_real fl = zlen (b :: rest) -> o_blocks fl = b :: rest -> 1 < b < zlen st ->
  exists st' fl', push_free slack cached (Z.of_nat ps) st fl v = Ok (st', fl') /\ num_at (page st' 1) 8 1.
Proof.
  intros Hg Hps Hb Hl Hr Hbl Rb. pose proof Hg as (G1 & G2 & G3 & G4). unfold push_free. rewrite Hb, Hl, Hr, Hbl. cbn [Z.eqb Pos.eqb negb]. rewrite zlen_cons. pose proof (zlen_nonneg rest).
  change (0 / 1024) with 0. change (0 mod 1024) with 0. destruct (Z.ltb_spec 0 (1 + zlen rest)); [|lia]. change (u32 (0 + 1)) with 1. unfold poke32. change (u32 1) with 1.
  change 8 with (Z.of_nat 8) at 1. rewrite (poke_ok cached ps Hps) by (try assumption; rewrite ?le_bytes_length; lia). cbn [rbind].
  set (st1 := upd st 1 (splice (page st 1) 8 (le_bytes 4 1))). change (rd (b :: rest) 0) with (Ok b). cbn [rbind]. change (4 * 0) with (Z.of_nat 0).
  destruct (good_page ps st 1 Hg ltac:(lia)) as [L1 B1].
  assert (Gd1 : good ps st1) by (apply upd_good; [exact Hg|lia|rewrite splice_length; [exact L1|rewrite le_bytes_length; lia]|apply bytes_ok_splice; [exact B1|apply le_bytes_ok]]).
  assert (Z1 : zlen st1 = zlen st) by (apply upd_len; lia).
  rewrite (poke_ok cached ps Hps) by (try assumption; rewrite ?le_bytes_length; lia). cbn [rbind]. eexists _, _. split; [reflexivity|].
  rewrite upd_page by lia. destruct (Z.eqb_spec 1 b); [lia|]. unfold st1. rewrite upd_page, Z.eqb_refl by lia. change 1 with (u32 1) at 2. apply num_at_splice; lia.
Qed.

(** ** cases *)
Definition p4096 : nat := Z.to_nat 4096.
Lemma p4096_Z : Z.of_nat p4096 = 4096. Proof. apply Z2Nat.id. lia. Qed.
(** one list page, pages 4 and 3 just released: built by the operations from an empty list *)
Definition ex_hist : list (fop * (Z -> bool)) := [(Take, fun _ => true); (Take, fun _ => false); (Give 4, fun _ => true); (Give 3, fun _ => true); (Take, fun _ => true); (Take, fun _ => false); (Take, fun _ => true)].
(** an older-format file with an object of [len] bytes and [m] pages for the list of free pages *)
Lemma made_4096 m len : Z.of_nat m < 1018 -> 0 < Z.of_nat len < 2^29 ->
  exists st fl fb n tabs dp o, stored p4096 F80 st n len tabs dp /\ good p4096 st /\ free_list p4096 st fl fb [] /\ apart st fb [] (pages_of n tabs dp) /\ opened F80 (set_cached o None) n len tabs dp /\
    zlen fb = Z.of_nat m /\ n = Z.of_nat m + 2 /\ zlen st <= 2^21 + 2000 /\ zlen dp = (Z.of_nat len + 4095) / 4096 /\ zlen tabs = ((Z.of_nat len + 4095) / 4096 + 1022) / 1023.
Proof.
  intros Hm Hl. pose proof p4096_Z as HZ. pose proof per80_Z as H8. pose proof (gz_groups len p4096 ltac:(lia)) as Eg. rewrite HZ in Eg. pose proof (gz_groups (groups len p4096) per80 per80_pos) as Et. rewrite H8, <- Eg in Et. unfold gz in *. change (4096 - 1) with 4095 in *. change (1023 - 1) with 1022 in *.
  assert (Hmax : (4 * ntab80 p4096 len <= 1018)%nat).
  { unfold ntab80. assert ((Z.of_nat len + 4095) / 4096 < 2^17 + 1) by (apply Z.div_lt_upper_bound; lia). set (a := (Z.of_nat len + 4095) / 4096) in *. assert ((a + 1022) / 1023 < 200) by (apply Z.div_lt_upper_bound; lia). lia. }
  destruct (made p4096 m len HZ Hm ltac:(lia) Hmax ltac:(lia)) as (st & fl & fb & n & tabs & dp & o & A1 & A2 & A3 & A4 & A5 & A6 & A7 & A8).
  exists st, fl, fb, n, tabs, dp, o. repeat (split; [assumption|]). pose proof A1 as (_ & _ & _ & _ & _ & Hdp & _ & h & _ & _ & _ & _ & _ & _ & _ & Htl & _).
  unfold zlen. rewrite Htl, Hdp. split; [lia|]. rewrite <- Et. reflexivity.
Qed.

(** a newer-format file: no free pages, an object of one level *)
Definition ex838 : store := [repeat 9 64; pad 64 [28; 255]; pad 64 ([28; 253; 0; 0] ++ repeat 0 12 ++ le_bytes 8 60 ++ enc [3]); repeat 7 64].
Lemma ex838_stored : stored 64 F838_flat ex838 2 60 [] [3] /\ good 64 ex838.
Proof.
  assert (A : Forall (fun p => length p = 64%nat) ex838) by (unfold ex838; repeat apply Forall_cons; try apply Forall_nil; reflexivity).
  assert (B : Forall bytes_ok ex838) by (apply Forall_cons; [|apply Forall_cons; [|apply Forall_cons; [|apply Forall_cons; [|apply Forall_nil]]]]; apply bytes_okb_spec; reflexivity).
  split; [|split; [exact A|split; [exact B|split; reflexivity]]].
  split; [exact A|]. split; [exact B|]. split; [lia|]. split; [reflexivity|]. split; [reflexivity|]. split; [reflexivity|].
  split; [constructor; [|constructor]; eexists; split; [split; lia|reflexivity]|]. eexists. split; [split; [split; lia|reflexivity]|]. split; [discriminate|]. split; [reflexivity|]. split; [reflexivity|].
  split; [cbn; lia|]. split; [|reflexivity]. intros [|[|i]] v H; try discriminate. injection H as <-. split; [lia|reflexivity].
Qed.
