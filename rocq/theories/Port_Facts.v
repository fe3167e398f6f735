(** Exporting a table from one file and importing it into a table of another. *)
From Verif Require Import Prelude Lists Obj_Model Obj_Spec Obj_Proofs Obj_Make Leaf_Proofs Alloc_Model Alloc_Spec Alloc_Proofs Alloc_Facts Port_Model Port_Spec Port_Proofs Port_Import Port_More.
From Verif Require Leaf_Walk.
Ltac Zify.zify_post_hook ::= idtac.
Local Opaque le_bytes.

Lemma nth_firstn {A} (l : list A) k j x : nth_error (firstn k l) j = Some x -> nth_error l j = Some x.
Proof. revert l j. induction k as [|k IH]; intros [|y l] [|j] H; cbn in *; try discriminate; [exact H|now apply IH]. Qed.
Lemma firstn_nth {A} (l : list A) k j : (j < k)%nat -> nth_error (firstn k l) j = nth_error l j.
Proof. revert l j. induction k as [|k IH]; intros [|y l] [|j] H; cbn; try reflexivity; [lia|lia|apply IH; lia]. Qed.
Lemma news_len st ss ts : length ss = length ts -> length (news_of st ss ts) = length ss.
Proof. intros H. unfold news_of. rewrite map_length, combine_length. lia. Qed.
Lemma slots_len ps st ss ts : slots_ok ps st ss ts -> length ss = length ts.
Proof. induction 1; cbn; lia. Qed.
Lemma news_at st ss ts j s t : nth_error ss j = Some s -> nth_error ts j = Some t -> nth_error (news_of st ss ts) j = Some (match s, t with Some o, Some t => Some (bytes_of st t, version_of o) | _, _ => None end).
Proof.
  revert ts j. induction ss as [|a ss IH]; intros [|b ts] [|j] H1 H2; cbn in *; try discriminate; [|now apply IH].
  injection H1 as ->. injection H2 as ->. now destruct s, t.
Qed.
Lemma slot_at ps st ss ts j s t : slots_ok ps st ss ts -> nth_error ss j = Some s -> nth_error ts j = Some t -> slot_ok ps st s t.
Proof. intros H. revert j. induction H as [|a b l l' H1 H2 IH]; intros [|j] A B; cbn in *; try discriminate; [injection A as ->; injection B as ->; exact H1|now apply (IH j)]. Qed.

(** the length of an object of the newer format after [v] was written at byte 12 *)
Lemma high_half L : 0 <= L < 2^64 -> le_val (sub (le_bytes 8 L) 4 4) = L / 2^32.
Proof.
  intros HL. pose proof (sub_app_split (le_bytes 8 L) 0 4 4) as E. cbn [Nat.add] in E. assert (Ea : sub (le_bytes 8 L) 0 8 = le_bytes 8 L) by (unfold sub; cbn [skipn]; apply firstn_all2; rewrite le_bytes_length; lia).
  rewrite Ea in E. apply (f_equal le_val) in E. rewrite le_val_app, le_val_bytes_small in E by (change (256 ^ Z.of_nat 8) with (2^64); lia).
  assert (L4 : zlen (sub (le_bytes 8 L) 0 4) = 4) by (unfold zlen; rewrite sub_length; [reflexivity|rewrite le_bytes_length; lia]). rewrite L4 in E. change (256 ^ 4) with (2^32) in E.
  pose proof (le_val_bound (sub (le_bytes 8 L) 0 4) (bytes_ok_sub _ _ _ (le_bytes_ok 8 L))) as R. rewrite L4 in R.
  apply (Z.div_unique L (2^32) _ (le_val (sub (le_bytes 8 L) 0 4))); [left|lia]. revert R. change (256 ^ 4) with (2^32). lia.
Qed.
Lemma head_len ps st t v1 v2 o : head_after st t (le_bytes 4 (u32 v1) ++ le_bytes 4 (u32 v2)) -> (t_f t = F838_flat \/ t_f t = F838_deep) -> t_n t <> 1 -> Z.of_nat (t_len t) < 2^64 ->
  obj_open ps true st (t_n t) = Ok o -> o_len o = u32 v2 + 2^32 * (Z.of_nat (t_len t) / 2^32).
Proof.
  intros [H1 H2] Hf Hn Hlt H. unfold obj_open in H. destruct (get_page st (t_n t)) as [p| | |] eqn:Ep; try discriminate. cbn [rbind] in H.
  destruct (Z.eqb_spec (t_n t) 1); [congruence|]. destruct (rdn p 0 2) as [sg| | |]; try discriminate. cbn [rbind] in H. destruct (negb (bytes_eqb sg [28; 253])); try discriminate.
  destruct (rdn p 16 8) as [lb| | |] eqn:El; try discriminate. cbn [rbind] in H. destruct (rdn p 2 2) as [fb| | |]; try discriminate. cbn [rbind] in H.
  assert (Elen : o_len o = le_val lb).
  { destruct ((i16 (le_val fb) =? 0) && (u32 (u32 (ps / 4 - 6) * ps) <? le_val lb)); try discriminate. destruct (u32at p 4); try discriminate. cbn [rbind] in H. destruct (u32at p 8); try discriminate. cbn [rbind] in H.
    match type of H with context [entries p 24 ?k] => destruct (entries p 24 k); try discriminate end. cbn [rbind] in H. injection H as <-. reflexivity. }
  rewrite Elen. assert (Epg : page st (t_n t) = p) by (unfold get_page in Ep; destruct (t_n t <? 0); [discriminate|]; destruct (nth_error st (Z.to_nat (t_n t))) eqn:En; [|discriminate]; injection Ep as ->; now apply nth_error_nth_Z).
  rewrite Epg in H1, H2. apply Leaf_Walk.rdn_some in El. destruct El as (_ & _ & Lp & ->). change (Z.to_nat 16) with 16%nat. change (Z.to_nat 8) with 8%nat.
  pose proof (sub_app_split p 16 4 4) as Es. cbn [Nat.add] in Es. rewrite <- Es. clear Es.
  assert (E16 : sub p 16 4 = le_bytes 4 (u32 v2)). { apply (f_equal (fun l => sub l 4 4)) in H1. rewrite sub_sub in H1 by lia. change (12 + 4)%nat with 16%nat in H1. rewrite H1. rewrite sub_app_r by (rewrite le_bytes_length; lia). rewrite le_bytes_length. unfold sub. cbn [Nat.sub skipn]. apply firstn_all2. rewrite le_bytes_length. lia. }
  rewrite E16, le_val_app. unfold zlen. rewrite le_bytes_length. change (256 ^ Z.of_nat 4) with (2^32).
  assert (E20 : sub p 20 4 = sub (le_bytes 8 (Z.of_nat (t_len t))) 4 4) by (destruct Hf as [Hf|Hf]; rewrite Hf in H2; apply H2). rewrite E20, high_half by lia.
  rewrite le_val_bytes_small; [reflexivity|]. change (256 ^ Z.of_nat 4) with (2^32). unfold u32. apply Z.mod_pos_bound. lia.
Qed.

(** ** the whole of it *)
Section Whole.
Variable slack : Z.
Variable cached : Z -> bool.
Variable psA psB : nat.
Variable v838 : bool.
Variable can : nat -> bool.
Variable junk buf junk2 : list Z.
Variable stA stB : store.
Variable fs : list (option obj).
Variable ts : list (option thing).
Variable p : place_of.
Variable fl : obj.
Variable slots : list (option obj).
Variable us : list (option thing).
Variable descr : option obj.
Hypothesis Hcan : forall i, can i = true.
Hypothesis HA : slots_ok psA stA fs ts.
Hypothesis L4 : length fs = 4%nat.
Hypothesis Hp : p <> NotDir.
Hypothesis HB : slots_ok psB stB slots us.
Hypothesis L3 : length slots = 3%nat.
Hypothesis Hnd : NoDup (all_pages us).
Hypothesis Hg : good psB stB.

Notation there := (there stA).
Lemma setup : exists d root, export_table true can (Z.of_nat psA) junk buf stA fs p = Ok (Dir d) /\ d 0%nat = Some root /\ read_root junk2 root = root /\
  gives root d 1 (firstn 3 (news_of stA fs ts)) /\ length (firstn 3 (news_of stA fs ts)) = length slots /\
  (forall j s t, (j < 3)%nat -> nth_error fs j = Some s -> nth_error ts j = Some t -> nth_error (firstn 3 (news_of stA fs ts)) j = Some (there s t)) /\
  (forall j x, nth_error (firstn 3 (news_of stA fs ts)) j = Some x -> exists s t, nth_error fs j = Some s /\ nth_error ts j = Some t /\ x = there s t).
Proof.
  destruct (export_ok psA can junk buf stA fs ts p Hcan HA L4 Hp) as (d & E & Hex & _). pose proof Hex as [(root & Er & _) _].
  destruct (exported_gives psA stA fs ts d root 3 HA Hex Er) as [L36 Hgv]. exists d, root. split; [exact E|]. split; [exact Er|]. split; [now apply read_root_36|]. split; [exact Hgv|].
  split; [rewrite firstn_length, news_len by (eapply slots_len; exact HA); rewrite L4, L3; reflexivity|]. split.
  - intros j s t Hj Hs Ht. rewrite firstn_nth by exact Hj. now apply news_at.
  - intros j x Hx. apply nth_firstn in Hx. now apply news_nth.
Qed.

Lemma round_trip : Forall older us -> (forall j t u, nth_error ts j = Some t -> nth_error us j = Some u -> fits psB (option_map (bytes_of stA) t) u) ->
  exists d st' slots', export_table true can (Z.of_nat psA) junk buf stA fs p = Ok (Dir d) /\
    import_table slack cached (Z.of_nat psB) v838 false junk2 stB fl slots descr (Dir d) = Ok (st', fl, slots', descr) /\ length slots' = 3%nat /\
    (forall j o s t u, nth_error slots' j = Some o -> nth_error fs j = Some s -> nth_error ts j = Some t -> nth_error us j = Some u -> restored psB stB st' o (there s t) u) /\
    good psB st' /\ zlen st' = zlen stB /\ (forall m, 0 <= m -> ~ In m (all_pages us) -> page st' m = page stB m).
Proof.
  intros Hold Hfit. destruct setup as (d & root & E & Er & Erd & Hgv & HL & Hat & Hback).
  destruct (import_files_ok slack cached psB v838 root d slots us _ 1 stB fl (le_n _) Hgv HL HB) as (st' & slots' & E2 & G & Z0 & L & R & F); [| |exact Hnd|exact Hg|].
  - eapply Forall_impl; [|exact Hold]. intros u Hu x ->. exact Hu.
  - intros j new u Hn Hu. destruct (Hback j new Hn) as (s & t & Hs & Ht & ->). specialize (Hfit j t u Ht Hu). pose proof (slot_at _ _ _ _ _ _ _ HA Hs Ht) as Hst. destruct s, t; cbn in Hst; try contradiction; exact Hfit.
  - exists d, st', slots'. split; [exact E|]. split; [unfold import_table, in_file; rewrite Er, Erd, E2; reflexivity|]. split; [lia|]. split; [|auto].
    intros j o s t u Ho Hs Ht Hu. apply (R j o _ u Ho); [|exact Hu]. apply Hat; [|exact Hs|exact Ht]. rewrite <- L3, <- L. apply nth_error_Some. congruence.
Qed.

Lemma newer_bad : (forall j t u, nth_error ts j = Some t -> nth_error us j = Some u -> same_size (option_map (bytes_of stA) t) u) ->
  exists d st' slots', export_table true can (Z.of_nat psA) junk buf stA fs p = Ok (Dir d) /\
    import_table slack cached (Z.of_nat psB) v838 false junk2 stB fl slots descr (Dir d) = Ok (st', fl, slots', descr) /\
    (forall j o t u o', nth_error fs j = Some (Some o) -> nth_error ts j = Some (Some t) -> nth_error us j = Some (Some u) -> (t_f u = F838_flat \/ t_f u = F838_deep) -> t_n u <> 1 -> Z.of_nat (t_len u) < 2^64 ->
      obj_open (Z.of_nat psB) true st' (t_n u) = Ok o' -> o_len o' = u32 (o_v2 o) + 2^32 * (Z.of_nat (t_len u) / 2^32)).
Proof.
  intros Hfit. destruct setup as (d & root & E & Er & Erd & Hgv & HL & Hat & Hback).
  destruct (import_any slack cached psB v838 root d slots us _ 1 stB fl (le_n _) Hgv HL HB) as (st' & slots' & E2 & G & Z0 & L & R & F); [|exact Hnd|exact Hg|].
  - intros j new u Hn Hu. destruct (Hback j new Hn) as (s & t & Hs & Ht & ->). specialize (Hfit j t u Ht Hu). pose proof (slot_at _ _ _ _ _ _ _ HA Hs Ht) as Hst. destruct s, t; cbn in Hst; try contradiction; exact Hfit.
  - exists d, st', slots'. split; [exact E|]. split; [unfold import_table, in_file; rewrite Er, Erd, E2; reflexivity|]. intros j o t u o' Ho Ht Hu Hf Hn Hlt Hop.
    apply (head_len (Z.of_nat psB) st' u (o_v1 o) (o_v2 o) o'); [|exact Hf|exact Hn|exact Hlt|exact Hop].
    apply (R j (bytes_of stA t) (version_of o) u); [|exact Hu]. refine (Hat j (Some o) (Some t) _ Ho Ht). rewrite <- L3. rewrite (slots_len _ _ _ _ HB). apply nth_error_Some. congruence.
Qed.
End Whole.

Lemma misfit_bad cached psA psB can junk buf junk2 stA stB fs ts p fl slots us descr fb stk : (forall i, can i = true) -> slots_ok psA stA fs ts -> length fs = 4%nat -> p <> NotDir ->
  slots_ok psB stB slots us -> length slots = 3%nat -> NoDup (all_pages us) -> good psB stB -> Forall older us -> free_list psB stB fl fb stk -> apart stB fb stk (all_pages us) -> zlen stB + 1 < 2^32 ->
  (forall j t, nth_error ts j = Some (Some t) -> (j < 3)%nat -> Z.of_nat (t_len t) < 2^32 /\ (0 < t_len t)%nat) ->
  (exists j t u, nth_error ts j = Some (Some t) /\ nth_error us j = Some u /\ match u with Some u => t_len u <> t_len t | None => True end) ->
  exists d, export_table true can (Z.of_nat psA) junk buf stA fs p = Ok (Dir d) /\
    forall r, import_table 0 cached (Z.of_nat psB) false false junk2 stB fl slots descr (Dir d) <> Ok r.
Proof.
  intros Hcan HA L4 Hp HB L3 Hnd Hg Hold Hfl Hap H32 Hsz (j & t & u & Ht & Hu & Hbad). destruct (setup psA can junk buf junk2 stA fs ts p slots Hcan HA L4 Hp L3) as (d & root & E & Er & Erd & Hgv & HL & Hat & Hback).
  assert (Hj : (j < 3)%nat) by (rewrite <- L3, (slots_len _ _ _ _ HB); apply nth_error_Some; congruence).
  assert (Hlen : forall k x, nth_error ts k = Some (Some x) -> length (bytes_of stA x) = t_len x).
  { intros k x Hk. destruct (nth_error fs k) as [s|] eqn:Es; [|apply nth_error_None in Es; rewrite (slots_len _ _ _ _ HA) in Es; apply nth_error_None in Es; congruence].
    pose proof (slot_at _ _ _ _ _ _ _ HA Es Hk) as Hst. destruct s as [s|]; [|contradiction]. destruct Hst as (Hst & _). eapply content_len. exact Hst. }
  assert (Hb3 : forall k b v, nth_error (firstn 3 (news_of stA fs ts)) k = Some (Some (b, v)) -> (k < 3)%nat /\ exists x, nth_error ts k = Some (Some x) /\ b = bytes_of stA x).
  { intros k b v Hk. split; [rewrite <- L3, <- HL; apply nth_error_Some; congruence|]. destruct (Hback k _ Hk) as (s & x & _ & Hx & Ex). destruct s, x as [x|]; try discriminate. exists x. split; [exact Hx|]. cbn in Ex. congruence. }
  exists d. split; [exact E|]. intros r H. unfold import_table, in_file in H. rewrite Er, Erd in H. destruct (import_files 0 cached (Z.of_nat psB) false false root d 1 stB fl slots) as [y| | |] eqn:Ey; try discriminate.
  refine (import_misfit cached psB root d slots us _ 1 stB fl fb stk (le_n _) Hgv HL HB Hold Hnd Hg Hfl Hap H32 _ _ _ y Ey).
  - destruct (nth_error fs j) as [s|] eqn:Es; [|apply nth_error_None in Es; lia]. pose proof (slot_at _ _ _ _ _ _ _ HA Es Ht) as Hst. destruct s as [s|]; [|contradiction].
    exists j, (Some (bytes_of stA t, version_of s)), u. split; [exact (Hat j _ _ Hj Es Ht)|]. split; [exact Hu|]. destruct (Hsz j t Ht Hj). destruct u as [u|]; cbn [misfit option_map fst]; rewrite (Hlen j t Ht); [split; [congruence|assumption]|split; assumption].
  - intros k b v Hk. destruct (Hb3 k b v Hk) as (Hk3 & x & Hx & ->). rewrite (Hlen k x Hx). now apply (Hsz k x Hx).
  - intros k b v Hk _. destruct (Hb3 k b v Hk) as (Hk3 & x & Hx & ->). rewrite (Hlen k x Hx). now apply (Hsz k x Hx).
Qed.

(** a file that is missing is the same as an empty one *)
Lemma import_files_filled slack cached ps v838 ro root d slots : forall i st fl,
  import_files slack cached ps v838 ro root d i st fl slots = import_files slack cached ps v838 ro root (fun i => Some (match d i with Some b => b | None => [] end)) i st fl slots.
Proof.
  induction slots as [|s r IH]; intros i st fl; [reflexivity|]. cbn [import_files]. destruct (rd root _) as [f| | |]; [|reflexivity..]. cbn [rbind]. destruct (to_flag f) as [[|]| | |]; [| |reflexivity..]; cbn [rbind].
  - destruct (rdn root _ _) as [v| | |]; [|reflexivity..]. cbn [rbind].
    replace (import_one slack cached ps v838 ro st fl s (d i) v) with (import_one slack cached ps v838 ro st fl s (Some (match d i with Some b => b | None => [] end)) v) by (unfold import_one, in_file; destruct (d i); reflexivity).
    destruct (import_one _ _ _ _ _ _ _ _ _ _) as [[[[st1 fl1] o] made]| | |]; [|reflexivity..]. cbn [rbind]. rewrite IH. reflexivity.
  - rewrite IH. reflexivity.
Qed.
Lemma import_filled slack cached ps v838 ro junk st fl slots descr d :
  import_table slack cached ps v838 ro junk st fl slots descr (Dir d) = import_table slack cached ps v838 ro junk st fl slots descr (Dir (fun i => Some (match d i with Some b => b | None => [] end))).
Proof.
  unfold import_table. assert (E0 : in_file (d 0%nat) = in_file (Some (match d 0%nat with Some b => b | None => [] end))) by (unfold in_file; destruct (d 0%nat); reflexivity). rewrite <- E0.
  rewrite import_files_filled. destruct (import_files _ _ _ _ _ _ _ _ _ _ _) as [[[[st1 fl1] s1] [|]]| | |]; [|reflexivity..]. cbn [rbind]. unfold import_descr, in_file. destruct (d 4%nat); reflexivity.
Qed.
