(** Scanning: the iterators give the live records. *)
From Verif Require Import Prelude Lists Field_Model Rec_Model Rec_Spec.
From Verif Require Field_Keys Field_Proofs.
Ltac Zify.zify_post_hook ::= idtac.

Section Scan.
Variables (content : list Z) (reclen phys : Z).
Hypothesis Hlen : 0 < reclen.
Hypothesis Hphys : 0 <= phys.
Hypothesis Hfit : phys * reclen <= zlen content.
Hypothesis H32 : phys * reclen <= 2^32.

Lemma get_slot i : 0 <= i < phys -> get_record content reclen i = Ok (snd (slot content reclen (Z.to_nat i))).
Proof.
  intros Hi. assert (i * reclen + reclen <= phys * reclen) by nia. unfold get_record, u32. rewrite Z.mod_small by nia. rewrite rdn_ok by nia. unfold slot. cbn [snd]. do 2 f_equal. nia.
Qed.
Lemma slot_len i : 0 <= i < phys -> zlen (snd (slot content reclen (Z.to_nat i))) = reclen.
Proof.
  intros Hi. assert (i * reclen + reclen <= phys * reclen) by nia. unfold slot, zlen in *. cbn [snd]. rewrite sub_length; nia.
Qed.
Lemma removed_slot i : 0 <= i < phys -> is_removed (snd (slot content reclen (Z.to_nat i))) = Ok (negb (alive (slot content reclen (Z.to_nat i)))).
Proof.
  intros Hi. pose proof (slot_len i Hi) as L. unfold is_removed, alive. destruct (snd (slot content reclen (Z.to_nat i))) as [|b r]; [change (zlen (@nil Z)) with 0 in L; lia|].
  change (rd (b :: r) 0) with (Ok b). cbn [rbind]. destruct b; reflexivity.
Qed.
Definition live_from (n : nat) : list (Z * list Z) := filter alive (map (slot content reclen) (seq n (Z.to_nat phys - n))).
Lemma live_from_step n : (n < Z.to_nat phys)%nat -> live_from n = (if alive (slot content reclen n) then [slot content reclen n] else []) ++ live_from (S n).
Proof. intros H. unfold live_from. replace (Z.to_nat phys - n)%nat with (S (Z.to_nat phys - S n)) by lia. cbn [seq map filter]. destruct (alive _); reflexivity. Qed.
Lemma live_from_end n : (Z.to_nat phys <= n)%nat -> live_from n = [].
Proof. intros H. unfold live_from. replace (Z.to_nat phys - n)%nat with 0%nat by lia. reflexivity. Qed.
(** what find_first gives when it looks from [n] on *)
Definition points (it : iter) (l : list (Z * list Z)) : Prop :=
  match l with
  | [] => it_eof it = true /\ phys <= it_num it < 2^32
  | r :: l' => it_eof it = false /\ it_num it = fst r /\ it_buf it = snd r /\ 0 <= fst r < phys /\ l' = live_from (S (Z.to_nat (fst r)))
  end.
Lemma phys32 : phys <= 2^32. Proof using Hlen Hphys H32. nia. Qed.
Lemma find_points : forall fuel n b, (Z.to_nat phys - Z.to_nat n < fuel)%nat -> 0 <= n <= phys -> phys < 2^32 ->
  exists it, find_first fuel content reclen phys (It n false b) = Ok it /\ points it (live_from (Z.to_nat n)).
Proof.
  induction fuel as [|fuel IH]; intros n b Hf Hn Hp; [lia|]. cbn [find_first it_num it_eof]. destruct (Z.leb_spec phys n).
  - eexists. split; [reflexivity|]. rewrite live_from_end by lia. cbn [points it_eof it_num]. split; [reflexivity|lia].
  - rewrite get_slot by lia. cbn [rbind]. rewrite removed_slot by lia. cbn [rbind]. rewrite live_from_step by lia. destruct (alive (slot content reclen (Z.to_nat n))) eqn:E; cbn [negb].
    + eexists. split; [reflexivity|]. cbn [app points it_eof it_num it_buf]. assert (EF : fst (slot content reclen (Z.to_nat n)) = n) by (unfold slot; cbn [fst]; lia). rewrite EF. repeat apply conj; try reflexivity; lia.
    + cbn [app]. unfold u32. rewrite Z.mod_small by lia. replace (S (Z.to_nat n)) with (Z.to_nat (n + 1)) by lia. apply IH; lia.
Qed.
Lemma next_points fuel it l : (Z.to_nat phys < fuel)%nat -> phys < 2^32 - 1 -> points it l -> exists it', it_next fuel content reclen phys it = Ok it' /\
  match l with [] => it_eof it' = true | _ :: l' => points it' l' end.
Proof.
  intros Hf Hp H. destruct fuel as [|fuel]; [lia|]. destruct l as [|r l']; cbn [points] in H.
  - destruct H as [H1 H2]. unfold it_next. cbn [find_first it_num it_eof]. destruct (phys <=? _) eqn:E; [eexists; split; reflexivity|]. rewrite H1. eexists. split; [reflexivity|reflexivity].
  - destruct H as (H1 & H2 & H3 & H4 & ->). unfold it_next. rewrite H1, H2. unfold u32. rewrite Z.mod_small by lia. replace (S (Z.to_nat (fst r))) with (Z.to_nat (fst r + 1)) by lia. apply find_points; lia.
Qed.
Definition shows (it : iter) (r : option (Z * list Z)) : Prop :=
  match r with Some p => it_eof it = false /\ it_num it = fst p /\ it_buf it = snd p | None => it_eof it = true end.
Lemma run_eof fuel : (0 < fuel)%nat -> forall n it, it_eof it = true -> exists it', it_run n fuel content reclen phys it = Ok it' /\ it_eof it' = true.
Proof.
  intros Hf. induction n as [|n IH]; intros it H; [exists it; split; [reflexivity|exact H]|]. cbn [it_run]. destruct fuel as [|fuel]; [lia|]. unfold it_next. cbn [find_first it_num it_eof]. rewrite H. destruct (phys <=? _); cbn [rbind]; apply IH; reflexivity.
Qed.
Lemma run_points fuel : (Z.to_nat phys < fuel)%nat -> phys < 2^32 - 1 -> forall n it l, points it l -> exists it', it_run n fuel content reclen phys it = Ok it' /\ shows it' (nth_error l n).
Proof.
  intros Hf Hp. induction n as [|n IH]; intros it l H.
  - exists it. split; [reflexivity|]. destruct l as [|r l]; cbn [points nth_error shows] in *; [apply H|]. destruct H as (A & B & C & _). auto.
  - destruct (next_points fuel it l Hf Hp H) as (it' & E & P). cbn [it_run]. rewrite E. cbn [rbind]. destruct l as [|r l]; cbn [nth_error].
    + destruct (run_eof fuel ltac:(lia) n it' P) as (it2 & E2 & P2). exists it2. split; [exact E2|exact P2].
    + apply IH. exact P.
Qed.
Lemma scan_ok fuel junk k : (Z.to_nat phys < fuel)%nat -> phys < 2^32 - 1 ->
  exists it, (do it <- it_start fuel content reclen phys junk; it_run k fuel content reclen phys it) = Ok it /\ shows it (nth_error (live content reclen phys) k).
Proof.
  intros Hf Hp. unfold it_start. destruct (find_points fuel 0 junk ltac:(lia) ltac:(lia) ltac:(lia)) as (it & -> & P). cbn [rbind]. change (Z.to_nat 0) with 0%nat in P. unfold live_from in P. rewrite Nat.sub_0_r in P.
  apply (run_points fuel Hf Hp k it _ P).
Qed.
Lemma fill_ok : forall n i, 0 <= i -> i + Z.of_nat n = phys -> fill_index n i content reclen = Ok (map fst (live_from (Z.to_nat i))).
Proof.
  induction n as [|n IH]; intros i Hi He; [cbn [fill_index]; rewrite live_from_end by lia; reflexivity|]. cbn [fill_index]. rewrite get_slot by lia. cbn [rbind]. rewrite removed_slot by lia. cbn [rbind]. rewrite IH by lia. cbn [rbind].
  rewrite (live_from_step (Z.to_nat i)) by lia. replace (S (Z.to_nat i)) with (Z.to_nat (i + 1)) by lia. destruct (alive _); cbn [negb app map]; [|reflexivity]. unfold slot. cbn [fst]. now rewrite Z2Nat.id by lia.
Qed.
Lemma fill_all : fill_index (Z.to_nat phys) 0 content reclen = Ok (map fst (live content reclen phys)).
Proof. rewrite fill_ok by lia. unfold live_from, live. change (Z.to_nat 0) with 0%nat. now rewrite Nat.sub_0_r. Qed.

(** ** through an index *)
Variable idx : list Z.
Hypothesis Hidx : Forall (fun p => 0 <= p) idx.
Definition lb (l : list Z) := filter alive (map (fun p => slot content reclen (Z.to_nat p)) (known phys l)).
Definition ipoints (it : iter) (l : list (Z * list Z)) : Prop :=
  match l with
  | [] => it_eof it = true
  | r :: l' => it_eof it = false /\ it_buf it = snd r /\ 0 <= it_num it < zlen idx /\ l' = lb (skipn (S (Z.to_nat (it_num it))) idx)
  end.
Lemma ix_points : forall fuel n b, (length idx - Z.to_nat n < fuel)%nat -> 0 <= n <= zlen idx -> zlen idx < 2^32 ->
  exists it, ix_find fuel idx content reclen phys (It n false b) = Ok it /\ ipoints it (lb (skipn (Z.to_nat n) idx)).
Proof.
  induction fuel as [|fuel IH]; intros n b Hf Hn Hp; [lia|]. cbn [ix_find it_num it_eof]. destruct (Z.leb_spec (zlen idx) n).
  - eexists. split; [reflexivity|]. rewrite skipn_all2 by (unfold zlen in *; lia). reflexivity.
  - destruct (nth_error idx (Z.to_nat n)) as [p|] eqn:E; [|apply nth_error_None in E; unfold zlen in *; lia]. rewrite (rd_ok idx n p) by (auto; lia). cbn [rbind].
    assert (Es : skipn (Z.to_nat n) idx = p :: skipn (S (Z.to_nat n)) idx). { clear - E. revert E. generalize (Z.to_nat n). intros m. revert m. induction idx as [|x l IHl]; intros [|m] E; cbn [nth_error] in E; try discriminate; [injection E as ->; reflexivity|]. cbn [skipn]. apply IHl, E. }
    assert (Hp0 : 0 <= p) by (apply (proj1 (Forall_forall _ _) Hidx), (nth_error_In _ _ E)).
    rewrite Es. unfold lb. cbn [known]. destruct (Z.leb_spec phys p); destruct (Z.ltb_spec p phys); try lia.
    + eexists. split; [reflexivity|]. reflexivity.
    + rewrite get_slot by lia. cbn [rbind]. rewrite removed_slot by lia. cbn [rbind map filter]. destruct (alive (slot content reclen (Z.to_nat p))) eqn:A; cbn [negb].
      * eexists. split; [reflexivity|]. cbn [ipoints it_eof it_buf it_num]. repeat apply conj; try reflexivity; lia.
      * unfold u32. rewrite Z.mod_small by lia. replace (S (Z.to_nat n)) with (Z.to_nat (n + 1)) by lia. apply IH; unfold zlen in *; lia.
Qed.
Lemma ix_run_eof fuel : (0 < fuel)%nat -> forall n it, it_eof it = true -> exists it', ix_run n fuel idx content reclen phys it = Ok it' /\ it_eof it' = true.
Proof.
  intros Hf. induction n as [|n IH]; intros it H; [exists it; split; [reflexivity|exact H]|]. cbn [ix_run]. destruct fuel as [|fuel]; [lia|]. unfold ix_next. cbn [ix_find it_num it_eof]. destruct (Z.leb_spec (zlen idx) (u32 (it_num it + 1))) as [L|L].
  - cbn [rbind]. apply IH. reflexivity.
  - unfold u32 in *. pose proof (Z.mod_pos_bound (it_num it + 1) (2^32) ltac:(lia)) as B. destruct (nth_error idx (Z.to_nat ((it_num it + 1) mod 2^32))) as [p|] eqn:E; [|apply nth_error_None in E; unfold zlen in *; lia]. rewrite (rd_ok idx _ p) by (auto; lia). cbn [rbind].
    rewrite H. destruct (phys <=? p); cbn [rbind]; apply IH; reflexivity.
Qed.
Definition ishows (it : iter) (r : option (Z * list Z)) : Prop :=
  match r with Some p => it_eof it = false /\ it_buf it = snd p | None => it_eof it = true end.
Lemma ix_scan fuel junk k : (length idx < fuel)%nat -> zlen idx < 2^32 ->
  exists it, (do it <- ix_start fuel idx content reclen phys junk; ix_run k fuel idx content reclen phys it) = Ok it /\ ishows it (nth_error (live_by idx content reclen phys) k).
Proof.
  intros Hf Hp. unfold ix_start. destruct (ix_points fuel 0 junk ltac:(lia) ltac:(pose proof (zlen_nonneg idx); lia) Hp) as (it & -> & P). cbn [rbind]. change (Z.to_nat 0) with 0%nat in P. cbn [skipn] in P. unfold live_by. fold (lb idx).
  revert it P. generalize (lb idx). induction k as [|k IH]; intros l it P.
  - exists it. split; [reflexivity|]. destruct l as [|r l]; cbn [ipoints nth_error ishows] in *; [exact P|]. destruct P as (A & B & _). auto.
  - cbn [ix_run]. destruct l as [|r l]; cbn [ipoints nth_error] in *.
    + destruct (ix_run_eof fuel ltac:(lia) (S k) it P) as (it2 & E2 & P2). cbn [ix_run] in E2. exists it2. split; [exact E2|exact P2].
    + destruct P as (A & B & C & ->). unfold ix_next. rewrite A. unfold u32. rewrite Z.mod_small by lia. destruct (ix_points fuel (it_num it + 1) (it_buf it) ltac:(unfold zlen in *; lia) ltac:(lia) Hp) as (it2 & -> & P2). cbn [rbind].
      replace (Z.to_nat (it_num it + 1)) with (S (Z.to_nat (it_num it))) in P2 by lia. apply (IH _ _ P2).
Qed.
End Scan.

(** beyond 4 GiB records are read from elsewhere *)
Lemma record_alias content reclen m i : reclen * m = 2^32 -> get_record content reclen (i + m) = get_record content reclen i.
Proof. intros H. unfold get_record, u32. replace ((i + m) * reclen) with (i * reclen + 1 * 2^32) by nia. now rewrite Z_mod_plus_full. Qed.
Lemma record_wrap content reclen i : 0 <= i -> 0 < reclen -> 2^32 <= i * reclen -> exists o, get_record content reclen i = rdn content o reclen /\ o <= i * reclen - 2^32.
Proof.
  intros Hi Hr H. exists (u32 (i * reclen)). split; [reflexivity|]. unfold u32. pose proof (Z.div_mod (i * reclen) (2^32) ltac:(lia)) as E. assert (1 <= i * reclen / 2^32) by (apply Z.div_le_lower_bound; lia). lia.
Qed.

(** ** Blobs *)
Lemma start_bytes (rec : list Z) o s : 0 <= s < 2^32 -> rdn rec o 4 = Ok (le_bytes 4 s) -> le_val (le_bytes 4 s) = s.
Proof. intros H _. rewrite le_val_bytes_small by (cbn; lia). reflexivity. Qed.
Lemma deleted_wrong f rec s : f_null f = true -> 0 <= s < 2^32 -> Field_Keys.at_ rec (f_off f) (1 :: le_bytes 4 s) ->
  deleted_chunk f rec = Ok (Some (1 + 256 * (s mod 2^24))).
Proof.
  intros Hn Hs [Ho Hr]. unfold deleted_chunk. apply Field_Keys.rdn_some in Hr. destruct Hr as (_ & _ & H3 & H4). assert (HL : zlen (1 :: le_bytes 4 s) = 5) by reflexivity. rewrite HL in *.
  rewrite rdn_ok by lia. cbn [rbind].
  assert (E : sub rec (Z.to_nat (f_off f)) (Z.to_nat 4) = firstn 4 (1 :: le_bytes 4 s)).
  { rewrite H4. unfold sub. rewrite firstn_firstn. reflexivity. }
  rewrite E. unfold le_bytes. cbn [firstn le_val].
  assert (V : le_val [1; s mod 256; s / 256 mod 256; s / 256 / 256 mod 256] = 1 + 256 * (s mod 2^24)).
  { cbn [le_val]. rewrite (Z.div_div s 256 256) by lia. change (256 * 256) with 65536. 
    pose proof (Z.div_mod s 256 ltac:(lia)). pose proof (Z.div_mod (s / 256) 256 ltac:(lia)) as D2. rewrite Z.div_div in D2 by lia. change (256*256) with 65536 in D2.
    pose proof (Z.div_mod (s / 65536) 256 ltac:(lia)) as D3. rewrite Z.div_div in D3 by lia. change (65536*256) with (2^24) in D3. pose proof (Z.div_mod s (2^24) ltac:(lia)). lia. }
  cbn [le_val] in V. rewrite V. pose proof (Z.mod_pos_bound s (2^24) ltac:(lia)). destruct (Z.eqb_spec (1 + 256 * (s mod 2^24)) 0); [lia|reflexivity].
Qed.
Lemma fixed_point s : 0 <= s < 2^32 -> (1 + 256 * (s mod 2^24) = s <-> s = 16843009).
Proof.
  intros Hs. pose proof (Z.div_mod s (2^24) ltac:(lia)). pose proof (Z.mod_pos_bound s (2^24) ltac:(lia)). pose proof (Z.div_pos s (2^24) ltac:(lia) ltac:(lia)). assert (s / 2^24 < 256) by (apply Z.div_lt_upper_bound; lia).
  split; [lia|intros ->; reflexivity].
Qed.
Lemma deleted_plain f rec s : f_null f = false -> 0 < s < 2^32 -> Field_Keys.at_ rec (f_off f) (le_bytes 4 s) -> deleted_chunk f rec = Ok (Some s).
Proof.
  intros Hn Hs [Ho Hr]. unfold deleted_chunk. change (zlen (le_bytes 4 s)) with 4 in Hr. rewrite Hr. cbn [rbind]. rewrite le_val_bytes_small by (cbn; lia). destruct (Z.eqb_spec s 0); [lia|reflexivity].
Qed.
Lemma replaced_none f rec m : f_null f = true -> rd rec (f_off f) = Ok m -> replaced_chunk f rec = Ok None.
Proof.
  intros Hn Hm. unfold replaced_chunk, get_start, is_null. rewrite Hn, Hm. cbn [rbind]. destruct (m =? 0); reflexivity.
Qed.
Lemma replaced_plain f rec s : f_null f = false -> 0 < s < 2^32 -> 4 <= type_size (f_kind f) (f_len f) -> f_off f + type_size (f_kind f) (f_len f) <= zlen rec -> Field_Keys.at_ rec (f_off f) (le_bytes 4 s) -> replaced_chunk f rec = Ok (Some s).
Proof.
  intros Hn Hs Hk Hl [Ho Hr]. unfold replaced_chunk, get_start, is_null, get_value. rewrite Hn. cbn [rbind]. rewrite Z.add_0_r. rewrite rdn_ok by lia. cbn [rbind].
  change (zlen (le_bytes 4 s)) with 4 in Hr. apply Field_Keys.rdn_some in Hr. destruct Hr as (_ & _ & H3 & H4).
  rewrite rdn_ok; [|lia|lia|unfold zlen in *; rewrite sub_length; lia]. cbn [rbind]. change (Z.to_nat 0) with 0%nat. rewrite sub_0_firstn. unfold sub. rewrite firstn_firstn, Nat.min_l by lia. change (Z.to_nat 4) with 4%nat. unfold sub in H4. change (Z.to_nat 4) with 4%nat in H4. rewrite <- H4.
  rewrite le_val_bytes_small by (cbn; lia). destruct (Z.eqb_spec s 0); [lia|reflexivity].
Qed.
