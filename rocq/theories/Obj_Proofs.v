From Verif Require Import Prelude Lists Obj_Model Obj_Spec.
(* division facts are given by hand here *)
Ltac Zify.zify_post_hook ::= idtac.

Lemma get_page_ok st n p : page_is st n p -> get_page st n = Ok p.
Proof. intros [H E]. unfold get_page. destruct (Z.ltb_spec n 0); [lia|]. now rewrite E. Qed.
Lemma page_fun st n p q : page_is st n p -> page_is st n q -> p = q.
Proof. intros [_ A] [_ B]. congruence. Qed.
Lemma page_len ps st n p : Forall (fun p => length p = ps) st -> page_is st n p -> length p = ps.
Proof. intros H [_ E]. rewrite Forall_forall in H. apply H. eapply nth_error_In; eauto. Qed.

Lemma num_len p off v : num_at p off v -> (off + 4 <= length p)%nat.
Proof.
  intros [_ E]. assert (length (sub p off 4) = 4%nat) by (rewrite E; apply le_bytes_length).
  unfold sub in H. rewrite firstn_length, skipn_length in H. lia.
Qed.
Lemma u32at_ok p off v : num_at p off v -> u32at p (Z.of_nat off) = Ok v.
Proof.
  intros H. pose proof (num_len _ _ _ H). destruct H as [Hv E]. unfold u32at. rewrite rdn_ok by (unfold zlen; lia).
  cbn [rbind]. rewrite Nat2Z.id. change (Z.to_nat 4) with 4%nat. rewrite E. f_equal. apply le_val_bytes_small. exact Hv.
Qed.
Lemma entry_ok p off vs i v : array_at p off vs -> nth_error vs i = Some v -> entry p (Z.of_nat off) (Z.of_nat i) = Ok v.
Proof. intros H E. unfold entry. replace (Z.of_nat off + 4 * Z.of_nat i) with (Z.of_nat (off + 4 * i)) by lia. apply u32at_ok. now apply H. Qed.
Lemma array_tl p off v vs : array_at p off (v :: vs) -> array_at p (off + 4) vs.
Proof. intros H i x E. replace (off + 4 + 4 * i)%nat with (off + 4 * S i)%nat by lia. apply H. exact E. Qed.
Lemma entries_ok p off vs : array_at p off vs -> entries p (Z.of_nat off) (length vs) = Ok vs.
Proof.
  revert off. induction vs as [|v vs IH]; intros off H; [reflexivity|]. cbn [length entries].
  assert (Hv : num_at p off v) by (replace off with (off + 4 * 0)%nat by lia; now apply H).
  rewrite (u32at_ok _ _ _ Hv). cbn [rbind]. replace (Z.of_nat off + 4) with (Z.of_nat (off + 4)) by lia.
  rewrite (IH (off + 4)%nat (array_tl _ _ _ _ H)). reflexivity.
Qed.
Lemma until_zero_ok p off vs fuel : array_at p off (vs ++ [0]) -> Forall (fun x => x <> 0) vs -> (length vs < fuel)%nat ->
  until_zero fuel p (Z.of_nat off) = Ok vs.
Proof.
  revert off fuel. induction vs as [|v vs IH]; intros off fuel H Hz Hf; destruct fuel as [|fuel]; cbn [length] in Hf; try lia; cbn [until_zero].
  - assert (Hv : num_at p off 0) by (replace off with (off + 4 * 0)%nat by lia; now apply H). rewrite (u32at_ok _ _ _ Hv). reflexivity.
  - assert (Hv : num_at p off v) by (replace off with (off + 4 * 0)%nat by lia; now apply H). rewrite (u32at_ok _ _ _ Hv). cbn [rbind].
    inversion Hz; subst. destruct (Z.eqb_spec v 0); [contradiction|]. replace (Z.of_nat off + 4) with (Z.of_nat (off + 4)) by lia.
    rewrite (IH (off + 4)%nat fuel); try assumption; try lia; [reflexivity|]. cbn [app] in H. now apply array_tl in H.
Qed.
Lemma bytes_eqb_ok a b : a = b -> bytes_eqb a b = true.
Proof. intros <-. unfold bytes_eqb. destruct (list_eq_dec Z.eq_dec a a); congruence. Qed.

(** ** flat contents *)
Section F.
Context (ps : nat) (st : store) (Hps : (0 < ps)%nat) (Hst : Forall (fun p => length p = ps) st).

Lemma flat_pages dp : Forall (fun b => exists p, page_is st b p) dp -> Forall (fun p => length p = ps) (map (fun b => nth (Z.to_nat b) st []) dp).
Proof.
  intros H. apply Forall_map. eapply Forall_impl; [|exact H]. intros b (p & Hp). pose proof (page_len _ _ _ _ Hst Hp).
  destruct Hp as [_ E]. now rewrite (nth_error_nth_Z _ _ _ _ E).
Qed.
Lemma flat_len dp : Forall (fun b => exists p, page_is st b p) dp -> length (flat st dp) = (length dp * ps)%nat.
Proof. intros H. unfold flat. rewrite (concat_len _ ps) by now apply flat_pages. now rewrite map_length. Qed.

Lemma flat_page dp c b p : Forall (fun b => exists p, page_is st b p) dp -> nth_error dp c = Some b -> page_is st b p ->
  sub (flat st dp) (c * ps) ps = p.
Proof.
  intros H E Hp. unfold flat. apply concat_nth; [now apply flat_pages|]. rewrite nth_error_map, E. cbn.
  destruct Hp as [_ E']. now rewrite (nth_error_nth_Z _ _ _ _ E').
Qed.

Lemma flat_step dp c b p off cl len : Forall (fun b => exists p, page_is st b p) dp -> nth_error dp c = Some b -> page_is st b p ->
  (off + cl <= ps)%nat -> (cl <= len)%nat -> (off + cl = ps \/ cl = len)%nat ->
  sub (flat st dp) (c * ps + off) len = sub p off cl ++ sub (flat st dp) (S c * ps) (len - cl).
Proof.
  intros H E Hp H1 H2 H3. rewrite <- (flat_page dp c b p H E Hp). rewrite sub_sub by lia.
  destruct H3 as [H3| ->].
  - replace (S c * ps)%nat with (c * ps + off + cl)%nat by (cbn [Nat.mul]; lia). rewrite sub_app_split. f_equal. lia.
  - rewrite Nat.sub_diag, sub_nil, app_nil_r. reflexivity.
Qed.

(** direct lists *)
Lemma read1_ok dp rest len : Forall (fun b => exists p, page_is st b p) dp -> forall fuel c off, (len < fuel)%nat -> (off < ps)%nat ->
  (c * ps + off + len <= length dp * ps)%nat ->
  read1 fuel st (Z.of_nat ps) (dp ++ rest) (Z.of_nat c) (Z.of_nat off) (Z.of_nat len) = Ok (sub (flat st dp) (c * ps + off) len).
Proof.
  intros Hdp. revert len.
  assert (G : forall fuel len c off, (len < fuel)%nat -> (off < ps)%nat -> (c * ps + off + len <= length dp * ps)%nat ->
    read1 fuel st (Z.of_nat ps) (dp ++ rest) (Z.of_nat c) (Z.of_nat off) (Z.of_nat len) = Ok (sub (flat st dp) (c * ps + off) len)).
  { induction fuel as [|fuel IH]; intros len c off Hf Ho Hl; [lia|]. cbn [read1].
    destruct (Z.eqb_spec (Z.of_nat len) 0) as [E|E]; [replace len with 0%nat by lia; reflexivity|].
    assert (Hc : (c < length dp)%nat) by nia.
    destruct (nth_error dp c) as [b|] eqn:Eb; [|apply nth_error_None in Eb; lia].
    rewrite (rd_ok _ _ b); [|lia|rewrite Nat2Z.id, nth_error_app1 by lia; exact Eb]. cbn [rbind].
    assert (Hb : exists p, page_is st b p) by (rewrite Forall_forall in Hdp; apply Hdp; eapply nth_error_In; eauto). destruct Hb as (p & Hp).
    rewrite (get_page_ok _ _ _ Hp). cbn [rbind]. pose proof (page_len _ _ _ _ Hst Hp) as Hlp.
    set (cl := Nat.min (ps - off) len). replace (Z.min (Z.of_nat ps - Z.of_nat off) (Z.of_nat len)) with (Z.of_nat cl) by lia.
    rewrite rdn_ok by (unfold zlen; lia). cbn [rbind]. rewrite !Nat2Z.id.
    replace (Z.of_nat c + 1) with (Z.of_nat (S c)) by lia. replace (Z.of_nat len - Z.of_nat cl) with (Z.of_nat (len - cl)) by lia.
    change 0 with (Z.of_nat 0). rewrite IH by nia. cbn [rbind]. rewrite Nat.add_0_r.
    rewrite (flat_step dp c b p off cl len) by (assumption || lia). reflexivity. }
  intros len fuel c off. apply G.
Qed.

(** through tables *)
Definition lists (per hdr : nat) (tabs dp : list Z) : Prop :=
  forall c b, nth_error dp c = Some b -> exists t tp, nth_error tabs (c / per) = Some t /\ page_is st t tp /\
    entry tp (Z.of_nat hdr) (Z.of_nat (c mod per)) = Ok b.

Lemma read2_ok dp per hdr tabs : (0 < per)%nat -> Forall (fun b => exists p, page_is st b p) dp -> lists per hdr tabs dp ->
  forall fuel len c off tb, (len < fuel)%nat -> (off < ps)%nat -> (c * ps + off + len <= length dp * ps)%nat ->
  nth_error tabs (c / per) = Some tb ->
  read2 fuel st (Z.of_nat ps) (Z.of_nat per) (Z.of_nat hdr) tabs tb (Z.of_nat (c / per) + 1) (Z.of_nat (c mod per)) (Z.of_nat off) (Z.of_nat len) = Ok (sub (flat st dp) (c * ps + off) len).
Proof.
  intros Hper Hdp Hl. induction fuel as [|fuel IH]; intros len c off tb Hf Ho Hn Htb; [lia|]. cbn [read2].
  destruct (Z.eqb_spec (Z.of_nat len) 0) as [E|E]; [replace len with 0%nat by lia; reflexivity|].
  assert (Hc : (c < length dp)%nat) by nia.
  destruct (nth_error dp c) as [b|] eqn:Eb; [|apply nth_error_None in Eb; lia].
  destruct (Hl c b Eb) as (t & tp & E1 & E2 & E3). assert (t = tb) as -> by congruence.
  rewrite (get_page_ok _ _ _ E2). cbn [rbind]. rewrite E3. cbn [rbind].
  assert (Hb : exists p, page_is st b p) by (rewrite Forall_forall in Hdp; apply Hdp; eapply nth_error_In; eauto). destruct Hb as (p & Hp).
  rewrite (get_page_ok _ _ _ Hp). cbn [rbind]. pose proof (page_len _ _ _ _ Hst Hp) as Hlp.
  set (cl := Nat.min (ps - off) len). replace (Z.min (Z.of_nat ps - Z.of_nat off) (Z.of_nat len)) with (Z.of_nat cl) by lia.
  rewrite rdn_ok by (unfold zlen; lia). cbn [rbind]. rewrite !Nat2Z.id.
  replace (Z.of_nat len - Z.of_nat cl) with (Z.of_nat (len - cl)) by lia.
  rewrite (flat_step dp c b p off cl len) by (assumption || lia).
  destruct (Nat.eq_dec (len - cl) 0) as [Ez|Ez].
  { rewrite Ez. destruct (Z.ltb_spec 0 (Z.of_nat 0)); [lia|]. cbn [andb]. destruct fuel; [lia|]. reflexivity. }
  destruct (Z.ltb_spec 0 (Z.of_nat (len - cl))); [|lia]. cbn [andb].
  pose proof (Nat.mod_upper_bound c per ltac:(lia)) as Hm. pose proof (Nat.div_mod c per ltac:(lia)) as Hdm.
  assert (Hnext : (S c < length dp)%nat) by nia.
  destruct (nth_error dp (S c)) as [b'|] eqn:Eb'; [|apply nth_error_None in Eb'; lia].
  destruct (Hl (S c) b' Eb') as (t' & tp' & F1 & F2 & _).
  change 0 with (Z.of_nat 0). destruct (Z.leb_spec (Z.of_nat per) (Z.of_nat (c mod per) + 1)) as [Hw|Hw].
  - assert (Hd : (S c / per = S (c / per))%nat) by (symmetry; apply (Nat.div_unique (S c) per (S (c / per)) 0); [lia|rewrite Nat.mul_succ_r; lia]).
    assert (Hmo : (S c mod per = 0)%nat) by (symmetry; apply (Nat.mod_unique (S c) per (S (c / per)) 0); [lia|rewrite Nat.mul_succ_r; lia]).
    rewrite Hd in F1. rewrite (rd_ok _ _ t'); [|lia|replace (Z.to_nat (Z.of_nat (c / per) + 1)) with (S (c / per)) by lia; exact F1].
    cbn [rbind]. rewrite (get_page_ok _ _ _ F2). cbn [rbind].
    specialize (IH (len - cl)%nat (S c) 0%nat t'). rewrite Hd, Hmo in IH. replace (Z.of_nat (S (c / per)) + 1) with (Z.of_nat (c / per) + 1 + 1) in IH by lia.
    rewrite IH; [|lia|lia|nia|exact F1]. cbn [rbind]. rewrite Nat.add_0_r. reflexivity.
  - assert (Hd : (S c / per = c / per)%nat) by (symmetry; apply (Nat.div_unique (S c) per (c / per) (S (c mod per))); lia).
    assert (Hmo : (S c mod per = S (c mod per))%nat) by (symmetry; apply (Nat.mod_unique (S c) per (c / per) (S (c mod per))); lia).
    specialize (IH (len - cl)%nat (S c) 0%nat tb). rewrite Hd, Hmo in IH. replace (Z.of_nat (S (c mod per))) with (Z.of_nat (c mod per) + 1) in IH by lia.
    rewrite IH; [|lia|lia|nia|exact Htb]. cbn [rbind]. rewrite Nat.add_0_r. reflexivity.
Qed.

Lemma start2_ok dp per hdr tabs len c off : (0 < per)%nat -> Forall (fun b => exists p, page_is st b p) dp -> lists per hdr tabs dp ->
  (0 < len)%nat -> (off < ps)%nat -> (c * ps + off + len <= length dp * ps)%nat ->
  start2 st (Z.of_nat ps) (Z.of_nat per) (Z.of_nat hdr) tabs (Z.of_nat c) (Z.of_nat off) (Z.of_nat len) = Ok (sub (flat st dp) (c * ps + off) len).
Proof.
  intros Hper Hdp Hl H0 Ho Hn. unfold start2. assert (Hc : (c < length dp)%nat) by nia.
  destruct (nth_error dp c) as [b|] eqn:Eb; [|apply nth_error_None in Eb; lia].
  destruct (Hl c b Eb) as (t & tp & E1 & E2 & E3). rewrite <- Nat2Z.inj_div.
  rewrite (rd_ok _ _ t); [|apply Nat2Z.is_nonneg|rewrite Nat2Z.id; exact E1]. cbn [rbind]. rewrite (get_page_ok _ _ _ E2). cbn [rbind].
  pose proof (Nat.div_mod c per ltac:(lia)) as Hdm.
  replace (Z.of_nat c - Z.of_nat (c / per) * Z.of_nat per) with (Z.of_nat (c mod per)) by nia.
  apply read2_ok; try assumption; lia.
Qed.
End F.

(** ** group arithmetic *)
Lemma groups_spec n k : (0 < k)%nat -> (n <= groups n k * k < n + k)%nat.
Proof.
  intros H. unfold groups. pose proof (Nat.div_mod (n + (k - 1)) k ltac:(lia)). pose proof (Nat.mod_upper_bound (n + (k - 1)) k ltac:(lia)). nia.
Qed.
Lemma groups_lt n k c : (0 < k)%nat -> (c < n)%nat -> (c / k < groups n k)%nat.
Proof. intros H Hc. pose proof (groups_spec n k H). apply Nat.div_lt_upper_bound; lia. Qed.
Lemma groups_unique n k q : (0 < k)%nat -> (n <= q * k < n + k)%nat -> q = groups n k.
Proof. intros H Hq. pose proof (groups_spec n k H). nia. Qed.
Lemma groups_0 k : (0 < k)%nat -> groups 0 k = 0%nat.
Proof. intros H. symmetry. apply groups_unique; lia. Qed.
(** (n - 1) / k + 1 *)
Lemma groups_Z n k : (0 < k)%nat -> (if Z.of_nat n =? 0 then 0 else (Z.of_nat n - 1) / Z.of_nat k + 1) = Z.of_nat (groups n k).
Proof.
  intros H. destruct (Z.eqb_spec (Z.of_nat n) 0).
  - replace n with 0%nat by lia. now rewrite groups_0.
  - assert (Hd : 0 <= (Z.of_nat n - 1) / Z.of_nat k) by (apply Z.div_pos; lia).
    pose proof (Z.div_mod (Z.of_nat n - 1) (Z.of_nat k) ltac:(lia)). pose proof (Z.mod_pos_bound (Z.of_nat n - 1) (Z.of_nat k) ltac:(lia)).
    rewrite <- (groups_unique n k (Z.to_nat ((Z.of_nat n - 1) / Z.of_nat k + 1))); [lia|exact H|]. nia.
Qed.
Lemma groups_groups n k m : (0 < k)%nat -> (0 < m)%nat -> groups (groups n k) m = groups n (m * k).
Proof.
  intros Hk Hm. apply groups_unique; [nia|]. pose proof (groups_spec n k Hk). pose proof (groups_spec (groups n k) m Hm).
  set (g := groups n k) in *. set (q := groups g m) in *. nia.
Qed.

Lemma tables_lists st per hdr cnt tabs dp : (0 < per)%nat -> tables st per hdr cnt tabs dp -> lists st per hdr tabs dp.
Proof.
  intros Hper [Hl H] c b Hb. assert (Hc : (c < length dp)%nat) by (apply nth_error_Some; congruence).
  pose proof (groups_lt _ per c Hper Hc). destruct (nth_error tabs (c / per)) as [t|] eqn:Et; [|apply nth_error_None in Et; lia].
  destruct (H _ _ Et) as (p & Hp & Ha & _). exists t, p. split; [reflexivity|]. split; [exact Hp|].
  eapply entry_ok; [exact Ha|]. pose proof (Nat.mod_upper_bound c per ltac:(lia)). pose proof (Nat.div_mod c per ltac:(lia)).
  rewrite nth_error_sub. destruct (Nat.ltb_spec (c mod per) per); [|lia]. rewrite <- Hb. f_equal. nia.
Qed.

Lemma per80_pos : (0 < per80)%nat.
Proof. unfold per80. lia. Qed.
Lemma per80_Z : Z.of_nat per80 = 1023.
Proof. reflexivity. Qed.
Global Opaque per80.

Lemma div_le_self a b : (0 < b)%nat -> (a / b <= a)%nat.
Proof. intros H. apply Nat.div_le_upper_bound; [lia|]. destruct b; [lia|]. cbn [Nat.mul]. lia. Qed.
Lemma quarter ps : (ps mod 4 = 0)%nat -> (ps / 4 * 4 = ps)%nat.
Proof. intros H. pose proof (Nat.div_mod ps 4 ltac:(lia)). lia. Qed.
Lemma flat_bound ps q len n : Z.of_nat ps < 2^17 -> (q * 4 = ps)%nat -> (n <= q - 6)%nat -> (len <= n * ps)%nat ->
  (len <= (q - 6) * ps)%nat /\ Z.of_nat (q - 6) * Z.of_nat ps < 2^32.
Proof. intros H1 H2 H3 H4. split; [nia|]. assert (Z.of_nat (q - 6) < 2^15) by lia. nia. Qed.
Lemma deep_bound ps q t n c : Z.of_nat ps < 2^17 -> (q * 4 = ps)%nat -> (t <= q - 6)%nat -> (n <= t * q)%nat -> (c < n)%nat -> Z.of_nat c < 2^32.
Proof. intros H1 H2 H3 H4 H5. assert (Z.of_nat q < 2^15) by lia. assert (Z.of_nat t < 2^15) by lia. assert (Z.of_nat n <= Z.of_nat t * Z.of_nat q) by nia. nia. Qed.

(** ** opening *)
Definition opened (f : fmt) (o : obj) (n : Z) (len : nat) (tabs dp : list Z) : Prop :=
  o_block o = n /\ o_data o = None /\
  match f with
  | F80 => o_ty o = Data80 /\ o_len o = Z.of_nat len /\ o_blocks o = tabs /\ o_num o = Z.of_nat (length tabs)
  | F838_flat => o_ty o = Data838 /\ o_fat o = 0 /\ o_len o = Z.of_nat len /\ o_blocks o = dp /\ o_num o = Z.of_nat (length dp)
  | F838_deep => o_ty o = Data838 /\ o_fat o = 1 /\ o_len o = Z.of_nat len /\ o_blocks o = tabs /\ o_num o = Z.of_nat (length tabs)
  | FFree => o_ty o = Free80 /\ o_len o * 4 = Z.of_nat len /\ (exists rest, o_blocks o = dp ++ rest)
  end.

Lemma sub_prefix {A} (l : list A) n m x : sub l 0 n = x -> (m <= n)%nat -> sub l 0 m = firstn m x.
Proof. intros <- H. rewrite !sub_0_firstn, firstn_firstn. f_equal. lia. Qed.
Lemma sub_mid {A} (l : list A) n o m x : sub l 0 n = x -> (o + m <= n)%nat -> sub l o m = sub x o m.
Proof. intros <- H. now rewrite sub_sub by lia. Qed.

Lemma open_ok ps f st n len tabs dp : stored ps f st n len tabs dp ->
  exists o, obj_open (Z.of_nat ps) (is838 f) st n = Ok o /\ opened f o n len tabs dp.
Proof.
  intros (Hst & Hby & H32 & Hm4 & H17 & Hdp & Hpg & h & Hh & Hf). unfold obj_open. rewrite (get_page_ok _ _ _ Hh). cbn [rbind].
  pose proof (page_len _ _ _ _ Hst Hh) as Hlh.
  assert (Hrd : forall o m, (o + m <= 32)%nat -> rdn h (Z.of_nat o) (Z.of_nat m) = Ok (sub h o m)).
  { intros o m Ho. clear - Hlh H32 Ho. rewrite rdn_ok by (unfold zlen; lia). now rewrite !Nat2Z.id. }
  assert (Hu : forall o, (o + 4 <= 32)%nat -> u32at h (Z.of_nat o) = Ok (le_val (sub h o 4))).
  { intros o Ho. unfold u32at. change 4 with (Z.of_nat 4). rewrite Hrd by lia. reflexivity. }
  pose proof (Hrd 0%nat 8%nat ltac:(lia)) as R08. pose proof (Hrd 0%nat 2%nat ltac:(lia)) as R02. pose proof (Hrd 16%nat 8%nat ltac:(lia)) as R168. pose proof (Hrd 2%nat 2%nat ltac:(lia)) as R22.
  pose proof (Hu 4%nat ltac:(lia)) as U4. pose proof (Hu 8%nat ltac:(lia)) as U8. pose proof (Hu 12%nat ltac:(lia)) as U12. pose proof (Hu 16%nat ltac:(lia)) as U16.
  clear Hrd Hu. change (Z.of_nat 0) with 0 in *. change (Z.of_nat 8) with 8 in *. change (Z.of_nat 2) with 2 in *. change (Z.of_nat 16) with 16 in *. change (Z.of_nat 12) with 12 in *. change (Z.of_nat 4) with 4 in *.
  assert (N8 : forall v, num_at h 8 v -> u32at h 8 = Ok v) by (intros v Hv; exact (u32at_ok h 8 v Hv)).
  assert (E24 : forall l, array_at h 24 l -> entries h 24 (length l) = Ok l) by (intros l Hl; exact (entries_ok h 24 l Hl)).
  destruct f; cbn [is838].
  - destruct Hf as (Hps & Hn & Hsig & Hlen & Ht & Ha & Htab).
    rewrite R08. cbn [rbind]. rewrite (bytes_eqb_ok _ _ Hsig). cbn [negb].
    rewrite (N8 _ Hlen). cbn [rbind]. rewrite U12, U16. cbn [rbind].
    destruct (Z.eqb_spec n 1); [contradiction|]. replace 4190208 with (Z.of_nat (per80 * ps)) by (rewrite Nat2Z.inj_mul, Hps; reflexivity). rewrite groups_Z by (pose proof per80_pos; nia).
    destruct Htab as [Htl _]. rewrite <- groups_groups by (pose proof per80_pos; lia). rewrite <- Hdp, <- Htl, Nat2Z.id.
    rewrite (E24 tabs Ha). cbn [rbind]. eexists. split; [reflexivity|]. repeat split.
  - destruct Hf as (Hn & Hsig & Hlen & Ht & Ha & _).
    destruct (Z.eqb_spec n 1); [contradiction|].
    rewrite R02. cbn [rbind]. rewrite (bytes_eqb_ok (sub h 0 2) [28; 253]) by (exact (sub_prefix _ _ 2 _ Hsig ltac:(lia))). cbn [negb].
    rewrite R168, R22. cbn [rbind]. rewrite Hlen.
    rewrite (sub_mid _ 4 2 2 _ Hsig) by lia. change (i16 (le_val (sub [28; 253; 0; 0] 2 2))) with 0. cbv zeta.
    pose proof (quarter ps Hm4) as Hq.
    pose proof (groups_spec len ps ltac:(lia)) as Hg. rewrite <- Hdp in Hg.
    destruct (flat_bound ps (ps / 4) len (length dp) H17 Hq Ht ltac:(lia)) as [Hlmax Hb].
    assert (Hl64 : Z.of_nat len < 256 ^ Z.of_nat 8) by (change (256 ^ Z.of_nat 8) with (2^32 * 2^32); nia).
    rewrite le_val_bytes_small by lia.
    assert (Hz : u32 (u32 (Z.of_nat ps / 4 - 6) * Z.of_nat ps) = Z.of_nat ((ps / 4 - 6) * ps)).
    { unfold u32. rewrite (Z.mod_small (Z.of_nat ps / 4 - 6)) by lia. rewrite Z.mod_small by nia. nia. }
    rewrite Hz. destruct (Z.ltb_spec (Z.of_nat ((ps / 4 - 6) * ps)) (Z.of_nat len)); [lia|]. rewrite Z.eqb_refl. cbn [andb].
    rewrite U4, U8. cbn [rbind]. rewrite groups_Z by lia. rewrite <- Hdp, Nat2Z.id.
    rewrite (E24 dp Ha). cbn [rbind]. eexists. split; [reflexivity|]. repeat split.
  - destruct Hf as (Hn & Hsig & Hlen & H63 & Ht & Ha & Htab).
    destruct (Z.eqb_spec n 1); [contradiction|].
    rewrite R02. cbn [rbind]. rewrite (bytes_eqb_ok (sub h 0 2) [28; 253]) by (exact (sub_prefix _ _ 2 _ Hsig ltac:(lia))). cbn [negb].
    rewrite R168, R22. cbn [rbind]. rewrite Hlen.
    rewrite (sub_mid _ 4 2 2 _ Hsig) by lia. change (i16 (le_val (sub [28; 253; 1; 0] 2 2))) with 1. cbv zeta.
    pose proof (quarter ps Hm4) as Hq.
    change (1 =? 0) with false. cbn [andb]. rewrite U4, U8. cbn [rbind].
    rewrite le_val_bytes_small by (change (256 ^ Z.of_nat 8) with (2 * 2^63); lia).
    assert (Hz : u32 (Z.of_nat ps / 4 * Z.of_nat ps) = Z.of_nat (ps / 4 * ps)).
    { unfold u32. rewrite Z.mod_small by nia. nia. }
    rewrite Hz, groups_Z by nia. destruct Htab as [Htl _]. rewrite <- groups_groups by nia. rewrite <- Hdp, <- Htl, Nat2Z.id.
    rewrite (E24 tabs Ha). cbn [rbind]. eexists. split; [reflexivity|]. repeat split.
  - destruct Hf as (Hps & -> & Hsig & (k & Hk & Hnum) & Hmax & (rest & Hr & Hz & Ha) & Ht).
    rewrite R08. cbn [rbind]. rewrite (bytes_eqb_ok _ _ Hsig). cbn [negb].
    rewrite (N8 _ Hnum). cbn [rbind]. rewrite U12, U16. cbn [rbind Z.eqb Pos.eqb].
    rewrite app_assoc in Ha. pose proof (until_zero_ok h 24 _ (S (Z.to_nat (Z.of_nat ps))) Ha Hz ltac:(rewrite Nat2Z.id; lia)) as U24. change (Z.of_nat 24) with 24 in U24. rewrite U24. cbn [rbind].
    eexists. split; [reflexivity|]. split; [reflexivity|]. split; [reflexivity|]. cbn. split; [reflexivity|]. split; [lia|]. now exists rest.
Qed.

(** ** reading a range of an opened object *)
Lemma range_ok ps f st n len tabs dp o start m buf : stored ps f st n len tabs dp -> opened f o n len tabs dp ->
  (0 < m)%nat -> (start + m <= len)%nat ->
  get_range (Z.of_nat ps) st o (Z.of_nat start) (Z.of_nat m) buf = Ok (sub (content st dp len) start m).
Proof.
  intros (Hst & Hby & H32 & Hm4 & H17 & Hdp & Hpg & h & Hh & Hf) (Hb & Hd & Ho) Hm Hr.
  unfold get_range. rewrite Hd. unfold content. rewrite sub_firstn by lia.
  pose proof (groups_spec len ps ltac:(lia)) as Hg. rewrite <- Hdp in Hg.
  pose proof (Nat.div_mod start ps ltac:(lia)) as Hdm. pose proof (Nat.mod_upper_bound start ps ltac:(lia)) as Hmb.
  assert (Hsub : Z.of_nat len < 2^63 -> Z.of_nat (start / ps) < 2^32 -> u64 (Z.of_nat start + Z.of_nat m) = Z.of_nat (start + m) /\ u32 (Z.of_nat start / Z.of_nat ps) = Z.of_nat (start / ps) /\
    u32 (Z.of_nat start - u32 (Z.of_nat (start / ps) * Z.of_nat ps)) = Z.of_nat (start mod ps)).
  { intros H63 Hc. rewrite <- Nat2Z.inj_div. set (c := (start / ps)%nat) in *. set (r := (start mod ps)%nat) in *. clearbody c r.
    unfold u64, u32. rewrite Z.mod_small by lia. split; [lia|]. split; [apply Z.mod_small; lia|].
    rewrite Zminus_mod_idemp_r. replace (Z.of_nat start - Z.of_nat c * Z.of_nat ps) with (Z.of_nat r) by nia. apply Z.mod_small. lia. }
  assert (Heq : (start / ps * ps + start mod ps = start)%nat) by nia.
  destruct f.
  - destruct Hf as (Hps & Hn & Hsig & Hlen & Ht & Ha & Htab), Ho as (-> & -> & -> & _).
    destruct Hlen as [Hl32 _]. destruct Hsub as (E1 & E2 & E3); [lia|nia|]. rewrite E1.
    destruct (Z.ltb_spec (Z.of_nat len) (Z.of_nat (start + m))); [lia|]. cbv zeta. rewrite <- Hps, E2, E3.
    rewrite <- per80_Z. change 4 with (Z.of_nat 4).
    rewrite (start2_ok ps st ltac:(lia) Hst dp per80 4); try assumption; try lia; [now rewrite Heq|exact per80_pos|apply (tables_lists _ _ _ true); [exact per80_pos|assumption]].
  - destruct Hf as (Hn & Hsig & Hlen & Ht & Ha & _), Ho as (-> & -> & -> & -> & _).
    pose proof (quarter ps Hm4) as Hq.
    destruct (flat_bound ps (ps / 4) len (length dp) H17 Hq Ht ltac:(lia)) as [Hlmax Hb'].
    destruct Hsub as (E1 & E2 & E3); [lia|apply Z.le_lt_trans with (Z.of_nat start); [apply inj_le, div_le_self; lia|lia]|]. rewrite E1.
    destruct (Z.ltb_spec (Z.of_nat len) (Z.of_nat (start + m))); [lia|]. cbv zeta. rewrite E2, E3, Z.eqb_refl, Nat2Z.id.
    rewrite <- (app_nil_r dp) at 1. rewrite (read1_ok ps st ltac:(lia) Hst); try assumption; try lia. now rewrite Heq.
  - destruct Hf as (Hn & Hsig & Hlen & H63 & Ht & Ha & Htab), Ho as (-> & -> & -> & -> & _).
    pose proof (quarter ps Hm4) as Hq.
    destruct Hsub as (E1 & E2 & E3); [lia| |].
    { pose proof (proj1 Htab) as Htl. pose proof (groups_spec (length dp) (ps / 4) ltac:(lia)).
      apply (deep_bound ps (ps / 4) (length tabs) (length dp) _ H17 Hq Ht); [rewrite Htl; lia|rewrite Hdp; apply groups_lt; lia]. }
    rewrite E1. destruct (Z.ltb_spec (Z.of_nat len) (Z.of_nat (start + m))); [lia|]. cbv zeta. rewrite E2, E3. change (1 =? 0) with false. cbv iota.
    change 4 with (Z.of_nat 4) at 1. rewrite <- Nat2Z.inj_div. change 0 with (Z.of_nat 0).
    rewrite (start2_ok ps st ltac:(lia) Hst dp (ps / 4) 0); try assumption; try lia; [now rewrite Heq|apply (tables_lists _ _ _ false); [lia|exact Htab]].
  - destruct Hf as (Hps & -> & Hsig & (k & Hk & Hnum) & Hmax & _), Ho as (-> & Hol & rest & ->).
    rewrite Hol. destruct Hsub as (E1 & E2 & E3); [lia|nia|]. rewrite E1.
    unfold u64 at 1. rewrite Z.mod_small by lia.
    destruct (Z.ltb_spec (Z.of_nat len) (Z.of_nat (start + m))); [lia|]. cbv zeta. rewrite <- Hps, E2, E3, Nat2Z.id.
    rewrite (read1_ok ps st ltac:(lia) Hst); try assumption; try lia. now rewrite Heq.
Qed.

(** ** reading everything *)
Section W.
Context (ps : nat) (st : store) (Hps : (0 < ps)%nat) (Hst : Forall (fun p => length p = ps) st)
        (dp : list Z) (Hdp : Forall (fun b => exists p, page_is st b p) dp).

Lemma part_ok c b cl : nth_error dp c = Some b -> (cl <= ps)%nat -> get_part st b (Z.of_nat cl) = Ok (sub (flat st dp) (c * ps) cl).
Proof.
  intros E Hc. assert (Hb : exists p, page_is st b p) by (rewrite Forall_forall in Hdp; apply Hdp; eapply nth_error_In; eauto). destruct Hb as (p & Hp).
  unfold get_part. rewrite (get_page_ok _ _ _ Hp). cbn [rbind]. pose proof (page_len _ _ _ _ Hst Hp). rewrite rdn_ok by (unfold zlen; lia).
  rewrite Nat2Z.id. f_equal. rewrite <- (flat_page ps st Hst dp c b p Hdp E Hp). rewrite sub_sub by lia. f_equal. cbn. lia.
Qed.

Lemma whole_in_full t hdr n : forall c j l cl, (forall e b, (e < n)%nat -> nth_error dp (c + e) = Some b -> entry t hdr (j + Z.of_nat e) = Ok b) ->
  (c + n <= length dp)%nat -> Z.of_nat (n * ps) < l ->
  whole_in n st (Z.of_nat ps) t hdr j l cl = Ok (sub (flat st dp) (c * ps) (n * ps), l - Z.of_nat (n * ps), if (n =? 0)%nat then cl else Z.of_nat ps).
Proof.
  induction n as [|n IH]; intros c j l cl He Hc Hl.
  - cbn [whole_in]. rewrite Z.sub_0_r. reflexivity.
  - cbn [whole_in]. cbn [Nat.mul] in *. rewrite Z.min_l by lia.
    destruct (nth_error dp c) as [b|] eqn:Eb; [|apply nth_error_None in Eb; lia].
    pose proof (He 0%nat b ltac:(lia)) as H0. rewrite Nat.add_0_r, Z.add_0_r in H0. rewrite (H0 Eb). cbn [rbind].
    rewrite (part_ok c b ps Eb) by lia. cbn [rbind]. destruct (Z.leb_spec l (Z.of_nat ps)); [lia|].
    rewrite (IH (S c)); [|intros e x He' Hx; replace (j + 1 + Z.of_nat e) with (j + Z.of_nat (S e)) by lia; apply He; [lia|rewrite <- Hx; f_equal; lia]|lia|lia].
    cbn [rbind]. f_equal. f_equal; [f_equal|].
    + replace (S c * ps)%nat with (c * ps + ps)%nat by (cbn; lia). apply sub_app_split.
    + lia.
    + now destruct (n =? 0)%nat.
Qed.

Lemma whole_in_last t hdr n : forall c j l cl, (0 < l <= n * ps)%nat -> (c * ps + l <= length dp * ps)%nat ->
  (forall e b, (e < n)%nat -> nth_error dp (c + e) = Some b -> entry t hdr (j + Z.of_nat e) = Ok b) ->
  exists l' cl', whole_in n st (Z.of_nat ps) t hdr j (Z.of_nat l) cl = Ok (sub (flat st dp) (c * ps) l, l', cl') /\ (l' <=? cl') = true.
Proof.
  induction n as [|n IH]; intros c j l cl Hl Hc He; [lia|]. cbn [whole_in]. cbn [Nat.mul] in Hl.
  assert (Hcl : (c < length dp)%nat) by nia.
  destruct (nth_error dp c) as [b|] eqn:Eb; [|apply nth_error_None in Eb; lia].
  pose proof (He 0%nat b ltac:(lia)) as H0. rewrite Nat.add_0_r, Z.add_0_r in H0. rewrite (H0 Eb). cbn [rbind].
  destruct (Nat.le_gt_cases l ps) as [Hle|Hgt].
  - rewrite Z.min_r by lia. rewrite (part_ok c b l Eb) by lia. cbn [rbind]. rewrite Z.leb_refl. do 2 eexists. split; [reflexivity|]. apply Z.leb_refl.
  - rewrite Z.min_l by lia. rewrite (part_ok c b ps Eb) by lia. cbn [rbind]. destruct (Z.leb_spec (Z.of_nat l) (Z.of_nat ps)); [lia|].
    replace (Z.of_nat l - Z.of_nat ps) with (Z.of_nat (l - ps)) by lia.
    destruct (IH (S c) (j + 1) (l - ps)%nat (Z.of_nat ps)) as (l' & cl' & E & Hb); [lia|cbn [Nat.mul]; lia| |].
    { intros e x He' Hx. replace (j + 1 + Z.of_nat e) with (j + Z.of_nat (S e)) by lia. apply He; [lia|rewrite <- Hx; f_equal; lia]. }
    rewrite E. cbn [rbind]. exists l', cl'. split; [|exact Hb]. f_equal. f_equal. f_equal.
    replace (S c * ps)%nat with (c * ps + ps)%nat by (cbn; lia). rewrite sub_app_split. f_equal. lia.
Qed.

Context (per hdr : nat) (Hper : (2 <= per)%nat) (tabs : list Z) (Htl : length tabs = groups (length dp) per) (cntf : list Z -> res Z)
  (Htab : forall g t, nth_error tabs g = Some t -> exists p n, page_is st t p /\ cntf p = Ok (Z.of_nat n) /\ (length (sub dp (g * per) per) <= n)%nat /\ (S g < length tabs -> n = per)%nat /\
     (forall e b, nth_error dp (g * per + e) = Some b -> (e < per)%nat -> entry p (Z.of_nat hdr) (Z.of_nat e) = Ok b) /\ (n <= per)%nat).

(** bytes reached by the loop *)
Definition reach (len : nat) : nat :=
  if ((1 <? length tabs) && (len <=? (length tabs - 1) * per * ps + ps))%nat%bool then ((length tabs - 1) * per * ps)%nat else len.

Lemma whole_out_ok len : length dp = groups len ps -> forall n g cl, (n + g = length tabs)%nat -> (0 < n)%nat ->
  (0 < g -> g * per * ps + ps < len)%nat ->
  whole_out n st (Z.of_nat ps) cntf (Z.of_nat hdr) tabs (Z.of_nat g) (Z.of_nat (len - g * per * ps)) cl = Ok (sub (flat st dp) (g * per * ps) (reach len - g * per * ps)).
Proof.
  intros Hlen. pose proof (groups_spec len ps Hps) as Hg1. rewrite <- Hlen in Hg1. pose proof (groups_spec (length dp) per ltac:(lia)) as Hg2. rewrite <- Htl in Hg2.
  induction n as [|n IH]; intros g cl Hn H0 Hge; [lia|]. cbn [whole_out].
  destruct (nth_error tabs g) as [t|] eqn:Et; [|apply nth_error_None in Et; lia].
  rewrite (rd_ok _ _ t) by (rewrite ?Nat2Z.id; lia || exact Et). cbn [rbind].
  destruct (Htab g t Et) as (p & m & Hp & Hm & Hsz & Hfull & Hent & Hmp). rewrite (get_page_ok _ _ _ Hp). cbn [rbind]. rewrite Hm. cbn [rbind]. rewrite Nat2Z.id.
  destruct (Nat.eq_dec n 0) as [->|Hn0].
  - (* last table *)
    assert (Hgl : (length tabs - 1 = g)%nat) by lia.
    assert (Hl : (0 < len - g * per * ps <= length (sub dp (g * per) per) * ps)%nat).
    { assert (Hs : length (sub dp (g * per) per) = (length dp - g * per)%nat) by (unfold sub; rewrite firstn_length, skipn_length; nia). rewrite Hs. nia. }
    destruct (whole_in_last p (Z.of_nat hdr) m (g * per) 0 (len - g * per * ps) cl) as (l' & cl' & E & Hb).
    { nia. } { nia. } { intros e b He Hb. apply Hent; [exact Hb|lia]. }
    rewrite E. cbn [rbind]. rewrite Hb. f_equal. f_equal. unfold reach. rewrite Hgl.
    destruct (Nat.ltb_spec 1 (length tabs)); [|reflexivity]. destruct (Nat.leb_spec len (g * per * ps + ps)); [|reflexivity]. cbn [andb]. specialize (Hge ltac:(lia)). lia.
  - rewrite (Hfull ltac:(lia)) in *. clear Hfull.
    assert (Hrem : (S g * per * ps < len)%nat) by nia.
    assert (Hpg : (S g * per <= length dp)%nat) by nia.
    rewrite (whole_in_full p (Z.of_nat hdr) per (g * per)); [|intros e b He Hb; apply Hent; assumption|cbn [Nat.mul] in Hpg; lia|cbn [Nat.mul] in Hrem; nia].
    cbn [rbind]. destruct (Nat.eqb_spec per 0); [lia|].
    replace (Z.of_nat (len - g * per * ps) - Z.of_nat (per * ps)) with (Z.of_nat (len - S g * per * ps)) by (cbn [Nat.mul] in *; nia).
    destruct (Z.leb_spec (Z.of_nat (len - S g * per * ps)) (Z.of_nat ps)) as [Hle|Hgt].
    + (* the loop stops one page early *)
      assert (Hlast : (length tabs - 1 = S g)%nat) by nia.
      f_equal. f_equal. unfold reach. rewrite Hlast. destruct (Nat.ltb_spec 1 (length tabs)); [|lia].
      destruct (Nat.leb_spec len (S g * per * ps + ps)); [|lia]. cbn [andb]. cbn [Nat.mul]. nia.
    + replace (Z.of_nat g + 1) with (Z.of_nat (S g)) by lia. rewrite (IH (S g) (Z.of_nat ps)) by lia. cbn [rbind]. f_equal.
      assert (Hr : (S g * per * ps <= reach len)%nat).
      { unfold reach. destruct (Nat.ltb_spec 1 (length tabs)); [|lia]. destruct (Nat.leb_spec len ((length tabs - 1) * per * ps + ps)); cbn [andb]; [|lia].
        apply Nat.mul_le_mono_r, Nat.mul_le_mono_r. lia. }
      replace (S g * per * ps)%nat with (g * per * ps + per * ps)%nat in * by (cbn [Nat.mul]; lia). rewrite sub_app_split. f_equal. lia.
Qed.
End W.

Lemma whole_dir_ok ps st dp : (0 < ps)%nat -> Forall (fun p => length p = ps) st -> Forall (fun b => exists p, page_is st b p) dp ->
  forall n c l, (n + c = length dp)%nat -> (0 < l <= n * ps)%nat ->
  whole_dir n st (Z.of_nat ps) dp (Z.of_nat c) (Z.of_nat l) = Ok (sub (flat st dp) (c * ps) l).
Proof.
  intros Hps Hst Hdp. induction n as [|n IH]; intros c l Hn Hl; [lia|]. cbn [whole_dir].
  destruct (nth_error dp c) as [b|] eqn:Eb; [|apply nth_error_None in Eb; lia].
  rewrite (rd_ok _ _ b); [|lia|rewrite Nat2Z.id; exact Eb]. cbn [rbind].
  destruct (Nat.le_gt_cases l ps) as [Hle|Hgt].
  - rewrite Z.min_r by lia. rewrite (part_ok ps st Hps Hst dp Hdp c b l Eb) by lia. cbn [rbind]. rewrite Z.leb_refl. reflexivity.
  - rewrite Z.min_l by lia. rewrite (part_ok ps st Hps Hst dp Hdp c b ps Eb) by lia. cbn [rbind]. destruct (Z.leb_spec (Z.of_nat l) (Z.of_nat ps)); [lia|].
    replace (Z.of_nat l - Z.of_nat ps) with (Z.of_nat (l - ps)) by lia. replace (Z.of_nat c + 1) with (Z.of_nat (S c)) by lia.
    rewrite IH by (cbn [Nat.mul] in Hl; lia). cbn [rbind]. f_equal.
    replace (S c * ps)%nat with (c * ps + ps)%nat by (cbn; lia). rewrite sub_app_split. f_equal. lia.
Qed.
Lemma whole_free_ok ps st dp rest : Z.of_nat ps = 4096 -> Forall (fun p => length p = ps) st -> Forall (fun b => exists p, page_is st b p) dp ->
  forall fuel c l, (l < fuel)%nat -> (0 < l)%nat -> (c * ps + l <= length dp * ps)%nat ->
  whole_free fuel st (dp ++ rest) (Z.of_nat c) (Z.of_nat l) = Ok (sub (flat st dp) (c * ps) l).
Proof.
  intros Hps Hst Hdp. induction fuel as [|fuel IH]; intros c l Hf H0 Hl; [lia|]. cbn [whole_free].
  assert (Hc : (c < length dp)%nat) by nia. destruct (nth_error dp c) as [b|] eqn:Eb; [|apply nth_error_None in Eb; lia].
  rewrite (rd_ok _ _ b); [|lia|rewrite Nat2Z.id, nth_error_app1 by lia; exact Eb]. cbn [rbind]. rewrite <- Hps.
  destruct (Z.ltb_spec (Z.of_nat ps) (Z.of_nat l)).
  - rewrite (part_ok ps st ltac:(lia) Hst dp Hdp c b ps Eb) by lia. cbn [rbind].
    replace (Z.of_nat l - Z.of_nat ps) with (Z.of_nat (l - ps)) by lia. replace (Z.of_nat c + 1) with (Z.of_nat (S c)) by lia.
    rewrite IH by (cbn [Nat.mul]; lia). cbn [rbind]. f_equal.
    replace (S c * ps)%nat with (c * ps + ps)%nat by (cbn; lia). rewrite sub_app_split. f_equal. lia.
  - now rewrite (part_ok ps st ltac:(lia) Hst dp Hdp c b l Eb) by lia.
Qed.

Lemma fill_all n acc junk : length acc = Z.to_nat n -> fill n acc junk = acc.
Proof. intros H. unfold fill. rewrite H, Nat.sub_diag, sub_nil. apply app_nil_r. Qed.

(** data pages of a table *)
Lemma tables_W st per hdr cnt tabs dp : (0 < per)%nat -> tables st per hdr cnt tabs dp -> forall cntf,
  (forall p, cnt = true -> forall n, (n <= per)%nat -> num_at p 0 (Z.of_nat n) -> cntf p = Ok (Z.of_nat n)) -> (forall p, cnt = false -> cntf p = Ok (Z.of_nat per)) ->
  forall g t, nth_error tabs g = Some t -> exists p n, page_is st t p /\ cntf p = Ok (Z.of_nat n) /\ (length (sub dp (g * per) per) <= n)%nat /\ (S g < length tabs -> n = per)%nat /\
     (forall e b, nth_error dp (g * per + e) = Some b -> (e < per)%nat -> entry p (Z.of_nat hdr) (Z.of_nat e) = Ok b) /\ (n <= per)%nat.
Proof.
  intros Hper [Htl H] cntf Hc1 Hc2 g t Et. destruct (H g t Et) as (p & Hp & Ha & Hn).
  assert (Hl : (length (sub dp (g * per) per) <= per)%nat) by (unfold sub; rewrite firstn_length; lia).
  pose proof (groups_spec (length dp) per Hper) as Hg. rewrite <- Htl in Hg.
  assert (Hent : forall e b, nth_error dp (g * per + e) = Some b -> (e < per)%nat -> entry p (Z.of_nat hdr) (Z.of_nat e) = Ok b).
  { intros e b Hb He. eapply entry_ok; [exact Ha|]. rewrite nth_error_sub. destruct (Nat.ltb_spec e per); [exact Hb|lia]. }
  destruct cnt.
  - exists p, (length (sub dp (g * per) per)). split; [exact Hp|]. split; [apply Hc1; [reflexivity|exact Hl|apply Hn; reflexivity]|]. split; [lia|]. split; [|split; [exact Hent|exact Hl]].
    intros Hg'. apply sub_length. nia.
  - exists p, per. split; [exact Hp|]. split; [now apply Hc2|]. split; [exact Hl|]. split; [reflexivity|]. split; [exact Hent|lia].
Qed.

Lemma content_len ps f st n len tabs dp : stored ps f st n len tabs dp -> length (content st dp len) = len.
Proof.
  intros (Hst & Hby & H32 & Hm4 & H17 & Hdp & Hpg & _). unfold content. rewrite firstn_length, (flat_len ps st Hst dp Hpg).
  pose proof (groups_spec len ps ltac:(lia)). rewrite <- Hdp in H. lia.
Qed.

(** what the whole-object read returns: everything, or everything but the last page *)
Lemma all_ok ps f st n len tabs dp o junk : stored ps f st n len tabs dp -> opened f o n len tabs dp -> (0 < len)%nat ->
  exists d, get_all (Z.of_nat ps) st o junk = Ok (set_cached o (Some d), Some d) /\
    (~ lone_page f ps len -> d = content st dp len) /\
    (forall k, (f = F80 /\ k = per80 \/ f = F838_deep /\ k = ps / 4)%nat -> forall q, (1 <= q /\ q * k * ps < len <= q * k * ps + ps)%nat ->
       d = firstn (q * k * ps) (content st dp len) ++ sub junk (q * k * ps) (len - q * k * ps)).
Proof.
  intros Hs (Hb & Hd & Ho) H0. pose proof (content_len _ _ _ _ _ _ _ Hs) as Hcl. destruct Hs as (Hst & Hby & H32 & Hm4 & H17 & Hdp & Hpg & h & Hh & Hf).
  pose proof (groups_spec len ps ltac:(lia)) as Hg. rewrite <- Hdp in Hg.
  assert (Htwo : forall per hdr cnt cntf, (2 <= per)%nat -> tables st per hdr cnt tabs dp ->
    (forall p, cnt = true -> forall n, (n <= per)%nat -> num_at p 0 (Z.of_nat n) -> cntf p = Ok (Z.of_nat n)) -> (forall p, cnt = false -> cntf p = Ok (Z.of_nat per)) ->
    whole_out (length tabs) st (Z.of_nat ps) cntf (Z.of_nat hdr) tabs 0 (Z.of_nat len) 0 = Ok (sub (flat st dp) 0 (reach ps per tabs len)) /\
    (forall q, (1 <= q /\ q * per * ps < len <= q * per * ps + ps)%nat -> reach ps per tabs len = (q * per * ps)%nat) /\
    (~ (exists q, (1 <= q /\ q * per * ps < len <= q * per * ps + ps)%nat) -> reach ps per tabs len = len)).
  { intros per hdr cnt cntf Hper Htab Hc1 Hc2. pose proof (tables_W st per hdr cnt tabs dp ltac:(lia) Htab cntf Hc1 Hc2) as HW. destruct Htab as [Htl _].
    pose proof (groups_spec (length dp) per ltac:(lia)) as Hg2. rewrite <- Htl in Hg2.
    assert (Htp : (0 < length tabs)%nat) by nia.
    split; [|split].
    - pose proof (whole_out_ok ps st ltac:(lia) Hst dp Hpg per hdr Hper tabs Htl cntf HW len Hdp (length tabs) 0 0 ltac:(lia) Htp ltac:(lia)) as E.
      cbn [Nat.mul] in E. rewrite !Nat.sub_0_r in E. exact E.
    - intros q [Hq1 Hq2]. assert (Hx : (length dp = q * per + 1)%nat) by (set (m := (q * per)%nat) in *; clearbody m; nia).
      assert (length tabs - 1 = q)%nat by nia. unfold reach. rewrite H. destruct (Nat.ltb_spec 1 (length tabs)); [|lia]. destruct (Nat.leb_spec len (q * per * ps + ps)); [reflexivity|lia].
    - intros Hno. unfold reach. destruct (Nat.ltb_spec 1 (length tabs)); [|reflexivity]. destruct (Nat.leb_spec len ((length tabs - 1) * per * ps + ps)); [|reflexivity].
      exfalso. apply Hno. exists (length tabs - 1)%nat. split; [lia|]. split; [nia|lia]. }
  assert (Hfin : forall R, (R <= len)%nat -> fill (Z.of_nat len) (sub (flat st dp) 0 R) junk = firstn R (content st dp len) ++ sub junk R (len - R)).
  { intros R HR. unfold fill. rewrite Nat2Z.id. rewrite sub_length by (rewrite (flat_len ps st Hst dp Hpg); lia). f_equal.
    unfold content. rewrite firstn_firstn. replace (Nat.min R len) with R by lia. reflexivity. }
  assert (Hfull : firstn len (content st dp len) ++ sub junk len (len - len) = content st dp len).
  { rewrite Nat.sub_diag, sub_nil, app_nil_r. rewrite <- Hcl at 1. apply firstn_all. }
  unfold get_all. rewrite Hd. destruct f.
  - destruct Hf as (Hp4 & Hn & Hsig & [Hl32 _] & Ht & Ha & Htab), Ho as (-> & -> & -> & ->).
    destruct (Z.eqb_spec (Z.of_nat len) 0); [lia|]. cbv zeta. unfold u32. rewrite Z.mod_small by lia. rewrite Nat2Z.id.
    destruct (Htwo per80 4%nat true (fun t => do c <- u32at t 0; Ok (i32 c)) ltac:(pose proof per80_Z; lia) Htab) as (E & E1 & E2).
    { intros p _ m Hm Hm'. pose proof (u32at_ok p 0 _ Hm') as E. change (Z.of_nat 0) with 0 in E. rewrite E. cbn [rbind]. f_equal. unfold i32. pose proof per80_Z. rewrite Z.mod_small by lia. lia. }
    { discriminate. }
    rewrite Hp4 in E. change (Z.of_nat 4) with 4 in E. rewrite E. cbn [rbind]. eexists. split; [reflexivity|].
    assert (HR : (reach ps per80 tabs len <= len)%nat).
    { unfold reach. destruct Htab as [Htl _]. pose proof (groups_spec (length dp) per80 per80_pos) as Hg2. rewrite <- Htl in Hg2. destruct (_ && _)%bool; [|lia]. pose proof per80_pos. nia. }
    rewrite Hfin by exact HR. split.
    + intros Hno. rewrite E2; [exact Hfull|exact Hno].
    + intros k [[_ ->]|[H _]]; [|discriminate]. intros q Hq. now rewrite (E1 q Hq).
  - destruct Hf as (Hn & Hsig & Hlen & Ht & Ha & _), Ho as (-> & -> & -> & -> & ->).
    destruct (Z.eqb_spec (Z.of_nat len) 0); [lia|]. cbv zeta. rewrite Z.eqb_refl, Nat2Z.id. change 0 with (Z.of_nat 0) at 1.
    rewrite (whole_dir_ok ps st dp ltac:(lia) Hst Hpg (length dp) 0 len) by lia. cbn [rbind]. eexists. split; [reflexivity|].
    cbn [Nat.mul]. rewrite Hfin by lia. split; [intros _; exact Hfull|]. intros k [[H _]|[H _]]; discriminate.
  - destruct Hf as (Hn & Hsig & Hlen & H63 & Ht & Ha & Htab), Ho as (-> & -> & -> & -> & ->). pose proof (quarter ps Hm4) as Hq4.
    destruct (Z.eqb_spec (Z.of_nat len) 0); [lia|]. cbv zeta. change (1 =? 0) with false. cbv iota. rewrite Nat2Z.id.
    destruct (Htwo (ps / 4)%nat 0%nat false (fun _ => Ok (Z.of_nat ps / 4)) ltac:(lia) Htab) as (E & E1 & E2).
    { discriminate. } { intros p _. f_equal. change 4 with (Z.of_nat 4). now rewrite <- Nat2Z.inj_div. }
    change (Z.of_nat 0) with 0 in E. rewrite E. cbn [rbind]. eexists. split; [reflexivity|].
    assert (HR : (reach ps (ps / 4) tabs len <= len)%nat).
    { unfold reach. destruct Htab as [Htl _]. pose proof (groups_spec (length dp) (ps / 4) ltac:(lia)) as Hg2. rewrite <- Htl in Hg2. destruct (_ && _)%bool; [|lia].
      set (q := (ps / 4)%nat) in *. clearbody q. nia. }
    rewrite Hfin by exact HR. split.
    + intros Hno. rewrite E2; [exact Hfull|exact Hno].
    + intros k [[H _]|[_ ->]]; [discriminate|]. intros q Hq. now rewrite (E1 q Hq).
  - destruct Hf as (Hps & -> & Hsig & (k & Hk & Hnum) & Hmax & _), Ho as (-> & Hol & rest & ->).
    destruct (Z.eqb_spec (o_len o) 0); [lia|]. cbv zeta. rewrite Hol. unfold u32. rewrite Z.mod_small by lia. rewrite Nat2Z.id. change 0 with (Z.of_nat 0).
    rewrite (whole_free_ok ps st dp rest Hps Hst Hpg) by lia. cbn [rbind]. eexists. split; [reflexivity|].
    cbn [Nat.mul]. rewrite Hfin by lia. split; [intros _; exact Hfull|]. intros k' [[H _]|[H _]]; discriminate.
Qed.
