(** Proofs about versions and packs of a depot. *)
From Coq Require Import Sorted.
From Verif Require Import Prelude Lists Codec_Spec Stream_Model Stream_Proofs Depot_Model Depot_Spec.
Ltac Zify.zify_post_hook ::= idtac.

(** ** Versions *)
Lemma increasing_all a l : increasing (a :: l) -> Forall (fun x => a < x) l.
Proof.
  revert a. induction l as [|b l IH]; intros a H; [constructor|]. destruct H as [H1 H2]. constructor; [exact H1|].
  specialize (IH b H2). eapply Forall_impl; [|exact IH]. intros x Hx. cbv beta in *. lia.
Qed.
Lemma filter_none {A} (f : A -> bool) l : Forall (fun x => f x = false) l -> filter f l = [].
Proof. induction 1 as [|x l H _ IH]; [reflexivity|]. cbn [filter]. rewrite H. exact IH. Qed.
Lemma filter_all {A} (f : A -> bool) l : Forall (fun x => f x = true) l -> filter f l = l.
Proof. induction 1 as [|x l H _ IH]; [reflexivity|]. cbn [filter]. rewrite H, IH. reflexivity. Qed.
Lemma newer_count vs : forall i, increasing vs -> (i < length vs)%nat -> forall v, nth_error vs i = Some v -> zlen (filter (fun x => v <? x) vs) = zlen vs - 1 - Z.of_nat i.
Proof.
  induction vs as [|a vs IH]; intros i HI HL v HV; [cbn [length] in HL; lia|]. pose proof (increasing_all a vs HI) as HA.
  destruct i as [|i].
  - injection HV as <-. cbn [filter]. rewrite Z.ltb_irrefl. rewrite filter_all; [rewrite zlen_cons; lia|]. eapply Forall_impl; [|exact HA]. intros x Hx. cbv beta in *. apply Z.ltb_lt. exact Hx.
  - cbn [nth_error] in HV. cbn [length] in HL. assert (HI' : increasing vs) by (destruct vs; [exact I|destruct HI; assumption]).
    specialize (IH i HI' ltac:(lia) v HV). cbn [filter]. assert (a < v) by (rewrite Forall_forall in HA; apply HA; apply nth_error_In in HV; exact HV).
    destruct (Z.ltb_spec v a); [lia|]. rewrite IH, zlen_cons. lia.
Qed.
Lemma resolve_ok vs ver : increasing vs -> zlen vs < 2^32 -> Forall (fun v => -2^31 <= v < 2^31) vs -> -2^31 < ver <= 0 ->
  (- ver < zlen vs -> exists v, resolve vs ver = Ok v /\ nth_newest vs (- ver) v) /\ (zlen vs <= - ver -> resolve vs ver = Throw).
Proof.
  intros HI HL HR HV. unfold resolve. destruct (Z.ltb_spec 0 ver); [lia|]. destruct (Z.ltb_spec (- ver) (2^31)) as [L|L]; [|lia]. cbn [negb].
  pose proof (zlen_nonneg vs). assert (EN : u32 (zlen vs) = zlen vs) by (apply Z.mod_small; lia). assert (EV : u32 (- ver) = - ver) by (apply Z.mod_small; lia). rewrite EN, EV. split; intros HK.
  - destruct (Z.leb_spec (zlen vs) (- ver)); [lia|]. assert (EI : u32 (zlen vs + ver - 1) = zlen vs + ver - 1) by (apply Z.mod_small; lia). rewrite EI.
    assert (HLT : (Z.to_nat (zlen vs + ver - 1) < length vs)%nat) by (unfold zlen in *; lia).
    destruct (nth_error vs (Z.to_nat (zlen vs + ver - 1))) as [v|] eqn:E; [|apply nth_error_None in E; lia].
    rewrite (rd_ok vs _ v) by (lia || exact E). cbn [rbind]. pose proof (nth_error_In _ _ E) as HIN. rewrite Forall_forall in HR. specialize (HR v HIN).
    destruct (Z.leb_spec (-2^31) v); [|lia]. destruct (Z.ltb_spec v (2^31)); [|lia]. cbn [andb]. exists v. split; [reflexivity|]. split; [exact HIN|].
    rewrite (newer_count vs _ HI HLT v E). rewrite Z2Nat.id by lia. lia.
  - destruct (Z.leb_spec (zlen vs) (- ver)); [reflexivity|lia].
Qed.
Lemma find_version_ok rows ver : (In ver rows -> find_version rows ver = Ok ver) /\ (~ In ver rows -> find_version rows ver = Throw).
Proof.
  induction rows as [|v t [IH1 IH2]]; [split; [intros []|reflexivity]|]. cbn [find_version]. destruct (Z.eqb_spec v ver) as [->|N].
  - split; [reflexivity|]. intros H. exfalso. apply H. left. reflexivity.
  - split; intros H; [apply IH1; destruct H; [congruence|assumption]|apply IH2; intros H2; apply H; right; exact H2].
Qed.

(** ** Packs *)
Lemma num_le w : forall n, num w n = le_bytes w n.
Proof.
  induction w as [|w IH]; intros n; [reflexivity|]. cbn [le_bytes]. rewrite <- IH. unfold num. cbn [seq map]. f_equal; [change (256 ^ Z.of_nat 0) with 1; rewrite Z.div_1_r; reflexivity|].
  rewrite <- seq_shift, map_map. apply map_ext. intros i. rewrite Nat2Z.inj_succ, Z.pow_succ_r by lia. rewrite Z.div_div by (try apply Z.pow_pos_nonneg; lia). reflexivity.
Qed.
Lemma num_len w n : length (num w n) = w. Proof. rewrite num_le. apply le_bytes_length. Qed.
Lemma num8_i64 n : 0 <= n < 2^63 -> i64 (le_val (num 8 n)) = n.
Proof. intros H. rewrite num_le, le_val_bytes_small by (change (256 ^ Z.of_nat 8) with (2^64); lia). apply i64_small. lia. Qed.

Lemma take_ok recs : Forall (fun '(h, o) => length h = 20%nat /\ 0 <= o < 2^63) recs -> take_records (length recs) (concat (map (fun '(h, o) => h ++ num 8 o) recs)) = recs.
Proof.
  induction 1 as [|[h o] recs [H1 H2] _ IH]; [reflexivity|]. cbn [length take_records map concat].
  set (rest := concat (map (fun '(h0, o0) => h0 ++ num 8 o0) recs)) in *. assert (HL : length (h ++ num 8 o) = 28%nat) by (rewrite app_length, num_len; lia).
  assert (F28 : firstn 28 ((h ++ num 8 o) ++ rest) = h ++ num 8 o) by (rewrite firstn_app, HL, Nat.sub_diag, firstn_O, app_nil_r; apply firstn_all2; lia).
  assert (S28 : skipn 28 ((h ++ num 8 o) ++ rest) = rest) by (rewrite skipn_app, HL, Nat.sub_diag, skipn_all2 by lia; reflexivity).
  rewrite F28, S28, HL, Nat.sub_diag. cbn [repeat]. rewrite app_nil_r, IH.
  assert (F20 : firstn 20 (h ++ num 8 o) = h) by (rewrite firstn_app, H1, Nat.sub_diag, firstn_O, app_nil_r; apply firstn_all2; lia).
  assert (S20 : skipn 20 (h ++ num 8 o) = num 8 o) by (rewrite skipn_app, H1, Nat.sub_diag, skipn_all2 by lia; reflexivity).
  rewrite F20, S20, num8_i64 by exact H2. reflexivity.
Qed.
Lemma offsets_ok items : forall a, 0 <= a -> Forall (fun '(h, _) => length h = 20%nat /\ bytes_ok h) items -> a + zlen (concat (map (fun '(_, d) => item_bytes d) items)) < 2^62 ->
  Forall (fun '(h, o) => length h = 20%nat /\ 0 <= o < 2^63) (offsets a items) /\ length (offsets a items) = length items.
Proof.
  induction items as [|[h d] items IH]; intros a HA HF HS; [split; [constructor|reflexivity]|]. inversion HF as [|x y FX F3]. subst. destruct FX as [F1 F2]. cbn [offsets length].
  cbn [map concat] in HS. rewrite zlen_app in HS. unfold item_bytes in HS at 1. rewrite zlen_app in HS. assert (E8 : zlen (num 8 (zlen d)) = 8) by (unfold zlen at 1; rewrite num_len; reflexivity). rewrite E8 in HS.
  pose proof (zlen_nonneg d). pose proof (zlen_nonneg (concat (map (fun '(_, d0) => item_bytes d0) items))).
  destruct (IH (a + 8 + zlen d)) as [I1 I2]; [lia|exact F3|lia|]. split; [constructor; [split; [exact F1|lia]|exact I1]|rewrite I2; reflexivity].
Qed.
Lemma recs_len recs : Forall (fun '(h, o) => length h = 20%nat /\ 0 <= o < 2^63) recs -> zlen (concat (map (fun '(h, o) => h ++ num 8 o) recs)) = 28 * zlen recs.
Proof.
  induction 1 as [|[h o] recs [H1 H2] _ IH]; [reflexivity|]. cbn [map concat]. rewrite zlen_app, IH, zlen_cons. unfold zlen at 1. rewrite app_length, num_len, H1. lia.
Qed.
Lemma index_ok head8 head items : pack_ok head8 head items -> read_index (index_file head8 head items) = Ok (offsets (zlen head) items).
Proof.
  intros [P1 P2 P4 P5]. unfold read_index. set (recs := offsets (zlen head) items). unfold pack_file in P5. rewrite zlen_app in P5.
  destruct (offsets_ok items (zlen head) (zlen_nonneg head) P2 P5) as [O1 O2]. fold recs in O1, O2.
  set (body := concat (map (fun '(h, o) => h ++ num 8 o) recs)). assert (EF : index_file head8 head items = head8 ++ num 4 (zlen items) ++ body) by reflexivity. rewrite EF.
  assert (E4 : zlen (num 4 (zlen items)) = 4) by (unfold zlen at 1; rewrite num_len; reflexivity). assert (E8 : zlen head8 = 8) by (unfold zlen; rewrite P1; reflexivity).
  pose proof (zlen_nonneg body). unfold fs_seek, fs_open. cbn [fs_size fs_data fs_pos fs_fail]. rewrite !zlen_app, E8, E4. destruct (Z.ltb_spec (8 + (4 + zlen body)) 8); [lia|]. cbn [rbind].
  unfold fs_read. cbn [fs_pos fs_data fs_size]. change (8 <? 0) with false. cbn iota. change (Z.to_nat 8) with 8%nat. change (Z.to_nat 4) with 4%nat.
  rewrite skipn_app, P1, Nat.sub_diag, skipn_all2 by lia. rewrite app_nil_l. change (skipn 0 (num 4 (zlen items) ++ body)) with (num 4 (zlen items) ++ body).
  rewrite firstn_app, num_len, Nat.sub_diag, firstn_O, app_nil_r, firstn_all2 by (rewrite num_len; lia). rewrite E4. change (4 <? 4) with false. cbn iota. cbn [fs_pos fs_data fs_size snd].
  change (8 + 4 <? 0) with false. cbn iota. change (Z.to_nat (8 + 4)) with 12%nat.
  assert (ES : skipn 12 (head8 ++ num 4 (zlen items) ++ body) = body).
  { rewrite skipn_app, P1. change (12 - 8)%nat with 4%nat. rewrite skipn_all2 by lia. rewrite app_nil_l, skipn_app, num_len, Nat.sub_diag, skipn_all2 by (rewrite num_len; lia). reflexivity. }
  rewrite ES. pose proof (zlen_nonneg items). rewrite num_le, le_val_bytes_small by (change (256 ^ Z.of_nat 4) with (2^32); lia).
  cbn [snd]. pose proof (recs_len recs O1) as HRL. fold body in HRL. rewrite firstn_all2 by (unfold zlen in *; lia).
  f_equal. replace (Z.to_nat (zlen items)) with (length recs) by (unfold zlen; lia). apply take_ok. exact O1.
Qed.

Lemma item_at file pre d post : file = pre ++ item_bytes d ++ post -> zlen file < 2^62 -> forall pos fail, exists p',
  (let (p, r) := fs_seek (FS file pos (zlen file) fail) (zlen pre) Beg in
   do _ <- r; let (p, l) := fs_read p 8 in let len := i64 (le_val (l ++ repeat 0 (8 - length l))) in Ok (copy_new p len)) = Ok (p', match d with [] => file | _ => d end) /\
  fs_data p' = file /\ fs_size p' = zlen file.
Proof.
  intros EF HS pos fail. assert (ZF : zlen file = zlen pre + 8 + zlen d + zlen post).
  { rewrite EF, !zlen_app. unfold item_bytes. rewrite zlen_app. assert (E8 : zlen (num 8 (zlen d)) = 8) by (unfold zlen at 1; rewrite num_len; reflexivity). lia. }
  pose proof (zlen_nonneg pre). pose proof (zlen_nonneg d). pose proof (zlen_nonneg post).
  unfold fs_seek. cbn [fs_size fs_data fs_fail]. destruct (Z.ltb_spec (zlen file) (zlen pre)); [lia|]. cbn [rbind]. unfold fs_read at 1. cbn [fs_pos fs_data fs_size].
  destruct (Z.ltb_spec (zlen pre) 0); [lia|]. change (Z.to_nat 8) with 8%nat.
  assert (E1 : skipn (Z.to_nat (zlen pre)) file = num 8 (zlen d) ++ d ++ post).
  { rewrite EF. unfold zlen at 1. rewrite Nat2Z.id, skipn_app, skipn_all, Nat.sub_diag. unfold item_bytes. rewrite <- app_assoc. reflexivity. }
  rewrite E1. rewrite firstn_app, num_len, Nat.sub_diag, firstn_O, app_nil_r, firstn_all2 by (rewrite num_len; lia).
  rewrite num_len, Nat.sub_diag. cbn [repeat]. rewrite app_nil_r, num8_i64 by lia. unfold copy_new.
  destruct (Z.eqb_spec (zlen d) 0) as [E0|N0].
  - assert (d = []) by (apply length_zero_iff_nil; unfold zlen in E0; lia). subst d. unfold fs_seek. cbn [fs_size fs_data fs_fail]. destruct (Z.ltb_spec (zlen file) 0); [pose proof (zlen_nonneg file); lia|].
    cbn [fs_size]. destruct (Z.eqb_spec (zlen file) 0); [lia|]. destruct (Z.leb_spec (zlen file) 0); [lia|]. unfold fs_read. cbn [fs_pos fs_data fs_size]. change (0 <? 0) with false. cbn iota. change (Z.to_nat 0) with 0%nat. cbn [skipn].
    rewrite firstn_all2 by (unfold zlen; lia). destruct file as [|x file]; [change (zlen []) with 0 in ZF; lia|]. eexists. repeat apply conj; reflexivity.
  - destruct (Z.leb_spec (zlen d) 0); [lia|]. unfold fs_read. cbn [fs_pos fs_data fs_size]. assert (E8 : zlen (num 8 (zlen d)) = 8) by (unfold zlen at 1; rewrite num_len; reflexivity). rewrite E8.
    destruct (Z.ltb_spec (zlen pre + 8) 0); [lia|].
    assert (E2 : skipn (Z.to_nat (zlen pre + 8)) file = d ++ post).
    { replace (Z.to_nat (zlen pre + 8)) with (Z.to_nat (zlen pre) + 8)%nat by lia. rewrite <- skipn_plus, E1, skipn_app, num_len, Nat.sub_diag, skipn_all2 by (rewrite num_len; lia). reflexivity. }
    rewrite E2. assert (ED : Z.to_nat (zlen d) = length d) by (unfold zlen; lia). rewrite ED, firstn_app, firstn_all, Nat.sub_diag, firstn_O, app_nil_r. destruct d as [|x d]; [exfalso; apply N0; reflexivity|]. eexists. repeat apply conj; reflexivity.
Qed.
(** what a lookup hands out: for an item of no bytes, the whole pack *)
Definition shown_data (file : list Z) (d : list Z) : list Z := match d with [] => file | _ => d end.
Lemma pack_get_ok file hash items : forall pre pos fail acc, file = pre ++ concat (map (fun '(_, d) => item_bytes d) items) -> zlen file < 2^62 ->
  pack_get (offsets (zlen pre) items) (FS file pos (zlen file) fail) hash acc = Ok (match assoc hash items with Some d => Some (shown_data file d) | None => acc end).
Proof.
  induction items as [|[h d] items IH]; intros pre pos fail acc EF HS; [reflexivity|]. cbn [map concat fst] in *. cbn [offsets pack_get assoc].
  assert (EF2 : file = (pre ++ item_bytes d) ++ concat (map (fun '(_, d) => item_bytes d) items)) by (rewrite EF at 1; rewrite app_assoc; reflexivity).
  assert (E8 : zlen (num 8 (zlen d)) = 8) by (unfold zlen at 1; rewrite num_len; reflexivity).
  assert (EZ : zlen pre + 8 + zlen d = zlen (pre ++ item_bytes d)) by (rewrite zlen_app; unfold item_bytes; rewrite zlen_app; lia). rewrite EZ.
  destruct (list_eq_dec Z.eq_dec hash h) as [->|NE]; [|rewrite IH by assumption; destruct (assoc hash items); reflexivity].
  destruct (item_at file pre d (concat (map (fun '(_, d) => item_bytes d) items)) EF HS pos fail) as (p' & E & D1 & D2).
  destruct (fs_seek (FS file pos (zlen file) fail) (zlen pre) Beg) as [p r]. destruct r as [o| | |]; cbn [rbind] in E |- *; [|discriminate E..].
  destruct (fs_read p 8) as [p2 l]. cbv zeta in E |- *. match type of E with Ok ?a = Ok ?b => assert (E' : a = b) by congruence end. rewrite E'.
  destruct p' as [df po sz fl]. cbn [fs_data fs_size] in D1, D2. subst df sz. rewrite (IH _ po fl _ EF2 HS). destruct (assoc h items); reflexivity.
Qed.
Lemma dir_ok loose hash packs : Forall (fun '(h8, hd, items) => pack_ok h8 hd items) packs ->
  dir_get (map (fun '(h8, hd, items) => (index_file h8 hd items, pack_file hd items)) packs) loose hash =
  Ok (first_pack hash (map (fun '(h8, hd, items) => map (fun '(k, d) => (k, shown_data (pack_file hd items) d)) items) packs) (loose hash)).
Proof.
  induction 1 as [|[[h8 hd] items] packs HP _ IH]; [reflexivity|]. cbn [map dir_get]. rewrite index_ok by exact HP. cbn [rbind]. unfold fs_open.
  rewrite (pack_get_ok (pack_file hd items) hash items hd 0 false None eq_refl) by (destruct HP; assumption). cbn [rbind first_pack].
  assert (EA : assoc hash (map (fun '(k, d) => (k, shown_data (pack_file hd items) d)) items) = match assoc hash items with Some d => Some (shown_data (pack_file hd items) d) | None => None end).
  { generalize (pack_file hd items). intros f. clear. induction items as [|[k d] items IH]; [reflexivity|]. cbn [map assoc]. rewrite IH. destruct (assoc hash items); [reflexivity|]. destruct (list_eq_dec Z.eq_dec hash k); reflexivity. }
  rewrite EA. destruct (assoc hash items) as [d|]; [reflexivity|exact IH].
Qed.
Lemma dir_any loose hash packs : Forall (fun '(h8, hd, items) => pack_ok h8 hd items) packs ->
  dir_get (map (fun '(h8, hd, items) => (index_file h8 hd items, pack_file hd items)) packs) loose hash =
  Ok (first_pack hash (map (fun '(_, hd, items) => map (fun '(k, d) => (k, match d with [] => pack_file hd items | _ => d end)) items) packs) (loose hash)).
Proof. exact (dir_ok loose hash packs). Qed.
Lemma dir_nonempty loose hash packs : Forall (fun '(h8, hd, items) => pack_ok h8 hd items) packs -> Forall (fun '(_, _, items) => Forall (fun '(_, d) => d <> []) items) packs ->
  dir_get (map (fun '(h8, hd, items) => (index_file h8 hd items, pack_file hd items)) packs) loose hash = Ok (first_pack hash (map snd packs) (loose hash)).
Proof.
  intros H1 H2. rewrite dir_any by exact H1. do 2 f_equal. clear H1. induction H2 as [|[[h8 hd] items] packs HN _ IH]; [reflexivity|]. cbn [map snd]. f_equal; [|exact IH].
  generalize (pack_file hd items). intros file. induction HN as [|[k d] items HD _ IHi]; [reflexivity|]. cbn [map]. rewrite IHi. destruct d; [congruence|reflexivity].
Qed.
Lemma assoc_map file hash items d : assoc hash items = Some d -> assoc hash (map (fun '(k, d) => (k, match d with [] => file | _ => d end)) items) = Some (match d with [] => file | _ => d end).
Proof.
  intros H. assert (E : assoc hash (map (fun '(k, d) => (k, match d with [] => file | _ => d end)) items) = option_map (fun d => match d with [] => file | _ => d end) (assoc hash items)).
  { clear. induction items as [|[k x] items IH]; [reflexivity|]. cbn [map assoc]. rewrite IH. destruct (assoc hash items); [reflexivity|]. destruct (list_eq_dec Z.eq_dec hash k); reflexivity. }
  rewrite E, H. reflexivity.
Qed.
Lemma dir_empty h8 hd items loose hash : pack_ok h8 hd items -> assoc hash items = Some [] ->
  dir_get [(index_file h8 hd items, pack_file hd items)] loose hash = Ok (Some (pack_file hd items)) /\ pack_file hd items <> [].
Proof.
  intros HP HA. split.
  - pose proof (dir_any loose hash [(h8, hd, items)]) as H. cbn [map] in H. rewrite H by (constructor; [exact HP|constructor]). cbn [first_pack]. rewrite (assoc_map _ _ _ _ HA). reflexivity.
  - unfold pack_file. destruct items as [|[k d] items]; [discriminate|]. cbn [map concat]. destruct hd; discriminate.
Qed.
