(** Objects of every admissible length and content exist: a store holding one object, used
    to show that the hypotheses of the object theorems can be met at any size. *)
From Coq Require FinFun.
From Verif Require Import Prelude Lists Obj_Model Obj_Spec Obj_Proofs.
Ltac Zify.zify_post_hook ::= idtac.

Definition enc (vs : list Z) : list Z := concat (map (le_bytes 4) vs).
Definition pad (ps : nat) (l : list Z) : list Z := l ++ repeat 0 (ps - length l).
Definition zseq (a n : nat) : list Z := map Z.of_nat (seq a n).

Lemma enc_len vs : length (enc vs) = (4 * length vs)%nat.
Proof. unfold enc. rewrite (concat_len _ 4); [rewrite map_length; lia|]. apply Forall_map, Forall_forall. intros x _. apply le_bytes_length. Qed.
Lemma enc_nth vs i v : nth_error vs i = Some v -> sub (enc vs) (4 * i) 4 = le_bytes 4 v.
Proof.
  intros H. unfold enc. rewrite Nat.mul_comm. apply concat_nth.
  - apply Forall_map, Forall_forall. intros x _. apply le_bytes_length.
  - rewrite nth_error_map, H. reflexivity.
Qed.
Lemma sub_app_l {A} (a b : list A) o n : (o + n <= length a)%nat -> sub (a ++ b) o n = sub a o n.
Proof. intros H. unfold sub. rewrite skipn_app, firstn_app, skipn_length. replace (n - (length a - o))%nat with 0%nat by lia. cbn. now rewrite app_nil_r. Qed.
Lemma sub_app_r {A} (a b : list A) o n : (length a <= o)%nat -> sub (a ++ b) o n = sub b (o - length a) n.
Proof. intros H. unfold sub. rewrite skipn_app, (skipn_all2 a) by lia. reflexivity. Qed.
Lemma enc_array pre vs post off : length pre = off -> Forall (fun v => 0 <= v < 2^32) vs -> array_at (pre ++ enc vs ++ post) off vs.
Proof.
  intros <- Hv i v Hi. assert (Hl : (i < length vs)%nat) by (apply nth_error_Some; congruence). split.
  - rewrite Forall_forall in Hv. apply Hv. eapply nth_error_In; eauto.
  - rewrite sub_app_r by lia. rewrite sub_app_l by (rewrite enc_len; lia). replace (length pre + 4 * i - length pre)%nat with (4 * i)%nat by lia. now apply enc_nth.
Qed.
Lemma zeros_ok n : bytes_ok (repeat 0 n).
Proof. apply Forall_forall. intros x Hx. apply repeat_spec in Hx. subst. split; lia. Qed.
Lemma enc_ok vs : bytes_ok (enc vs).
Proof. unfold enc, bytes_ok. apply Forall_concat, Forall_map, Forall_forall. intros x _. apply le_bytes_ok. Qed.
Lemma pad_len ps l : (length l <= ps)%nat -> length (pad ps l) = ps.
Proof. intros H. unfold pad. rewrite app_length, repeat_length. lia. Qed.
Lemma pad_ok ps l : bytes_ok l -> bytes_ok (pad ps l).
Proof. intros H. apply bytes_ok_app. split; [exact H|apply zeros_ok]. Qed.
Lemma zseq_len a n : length (zseq a n) = n.
Proof. unfold zseq. now rewrite map_length, seq_length. Qed.
Lemma zseq_nth a n i b : nth_error (zseq a n) i = Some b -> b = Z.of_nat (a + i) /\ (i < n)%nat.
Proof.
  intros H. assert (i < n)%nat by (rewrite <- (zseq_len a n); apply nth_error_Some; congruence). unfold zseq in H. rewrite nth_error_map in H.
  rewrite (nth_error_nth' _ 0%nat) in H by (rewrite seq_length; lia). rewrite seq_nth in H by lia. cbn in H. split; [congruence|lia].
Qed.
Lemma zseq_range a n : Z.of_nat (a + n) < 2^32 -> Forall (fun v => 0 <= v < 2^32) (zseq a n).
Proof. intros H. apply Forall_forall. intros x Hx. unfold zseq in Hx. apply in_map_iff in Hx. destruct Hx as (y & <- & Hy). apply in_seq in Hy. lia. Qed.
Lemma zseq_nodup a n : NoDup (zseq a n).
Proof. unfold zseq. apply FinFun.Injective_map_NoDup; [intros x y; apply Nat2Z.inj|apply seq_NoDup]. Qed.
Lemma zseq_app a n m : zseq a n ++ zseq (a + n) m = zseq a (n + m).
Proof. unfold zseq. now rewrite seq_app, map_app. Qed.

Definition ntabs (f : fmt) (ps n : nat) : nat := match f with F80 | F838_deep => groups n (per_of f ps) | _ => 0%nat end.
Definition mk_header (f : fmt) (len : nat) (tabs dp : list Z) : list Z :=
  match f with
  | F80 => sig_obj ++ le_bytes 4 (Z.of_nat len) ++ repeat 0 12 ++ enc tabs
  | F838_flat => [28; 253; 0; 0] ++ repeat 0 12 ++ le_bytes 8 (Z.of_nat len) ++ enc dp
  | F838_deep => [28; 253; 1; 0] ++ repeat 0 12 ++ le_bytes 8 (Z.of_nat len) ++ enc tabs
  | FFree => sig_obj ++ le_bytes 4 (Z.of_nat len / 4) ++ repeat 0 12 ++ enc (dp ++ [0])
  end.
Definition mk_table (f : fmt) (ps : nat) (dp : list Z) (j : nat) : list Z :=
  let c := sub dp (j * per_of f ps) (per_of f ps) in
  match f with F80 => le_bytes 4 (Z.of_nat (length c)) ++ enc c | _ => enc c end.
Definition mk_dp (f : fmt) (ps n : nat) : list Z := zseq (3 + ntabs f ps n) n.
Definition mk_tabs (f : fmt) (ps n : nat) : list Z := zseq 3 (ntabs f ps n).
Definition mk_hn (f : fmt) : Z := match f with FFree => 1 | _ => 2 end.
Definition mk_store (f : fmt) (ps len : nat) (pages : list (list Z)) : store :=
  let n := length pages in
  let h := pad ps (mk_header f len (mk_tabs f ps n) (mk_dp f ps n)) in
  [repeat 0 ps] ++ match f with FFree => [h; repeat 0 ps] | _ => [repeat 0 ps; h] end ++
  map (fun j => pad ps (mk_table f ps (mk_dp f ps n) j)) (seq 0 (ntabs f ps n)) ++ pages.

(** room in the header page *)
Definition fits (f : fmt) (ps len n : nat) : Prop :=
  match f with
  | F80 => Z.of_nat ps = 4096 /\ Z.of_nat (ntabs F80 ps n) <= 1018 /\ Z.of_nat len < 2^32
  | F838_flat => (n <= ps / 4 - 6)%nat
  | F838_deep => (ntabs F838_deep ps n <= ps / 4 - 6)%nat /\ Z.of_nat len < 2^63
  | FFree => Z.of_nat ps = 4096 /\ Z.of_nat n < 1018 /\ Z.of_nat len < 2^32 /\ (len mod 4 = 0)%nat
  end.

Lemma nth_sub {A} (l : list A) o n i x : nth_error (sub l o n) i = Some x -> nth_error l (o + i) = Some x /\ (i < n)%nat.
Proof. rewrite nth_error_sub. destruct (Nat.ltb_spec i n); [auto|discriminate]. Qed.
Lemma sub_len_le {A} (l : list A) o n : (length (sub l o n) <= n)%nat.
Proof. unfold sub. rewrite firstn_length. lia. Qed.
Lemma Forall_sub {A} (P : A -> Prop) l o n : Forall P l -> Forall P (sub l o n).
Proof. intros H. unfold sub. now apply Forall_firstn', Forall_skipn'. Qed.

Section M.
Context (f : fmt) (ps len : nat) (pages : list (list Z)) (H32 : (32 <= ps)%nat) (Hm : (ps mod 4 = 0)%nat) (H17 : Z.of_nat ps < 2^17)
  (Hl : Forall (fun p => length p = ps) pages) (Hb : Forall bytes_ok pages) (Hn : length pages = groups len ps)
  (Hf : fits f ps len (length pages)) (Htot : Z.of_nat (3 + ntabs f ps (length pages) + length pages) < 2^32).

Let n := length pages.
Let st := mk_store f ps len pages.
Let T := ntabs f ps n.

Lemma tabs_ok : Forall (fun v => 0 <= v < 2^32) (mk_tabs f ps n).
Proof. apply zseq_range. fold n in Htot. lia. Qed.
Lemma dp_ok : Forall (fun v => 0 <= v < 2^32) (mk_dp f ps n).
Proof. apply zseq_range. fold n in Htot. lia. Qed.

Lemma mk_tab_page j : (j < T)%nat -> nth_error st (3 + j) = Some (pad ps (mk_table f ps (mk_dp f ps n) j)).
Proof.
  intros Hj. unfold st, mk_store. fold n. rewrite app_assoc, nth_error_app2 by (destruct f; cbn; lia).
  replace (3 + j - _)%nat with j by (destruct f; cbn; lia). rewrite nth_error_app1 by (rewrite map_length, seq_length; exact Hj).
  rewrite nth_error_map, (nth_error_nth' _ 0%nat) by (rewrite seq_length; exact Hj). rewrite seq_nth by exact Hj. reflexivity.
Qed.
Lemma mk_data_page j p : nth_error pages j = Some p -> nth_error st (3 + T + j) = Some p.
Proof.
  intros Hj. unfold st, mk_store. fold n. rewrite app_assoc, nth_error_app2 by (destruct f; cbn; lia).
  replace (3 + T + j - _)%nat with (T + j)%nat by (destruct f; cbn; lia). rewrite nth_error_app2 by (rewrite map_length, seq_length; fold T; lia).
  rewrite map_length, seq_length. fold T. replace (T + j - T)%nat with j by lia. exact Hj.
Qed.
Lemma mk_dp_page c b : nth_error (mk_dp f ps n) c = Some b -> exists p, nth_error pages c = Some p /\ page_is st b p.
Proof.
  intros H. apply zseq_nth in H. destruct H as [-> Hc]. fold T. fold n in Htot. fold T in Htot.
  destruct (nth_error pages c) as [p|] eqn:E; [|apply nth_error_None in E; fold n in E; lia]. exists p. split; [reflexivity|]. split; [lia|].
  rewrite Nat2Z.id. now apply mk_data_page.
Qed.
Lemma mk_flat : flat st (mk_dp f ps n) = concat pages.
Proof.
  unfold flat. f_equal. apply nth_error_ext. intros i. rewrite nth_error_map.
  destruct (nth_error (mk_dp f ps n) i) as [b|] eqn:E; cbn [option_map].
  - destruct (mk_dp_page i b E) as (p & Hp & [_ Hq]). rewrite Hp. f_equal. now apply nth_error_nth_Z.
  - apply nth_error_None in E. unfold mk_dp in E. rewrite zseq_len in E. symmetry. apply nth_error_None. exact E.
Qed.

Lemma mk_header_len : (length (mk_header f len (mk_tabs f ps n) (mk_dp f ps n)) <= ps)%nat.
Proof.
  pose proof (quarter ps Hm) as Hq. unfold mk_header. fold n in Hf.
  assert (E1 : length (mk_tabs f ps n) = T) by apply zseq_len. assert (E2 : length (mk_dp f ps n) = n) by apply zseq_len.
  unfold T in E1. destruct f; cbn [fits] in Hf; rewrite ?app_length, ?enc_len, ?app_length, ?repeat_length, ?le_bytes_length, ?E1, ?E2;
    change (length sig_obj) with 8%nat; cbn [length]; set (q := (ps / 4)%nat) in *; clearbody q; lia.
Qed.
Lemma mk_header_ok : bytes_ok (mk_header f len (mk_tabs f ps n) (mk_dp f ps n)).
Proof.
  assert (Hs : bytes_ok sig_obj) by (apply bytes_okb_spec; reflexivity).
  destruct f; unfold mk_header; repeat (apply bytes_ok_app; split); try apply enc_ok; try apply le_bytes_ok; try apply zeros_ok; try exact Hs; apply bytes_okb_spec; reflexivity.
Qed.
Lemma mk_table_len j : f = F80 \/ f = F838_deep -> (length (mk_table f ps (mk_dp f ps n) j) <= ps)%nat.
Proof.
  pose proof (quarter ps Hm) as Hq. pose proof (sub_len_le (mk_dp f ps n) (j * per_of f ps) (per_of f ps)) as Hs.
  unfold mk_table. set (c := sub _ _ _) in *. clearbody c. intros [->| ->]; cbn [per_of] in Hs; rewrite ?app_length, ?enc_len, ?le_bytes_length.
  - cbn [fits] in Hf. destruct Hf as [Hf' _]. pose proof per80_Z. lia.
  - lia.
Qed.
Lemma mk_table_ok j : bytes_ok (mk_table f ps (mk_dp f ps n) j).
Proof. unfold mk_table. destruct f; try apply enc_ok. apply bytes_ok_app; split; [apply le_bytes_ok|apply enc_ok]. Qed.

Lemma T_kind : (0 < T)%nat -> f = F80 \/ f = F838_deep.
Proof. unfold T, ntabs. destruct f; intros; auto; lia. Qed.

Lemma mk_all : Forall (fun p => length p = ps /\ bytes_ok p) st.
Proof.
  assert (Hz : length (repeat 0 ps) = ps /\ bytes_ok (repeat 0 ps)) by (split; [apply repeat_length|apply zeros_ok]).
  assert (Hh : length (pad ps (mk_header f len (mk_tabs f ps n) (mk_dp f ps n))) = ps /\ bytes_ok (pad ps (mk_header f len (mk_tabs f ps n) (mk_dp f ps n)))).
  { split; [apply pad_len, mk_header_len|apply pad_ok, mk_header_ok]. }
  unfold st, mk_store. fold n. apply Forall_app. split; [constructor; [exact Hz|constructor]|]. apply Forall_app. split.
  - destruct f; (constructor; [first [exact Hh|exact Hz]|constructor; [first [exact Hh|exact Hz]|constructor]]).
  - apply Forall_app. split.
    + apply Forall_map, Forall_forall. intros j Hj. apply in_seq in Hj. fold T in Hj. assert (Hk : f = F80 \/ f = F838_deep) by (apply T_kind; lia).
      split; [apply pad_len, mk_table_len, Hk|apply pad_ok, mk_table_ok].
    + rewrite Forall_forall in *. intros p Hp. split; auto.
Qed.

Lemma mk_tables : f = F80 \/ f = F838_deep ->
  tables st (per_of f ps) (match f with F80 => 4 | _ => 0 end) (match f with F80 => true | _ => false end) (mk_tabs f ps n) (mk_dp f ps n).
Proof.
  intros Hk. split.
  - unfold mk_tabs, mk_dp. rewrite !zseq_len. unfold ntabs. destruct Hk as [->| ->]; reflexivity.
  - intros j t Ht. apply zseq_nth in Ht. destruct Ht as [-> Hj]. fold T in Hj. exists (pad ps (mk_table f ps (mk_dp f ps n) j)).
    split; [split; [fold n in Htot; fold T in Htot; lia|rewrite Nat2Z.id; now apply mk_tab_page]|].
    pose proof (sub_len_le (mk_dp f ps n) (j * per_of f ps) (per_of f ps)) as Hs.
    pose proof (Forall_sub _ _ (j * per_of f ps) (per_of f ps) dp_ok) as Hr.
    unfold mk_table, pad. set (c := sub _ _ _) in *. clearbody c. destruct Hk as [->| ->].
    + split.
      * rewrite <- app_assoc. apply enc_array; [apply le_bytes_length|exact Hr].
      * intros _. cbn [per_of] in Hs. pose proof per80_Z. split; [lia|]. rewrite <- app_assoc, sub_app_l by (rewrite le_bytes_length; lia).
        rewrite <- (le_bytes_length 4 (Z.of_nat (length c))) at 1. apply sub_all.
    + split; [|discriminate]. change (enc c ++ ?r) with ([] ++ enc c ++ r). apply enc_array; [reflexivity|exact Hr].
Qed.

Lemma mk_head : page_is st (mk_hn f) (pad ps (mk_header f len (mk_tabs f ps n) (mk_dp f ps n))).
Proof. split; [destruct f; cbn; lia|]. unfold st, mk_store. fold n. destruct f; reflexivity. Qed.

Lemma mk_stored : stored ps f st (mk_hn f) len (mk_tabs f ps n) (mk_dp f ps n).
Proof.
  pose proof mk_all as Ha. pose proof mk_head as Hh. pose proof mk_tables as Ht. pose proof tabs_ok as Htk. pose proof dp_ok as Hdk.
  assert (E1 : length (mk_tabs f ps n) = T) by apply zseq_len. assert (E2 : length (mk_dp f ps n) = n) by apply zseq_len.
  split; [eapply Forall_impl; [|exact Ha]; now intros p []|]. split; [eapply Forall_impl; [|exact Ha]; now intros p []|].
  split; [exact H32|]. split; [exact Hm|]. split; [exact H17|]. split; [rewrite E2; exact Hn|].
  split. { apply Forall_forall. intros b Hbb. apply In_nth_error in Hbb. destruct Hbb as [c Hc]. destruct (mk_dp_page c b Hc) as (p & _ & Hp). now exists p. }
  exists (pad ps (mk_header f len (mk_tabs f ps n) (mk_dp f ps n))). split; [exact Hh|].
  clear Hh Ha. fold n in Hf. unfold T in E1. destruct f; cbn [fits mk_hn] in *.
  - destruct Hf as (Hf1 & Hf2 & Hf3). split; [exact Hf1|]. split; [lia|]. unfold pad, mk_header. rewrite <- !app_assoc.
    split; [reflexivity|]. split; [split; [lia|]; rewrite sub_app_r, sub_app_l by (cbn; rewrite ?le_bytes_length; lia); reflexivity|].
    split; [rewrite E1; exact Hf2|]. split; [|apply Ht; auto].
    rewrite (app_assoc (repeat 0 12)), (app_assoc (le_bytes _ _)), (app_assoc sig_obj) by idtac. rewrite !app_assoc. rewrite <- (app_assoc _ (enc _)). apply enc_array; [reflexivity|exact Htk].
  - split; [lia|]. unfold pad, mk_header. rewrite <- !app_assoc. split; [reflexivity|]. split; [reflexivity|]. split; [rewrite E2; exact Hf|]. split; [|reflexivity].
    rewrite !app_assoc. rewrite <- (app_assoc _ (enc _)). apply enc_array; [reflexivity|exact Hdk].
  - destruct Hf as (Hf1 & Hf2). split; [lia|]. unfold pad, mk_header. rewrite <- !app_assoc. split; [reflexivity|]. split; [reflexivity|]. split; [exact Hf2|].
    split; [rewrite E1; exact Hf1|]. split; [|apply Ht; auto].
    rewrite !app_assoc. rewrite <- (app_assoc _ (enc _)). apply enc_array; [reflexivity|exact Htk].
  - destruct Hf as (Hf1 & Hf2 & Hf3 & Hf4). split; [exact Hf1|]. split; [reflexivity|]. unfold pad, mk_header. rewrite <- !app_assoc.
    split; [reflexivity|]. split.
    { exists (len / 4)%nat. pose proof (quarter len Hf4). split; [lia|]. assert (Ez : Z.of_nat len / 4 = Z.of_nat (len / 4)) by (rewrite Nat2Z.inj_div; reflexivity). rewrite Ez.
      split; [lia|]. rewrite sub_app_r, sub_app_l by (cbn; rewrite ?le_bytes_length; lia). reflexivity. }
    split; [exact Hf3|]. split; [|reflexivity]. exists []. rewrite app_nil_r. cbn [app]. split; [rewrite E2; exact Hf2|]. split.
    + apply Forall_forall. intros x Hx. unfold mk_dp, zseq in Hx. apply in_map_iff in Hx. destruct Hx as (y & <- & Hy). apply in_seq in Hy. lia.
    + rewrite !app_assoc. rewrite <- (app_assoc _ (enc _)). apply enc_array; [reflexivity|]. apply Forall_app. split; [exact Hdk|]. constructor; [lia|constructor].
Qed.
Lemma mk_content : content st (mk_dp f ps n) len = firstn len (concat pages).
Proof. unfold content. now rewrite mk_flat. Qed.
Lemma mk_nodup : NoDup (mk_hn f :: mk_tabs f ps n ++ mk_dp f ps n).
Proof.
  unfold mk_tabs, mk_dp. rewrite zseq_app. constructor; [|apply zseq_nodup].
  intros Hx. unfold zseq in Hx. apply in_map_iff in Hx. destruct Hx as (y & Hy & Hy'). apply in_seq in Hy'. destruct f; cbn in Hy; lia.
Qed.
End M.

Lemma zero_object f ps len : (32 <= ps)%nat -> (ps mod 4 = 0)%nat -> Z.of_nat ps < 2^17 -> fits f ps len (groups len ps) ->
  Z.of_nat (3 + ntabs f ps (groups len ps) + groups len ps) < 2^32 ->
  exists st tabs dp, stored ps f st (mk_hn f) len tabs dp /\ NoDup (pages_of (mk_hn f) tabs dp).
Proof.
  intros H32 Hm H17 Hf Ht. set (pages := repeat (repeat 0 ps) (groups len ps)). assert (Hl : length pages = groups len ps) by apply repeat_length.
  exists (mk_store f ps len pages), (mk_tabs f ps (length pages)), (mk_dp f ps (length pages)). split.
  - apply mk_stored; try assumption; try (rewrite Hl; assumption).
    + apply Forall_forall. intros p Hp. apply repeat_spec in Hp. subst p. apply repeat_length.
    + apply Forall_forall. intros p Hp. apply repeat_spec in Hp. subst p. apply zeros_ok.
  - apply (mk_nodup f ps len pages); try assumption; try (rewrite Hl; assumption).
Qed.
(** an object of more than 4 GiB *)
Lemma large_object : exists ps st n len tabs dp, stored ps F838_deep st n len tabs dp /\ NoDup (pages_of n tabs dp) /\ 2^32 < Z.of_nat len.
Proof.
  set (ps := Z.to_nat 65536). assert (Hps : Z.of_nat ps = 65536) by (apply Z2Nat.id; lia).
  set (len := Z.to_nat (2^32 + 1)). assert (Hlen : Z.of_nat len = 2^32 + 1) by (apply Z2Nat.id; lia). clearbody ps len.
  assert (Hm : (ps mod 4 = 0)%nat) by (apply Nat2Z.inj; rewrite Nat2Z.inj_mod, Hps; reflexivity).
  assert (Hq : Z.of_nat (ps / 4) = 16384) by (rewrite Nat2Z.inj_div, Hps; reflexivity).
  assert (Hg : Z.of_nat (groups len ps) = 65537). { rewrite <- groups_Z by lia. rewrite Hlen, Hps. reflexivity. }
  assert (Hg2 : Z.of_nat (groups (groups len ps) (ps / 4)) = 5). { rewrite <- groups_Z by lia. rewrite Hg, Hq. reflexivity. }
  destruct (zero_object F838_deep ps len) as (st & tabs & dp & Hs & Hnd); [lia|exact Hm|lia| | |].
  - split; [cbn [ntabs per_of]; lia|lia].
  - cbn [ntabs per_of]. lia.
  - exists ps, st, 2, len, tabs, dp. split; [exact Hs|]. split; [exact Hnd|]. lia.
Qed.
(** an object of the older format with one page beyond a full table *)
Lemma lone_object : exists ps st n len tabs dp, stored ps F80 st n len tabs dp /\ NoDup (pages_of n tabs dp) /\ lone_page F80 ps len.
Proof.
  set (ps := Z.to_nat 4096). assert (Hps : Z.of_nat ps = 4096) by (apply Z2Nat.id; lia).
  set (len := Z.to_nat (4190208 + 10)). assert (Hlen : Z.of_nat len = 4190208 + 10) by (apply Z2Nat.id; lia). clearbody ps len.
  assert (Hm : (ps mod 4 = 0)%nat) by (apply Nat2Z.inj; rewrite Nat2Z.inj_mod, Hps; reflexivity).
  pose proof per80_Z as Hp8.
  assert (Hg : Z.of_nat (groups len ps) = 1024). { rewrite <- groups_Z by lia. rewrite Hlen, Hps. reflexivity. }
  assert (Hg2 : Z.of_nat (groups (groups len ps) per80) = 2). { rewrite <- groups_Z by lia. rewrite Hg, Hp8. reflexivity. }
  destruct (zero_object F80 ps len) as (st & tabs & dp & Hs & Hnd); [lia|exact Hm|lia| | |].
  - split; [exact Hps|]. split; [cbn [ntabs per_of]; lia|lia].
  - cbn [ntabs per_of]. lia.
  - exists ps, st, 2, len, tabs, dp. split; [exact Hs|]. split; [exact Hnd|]. exists 1%nat. split; [lia|]. rewrite Nat.mul_1_l. nia.
Qed.
