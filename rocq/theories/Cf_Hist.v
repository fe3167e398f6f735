(** Histories of a container. *)
From Verif Require Import Prelude Lists Cf_Model Cf_Spec Cf_Proofs Cf_Write.
From Coq Require Import Permutation.
Ltac Zify.zify_post_hook ::= idtac.

Lemma page_dec (p q : page) : {p = q} + {p <> q}.
Proof. decide equality; apply Z.eq_dec. Defined.
Ltac solve_perm := apply (Permutation_count_occ page_dec); intros ?; rewrite ?count_occ_app; lia.

(** a file: the address kept, its pages, its bytes *)
Definition entry : Type := (Z * list page * option (list Z))%type.
Definition e_start (e : entry) := fst (fst e).
Definition e_pages (e : entry) := snd (fst e).
Definition e_bytes (e : entry) := snd e.
Definition e_ok (data : list Z) (e : entry) : Prop :=
  match e_bytes e with None => e_start e = 0 /\ e_pages e = [] | Some b => e_start e = head (e_pages e) /\ file_in data (e_pages e) b end.
Definition pages (tr : list entry) : list page := concat (map e_pages tr).
Lemma pages_app a b : pages (a ++ b) = pages a ++ pages b.
Proof. unfold pages. now rewrite map_app, concat_app. Qed.
Lemma pages_in e tr p : In e tr -> In p (e_pages e) -> In p (pages tr).
Proof. intros H1 H2. unfold pages. apply in_concat. exists (e_pages e). split; [now apply in_map|exact H2]. Qed.
Lemma e_frame data data' hi e : Forall (pg_ok hi) (e_pages e) -> Forall (same data data') (e_pages e) -> e_ok data e -> e_ok data' e.
Proof. intros H1 H2 H. unfold e_ok in *. destruct (e_bytes e) as [b|]; [|exact H]. destruct H as [Ha Hb]. split; [exact Ha|]. now apply (file_frame data data' hi). Qed.
Lemma es_frame data data' hi tr : Forall (pg_ok hi) (pages tr) -> Forall (same data data') (pages tr) -> Forall (e_ok data) tr -> Forall (e_ok data') tr.
Proof.
  intros H1 H2 H. rewrite Forall_forall in *. intros e He. apply (e_frame data data' hi); [apply Forall_forall; intros p Hp; apply H1; now apply (pages_in e)|apply Forall_forall; intros p Hp; apply H2; now apply (pages_in e)|now apply H].
Qed.

(** an empty container, or one with a table of contents at 16 *)
Definition fresh (r : run) (s : store) : Prop :=
  c_data (r_cat r) = template /\ c_free (r_cat r) = LAST /\ c_page (r_cat r) = 512 /\ s_fat s = [] /\ length (r_starts r) = length (s_files s) /\
  Forall (fun a => a = 0) (r_starts r) /\ Forall (fun o => o = None) (s_files s).
Definition busy (r : run) (s : store) : Prop :=
  exists fat fs tr, let data := c_data (r_cat r) in
    layout (zlen data) (fat ++ pages tr ++ fs) /\ head fat = 16 /\ file_in data fat (s_fat s) /\ linked data fs /\ c_free (r_cat r) = head fs /\
    r_starts r = map e_start tr /\ s_files s = map e_bytes tr /\ Forall (e_ok data) tr /\ le_val (sub data 4 4) = c_page (r_cat r) /\ c_page (r_cat r) <= LAST.
Definition inv (page : Z) (r : run) (s : store) : Prop := 0 < page /\ c_page (r_cat r) = page /\ (fresh r s \/ busy r s).
(** room: what the container has and the table of contents it does not have yet *)
Definition need (page : Z) (data : list Z) : Z := zlen data + (if zlen data =? 16 then 31 + page else 0).

Lemma set_nth_split {A} (a b : list A) t y : set_nth (length a) y (a ++ t :: b) = a ++ y :: b.
Proof.
  unfold set_nth. rewrite firstn_app, Nat.sub_diag, firstn_O, app_nil_r, firstn_all. cbn [app]. f_equal. f_equal. change (t :: b) with ([t] ++ b). rewrite app_assoc. apply skipn_app_len. rewrite app_length. cbn [length]. lia.
Qed.
Lemma split_at {A} (l : list A) i : (i < length l)%nat -> exists a t b, l = a ++ t :: b /\ length a = i.
Proof.
  intros H. destruct (skipn i l) as [|t b] eqn:E; [apply (f_equal (@length A)) in E; rewrite skipn_length in E; cbn [length] in E; lia|]. exists (firstn i l), t, b. split; [rewrite <- E; symmetry; apply firstn_skipn|]. rewrite firstn_length. lia.
Qed.
Lemma nth_mid {A B} (f : A -> B) a t b d : nth (length a) (map f (a ++ t :: b)) d = f t.
Proof. rewrite map_app. cbn [map]. rewrite <- (map_length f a). rewrite app_nth2 by lia. now rewrite Nat.sub_diag. Qed.
Lemma nth_error_mid {A B} (f : A -> B) a t b : nth_error (map f (a ++ t :: b)) (length a) = Some (f t).
Proof. rewrite map_app. cbn [map]. rewrite <- (map_length f a). rewrite nth_error_app2 by lia. now rewrite Nat.sub_diag. Qed.

Lemma busy_size r s : busy r s -> 47 < zlen (c_data (r_cat r)).
Proof.
  intros (fat & fs & tr & HL & HH & _). destruct fat as [|p t]; [cbn [head] in HH; discriminate|]. cbn [app] in HL. apply layout_cons in HL. destruct HL as ((A & B & C) & _). lia.
Qed.

(** writing the table of contents *)
Lemma fat_ok after fuel page r s d usep : In 0 after -> usep = true -> inv page r s -> zlen (c_data (r_cat r)) + 31 + Z.max (zlen d) page < LAST -> zlen (c_data (r_cat r)) + 31 + Z.max (zlen d) page <= Z.of_nat fuel ->
  exists c, (exists a, wb_main fuel after (r_cat r) d 0 16 (-1) usep = Ok (c, a)) /\ c_page c = page /\ busy (RN c (r_starts r)) (ST d (s_files s)) /\ zlen (c_data c) <= zlen (c_data (r_cat r)) + 31 + Z.max (zlen d) page.
Proof.
  intros HA HU (HP & HC & HI) HB HF. destruct HI as [HI|HI].
  - destruct HI as (D1 & D2 & DP & D3 & D4 & D5 & D6). rewrite <- HC in HB, HF. assert (L16 : zlen (c_data (r_cat r)) = 16) by (rewrite D1; reflexivity).
    destruct (wm_ok after HA fuel (r_cat r) [] [] [] d 16 usep) as [W _]; try assumption; try exact I; try lia; [split; constructor|unfold next_block, start_of; cbn [app]; rewrite L16; reflexivity|now intros []|right; right; exact HU|].
    destruct W as (data' & us & fs' & W1 & W2 & W3 & W4 & W5 & W6 & W7). exists (CT data' (head fs') (c_page (r_cat r))). split; [eexists; exact W1|]. split; [exact HC|]. split; [|cbn [c_data]; lia].
    unfold wb_main in W1. rewrite Z.eqb_refl in W1. assert (HN : next_block (r_cat r) 16 = 16) by (unfold next_block; reflexivity). rewrite HN in W1. assert (HH : head us = 16). { destruct (wb_loop fuel after (r_cat r) d 0 16 (zlen d) usep true blank) as [[c1 n1]| | |]; cbn [rbind] in W1; try discriminate. destruct (if (n1 <? zlen (c_data c1)) && negb (n1 =? c_free c1) then free_block fuel after c1 n1 else Ok c1); cbn [rbind] in W1; try discriminate. now injection W1. }
    assert (HPG : pages (map (fun _ : Z => (0, [], None) : entry) (r_starts r)) = []) by (unfold pages; rewrite map_map; clear; induction (r_starts r) as [|x l IH]; [reflexivity|exact IH]).
    set (tr0 := map (fun _ : Z => (0, [], None) : entry) (r_starts r)) in *. exists us, fs', tr0. cbn [r_cat c_data c_free r_starts s_fat s_files]. rewrite HPG. cbn [app]. rewrite app_nil_r in W2. split; [exact W2|]. split; [exact HH|]. split; [exact W4|]. split; [exact W5|]. split; [reflexivity|]. split; [|split; [|split]].
    + unfold tr0. rewrite map_map. clear - D5. induction D5 as [|x l -> H IH]; [reflexivity|]. cbn [map]. now rewrite <- IH.
    + unfold tr0. rewrite map_map. clear - D4 D6. revert D4. generalize (r_starts r). induction D6 as [|x l -> H IH]; intros [|y m] E; try discriminate; [reflexivity|]. cbn [map]. f_equal. apply IH. cbn [length] in E. lia.
    + apply Forall_forall. intros e He. apply in_map_iff in He. destruct He as (y & <- & _). split; reflexivity.
    + rewrite (agree_sub _ _ _ _ 4 4 W7) by lia. cbn [c_page]. rewrite D1, DP. split; [reflexivity|unfold LAST; lia].
  - assert (HZ := busy_size r s HI). destruct HI as (fat & fs & tr & HL & HH & HFI & HKf & HFr & HS & HS2 & HE & HT). rewrite <- HC in HB, HF.
    assert (HLf : layout (zlen (c_data (r_cat r))) (fat ++ fs ++ pages tr)) by (apply (layout_perm _ (fat ++ pages tr ++ fs)); [apply Permutation_app_head, Permutation_app_comm|exact HL]).
    assert (Hfat : fat <> []) by (intros ->; cbn [head] in HH; discriminate).
    destruct (wm_ok after HA fuel (r_cat r) fat fs (pages tr) d 16 usep) as [W W0]; try assumption; try lia.
    + apply HFI.
    + rewrite <- HH. apply next_block_head; [rewrite app_assoc in HLf; apply layout_app in HLf; tauto|lia|exact HFr].
    + intros _. destruct fat; [congruence|reflexivity].
    + right. left. destruct fat; [congruence|discriminate].
    + destruct W as (data' & us & fs' & W1 & W2 & W3 & W4 & W5 & W6 & W7). destruct (W0 Hfat) as [c' E]. rewrite E in W1. injection W1 as -> HU2. exists (CT data' (head fs') (c_page (r_cat r))). split; [eexists; exact E|]. split; [exact HC|]. split; [|cbn [c_data]; lia].
      exists us, fs', tr. cbn [r_cat c_data c_free r_starts s_fat s_files]. split; [apply (layout_perm _ (us ++ fs' ++ pages tr)); [apply Permutation_app_head, Permutation_app_comm|exact W2]|]. split; [congruence|]. split; [exact W4|]. split; [exact W5|]. split; [reflexivity|]. split; [exact HS|]. split; [exact HS2|]. split.
      * apply (es_frame (c_data (r_cat r)) data' (zlen (c_data (r_cat r)))); [|exact W6|exact HE]. apply layout_app in HL. destruct HL as (_ & HL & _). apply layout_app in HL. apply HL.
      * rewrite (agree_sub _ _ _ _ 4 4 W7) by lia. exact HT.
Qed.

(** writing a file of a container that has a table of contents *)
Lemma file_ok after fuel page r s i d : In 0 after -> 0 < page -> c_page (r_cat r) = page -> busy r s -> op_ok (Write i d) s -> zlen (c_data (r_cat r)) + 31 + Z.max (zlen d) page < LAST -> zlen (c_data (r_cat r)) + 31 + Z.max (zlen d) page <= Z.of_nat fuel ->
  exists c a, wb_main fuel after (r_cat r) d 0 (nth i (r_starts r) 0) (-1) false = Ok (c, a) /\ c_page c = page /\ busy (RN c (set_nth i a (r_starts r))) (spec_op (Write i d) s) /\ zlen (c_data c) <= zlen (c_data (r_cat r)) + 31 + Z.max (zlen d) page.
Proof.
  intros HA HP HC HI [Hi Hd] HB HF. assert (HZ := busy_size r s HI). destruct HI as (fat & fs & tr & HL & HH & HFI & HKf & HFr & HS & HS2 & HE & HT). rewrite <- HC in HB, HF.
  rewrite HS2, map_length in Hi. destruct (split_at tr i Hi) as (a & t & b & -> & Ha). subst i. rewrite HS, nth_mid. rewrite HS2, nth_error_mid in Hd.
  assert (HEt : e_ok (c_data (r_cat r)) t) by (apply (proj1 (Forall_forall _ _) HE); apply in_or_app; right; now left).
  set (others := fat ++ pages a ++ pages b).
  assert (PM : forall x y, Permutation (fat ++ (pages a ++ x ++ pages b) ++ y) (x ++ y ++ others)).
  { intros x y. unfold others. solve_perm. }
  rewrite pages_app in HL. change (pages (t :: b)) with (e_pages t ++ pages b) in HL.
  assert (HLf : layout (zlen (c_data (r_cat r))) (e_pages t ++ fs ++ others)) by (apply (layout_perm _ _ _ (PM (e_pages t) fs)); exact HL).
  assert (HKt : linked (c_data (r_cat r)) (e_pages t)) by (unfold e_ok in HEt; destruct (e_bytes t) as [x|]; [apply HEt|destruct HEt as [_ ->]; exact I]).
  assert (HNB : next_block (r_cat r) (e_start t) = start_of (e_pages t) fs (zlen (c_data (r_cat r)))).
  { rewrite <- (next_block_head (e_pages t) fs (r_cat r)); [|rewrite app_assoc in HLf; apply layout_app in HLf; tauto|lia|exact HFr]. unfold e_ok in HEt. destruct (e_bytes t) as [x|]; [destruct HEt as [-> _]; reflexivity|]. destruct HEt as [-> ->]. reflexivity. }
  destruct (wm_ok after HA fuel (r_cat r) (e_pages t) fs others d (e_start t) false) as [W _]; try assumption; try lia.
  - intros Hne. unfold start_of. destruct (e_pages t); [congruence|reflexivity].
  - destruct Hd as [Hd|[x Hd]]; [now left|]. right. left. injection Hd as Hd. unfold e_ok in HEt. rewrite Hd in HEt. destruct HEt as (_ & _ & HX & _). destruct (e_pages t); [destruct HX|discriminate].
  - destruct W as (data' & us & fs' & W1 & W2 & W3 & W4 & W5 & W6 & W7). exists (CT data' (head fs') (c_page (r_cat r))), (head us). split; [exact W1|]. split; [exact HC|]. split; [|cbn [c_data]; lia]. unfold others in W6. rewrite !Forall_app in W6. destruct W6 as (S1 & S2 & S3).
    assert (PGA : Forall (pg_ok (zlen (c_data (r_cat r)))) others) by (apply layout_app in HLf; destruct HLf as (_ & HLf & _); apply layout_app in HLf; apply HLf). unfold others in PGA. rewrite !Forall_app in PGA. destruct PGA as (G1 & G2 & G3). rewrite Forall_app in HE. destruct HE as [HEa HEb]. inversion_clear HEb as [|? ? _ HEb'].
    exists fat, fs', (a ++ (head us, us, Some d) :: b). cbn [r_cat c_data c_free r_starts s_fat s_files spec_op]. split; [|split; [exact HH|split; [|split; [exact W5|split; [reflexivity|split; [|split; [|split]]]]]]].
    + rewrite pages_app. change (pages ((head us, us, Some d) :: b)) with (us ++ pages b). apply (layout_perm _ _ _ (Permutation_sym (PM us fs'))). exact W2.
    + apply (file_frame (c_data (r_cat r)) data' (zlen (c_data (r_cat r)))); assumption.
    + rewrite !map_app. cbn [map]. rewrite <- (map_length e_start a). rewrite set_nth_split. reflexivity.
    + rewrite HS2. rewrite !map_app. cbn [map]. rewrite <- (map_length e_bytes a). rewrite set_nth_split. reflexivity.
    + apply Forall_app. split; [now apply (es_frame (c_data (r_cat r)) data' (zlen (c_data (r_cat r))))|]. constructor; [split; [reflexivity|exact W4]|now apply (es_frame (c_data (r_cat r)) data' (zlen (c_data (r_cat r))))].
    + rewrite (agree_sub _ _ _ _ 4 4 W7) by lia. exact HT.
Qed.

(** releasing a file *)
Lemma release_ok after fuel page r s i : In 0 after -> 0 < page -> c_page (r_cat r) = page -> busy r s -> op_ok (Release i) s -> zlen (c_data (r_cat r)) < LAST -> zlen (c_data (r_cat r)) <= Z.of_nat fuel ->
  exists c, free_block fuel after (r_cat r) (nth i (r_starts r) 0) = Ok c /\ c_page c = page /\ busy (RN c (set_nth i 0 (r_starts r))) (spec_op (Release i) s) /\ zlen (c_data c) = zlen (c_data (r_cat r)).
Proof.
  intros HA HP HC HI Hi HB HF. assert (HI0 := HI). assert (HZ := busy_size r s HI). destruct HI as (fat & fs & tr & HL & HH & HFI & HKf & HFr & HS & HS2 & HE & HT). cbn [op_ok] in Hi.
  rewrite HS2, map_length in Hi. destruct (split_at tr i Hi) as (a & t & b & -> & Ha). subst i. rewrite HS, nth_mid.
  assert (HEt : e_ok (c_data (r_cat r)) t) by (apply (proj1 (Forall_forall _ _) HE); apply in_or_app; right; now left).
  unfold free_block. unfold e_ok in HEt. destruct (e_bytes t) as [x|] eqn:Et.
  - destruct HEt as [H0 HFt]. destruct (e_pages t) as [|p q] eqn:Ep; [destruct HFt as (_ & [] & _)|]. rewrite pages_app in HL. change (pages (t :: b)) with (e_pages t ++ pages b) in HL. rewrite Ep in HL.
    set (others := fat ++ pages a ++ pages b).
    assert (PM : Permutation (fat ++ (pages a ++ (p :: q) ++ pages b) ++ fs) (((p :: q) ++ fs) ++ others)).
    { unfold others. generalize (p :: q) as x0. intros x0. solve_perm. }
    assert (HL2 := layout_perm _ _ _ PM HL). apply layout_app in HL2. destruct HL2 as (HL2 & HLo & HDJ). assert (HLp : layout (zlen (c_data (r_cat r))) (p :: q)) by (apply layout_app in HL2; tauto).
    destruct (free_ok after HA (p :: q) fuel (c_data (r_cat r)) blank fs ltac:(discriminate) HL2 HB ltac:(apply HFt) HKf ltac:(pose proof (layout_count _ _ HLp); lia) eq_refl) as (data' & F1 & F2 & F3 & F4).
    rewrite H0. cbn [head] in F1 |- *. assert (HP0 := HLp). apply layout_cons in HP0. destruct HP0 as ((P1 & P2 & P3) & _). destruct (Z.eqb_spec (fst p) 0); [lia|]. destruct (Z.eqb_spec (fst p) LAST); [lia|]. cbn [orb]. rewrite HFr, F1. cbn [rbind]. eexists. split; [reflexivity|]. split; [exact HC|]. split; [|exact F2].
    assert (SO : Forall (same (c_data (r_cat r)) data') others). { apply Forall_forall. intros z Hz. pose proof (proj1 (Forall_forall _ _) (proj2 HLo) z Hz) as (Z1 & Z2 & Z3). apply F4; [lia|]. intros w Hw. pose proof (HDJ w z ltac:(apply in_or_app; now left) Hz) as DJ. unfold disj in DJ. lia. }
    assert (PGA := proj2 HLo). unfold others in SO, PGA. rewrite !Forall_app in SO, PGA. destruct SO as (S1 & S2 & S3). destruct PGA as (G1 & G2 & G3). rewrite Forall_app in HE. destruct HE as [HEa HEb]. inversion_clear HEb as [|? ? _ HEb'].
    exists fat, ((p :: q) ++ fs), (a ++ (0, [], None) :: b). cbn [r_cat c_data c_free r_starts s_fat s_files spec_op]. split; [|split; [exact HH|split; [|split; [exact F3|split; [reflexivity|split; [|split; [|split]]]]]]].
    + rewrite F2. rewrite pages_app. change (pages ((0, [], None) :: b)) with (pages b). apply (layout_perm _ (fat ++ (pages a ++ (p :: q) ++ pages b) ++ fs)); [|exact HL]. generalize (p :: q) as x0. intros x0. solve_perm.
    + apply (file_frame (c_data (r_cat r)) data' (zlen (c_data (r_cat r)))); assumption.
    + rewrite !map_app. cbn [map]. rewrite <- (map_length e_start a). rewrite set_nth_split. reflexivity.
    + rewrite HS2. rewrite !map_app. cbn [map]. rewrite <- (map_length e_bytes a). rewrite set_nth_split. reflexivity.
    + apply Forall_app. split; [now apply (es_frame (c_data (r_cat r)) data' (zlen (c_data (r_cat r))))|]. constructor; [split; reflexivity|now apply (es_frame (c_data (r_cat r)) data' (zlen (c_data (r_cat r))))].
    + rewrite (agree_sub (c_data (r_cat r)) data' 0 16 4 4); [exact HT| |lia|lia]. apply F4; [lia|]. intros z Hz. pose proof (proj1 (Forall_forall _ _) (proj2 HLp) z Hz) as (Z1 & Z2 & Z3). lia.
  - destruct HEt as [H0 Hp]. rewrite H0. cbn [Z.eqb orb]. exists (r_cat r). split; [reflexivity|]. split; [exact HC|]. split; [|reflexivity].
    exists fat, fs, (a ++ t :: b). cbn [r_cat r_starts s_fat s_files spec_op]. split; [exact HL|]. split; [exact HH|]. split; [exact HFI|]. split; [exact HKf|]. split; [exact HFr|]. split; [|split; [|split; [exact HE|exact HT]]].
    + rewrite !map_app. cbn [map]. rewrite <- (map_length e_start a). rewrite set_nth_split, H0. reflexivity.
    + rewrite HS2. rewrite !map_app. cbn [map]. rewrite <- (map_length e_bytes a). rewrite set_nth_split, Et. reflexivity.
Qed.

Lemma set_nth_same {A} i (x : A) l : Forall (fun y => y = x) l -> (i < length l)%nat -> set_nth i x l = l.
Proof. intros H Hi. destruct (split_at l i Hi) as (a & t & b & -> & <-). rewrite set_nth_split. rewrite Forall_app in H. destruct H as [_ H]. inversion_clear H as [|? ? E _]. now rewrite E. Qed.
Lemma nth_all {A} i (x : A) l : Forall (fun y => y = x) l -> nth i l x = x.
Proof. intros H. revert i. induction H as [|y l E H IH]; intros [|i]; cbn [nth]; auto. Qed.

(** saving and opening *)
Lemma range_i32 v : 0 <= v <= LAST -> i32 (le_val (le_bytes 4 v)) = v.
Proof. intros H. rewrite le_val_bytes_small by (change (256 ^ Z.of_nat 4) with (2^32); unfold LAST in *; lia). now apply i32_small. Qed.
Lemma over_sub0 data d : zlen d <= zlen data -> sub (over data 0 d) 0 (length d) = d.
Proof. intros H. pose proof (over_in data 0 d 0 (length d) ltac:(pose proof (zlen_nonneg data); lia) ltac:(lia)) as E. change (Z.to_nat 0 + 0)%nat with 0%nat in E. rewrite E. unfold sub. cbn [skipn]. apply firstn_all. Qed.
Lemma busy_free r s : busy r s -> zlen (c_data (r_cat r)) < LAST -> 0 <= c_free (r_cat r) <= LAST.
Proof.
  intros (fat & fs & tr & HL & HH & HFI & HKf & HFr & _) HB. rewrite HFr. apply (head_range (zlen (c_data (r_cat r)))); [|exact HB]. apply layout_app in HL. destruct HL as (_ & HL & _). apply layout_app in HL. tauto.
Qed.
Lemma marks_busy r s ver : busy r s -> zlen (c_data (r_cat r)) < LAST -> 0 < c_page (r_cat r) <= LAST ->
  let d := flush_marks (r_cat r) ver in
  busy (RN (open_cat d) (r_starts r)) s /\ c_page (open_cat d) = c_page (r_cat r) /\ c_free (open_cat d) = c_free (r_cat r) /\ zlen d = zlen (c_data (r_cat r)).
Proof.
  intros HI HB HPG d. assert (HZ := busy_size r s HI). assert (HFB := busy_free r s HI HB). destruct HI as (fat & fs & tr & HL & HH & HFI & HKf & HFr & HS & HS2 & HE & HT).
  unfold flush_marks in d. destruct (Z.eqb_spec (zlen (c_data (r_cat r))) 16); [lia|]. set (d1 := over (c_data (r_cat r)) 0 (le_bytes 4 (c_free (r_cat r)))) in *. assert (L4 : zlen (le_bytes 4 (c_free (r_cat r))) = 4) by (unfold zlen; rewrite le_bytes_length; reflexivity). assert (L4v : zlen (le_bytes 4 ver) = 4) by (unfold zlen; rewrite le_bytes_length; reflexivity).
  assert (Z1 : zlen d1 = zlen (c_data (r_cat r))) by (unfold d1; rewrite over_length, L4 by lia; lia). assert (Z2 : zlen d = zlen (c_data (r_cat r))) by (unfold d; rewrite over_length, L4v, Z1 by lia; lia).
  assert (A2 : agree d1 d 0 8) by (apply over_before; lia). assert (A3 : forall hi, agree d1 d 12 hi) by (intros hi; pose proof (over_after d1 8 (le_bytes 4 ver) hi ltac:(lia)) as X; rewrite L4v in X; exact X).
  assert (A1 : forall hi, agree (c_data (r_cat r)) d1 4 hi) by (intros hi; pose proof (over_after (c_data (r_cat r)) 0 (le_bytes 4 (c_free (r_cat r))) hi ltac:(lia)) as X; rewrite L4 in X; exact X).
  assert (SM : forall p, pg_ok (zlen (c_data (r_cat r))) p -> same (c_data (r_cat r)) d p). { intros p (P1 & P2 & P3). apply (agree_trans _ d1); [apply (agree_weaken _ _ 4 (fst p + 31 + snd p)); [apply A1|lia|lia]|apply (agree_weaken _ _ 12 (fst p + 31 + snd p)); [apply A3|lia|lia]]. }
  assert (SF : forall l, Forall (pg_ok (zlen (c_data (r_cat r)))) l -> Forall (same (c_data (r_cat r)) d) l) by (intros l Hl; eapply Forall_impl; [|exact Hl]; exact SM).
  assert (E0 : sub d 0 4 = le_bytes 4 (c_free (r_cat r))). { rewrite (agree_sub d1 d 0 8) by (try exact A2; lia). pose proof (over_sub0 (c_data (r_cat r)) (le_bytes 4 (c_free (r_cat r))) ltac:(lia)) as X. rewrite le_bytes_length in X. exact X. }
  assert (E4 : sub d 4 4 = sub (c_data (r_cat r)) 4 4). { rewrite (agree_sub d1 d 0 8) by (try exact A2; lia). apply (agree_sub (c_data (r_cat r)) d1 4 8); [apply A1|lia|lia]. }
  assert (CP : c_page (open_cat d) = c_page (r_cat r)) by (cbn [open_cat c_page]; rewrite E4, (proj1 HT); apply i32_small; lia). assert (CF : c_free (open_cat d) = c_free (r_cat r)) by (cbn [open_cat c_free]; rewrite E0; now apply range_i32).
  split; [|split; [exact CP|split; [exact CF|exact Z2]]]. assert (GF := HL). destruct GF as [_ GF]. rewrite !Forall_app in GF. destruct GF as (G1 & G2 & G3).
  exists fat, fs, tr. cbn [r_cat r_starts]. rewrite CF. change (c_data (open_cat d)) with d. rewrite Z2. split; [exact HL|]. split; [exact HH|]. split; [apply (file_frame (c_data (r_cat r)) d (zlen (c_data (r_cat r)))); auto|]. split; [apply (linked_frame (c_data (r_cat r)) d (zlen (c_data (r_cat r)))); auto|]. split; [exact HFr|]. split; [exact HS|]. split; [exact HS2|]. split; [apply (es_frame (c_data (r_cat r)) d (zlen (c_data (r_cat r)))); auto|]. rewrite CP, E4. exact HT.
Qed.

(** one operation *)
Lemma op_step after fuel page o r s : In 0 after -> inv page r s -> op_ok o s -> need page (c_data (r_cat r)) + growth page o < LAST -> need page (c_data (r_cat r)) + growth page o <= Z.of_nat fuel ->
  exists r', do_op fuel after o r = Ok r' /\ inv page r' (spec_op o s) /\ need page (c_data (r_cat r')) <= need page (c_data (r_cat r)) + growth page o.
Proof.
  intros HA HI Hok HB HF. assert (HI0 := HI). destruct HI as (HP & HC & HI). unfold need in *. destruct o as [d|i d|i|ver].
  - cbn [do_op growth spec_op] in *. unfold write_block. rewrite andb_false_r || (destruct (zlen (c_data (r_cat r)) =? 16); cbn [andb negb Z.eqb Pos.eqb]). 
    all: cbn [rbind]. 
    all: destruct (fat_ok after fuel page r s d true HA eq_refl HI0) as (c & [a E] & C1 & C2 & C3); [destruct (zlen (c_data (r_cat r)) =? 16); lia|destruct (zlen (c_data (r_cat r)) =? 16); lia|].
    all: rewrite E; cbn [rbind fst]; eexists; split; [reflexivity|]; split; [split; [exact HP|]; split; [exact C1|]; right; exact C2|].
    all: pose proof (busy_size _ _ C2) as BS; cbn [r_cat] in BS |- *; destruct (Z.eqb_spec (zlen (c_data c)) 16); [lia|]; destruct (zlen (c_data (r_cat r)) =? 16); lia.
  - destruct Hok as [Hi Hd]. cbn [growth] in *. destruct HI as [HI|HI].
    + (* the table of contents comes first *)
      assert (HI1 := HI). destruct HI as (D1 & D2 & DP & D3 & D4 & D5 & D6). assert (L16 : zlen (c_data (r_cat r)) = 16) by (rewrite D1; reflexivity). rewrite L16 in *. rewrite Z.eqb_refl in *.
      cbn [do_op]. rewrite (nth_all i 0 _ D5). unfold write_block. rewrite L16. cbn [Z.eqb Pos.eqb andb negb].
      destruct (fat_ok after fuel page r s [] true HA eq_refl HI0) as (c & [a E] & C1 & C2 & C3); [rewrite L16; change (zlen (@nil Z)) with 0; lia|rewrite L16; change (zlen (@nil Z)) with 0; lia|].
      rewrite E. cbn [rbind fst]. rewrite L16 in C3. change (zlen (@nil Z)) with 0 in C3. rewrite Z.max_r in C3 by lia.
      destruct (file_ok after fuel page (RN c (r_starts r)) (ST [] (s_files s)) i d HA HP C1 C2) as (c2 & a2 & E2 & F1 & F2 & F3); cbn [r_cat r_starts] in *; [split; [exact Hi|]; destruct Hd as [Hd|[x Hd]]; [now left|right; exists x; exact Hd]|lia|lia|].
      rewrite (nth_all i 0 _ D5) in E2. rewrite E2. cbn [rbind fst snd]. eexists. split; [reflexivity|]. split; [split; [exact HP|]; split; [exact F1|]; right; cbn [spec_op s_fat s_files] in F2 |- *; rewrite D3; exact F2|].
      pose proof (busy_size _ _ F2) as BS. cbn [r_cat] in BS |- *. destruct (Z.eqb_spec (zlen (c_data c2)) 16); lia.
    + pose proof (busy_size r s HI) as BS0. destruct (Z.eqb_spec (zlen (c_data (r_cat r))) 16); [lia|]. cbn [do_op]. unfold write_block. destruct (Z.eqb_spec (zlen (c_data (r_cat r))) 16); [lia|]. cbn [andb rbind].
      destruct (file_ok after fuel page r s i d HA HP HC HI (conj Hi Hd)) as (c2 & a2 & E2 & F1 & F2 & F3); [lia|lia|]. rewrite E2. cbn [rbind fst snd]. eexists. split; [reflexivity|]. split; [split; [exact HP|]; split; [exact F1|]; right; exact F2|].
      pose proof (busy_size _ _ F2) as BS. cbn [r_cat] in BS |- *. destruct (Z.eqb_spec (zlen (c_data c2)) 16); lia.
  - cbn [do_op growth] in *. rewrite Z.add_0_r in *. destruct HI as [HI|HI].
    + assert (HI1 := HI). destruct HI as (D1 & D2 & DP & D3 & D4 & D5 & D6). rewrite (nth_all i 0 _ D5). unfold free_block. cbn [Z.eqb orb rbind]. eexists. split; [reflexivity|]. cbn [r_cat]. split; [|lia]. split; [exact HP|]. split; [exact HC|]. left. cbn [op_ok] in Hok.
      rewrite (set_nth_same i 0) by (try assumption; lia). destruct r as [c0 st0]. destruct s as [f0 fl0]. cbn [spec_op s_fat s_files] in *. rewrite (set_nth_same i None) by (try assumption; lia). exact HI1.
    + pose proof (busy_size r s HI) as BS0. destruct (Z.eqb_spec (zlen (c_data (r_cat r))) 16); [lia|]. destruct (release_ok after fuel page r s i HA HP HC HI Hok) as (c & E & C1 & C2 & C3); [lia|lia|]. rewrite E. cbn [rbind]. eexists. split; [reflexivity|]. split; [split; [exact HP|]; split; [exact C1|]; right; exact C2|]. cbn [r_cat]. destruct (Z.eqb_spec (zlen (c_data c)) 16); lia.
  - cbn [do_op growth spec_op] in *. rewrite Z.add_0_r in *. eexists. split; [reflexivity|]. cbn [r_cat]. destruct HI as [HI|HI].
    + assert (HI1 := HI). destruct HI as (D1 & D2 & DP & D3 & D4 & D5 & D6). assert (EO : open_cat (flush_marks (r_cat r) ver) = r_cat r) by (unfold flush_marks, open_cat; rewrite D1; destruct (r_cat r) as [x1 x2 x3]; cbn [c_data c_free c_page] in *; subst; reflexivity). rewrite EO. split; [|lia]. split; [exact HP|]. split; [exact HC|]. left. destruct r; exact HI1.
    + pose proof (busy_size r s HI) as BS0. destruct (Z.eqb_spec (zlen (c_data (r_cat r))) 16); [lia|]. assert (HPL : 0 < c_page (r_cat r) <= LAST). { split; [lia|]. assert (HI1 := HI). destruct HI1 as (_ & _ & _ & _ & _ & _ & _ & _ & _ & _ & _ & HT & HQ). lia. }
      destruct (marks_busy r s ver HI ltac:(lia) HPL) as (M1 & M2 & M3 & M4). change (c_data (open_cat (flush_marks (r_cat r) ver))) with (flush_marks (r_cat r) ver). rewrite M4. split; [|destruct (Z.eqb_spec (zlen (c_data (r_cat r))) 16); lia]. split; [exact HP|]. split; [cbn [r_cat]; congruence|]. now right.
Qed.
Lemma growth_nonneg page o : 0 < page -> 0 <= growth page o.
Proof. intros H. destruct o; cbn [growth]; lia. Qed.
Lemma total_nonneg page os : 0 < page -> 0 <= total_growth page os.
Proof. intros H. induction os as [|o os IH]; [cbn; lia|]. change (total_growth page (o :: os)) with (growth page o + total_growth page os). pose proof (growth_nonneg page o H). lia. Qed.
Lemma ops_step after fuel page os : In 0 after -> forall r s, inv page r s -> history_ok os s -> need page (c_data (r_cat r)) + total_growth page os < LAST -> need page (c_data (r_cat r)) + total_growth page os <= Z.of_nat fuel ->
  exists r', do_ops fuel after os r = Ok r' /\ inv page r' (spec_ops os s) /\ need page (c_data (r_cat r')) <= need page (c_data (r_cat r)) + total_growth page os.
Proof.
  intros HA. induction os as [|o os IH]; intros r s HI HO HB HF.
  - exists r. cbn [do_ops]. split; [reflexivity|]. split; [exact HI|]. cbn. lia.
  - change (total_growth page (o :: os)) with (growth page o + total_growth page os) in *. destruct HO as [HO HH]. assert (HP : 0 < page) by apply HI. pose proof (total_nonneg page os HP) as TN. pose proof (growth_nonneg page o HP) as GN.
    destruct (op_step after fuel page o r s HA HI HO) as (r1 & E1 & I1 & N1); [lia|lia|]. destruct (IH r1 (spec_op o s) I1 HH) as (r2 & E2 & I2 & N2); [lia|lia|]. exists r2. cbn [do_ops]. rewrite E1. cbn [rbind]. split; [exact E2|]. split; [exact I2|]. lia.
Qed.

(** reading under the invariant *)
Lemma need_le page data : 0 < page -> zlen data <= need page data.
Proof. intros H. unfold need. destruct (zlen data =? 16); lia. Qed.
Lemma busy_read after fuel r s i : In 0 after -> busy r s -> zlen (c_data (r_cat r)) < LAST -> zlen (c_data (r_cat r)) <= Z.of_nat fuel ->
  read_block fuel after (c_data (r_cat r)) 16 = Ok (s_fat s) /\
  ((i < length (s_files s))%nat -> read_file fuel after r i = Ok (match nth i (s_files s) None with Some b => b | None => [] end)).
Proof.
  intros HA HI HB HF. destruct HI as (fat & fs & tr & HL & HH & HFI & HKf & HFr & HS & HS2 & HE & HT). apply layout_app in HL. destruct HL as (HLf & HL & _). apply layout_app in HL. destruct HL as (HLt & _). split.
  - rewrite <- HH. apply (read_ok after fuel _ (zlen (c_data (r_cat r)))); try assumption; [lia|]. pose proof (layout_count _ _ HLf). lia.
  - intros Hi. rewrite HS2, map_length in Hi. destruct (split_at tr i Hi) as (a & t & b & -> & <-). unfold read_file. rewrite HS, HS2, !nth_mid. assert (HEt : e_ok (c_data (r_cat r)) t) by (apply (proj1 (Forall_forall _ _) HE); apply in_or_app; right; now left). unfold e_ok in HEt. destruct (e_bytes t) as [x|].
    + destruct HEt as [H0 HFt]. rewrite pages_app in HLt. apply layout_app in HLt. destruct HLt as (_ & HLt & _). change (pages (t :: b)) with (e_pages t ++ pages b) in HLt. apply layout_app in HLt. destruct HLt as (HLt & _). rewrite H0. destruct (Z.eqb_spec (head (e_pages t)) 0) as [E|_]; [exfalso; destruct (e_pages t) as [|p q]; [destruct HFt as (_ & [] & _)|]; apply layout_cons in HLt; destruct HLt as ((P1 & _) & _); cbn [head] in E; lia|].
      apply (read_ok after fuel _ (zlen (c_data (r_cat r)))); try assumption; [lia|]. pose proof (layout_count _ _ HLt). lia.
    + destruct HEt as [-> _]. reflexivity.
Qed.

(** ** From an empty container *)
Definition empty_store (n : nat) : store := ST [] (repeat None n).
Definition empty_run (n : nat) : run := RN (open_cat template) (repeat 0 n).
Lemma empty_inv n : inv 512 (empty_run n) (empty_store n).
Proof.
  split; [lia|]. split; [reflexivity|]. left. split; [reflexivity|]. split; [reflexivity|]. split; [reflexivity|]. split; [reflexivity|]. cbn [empty_run empty_store r_starts s_files]. split; [now rewrite !repeat_length|]. split; apply Forall_forall; intros x Hx; now apply repeat_spec in Hx.
Qed.
(** the table of contents as initialize reads it *)
Lemma inv_read after fuel page r s : In 0 after -> inv page r s -> zlen (c_data (r_cat r)) < LAST -> zlen (c_data (r_cat r)) <= Z.of_nat fuel ->
  (if zlen (c_data (r_cat r)) <=? 16 then Ok [] else read_block fuel after (c_data (r_cat r)) 16) = Ok (s_fat s) /\
  (forall i, (i < length (s_files s))%nat -> read_file fuel after r i = Ok (match nth i (s_files s) None with Some b => b | None => [] end)).
Proof.
  intros HA (HP & HC & HI) HB HF. destruct HI as [HI|HI].
  - destruct HI as (D1 & D2 & DP & D3 & D4 & D5 & D6). rewrite D1, D3. split; [reflexivity|]. intros i Hi. unfold read_file. rewrite (nth_all i 0 _ D5), (nth_all i None _ D6). reflexivity.
  - pose proof (busy_size r s HI) as BS. destruct (Z.leb_spec (zlen (c_data (r_cat r))) 16); [lia|]. split; [exact (proj1 (busy_read after fuel r s 0 HA HI HB HF))|]. intros i. exact (proj2 (busy_read after fuel r s i HA HI HB HF)).
Qed.
Lemma spec_files_length os : forall s, history_ok os s -> length (s_files (spec_ops os s)) = length (s_files s).
Proof.
  induction os as [|o os IH]; intros s H; [reflexivity|]. destruct H as [H1 H2]. unfold spec_ops in *. cbn [fold_left]. rewrite (IH _ H2). destruct o as [d|i d|i|v]; cbn [spec_op s_files op_ok] in *; try reflexivity.
  - destruct H1 as [H1 _]. destruct (split_at (s_files s) i H1) as (a & t & b & E & <-). rewrite E, set_nth_split, !app_length. reflexivity.
  - destruct (split_at (s_files s) i H1) as (a & t & b & E & <-). rewrite E, set_nth_split, !app_length. reflexivity.
Qed.
Lemma history_read after fuel n os : In 0 after -> history_ok os (empty_store n) -> 559 + total_growth 512 os < LAST -> 559 + total_growth 512 os <= Z.of_nat fuel ->
  exists r, do_ops fuel after os (empty_run n) = Ok r /\
    (if zlen (c_data (r_cat r)) <=? 16 then Ok [] else read_block fuel after (c_data (r_cat r)) 16) = Ok (s_fat (spec_ops os (empty_store n))) /\
    (forall i, (i < n)%nat -> read_file fuel after r i = Ok (match nth i (s_files (spec_ops os (empty_store n))) None with Some b => b | None => [] end)).
Proof.
  intros HA HO HB HF. assert (N0 : need 512 (c_data (r_cat (empty_run n))) = 559) by reflexivity. destruct (ops_step after fuel 512 os HA (empty_run n) (empty_store n) (empty_inv n) HO) as (r & E & HI & HN); [rewrite N0; lia|rewrite N0; lia|]. rewrite N0 in HN. exists r. split; [exact E|].
  pose proof (need_le 512 (c_data (r_cat r)) ltac:(lia)) as NL. destruct (inv_read after fuel 512 r _ HA HI) as [R1 R2]; [lia|lia|]. split; [exact R1|]. intros i Hi. apply R2.
  rewrite (spec_files_length os (empty_store n) HO). cbn [empty_store s_files]. now rewrite repeat_length.
Qed.

(** ** A saved container is recognised *)
Lemma marks_hdr d p n : marks_ok (hdr d p n) = true.
Proof.
  unfold marks_ok, hdr. pose proof (digits_length 8 d) as L1. pose proof (digits_length 8 p) as L2. pose proof (digits_length 8 n) as L3. destruct (digits 8 d) as [|a0 [|a1 [|a2 [|a3 [|a4 [|a5 [|a6 [|a7 [|]]]]]]]]]; try discriminate. destruct (digits 8 p) as [|b0 [|b1 [|b2 [|b3 [|b4 [|b5 [|b6 [|b7 [|]]]]]]]]]; try discriminate. destruct (digits 8 n) as [|c0 [|c1 [|c2 [|c3 [|c4 [|c5 [|c6 [|c7 [|]]]]]]]]]; try discriminate. reflexivity.
Qed.
Lemma first_hdr data ps junk : layout (zlen data) ps -> linked data ps -> ps <> [] -> length junk = 31%nat -> exists h, read_header data (head ps) junk = Ok h /\ marks_ok h = true.
Proof.
  intros HL HK Hne Hj. destruct ps as [|p r]; [congruence|]. apply layout_cons in HL. destruct HL as ((A & B & C) & _). destruct HK as [(x & _ & X) _]. cbn [head]. exists (sub data (Z.to_nat (fst p)) 31). split; [apply read_hdr; [lia|lia|exact Hj]|]. unfold at_hdr in X. rewrite X. apply marks_hdr.
Qed.
Lemma catalog_ok junk page r s ver : length junk = 31%nat -> inv page r s -> zlen (c_data (r_cat r)) < LAST -> is_catalog junk (flush_marks (r_cat r) ver) = Ok true.
Proof.
  intros Hj (HP & HC & HI) HB. destruct HI as [HI|HI].
  - destruct HI as (D1 & _). unfold flush_marks. rewrite D1. reflexivity.
  - assert (HPL : 0 < c_page (r_cat r) <= LAST) by (split; [lia|]; destruct HI as (_ & _ & _ & _ & _ & _ & _ & _ & _ & _ & _ & _ & HQ); exact HQ). pose proof (busy_size r s HI) as BS. pose proof (busy_free r s HI HB) as BF. destruct (marks_busy r s ver HI HB HPL) as (M1 & M2 & M3 & M4). set (d := flush_marks (r_cat r) ver) in *.
    assert (E0 : le_val (firstn 4 d) = c_free (r_cat r)).
    { unfold d, flush_marks. destruct (Z.eqb_spec (zlen (c_data (r_cat r))) 16); [lia|]. set (d1 := over (c_data (r_cat r)) 0 (le_bytes 4 (c_free (r_cat r)))). rewrite <- sub_0_firstn. assert (L4 : zlen (le_bytes 4 (c_free (r_cat r))) = 4) by (unfold zlen; rewrite le_bytes_length; reflexivity). assert (Z1 : zlen d1 = zlen (c_data (r_cat r))) by (unfold d1; rewrite over_length, L4 by lia; lia).
      rewrite (agree_sub d1 _ 0 8) by (try (apply over_before; lia); lia). pose proof (over_sub0 (c_data (r_cat r)) (le_bytes 4 (c_free (r_cat r))) ltac:(lia)) as X. rewrite le_bytes_length in X. fold d1 in X. rewrite X. apply le_val_bytes_small. change (256 ^ Z.of_nat 4) with (2^32). unfold LAST in *. lia. }
    destruct M1 as (fat & fs & tr & HL & HH & HFI & HKf & HFr & _). cbn [r_cat] in *. change (c_data (open_cat d)) with d in *. rewrite M3 in HFr. assert (HL1 := HL). apply layout_app in HL1. destruct HL1 as (HLa & HLb & _). apply layout_app in HLb. destruct HLb as (_ & HLb & _).
    unfold is_catalog. destruct (Z.eqb_spec (zlen d) 16); [lia|]. destruct (Z.ltb_spec (zlen d) 4); [lia|]. rewrite E0. destruct (first_hdr d fat junk HLa ltac:(apply HFI) ltac:(intros ->; cbn [head] in HH; discriminate) Hj) as (h1 & H1 & K1). rewrite HH in H1.
    destruct (Z.eqb_spec (c_free (r_cat r)) LAST) as [E|E].
    + cbn [rbind negb]. destruct (Z.ltb_spec (zlen d) 47); [lia|]. rewrite H1. cbn [rbind]. now rewrite K1.
    + destruct fs as [|p t]; [cbn [head] in HFr; congruence|]. assert (HPp := HLb). apply layout_cons in HPp. destruct HPp as ((P1 & P2 & P3) & _). destruct (first_hdr d (p :: t) junk HLb HKf ltac:(discriminate) Hj) as (h2 & H2 & K2). rewrite <- HFr in H2. cbn [head] in HFr. rewrite HFr. assert (EU : u32 (fst p + 31) = fst p + 31) by (unfold u32, LAST in *; apply Z.mod_small; lia). rewrite EU. destruct (Z.leb_spec (zlen d) (fst p + 31)); [lia|]. rewrite <- HFr, H2. cbn [rbind]. rewrite K2. cbn [negb]. destruct (Z.ltb_spec (zlen d) 47); [lia|]. rewrite H1. cbn [rbind]. now rewrite K1.
Qed.

(** ** Opening the files of a saved container *)
(** the table of contents for files with the header in place 2k and the data in place 2k+1 *)
Definition table (starts : list Z) (n : nat) : list Z := flat_map (fun k => elem (nth (2 * k) starts 0) (nth (2 * k + 1) starts 0)) (seq 0 n).
Lemma busy_starts r s : busy r s -> zlen (c_data (r_cat r)) < LAST -> Forall (fun a => 0 <= a <= LAST) (r_starts r).
Proof.
  intros (fat & fs & tr & HL & HH & HFI & HKf & HFr & HS & HS2 & HE & HT) HB. rewrite HS. apply Forall_forall. intros a Ha. apply in_map_iff in Ha. destruct Ha as (e & <- & He). pose proof (proj1 (Forall_forall _ _) HE e He) as X. unfold e_ok in X. destruct (e_bytes e); [|destruct X as [-> _]; unfold LAST; lia]. destruct X as [-> _].
  apply (head_range (zlen (c_data (r_cat r)))); [|exact HB]. apply layout_app in HL. destruct HL as (_ & HL & _). apply layout_app in HL. destruct HL as (HL & _). clear - HL He. induction tr as [|t tr IH]; [destruct He|]. change (pages (t :: tr)) with (e_pages t ++ pages tr) in HL. apply layout_app in HL. destruct He as [->|He]; [tauto|apply IH; tauto].
Qed.
Lemma elem_length a b : length (elem a b) = 12%nat.
Proof. unfold elem. rewrite !app_length, !le_bytes_length. reflexivity. Qed.
Lemma table_length st n : length (table st n) = (12 * n)%nat.
Proof.
  unfold table. assert (G : forall a, length (flat_map (fun k => elem (nth (2 * k) st 0) (nth (2 * k + 1) st 0)) (seq a n)) = (12 * n)%nat); [|apply G]. induction n as [|n IH]; intros a; [reflexivity|]. cbn [seq flat_map]. rewrite app_length, elem_length, IH. lia.
Qed.
Lemma elem_parts a b r : 0 <= a <= LAST -> 0 <= b <= LAST -> i32 (le_val (firstn 4 (elem a b ++ r))) = a /\ i32 (le_val (sub (elem a b ++ r) 4 4)) = b /\ skipn 12 (elem a b ++ r) = r.
Proof.
  intros Ha Hb. split; [|split].
  - unfold elem. rewrite <- app_assoc. rewrite firstn_app, le_bytes_length, Nat.sub_diag, firstn_O, app_nil_r. replace 4%nat with (length (le_bytes 4 a)) at 1 by apply le_bytes_length. rewrite firstn_all. now apply range_i32.
  - unfold elem, sub. rewrite <- app_assoc. rewrite skipn_app_len by apply le_bytes_length. rewrite <- app_assoc, firstn_app, le_bytes_length, Nat.sub_diag, firstn_O, app_nil_r. replace 4%nat with (length (le_bytes 4 b)) at 1 by apply le_bytes_length. rewrite firstn_all. now apply range_i32.
  - apply skipn_app_len, elem_length.
Qed.
Lemma entries_ok fuel after r s : In 0 after -> busy r s -> zlen (c_data (r_cat r)) < LAST -> zlen (c_data (r_cat r)) <= Z.of_nat fuel ->
  forall infos k, (2 * (k + length infos) <= length (s_files s))%nat ->
  (forall j, (j < length infos)%nat -> exists h, nth (2 * (k + j)) (s_files s) None = Some h /\ read_file_header h = Ok (nth j infos (0, 0, []))) ->
  entries (length infos) fuel after (c_data (r_cat r)) (flat_map (fun k => elem (nth (2 * k) (r_starts r) 0) (nth (2 * k + 1) (r_starts r) 0)) (seq k (length infos))) =
    Ok (map (fun '((t, m, name), k) => (name, t, m, nth (2 * k + 1) (r_starts r) 0)) (combine infos (seq k (length infos)))).
Proof.
  intros HA HI HB HF. pose proof (busy_starts r s HI HB) as HS. assert (HN : forall i, 0 <= nth i (r_starts r) 0 <= LAST). { intros i. destruct (Nat.lt_ge_cases i (length (r_starts r))) as [Hi|Hi]; [apply (proj1 (Forall_forall _ _) HS), nth_In, Hi|rewrite nth_overflow by exact Hi; unfold LAST; lia]. }
  induction infos as [|[[t m] name] infos IH]; intros k Hk HH; [reflexivity|]. cbn [length seq flat_map entries combine map] in *. destruct (elem_parts (nth (2 * k) (r_starts r) 0) (nth (2 * k + 1) (r_starts r) 0) (flat_map (fun k => elem (nth (2 * k) (r_starts r) 0) (nth (2 * k + 1) (r_starts r) 0)) (seq (S k) (length infos))) (HN _) (HN _)) as (E1 & E2 & E3). rewrite E1, E2, E3.
  destruct (HH 0%nat ltac:(lia)) as (h & H1 & H2). rewrite Nat.add_0_r in H1. cbn [nth] in H2. pose proof (proj2 (busy_read after fuel r s (2 * k) HA HI HB HF) ltac:(lia)) as R. rewrite H1 in R. unfold read_file in R. cbv zeta in R.
  destruct (Z.eqb_spec (nth (2 * k) (r_starts r) 0) 0) as [E|E]; [injection R as <-; cbv in H2; discriminate|]. rewrite R. cbn [rbind]. rewrite H2. cbn [rbind]. rewrite (IH (S k)); [reflexivity|lia|]. intros j Hj. destruct (HH (S j) ltac:(lia)) as (h' & H3 & H4). exists h'. split; [rewrite <- H3; f_equal; lia|exact H4].
Qed.
Lemma reopen_ok fuel after n os infos ver : In 0 after -> n = length infos -> (0 < n)%nat -> history_ok os (empty_store (2 * n)) ->
  let s := spec_ops os (empty_store (2 * n)) in
  (forall j, (j < n)%nat -> exists h, nth (2 * j) (s_files s) None = Some h /\ read_file_header h = Ok (nth j infos (0, 0, []))) ->
  let size := 559 + total_growth 512 os + 31 + Z.max (12 * Z.of_nat n) 512 in size < LAST -> size <= Z.of_nat fuel ->
  exists r r2, do_ops fuel after os (empty_run (2 * n)) = Ok r /\ do_op fuel after (Fat (table (r_starts r) n)) r = Ok r2 /\
    let d := flush_marks (r_cat r2) ver in
    (forall junk, length junk = 31%nat -> is_catalog junk d = Ok true) /\
    open_files fuel after d = Ok (map (fun '((t, m, name), k) => (name, t, m, nth (2 * k + 1) (r_starts r2) 0)) (combine infos (seq 0 n))) /\
    (forall i, (i < 2 * n)%nat -> read_file fuel after (RN (open_cat d) (r_starts r2)) i = Ok (match nth i (s_files s) None with Some b => b | None => [] end)).
Proof.
  intros HA Hn Hpos HO s HH size HB HF. assert (N0 : need 512 (c_data (r_cat (empty_run (2 * n)))) = 559) by reflexivity. pose proof (total_nonneg 512 os ltac:(lia)) as TN.
  destruct (ops_step after fuel 512 os HA (empty_run (2 * n)) (empty_store (2 * n)) (empty_inv _) HO) as (r & E & HI & HN); [rewrite N0; lia|rewrite N0; lia|]. rewrite N0 in HN. fold s in HI.
  assert (LT : zlen (table (r_starts r) n) = 12 * Z.of_nat n) by (unfold zlen; rewrite table_length; lia).
  assert (GR : growth 512 (Fat (table (r_starts r) n)) = 31 + Z.max (12 * Z.of_nat n) 512) by (cbn [growth]; now rewrite LT).
  destruct (op_step after fuel 512 (Fat (table (r_starts r) n)) r s HA HI I) as (r2 & E2 & HI2 & HN2); [rewrite GR; lia|rewrite GR; lia|]. rewrite GR in HN2. cbn [spec_op] in HI2.
  destruct (op_step after fuel 512 (Reopen ver) r2 (ST (table (r_starts r) n) (s_files s)) HA HI2 I) as (r3 & E3 & HI3 & HN3); [cbn [growth]; lia|cbn [growth]; lia|]. cbn [growth] in HN3. cbn [do_op] in E3. injection E3 as <-. cbn [r_cat spec_op] in *.
  exists r, r2. split; [exact E|]. split; [exact E2|]. set (d := flush_marks (r_cat r2) ver) in *. pose proof (need_le 512 (c_data (r_cat r2)) ltac:(lia)) as NL2. pose proof (need_le 512 (c_data (open_cat d)) ltac:(lia)) as NL3. change (c_data (open_cat d)) with d in *.
  assert (ES : r_starts r2 = r_starts r). { cbn [do_op] in E2. destruct (write_block fuel after (r_cat r) (table (r_starts r) n) 0 16 (-1) true) as [w| | |]; cbn [rbind] in E2; try discriminate. injection E2 as <-. reflexivity. }
  assert (LF : length (s_files s) = (2 * n)%nat).
  { unfold s. rewrite spec_files_length by exact HO. cbn [empty_store s_files]. apply repeat_length. }
  split; [|split].
  - intros junk Hj. apply (catalog_ok junk 512 r2 _ ver Hj HI2). lia.
  - destruct (inv_read after fuel 512 _ _ HA HI3) as [R1 _]; cbn [r_cat]; change (c_data (open_cat d)) with d; [lia|lia|]. cbn [r_cat s_fat] in R1. change (c_data (open_cat d)) with d in R1. assert (LT2 := LT). unfold open_files. destruct (Z.leb_spec (zlen d) 16) as [Hz|Hz]; [injection R1 as R1; rewrite <- R1 in LT2; change (zlen (@nil Z)) with 0 in LT2; lia|]. rewrite R1. cbn [rbind]. rewrite LT. replace (Z.to_nat (12 * Z.of_nat n / 12)) with n by (rewrite Z.mul_comm, Z.div_mul; lia).
    destruct HI3 as (_ & _ & [HI3|HI3]); [destruct HI3 as (D1 & _); cbn [r_cat] in D1; change (c_data (open_cat d)) with d in D1; rewrite D1 in Hz; change (zlen template) with 16 in Hz; lia|].
    pose proof (entries_ok fuel after _ _ HA HI3) as EO. cbn [r_cat r_starts s_files] in EO. change (c_data (open_cat d)) with d in EO. specialize (EO ltac:(lia) ltac:(lia) infos 0%nat ltac:(lia)). rewrite <- Hn in EO. rewrite ES in EO |- *. unfold table. apply EO. exact HH.
  - destruct (inv_read after fuel 512 _ _ HA HI3) as [_ R2]; cbn [r_cat]; change (c_data (open_cat d)) with d; [lia|lia|]. intros i Hi. apply R2. cbn [s_files]. lia.
Qed.
