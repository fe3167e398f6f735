(** Proofs about the viewer: selections, search, clipboard. *)
From Verif Require Import Prelude Lists Hex_Model Hex_Spec Hex_Proofs.
Ltac Zify.zify_post_hook ::= idtac.

(** ** Selections *)
Lemma backwards_sel v i j : backwards v i j -> has_sel v = true /\ sel_start v = at_ v /\ sel_len v = Z.of_nat (j - i + 1).
Proof.
  intros (G1 & G2 & E1 & E2 & L). unfold on_grid, offset in *. assert (N : has_sel v = true). { unfold has_sel, pos_eqb. destruct (line (at_ v) =? line (sel v)) eqn:A; [|reflexivity]. destruct (col (at_ v) =? col (sel v)) eqn:B; [lia|reflexivity]. }
  assert (S1 : sel_start v = at_ v). { unfold sel_start. destruct (line (at_ v) <? line (sel v)) eqn:A; [reflexivity|]. assert (line (at_ v) =? line (sel v) = true) as -> by lia. assert (col (at_ v) <? col (sel v) = true) as -> by lia. reflexivity. }
  assert (S2 : sel_end v = sel v). { unfold sel_end. destruct (line (sel v) <? line (at_ v)) eqn:A; [lia|]. destruct ((line (at_ v) =? line (sel v)) && (col (sel v) <? col (at_ v))) eqn:B; [lia|reflexivity]. }
  split; [exact N|]. split; [exact S1|]. unfold sel_len. rewrite S1, S2. unfold offset. lia.
Qed.
Lemma forwards_sel v i j : forwards v i j -> has_sel v = true /\ sel_start v = sel v /\ sel_len v = Z.of_nat (j - i + 1).
Proof.
  intros (G1 & G2 & E1 & E2 & L). unfold on_grid, offset in *. assert (N : has_sel v = true). { unfold has_sel, pos_eqb. destruct (line (at_ v) =? line (sel v)) eqn:A; [|reflexivity]. destruct (col (at_ v) =? col (sel v)) eqn:B; [lia|reflexivity]. }
  assert (S1 : sel_start v = sel v). { unfold sel_start. destruct (line (at_ v) <? line (sel v)) eqn:A; [lia|]. destruct ((line (at_ v) =? line (sel v)) && (col (at_ v) <? col (sel v))) eqn:B; [lia|reflexivity]. }
  assert (S2 : sel_end v = at_ v). { unfold sel_end. destruct (line (sel v) <? line (at_ v)) eqn:A; [reflexivity|]. assert (line (at_ v) =? line (sel v) = true) as -> by lia. assert (col (sel v) <? col (at_ v) = true) as -> by lia. reflexivity. }
  split; [exact N|]. split; [exact S1|]. unfold sel_len. rewrite S1, S2. unfold offset. lia.
Qed.
Lemma removed_back v i j : backwards v i j -> bytes (remove_sel v) = firstn i (bytes v) ++ skipn (j + 1) (bytes v) /\ at_ (remove_sel v) = at_ v /\ ins (remove_sel v) = ins v /\ hexa (remove_sel v) = hexa v.
Proof.
  intros H. destruct (backwards_sel v i j H) as (H1 & H2 & H3). unfold remove_sel. rewrite H1, H2, H3. destruct H as (_ & _ & E & _ & L). rewrite E. cbn [clear_sel with_doc at_ ins hexa]. split; [|auto]. unfold bytes. cbn [v_doc clear_sel with_doc d_remove push c_redo d_bytes]. unfold d_remove, push. cbn [c_redo d_bytes]. rewrite remove_in. f_equal. f_equal. lia.
Qed.
Lemma removed_forw v i j : forwards v i j -> bytes (remove_sel v) = firstn i (bytes v) ++ skipn (j + 1) (bytes v) /\ at_ (remove_sel v) = at_ v /\ ins (remove_sel v) = ins v /\ hexa (remove_sel v) = hexa v.
Proof.
  intros H. destruct (forwards_sel v i j H) as (H1 & H2 & H3). unfold remove_sel. rewrite H1, H2, H3. destruct H as (_ & _ & E & _ & L). rewrite E. cbn [clear_sel with_doc at_ ins hexa]. split; [|auto]. unfold bytes. cbn [v_doc clear_sel with_doc]. unfold d_remove, push. cbn [c_redo d_bytes]. rewrite remove_in. f_equal. f_equal. lia.
Qed.
Lemma bytes_insert d o x : d_bytes (d_insert d o x) = q_insert (d_bytes d) o x.
Proof. reflexivity. Qed.
Lemma bytes_replace d o x : d_bytes (d_replace d o x) = b_replace (d_bytes d) o x.
Proof. reflexivity. Qed.
(** [x] = what is pasted *)
Definition pasted (v : view) (text : list Z) : list Z := if hexa v then from_hex text else text.
Theorem paste_back v i j text : backwards v i j -> (i <= length (bytes v))%nat -> text <> [] -> ins v = true ->
  bytes (paste v text) = firstn i (bytes v) ++ pasted v text ++ skipn (j + 1) (bytes v).
Proof.
  intros H HI HT HM. destruct (removed_back v i j H) as (R1 & R2 & R3 & R4). unfold paste. destruct text as [|c t] eqn:ET; [congruence|]. rewrite <- ET. cbv zeta. unfold bytes at 1. cbn [with_doc v_doc]. rewrite R3, HM, R4, R2, bytes_insert. fold (bytes (remove_sel v)). rewrite R1. destruct H as (_ & _ & E & _ & L). rewrite E. fold (pasted v text).
  assert (LF : length (firstn i (bytes v)) = i) by (rewrite firstn_length; lia). rewrite insert_in by (rewrite app_length; lia). now rewrite (first_at _ _ i LF), (skip_at _ _ i LF).
Qed.
Theorem paste_forw v i j text : forwards v i j -> (i <= length (bytes v))%nat -> pasted v text <> [] -> text <> [] -> ins v = true ->
  bytes (paste v text) = firstn i (bytes v) ++ firstn (j - i) (skipn (j + 1) (bytes v) ++ repeat 32 (j - i)) ++ pasted v text ++ skipn (j - i) (skipn (j + 1) (bytes v)).
Proof.
  intros H HI HP HT HM. destruct (removed_forw v i j H) as (R1 & R2 & R3 & R4). unfold paste. destruct text as [|c t] eqn:ET; [congruence|]. rewrite <- ET in *. cbv zeta. unfold bytes at 1. cbn [with_doc v_doc]. rewrite R3, HM, R4, R2, bytes_insert. fold (bytes (remove_sel v)). rewrite R1. destruct H as (_ & _ & _ & E & L). rewrite E. fold (pasted v text).
  assert (LF : length (firstn i (bytes v)) = i) by (rewrite firstn_length; lia). set (tl := skipn (j + 1) (bytes v)). destruct (Nat.le_gt_cases (j - i) (length tl)) as [C|C].
  - rewrite insert_in by (rewrite app_length; lia). rewrite (firstn_app (j - i)). replace (j - i - length tl)%nat with 0%nat by lia. cbn [firstn]. rewrite app_nil_r.
    rewrite firstn_app, LF, firstn_all2 by lia. rewrite skipn_app, LF, (skipn_all2 (firstn i (bytes v))) by lia. cbn [app]. now rewrite <- app_assoc.
  - destruct (pasted v text) as [|p ps]; [congruence|]. rewrite insert_out by (rewrite app_length; lia). rewrite (skipn_all2 tl) by lia. rewrite app_nil_r. rewrite app_length, LF. rewrite (firstn_app (j - i)). rewrite (firstn_all2 tl) by lia.
    assert (RP : firstn (j - i - length tl) (repeat 32 (j - i)) = repeat 32 (j - (i + length tl))). { replace (j - i)%nat with ((j - i - length tl) + length tl)%nat at 2 by lia. rewrite repeat_app. rewrite first_at by apply repeat_length. f_equal. lia. }
    rewrite RP, <- !app_assoc. reflexivity.
Qed.
Theorem paste_over v i j text : backwards v i j -> (j + 1 + length (pasted v text) <= length (bytes v))%nat -> text <> [] -> ins v = false ->
  bytes (paste v text) = firstn i (bytes v) ++ pasted v text ++ skipn (j + 1 + length (pasted v text)) (bytes v).
Proof.
  intros H HI HT HM. destruct (removed_back v i j H) as (R1 & R2 & R3 & R4). unfold paste. destruct text as [|c t] eqn:ET; [congruence|]. rewrite <- ET in *. cbv zeta. unfold bytes at 1. cbn [with_doc v_doc]. rewrite R3, HM, R4, R2, bytes_replace. fold (bytes (remove_sel v)). rewrite R1. destruct H as (_ & _ & E & _ & L). rewrite E. fold (pasted v text).
  assert (LF : length (firstn i (bytes v)) = i) by (rewrite firstn_length; lia). rewrite replaced by (rewrite app_length, skipn_length; lia). rewrite (first_at _ _ i LF). rewrite skip_skip, (skip_at _ _ i LF), <- skip_skip. reflexivity.
Qed.
(** a character typed in insert mode *)
Lemma next_bytes v : bytes (move_next v) = bytes v.
Proof. unfold move_next. cbv zeta. repeat match goal with |- context [if ?b then _ else _] => destruct b end; reflexivity. Qed.
Theorem type_back v i j key : backwards v i j -> (i <= length (bytes v))%nat -> 32 <= key <= 126 -> ins v = true -> hexa v = false ->
  option_map bytes (type_key v key) = Some (firstn i (bytes v) ++ [key] ++ skipn (j + 1) (bytes v)).
Proof.
  intros H HI HK HM HX. destruct (removed_back v i j H) as (R1 & R2 & R3 & R4). unfold type_key. rewrite HX. assert ((32 <=? key) && (key <=? 126) = true) as -> by lia. cbn [negb]. cbv zeta. rewrite R3, HM. cbn [negb]. rewrite Bool.andb_false_r. cbn [option_map]. rewrite next_bytes. f_equal.
  unfold bytes at 1. cbn [with_doc v_doc]. rewrite bytes_insert. fold (bytes (remove_sel v)). rewrite R1, R2. destruct H as (_ & _ & E & _ & L). rewrite E. assert (LF : length (firstn i (bytes v)) = i) by (rewrite firstn_length; lia). rewrite insert_in by (rewrite app_length; lia). now rewrite (first_at _ _ i LF), (skip_at _ _ i LF).
Qed.
Theorem type_forw v i j key : forwards v i j -> (length (bytes v) <= j + 1)%nat -> (i <= length (bytes v))%nat -> 32 <= key <= 126 -> hexa v = false ->
  option_map bytes (type_key v key) = Some (firstn i (bytes v) ++ repeat 32 (j - i) ++ [key]).
Proof.
  intros H HJ HI HK HX. destruct (removed_forw v i j H) as (R1 & R2 & R3 & R4). unfold type_key. rewrite HX. assert ((32 <=? key) && (key <=? 126) = true) as -> by lia. cbn [negb]. cbv zeta. rewrite R2. destruct H as (_ & _ & _ & E & L). rewrite E.
  rewrite (skipn_all2 (bytes v)) in R1 by lia. rewrite app_nil_r in R1. assert (LF : length (firstn i (bytes v)) = i) by (rewrite firstn_length; lia).
  assert (size (remove_sel v) = Z.of_nat i) as -> by (unfold size, zlen; fold (bytes (remove_sel v)); rewrite R1, LF; reflexivity). assert (Z.of_nat j <? Z.of_nat i = false) as -> by lia. cbn [andb option_map]. rewrite next_bytes. f_equal. unfold bytes at 1. cbn [with_doc v_doc]. rewrite bytes_insert. fold (bytes (remove_sel v)). rewrite R1.
  rewrite insert_out by lia. now rewrite LF.
Qed.

(** ** Search *)
Lemma at_occurs b p i : q_at b p i = true <-> occurs b p i \/ (p = [] /\ (length b < i)%nat).
Proof.
  unfold q_at, occurs. destruct (list_eq_dec Z.eq_dec (firstn (length p) (skipn i b)) p) as [E|E]; split; intros H; try discriminate; try reflexivity.
  - destruct (Nat.le_gt_cases i (length b)) as [C|C].
    + left. exists (firstn i b), (skipn (length p) (skipn i b)). split; [|rewrite firstn_length; lia]. rewrite <- E at 1. rewrite firstn_skipn. symmetry. apply firstn_skipn.
    + rewrite skipn_all2 in E by lia. rewrite firstn_nil in E. right. split; [now symmetry|exact C].
  - exfalso. apply E. destruct H as [(x & y & -> & <-)|[-> _]]; [|reflexivity]. rewrite (skip_at x _ _ eq_refl). now apply first_at.
Qed.
Lemma occurs_at b p i : p <> [] -> (q_at b p i = true <-> occurs b p i).
Proof. intros N. rewrite at_occurs. intuition congruence. Qed.
Lemma occurs_len b p i : occurs b p i -> (i + length p <= length b)%nat.
Proof. intros (x & y & -> & <-). rewrite !app_length. lia. Qed.
Lemma find_seq f n : forall a, match find f (seq a n) with
  | Some i => (a <= i < a + n)%nat /\ f i = true /\ (forall k, (a <= k < i)%nat -> f k = false)
  | None => forall k, (a <= k < a + n)%nat -> f k = false end.
Proof.
  induction n as [|n IH]; intros a; cbn [seq find]; [lia|]. destruct (f a) eqn:E; [repeat split; try lia; auto|]. specialize (IH (S a)). destruct (find f (seq (S a) n)) as [i|].
  - destruct IH as (H1 & H2 & H3). split; [lia|]. split; [exact H2|]. intros k Hk. destruct (Nat.eq_dec k a) as [-> |]; [exact E|apply H3; lia].
  - intros k Hk. destruct (Nat.eq_dec k a) as [-> |]; [exact E|apply IH; lia].
Qed.
Lemma find_rev f n : match find f (rev (seq 0 n)) with
  | Some i => (i < n)%nat /\ f i = true /\ (forall k, (i < k < n)%nat -> f k = false)
  | None => forall k, (k < n)%nat -> f k = false end.
Proof.
  induction n as [|n IH]; [cbn; lia|]. rewrite seq_S, rev_app_distr. cbn [rev app Nat.add find]. destruct (f n) eqn:E; [split; [lia|]; split; [exact E|lia]|]. destruct (find f (rev (seq 0 n))) as [i|].
  - destruct IH as (H1 & H2 & H3). split; [lia|]. split; [exact H2|]. intros k Hk. destruct (Nat.eq_dec k n) as [-> |]; [exact E|apply H3; lia].
  - intros k Hk. destruct (Nat.eq_dec k n) as [-> |]; [exact E|apply IH; lia].
Qed.
Lemma index_spec b p from : p <> [] -> (q_index b p (Z.of_nat from) = -1 /\ forall i, (from <= i)%nat -> ~ occurs b p i) \/
  (exists i, q_index b p (Z.of_nat from) = Z.of_nat i /\ (from <= i)%nat /\ occurs b p i /\ forall k, (from <= k < i)%nat -> ~ occurs b p k).
Proof.
  intros N. unfold q_index. rewrite Nat2Z.id. pose proof (find_seq (q_at b p) (length b - from) from) as F. destruct (find (q_at b p) (seq from (length b - from))) as [i|].
  - right. exists i. destruct F as (F1 & F2 & F3). split; [reflexivity|]. split; [lia|]. split; [now apply occurs_at|]. intros k Hk O. apply occurs_at in O; [|exact N]. rewrite F3 in O by exact Hk. discriminate.
  - left. split; [reflexivity|]. intros i Hi O. pose proof (occurs_len _ _ _ O) as L. assert (length p <> 0%nat) by (destruct p; [congruence|discriminate]). apply occurs_at in O; [|exact N]. rewrite F in O by lia. discriminate.
Qed.
Lemma last_spec b p s : p <> [] -> (s <= length b)%nat -> (q_last b p (Z.of_nat s) = -1 /\ forall i, (i <= s)%nat -> ~ occurs b p i) \/
  (exists i, q_last b p (Z.of_nat s) = Z.of_nat i /\ (i <= s)%nat /\ occurs b p i /\ forall k, (i < k <= s)%nat -> ~ occurs b p k).
Proof.
  intros N HS. unfold q_last. assert (Z.of_nat s <? 0 = false) as -> by lia. cbv zeta. unfold zlen. assert (Z.of_nat (length b) <? Z.of_nat s = false) as -> by lia. rewrite Bool.andb_false_r.
  set (n := Z.to_nat (Z.min (Z.of_nat s + 1) (Z.of_nat (length b)))). assert (HN : n = Nat.min (s + 1) (length b)) by lia. pose proof (find_rev (q_at b p) n) as F. assert (LP : length p <> 0%nat) by (destruct p; [congruence|discriminate]). destruct (find (q_at b p) (rev (seq 0 n))) as [i|].
  - right. exists i. destruct F as (F1 & F2 & F3). split; [reflexivity|]. split; [lia|]. split; [now apply occurs_at|]. intros k Hk O. pose proof (occurs_len _ _ _ O) as L. apply occurs_at in O; [|exact N]. rewrite F3 in O by lia. discriminate.
  - left. split; [reflexivity|]. intros i Hi O. pose proof (occurs_len _ _ _ O) as L. apply occurs_at in O; [|exact N]. rewrite F in O by lia. discriminate.
Qed.
Lemma last_whole b p : p <> [] -> q_last b p (-1) = match b with [] => -1 | _ => q_last b p (Z.of_nat (length b - 1)) end.
Proof.
  intros N. unfold q_last. change (-1 <? 0) with true. cbv iota zeta. destruct b as [|x b]; [destruct ((1 <? zlen p) && _); reflexivity|]. assert (Z.of_nat (length (x :: b) - 1) <? 0 = false) as -> by lia. unfold zlen. replace (Z.of_nat (length (x :: b)) - 1) with (Z.of_nat (length (x :: b) - 1)) by (cbn [length]; lia). reflexivity.
Qed.
(** the view after something was found at [i] *)
Definition reach (p : list Z) (i : nat) : nat := i + Nat.min (length p - 1) (15 - i mod 16).
Lemma found_at v p i : p <> [] -> found v p (Z.of_nat i) = (Z.of_nat i, VW (v_doc v) (PS (Z.of_nat i / 16) (Z.of_nat (reach p i) - 16 * (Z.of_nat i / 16)) 1) (PS (Z.of_nat i / 16) (Z.of_nat i mod 16) 1) (ins v) (hexa v)).
Proof.
  intros N. unfold found. assert (-1 <? Z.of_nat i = true) as -> by lia. unfold select_len, select, move_off, move_to, clear_sel. cbn [at_ sel v_doc line col ins hexa]. do 3 f_equal. unfold reach, zlen. assert (LP : length p <> 0%nat) by (destruct p; [congruence|discriminate]).
  pose proof (Nat2Z.inj_mod i 16) as M. change (Z.of_nat 16) with 16 in M. pose proof (Z.div_mod (Z.of_nat i) 16 ltac:(lia)). pose proof (Z.mod_pos_bound (Z.of_nat i) 16 ltac:(lia)). lia.
Qed.
Lemma found_grid v p i : p <> [] -> let w := snd (found v p (Z.of_nat i)) in offset (sel w) = Z.of_nat i /\ offset (at_ w) = Z.of_nat (reach p i) /\ on_grid (at_ w) /\ on_grid (sel w) /\ bytes w = bytes v.
Proof.
  intros N. rewrite found_at by exact N. cbv zeta. cbn [snd]. unfold offset, on_grid. cbn [sel at_ line col]. pose proof (Z.div_mod (Z.of_nat i) 16 ltac:(lia)). pose proof (Z.mod_pos_bound (Z.of_nat i) 16 ltac:(lia)). pose proof (Nat2Z.inj_mod i 16) as M. change (Z.of_nat 16) with 16 in M. assert (0 <= Z.of_nat i / 16) by (apply Z.div_pos; lia).
  assert (R : Z.of_nat i <= Z.of_nat (reach p i) <= Z.of_nat i + (15 - Z.of_nat i mod 16)) by (unfold reach; lia). repeat split; try lia.
Qed.
Theorem search_ok v p o : p <> [] -> offset (at_ v) = Z.of_nat o ->
  (fst (search v p) = -1 /\ snd (search v p) = v /\ forall i, (o <= i)%nat -> ~ occurs (bytes v) p i) \/
  (exists i, fst (search v p) = Z.of_nat i /\ (o <= i)%nat /\ occurs (bytes v) p i /\ (forall k, (o <= k < i)%nat -> ~ occurs (bytes v) p k) /\
     ((2 <= length p)%nat -> (i mod 16 + length p <= 16)%nat -> selected (snd (search v p)) = p)).
Proof.
  intros N HO. unfold search. rewrite HO. fold (bytes v). destruct (index_spec (bytes v) p o N) as [[E H]|(i & E & H1 & H2 & H3)]; rewrite E.
  - left. split; [reflexivity|]. split; [reflexivity|exact H].
  - right. exists i. split; [now rewrite found_at|]. split; [exact H1|]. split; [exact H2|]. split; [exact H3|]. intros L1 L2. destruct (found_grid v p i N) as (G1 & G2 & G3 & G4 & G5). set (w := snd (found v p (Z.of_nat i))) in *.
    assert (R : reach p i = (i + (length p - 1))%nat) by (unfold reach; lia). assert (F : forwards w i (reach p i)) by (unfold forwards; repeat split; try (apply G3 || apply G4); try assumption; lia).
    destruct (forwards_sel w _ _ F) as (S1 & S2 & S3). unfold selected. rewrite S1, S2, S3, G1, mid_in. fold (bytes w). rewrite G5. destruct H2 as (x & y & -> & <-). rewrite (skip_at x _ _ eq_refl). apply first_at. lia.
Qed.
Theorem search_again v p o i : p <> [] -> offset (at_ v) = Z.of_nat o -> fst (search v p) = Z.of_nat i -> (length p = 1 \/ i mod 16 = 15)%nat -> fst (search (snd (search v p)) p) = Z.of_nat i.
Proof.
  intros N HO E HR. unfold search in E. rewrite HO in E. fold (bytes v) in E. destruct (index_spec (bytes v) p o N) as [[E0 H]|(k & E0 & H1 & H2 & H3)]; rewrite E0 in E.
  { cbn [found] in E. unfold found in E. change (-1 <? -1) with false in E. cbn [fst] in E. lia. }
  rewrite found_at in E by exact N. cbn [fst] in E. assert (k = i) by lia. subst k. unfold search at 2. rewrite HO. fold (bytes v). rewrite E0. destruct (found_grid v p i N) as (G1 & G2 & G3 & G4 & G5). set (w := snd (found v p (Z.of_nat i))) in *. unfold search. rewrite G2. fold (bytes w). rewrite G5.
  assert (R : reach p i = i) by (unfold reach; lia). rewrite R. destruct (index_spec (bytes v) p i N) as [[E1 H]|(k & E1 & K1 & K2 & K3)]; [exfalso; exact (H i (le_n i) H2)|]. assert (k = i). { destruct (Nat.eq_dec k i); [assumption|]. exfalso. exact (K3 i ltac:(lia) H2). } subst k. rewrite E1. now rewrite found_at.
Qed.
Theorem search_cut v p o i : p <> [] -> offset (at_ v) = Z.of_nat o -> fst (search v p) = Z.of_nat i -> (i mod 16 < 15)%nat -> (16 < i mod 16 + length p)%nat -> selected (snd (search v p)) = firstn (16 - i mod 16) p.
Proof.
  intros N HO E HM HL. unfold search in E |- *. rewrite HO in E |- *. fold (bytes v) in E |- *. destruct (index_spec (bytes v) p o N) as [[E0 H]|(k & E0 & H1 & H2 & H3)]; rewrite E0 in E |- *.
  { unfold found in E. change (-1 <? -1) with false in E. cbn [fst] in E. lia. }
  rewrite found_at in E by exact N. cbn [fst] in E. assert (k = i) by lia. subst k. destruct (found_grid v p i N) as (G1 & G2 & G3 & G4 & G5). set (w := snd (found v p (Z.of_nat i))) in *.
  assert (R : reach p i = (i + (15 - i mod 16))%nat) by (unfold reach; lia). assert (F : forwards w i (reach p i)) by (unfold forwards; repeat split; try (apply G3 || apply G4); try assumption; lia).
  destruct (forwards_sel w _ _ F) as (S1 & S2 & S3). unfold selected. rewrite S1, S2, S3, G1, mid_in. fold (bytes w). rewrite G5. destruct H2 as (x & y & E2 & L). rewrite E2. rewrite (skip_at x _ i L). rewrite firstn_app. replace (reach p i - i + 1)%nat with (16 - i mod 16)%nat by lia. replace (16 - i mod 16 - length p)%nat with 0%nat by lia. cbn [firstn]. apply app_nil_r.
Qed.
(** where a search backwards starts *)
Definition start_of (v : view) : Z := if has_sel v then offset (sel_start v) else offset (at_ v).
Theorem back_ok v p s : p <> [] -> start_of v = Z.of_nat (S s) -> (s <= length (bytes v))%nat ->
  (fst (search_back v p) = -1 /\ forall i, (i <= s)%nat -> ~ occurs (bytes v) p i) \/
  (exists i, fst (search_back v p) = Z.of_nat i /\ (i <= s)%nat /\ occurs (bytes v) p i /\ forall k, (i < k <= s)%nat -> ~ occurs (bytes v) p k).
Proof.
  intros N HS HL. unfold search_back. assert (E0 : (if has_sel v then offset (sel_start v) - 1 else offset (at_ v) - 1) = Z.of_nat s) by (unfold start_of in HS; destruct (has_sel v); lia). rewrite E0. fold (bytes v). destruct (last_spec (bytes v) p s N HL) as [[E H]|(i & E & H1 & H2 & H3)]; rewrite E.
  - left. split; [reflexivity|exact H].
  - right. exists i. split; [now rewrite found_at|]. auto.
Qed.
Theorem back_wraps v p i : p <> [] -> start_of v = 0 -> occurs (bytes v) p i -> exists k, fst (search_back v p) = Z.of_nat k /\ (i <= k)%nat /\ occurs (bytes v) p k.
Proof.
  intros N HS HI. unfold search_back. assert (E0 : (if has_sel v then offset (sel_start v) - 1 else offset (at_ v) - 1) = -1) by (unfold start_of in HS; destruct (has_sel v); lia). rewrite E0. fold (bytes v). rewrite last_whole by exact N. pose proof (occurs_len _ _ _ HI) as L. assert (LP : length p <> 0%nat) by (destruct p; [congruence|discriminate]).
  destruct (bytes v) as [|x b] eqn:EB; [cbn [length] in L; lia|]. rewrite <- EB in *. destruct (last_spec (bytes v) p (length (bytes v) - 1) N ltac:(lia)) as [[E H]|(k & E & H1 & H2 & H3)]; rewrite E.
  - exfalso. exact (H i ltac:(lia) HI).
  - exists k. split; [now rewrite found_at|]. split; [|exact H2]. destruct (Nat.le_gt_cases i k); [assumption|]. exfalso. exact (H3 i ltac:(lia) HI).
Qed.
