(** Proofs about packing and unpacking leaf pages. *)
From Verif Require Import Prelude Lists Leaf_Model Leaf_Spec.
Ltac Zify.zify_post_hook ::= idtac.

(** ** Bits *)
Lemma bits_loop_ok fuel : forall i n, 0 <= i < 2 ^ Z.of_nat fuel ->
  n <= bits_loop fuel i n <= n + Z.of_nat fuel /\ i < 2 ^ (bits_loop fuel i n - n) /\ (0 < i -> n < bits_loop fuel i n).
Proof.
  induction fuel as [|k IH]; intros i n Hi; cbn [bits_loop].
  - cbn in Hi. rewrite Z.sub_diag. cbn. lia.
  - destruct (Z.eqb_spec i 0) as [E|E]. { subst i. rewrite Z.sub_diag. cbn [Z.pow]. lia. }
    rewrite Nat2Z.inj_succ, Z.pow_succ_r in Hi by lia.
    assert (H2 : Z.shiftr i 1 = i / 2) by (rewrite Z.shiftr_div_pow2 by lia; reflexivity).
    pose proof (Z.div_mod i 2 ltac:(lia)) as HD. pose proof (Z.mod_pos_bound i 2 ltac:(lia)) as HM.
    rewrite H2. destruct (IH (i / 2) (n + 1)) as (A & B & C). { split; [apply Z.div_pos; lia|]. apply Z.div_lt_upper_bound; lia. }
    split; [lia|]. split; [|intros _; lia].
    replace (bits_loop k (i / 2) (n + 1) - n) with (Z.succ (bits_loop k (i / 2) (n + 1) - (n + 1))) by lia. rewrite Z.pow_succ_r by lia. lia.
Qed.
Lemma bits_ok v : 0 <= v < 2^32 -> 0 <= bits v <= 32 /\ v < 2 ^ bits v /\ (0 < v -> 0 < bits v).
Proof. intros H. unfold bits. destruct (bits_loop_ok 32 v 0 H) as (A & B & C). rewrite Z.sub_0_r in B. change (Z.of_nat 32) with 32 in A. lia. Qed.
Lemma bits_loop_up fuel : forall i n k, 0 <= i < 2 ^ k -> 0 <= k -> bits_loop fuel i n <= n + k.
Proof.
  induction fuel as [|f IH]; intros i n k Hi Hk; cbn [bits_loop]; [lia|]. destruct (Z.eqb_spec i 0); [lia|].
  destruct (Z.eqb_spec k 0) as [->|Ek]; [cbn in Hi; lia|].
  assert (H2 : Z.shiftr i 1 = i / 2) by (rewrite Z.shiftr_div_pow2 by lia; reflexivity). rewrite H2.
  specialize (IH (i / 2) (n + 1) (k - 1)). assert (Ep : 2 ^ k = 2 * 2 ^ (k - 1)) by (rewrite <- Z.pow_succ_r by lia; f_equal; lia).
  assert (0 <= i / 2 < 2 ^ (k - 1)) by (split; [apply Z.div_pos; lia|apply Z.div_lt_upper_bound; lia]). lia.
Qed.
Lemma bits_le v k : 0 <= v < 2 ^ k -> 0 <= k -> bits v <= k.
Proof. intros H1 H2. unfold bits. pose proof (bits_loop_up 32 v 0 k H1 H2). lia. Qed.
Lemma mask_loop_ok k : forall m, 0 <= m <= 32 -> mask_loop k (Z.ones m) = Z.ones (Z.min (m + Z.of_nat k) 32).
Proof.
  induction k as [|k IH]; intros m Hm; cbn [mask_loop].
  - f_equal. lia.
  - assert (E : u32 (Z.lor (Z.shiftl (Z.ones m) 1) 1) = Z.ones (Z.min (m + 1) 32)).
    { assert (E1 : Z.lor (Z.shiftl (Z.ones m) 1) 1 = Z.ones (m + 1)).
      { apply Z.bits_inj'. intros i Hi. rewrite Z.lor_spec. change 1 with (Z.ones 1) at 2.
        destruct (Z.eqb_spec i 0) as [->|Ei].
        - rewrite (Z.ones_spec_low 1), (Z.ones_spec_low (m + 1)) by lia. apply orb_true_r.
        - rewrite Z.shiftl_spec by lia. rewrite (Z.ones_spec_high 1) by lia. rewrite orb_false_r.
          destruct (Z.ltb_spec (i - 1) m); [rewrite !Z.ones_spec_low by lia; reflexivity|rewrite !Z.ones_spec_high by lia; reflexivity]. }
      rewrite E1. unfold u32. rewrite <- Z.land_ones by lia. apply Z.bits_inj'. intros i Hi. rewrite Z.land_spec.
      assert (T : forall q, 0 <= q -> Z.testbit (Z.ones q) i = (i <? q)).
      { intros q Hq. destruct (Z.ltb_spec i q); [apply Z.ones_spec_low; lia|apply Z.ones_spec_high; lia]. }
      rewrite !T by lia. destruct (Z.ltb_spec i (m + 1)); destruct (Z.ltb_spec i 32); destruct (Z.ltb_spec i (Z.min (m + 1) 32)); try reflexivity; lia. }
    rewrite E, IH by lia. f_equal. lia.
Qed.
Lemma mask_ok k : 0 <= k -> mask k = Z.ones (Z.min k 32).
Proof. intros H. unfold mask. change 0 with (Z.ones 0). rewrite mask_loop_ok by lia. f_equal. lia. Qed.
Lemma lor_add a b k : 0 <= k -> 0 <= b < 2 ^ k -> Z.lor (Z.shiftl a k) b = a * 2 ^ k + b.
Proof.
  intros Hk Hb. rewrite <- Z.shiftl_mul_pow2 by lia.
  assert (E : Z.land (Z.shiftl a k) b = 0).
  { apply Z.bits_inj'. intros i Hi. rewrite Z.land_spec, Z.bits_0. destruct (Z.ltb_spec i k) as [H|H].
    - rewrite Z.shiftl_spec_low by lia. reflexivity.
    - replace b with (b mod 2 ^ k) by (apply Z.mod_small; lia). rewrite Z.mod_pow2_bits_high by lia. apply andb_false_r. }
  rewrite Z.add_nocarry_lxor by exact E. symmetry. apply Z.lxor_lor. exact E.
Qed.

(** ** The entry of a record *)
Definition ent_val (lb nb : Z) (p : prec) : Z := (pr_rgt p * 2 ^ lb + pr_lft p) * 2 ^ nb + pr_num p.
Lemma entry_ok lb nb p rbt : 0 <= lb -> 0 <= nb -> 0 <= pr_rgt p < 2 ^ lb -> 0 <= pr_lft p < 2 ^ lb -> 0 <= pr_num p < 2 ^ nb -> nb + lb + lb = 8 * rbt -> rbt <= 8 ->
  entry lb nb p = ent_val lb nb p /\ 0 <= ent_val lb nb p < 2 ^ (8 * rbt).
Proof.
  intros Hlb Hnb Hr Hl Hn Hs H8. unfold entry, ent_val.
  assert (P1 : 2 ^ (8 * rbt) = 2 ^ nb * (2 ^ lb * 2 ^ lb)) by (rewrite <- Hs, !Z.pow_add_r by lia; ring).
  assert (P0 : 0 < 2 ^ lb) by (apply Z.pow_pos_nonneg; lia). assert (Q0 : 0 < 2 ^ nb) by (apply Z.pow_pos_nonneg; lia).
  assert (P2 : 2 ^ (8 * rbt) <= 2 ^ 64) by (apply Z.pow_le_mono_r; lia).
  assert (B1 : 0 <= pr_rgt p * 2 ^ lb + pr_lft p < 2 ^ lb * 2 ^ lb) by nia.
  assert (B2 : 0 <= (pr_rgt p * 2 ^ lb + pr_lft p) * 2 ^ nb + pr_num p < 2 ^ (8 * rbt)) by (rewrite P1; nia).
  split; [|exact B2]. unfold u64.
  rewrite (Z.mod_small (Z.shiftl (pr_rgt p) lb)) by (rewrite Z.shiftl_mul_pow2 by lia; nia).
  rewrite (lor_add (pr_rgt p)) by lia.
  rewrite (Z.mod_small (Z.shiftl _ nb)) by (rewrite Z.shiftl_mul_pow2 by lia; nia).
  rewrite lor_add by lia. apply Z.mod_small. lia.
Qed.
Lemma firstn_le_bytes k : forall n v, (k <= n)%nat -> firstn k (le_bytes n v) = le_bytes k v.
Proof. induction k as [|k IH]; intros [|n] v H; cbn [le_bytes firstn]; try reflexivity; [lia|]. f_equal. apply IH. lia. Qed.
Lemma le_val_app a b : le_val (a ++ b) = le_val a + 256 ^ zlen a * le_val b.
Proof.
  induction a as [|x a IH]; [cbn [app le_val]; change (256 ^ zlen (@nil Z)) with 1; lia|]. cbn [app le_val]. rewrite IH, zlen_cons.
  rewrite Z.pow_add_r by (pose proof (zlen_nonneg a); lia). ring.
Qed.
(** the fields of an entry come back whatever follows it *)
Lemma decode lb nb p rbt e : 0 <= lb <= 15 -> 0 <= nb -> 0 <= pr_rgt p < 2 ^ lb -> 0 <= pr_lft p < 2 ^ lb -> 0 <= pr_num p < 2 ^ nb -> pr_num p < 2 ^ 32 ->
  nb + lb + lb = 8 * rbt -> 0 <= rbt <= 8 -> zlen e = 8 -> bytes_ok e -> firstn (Z.to_nat rbt) e = le_bytes (Z.to_nat rbt) (entry lb nb p) ->
  Z.land (s64 (le_val e)) (mask nb) = pr_num p /\ Z.land (Z.shiftr (s64 (le_val e)) nb) (mask lb) = pr_lft p /\
  Z.land (Z.shiftr (Z.shiftr (s64 (le_val e)) nb) lb) (mask lb) = pr_rgt p.
Proof.
  intros Hlb Hnb Hr Hl Hn Hn32 Hs Hrb He Hok Hf.
  destruct (entry_ok lb nb p rbt ltac:(lia) Hnb Hr Hl Hn Hs ltac:(lia)) as [E HB]. rewrite E in Hf. clear E.
  assert (HV : exists t, s64 (le_val e) = ent_val lb nb p + 2 ^ (8 * rbt) * t).
  { rewrite <- (firstn_skipn (Z.to_nat rbt) e), le_val_app. rewrite Hf, le_val_bytes. unfold zlen at 1. rewrite le_bytes_length, Z2Nat.id by lia.
    assert (E2 : 256 ^ rbt = 2 ^ (8 * rbt)) by (change 256 with (2 ^ 8); rewrite <- Z.pow_mul_r by lia; reflexivity).
    rewrite E2. rewrite (Z.mod_small (ent_val lb nb p)) by exact HB. set (y := le_val (skipn (Z.to_nat rbt) e)). unfold s64.
    destruct (Z.ltb_spec (ent_val lb nb p + 2 ^ (8 * rbt) * y) (2^63)); [now exists y|].
    exists (y - 2 ^ (64 - 8 * rbt)). replace (2^64) with (2 ^ (8 * rbt) * 2 ^ (64 - 8 * rbt)) by (rewrite <- Z.pow_add_r by lia; f_equal; lia). ring. }
  destruct HV as [t ->]. unfold ent_val.
  assert (P0 : 0 < 2 ^ lb) by (apply Z.pow_pos_nonneg; lia). assert (Q0 : 0 < 2 ^ nb) by (apply Z.pow_pos_nonneg; lia).
  assert (P1 : 2 ^ (8 * rbt) = 2 ^ nb * (2 ^ lb * 2 ^ lb)) by (rewrite <- Hs, !Z.pow_add_r by lia; ring).
  rewrite P1. set (R := pr_rgt p) in *. set (L := pr_lft p) in *. set (N := pr_num p) in *.
  assert (S1 : Z.shiftr ((R * 2 ^ lb + L) * 2 ^ nb + N + 2 ^ nb * (2 ^ lb * 2 ^ lb) * t) nb = R * 2 ^ lb + L + 2 ^ lb * 2 ^ lb * t).
  { rewrite Z.shiftr_div_pow2 by lia. symmetry. apply (Z.div_unique _ _ _ N); [lia|ring]. }
  rewrite S1. assert (S2 : Z.shiftr (R * 2 ^ lb + L + 2 ^ lb * 2 ^ lb * t) lb = R + 2 ^ lb * t).
  { rewrite Z.shiftr_div_pow2 by lia. symmetry. apply (Z.div_unique _ _ _ L); [lia|ring]. }
  rewrite S2, !mask_ok by lia. rewrite !Z.land_ones by lia. rewrite (Z.min_l lb) by lia. repeat split.
  - destruct (Z.le_ge_cases nb 32) as [H|H].
    + rewrite Z.min_l by lia. symmetry. apply (Z.mod_unique _ _ (R * 2 ^ lb + L + 2 ^ lb * 2 ^ lb * t)); [lia|ring].
    + rewrite Z.min_r by lia. assert (E3 : 2 ^ nb = 2 ^ 32 * 2 ^ (nb - 32)) by (rewrite <- Z.pow_add_r by lia; f_equal; lia). rewrite E3.
      symmetry. apply (Z.mod_unique _ _ ((R * 2 ^ lb + L) * 2 ^ (nb - 32) + 2 ^ (nb - 32) * (2 ^ lb * 2 ^ lb) * t)); [lia|ring].
  - symmetry. apply (Z.mod_unique _ _ (R + 2 ^ lb * t)); [lia|ring].
  - symmetry. apply (Z.mod_unique _ _ t); [lia|ring].
Qed.

(** ** What the first loop of packing leaves *)
Fixpoint packed (len : Z) (prev : option (list Z)) (recs : list (Z * list Z)) (ps : list prec) (mids : list (list Z)) : Prop :=
  match recs, ps, mids with
  | [], [], [] => True
  | (num, key) :: recs', p :: ps', m :: mids' =>
      pr_num p = num /\ 0 <= pr_lft p /\ 0 <= pr_rgt p /\ pr_lft p + pr_rgt p <= len /\
      (pr_lft p = 0 \/ exists q, prev = Some q /\ zlen q = len /\ firstn (Z.to_nat (pr_lft p)) q = firstn (Z.to_nat (pr_lft p)) key) /\
      skipn (Z.to_nat (len - pr_rgt p)) key = repeat 0 (Z.to_nat (pr_rgt p)) /\
      m = sub key (Z.to_nat (pr_lft p)) (Z.to_nat (len - pr_lft p - pr_rgt p)) /\
      packed len (Some key) recs' ps' mids'
  | _, _, _ => False
  end.

Lemma rd_some (l : list Z) i x : rd l i = Ok x -> 0 <= i /\ nth_error l (Z.to_nat i) = Some x.
Proof. unfold rd. destruct (Z.ltb_spec i 0); [discriminate|]. destruct (nth_error l (Z.to_nat i)); [|discriminate]. intros [= ->]. split; [lia|reflexivity]. Qed.
Lemma prefix_some fuel : forall buf cur step len j j', 0 <= j <= len -> prefix_loop fuel buf cur step len j = Ok j' ->
  (forall i, 0 <= i < j -> nth_error buf (Z.to_nat (cur + i)) = nth_error buf (Z.to_nat (cur + i - step))) ->
  0 <= j' <= len /\ (forall i, 0 <= i < j' -> nth_error buf (Z.to_nat (cur + i)) = nth_error buf (Z.to_nat (cur + i - step))).
Proof.
  induction fuel as [|k IH]; intros buf cur step len j j' Hj E HI; cbn [prefix_loop] in E; [discriminate|].
  destruct (rd buf (cur + j)) as [a| | |] eqn:E1; try discriminate. cbn [rbind] in E. destruct (rd buf (cur + j - step)) as [b| | |] eqn:E2; try discriminate. cbn [rbind] in E.
  destruct (Z.eqb_spec a b) as [Eab|Eab]; cbn [andb] in E.
  - destruct (Z.ltb_spec j len) as [H|H].
    + apply (IH buf cur step len (j + 1) j'); [lia|exact E|]. intros i Hi. destruct (Z.eq_dec i j) as [->|]; [|apply HI; lia].
      apply rd_some in E1. apply rd_some in E2. destruct E1 as [_ ->]. destruct E2 as [_ ->]. now rewrite Eab.
    + injection E as <-. split; [lia|]. exact HI.
  - injection E as <-. split; [lia|]. exact HI.
Qed.
Lemma zeros_some fuel : forall buf cur len j j', 1 <= j <= len + 1 -> zeros_loop fuel buf cur len j = Ok j' ->
  (forall i, 1 <= i < j -> nth_error buf (Z.to_nat (cur + len - i)) = Some 0) ->
  1 <= j' <= len + 1 /\ (forall i, 1 <= i < j' -> nth_error buf (Z.to_nat (cur + len - i)) = Some 0).
Proof.
  induction fuel as [|k IH]; intros buf cur len j j' Hj E HI; cbn [zeros_loop] in E; [discriminate|].
  destruct (rd buf (cur + len - j)) as [a| | |] eqn:E1; try discriminate. cbn [rbind] in E.
  destruct (Z.eqb_spec a 0) as [Ea|Ea]; cbn [andb] in E.
  - destruct (Z.leb_spec j len) as [H|H].
    + apply (IH buf cur len (j + 1) j'); [lia|exact E|]. intros i Hi. destruct (Z.eq_dec i j) as [->|]; [|apply HI; lia].
      apply rd_some in E1. destruct E1 as [_ ->]. now rewrite Ea.
    + injection E as <-. split; [lia|]. exact HI.
  - injection E as <-. split; [lia|]. exact HI.
Qed.

Lemma nth_error_mid {A} (a k b : list A) i : (i < length k)%nat -> nth_error (a ++ k ++ b) (length a + i) = nth_error k i.
Proof. intros H. rewrite nth_error_app2 by lia. replace (length a + i - length a)%nat with i by lia. apply nth_error_app1. exact H. Qed.
Lemma nth_error_firstn' {A} (l : list A) n i : nth_error (firstn n l) i = if (i <? n)%nat then nth_error l i else None.
Proof.
  destruct (Nat.ltb_spec i n) as [H|H].
  - revert l i H. induction n as [|n IH]; intros l i H; [lia|]. destruct l as [|a l]; [destruct i; reflexivity|]. destruct i as [|i]; [reflexivity|]. cbn. apply IH. lia.
  - apply nth_error_None. rewrite firstn_length. lia.
Qed.
Lemma firstn_eq_nth {A} (a b : list A) n : (forall i, (i < n)%nat -> nth_error a i = nth_error b i) -> firstn n a = firstn n b.
Proof. intros H. apply nth_error_ext. intros i. rewrite !nth_error_firstn'. destruct (Nat.ltb_spec i n); auto. Qed.
Lemma nth_error_skipn' {A} (l : list A) n i : nth_error (skipn n l) i = nth_error l (n + i).
Proof. revert l. induction n as [|n IH]; intros l; [reflexivity|]. destruct l as [|a l]; [destruct i; reflexivity|]. cbn. apply IH. Qed.
Lemma skipn_zeros (k : list Z) r : (r <= length k)%nat -> (forall i, (1 <= i <= r)%nat -> nth_error k (length k - i) = Some 0) -> skipn (length k - r) k = repeat 0 r.
Proof.
  intros Hr H. apply nth_error_ext. intros i. rewrite nth_error_skipn'. destruct (Nat.lt_ge_cases i r) as [Hi|Hi].
  - rewrite (nth_error_nth' (repeat 0 r) 0) by (rewrite repeat_length; exact Hi). rewrite nth_repeat. rewrite <- (H (r - i)%nat) by lia. f_equal. lia.
  - transitivity (@None Z); [apply nth_error_None; lia|symmetry; apply nth_error_None; rewrite repeat_length; lia].
Qed.
Lemma sub_mid {A} (a k b : list A) : sub (a ++ k ++ b) (length a) (length k) = k.
Proof. unfold sub. rewrite skipn_app, skipn_all, Nat.sub_diag. cbn [app skipn]. rewrite firstn_app, firstn_all, Nat.sub_diag. cbn [firstn]. apply app_nil_r. Qed.
Lemma sub_inner {A} (a k b : list A) o n : (o + n <= length k)%nat -> sub (a ++ k ++ b) (length a + o) n = sub k o n.
Proof.
  intros H. unfold sub. rewrite skipn_app. rewrite (skipn_all2 a) by lia. replace (length a + o - length a)%nat with o by lia. cbn [app].
  rewrite skipn_app. rewrite firstn_app. rewrite skipn_length. replace (n - (length k - o))%nat with 0%nat by lia. cbn [firstn]. apply app_nil_r.
Qed.
Lemma concat_rev_cons {A} (m : list A) ms : concat (rev (m :: ms)) = concat (rev ms) ++ m.
Proof. cbn [rev]. rewrite concat_app. cbn [concat]. now rewrite app_nil_r. Qed.
Lemma len_total {A} (ms : list (list A)) : length (concat (rev ms)) = length (concat ms).
Proof. induction ms as [|m ms IH]; [reflexivity|]. rewrite concat_rev_cons. cbn [concat]. rewrite !app_length. lia. Qed.

Lemma flat_cons num key recs : flat ((num, key) :: recs) = le_bytes 4 num ++ key ++ flat recs.
Proof. unfold flat. cbn [map concat fst snd]. now rewrite <- app_assoc. Qed.

Lemma pack_recs_ok recs : forall first primary len datasize pre extra page curp plen maxn ps page' plen' maxn' prev,
  0 < len < 2^15 -> datasize <= 2^16 -> Forall (rec_ok len) recs -> 0 <= plen < datasize -> 0 <= maxn < 2^32 ->
  (first = true /\ prev = None \/ first = false /\ exists pre' q, pre = pre' ++ q /\ zlen q = len /\ prev = Some q) ->
  zlen page = datasize + 30 -> curp = datasize + 30 - plen ->
  pack_recs (length recs) first primary len datasize (pre ++ flat recs ++ extra) (zlen pre) page curp plen maxn = Ok (Some (ps, page', plen', maxn')) ->
  exists mids, packed len prev recs ps mids /\ plen' = plen + zlen (concat mids) /\ plen' < datasize /\
    page' = firstn (Z.to_nat (curp - zlen (concat mids))) page ++ concat (rev mids) ++ skipn (Z.to_nat curp) page /\
    maxn <= maxn' < 2^32 /\ Forall (fun p => 0 <= pr_num p <= maxn') ps /\ length ps = length recs.
Proof.
  induction recs as [|[num key] recs IH]; intros first primary len datasize pre extra page curp plen maxn ps page' plen' maxn' prev Hlen Hds HR Hpl Hmx Hprev Hpg Hcp E.
  - cbn [length pack_recs] in E. injection E as <- <- <- <-. exists []. cbn [concat rev packed app]. rewrite zlen_nil. rewrite Z.sub_0_r, firstn_skipn.
    repeat split; auto; try lia.
  - inversion HR as [|? ? [HRn [HRk HRb]] HR']; subst. cbn [fst snd] in *. cbn [length pack_recs] in E. rewrite flat_cons in E.
    assert (HL4 : forall v, zlen (le_bytes 4 v) = 4) by (intros v; unfold zlen; now rewrite le_bytes_length).
    assert (E4 : rdn (pre ++ (le_bytes 4 num ++ key ++ flat recs) ++ extra) (zlen pre) 4 = Ok (le_bytes 4 num)).
    { rewrite rdn_ok by (pose proof (zlen_nonneg pre); pose proof (zlen_nonneg extra); pose proof (zlen_nonneg (key ++ flat recs)); rewrite ?zlen_app, ?HL4 in *; lia).
      unfold zlen. rewrite Nat2Z.id. rewrite <- !app_assoc. rewrite <- (le_bytes_length 4 num) at 2. now rewrite sub_mid. }
    rewrite E4 in E. cbn [rbind] in E. rewrite le_val_bytes, Z.mod_small in E by exact HRn.
    set (buf := pre ++ (le_bytes 4 num ++ key ++ flat recs) ++ extra) in *.
    set (pre2 := pre ++ le_bytes 4 num).
    assert (EB : buf = pre2 ++ key ++ (flat recs ++ extra)) by (unfold buf, pre2; now rewrite <- !app_assoc).
    assert (EC : zlen pre + 4 = zlen pre2) by (unfold pre2; rewrite zlen_app, HL4; reflexivity). rewrite EC in E.
    destruct (if first then Ok 0 else prefix_loop _ _ _ _ _ _) as [lft| | |] eqn:EL; try discriminate. cbn [rbind] in E.
    destruct (zeros_loop _ _ _ _ _) as [jz| | |] eqn:EZ; try discriminate. cbn [rbind] in E.
    apply zeros_some in EZ; [|lia|intros; lia]. destruct EZ as [HZ1 HZ2].
    assert (HL : 0 <= lft <= zlen key /\ (lft = 0 \/ exists q, prev = Some q /\ zlen q = zlen key /\ firstn (Z.to_nat lft) q = firstn (Z.to_nat lft) key)).
    { destruct Hprev as [[-> ->]|[-> (pre' & q & Epre & Eq1 & ->)]].
      - injection EL as <-. split; [lia|]. now left.
      - apply prefix_some in EL; [|lia|intros; lia]. destruct EL as [H1 H2]. split; [exact H1|]. right. exists q. split; [reflexivity|]. split; [exact Eq1|].
        apply firstn_eq_nth. intros i Hi. specialize (H2 (Z.of_nat i) ltac:(lia)).
        assert (T1 : nth_error buf (Z.to_nat (zlen pre2 + Z.of_nat i)) = nth_error key i).
        { rewrite EB. replace (Z.to_nat (zlen pre2 + Z.of_nat i)) with (length pre2 + i)%nat by (unfold zlen; lia). apply nth_error_mid. unfold zlen in *. lia. }
        assert (T2 : nth_error buf (Z.to_nat (zlen pre2 + Z.of_nat i - (zlen key + 4))) = nth_error q i).
        { unfold buf. rewrite Epre. rewrite <- (app_assoc pre' q). replace (Z.to_nat (zlen pre2 + Z.of_nat i - (zlen key + 4))) with (length pre' + i)%nat.
          - apply nth_error_mid. unfold zlen in *. lia.
          - rewrite <- EC, Epre, zlen_app. unfold zlen in *. lia. }
        now rewrite <- T1, <- T2. }
    destruct HL as [HL1 HL2].
    destruct (if zlen key <? lft + (jz - 1) then _ else _) as [rgt| | |] eqn:ER; try discriminate. cbn [rbind] in E.
    assert (HRG : 0 <= rgt <= jz - 1 /\ lft + rgt <= zlen key).
    { destruct (Z.ltb_spec (zlen key) (lft + (jz - 1))); [|injection ER as <-; lia]. destruct ((lft <? zlen key) || primary); [discriminate|]. injection ER as <-. lia. }
    set (j := zlen key - lft - rgt) in *.
    assert (Hj : u32 (plen + j) = plen + j) by (unfold u32; apply Z.mod_small; lia). rewrite Hj in E.
    destruct (Z.leb_spec datasize (plen + j)) as [|HP]; [discriminate|].
    assert (Ed : rdn buf (zlen pre2 + lft) j = Ok (sub key (Z.to_nat lft) (Z.to_nat j))).
    { rewrite rdn_ok; [|pose proof (zlen_nonneg pre2); lia|lia|rewrite EB, !zlen_app; pose proof (zlen_nonneg extra); pose proof (zlen_nonneg (flat recs)); lia].
      rewrite EB. replace (Z.to_nat (zlen pre2 + lft)) with (length pre2 + Z.to_nat lft)%nat by (unfold zlen; lia). rewrite sub_inner by (unfold zlen in *; lia). reflexivity. }
    rewrite Ed in E. cbn [rbind] in E. set (m := sub key (Z.to_nat lft) (Z.to_nat j)) in *.
    assert (Hm : zlen m = j) by (unfold m, zlen; rewrite sub_length; unfold zlen in *; lia).
    unfold wrn in E. rewrite Hm in E. destruct (Z.ltb_spec (datasize + 30 - plen - j) 0) as [|HW]; [lia|].
    destruct (Z.ltb_spec (zlen page) (datasize + 30 - plen - j + j)); [lia|]. cbn [orb rbind] in E.
    set (page1 := splice page (Z.to_nat (datasize + 30 - plen - j)) m) in *.
    destruct (pack_recs (length recs) _ _ _ _ _ _ _ _ _ _) as [[[[[ps1 pg1] pl1] mx1]|]| | |] eqn:EP; try discriminate. cbn [rbind] in E. injection E as <- <- <- <-.
    assert (Hm1 : 0 <= (if maxn <? num then num else maxn) < 2^32) by (destruct (maxn <? num); lia).
    assert (Hp1 : zlen page1 = datasize + 30). { unfold page1, zlen. rewrite splice_length; [exact Hpg|]. unfold zlen in *. lia. }
    assert (EB2 : buf = (pre2 ++ key) ++ flat recs ++ extra) by (rewrite EB, <- app_assoc; reflexivity).
    assert (EC2 : zlen pre2 + zlen key = zlen (pre2 ++ key)) by (rewrite zlen_app; reflexivity).
    rewrite EB2, EC2 in EP.
    destruct (IH false primary (zlen key) datasize (pre2 ++ key) extra page1 (datasize + 30 - plen - j) (plen + j) _ _ _ _ _ (Some key) Hlen Hds HR' ltac:(lia) Hm1
                 ltac:(right; split; [reflexivity|]; exists pre2, key; auto) Hp1 ltac:(lia) EP) as (mids & M1 & M2 & M3 & M4 & M5 & M6 & M7).
    assert (HT : 0 <= zlen (concat mids)) by apply zlen_nonneg.
    exists (m :: mids). split; [|split; [|split; [|split; [|split; [|split]]]]].
    + cbn [packed pr_num pr_lft pr_rgt]. split; [reflexivity|]. split; [lia|]. split; [lia|]. split; [lia|]. split; [exact HL2|]. split; [|split; [reflexivity|exact M1]].
      replace (Z.to_nat (zlen key - rgt)) with (length key - Z.to_nat rgt)%nat by (unfold zlen; lia). apply skipn_zeros; [unfold zlen in *; lia|].
      intros i Hi. specialize (HZ2 (Z.of_nat i) ltac:(lia)). rewrite EB in HZ2.
      replace (Z.to_nat (zlen pre2 + zlen key - Z.of_nat i)) with (length pre2 + (length key - i))%nat in HZ2 by (unfold zlen in *; lia).
      rewrite nth_error_mid in HZ2; [exact HZ2|]. unfold zlen in *. lia.
    + cbn [concat]. rewrite zlen_app. lia.
    + cbn [concat]. lia.
    + rewrite M4, concat_rev_cons. cbn [concat]. rewrite zlen_app, Hm.
      replace (datasize + 30 - plen - (j + zlen (concat mids))) with (datasize + 30 - plen - j - zlen (concat mids)) by lia.
      unfold page1, splice. set (A := Z.to_nat (datasize + 30 - plen - j)). set (B := Z.to_nat (datasize + 30 - plen - j - zlen (concat mids))).
      assert (HA : length (firstn A page) = A) by (rewrite firstn_length; unfold A, zlen in *; lia).
      assert (HAB : (B <= A)%nat) by (unfold A, B; lia).
      rewrite firstn_app, HA. replace (B - A)%nat with 0%nat by lia. cbn [firstn]. rewrite app_nil_r, firstn_firstn, Nat.min_l by lia.
      rewrite (skipn_app A), HA, Nat.sub_diag. rewrite (skipn_all2 (firstn A page)) by lia. cbn [skipn app]. rewrite <- !app_assoc. do 4 f_equal.
      unfold A, zlen in *. lia.
    + destruct (Z.ltb_spec maxn num); lia.
    + constructor; [cbn [pr_num]; destruct (Z.ltb_spec maxn num); lia|exact M6].
    + cbn [length]. now rewrite M7.
Qed.

(** ** Entries *)
Definition ent (rbt lb nb : Z) (p : prec) : list Z := firstn (Z.to_nat rbt) (le_bytes 8 (entry lb nb p)).
Lemma ent_len rbt lb nb p : 0 <= rbt <= 8 -> length (ent rbt lb nb p) = Z.to_nat rbt.
Proof. intros H. unfold ent. rewrite firstn_length, le_bytes_length. lia. Qed.
Lemma put_entries_ok ps : forall page o rbt lb nb, 0 <= rbt <= 8 -> (o + Z.to_nat rbt * length ps <= length page)%nat ->
  put_entries ps page (Z.of_nat o) rbt lb nb = Ok (splice page o (concat (map (ent rbt lb nb) ps))).
Proof.
  induction ps as [|p ps IH]; intros page o rbt lb nb Hr Ho; cbn [put_entries map concat].
  - now rewrite splice_nil.
  - cbn [length] in Ho. rewrite rdn_ok by (unfold zlen; rewrite ?le_bytes_length; lia). cbn [rbind]. change (sub (le_bytes 8 (entry lb nb p)) (Z.to_nat 0) (Z.to_nat rbt)) with (ent rbt lb nb p).
    pose proof (ent_len rbt lb nb p Hr) as HE. unfold wrn, zlen. rewrite HE. destruct (Z.ltb_spec (Z.of_nat o) 0); [lia|].
    destruct (Z.ltb_spec (Z.of_nat (length page)) (Z.of_nat o + Z.of_nat (Z.to_nat rbt))); [lia|]. cbn [orb rbind]. rewrite Nat2Z.id.
    replace (Z.of_nat o + rbt) with (Z.of_nat (o + Z.to_nat rbt)) by lia. rewrite IH; [|exact Hr|rewrite splice_length; lia].
    rewrite splice_app; [rewrite HE; reflexivity|]. rewrite HE, (concat_len (map (ent rbt lb nb) ps) (Z.to_nat rbt)); [rewrite map_length; lia|].
    apply Forall_forall. intros x Hx. apply in_map_iff in Hx. destruct Hx as (y & <- & _). apply ent_len. exact Hr.
Qed.

(** ** Unpacking what was packed *)
Lemma key_parts len key l r : zlen key = len -> 0 <= l -> 0 <= r -> l + r <= len -> skipn (Z.to_nat (len - r)) key = repeat 0 (Z.to_nat r) ->
  firstn (Z.to_nat l) key ++ sub key (Z.to_nat l) (Z.to_nat (len - l - r)) ++ repeat 0 (Z.to_nat r) = key.
Proof.
  intros Hk Hl Hr Hs <-. unfold sub. rewrite app_assoc, <- firstn_plus.
  replace (Z.to_nat l + Z.to_nat (len - l - r))%nat with (Z.to_nat (len - r)) by lia. apply firstn_skipn.
Qed.
Lemma unpack_recs_ok recs : forall ps mids prev page A B C D rbt lb nb len,
  0 < len < 2 ^ lb -> 0 <= lb <= 15 -> 0 <= nb -> nb + lb + lb = 8 * rbt -> 0 <= rbt <= 8 -> Forall (fun p => 0 <= pr_num p < 2 ^ nb) ps -> Forall (rec_ok len) recs ->
  packed len prev recs ps mids -> bytes_ok page ->
  page = A ++ concat (map (ent rbt lb nb) ps) ++ B -> page = C ++ concat (rev mids) ++ D -> (ps <> [] -> zlen A + rbt * (zlen ps - 1) + 8 <= zlen page) ->
  unpack_recs (length recs) page (zlen A) (zlen (C ++ concat (rev mids))) len rbt (mask nb) (mask lb) (mask lb) nb lb prev = Ok recs.
Proof.
  induction recs as [|[num key] recs IH]; intros ps mids prev page A B C D rbt lb nb len Hlen Hlb Hnb Hs Hrb Hps HR HP Hok EA EC HB; [reflexivity|].
  destruct ps as [|p ps]; [destruct HP|]. destruct mids as [|m mids]; [destruct HP|]. cbn [packed] in HP. destruct HP as (P1 & P2 & P3 & P4 & P5 & P6 & P7 & P8).
  inversion Hps as [|? ? Hp Hps']; subst x l. inversion HR as [|? ? [HRn [HRk HRb]] HR']; subst x l. cbn [fst snd] in *.
  specialize (HB ltac:(discriminate)). pose proof (zlen_nonneg A) as HA0. rewrite zlen_cons in HB. pose proof (zlen_nonneg ps) as Hps0.
  cbn [length unpack_recs]. rewrite rdn_ok by nia. cbn [rbind]. set (e := sub page (Z.to_nat (zlen A)) (Z.to_nat 8)).
  assert (He : zlen e = 8) by (unfold e, zlen; rewrite sub_length; unfold zlen in *; nia).
  assert (Hf : firstn (Z.to_nat rbt) e = le_bytes (Z.to_nat rbt) (entry lb nb p)).
  { unfold e, sub. rewrite firstn_firstn, Nat.min_l by lia. rewrite EA. unfold zlen. rewrite Nat2Z.id. rewrite skipn_app, skipn_all, Nat.sub_diag. cbn [app skipn map concat].
    rewrite <- app_assoc. rewrite firstn_app, ent_len, Nat.sub_diag by exact Hrb. cbn [firstn]. rewrite app_nil_r.
    rewrite firstn_all2 by (rewrite ent_len by exact Hrb; lia). unfold ent. rewrite firstn_le_bytes by lia. reflexivity. }
  destruct (decode lb nb p rbt e Hlb Hnb ltac:(lia) ltac:(lia) Hp ltac:(lia) Hs Hrb He (bytes_ok_sub _ _ _ Hok) Hf) as (D1 & D2 & D3).
  rewrite D1, D2, D3. destruct (Z.ltb_spec len (pr_lft p + pr_rgt p)); [lia|].
  assert (Ea : (if pr_lft p =? 0 then Ok [] else match prev with None => UB | Some q => rdn q 0 (pr_lft p) end) = Ok (firstn (Z.to_nat (pr_lft p)) key)).
  { destruct (Z.eqb_spec (pr_lft p) 0) as [E|E]; [rewrite E; reflexivity|]. destruct P5 as [|(q & -> & Eq & Ef)]; [contradiction|].
    rewrite rdn_ok by lia. change (Z.to_nat 0) with 0%nat. rewrite sub_0_firstn. now rewrite Ef. }
  rewrite Ea. cbn [rbind]. set (j := len - pr_lft p - pr_rgt p) in *.
  assert (Hm : zlen m = j) by (rewrite P7; unfold zlen; rewrite sub_length; unfold zlen in *; lia).
  rewrite concat_rev_cons in EC. rewrite concat_rev_cons.
  assert (Ei : zlen (C ++ concat (rev mids) ++ m) - j = zlen (C ++ concat (rev mids))) by (rewrite app_assoc, zlen_app, Hm; lia). rewrite Ei.
  assert (Eb : rdn page (zlen (C ++ concat (rev mids))) j = Ok m).
  { rewrite rdn_ok; [|apply zlen_nonneg|lia|rewrite EC, !zlen_app, Hm; pose proof (zlen_nonneg D); lia].
    rewrite EC. rewrite <- (app_assoc (concat (rev mids))). rewrite app_assoc. unfold zlen at 1. rewrite Nat2Z.id. rewrite <- Hm. unfold zlen. rewrite Nat2Z.id. now rewrite sub_mid. }
  rewrite Eb. cbn [rbind]. assert (EK : firstn (Z.to_nat (pr_lft p)) key ++ m ++ repeat 0 (Z.to_nat (pr_rgt p)) = key) by (rewrite P7; unfold j; apply key_parts; auto). rewrite EK.
  replace (zlen A + rbt) with (zlen (A ++ ent rbt lb nb p)) by (rewrite zlen_app; unfold zlen; rewrite ent_len by exact Hrb; lia).
  rewrite (IH ps mids (Some key) page (A ++ ent rbt lb nb p) B C (m ++ D) rbt lb nb len); auto.
  - cbn [rbind]. rewrite P1. reflexivity.
  - rewrite EA. cbn [map concat]. rewrite <- !app_assoc. reflexivity.
  - rewrite EC. rewrite <- !app_assoc. reflexivity.
  - intros Hne. rewrite zlen_app. unfold zlen at 2. rewrite ent_len by exact Hrb. destruct ps; [congruence|]. rewrite zlen_cons in *. rewrite Z2Nat.id by lia. nia.
Qed.

(** ** The header *)
Lemma header_len page n free a b c nb lb rb r : (12 <= length page)%nat -> length (header page n free a b c nb lb rb r) = 30%nat.
Proof. intros H. unfold header. rewrite !app_length, !le_bytes_length, sub_length by lia. reflexivity. Qed.
Lemma header_fields page R n free a b c nb lb rb r : (12 <= length page)%nat -> let p := header page n free a b c nb lb rb r ++ R in
  hd_field p 0 2 = 2 /\ hd_field p 2 2 = n mod 2^16 /\ hd_field p 14 4 = a mod 2^32 /\ hd_field p 18 2 = b mod 2^16 /\ hd_field p 20 2 = c mod 2^16 /\
  hd_field p 22 2 = nb mod 2^16 /\ hd_field p 24 2 = lb mod 2^16 /\ hd_field p 28 2 = r mod 2^16 /\ sub p 4 8 = sub page 4 8 /\ hd_field p 12 2 = free mod 2^16.
Proof.
  intros H p. assert (HS : length (sub page 4 8) = 8%nat) by (apply sub_length; lia). unfold p, header.
  destruct (sub page 4 8) as [|x0 [|x1 [|x2 [|x3 [|x4 [|x5 [|x6 [|x7 [|x8 t]]]]]]]]] eqn:ES; cbn [length] in HS; try discriminate. clear ES.
  assert (F2 : forall v, le_val (le_bytes 2 v) = v mod 2^16) by (intros v; rewrite le_val_bytes; reflexivity).
  assert (F4 : forall v, le_val (le_bytes 4 v) = v mod 2^32) by (intros v; rewrite le_val_bytes; reflexivity).
  rewrite <- !F2, <- !F4. repeat apply conj; reflexivity.
Qed.

(** ** The round trip *)
Lemma wrn_some (l d x : list Z) i : wrn l i d = Ok x -> x = splice l (Z.to_nat i) d /\ 0 <= i /\ i + zlen d <= zlen l.
Proof. unfold wrn. destruct (Z.ltb_spec i 0); [discriminate|]. destruct (Z.ltb_spec (zlen l) (i + zlen d)); [discriminate|]. intros [= <-]. repeat split; lia. Qed.
Definition fixed_nums (len : Z) (recs : list (Z * list Z)) := Forall (rec_ok len) recs.
Lemma bytes_ok_le n v : bytes_ok (le_bytes n v). Proof. apply le_bytes_ok. Qed.
Lemma packed_mids_ok len : forall recs prev ps mids, Forall (rec_ok len) recs -> packed len prev recs ps mids -> bytes_ok (concat (rev mids)).
Proof.
  induction recs as [|[num key] recs IH]; intros prev ps mids HR HP.
  - destruct ps; destruct mids; try solve [destruct HP]. constructor.
  - destruct ps; destruct mids; try solve [destruct HP]. destruct HP as (_ & _ & _ & _ & _ & _ & -> & HP). inversion HR as [|? ? [_ [_ Hb]] HR']; subst.
    rewrite concat_rev_cons. apply bytes_ok_app. split; [now apply (IH (Some key) ps)|]. apply bytes_ok_sub. exact Hb.
Qed.

Lemma pack_layout primary len pagesize recs extra page page' :
  0 < len < 2^15 -> 30 < pagesize <= 2^16 -> zlen page = pagesize -> bytes_ok page -> Forall (rec_ok len) recs -> zlen recs < 2^28 ->
  pack_leafpage primary len pagesize (flat recs ++ extra) (length recs) page = Ok (page', true) ->
  exists ps mids rbt nb free G, let lb := bits len in
    packed len None recs ps mids /\ 1 <= rbt <= 8 /\ nb + lb + lb = 8 * rbt /\ 0 <= nb /\ Forall (fun p => 0 <= pr_num p < 2 ^ nb) ps /\ length ps = length recs /\
    page' = header page (zlen recs) free (mask nb) (mask lb) (mask lb) nb lb lb rbt ++ concat (map (ent rbt lb nb) ps) ++ G ++ concat (rev mids) /\
    zlen page' = pagesize /\ bytes_ok page' /\ free = zlen G /\ 30 + rbt * zlen recs + zlen G + zlen (concat (rev mids)) = pagesize.
Proof.
  intros Hlen Hps Hpg Hok HR Hn E. unfold pack_leafpage in E. destruct (wrn page 30 _) as [pz| | |] eqn:EW; try discriminate. cbn [rbind] in E.
  apply wrn_some in EW. destruct EW as (EW & _ & HW).
  assert (Hz : zlen (repeat 0 (Z.to_nat (pagesize - 30))) = pagesize - 30) by (unfold zlen; rewrite repeat_length; lia). rewrite Hz in HW.
  assert (Hpz : zlen pz = pagesize) by (rewrite EW; unfold zlen in *; rewrite splice_length; [exact Hpg|rewrite repeat_length; change (Z.to_nat 30) with 30%nat; lia]).
  assert (Hf30 : firstn 30 pz = firstn 30 page).
  { rewrite EW. unfold splice. change (Z.to_nat 30) with 30%nat. rewrite firstn_app, firstn_firstn, Nat.min_id. rewrite firstn_length.
    replace (30 - Nat.min 30 (length page))%nat with 0%nat by (unfold zlen in *; lia). cbn [firstn]. apply app_nil_r. }
  destruct (pack_recs _ _ _ _ _ _ _ _ _ _ _) as [[[[[ps pg1] plen] maxn]|]| | |] eqn:EP; try discriminate. cbn [rbind] in E.
  change (flat recs ++ extra) with ([] ++ flat recs ++ extra) in EP. change 0 with (zlen (@nil Z)) in EP at 1.
  apply (pack_recs_ok recs true primary len (pagesize - 30) [] extra pz pagesize 0 0 ps pg1 plen maxn None) in EP; [|lia|lia|exact HR|lia|lia|left; auto|lia|lia].
  destruct EP as (mids & M1 & M2 & M3 & M4 & M5 & M6 & M7).
  destruct (bits_ok len ltac:(lia)) as (L1 & L2 & L3). specialize (L3 ltac:(lia)).
  assert (L4 : bits len <= 15) by (apply bits_le; lia).
  destruct (bits_ok maxn ltac:(lia)) as (X1 & X2 & _).
  cbv zeta in E. set (lb := bits len) in *. set (rbt := (bits maxn + lb + lb + 7) / 8) in *.
  assert (HRB : 8 * rbt <= bits maxn + lb + lb + 7 < 8 * rbt + 8).
  { unfold rbt. pose proof (Z.div_mod (bits maxn + lb + lb + 7) 8 ltac:(lia)). pose proof (Z.mod_pos_bound (bits maxn + lb + lb + 7) 8 ltac:(lia)). lia. }
  assert (HRB2 : 1 <= rbt <= 8) by lia. change (Z.of_nat (length recs)) with (zlen recs) in E.
  pose proof (zlen_nonneg recs) as Hr0. rewrite Z.add_0_l in M2. pose proof (zlen_nonneg (concat mids)) as Hm0.
  assert (Hrn : 0 <= rbt * zlen recs <= 8 * zlen recs) by (clear - HRB2 Hr0; nia).
  assert (U2 : u32 (u32 (rbt * zlen recs) + plen) = rbt * zlen recs + plen) by (unfold u32; rewrite (Z.mod_small (rbt * zlen recs)) by lia; apply Z.mod_small; lia).
  rewrite U2 in E. clear U2.
  destruct (Z.ltb_spec (pagesize - 30) (rbt * zlen recs + plen)) as [|U2]; [discriminate|].
  set (nb := rbt * 8 - lb - lb) in *.
  destruct (wrn pg1 0 _) as [pg2| | |] eqn:EW2; try discriminate. cbn [rbind] in E. apply wrn_some in EW2. destruct EW2 as (EW2 & _ & HW2).
  change (Z.to_nat 0) with 0%nat in EW2.
  assert (Hfree : u32 (pagesize - 30 - rbt * zlen recs - plen) = pagesize - 30 - rbt * zlen recs - plen) by (unfold u32; apply Z.mod_small; nia).
  rewrite Hfree in *. set (free := pagesize - 30 - rbt * zlen recs - plen) in *.
  (* the page before the header is written *)
  assert (HTm : length (concat (rev mids)) = Z.to_nat plen) by (rewrite len_total, M2; unfold zlen; lia).
  replace (skipn (Z.to_nat pagesize) pz) with (@nil Z) in M4 by (symmetry; apply skipn_all2; unfold zlen in *; lia). rewrite app_nil_r in M4.
  replace (zlen (concat mids)) with plen in M4 by lia.
  assert (Hpg1 : length pg1 = Z.to_nat pagesize) by (rewrite M4, app_length, firstn_length, HTm; unfold zlen in *; lia).
  assert (Hs48 : sub pg1 4 8 = sub page 4 8).
  { transitivity (sub (firstn 30 pg1) 4 8); [symmetry; apply sub_firstn; lia|]. transitivity (sub (firstn 30 page) 4 8); [|apply sub_firstn; lia]. f_equal.
    rewrite M4, firstn_app, firstn_firstn. rewrite firstn_length. rewrite Nat.min_l by (unfold zlen in *; nia).
    replace (30 - Nat.min (Z.to_nat (pagesize - plen)) (length pz))%nat with 0%nat by (unfold zlen in *; nia). cbn [firstn]. rewrite app_nil_r. exact Hf30. }
  assert (EH : header pg1 (zlen recs) free (mask nb) (mask lb) (mask lb) nb lb lb rbt = header page (zlen recs) free (mask nb) (mask lb) (mask lb) nb lb lb rbt) by (unfold header; now rewrite Hs48).
  rewrite EH in *. set (H := header page (zlen recs) free (mask nb) (mask lb) (mask lb) nb lb lb rbt) in *.
  assert (HHl : length H = 30%nat) by (apply header_len; unfold zlen in *; lia).
  change 30 with (Z.of_nat 30) in E. rewrite put_entries_ok in E; [|lia|rewrite EW2, splice_length by (rewrite HHl; unfold zlen in *; lia); rewrite Hpg1, M7; unfold zlen in *; nia].
  cbn [rbind] in E. injection E as <-.
  set (ES := concat (map (ent rbt lb nb) ps)). assert (HES : length ES = (Z.to_nat rbt * length recs)%nat).
  { unfold ES. rewrite (concat_len _ (Z.to_nat rbt)); [rewrite map_length, M7; lia|]. apply Forall_forall. intros x Hx. apply in_map_iff in Hx. destruct Hx as (y & <- & _). apply ent_len. lia. }
  set (X := skipn 30 (firstn (Z.to_nat (pagesize - plen)) pz)).
  assert (HX : length X = Z.to_nat (pagesize - plen - 30)) by (unfold X; rewrite skipn_length, firstn_length; unfold zlen in *; lia).
  assert (HE1 : (length ES <= length X)%nat) by (rewrite HES, HX; unfold zlen in *; nia).
  assert (EPG : splice pg2 30 ES = H ++ ES ++ skipn (length ES) X ++ concat (rev mids)).
  { assert (E2 : pg2 = H ++ skipn 30 pg1) by (rewrite EW2; unfold splice; rewrite HHl; reflexivity). rewrite E2. unfold splice.
    rewrite firstn_app, HHl, Nat.sub_diag. rewrite (firstn_all2 H) by lia. rewrite firstn_O, app_nil_r. f_equal. f_equal.
    rewrite skipn_app, HHl. rewrite (skipn_all2 H) by lia. cbn [app]. replace (30 + length ES - 30)%nat with (length ES) by lia.
    rewrite M4. rewrite (skipn_app 30). rewrite firstn_length. replace (30 - Nat.min (Z.to_nat (pagesize - plen)) (length pz))%nat with 0%nat by (unfold zlen in *; nia).
    rewrite skipn_O. fold X. rewrite skipn_app. replace (length ES - length X)%nat with 0%nat by lia. rewrite skipn_O. reflexivity. }
  exists ps, mids, rbt, nb, free, (skipn (length ES) X). cbv zeta. rewrite EPG. fold H. fold ES.
  assert (HXz : zlen (skipn (length ES) X) = free) by (unfold zlen; rewrite skipn_length, HX, HES; unfold free, zlen in *; nia).
  assert (HHok : bytes_ok H). { unfold H, header. repeat (apply bytes_ok_app; split); try apply bytes_ok_le. apply bytes_ok_sub. exact Hok. }
  assert (HEok : bytes_ok ES). { unfold ES. apply Forall_concat. apply Forall_forall. intros x Hx. apply in_map_iff in Hx. destruct Hx as (y & <- & _). unfold ent. apply Forall_firstn', bytes_ok_le. }
  assert (HZok : bytes_ok pz). { rewrite EW. apply bytes_ok_splice; [exact Hok|]. apply Forall_forall. intros x Hx. apply repeat_spec in Hx. subst x. split; lia. }
  split; [exact M1|]. split; [exact HRB2|]. split; [unfold nb; lia|]. split; [unfold nb; lia|].
  assert (Hnb : bits maxn <= nb) by (unfold nb; lia).
  split.
  { apply Forall_forall. intros p Hp. rewrite Forall_forall in M6. specialize (M6 p Hp). assert (2 ^ bits maxn <= 2 ^ nb) by (apply Z.pow_le_mono_r; lia). lia. }
  split; [exact M7|]. split; [reflexivity|]. split; [|split; [|split]].
  - rewrite !zlen_app, HXz. unfold zlen. rewrite HHl, HES, HTm. unfold free, zlen in *. nia.
  - apply bytes_ok_app. split; [exact HHok|]. apply bytes_ok_app. split; [exact HEok|]. apply bytes_ok_app.
    split; [apply Forall_skipn'; unfold X; apply Forall_skipn', Forall_firstn'; exact HZok|]. now apply (packed_mids_ok len recs None ps).
  - symmetry. exact HXz.
  - rewrite HXz. unfold zlen at 2. rewrite HTm. unfold free. lia.
Qed.

Lemma ones_small k : 0 <= k <= 15 -> Z.ones k mod 2^16 = Z.ones k.
Proof. intros H. apply Z.mod_small. rewrite Z.ones_equiv. assert (0 < 2 ^ k) by (apply Z.pow_pos_nonneg; lia). assert (2 ^ k <= 2 ^ 15) by (apply Z.pow_le_mono_r; lia). lia. Qed.
Lemma mask_small32 k : 0 <= k -> mask k mod 2^32 = mask k.
Proof. intros H. rewrite mask_ok by lia. apply Z.mod_small. rewrite Z.ones_equiv. assert (0 < 2 ^ Z.min k 32) by (apply Z.pow_pos_nonneg; lia). assert (2 ^ Z.min k 32 <= 2 ^ 32) by (apply Z.pow_le_mono_r; lia). lia. Qed.

Lemma round_trip primary len pagesize recs extra page page' :
  0 < len < 2^15 -> 30 < pagesize <= 2^16 -> zlen page = pagesize -> bytes_ok page -> Forall (rec_ok len) recs -> zlen recs < 2^28 ->
  pack_leafpage primary len pagesize (flat recs ++ extra) (length recs) page = Ok (page', true) ->
  30 + hd_field page' 28 2 * (zlen recs - 1) + 8 <= pagesize ->
  unpack_leafpage len pagesize page' = Ok recs /\ sub page' 4 8 = sub page 4 8 /\ zlen page' = pagesize /\ hd_field page' 2 2 = zlen recs.
Proof.
  intros Hlen Hps Hpg Hok HR Hn E HB.
  destruct (pack_layout _ _ _ _ _ _ _ Hlen Hps Hpg Hok HR Hn E) as (ps & mids & rbt & nb & free & G & H1 & H2 & H3 & H4 & H5 & H6 & H7 & H8 & H9 & H10 & H11). cbv zeta in *.
  destruct (bits_ok len ltac:(lia)) as (L1 & L2 & L3). specialize (L3 ltac:(lia)). assert (L4 : bits len <= 15) by (apply bits_le; lia).
  set (lb := bits len) in *. clearbody lb.
  assert (H12 : (12 <= length page)%nat) by (unfold zlen in *; lia).
  pose proof (header_fields page (concat (map (ent rbt lb nb) ps) ++ G ++ concat (rev mids)) (zlen recs) free (mask nb) (mask lb) (mask lb) nb lb lb rbt H12) as HF. cbv zeta in HF.
  rewrite <- H7 in HF. destruct HF as (F1 & F2 & F3 & F4 & F5 & F6 & F7 & F8 & F9 & F10).
  pose proof (zlen_nonneg G). pose proof (zlen_nonneg (concat (rev mids))). pose proof (zlen_nonneg recs).
  rewrite Z.mod_small in F8 by lia. rewrite Z.mod_small in F7 by lia. rewrite Z.mod_small in F6 by lia. rewrite Z.mod_small in F2 by nia.
  rewrite mask_small32 in F3 by lia. rewrite mask_ok, Z.min_l, ones_small in F4 by lia. rewrite mask_ok, Z.min_l, ones_small in F5 by lia.
  assert (EM : mask lb = Z.ones lb) by (rewrite mask_ok, Z.min_l by lia; reflexivity). rewrite <- EM in F4, F5.
  split; [|repeat split; auto; lia].
  unfold unpack_leafpage. destruct (Z.eqb_spec len 0); [lia|]. rewrite F1. cbn [Z.land Pos.land Z.eqb]. change (Z.land 2 2 =? 0) with false. cbv iota.
  rewrite F2, F3, F4, F5, F6, F7, F8. unfold zlen at 1. rewrite Nat2Z.id.
  set (HD := header page (zlen recs) free (mask nb) (mask lb) (mask lb) nb lb lb rbt) in *.
  assert (HHl : zlen HD = 30) by (unfold zlen, HD; rewrite header_len by exact H12; reflexivity).
  rewrite <- HHl at 1.
  replace pagesize with (zlen ((HD ++ concat (map (ent rbt lb nb) ps) ++ G) ++ concat (rev mids))) at 1.
  2:{ rewrite <- H8, H7. rewrite <- !app_assoc. reflexivity. }
  apply (unpack_recs_ok recs ps mids None page' HD (G ++ concat (rev mids)) (HD ++ concat (map (ent rbt lb nb) ps) ++ G) []); auto; try lia.
  - rewrite H7, app_nil_r, <- !app_assoc. reflexivity.
  - intros _. rewrite H8, HHl. replace (zlen ps) with (zlen recs) by (unfold zlen; lia). rewrite F8 in HB. lia.
Qed.
