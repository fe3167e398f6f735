From Verif Require Import Prelude Cache_Model Cache_Spec.

(** ** view *)
Definition vpage (ps : nat) (bytes : list Z) (i : nat) (b : option mblock) : list Z :=
  match b with Some x => mb_data x | None => sub bytes (i * ps) ps end.
Fixpoint vw (ps : nat) (bytes : list Z) (i : nat) (bs : list (option mblock)) : list (list Z) :=
  match bs with [] => [] | b :: r => vpage ps bytes i b :: vw ps bytes (S i) r end.
Definition mview (m : mgr) : list (list Z) := vw (m_ps m) (f_bytes (m_file m)) 0 (m_blocks m).

Lemma vw_length ps bytes i bs : length (vw ps bytes i bs) = length bs.
Proof. revert i. induction bs as [|b bs IH]; intros i; [reflexivity|]. cbn. now rewrite IH. Qed.
Lemma nth_error_vw ps bytes bs : forall i n, nth_error (vw ps bytes i bs) n = option_map (vpage ps bytes (i + n)) (nth_error bs n).
Proof.
  induction bs as [|b bs IH]; intros i n; destruct n as [|n]; cbn [vw nth_error option_map]; try reflexivity.
  - now rewrite Nat.add_0_r.
  - rewrite IH. f_equal. f_equal. lia.
Qed.

Definition blk_ok (ps : nat) (bytes : list Z) (i : nat) (b : option mblock) : Prop :=
  match b with
  | None => (i * ps + ps <= length bytes)%nat
  | Some x => length (mb_data x) = ps /\
      (mb_changed x = false -> (i * ps + ps <= length bytes)%nat /\ mb_data x = sub bytes (i * ps) ps)
  end.
Definition blks_ok (ps : nat) (bytes : list Z) (bs : list (option mblock)) : Prop :=
  forall i b, nth_error bs i = Some b -> blk_ok ps bytes i b.

(** manager invariant; [k] pages are known to the stream *)
Definition minv (k : nat) (m : mgr) : Prop :=
  (16 <= m_ps m)%nat /\ Z.of_nat k < 2^32 /\ f_size (m_file m) = (k * m_ps m)%nat /\ f_fail (m_file m) = false /\
  (length (m_blocks m) <= k)%nat /\ (length (f_bytes (m_file m)) <= length (m_blocks m) * m_ps m)%nat /\
  blks_ok (m_ps m) (f_bytes (m_file m)) (m_blocks m).

Lemma set_block_length bs n b : (n < length bs)%nat -> length (set_block bs n b) = length bs.
Proof. intros H. unfold set_block. apply splice_length. simpl. lia. Qed.
Lemma nth_set_block bs n b i : (n < length bs)%nat ->
  nth_error (set_block bs n b) i = if (i =? n)%nat then Some b else nth_error bs i.
Proof.
  intros H. unfold set_block. rewrite nth_error_splice by (simpl; lia). cbn [length].
  destruct (Nat.eqb_spec i n) as [->|Hn].
  - replace ((n <=? n) && (n <? n + 1))%nat with true by (symmetry; apply andb_true_intro; split; [apply Nat.leb_refl|apply Nat.ltb_lt; lia]).
    rewrite Nat.sub_diag. reflexivity.
  - destruct ((n <=? i) && (i <? n + 1))%nat eqn:E; [|reflexivity].
    apply andb_prop in E. destruct E as [E1 E2]. apply Nat.leb_le in E1. apply Nat.ltb_lt in E2. lia.
Qed.

Lemma view_set bytes ps bs n b p : nth_error bs n = Some p ->
  vw ps bytes 0 (set_block bs n b) = splice (vw ps bytes 0 bs) n [vpage ps bytes n b].
Proof.
  intros H. assert (Hn : (n < length bs)%nat) by (apply nth_error_Some; congruence).
  apply nth_error_ext. intros i. rewrite nth_error_vw, nth_set_block by exact Hn.
  rewrite nth_error_splice by (rewrite vw_length; simpl; lia). cbn [length Nat.add].
  destruct (Nat.eqb_spec i n) as [->|Hi].
  - replace ((n <=? n) && (n <? n + 1))%nat with true by (symmetry; apply andb_true_intro; split; [apply Nat.leb_refl|apply Nat.ltb_lt; lia]).
    rewrite Nat.sub_diag. reflexivity.
  - rewrite nth_error_vw. destruct ((n <=? i) && (i <? n + 1))%nat eqn:E; [|reflexivity].
    apply andb_prop in E. destruct E as [E1 E2]. apply Nat.leb_le in E1. apply Nat.ltb_lt in E2. lia.
Qed.

Lemma splice_self {A} (l : list A) n x : nth_error l n = Some x -> splice l n [x] = l.
Proof.
  intros H. assert (Hn : (n < length l)%nat) by (apply nth_error_Some; congruence).
  apply nth_error_ext. intros i. rewrite nth_error_splice by (simpl; lia). cbn [length].
  destruct ((n <=? i) && (i <? n + 1))%nat eqn:E; [|reflexivity].
  apply andb_prop in E. destruct E as [E1 E2]. apply Nat.leb_le in E1. apply Nat.ltb_lt in E2.
  assert (i = n) by lia. subst. rewrite Nat.sub_diag. simpl. congruence.
Qed.

Lemma blks_set ps bytes bs n b : blks_ok ps bytes bs -> (n < length bs)%nat -> blk_ok ps bytes n b -> blks_ok ps bytes (set_block bs n b).
Proof.
  intros H Hn Hb i x Hx. rewrite nth_set_block in Hx by exact Hn. destruct (Nat.eqb_spec i n) as [->|Hi].
  - injection Hx as <-. exact Hb.
  - exact (H i x Hx).
Qed.

Lemma vpage_length ps bytes i b : blk_ok ps bytes i b -> length (vpage ps bytes i b) = ps.
Proof. destruct b as [x|]; cbn; [tauto|]. intros H. apply sub_length. exact H. Qed.

(** reading a page that is in range *)
Lemma f_read_full f off n buf : (off + n <= length (f_bytes f))%nat -> f_fail f = false ->
  f_read f off n buf = (f, sub (f_bytes f) off n).
Proof.
  intros H Hf. unfold f_read. rewrite sub_length by exact H. rewrite Nat.ltb_irrefl, Nat.sub_diag.
  change (sub buf n 0) with (@nil Z). rewrite app_nil_r. destruct f as [b s fl]. cbn in *. now subst.
Qed.

Lemma div_mul_exact k ps : (0 < ps)%nat -> (k * ps / ps = k)%nat.
Proof. intros H. apply Nat.div_mul. lia. Qed.

(** MemBlockManager access to an existing page *)
Lemma mgr_get_ok k m n fw rd t junk p : minv k m -> nth_error (m_blocks m) n = Some p ->
  exists m' d b, mgr_get m n fw rd t junk = Ok (m', d) /\ minv k m' /\ m_ps m' = m_ps m /\
    f_bytes (m_file m') = f_bytes (m_file m) /\ length (m_blocks m') = length (m_blocks m) /\
    mview m' = splice (mview m) n [d] /\
    (d = vpage (m_ps m) (f_bytes (m_file m)) n p \/ (fw = true /\ rd = false /\ d = repeat 0 (m_ps m))) /\
    nth_error (m_blocks m') n = Some (Some b) /\ mb_data b = d /\ length d = m_ps m /\ (fw = true -> mb_changed b = true).
Proof.
  intros (Hps & Hk & Hsz & Hfail & Hlen & Hphys & Hbl) Hp.
  assert (Hn : (n < length (m_blocks m))%nat) by (apply nth_error_Some; congruence).
  pose proof (Hbl n p Hp) as Hbp. unfold mgr_get. rewrite Hp.
  assert (Hinv : forall b, blk_ok (m_ps m) (f_bytes (m_file m)) n (Some (mb_touch b fw t)) ->
    let m' := mkm (m_ps m) (m_file m) (set_block (m_blocks m) n (Some (mb_touch b fw t))) in
    minv k m' /\ mview m' = splice (mview m) n [mb_data b]).
  { intros b Hb m'. split.
    - unfold minv, m'. cbn [m_ps m_file m_blocks]. rewrite set_block_length by exact Hn. repeat (split; [assumption|]).
      apply blks_set; assumption.
    - unfold mview, m'. cbn [m_ps m_file m_blocks]. rewrite (view_set _ _ _ _ _ p Hp). reflexivity. }
  destruct p as [b|].
  - cbn [rbind]. destruct Hbp as [Hl Hc].
    assert (Hb : blk_ok (m_ps m) (f_bytes (m_file m)) n (Some (mb_touch b fw t))).
    { cbn. split; [exact Hl|]. intros Hch. apply Hc. destruct (mb_changed b); [discriminate|reflexivity]. }
    destruct (Hinv b Hb) as [A B]. do 3 eexists. split; [reflexivity|]. split; [exact A|]. cbn [m_ps m_file m_blocks mb_touch mb_data mb_changed].
    rewrite set_block_length by exact Hn. do 3 (split; [reflexivity|]).
    split; [exact B|]. split; [now left|]. split; [rewrite nth_set_block by exact Hn; rewrite Nat.eqb_refl; reflexivity|].
    split; [reflexivity|]. split; [exact Hl|]. intros ->. cbn. now rewrite orb_true_r.
  - cbn in Hbp.
    assert (Hsk : f_seek (m_file m) (n * m_ps m) = Ok tt).
    { unfold f_seek. rewrite Hsz. destruct (Nat.ltb_spec (k * m_ps m) (n * m_ps m)); [nia|reflexivity]. }
    assert (Hrd : f_read (m_file m) (n * m_ps m) (m_ps m) junk = (m_file m, sub (f_bytes (m_file m)) (n * m_ps m) (m_ps m))).
    { apply f_read_full; [exact Hbp|exact Hfail]. }
    assert (Hnum : u32 (Z.of_nat (f_size (m_file m) / m_ps m)) <=? Z.of_nat n = false).
    { rewrite Hsz, div_mul_exact by lia. unfold u32. rewrite Z.mod_small by lia. lia. }
    assert (Hcr : exists d, mb_create (m_file m) (m_ps m) n fw rd junk = Ok (m_file m, mkb d 0 false) /\
      ((d = sub (f_bytes (m_file m)) (n * m_ps m) (m_ps m)) \/ (fw = true /\ rd = false /\ d = repeat 0 (m_ps m))) /\ length d = m_ps m).
    { unfold mb_create. rewrite Hnum, Hsk. cbn [rbind]. rewrite Hrd. destruct fw; [destruct rd|].
      - eexists. split; [reflexivity|]. split; [now left|]. now apply sub_length.
      - eexists. split; [reflexivity|]. split; [right; auto|]. apply repeat_length.
      - eexists. split; [reflexivity|]. split; [now left|]. now apply sub_length. }
    destruct Hcr as (d & -> & Hd & Hl). cbn [rbind].
    assert (Hb : blk_ok (m_ps m) (f_bytes (m_file m)) n (Some (mb_touch (mkb d 0 false) fw t))).
    { cbn. split; [exact Hl|]. intros Hch. split; [exact Hbp|]. destruct Hd as [Hd|(-> & _)]; [exact Hd|discriminate]. }
    destruct (Hinv _ Hb) as [A B]. do 3 eexists. split; [reflexivity|]. split; [exact A|]. cbn [m_ps m_file m_blocks mb_touch mb_data mb_changed].
    rewrite set_block_length by exact Hn. do 3 (split; [reflexivity|]).
    split; [exact B|]. split; [exact Hd|]. split; [rewrite nth_set_block by exact Hn; rewrite Nat.eqb_refl; reflexivity|].
    split; [reflexivity|]. split; [exact Hl|]. intros ->. reflexivity.
Qed.

Lemma poke_ok k m n off d b : minv k m -> nth_error (m_blocks m) n = Some (Some b) -> mb_changed b = true ->
  (off + length d <= m_ps m)%nat ->
  exists m', poke m n off d = Ok m' /\ minv k m' /\ m_ps m' = m_ps m /\ m_file m' = m_file m /\
    length (m_blocks m') = length (m_blocks m) /\ mview m' = splice (mview m) n [splice (mb_data b) off d].
Proof.
  intros (Hps & Hk & Hsz & Hfail & Hlen & Hphys & Hbl) Hp Hch Hoff.
  assert (Hn : (n < length (m_blocks m))%nat) by (apply nth_error_Some; congruence).
  destruct (Hbl n _ Hp) as [Hl Hc]. unfold poke. rewrite Hp, Hl.
  destruct (Nat.ltb_spec (m_ps m) (off + length d)); [lia|].
  eexists. split; [reflexivity|]. unfold minv, mview. cbn [m_ps m_file m_blocks]. rewrite set_block_length by exact Hn.
  split; [|split; [reflexivity|split; [reflexivity|split; [reflexivity|]]]].
  - repeat (split; [assumption|]). apply blks_set; [assumption|exact Hn|]. cbn. split; [rewrite splice_length; lia|]. rewrite Hch. discriminate.
  - rewrite (view_set _ _ _ _ _ _ Hp). reflexivity.
Qed.

(** ** database level *)
Definition inv (c : base) : Prop :=
  c_len c = Z.of_nat (length (m_blocks (c_mgr c))) /\ (1 <= length (m_blocks (c_mgr c)))%nat /\
  minv (length (m_blocks (c_mgr c))) (c_mgr c).
Definition view (c : base) : list (list Z) := mview (c_mgr c).
Definition cps (c : base) : nat := m_ps (c_mgr c).

Lemma view_length c : length (view c) = length (m_blocks (c_mgr c)).
Proof. apply vw_length. Qed.

Lemma splice_splice {A} (l : list A) n x y : (n < length l)%nat -> splice (splice l n [x]) n [y] = splice l n [y].
Proof.
  intros H. apply nth_error_ext. intros i.
  assert (Hl : (n + length [y] <= length (splice l n [x]))%nat) by (rewrite splice_length; simpl; lia).
  rewrite nth_error_splice by exact Hl. rewrite !nth_error_splice by (simpl; lia). cbn [length].
  destruct ((n <=? i) && (i <? n + 1))%nat; reflexivity.
Qed.

Lemma read_refines c n t junk : inv c -> (n < length (view c))%nat ->
  exists c' d, base_read c n t junk = Ok (c', d) /\ inv c' /\ cps c' = cps c /\ view c' = view c /\ nth_error (view c) n = Some d.
Proof.
  intros (Hlen & H1 & Hm) Hn. rewrite view_length in Hn. unfold base_read. destruct (Z.leb_spec (c_len c) (Z.of_nat n)); [lia|].
  unfold mgr_get_block. destruct (Nat.leb_spec (length (m_blocks (c_mgr c))) n); [lia|].
  destruct (nth_error (m_blocks (c_mgr c)) n) as [p|] eqn:Ep; [|apply nth_error_None in Ep; lia].
  destruct (mgr_get_ok _ _ _ false true t junk p Hm Ep) as (m' & d & b & E & A1 & A2 & A3 & A4 & A5 & A6 & A7).
  rewrite E. cbn [rbind]. do 2 eexists. split; [reflexivity|].
  destruct A6 as [A6|(X & _)]; [|discriminate].
  assert (Hv : nth_error (mview (c_mgr c)) n = Some d).
  { unfold mview. rewrite nth_error_vw, Ep. cbn. now rewrite A6. }
  unfold inv, cps, view. cbn [c_len c_mgr]. rewrite A4. split; [split; [assumption|split; assumption]|]. split; [exact A2|]. split; [|exact Hv].
  rewrite A5. apply splice_self. exact Hv.
Qed.

Lemma put_count_splice h pages n : put_count (h :: pages) n = splice (h :: pages) 0 [splice h 12 (le_bytes 4 (Z.of_nat n))].
Proof. reflexivity. Qed.

Lemma write_refines c n rd off d t junk : inv c -> (n < length (view c))%nat -> (off + length d <= cps c)%nat ->
  exists c' p q, base_write c n rd off d t junk = Ok c' /\ inv c' /\ cps c' = cps c /\
    nth_error (view c) n = Some p /\ (q = p \/ rd = false /\ q = repeat 0 (cps c)) /\
    view c' = splice (view c) n [splice q off d].
Proof.
  intros (Hlen & H1 & Hm) Hn Hoff. rewrite view_length in Hn. unfold base_write.
  destruct (Z.ltb_spec (c_len c) (Z.of_nat n)); [lia|]. destruct (Z.eqb_spec (Z.of_nat n) (c_len c)); [lia|]. cbn [rbind].
  unfold mgr_get_block_for_write. destruct (Nat.ltb_spec (length (m_blocks (c_mgr c))) n); [lia|].
  destruct (Nat.eqb_spec n (length (m_blocks (c_mgr c)))); [lia|].
  destruct (nth_error (m_blocks (c_mgr c)) n) as [p|] eqn:Ep; [|apply nth_error_None in Ep; lia].
  destruct (mgr_get_ok _ _ _ true rd t junk p Hm Ep) as (m' & q & b & E & A1 & A2 & A3 & A4 & A5 & A6 & A7 & A8 & A9 & A10).
  cbv zeta. rewrite E. cbn [rbind fst].
  destruct (poke_ok _ m' n off d b A1 A7 (A10 eq_refl)) as (m2 & E2 & B1 & B2 & B3 & B4 & B5).
  { unfold cps in Hoff. rewrite A2. exact Hoff. }
  rewrite E2. cbn [rbind]. exists (mkbase (c_len c) m2), (vpage (m_ps (c_mgr c)) (f_bytes (m_file (c_mgr c))) n p), q.
  split; [reflexivity|]. unfold inv, cps, view. cbn [c_len c_mgr]. rewrite B4, A4, B2, A2.
  split; [split; [assumption|split; assumption]|]. split; [reflexivity|].
  split; [unfold mview; rewrite nth_error_vw, Ep; reflexivity|].
  split; [destruct A6 as [A6|(_ & A6 & A6')]; auto|].
  rewrite B5, A5, A8. apply splice_splice. unfold mview. rewrite vw_length. lia.
Qed.

Lemma vw_app ps bytes a b : forall i, vw ps bytes i (a ++ b) = vw ps bytes i a ++ vw ps bytes (i + length a) b.
Proof.
  induction a as [|x a IH]; intros i; cbn [app vw length]; [now rewrite Nat.add_0_r|]. rewrite IH. replace (S i + length a)%nat with (i + S (length a))%nat by lia. reflexivity.
Qed.

Lemma splice_last {A} (l : list A) a b : splice (l ++ [a]) (length l) [b] = l ++ [b].
Proof.
  unfold splice. rewrite firstn_app, Nat.sub_diag, firstn_O, app_nil_r, firstn_all.
  rewrite skipn_all2 by (rewrite app_length; simpl; lia). reflexivity.
Qed.

Lemma splice_last' {A} (l : list A) n a b : length l = n -> splice (l ++ [a]) n [b] = l ++ [b].
Proof. intros <-. apply splice_last. Qed.

Lemma append_refines c off d t junk : inv c -> (off + length d <= cps c)%nat -> Z.of_nat (S (length (view c))) < 2^32 ->
  exists c', base_write c (length (view c)) false off d t junk = Ok c' /\ inv c' /\ cps c' = cps c /\
    view c' = put_count (view c) (S (length (view c))) ++ [splice (repeat 0 (cps c)) off d].
Proof.
  intros (Hlen & H1 & Hm) Hoff Hmax. rewrite view_length in *. set (k := length (m_blocks (c_mgr c))) in *.
  unfold base_write. destruct (Z.ltb_spec (c_len c) (Z.of_nat k)); [lia|]. destruct (Z.eqb_spec (Z.of_nat k) (c_len c)); [|lia].
  cbv zeta. set (m := c_mgr c) in *.
  assert (Hlen' : u32 (c_len c + 1) = Z.of_nat (S k)) by (unfold u32; rewrite Z.mod_small by lia; lia).
  rewrite Hlen'.
  set (m1 := mkm (m_ps m) (mkf (f_bytes (m_file m)) (f_size (m_file m) + m_ps m) (f_fail (m_file m))) (m_blocks m)).
  assert (Hm1 : minv (S k) m1).
  { destruct Hm as (A & B & C & D & E & F & G). unfold minv, m1. cbn [m_ps m_file m_blocks f_bytes f_size f_fail].
    split; [exact A|]. split; [exact Hmax|]. split; [rewrite C; cbn; lia|]. split; [exact D|]. split; [fold k; lia|]. split; assumption. }
  destruct (nth_error (m_blocks m1) 0) as [p0|] eqn:E0; [|apply nth_error_None in E0; cbn in E0; fold k in E0; lia].
  unfold mgr_get_block_for_write at 1. cbn [Nat.ltb Nat.leb].
  destruct (Nat.eqb_spec 0 (length (m_blocks m1))); [cbn in e0; fold k in e0; lia|].
  destruct (mgr_get_ok (S k) m1 0 true true t junk p0 Hm1 E0) as (m' & q & b & E & A1 & A2 & A3 & A4 & A5 & A6 & A7 & A8 & A9 & A10).
  rewrite E. cbn [rbind fst].
  assert (Hps16 : (16 <= m_ps m)%nat) by (destruct Hm; assumption).
  destruct (poke_ok (S k) m' 0 12 (le_bytes 4 (Z.of_nat (S k))) b A1 A7 (A10 eq_refl)) as (m2 & E2 & B1 & B2 & B3 & B4 & B5).
  { rewrite A2, le_bytes_length. cbn [m1 m_ps]. lia. }
  rewrite E2. cbn [rbind c_mgr c_len].
  assert (Hk2 : length (m_blocks m2) = k) by (rewrite B4, A4; reflexivity).
  (* the appended page *)
  unfold mgr_get_block_for_write. rewrite Hk2, Nat.ltb_irrefl, Nat.eqb_refl. cbv zeta. unfold mgr_get. cbn [m_blocks m_file m_ps].
  rewrite nth_error_app2 by lia. rewrite Hk2, Nat.sub_diag. cbn [nth_error].
  assert (Hps2 : m_ps m2 = m_ps m) by (rewrite B2, A2; reflexivity).
  destruct B1 as (C1 & C2 & C3 & C4 & C5 & C6 & C7).
  unfold mb_create. rewrite C3, div_mul_exact by lia. unfold u32. rewrite Z.mod_small by lia.
  destruct (Z.leb_spec (Z.of_nat (S k)) (Z.of_nat k)); [lia|]. cbn [rbind fst mb_touch mb_data mb_changed orb].
  set (bs3 := set_block (m_blocks m2 ++ [None]) k (Some (mkb (repeat 0 (m_ps m2)) (u32 t) true))).
  assert (Hbs3 : bs3 = m_blocks m2 ++ [Some (mkb (repeat 0 (m_ps m2)) (u32 t) true)]).
  { unfold bs3. rewrite <- Hk2. apply splice_last. }
  fold (u32 t). fold bs3. 
  assert (Hm3 : minv (S k) (mkm (m_ps m2) (m_file m2) bs3)).
  { unfold minv. cbn [m_ps m_file m_blocks]. rewrite Hbs3, app_length, Hk2. cbn [length].
    split; [exact C1|]. split; [exact C2|]. split; [exact C3|]. split; [exact C4|]. split; [lia|]. split; [rewrite Hk2 in C6; nia|].
    intros i x Hx. destruct (Nat.lt_ge_cases i k) as [Hi|Hi].
    - rewrite nth_error_app1 in Hx by lia. exact (C7 i x Hx).
    - assert (i = k).
      { assert (Hlt : nth_error (m_blocks m2 ++ [Some (mkb (repeat 0 (m_ps m2)) (u32 t) true)]) i <> None) by congruence.
        apply nth_error_Some in Hlt. rewrite app_length in Hlt. simpl in Hlt. lia. }
      subst i. rewrite nth_error_app2 in Hx by lia. rewrite Hk2, Nat.sub_diag in Hx. injection Hx as <-. cbn. split; [apply repeat_length|discriminate]. }
  assert (Hb3 : nth_error bs3 k = Some (Some (mkb (repeat 0 (m_ps m2)) (u32 t) true))).
  { rewrite Hbs3, nth_error_app2 by lia. rewrite Hk2, Nat.sub_diag. reflexivity. }
  destruct (poke_ok (S k) (mkm (m_ps m2) (m_file m2) bs3) k off d _ Hm3 Hb3 eq_refl) as (m4 & E4 & D1 & D2 & D3 & D4 & D5).
  { cbn [m_ps]. rewrite Hps2. exact Hoff. }
  match goal with |- context [poke ?x k off d] => replace (poke x k off d) with (Ok m4) by (symmetry; exact E4) end.
  cbn [rbind]. exists (mkbase (Z.of_nat (S k)) m4). split; [reflexivity|].
  cbn [m_ps m_file m_blocks mb_data] in *.
  assert (Hl4 : length (m_blocks m4) = S k) by (rewrite D4, Hbs3, app_length, Hk2; simpl; lia).
  unfold inv, cps, view. cbn [c_len c_mgr]. rewrite Hl4. split; [split; [reflexivity|split; [lia|exact D1]]|]. split; [rewrite D2; exact Hps2|].
  rewrite D5. unfold mview at 1. cbn [m_ps m_file m_blocks]. rewrite Hbs3, vw_app, Hk2. cbn [vw vpage mb_data Nat.add].
  change (vw (m_ps m2) (f_bytes (m_file m2)) 0 (m_blocks m2)) with (mview m2).
  assert (Hv2 : mview m2 = put_count (mview m) (S k)).
  { rewrite B5, A5, A8. rewrite splice_splice by (unfold mview; rewrite vw_length; cbn [m1 m_blocks]; fold k; lia).
    destruct A6 as [A6|(_ & X & _)]; [|discriminate].
    change (mview m1) with (mview m). unfold mview at 1 2. cbn [m1 m_blocks m_ps m_file f_bytes] in E0, A6.
    destruct (m_blocks m) as [|x r] eqn:Ebl; [discriminate|]. cbn in E0. injection E0 as ->. cbn [vw]. rewrite put_count_splice, A6. reflexivity. }
  rewrite Hv2. assert (Hlp : length (put_count (mview m) (S k)) = k).
  { rewrite <- Hv2. unfold mview. rewrite vw_length. exact Hk2. }
  rewrite (splice_last' _ k _ _ Hlp), Hps2. reflexivity.
Qed.

(** clean-up *)
Lemma garbage_refines c a t : inv c -> inv (base_garbage c a t) /\ cps (base_garbage c a t) = cps c /\ view (base_garbage c a t) = view c.
Proof.
  intros (Hlen & H1 & Hm). unfold base_garbage, mgr_garbage, inv, cps, view, mview. cbn [c_len c_mgr m_ps m_file m_blocks].
  rewrite map_length. destruct Hm as (A & B & C & D & E & F & G).
  assert (Hg : forall i b, nth_error (m_blocks (c_mgr c)) i = Some b ->
    blk_ok (m_ps (c_mgr c)) (f_bytes (m_file (c_mgr c))) i (garbage_block a (u32 t) b) /\
    vpage (m_ps (c_mgr c)) (f_bytes (m_file (c_mgr c))) i (garbage_block a (u32 t) b) = vpage (m_ps (c_mgr c)) (f_bytes (m_file (c_mgr c))) i b).
  { intros i b Hb. pose proof (G i b Hb) as Hk. destruct b as [x|]; [|split; [exact Hk|reflexivity]]. unfold garbage_block.
    destruct (mb_changed x) eqn:Ec; [split; [exact Hk|reflexivity]|].
    destruct (a || (u32 (mb_last x + 5 * 60 * 1000) <=? u32 t)); [|split; [exact Hk|reflexivity]].
    destruct Hk as [Hl Hk]. destruct (Hk Ec) as [K1 K2]. cbn. split; [exact K1|]. now rewrite K2. }
  split; [split; [exact Hlen|split; [exact H1|]]|split; [reflexivity|]].
  - unfold minv. cbn [m_ps m_file m_blocks]. rewrite map_length. repeat (split; [assumption|]).
    intros i b Hb. rewrite nth_error_map in Hb. destruct (nth_error (m_blocks (c_mgr c)) i) as [b0|] eqn:E0; [|discriminate].
    cbn in Hb. injection Hb as <-. apply Hg. exact E0.
  - apply nth_error_ext. intros i. rewrite !nth_error_vw, nth_error_map. cbn [Nat.add].
    destruct (nth_error (m_blocks (c_mgr c)) i) as [b0|] eqn:E0; [|reflexivity]. cbn. f_equal. apply Hg. exact E0.
Qed.

(** flush *)
Definition clean (b : option mblock) : option mblock :=
  match b with Some x => Some (mkb (mb_data x) (mb_last x) false) | None => None end.

Lemma firstn_exact {A} (a b : list A) n : length a = n -> firstn n (a ++ b) = a.
Proof. intros <-. rewrite firstn_app, Nat.sub_diag, firstn_O, app_nil_r. apply firstn_all. Qed.
Lemma skipn_exact {A} (a b : list A) n : length a = n -> skipn n (a ++ b) = b.
Proof. intros <-. rewrite skipn_app, Nat.sub_diag, skipn_all. reflexivity. Qed.

Lemma vw_ext ps b1 b2 bs : forall i, (forall j b, nth_error bs j = Some b -> vpage ps b1 (i + j) b = vpage ps b2 (i + j) b) ->
  vw ps b1 i bs = vw ps b2 i bs.
Proof.
  induction bs as [|b bs IH]; intros i H; [reflexivity|]. cbn [vw]. f_equal.
  - specialize (H 0%nat b eq_refl). now rewrite Nat.add_0_r in H.
  - apply IH. intros j x Hx. specialize (H (S j) x Hx). now rewrite <- Nat.add_succ_comm in H.
Qed.

Lemma flush_blocks_ok ps bs : forall f n, (0 < ps)%nat -> f_fail f = false ->
  (n * ps <= length (f_bytes f))%nat -> (length (f_bytes f) <= (n + length bs) * ps)%nat ->
  ((n + length bs) * ps <= f_size f)%nat ->
  (forall i b, nth_error bs i = Some b -> blk_ok ps (f_bytes f) (n + i) b) ->
  flush_blocks ps f n bs = Ok (mkf (firstn (n * ps) (f_bytes f) ++ concat (vw ps (f_bytes f) n bs)) (f_size f) false, map clean bs).
Proof.
  induction bs as [|b bs IH]; intros f n Hps Hf Hlo Hhi Hsz Hok.
  - cbn [flush_blocks vw concat map length] in *. rewrite app_nil_r, firstn_all2 by (rewrite Nat.add_0_r in Hhi; lia).
    destruct f as [fb fs ff]. cbn in *. now subst.
  - cbn [flush_blocks]. cbn [length] in *.
    pose proof (Hok 0%nat b eq_refl) as Hb. rewrite Nat.add_0_r in Hb.
    assert (Hunch : forall b', blk_ok ps (f_bytes f) n b -> (n * ps + ps <= length (f_bytes f))%nat -> vpage ps (f_bytes f) n b = sub (f_bytes f) (n * ps) ps ->
      b' = clean b ->
      (do fr <- flush_blocks ps f (S n) bs; let (f2, r') := fr in Ok (f2, b' :: r')) =
      Ok (mkf (firstn (n * ps) (f_bytes f) ++ concat (vw ps (f_bytes f) n (b :: bs))) (f_size f) false, map clean (b :: bs))).
    { intros b' _ Hp Hv ->. rewrite IH; try assumption; try (simpl; lia).
      - cbn [rbind map vw concat]. rewrite Hv. do 3 f_equal. cbn [Nat.mul]. rewrite Nat.add_comm, firstn_plus, <- app_assoc. reflexivity.
      - intros i x Hx. specialize (Hok (S i) x Hx). now rewrite <- Nat.add_succ_comm in Hok. }
    destruct b as [x|].
    + destruct Hb as [Hl Hc]. destruct (mb_changed x) eqn:Ec.
      * rewrite Hl. unfold f_seek. destruct (Nat.ltb_spec (f_size f) (n * ps)); [nia|]. cbn [rbind].
        unfold f_write. rewrite Hf, Hl.
        replace (n * ps - length (f_bytes f))%nat with 0%nat by lia. cbn [repeat]. rewrite app_nil_r.
        replace (Nat.max (f_size f) (n * ps + ps)) with (f_size f) by nia.
        set (f1 := mkf (firstn (n * ps) (f_bytes f) ++ mb_data x ++ skipn (n * ps + ps) (f_bytes f)) (f_size f) false).
        assert (Hfl : length (firstn (n * ps) (f_bytes f)) = (n * ps)%nat) by (rewrite firstn_length; lia).
        assert (Hl1 : length (f_bytes f1) = Nat.max (n * ps + ps) (length (f_bytes f))).
        { cbn [f1 f_bytes]. rewrite !app_length, Hfl, Hl, skipn_length. lia. }
        assert (Hsub : forall o, (n * ps + ps <= o)%nat -> sub (f_bytes f1) o ps = sub (f_bytes f) o ps).
        { intros o Ho. cbn [f1 f_bytes]. unfold sub. f_equal. rewrite app_assoc.
          rewrite skipn_app. rewrite skipn_all2 by (rewrite app_length, Hfl, Hl; lia). cbn [app].
          rewrite app_length, Hfl, Hl, skipn_plus. f_equal. lia. }
        rewrite IH; cbn [f1 f_fail f_size].
        -- cbn [rbind map clean vw concat vpage]. do 3 f_equal.
           fold f1. replace (firstn (S n * ps) (f_bytes f1)) with (firstn (n * ps) (f_bytes f) ++ mb_data x).
           2:{ cbn [f1 f_bytes]. rewrite app_assoc. symmetry. apply firstn_exact. rewrite app_length, Hfl, Hl. cbn. lia. }
           rewrite <- app_assoc. do 2 f_equal. f_equal. apply vw_ext. intros j y Hy. destruct y as [y|]; [reflexivity|]. cbn [vpage]. apply Hsub. nia.
        -- exact Hps.
        -- reflexivity.
        -- fold f1. rewrite Hl1. cbn. lia.
        -- fold f1. rewrite Hl1. nia.
        -- nia.
        -- intros i y Hy. specialize (Hok (S i) y Hy). rewrite <- Nat.add_succ_comm in Hok. fold f1. destruct y as [y|].
           ++ destruct Hok as [K1 K2]. split; [exact K1|]. intros K. destruct (K2 K) as [K3 K4]. split; [rewrite Hl1; lia|]. rewrite Hsub; [exact K4|nia].
           ++ cbn in *. rewrite Hl1. lia.
      * cbn [rbind]. destruct (Hc eq_refl) as [Hp Hd]. apply Hunch; [split; [exact Hl|intros _; exact (Hc eq_refl)]|exact Hp|exact Hd|].
        destruct x as [xd xl xc]. cbn in Ec |- *. now subst.
    + cbn [rbind]. cbn in Hb. apply Hunch; [exact Hb|exact Hb|reflexivity|reflexivity].
Qed.

Lemma concat_length_const {A} (ll : list (list A)) n : Forall (fun l => length l = n) ll -> length (concat ll) = (length ll * n)%nat.
Proof. induction 1 as [|l ll Hl Hf IH]; [reflexivity|]. cbn [concat length]. rewrite app_length, Hl, IH. reflexivity. Qed.
Lemma sub_concat {A} (ll : list (list A)) n i : Forall (fun l => length l = n) ll -> (i < length ll)%nat ->
  nth_error ll i = Some (sub (concat ll) (i * n) n).
Proof.
  intros H. revert i. induction H as [|l ll Hl Hf IH]; intros i Hi; [simpl in Hi; lia|].
  destruct i as [|i].
  - cbn [nth_error concat Nat.mul]. f_equal. unfold sub. cbn [skipn]. rewrite firstn_app, <- Hl, Nat.sub_diag, firstn_O, app_nil_r, firstn_all. reflexivity.
  - cbn [nth_error]. rewrite IH by (simpl in Hi; lia). f_equal. unfold sub. f_equal. cbn [concat Nat.mul]. rewrite skipn_app.
    rewrite (skipn_all2 l) by lia. cbn [app]. f_equal. lia.
Qed.

Lemma view_pages c : inv c -> Forall (fun p => length p = cps c) (view c).
Proof.
  intros (_ & _ & Hm). destruct Hm as (_ & _ & _ & _ & _ & _ & G). apply Forall_forall. intros p Hp. apply In_nth_error in Hp.
  destruct Hp as [i Hi]. unfold view, mview in Hi. rewrite nth_error_vw in Hi. destruct (nth_error (m_blocks (c_mgr c)) i) as [b|] eqn:Eb; [|discriminate].
  injection Hi as <-. apply vpage_length. now apply G.
Qed.

Lemma flush_refines c : inv c -> exists c', base_flush c = Ok c' /\ inv c' /\ cps c' = cps c /\ view c' = view c /\
  base_close c' = concat (view c) /\ m_blocks (c_mgr c') = map clean (m_blocks (c_mgr c)) /\ f_size (m_file (c_mgr c')) = length (concat (view c)).
Proof.
  intros Hi. pose proof (view_pages c Hi) as Hvp. destruct Hi as (Hlen & H1 & Hm). pose proof Hm as (A & B & C & D & E & F & G).
  set (m := c_mgr c) in *. set (k := length (m_blocks m)) in *.
  assert (HF : flush_blocks (m_ps m) (m_file m) 0 (m_blocks m) = Ok (mkf (concat (view c)) (f_size (m_file m)) false, map clean (m_blocks m))).
  { rewrite flush_blocks_ok; try assumption; try lia; try (cbn [Nat.add Nat.mul]; fold k; lia). reflexivity. }
  unfold base_flush, mgr_flush. fold m. rewrite HF. cbn [rbind].
  eexists. split; [reflexivity|].
  assert (Hcl : length (concat (view c)) = (k * m_ps m)%nat).
  { rewrite (concat_length_const _ _ Hvp), view_length. reflexivity. }
  assert (Hpage : forall i b, nth_error (m_blocks m) i = Some b -> sub (concat (view c)) (i * m_ps m) (m_ps m) = vpage (m_ps m) (f_bytes (m_file m)) i b).
  { intros i b Hb. assert (Hi : (i < k)%nat) by (apply nth_error_Some; congruence).
    pose proof (sub_concat (view c) (cps c) i Hvp) as Hs. rewrite view_length in Hs. specialize (Hs Hi).
    assert (Hs2 : nth_error (view c) i = Some (vpage (m_ps m) (f_bytes (m_file m)) i b)).
    { unfold view, mview. fold m. rewrite nth_error_vw, Hb. reflexivity. }
    rewrite Hs2 in Hs. injection Hs as Hs. symmetry. exact Hs. }
  set (vc := view c) in *.
  assert (Hv : vw (m_ps m) (concat vc) 0 (map clean (m_blocks m)) = vc).
  { apply nth_error_ext. intros i. unfold vc at 2, view, mview. fold m. rewrite !nth_error_vw, nth_error_map. cbn [Nat.add].
    destruct (nth_error (m_blocks m) i) as [b|] eqn:Eb; [|reflexivity]. cbn [option_map]. f_equal.
    destruct b as [x|]; [reflexivity|]. cbn [clean vpage]. exact (Hpage i None Eb). }
  unfold inv, cps, view, mview, base_close. cbn [c_len c_mgr m_ps m_file m_blocks f_bytes f_size]. rewrite map_length. fold k.
  split; [split; [exact Hlen|split; [exact H1|]]|].
  - unfold minv. cbn [m_ps m_file m_blocks f_size f_fail f_bytes]. rewrite map_length. fold k.
    do 6 (split; [first [assumption|reflexivity|lia]|]).
    intros i b Hb. rewrite nth_error_map in Hb. destruct (nth_error (m_blocks m) i) as [b0|] eqn:E0; [|discriminate]. cbn in Hb. injection Hb as <-.
    assert (Hi : (i < k)%nat) by (apply nth_error_Some; congruence).
    assert (Hphys : (i * m_ps m + m_ps m <= length (concat vc))%nat) by (rewrite Hcl; nia).
    destruct b0 as [x|]; [|exact Hphys]. cbn. destruct (G i _ E0) as [K1 _]. split; [exact K1|]. intros _. split; [exact Hphys|].
    rewrite (Hpage i _ E0). reflexivity.
  - split; [reflexivity|]. split; [exact Hv|]. split; [reflexivity|]. split; [reflexivity|]. now rewrite Hcl.
Qed.

(** ** histories *)
Definition evop (e : event) : op := fst (fst e).

Lemma step_refines c e : inv c -> op_fits (cps c) (length (view c)) (evop e) ->
  Z.of_nat (grow (length (view c)) (evop e)) < 2^32 ->
  exists c' out, run_op c e = Ok (c', out) /\ inv c' /\ cps c' = cps c /\ plain_op (cps c) (view c) (evop e) out (view c') /\
    length (view c') = grow (length (view c)) (evop e).
Proof.
  intros Hi Hfit Hg. destruct e as [[o t] junk]. unfold evop in *. cbn [fst] in *. destruct o as [n|n rd off d| |a]; cbn [op_fits grow run_op] in *.
  - destruct (read_refines c n t junk Hi Hfit) as (c' & d & E & A & B & C & D). rewrite E. cbn [rbind fst snd].
    do 2 eexists. split; [reflexivity|]. rewrite C. repeat (split; [assumption|]). split; [now constructor|reflexivity].
  - destruct Hfit as [Hn Hoff]. destruct (Nat.eqb_spec n (length (view c))) as [->|Hne].
    + destruct Hn as [Hn|[_ ->]]; [lia|].
      destruct (append_refines c off d t junk Hi Hoff Hg) as (c' & E & A & B & C). rewrite E. cbn [rbind].
      do 2 eexists. split; [reflexivity|]. split; [exact A|]. split; [exact B|]. rewrite C. split; [now constructor|].
      rewrite app_length. cbn [length]. destruct (view c); cbn; lia.
    + destruct Hn as [Hn|[Hn _]]; [|lia].
      destruct (write_refines c n rd off d t junk Hi Hn Hoff) as (c' & p & q & E & A & B & C & D & F). rewrite E. cbn [rbind].
      do 2 eexists. split; [reflexivity|]. split; [exact A|]. split; [exact B|]. rewrite F. split; [econstructor; eassumption|].
      apply splice_length. simpl. lia.
  - destruct (flush_refines c Hi) as (c' & E & A & B & C & _). rewrite E. cbn [rbind].
    do 2 eexists. split; [reflexivity|]. rewrite C. repeat (split; [assumption|]). split; [constructor|reflexivity].
  - destruct (garbage_refines c a t Hi) as (A & B & C).
    do 2 eexists. split; [reflexivity|]. rewrite C. repeat (split; [assumption|]). split; [constructor|reflexivity].
Qed.

Lemma grow_le k o : (k <= grow k o)%nat.
Proof. destruct o; cbn; try lia. destruct (n =? k)%nat; lia. Qed.
Lemma grow_all_le os : forall k, (k <= grow_all k os)%nat.
Proof. induction os as [|o os IH]; intros k; cbn; [lia|]. pose proof (grow_le k o). specialize (IH (grow k o)). lia. Qed.

Lemma run_refines es : forall c, inv c -> ops_fit (cps c) (length (view c)) (map evop es) ->
  Z.of_nat (grow_all (length (view c)) (map evop es)) < 2^32 ->
  exists c' outs, run c es = Ok (c', outs) /\ inv c' /\ cps c' = cps c /\ plain_run (cps c) (view c) (map evop es) outs (view c') /\
    length (view c') = grow_all (length (view c)) (map evop es).
Proof.
  induction es as [|e es IH]; intros c Hi Hfit Hg; cbn [map ops_fit grow_all run] in *.
  - do 2 eexists. split; [reflexivity|]. repeat (split; [first [assumption|reflexivity]|]). split; [constructor|reflexivity].
  - destruct Hfit as [Hf1 Hf2]. pose proof (grow_all_le (map evop es) (grow (length (view c)) (evop e))) as Hle.
    destruct (step_refines c e Hi Hf1) as (c1 & out & E & A & B & C & D); [lia|].
    rewrite E. cbn [rbind]. rewrite <- D in Hf2, Hg. rewrite <- B in Hf2. destruct (IH c1 A Hf2 Hg) as (c2 & outs & E2 & A2 & B2 & C2 & D2).
    rewrite E2. cbn [rbind]. do 2 eexists. split; [reflexivity|]. split; [exact A2|]. split; [congruence|]. rewrite B in C2.
    split; [destruct out as [d|]; econstructor; eassumption|]. now rewrite D2, D.
Qed.

(** ** opening *)
Lemma open_ok ps k bs : good_file ps k bs -> exists c, base_open ps bs = Ok c /\ inv c /\ cps c = ps /\ view c = pages_of ps bs /\
  length (view c) = k /\ base_close c = bs.
Proof.
  intros (H16 & H1 & Hmax & Hlen & Hcount). unfold base_open. rewrite Hlen, div_mul_exact by lia. unfold u32. rewrite Z.mod_small by lia.
  destruct (Z.eqb_spec (Z.of_nat k * Z.of_nat ps) (Z.of_nat (k * ps))); [|lia]. cbn [negb].
  rewrite Hcount, le_val_bytes_small by (change (256 ^ Z.of_nat 4) with (2^32); lia). rewrite Z.eqb_refl. cbn [negb]. rewrite Nat2Z.id.
  eexists. split; [reflexivity|].
  assert (Hb : forall i b, nth_error (repeat (@None mblock) k) i = Some b -> b = None /\ (i < k)%nat).
  { intros i b Hb. split.
    - apply nth_error_In in Hb. now apply repeat_spec in Hb.
    - assert (X : nth_error (repeat (@None mblock) k) i <> None) by congruence. apply nth_error_Some in X. now rewrite repeat_length in X. }
  unfold inv, cps, view, mview, base_close. cbn [c_len c_mgr m_ps m_file m_blocks f_bytes f_size f_fail]. rewrite repeat_length.
  split; [split; [reflexivity|split; [exact H1|]]|].
  - unfold minv. cbn [m_ps m_file m_blocks f_bytes f_size f_fail]. rewrite repeat_length. rewrite Hlen.
    do 6 (split; [first [assumption|reflexivity|lia]|]).
    intros i b Hx. destruct (Hb i b Hx) as [-> Hi]. cbn. nia.
  - split; [reflexivity|]. rewrite vw_length, repeat_length. split; [|split; reflexivity].
    apply nth_error_ext. intros i. rewrite nth_error_vw. unfold pages_of. rewrite Hlen, div_mul_exact by lia. rewrite nth_error_map.
    destruct (nth_error (repeat (@None mblock) k) i) as [b|] eqn:Eb.
    + destruct (Hb i b Eb) as [-> Hi]. cbn [option_map vpage Nat.add].
      rewrite nth_error_nth' with (d := 0%nat) by (rewrite seq_length; lia). rewrite seq_nth by lia. reflexivity.
    + apply nth_error_None in Eb. rewrite repeat_length in Eb.
      replace (nth_error (seq 0 k) i) with (@None nat); [reflexivity|]. symmetry. apply nth_error_None. rewrite seq_length. lia.
Qed.

(** ** the count in the header *)
Definition count_ok (pages : list (list Z)) : Prop :=
  match pages with h :: _ => (16 <= length h)%nat /\ sub h 12 4 = le_bytes 4 (Z.of_nat (length pages)) | [] => False end.

Lemma plain_count ps pages o out pages' : (16 <= ps)%nat -> Forall (fun p => length p = ps) pages -> plain_op ps pages o out pages' ->
  spares_count o -> count_ok pages -> count_ok pages' /\ Forall (fun p => length p = ps) pages'.
Proof.
  intros Hps Hall Hop Hsp Hc. destruct Hop as [pages n d Hn|pages n rd off d p q Hn Hq Hoff|pages off d Hoff|pages|pages a]; try (split; assumption).
  - assert (Hlt : (n < length pages)%nat) by (apply nth_error_Some; congruence).
    assert (Hpl : length p = ps) by (rewrite Forall_forall in Hall; apply Hall; eapply nth_error_In; eassumption).
    assert (Hql : length q = ps) by (destruct Hq as [->|[_ ->]]; [exact Hpl|apply repeat_length]).
    split.
    + destruct pages as [|h r]; [simpl in Hlt; lia|]. destruct n as [|n].
      * unfold splice at 1. cbn [firstn app skipn Nat.add length]. cbn in Hsp. destruct Hsp as [-> Hsp].
        destruct Hq as [->|[X _]]; [|discriminate]. cbn in Hn. injection Hn as ->. destruct Hc as [C1 C2]. cbn [count_ok].
        split; [rewrite splice_length; lia|]. rewrite sub_splice_other by lia. exact C2.
      * assert (Hl : length (splice (h :: r) (S n) [splice q off d]) = length (h :: r)) by (apply splice_length; simpl in *; lia).
        destruct Hc as [C1 C2]. unfold count_ok. destruct (splice (h :: r) (S n) [splice q off d]) as [|h' r'] eqn:Es; [discriminate|].
        assert (h' = h) by (unfold splice in Es; cbn in Es; congruence). subst h'. rewrite Hl. split; assumption.
    + apply Forall_forall. intros x Hx. apply In_nth_error in Hx. destruct Hx as [i Hx]. rewrite nth_error_splice in Hx by (simpl; lia).
      destruct ((n <=? i) && (i <? n + length [splice q off d]))%nat.
      * destruct (i - n)%nat as [|[|?]]; try discriminate. cbn in Hx. injection Hx as <-. rewrite splice_length; lia.
      * rewrite Forall_forall in Hall. apply Hall. eapply nth_error_In. exact Hx.
  - destruct pages as [|h r]; [destruct Hc|]. destruct Hc as [C1 C2]. cbn [put_count app count_ok length].
    inversion Hall as [|? ? Hh Hr]; subst.
    split.
    + split; [rewrite splice_length; rewrite ?le_bytes_length; lia|].
      pose proof (sub_splice_same h (le_bytes 4 (Z.of_nat (S (S (length r))))) 12) as Hs. rewrite le_bytes_length in Hs. rewrite Hs by lia.
      rewrite app_length. cbn [length]. f_equal. lia.
    + constructor; [apply splice_length; rewrite le_bytes_length; lia|]. apply Forall_app. split; [exact Hr|]. constructor; [|constructor].
      rewrite splice_length; rewrite repeat_length; lia.
Qed.

Lemma plain_run_count ps os : (16 <= ps)%nat -> forall pages outs pages', Forall (fun p => length p = ps) pages -> plain_run ps pages os outs pages' ->
  Forall spares_count os -> count_ok pages -> count_ok pages'.
Proof.
  intros Hps. induction os as [|o os IH]; intros pages outs pages' Hall Hr Hs Hc; inversion Hr; subst; [exact Hc| |].
  - inversion Hs; subst. match goal with H : plain_op _ _ _ _ _ |- _ => destruct (plain_count _ _ _ _ _ Hps Hall H ltac:(assumption) Hc) as [A B] end. eapply IH; eassumption.
  - inversion Hs; subst. match goal with H : plain_op _ _ _ _ _ |- _ => destruct (plain_count _ _ _ _ _ Hps Hall H ltac:(assumption) Hc) as [A B] end. eapply IH; eassumption.
Qed.

(** ** packaged statements *)
Lemma pages_of_ok ps k bs : good_file ps k bs -> Forall (fun p => length p = ps) (pages_of ps bs) /\ length (pages_of ps bs) = k /\ count_ok (pages_of ps bs).
Proof.
  intros H. destruct (open_ok ps k bs H) as (c & _ & Hi & Hps & Hv & Hl & _). rewrite <- Hv. split; [rewrite <- Hps; now apply view_pages|].
  split; [exact Hl|]. rewrite Hv. destruct H as (H16 & H1 & Hmax & Hlen & Hcount). unfold pages_of. rewrite Hlen, div_mul_exact by lia.
  destruct k as [|k]; [lia|]. cbn [seq map count_ok length]. rewrite map_length, seq_length. cbn [Nat.mul].
  split; [rewrite sub_length; lia|]. rewrite sub_sub by lia. exact Hcount.
Qed.

Lemma history ps k bs es : good_file ps k bs -> ops_fit ps k (map evop es) -> Z.of_nat (grow_all k (map evop es)) < 2^32 ->
  exists c c' outs pages, base_open ps bs = Ok c /\ run c es = Ok (c', outs) /\ plain_run ps (pages_of ps bs) (map evop es) outs pages /\
    inv c' /\ cps c' = ps /\ view c' = pages /\ length pages = grow_all k (map evop es).
Proof.
  intros Hg Hf Hm. destruct (open_ok ps k bs Hg) as (c & E & Hi & Hps & Hv & Hl & _).
  destruct (run_refines es c Hi) as (c' & outs & E2 & A & B & C & D); [rewrite Hps, Hl; exact Hf|rewrite Hl; exact Hm|].
  rewrite Hv, Hps in C. rewrite Hl in D. exists c, c', outs, (view c'). split; [exact E|]. split; [exact E2|]. split; [exact C|]. split; [exact A|]. split; [congruence|]. auto.
Qed.

Lemma flush_twice c c1 : inv c -> base_flush c = Ok c1 -> base_flush c1 = Ok c1.
Proof.
  intros Hi E. destruct (flush_refines c Hi) as (c' & E' & A & B & C & D & F & G). rewrite E in E'. injection E' as <-.
  destruct (flush_refines c1 A) as (c2 & E2 & _ & B2 & C2 & D2 & F2 & G2). rewrite E2. f_equal.
  assert (Hlen : c_len c2 = c_len c1).
  { unfold base_flush in E2. destruct (mgr_flush (c_mgr c1)); try discriminate. cbn in E2. now injection E2 as <-. }
  destruct A as (_ & _ & (_ & _ & _ & Hf1 & _)).
  assert (Hf2 : f_fail (m_file (c_mgr c2)) = false).
  { destruct (flush_refines c1) as (c3 & E3 & A3 & _); [|rewrite E2 in E3; injection E3 as <-; destruct A3 as (_ & _ & (_ & _ & _ & X & _)); exact X].
    destruct (flush_refines c Hi) as (c' & E' & A' & _). rewrite E in E'. injection E' as <-. exact A'. }
  destruct c2 as [l2 [p2 [b2 s2 f2] bs2]], c1 as [l1 [p1 [b1 s1 f1] bs1]]. unfold cps, base_close in *. cbn in *. subst l2 p2 f1 f2.
  rewrite C in D2, G2. assert (b2 = b1) as -> by congruence. assert (s2 = s1) as -> by congruence. f_equal. f_equal.
  rewrite F2, F, map_map. apply map_ext. intros [x|]; reflexivity.
Qed.

Lemma history_flush ps k bs es : good_file ps k bs -> ops_fit ps k (map evop es) -> Z.of_nat (grow_all k (map evop es)) < 2^32 ->
  exists c c' c'' outs pages, base_open ps bs = Ok c /\ run c es = Ok (c', outs) /\ plain_run ps (pages_of ps bs) (map evop es) outs pages /\
    base_flush c' = Ok c'' /\ base_close c'' = concat pages /\ base_flush c'' = Ok c''.
Proof.
  intros Hg Hf Hm. destruct (history ps k bs es Hg Hf Hm) as (c & c' & outs & pages & E1 & E2 & Hp & Hi & Hps & Hv & Hl).
  destruct (flush_refines c' Hi) as (c'' & E3 & A & B & C & D & _). exists c, c', c'', outs, pages. rewrite <- Hv.
  split; [exact E1|]. split; [exact E2|]. split; [rewrite Hv; exact Hp|]. split; [exact E3|]. split; [exact D|]. exact (flush_twice _ _ Hi E3).
Qed.

Lemma header_count ps k bs es : good_file ps k bs -> ops_fit ps k (map evop es) -> Z.of_nat (grow_all k (map evop es)) < 2^32 ->
  Forall spares_count (map evop es) ->
  exists c c' c'' outs, base_open ps bs = Ok c /\ run c es = Ok (c', outs) /\ base_flush c' = Ok c'' /\
    good_file ps (grow_all k (map evop es)) (base_close c'') /\ exists c3, base_open ps (base_close c'') = Ok c3.
Proof.
  intros Hg Hf Hm Hs. destruct (history ps k bs es Hg Hf Hm) as (c & c' & outs & pages & E1 & E2 & Hp & Hi & Hps & Hv & Hl).
  destruct (pages_of_ok ps k bs Hg) as (Hall & Hk & Hc). pose proof Hg as (H16 & H1 & Hmax & Hlen & Hcount).
  pose proof (plain_run_count ps _ H16 _ _ _ Hall Hp Hs Hc) as Hc'. pose proof (view_pages c' Hi) as Hvp. rewrite Hps, Hv in Hvp.
  destruct (flush_refines c' Hi) as (c'' & E3 & A & B & C & D & _). exists c, c', c'', outs. rewrite Hv in D.
  assert (Hgf : good_file ps (grow_all k (map evop es)) (base_close c'')).
  { rewrite D. unfold good_file. split; [exact H16|]. pose proof (grow_all_le (map evop es) k). split; [lia|]. split; [exact Hm|].
    rewrite (concat_length_const _ _ Hvp), Hl. split; [reflexivity|].
    destruct pages as [|h r]; [destruct Hc'|]. destruct Hc' as [C1 C2]. rewrite <- Hl, <- C2. cbn [concat].
    unfold sub. rewrite skipn_app, firstn_app. rewrite skipn_length. replace (4 - (length h - 12))%nat with 0%nat by lia. rewrite firstn_O, app_nil_r. reflexivity. }
  split; [exact E1|]. split; [exact E2|]. split; [exact E3|]. split; [exact Hgf|].
  destruct (open_ok _ _ _ Hgf) as (c3 & E & _). eauto.
Qed.

Lemma out_of_range c n t junk : c_len c <= Z.of_nat n -> base_read c n t junk = Throw.
Proof. intros H. unfold base_read. destruct (Z.leb_spec (c_len c) (Z.of_nat n)); [reflexivity|lia]. Qed.
Lemma out_of_range_write c n rd off d t junk : c_len c < Z.of_nat n -> base_write c n rd off d t junk = Throw.
Proof. intros H. unfold base_write. destruct (Z.ltb_spec (c_len c) (Z.of_nat n)); [reflexivity|lia]. Qed.
Lemma run_len c es c' outs ps k bs : good_file ps k bs -> base_open ps bs = Ok c -> ops_fit ps k (map evop es) ->
  Z.of_nat (grow_all k (map evop es)) < 2^32 -> run c es = Ok (c', outs) -> c_len c' = Z.of_nat (grow_all k (map evop es)).
Proof.
  intros Hg E Hf Hm Hr. destruct (history ps k bs es Hg Hf Hm) as (c0 & c1 & outs1 & pages & E1 & E2 & _ & Hi & _ & Hv & Hl).
  rewrite E in E1. injection E1 as <-. rewrite Hr in E2. injection E2 as <- <-. destruct Hi as (Hi & _). rewrite Hi, <- Hl, <- Hv, view_length. reflexivity.
Qed.
Lemma history_out_of_range ps k bs es c c' outs n t junk : good_file ps k bs -> base_open ps bs = Ok c -> ops_fit ps k (map evop es) ->
  Z.of_nat (grow_all k (map evop es)) < 2^32 -> run c es = Ok (c', outs) ->
  ((grow_all k (map evop es) <= n)%nat -> base_read c' n t junk = Throw) /\
  (forall rd off d, (grow_all k (map evop es) < n)%nat -> base_write c' n rd off d t junk = Throw).
Proof.
  intros Hg E Hf Hm Hr. pose proof (run_len c es c' outs ps k bs Hg E Hf Hm Hr) as Hl.
  split; [intros Hn; apply out_of_range; lia|intros rd off d Hn; apply out_of_range_write; lia].
Qed.

(** closing writes nothing *)
Lemma read_no_write c n t junk c' d : base_read c n t junk = Ok (c', d) -> inv c -> base_close c' = base_close c.
Proof.
  intros E Hi. destruct (Z.le_gt_cases (c_len c) (Z.of_nat n)) as [H|H]; [rewrite out_of_range in E by lia; discriminate|].
  pose proof Hi as (Hlen & H1 & Hm). unfold base_read, mgr_get_block in E. destruct (Z.leb_spec (c_len c) (Z.of_nat n)); [lia|].
  destruct (Nat.leb_spec (length (m_blocks (c_mgr c))) n); [lia|].
  destruct (nth_error (m_blocks (c_mgr c)) n) as [p|] eqn:Ep; [|apply nth_error_None in Ep; lia].
  destruct (mgr_get_ok _ _ _ false true t junk p Hm Ep) as (m' & d' & b & E' & A1 & A2 & A3 & _). rewrite E' in E. cbn in E. injection E as <- <-. exact A3.
Qed.

Lemma run_app c a b : run c (a ++ b) = do x <- run c a; do y <- run (fst x) b; Ok (fst y, snd x ++ snd y).
Proof.
  revert c. induction a as [|e a IH]; intros c; cbn [app run].
  - cbn [rbind fst snd app]. destruct (run c b) as [[c1 o1]| | |]; reflexivity.
  - destruct (run_op c e) as [[c1 o]| | |]; cbn [rbind]; try reflexivity. rewrite IH.
    destruct (run c1 a) as [[c2 os]| | |]; cbn [rbind fst snd]; try reflexivity.
    destruct (run c2 b) as [[c3 os3]| | |]; cbn [rbind fst snd]; try reflexivity. destruct o; reflexivity.
Qed.

Lemma flush_close ps k bs es t junk : good_file ps k bs -> ops_fit ps k (map evop es) -> Z.of_nat (grow_all k (map evop es)) < 2^32 ->
  exists c c' outs pages, base_open ps bs = Ok c /\ run c (es ++ [(OFlush, t, junk)]) = Ok (c', outs) /\
    plain_run ps (pages_of ps bs) (map evop es) outs pages /\ base_close c' = concat pages.
Proof.
  intros Hg Hf Hm. destruct (history_flush ps k bs es Hg Hf Hm) as (c & c' & c'' & outs & pages & E1 & E2 & Hp & E3 & D & _).
  exists c, c'', outs, pages. split; [exact E1|]. split; [|split; assumption]. rewrite run_app, E2. cbn [rbind fst snd run run_op]. rewrite E3.
  cbn [rbind fst snd]. now rewrite app_nil_r.
Qed.

(** opening accepts exactly the files of whole pages with the right count *)
Lemma open_exact ps bs : (16 <= ps)%nat -> bytes_ok bs -> (length bs <> 0)%nat ->
  ((exists c, base_open ps bs = Ok c) <-> exists k, good_file ps k bs) /\ (base_open ps bs = Throw \/ exists c, base_open ps bs = Ok c).
Proof.
  intros Hps Hb Hne. split; [split|].
  - intros (c & E). unfold base_open in E. set (q := u32 (Z.of_nat (length bs / ps))) in *.
    assert (Hq : 0 <= q < 2^32) by (unfold q, u32; apply Z.mod_pos_bound; lia).
    destruct (negb (q * Z.of_nat ps =? Z.of_nat (length bs))) eqn:E1; [discriminate|]. destruct (negb (q =? le_val (sub bs 12 4))) eqn:E2; [discriminate|].
    assert (A : q * Z.of_nat ps = Z.of_nat (length bs)) by lia. assert (B : q = le_val (sub bs 12 4)) by lia.
    exists (Z.to_nat q). assert (Hlen : length bs = (Z.to_nat q * ps)%nat) by nia.
    assert (1 <= Z.to_nat q)%nat by (destruct (Z.to_nat q); lia).
    unfold good_file. split; [exact Hps|]. split; [assumption|]. split; [lia|]. split; [exact Hlen|].
    rewrite Z2Nat.id by lia. rewrite B. assert (Hl4 : length (sub bs 12 4) = 4%nat) by (rewrite sub_length; nia).
    symmetry. transitivity (le_bytes (length (sub bs 12 4)) (le_val (sub bs 12 4))); [rewrite Hl4; reflexivity|]. apply le_bytes_val. now apply bytes_ok_sub.
  - intros (k & Hg). destruct (open_ok _ _ _ Hg) as (c & E & _). eauto.
  - unfold base_open. destruct (negb _); [now left|]. destruct (negb _); [now left|]. right. eauto.
Qed.

(** pages taken without loading *)
Lemma append_zero ps k bs es off d t junk t' junk' c c' outs : good_file ps k bs -> ops_fit ps k (map evop es) ->
  Z.of_nat (grow_all k (map evop es)) + 1 < 2^32 -> base_open ps bs = Ok c -> run c es = Ok (c', outs) -> (off + length d <= ps)%nat ->
  exists c2 c3, base_write c' (grow_all k (map evop es)) false off d t junk = Ok c2 /\
    base_read c2 (grow_all k (map evop es)) t' junk' = Ok (c3, splice (repeat 0 ps) off d).
Proof.
  intros Hg Hf Hm E Hr Hd. set (K := grow_all k (map evop es)) in *.
  destruct (history ps k bs es Hg Hf ltac:(fold K; lia)) as (c0 & c1 & outs1 & pages & E1 & E2 & _ & Hi & Hps & Hv & Hl).
  rewrite E in E1. injection E1 as <-. rewrite Hr in E2. injection E2 as <- <-. fold K in Hl.
  assert (HK : K = length (view c')) by (rewrite Hv; congruence).
  destruct (append_refines c' off d t junk Hi) as (c2 & E3 & Hi2 & Hps2 & Hv2).
  { rewrite Hps. exact Hd. } { rewrite <- HK. lia. }
  assert (Hl2 : length (put_count (view c') (S (length (view c')))) = K) by (rewrite HK; destruct (view c'); reflexivity).
  destruct (read_refines c2 K t' junk' Hi2) as (c3 & x & E4 & _ & _ & _ & Hx).
  { rewrite Hv2, app_length, Hl2. cbn. lia. }
  exists c2, c3. rewrite HK at 1. split; [exact E3|]. rewrite E4. rewrite Hv2, nth_error_app2, Hl2, Nat.sub_diag in Hx by lia.
  cbn in Hx. rewrite Hps in Hx. congruence.
Qed.
