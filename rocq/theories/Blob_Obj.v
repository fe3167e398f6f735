(** Blob histories on objects stored in pages. *)
From Verif Require Import Prelude Lists Obj_Model Obj_Spec Obj_Proofs Obj_Write Obj_More Obj_Hist Obj_Make Obj_Facts Alloc_Model Alloc_Spec Alloc_Bad Blob_Model Blob_Spec Blob_Proofs Blob_Read Blob_Write Blob_Hist Blob_More.
Ltac Zify.zify_post_hook ::= idtac.

Definition holds (ps : nat) (fm : fmt) (st0 : store) (n : Z) (len : nat) (tabs dp : list Z) (s : store * obj) (f : list Z) : Prop :=
  stored ps fm (fst s) n len tabs dp /\ opened fm (snd s) n len tabs dp /\ content (fst s) dp len = f /\ length (fst s) = length st0 /\
  (forall m, ~ In m dp -> m <> n -> 0 <= m -> nth_error (fst s) (Z.to_nat m) = nth_error st0 (Z.to_nat m)).

Lemma holds_put cached ps fm st0 n len tabs dp : NoDup (pages_of n tabs dp) -> fm <> FFree -> forall s f off d, holds ps fm st0 n len tabs dp s f -> bytes_ok d -> d <> [] -> 0 <= off -> off + zlen d <= zlen f ->
  exists s', obj_put cached (Z.of_nat ps) s off d = Ok s' /\ holds ps fm st0 n len tabs dp s' (splice f (Z.to_nat off) d).
Proof.
  intros Hnd Hf [st o] f off d (Hs & Ho & Hc & Hl & Hoth) Hd Hne H0 Hr. cbn [fst snd] in *. pose proof (content_len _ _ _ _ _ _ _ Hs) as Lc. rewrite Hc in Lc. unfold zlen in Hr.
  assert (Ho' : opened fm (set_cached o None) n len tabs dp) by (destruct Ho as (A & B & C); split; [exact A|]; split; [reflexivity|exact C]).
  assert (Hd0 : (0 < length d)%nat) by (destruct d; [now elim Hne|cbn [length]; lia]).
  destruct (overwrite_ok (fun _ _ _ => UB) cached ps fm st n len tabs dp o (Z.to_nat off) d Hs Hnd Hf Ho' Hd Hd0 ltac:(lia)) as (st' & o' & E & Hs' & Hop' & Hfl & Hl' & Hoth' & _).
  rewrite Z2Nat.id in E by lia. exists (st', o'). split; [exact E|]. unfold holds. cbn [fst snd]. split; [exact Hs'|]. split; [exact Hop'|]. split.
  - unfold content. rewrite Hfl. rewrite <- Hc. unfold content. apply firstn_splice; [lia|].
    destruct Hs as (Hst & _ & H32 & _ & _ & Hdp & Hpg & _). rewrite (flat_len ps st Hst dp Hpg). pose proof (groups_spec len ps ltac:(lia)) as G. rewrite <- Hdp in G. lia.
  - split; [congruence|]. intros m A B C. rewrite Hoth' by assumption. now apply Hoth.
Qed.
Lemma holds_get ps fm st0 n len tabs dp : fm <> FFree -> forall s f, holds ps fm st0 n len tabs dp s f -> faithful (obj_get (Z.of_nat ps)) obj_size s f.
Proof. intros Hf [st o] f (Hs & Ho & Hc & _). cbn [fst snd] in *. subst f. now apply (obj_faithful ps fm st n len tabs dp o). Qed.

(** a history that fits into the file *)
Lemma pages_history cached ps fm st o n len tabs dp : stored ps fm st n len tabs dp -> NoDup (pages_of n tabs dp) -> fm <> FFree -> opened fm o n len tabs dp ->
  forall xs live own free f' live', blob_file (content st dp len) live own free -> Forall bop_ok xs -> bexecs mem_get mem_put (@zlen Z) (content st dp len, live) xs = Ok (f', live') -> zlen f' = Z.of_nat len ->
  exists st' o', bexecs (obj_get (Z.of_nat ps)) (obj_put cached (Z.of_nat ps)) obj_size ((st, o), live) xs = Ok ((st', o'), live') /\
    stored ps fm st' n len tabs dp /\ opened fm o' n len tabs dp /\ content st' dp len = f' /\
    (forall m, ~ In m dp -> m <> n -> 0 <= m -> nth_error st' (Z.to_nat m) = nth_error st (Z.to_nat m)).
Proof.
  intros Hs Hnd Hf Ho xs live own free f' live' HB Hok E Hl. pose proof (content_len _ _ _ _ _ _ _ Hs) as Lc.
  assert (HR : holds ps fm st n len tabs dp (st, o) (content st dp len)) by (unfold holds; cbn [fst snd]; repeat (split; [first [assumption|reflexivity]|]); reflexivity).
  destruct (sim_execs (obj_get (Z.of_nat ps)) (obj_put cached (Z.of_nat ps)) obj_size _ (holds_get ps fm st n len tabs dp Hf) (holds_put cached ps fm st n len tabs dp Hnd Hf) xs (st, o) _ live f' live' HR Hok E ltac:(unfold zlen in *; lia)) as ([st' o'] & A & R').
  exists st', o'. split; [exact A|]. destruct R' as (R1 & R2 & R3 & _ & R5). cbn [fst snd] in *. auto.
Qed.

(** the same in the shape of the properties *)
Lemma mod256 len : (len mod 256 = 0)%nat -> Z.of_nat len mod 256 = 0.
Proof. intros H. change 256 with (Z.of_nat 256). rewrite <- Nat2Z.inj_mod, H. reflexivity. Qed.
Lemma div256 len : Z.of_nat (len / 256) = Z.of_nat len / 256.
Proof. rewrite Nat2Z.inj_div. reflexivity. Qed.
Lemma content_ok ps fm st n len tabs dp : stored ps fm st n len tabs dp -> bytes_ok (content st dp len).
Proof.
  intros (_ & Hb & _). unfold content. apply Forall_firstn'. unfold flat. apply Forall_concat, Forall_map, Forall_forall. intros b _.
  destruct (le_lt_dec (length st) (Z.to_nat b)) as [H|H]; [rewrite nth_overflow by lia; constructor|]. rewrite Forall_forall in Hb. now apply Hb, nth_In.
Qed.
Lemma read_stored ps fm st o n len tabs dp : stored ps fm st n len tabs dp -> fm <> FFree -> opened fm o n len tabs dp -> forall fuel start lim, 0 <= start ->
  read_blob_object (obj_get (Z.of_nat ps)) obj_size fuel (st, o) start lim <> UB /\
  (forall d, read_blob_object (obj_get (Z.of_nat ps)) obj_size fuel (st, o) start lim = Ok d -> lim <> 2^32 - 1 -> zlen d = lim /\ exists bs, blob (content st dp len) start bs d) /\
  (forall d, read_blob_object (obj_get (Z.of_nat ps)) obj_size fuel (st, o) start lim = Ok d -> zlen d <= lim -> exists bs, blob (content st dp len) start bs d) /\
  (forall bs d, blob (content st dp len) start bs d -> Z.of_nat len < 2^32 -> (len mod 256 = 0)%nat -> (length bs <= fuel)%nat -> zlen d = lim \/ lim = 2^32 - 1 /\ 0 < start /\ zlen d <= lim ->
     read_blob_object (obj_get (Z.of_nat ps)) obj_size fuel (st, o) start lim = Ok d).
Proof.
  intros Hs Hf Ho fuel start lim H0. pose proof (obj_faithful ps fm st n len tabs dp o Hs Hf Ho) as F. pose proof (content_len _ _ _ _ _ _ _ Hs) as Lc.
  assert (Hb : bytes_ok (content st dp len)) by (eapply content_ok; exact Hs). split; [eapply object_safe; eassumption|]. split; [|split].
  - intros d E Hl. destruct (object_sound _ _ _ _ _ _ _ _ F Hb H0 E) as [A B]. specialize (A Hl). split; [exact A|]. apply B. lia.
  - intros d E Hl. exact (proj2 (object_sound _ _ _ _ _ _ _ _ F Hb H0 E) Hl).
  - intros bs d HB H32 H256 Hk Hl. eapply object_complete; try eassumption; unfold zlen; rewrite Lc; [exact H32|]. exact (mod256 len H256).
Qed.
Lemma table_stored ps fm st o n len tabs dp : stored ps fm st n len tabs dp -> fm <> FFree -> opened fm o n len tabs dp -> Z.of_nat len < 2^32 -> (len mod 256 = 0)%nat -> forall start bs d, 0 < start -> blob (content st dp len) start bs d ->
  forall fuel, (length bs <= fuel)%nat ->
  (forall lim, zlen d <= lim -> read_blob_table (obj_get (Z.of_nat ps)) obj_size fuel (st, o) start lim = Ok (d, negb (zlen d =? lim))) /\
  (forall lim, 0 <= lim -> lim < zlen d -> read_blob_buffer (obj_get (Z.of_nat ps)) obj_size fuel (st, o) start lim lim = UB).
Proof.
  intros Hs Hf Ho H32 H256 start bs d H0 HB fuel Hk. pose proof (obj_faithful ps fm st n len tabs dp o Hs Hf Ho) as F. pose proof (content_len _ _ _ _ _ _ _ Hs) as Lc.
  assert (Hb : bytes_ok (content st dp len)) by (eapply content_ok; exact Hs). assert (M : zlen (content st dp len) mod 256 = 0) by (unfold zlen; rewrite Lc; exact (mod256 len H256)).
  assert (L : zlen (content st dp len) < 2^32) by (unfold zlen; rewrite Lc; exact H32). split; intros lim; intros; [eapply table_short|eapply buffer_over]; eassumption.
Qed.
Lemma table_stored_sound ps fm st o n len tabs dp : stored ps fm st n len tabs dp -> fm <> FFree -> opened fm o n len tabs dp -> Z.of_nat len < 2^32 -> forall fuel start lim d, 0 <= start ->
  read_blob_table (obj_get (Z.of_nat ps)) obj_size fuel (st, o) start lim = Ok (d, false) -> zlen d = lim /\ exists bs, blob (content st dp len) start bs d.
Proof.
  intros Hs Hf Ho H32 fuel start lim d H0 E. pose proof (obj_faithful ps fm st n len tabs dp o Hs Hf Ho) as F. pose proof (content_len _ _ _ _ _ _ _ Hs) as Lc. assert (Hb : bytes_ok (content st dp len)) by (eapply content_ok; exact Hs).
  assert (L : zlen (content st dp len) < 2^32) by (unfold zlen; rewrite Lc; exact H32).
  destruct (table_sound _ _ _ _ _ _ _ _ _ F Hb L H0 E) as [A B]. pose proof (proj1 A eq_refl) as A1. split; [exact A1|]. apply B. lia.
Qed.
Lemma hang_stored ps fm st o n len tabs dp : stored ps fm st n len tabs dp -> fm <> FFree -> opened fm o n len tabs dp -> Z.of_nat len < 2^32 -> (len mod 256 = 0)%nat -> forall start lim, 0 < start -> 0 <= lim ->
  ((forall fuel, read_blob_object (obj_get (Z.of_nat ps)) obj_size fuel (st, o) start lim = Hang) <-> exists b k, reached (content st dp len) start b k /\ Z.of_nat k <= lim /\ zero_path (content st dp len) b b) /\
  ((forall b, ~ zero_path (content st dp len) b b) -> forall fuel, Z.of_nat (len / 256) * (lim + 1) < Z.of_nat fuel -> read_blob_object (obj_get (Z.of_nat ps)) obj_size fuel (st, o) start lim <> Hang).
Proof.
  intros Hs Hf Ho H32 H256 start lim H0 Hl. pose proof (obj_faithful ps fm st n len tabs dp o Hs Hf Ho) as F. pose proof (content_len _ _ _ _ _ _ _ Hs) as Lc. assert (Hb : bytes_ok (content st dp len)) by (eapply content_ok; exact Hs).
  assert (L : zlen (content st dp len) < 2^32) by (unfold zlen; rewrite Lc; exact H32). assert (M : zlen (content st dp len) mod 256 = 0) by (unfold zlen; rewrite Lc; exact (mod256 len H256)).
  destruct (object_hang _ _ _ _ start lim F Hb L M H0 Hl) as [A B]. split; [exact A|]. intros Hz fuel Hk E. destruct (B fuel E) as (b & k & _ & _ & Q); [|exact (Hz b Q)]. unfold zlen. rewrite Lc, <- div256. exact Hk.
Qed.
Lemma history_stored cached ps fm st o n len tabs dp live own free xs : stored ps fm st n len tabs dp -> NoDup (pages_of n tabs dp) -> fm <> FFree -> opened fm o n len tabs dp ->
  blob_file (content st dp len) live own free -> Z.of_nat len <= 2^31 -> Forall bop_ok xs -> bfits (length free) (map (@length Z) own) xs ->
  exists st' o' live' own' free', bexecs (obj_get (Z.of_nat ps)) (obj_put cached (Z.of_nat ps)) obj_size ((st, o), live) xs = Ok ((st', o'), live') /\
    map snd live' = bplains (map snd live) xs /\ stored ps fm st' n len tabs dp /\ opened fm o' n len tabs dp /\ blob_file (content st' dp len) live' own' free' /\
    (forall s d, In (s, d) live' -> read_blob_object (obj_get (Z.of_nat ps)) obj_size len (st', o') s (zlen d) = Ok d) /\
    (forall m, ~ In m dp -> m <> n -> 0 <= m -> nth_error st' (Z.to_nat m) = nth_error st (Z.to_nat m)).
Proof.
  intros Hs Hnd Hf Ho HB H31 Hok Hfit. pose proof (content_len _ _ _ _ _ _ _ Hs) as Lc. assert (Zc : zlen (content st dp len) = Z.of_nat len) by (unfold zlen; now rewrite Lc).
  destruct (history_fits xs _ live own free HB Hok ltac:(lia) Hfit) as (f' & live' & own' & free' & E & HB' & M & L).
  destruct (pages_history cached ps fm st o n len tabs dp Hs Hnd Hf Ho xs live own free f' live' HB Hok E ltac:(lia)) as (st' & o' & E' & Hs' & Ho' & Hc & Hoth).
  exists st', o', live', own', free'. split; [exact E'|]. split; [exact M|]. split; [exact Hs'|]. split; [exact Ho'|]. split; [now rewrite Hc|]. split; [|exact Hoth].
  intros s d Hin. pose proof (obj_faithful ps fm st' n len tabs dp o' Hs' Hf Ho') as F. rewrite Hc in F.
  destruct HB' as (Hb & (k & Hk & Hk') & _ & Hlive & Hnd'). apply in_split in Hin. destruct Hin as (l1 & l2 & ->). apply Forall2_app_inv_l in Hlive. destruct Hlive as (o1 & o2' & F1 & F2 & ->). inversion F2 as [|x bs l2' o2 HBl F3]; subst. cbn [fst snd] in HBl.
  apply (object_complete _ _ (st', o') (content st' dp len) len s (zlen d) bs d F Hb); [lia| |exact HBl| |now left].
  - unfold zlen. rewrite Hk'. rewrite Nat2Z.inj_mul. rewrite Z.mul_comm. apply Z.mod_mul. lia.
  - destruct HBl as (ds & Lk & _). assert (N3 : NoDup bs) by (rewrite concat_app in Hnd'; cbn [concat] in Hnd'; rewrite <- !app_assoc in Hnd'; apply NoDup_app_d in Hnd'; destruct Hnd' as (_ & Hnd' & _); now apply NoDup_app_d in Hnd').
    assert (Hi : incl (map Z.to_nat bs) (seq 0 k)) by (intros y Hy; apply in_map_iff in Hy; destruct Hy as (b & <- & Ib); pose proof (linked_in _ _ _ _ Lk b Ib); apply in_seq; unfold zlen in *; lia).
    assert (Hm : NoDup (map Z.to_nat bs)) by (apply to_nat_NoDup; [intros b Ib; pose proof (linked_in _ _ _ _ Lk b Ib); lia|exact N3]).
    pose proof (NoDup_incl_length Hm Hi) as Q. rewrite map_length, seq_length in Q. unfold zlen in *. lia.
Qed.

(** bytes kept in a one-level object with pages of 256 bytes *)
Definition chop (f : list Z) : list (list Z) := map (fun i => sub f (256 * i) 256) (seq 0 (length f / 256)).
Definition mk_blobs (f : list Z) : store := mk_store F838_flat 256 (length f) (chop f).
Lemma chop_concat : forall k (f : list Z), length f = (256 * k)%nat -> concat (map (fun i => sub f (256 * i) 256) (seq 0 k)) = f.
Proof.
  induction k as [|k IH]; intros f Hl; [destruct f; [reflexivity|cbn [length] in Hl; lia]|]. cbn [seq map concat]. change (256 * 0)%nat with 0%nat. rewrite <- seq_shift, map_map.
  transitivity (firstn 256 f ++ skipn 256 f); [|apply firstn_skipn]. rewrite sub_0_firstn. f_equal. rewrite <- (IH (skipn 256 f)) by (rewrite skipn_length; lia). f_equal. apply map_ext. intros i. unfold sub. rewrite skipn_plus. do 2 f_equal. lia.
Qed.
Lemma blobs_stored f k : bytes_ok f -> length f = (256 * k)%nat -> (k <= 58)%nat -> exists tabs dp o,
  stored 256 F838_flat (mk_blobs f) 2 (length f) tabs dp /\ NoDup (pages_of 2 tabs dp) /\ content (mk_blobs f) dp (length f) = f /\ obj_open 256 true (mk_blobs f) 2 = Ok o /\ opened F838_flat o 2 (length f) tabs dp.
Proof.
  intros Hb Hl Hk. assert (Ek : (length f / 256 = k)%nat) by (rewrite Hl, Nat.mul_comm; apply Nat.div_mul; lia). assert (Lp : length (chop f) = k) by (unfold chop; rewrite map_length, seq_length; exact Ek).
  assert (A1 : (32 <= 256)%nat) by lia. assert (A2 : (256 mod 4 = 0)%nat) by reflexivity. assert (A3 : Z.of_nat 256 < 2^17) by lia.
  assert (A4 : Forall (fun p => length p = 256%nat) (chop f)) by (unfold chop; apply Forall_map, Forall_forall; intros i Hi; apply in_seq in Hi; apply sub_length; lia).
  assert (A5 : Forall bytes_ok (chop f)) by (unfold chop; apply Forall_map, Forall_forall; intros i _; now apply bytes_ok_sub).
  assert (A6 : length (chop f) = groups (length f) 256) by (rewrite Lp; unfold groups; apply (Nat.div_unique _ 256 k 255); lia).
  assert (A7 : fits F838_flat 256 (length f) (length (chop f))) by (cbn [fits]; rewrite Lp; change (256 / 4 - 6)%nat with 58%nat; exact Hk).
  assert (A8 : Z.of_nat (3 + ntabs F838_flat 256 (length (chop f)) + length (chop f)) < 2^32) by (rewrite Lp; cbn [ntabs]; lia).
  pose proof (mk_stored F838_flat 256 (length f) (chop f) A1 A2 A3 A4 A5 A6 A7 A8) as HS. cbn [mk_hn] in HS. fold (mk_blobs f) in HS.
  destruct (open_ok _ _ _ _ _ _ _ HS) as (o & Eo & Ho). exists (mk_tabs F838_flat 256 (length (chop f))), (mk_dp F838_flat 256 (length (chop f))), o. split; [exact HS|]. split; [apply (mk_nodup F838_flat 256 (length f) (chop f)); assumption|].
  split; [|split; [exact Eo|exact Ho]]. unfold mk_blobs. rewrite (mk_content F838_flat 256 (length f) (chop f)); try assumption. unfold chop. rewrite chop_concat by lia. apply firstn_all.
Qed.

(** ** With growth: a file without free chunks *)
Lemma write_grow get put size s d : d <> [] -> (forall s', first_block get size s = Ok s' -> 0 <= s' /\ u32 (s' * 256) = size s) ->
  (forall x r, zlen x = 4 -> put s (size s) x <> Ok r) -> forall r : store * obj * obj * Z, write_blob get put size s d <> Ok r.
Proof.
  intros Hd Hfirst Hput r E. unfold write_blob in E. destruct d as [|z d]; [now elim Hd|]. set (d1 := z :: d) in *. destruct (first_block get size s) as [first| | |] eqn:E1; try discriminate. cbn [rbind] in E.
  destruct (Hfirst first eq_refl) as [_ Eo]. change (length d1) with (S (length d)) in E. rewrite put_chunks_S in E by discriminate. cbv zeta in E. unfold put_chunk in E. cbn [Z.eqb rbind] in E. rewrite Eo in E.
  rewrite Z.ltb_irrefl in E. cbn [rbind] in E. destruct (put s (size s) (le_bytes 4 0)) as [s2| | |] eqn:E2; try discriminate. exact (Hput (le_bytes 4 0) s2 eq_refl E2).
Qed.
Lemma full_file cached ps fm st fl o n len tabs dp live own d r : stored ps fm st n len tabs dp -> good ps st -> fm = F80 \/ fm = F838_flat -> opened fm o n len tabs dp ->
  blob_file (content st dp len) live own [] -> Z.of_nat len + 4 < 2^32 -> d <> [] -> write_blob (grow_get (Z.of_nat ps)) (grow_put cached (Z.of_nat ps)) grow_size (st, fl, o) d <> Ok r.
Proof.
  intros Hs Hg Hf Ho HB H32 Hd. assert (Hnf : fm <> FFree) by (destruct Hf as [->| ->]; discriminate). pose proof (obj_faithful ps fm st n len tabs dp o Hs Hnf Ho) as [F1 F2]. pose proof (content_len _ _ _ _ _ _ _ Hs) as Lc.
  assert (Zc : zlen (content st dp len) = Z.of_nat len) by (unfold zlen; now rewrite Lc). rewrite Zc in *.
  destruct (file_n _ _ _ _ HB) as (k & Hk & Hk1). rewrite Zc in Hk. destruct HB as (_ & _ & (h & Hh & Eh & Hfr) & _). cbn [free_chain] in Hfr. subst h.
  assert (Es : grow_size (st, fl, o) = Z.of_nat len) by exact F1.
  assert (Ho' : opened fm (set_cached o None) n len tabs dp) by (destruct Ho as (A & B & C); split; [exact A|]; split; [reflexivity|exact C]).
  apply write_grow; [exact Hd| |].
  - intros s' E. unfold first_block, grow_get in E. cbn [fst snd] in E. change (get_range (Z.of_nat ps) st o 0 4 []) with (obj_get (Z.of_nat ps) (st, o) 0 4) in E. rewrite F2 in E by lia. change (Z.to_nat 0) with 0%nat in E. change (Z.to_nat 4) with 4%nat in E. rewrite Eh in E. cbn [rbind] in E. rewrite u32_le4 in E by lia. cbn [rbind Z.eqb] in E.
    rewrite Es in *. injection E as <-. rewrite Hk, Z.mul_comm, Z.div_mul by lia. unfold u32. rewrite (Z.mod_small k) by lia. split; [lia|]. rewrite Z.mod_small by lia. lia.
  - intros x r' Hx E. unfold grow_put in E. rewrite Es in E.
    assert (El : o_len o = Z.of_nat len) by (destruct Ho as (A & B & C); destruct Hf as [->| ->]; apply C).
    rewrite El in E. replace (Z.of_nat len <? u64 (Z.of_nat len + zlen x)) with true in E by (symmetry; apply Z.ltb_lt; unfold u64; rewrite Z.mod_small; lia).
    destruct (set_len 0 cached (Z.of_nat ps) st fl (set_cached o None) (u64 (Z.of_nat len + zlen x))) as [r1| | |] eqn:E1; try discriminate.
    replace (u64 (Z.of_nat len + zlen x)) with (Z.of_nat (len + 4)) in E1 by (unfold u64; rewrite Z.mod_small by lia; lia).
    destruct (set_len_bad cached ps fm st fl (set_cached o None) n len tabs dp (len + 4) r1 Hs Hg Hnf Ho' ltac:(lia) ltac:(lia) E1) as (B1 & B2 & B3 & B4 & B5).
    destruct Hf as [->| ->]; [now elim B1|]. specialize (B5 eq_refl). pose proof Hs as (_ & _ & Hps & _). pose proof (groups_spec len ps ltac:(lia)) as G1. pose proof (groups_spec (len + 4) ps ltac:(lia)) as G2. nia.
Qed.
