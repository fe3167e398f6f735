(** The object lemmas in the shape of the properties, and worked examples. *)
From Verif Require Import Prelude Lists Obj_Model Obj_Spec Obj_Proofs Obj_Write Obj_More Obj_Hist Obj_Make.
Ltac Zify.zify_post_hook ::= idtac.

Lemma read_facts ps f st n len tabs dp : stored ps f st n len tabs dp ->
  exists o, obj_open (Z.of_nat ps) (is838 f) st n = Ok o /\ obj_len o = Z.of_nat len /\
    (forall start m buf, (0 < m)%nat -> (start + m <= len)%nat ->
       get_range (Z.of_nat ps) st o (Z.of_nat start) (Z.of_nat m) buf = Ok (sub (content st dp len) start m)) /\
    (forall start m buf, 0 <= start -> 0 <= m -> start + m < 2^64 -> Z.of_nat len < start + m ->
       get_range (Z.of_nat ps) st o start m buf = Throw) /\
    (forall buf, save_file (Z.of_nat ps) st o buf = Ok (content st dp len)).
Proof.
  intros Hs. destruct (open_ok _ _ _ _ _ _ _ Hs) as (o & E & Ho). exists o. split; [exact E|]. split; [apply (opened_len _ _ _ _ _ _ _ _ Hs Ho)|].
  split; [|split].
  - intros start m buf H0 H1. now apply (range_ok ps f st n len tabs dp).
  - intros start m buf H0 H1 H2 H3. now apply (range_out ps f st n len tabs dp).
  - intros buf. now apply (save_ok ps f st n len tabs dp).
Qed.
Lemma offset_facts ps f st n len tabs dp : stored ps f st n len tabs dp ->
  exists o, obj_open (Z.of_nat ps) (is838 f) st n = Ok o /\
    forall off, (off < len)%nat -> Z.of_nat off < 2^32 ->
      exists fo, fileoffset (Z.of_nat ps) st o (Z.of_nat off) = Ok (Z.of_nat fo) /\
        nth_error (concat st) fo = nth_error (content st dp len) off /\ (fo < length (concat st))%nat.
Proof.
  intros Hs. destruct (open_ok _ _ _ _ _ _ _ Hs) as (o & E & Ho). exists o. split; [exact E|]. intros off Hl H32.
  destruct (place_byte ps f st n len tabs dp off Hs Hl) as [P0 P1]. exists (Z.to_nat (place ps dp off)). split.
  - rewrite Z2Nat.id by exact P0. apply (place_ok ps f st n len tabs dp); try assumption. unfold u32. apply Z.mod_small. lia.
  - split; [exact P1|]. apply nth_error_Some. rewrite P1. apply nth_error_Some. rewrite (content_len _ _ _ _ _ _ _ Hs). exact Hl.
Qed.
Lemma offset_wrong_facts ps f st n len tabs dp off : stored ps f st n len tabs dp -> NoDup dp -> 2^32 <= Z.of_nat off -> (off < len)%nat ->
  exists o x, obj_open (Z.of_nat ps) (is838 f) st n = Ok o /\ fileoffset (Z.of_nat ps) st o (Z.of_nat off) = Ok x /\ x <> place ps dp off.
Proof.
  intros Hs Hnd H1 H2. destruct (open_ok _ _ _ _ _ _ _ Hs) as (o & E & Ho). destruct (offset_wrong _ _ _ _ _ _ _ o off Hs Ho Hnd H1 H2) as (x & A & B).
  exists o, x. auto.
Qed.
Lemma place_facts ps f st n len tabs dp off : stored ps f st n len tabs dp -> (off < len)%nat ->
  0 <= place ps dp off /\ nth_error (concat st) (Z.to_nat (place ps dp off)) = nth_error (content st dp len) off.
Proof. apply place_byte. Qed.

Lemma whole_facts ps f st n len tabs dp junk : stored ps f st n len tabs dp -> (0 < len)%nat -> ~ lone_page f ps len ->
  exists o o', obj_open (Z.of_nat ps) (is838 f) st n = Ok o /\ get_all (Z.of_nat ps) st o junk = Ok (o', Some (content st dp len)).
Proof.
  intros Hs H0 Hn. destruct (open_ok _ _ _ _ _ _ _ Hs) as (o & E & Ho). destruct (all_ok _ _ _ _ _ _ _ o junk Hs Ho H0) as (d & A & B & _). rewrite (B Hn) in A. eauto.
Qed.
Lemma whole_lost ps f st n len tabs dp : stored ps f st n len tabs dp -> lone_page f ps len ->
  exists o q, obj_open (Z.of_nat ps) (is838 f) st n = Ok o /\ (q < len)%nat /\
    forall junk, exists o' d, get_all (Z.of_nat ps) st o junk = Ok (o', Some d) /\ firstn q d = firstn q (content st dp len) /\ skipn q d = sub junk q (len - q).
Proof.
  intros Hs Hlo. destruct (open_ok _ _ _ _ _ _ _ Hs) as (o & E & Ho).
  assert (Hk : exists k q, (f = F80 /\ k = per80 \/ f = F838_deep /\ k = ps / 4)%nat /\ (1 <= q /\ q * k * ps < len <= q * k * ps + ps)%nat).
  { destruct f; cbn in Hlo; try contradiction; destruct Hlo as (q & Hq); [exists per80, q|exists (ps / 4)%nat, q]; auto. }
  destruct Hk as (k & q & Hk & Hq). exists o, (q * k * ps)%nat. split; [exact E|]. split; [lia|]. intros junk.
  destruct (all_ok _ _ _ _ _ _ _ o junk Hs Ho ltac:(lia)) as (d & A & _ & B). specialize (B k Hk q Hq). exists (set_cached o (Some d)), d.
  split; [exact A|]. subst d. assert (Hl : length (firstn (q * k * ps) (content st dp len)) = (q * k * ps)%nat).
  { rewrite firstn_length, (content_len _ _ _ _ _ _ _ Hs). lia. }
  set (w := (q * k * ps)%nat) in *. split.
  - rewrite firstn_app, Hl, Nat.sub_diag, firstn_O, app_nil_r. rewrite firstn_firstn. f_equal. lia.
  - rewrite skipn_app, Hl, Nat.sub_diag, skipn_O. rewrite skipn_all2 by lia. reflexivity.
Qed.

Lemma inside_facts ps f st n len tabs dp start buf : stored ps f st n len tabs dp -> (start < len)%nat ->
  exists o, obj_open (Z.of_nat ps) (is838 f) st n = Ok o /\ get_range (Z.of_nat ps) st o (Z.of_nat start) 0 buf = Ok [].
Proof. intros Hs Hl. destruct (open_ok _ _ _ _ _ _ _ Hs) as (o & E & Ho). exists o. split; [exact E|]. now apply (range_zero ps f st n len tabs dp). Qed.
Lemma end_facts ps f st n len tabs dp buf k : stored ps f st n len tabs dp -> f = F80 \/ f = F838_deep -> (len = k * (per_of f ps * ps))%nat ->
  exists o, obj_open (Z.of_nat ps) (is838 f) st n = Ok o /\ get_range (Z.of_nat ps) st o (Z.of_nat len) 0 buf = UB.
Proof. intros Hs Hf Hk. destruct (open_ok _ _ _ _ _ _ _ Hs) as (o & E & Ho). exists o. split; [exact E|]. now apply (range_end ps f st n len tabs dp o buf k). Qed.
Lemma memory_facts ps f st n len tabs dp junk start m buf : stored ps f st n len tabs dp -> (0 < len)%nat -> 0 <= start -> 0 <= m -> Z.of_nat len < start + m ->
  ~ lone_page f ps len ->
  exists o o' d, obj_open (Z.of_nat ps) (is838 f) st n = Ok o /\ get_all (Z.of_nat ps) st o junk = Ok (o', d) /\ get_range (Z.of_nat ps) st o' start m buf = UB.
Proof.
  intros Hs H0 H1 H2 H3 Hlo. destruct (open_ok _ _ _ _ _ _ _ Hs) as (o & E & Ho). destruct (all_ok _ _ _ _ _ _ _ o junk Hs Ho H0) as (d & A & B & _). rewrite (B Hlo) in A.
  exists o, (set_cached o (Some (content st dp len))), (Some (content st dp len)). split; [exact E|]. split; [exact A|]. unfold get_range. cbn [set_cached o_data].
  unfold rdn, zlen. rewrite (content_len _ _ _ _ _ _ _ Hs). destruct (Z.ltb_spec (Z.of_nat len) (start + m)); [|lia]. now rewrite !orb_true_r.
Qed.

(** ** examples: page size 64, so 16 page numbers to a table page *)
Definition ex_pages (k : nat) : list (list Z) := map (fun i => repeat (Z.of_nat i) 64) (seq 1 k).
Lemma ex_stored f len k : (k <= 200)%nat -> k = groups len 64 -> f = F838_flat /\ (k <= 10)%nat \/ f = F838_deep /\ (len <= 4000)%nat ->
  stored 64 f (mk_store f 64 len (ex_pages k)) 2 len (mk_tabs f 64 k) (mk_dp f 64 k) /\ NoDup (pages_of 2 (mk_tabs f 64 k) (mk_dp f 64 k)).
Proof.
  intros Hk Hg Hf. assert (Hl : length (ex_pages k) = k) by (unfold ex_pages; now rewrite map_length, seq_length).
  assert (Hn : (ntabs F838_deep 64 k <= 13)%nat). { cbn [ntabs per_of]. change (64 / 4)%nat with 16%nat. pose proof (groups_spec k 16 ltac:(lia)). lia. }
  assert (Hn2 : f = F838_deep -> (ntabs F838_deep 64 k <= 10)%nat).
  { intros ->. destruct Hf as [[? _]|[_ Hf]]; [discriminate|]. cbn [ntabs per_of]. change (64 / 4)%nat with 16%nat. pose proof (groups_spec k 16 ltac:(lia)). pose proof (groups_spec len 64 ltac:(lia)). lia. }
  assert (Hnt : (ntabs f 64 (length (ex_pages k)) <= 13)%nat). { rewrite Hl. destruct Hf as [[-> _]|[-> _]]; cbn [ntabs] in *; lia. }
  assert (Hfi : fits f 64 len (length (ex_pages k))). { rewrite Hl. change (64 / 4 - 6)%nat with 10%nat. destruct Hf as [[-> ?]|[-> ?]]; cbn [fits]; change (64 / 4 - 6)%nat with 10%nat; [lia|]. split; [now apply Hn2|lia]. }
  assert (Htot : Z.of_nat (3 + ntabs f 64 (length (ex_pages k)) + length (ex_pages k)) < 2^32) by lia.
  assert (Hh : mk_hn f = 2) by (destruct Hf as [[-> _]|[-> _]]; reflexivity).
  rewrite <- Hh. rewrite Hl in Hfi, Htot, Hnt. split.
  - pose proof (mk_stored f 64 len (ex_pages k)) as HS. cbv zeta in HS. rewrite Hl in HS. apply HS; try assumption; try (rewrite Hl; assumption); try lia; try reflexivity.
    + apply Forall_map, Forall_forall. intros x _. apply repeat_length.
    + apply Forall_map, Forall_forall. intros x Hx. apply in_seq in Hx. apply Forall_forall. intros y Hy. apply repeat_spec in Hy. subst y. split; lia.
  - pose proof (mk_nodup f 64 len (ex_pages k)) as HS. cbv zeta in HS. rewrite Hl in HS. apply HS; try assumption; try lia; reflexivity.
Qed.
