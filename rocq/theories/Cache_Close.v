(** Without a flush and without new pages the file stays as it was. *)
From Verif Require Import Prelude Cache_Model Cache_Spec Cache_Proofs.
Ltac Zify.zify_post_hook ::= idtac.

(** operations that neither flush nor add a page to a file of [k] pages *)
Definition still_op (k : nat) (o : op) : Prop := match o with OFlush => False | OWrite n _ _ _ => (n < k)%nat | _ => True end.
Definition at_rest (c : base) (k : nat) (bs : list Z) : Prop :=
  c_len c = Z.of_nat k /\ u32 (Z.of_nat (f_size (m_file (c_mgr c)) / m_ps (c_mgr c))) = Z.of_nat k /\ f_bytes (m_file (c_mgr c)) = bs.

Lemma get_rest m n fw read t junk m' d : (fw = true -> Z.of_nat n < u32 (Z.of_nat (f_size (m_file m) / m_ps m))) -> mgr_get m n fw read t junk = Ok (m', d) ->
  m_ps m' = m_ps m /\ f_size (m_file m') = f_size (m_file m) /\ f_bytes (m_file m') = f_bytes (m_file m).
Proof.
  intros H. unfold mgr_get. assert (K : forall f b, (match nth_error (m_blocks m) n with None => UB | Some (Some b) => Ok (m_file m, b) | Some None => mb_create (m_file m) (m_ps m) n fw read junk end) = Ok (f, b) ->
    f_size f = f_size (m_file m) /\ f_bytes f = f_bytes (m_file m)).
  { intros f b. destruct (nth_error (m_blocks m) n) as [[x|]|]; [intros [= <- <-]; auto| |discriminate]. unfold mb_create. destruct fw.
    - destruct (Z.leb_spec (u32 (Z.of_nat (f_size (m_file m) / m_ps m))) (Z.of_nat n)); [specialize (H eq_refl); lia|]. destruct read; [|intros [= <- <-]; auto].
      destruct (f_seek (m_file m) (n * m_ps m)); cbn [rbind]; try discriminate. unfold f_read. intros [= <- <-]. auto.
    - destruct (f_seek (m_file m) (n * m_ps m)); cbn [rbind]; try discriminate. unfold f_read. intros [= <- <-]. auto. }
  destruct (match nth_error (m_blocks m) n with None => UB | Some (Some b) => Ok (m_file m, b) | Some None => mb_create (m_file m) (m_ps m) n fw read junk end) as [(f & b)| | |]; cbn [rbind]; try discriminate.
  destruct (K f b eq_refl) as (A & B). intros [= <- <-]. cbn [m_ps m_file]. auto.
Qed.
Lemma op_rest c e k bs c' o : at_rest c k bs -> still_op k (evop e) -> run_op c e = Ok (c', o) -> at_rest c' k bs.
Proof.
  intros (A & B & C). destruct e as ((p & t) & junk). cbn [evop fst snd]. unfold run_op. destruct p as [n|n rd off d| |a]; cbn [still_op].
  - intros _. unfold base_read. destruct (_ <=? _); [discriminate|]. unfold mgr_get_block. destruct (_ <=? _)%nat; [discriminate|].
    destruct (mgr_get (c_mgr c) n false true t junk) as [(m & d)| | |] eqn:E; cbn [rbind fst snd]; try discriminate. intros [= <- <-]. apply get_rest in E; [|discriminate]. destruct E as (E1 & E2 & E3).
    unfold at_rest. cbn [c_len c_mgr]. rewrite E1, E2, E3. auto.
  - intros Hn. unfold base_write. destruct (_ <? _); [discriminate|]. destruct (Z.eqb_spec (Z.of_nat n) (c_len c)) as [Q|_]; [lia|]. cbn [rbind]. unfold mgr_get_block_for_write.
    destruct (_ <? _)%nat; [discriminate|]. set (m1 := if (n =? length (m_blocks (c_mgr c)))%nat then _ else _).
    assert (M1 : m_ps m1 = m_ps (c_mgr c) /\ m_file m1 = m_file (c_mgr c)) by (unfold m1; destruct (n =? _)%nat; auto). destruct M1 as (M1 & M2).
    destruct (mgr_get m1 n true rd t junk) as [(m & q)| | |] eqn:E; cbn [rbind fst snd]; try discriminate. apply get_rest in E; [|intros _; rewrite M1, M2; lia]. destruct E as (E1 & E2 & E3).
    unfold poke. destruct (nth_error (m_blocks m) n) as [[b|]|]; try discriminate. destruct (_ <? _)%nat; [discriminate|]. cbn [rbind]. intros [= <- <-].
    unfold at_rest. cbn [c_len c_mgr m_ps m_file]. rewrite E1, E2, E3, M1, M2. auto.
  - contradiction.
  - intros _ [= <- <-]. unfold at_rest, base_garbage, mgr_garbage. cbn [c_len c_mgr m_ps m_file]. auto.
Qed.
Lemma run_rest k bs : forall es c c' outs, at_rest c k bs -> Forall (still_op k) (map evop es) -> run c es = Ok (c', outs) -> at_rest c' k bs.
Proof.
  induction es as [|e es IH]; intros c c' outs R F; cbn [run map]; [now intros [= <- <-]|]. inversion F as [|? ? F1 F2]; subst.
  destruct (run_op c e) as [(c1 & o)| | |] eqn:E; cbn [rbind]; try discriminate. destruct (run c1 es) as [(c2 & os)| | |] eqn:E2; cbn [rbind]; try discriminate. intros [= <- _].
  eapply IH; [|exact F2|exact E2]. eapply op_rest; eassumption.
Qed.
Lemma still_grow k : forall os, Forall (still_op k) os -> grow_all k os = k.
Proof. induction 1 as [|o os H F IH]; [reflexivity|]. cbn [grow_all]. destruct o as [n|n rd off d| |a]; cbn [grow]; try exact IH. destruct (Nat.eqb_spec n k); [cbn [still_op] in H; lia|exact IH]. Qed.
Theorem closed_unchanged ps k bs es : good_file ps k bs -> ops_fit ps k (map evop es) -> Forall (still_op k) (map evop es) ->
  exists c c' outs pages, base_open ps bs = Ok c /\ run c es = Ok (c', outs) /\ plain_run ps (pages_of ps bs) (map evop es) outs pages /\ base_close c' = bs.
Proof.
  intros G F S0. assert (Hm : Z.of_nat (grow_all k (map evop es)) < 2 ^ 32) by (rewrite still_grow by exact S0; apply G).
  destruct (history ps k bs es G F Hm) as (c & c' & outs & pages & E1 & E2 & Hp & _). exists c, c', outs, pages. split; [exact E1|]. split; [exact E2|]. split; [exact Hp|].
  enough (R : at_rest c k bs) by (destruct (run_rest k bs es c c' outs R S0 E2) as (_ & _ & Q); exact Q).
  destruct G as (P16 & K1 & K32 & L & _). unfold base_open in E1. destruct (negb _); [discriminate|]. destruct (negb _); [discriminate|]. injection E1 as <-.
  assert (Q : u32 (Z.of_nat (length bs / ps)) = Z.of_nat k) by (rewrite L, Nat.div_mul by lia; unfold u32; now rewrite Z.mod_small by lia).
  unfold at_rest. cbn [c_len c_mgr m_ps m_file f_size f_bytes]. auto.
Qed.

(** ** A page taken for writing without loading *)
Lemma nth_set bs n (b : option mblock) : (n < length bs)%nat -> nth_error (set_block bs n b) n = Some b.
Proof. intros H. rewrite nth_set_block by exact H. now rewrite Nat.eqb_refl. Qed.
Lemma write_in c n off d t junk b : (n < length (m_blocks (c_mgr c)))%nat -> Z.of_nat n < c_len c ->
  (nth_error (m_blocks (c_mgr c)) n = Some (Some b) \/
   nth_error (m_blocks (c_mgr c)) n = Some None /\ Z.of_nat n < u32 (Z.of_nat (f_size (m_file (c_mgr c)) / m_ps (c_mgr c))) /\ mb_data b = repeat 0 (m_ps (c_mgr c))) ->
  (off + length d <= length (mb_data b))%nat ->
  exists c' b', base_write c n false off d t junk = Ok c' /\ c_len c' = c_len c /\ nth_error (m_blocks (c_mgr c')) n = Some (Some b') /\ mb_data b' = splice (mb_data b) off d.
Proof.
  intros L N B D. unfold base_write. destruct (Z.ltb_spec (c_len c) (Z.of_nat n)); [lia|]. destruct (Z.eqb_spec (Z.of_nat n) (c_len c)); [lia|]. cbn [rbind]. unfold mgr_get_block_for_write.
  destruct (Nat.ltb_spec (length (m_blocks (c_mgr c))) n); [lia|]. destruct (Nat.eqb_spec n (length (m_blocks (c_mgr c)))); [lia|]. unfold mgr_get.
  assert (K : exists b1, (match nth_error (m_blocks (c_mgr c)) n with None => UB | Some (Some b) => Ok (m_file (c_mgr c), b) | Some None => mb_create (m_file (c_mgr c)) (m_ps (c_mgr c)) n true false junk end) = Ok (m_file (c_mgr c), b1) /\ mb_data b1 = mb_data b).
  { destruct B as [-> |(-> & Q & E)]; [eauto|]. unfold mb_create. destruct (Z.leb_spec (u32 (Z.of_nat (f_size (m_file (c_mgr c)) / m_ps (c_mgr c)))) (Z.of_nat n)); [lia|]. eexists. split; [reflexivity|]. now symmetry. }
  destruct K as (b1 & -> & Eb). cbn [rbind fst snd]. unfold poke. cbn [m_blocks]. rewrite nth_set by exact L. cbn [mb_data mb_touch]. rewrite Eb. destruct (Nat.ltb_spec (length (mb_data b)) (off + length d)); [lia|]. cbn [rbind].
  do 2 eexists. split; [reflexivity|]. cbn [c_len c_mgr m_blocks]. split; [reflexivity|]. split; [apply nth_set; rewrite set_block_length by exact L; exact L|reflexivity].
Qed.
Lemma read_in c n t junk b : Z.of_nat n < c_len c -> nth_error (m_blocks (c_mgr c)) n = Some (Some b) ->
  exists c' b', base_read c n t junk = Ok (c', mb_data b) /\ c_len c' = c_len c /\ length (m_blocks (c_mgr c')) = length (m_blocks (c_mgr c)) /\ nth_error (m_blocks (c_mgr c')) n = Some (Some b') /\ mb_data b' = mb_data b.
Proof.
  intros N B. assert (L : (n < length (m_blocks (c_mgr c)))%nat) by (apply nth_error_Some; congruence). unfold base_read. destruct (Z.leb_spec (c_len c) (Z.of_nat n)); [lia|]. unfold mgr_get_block.
  destruct (Nat.leb_spec (length (m_blocks (c_mgr c))) n); [lia|]. unfold mgr_get. rewrite B. cbn [rbind]. do 2 eexists. split; [reflexivity|]. cbn [c_len c_mgr m_blocks mb_data mb_touch]. split; [reflexivity|].
  split; [now apply set_block_length|]. split; [now apply nth_set|reflexivity].
Qed.
Theorem clear_depends ps k bs n off d t1 t2 t3 j1 j2 j3 : good_file ps k bs -> (n < k)%nat -> (off + length d <= ps)%nat -> exists c, base_open ps bs = Ok c /\
  (exists c', run c [(OWrite n false off d, t1, j1); (ORead n, t2, j2)] = Ok (c', [splice (repeat 0 ps) off d])) /\
  (exists c', run c [(ORead n, t1, j1); (OWrite n false off d, t2, j2); (ORead n, t3, j3)] = Ok (c', [sub bs (n * ps) ps; splice (sub bs (n * ps) ps) off d])).
Proof.
  intros G Hn Hd. destruct G as (P16 & K1 & K32 & L & Hc). assert (Q : u32 (Z.of_nat (length bs / ps)) = Z.of_nat k) by (rewrite L, Nat.div_mul by lia; unfold u32; now rewrite Z.mod_small by lia).
  unfold base_open. cbv zeta. rewrite Q, Hc, le_val_bytes, L. rewrite (proj2 (Z.eqb_eq (Z.of_nat k * Z.of_nat ps) (Z.of_nat (k * ps)))) by lia. rewrite (proj2 (Z.eqb_eq (Z.of_nat k) _)) by (cbn; rewrite Z.mod_small; lia). cbn [negb]. rewrite Nat2Z.id.
  eexists. split; [reflexivity|]. set (c := mkbase _ _).
  assert (B0 : nth_error (m_blocks (c_mgr c)) n = Some None) by (unfold c; cbn [c_mgr m_blocks]; now apply nth_error_repeat).
  assert (Lb : length (m_blocks (c_mgr c)) = k) by (unfold c; cbn [c_mgr m_blocks]; apply repeat_length).
  assert (Lc : c_len c = Z.of_nat k) by reflexivity. rewrite L in Q. split.
  - destruct (write_in c n off d t1 j1 (mkb (repeat 0 ps) 0 false)) as (c1 & b1 & E1 & L1 & B1 & D1); [lia|lia|right; split; [exact B0|]; split; [unfold c; cbn [c_mgr m_file f_size m_ps]; rewrite Q; lia|reflexivity]|cbn [mb_data]; rewrite repeat_length; exact Hd|].
    destruct (read_in c1 n t2 j2 b1) as (c2 & b2 & E2 & _); [lia|exact B1|]. exists c2. cbn [run run_op]. rewrite E1. cbn [rbind]. rewrite E2. cbn [rbind fst snd]. rewrite D1. reflexivity.
  - assert (R : exists c1 b1, base_read c n t1 j1 = Ok (c1, sub bs (n * ps) ps) /\ c_len c1 = Z.of_nat k /\ length (m_blocks (c_mgr c1)) = k /\ nth_error (m_blocks (c_mgr c1)) n = Some (Some b1) /\ mb_data b1 = sub bs (n * ps) ps).
    { assert (Ls : length (sub bs (n * ps) ps) = ps) by (unfold sub; rewrite firstn_length, skipn_length; nia).
      unfold base_read. destruct (Z.leb_spec (c_len c) (Z.of_nat n)); [lia|]. unfold mgr_get_block. destruct (Nat.leb_spec (length (m_blocks (c_mgr c))) n); [lia|]. unfold mgr_get. rewrite B0. unfold mb_create, f_seek. cbn [c c_mgr m_file m_ps f_size].
      destruct (Nat.ltb_spec (k * ps) (n * ps)); [nia|]. cbn [rbind]. unfold f_read. cbn [f_bytes]. rewrite Ls, Nat.sub_diag. cbn [rbind mb_touch mb_data]. change (sub j1 ps 0) with (@nil Z). rewrite app_nil_r.
      do 2 eexists. split; [reflexivity|]. cbn [c_len c_mgr m_blocks]. split; [reflexivity|]. split; [rewrite set_block_length; rewrite repeat_length; [reflexivity|exact Hn]|]. split; [apply nth_set; now rewrite repeat_length|reflexivity]. }
    destruct R as (c1 & b1 & E1 & L1 & LL & B1 & D1). destruct (write_in c1 n off d t2 j2 b1) as (c2 & b2 & E2 & L2 & B2 & D2); [lia|lia|now left|rewrite D1; unfold sub; rewrite firstn_length, skipn_length; nia|].
    destruct (read_in c2 n t3 j3 b2) as (c3 & b3 & E3 & _); [lia|exact B2|]. exists c3. cbn [run run_op]. rewrite E1. cbn [rbind fst snd]. rewrite E2. cbn [rbind]. rewrite E3. cbn [rbind fst snd]. rewrite D2, D1. reflexivity.
Qed.
