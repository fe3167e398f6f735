(** Proofs about a database opened for viewing. *)
From Verif Require Import Prelude Port_Model Descr_Model Cache_Model Cache_Spec Cache_Proofs View_Model View_Spec.
Ltac Zify.zify_post_hook ::= idtac.

Lemma skip_skip {A} (l : list A) : forall m n, skipn m (skipn n l) = skipn (m + n) l.
Proof. intros m n. revert l. induction n as [|n IH]; intros l; [now rewrite Nat.add_0_r|]. rewrite Nat.add_succ_r. destruct l; [now rewrite !skipn_nil|apply IH]. Qed.
Definition disk (c : base) : list Z := f_bytes (m_file (c_mgr c)).
Definition size (c : base) : nat := length (view c).

Lemma mgr_get_file m n fw rd t junk m' d : mgr_get m n fw rd t junk = Ok (m', d) ->
  (fw = true -> Z.of_nat n < u32 (Z.of_nat (f_size (m_file m) / m_ps m))) ->
  f_bytes (m_file m') = f_bytes (m_file m) /\ f_size (m_file m') = f_size (m_file m) /\ m_ps m' = m_ps m.
Proof.
  unfold mgr_get. intros H Hn. destruct (nth_error (m_blocks m) n) as [[b|]|]; [| |discriminate].
  - cbn [rbind] in H. injection H as <- _. auto.
  - unfold mb_create in H. destruct fw.
    + specialize (Hn eq_refl). destruct (Z.leb_spec (u32 (Z.of_nat (f_size (m_file m) / m_ps m))) (Z.of_nat n)); [lia|].
      destruct rd.
      * destruct (f_seek _ _); try discriminate. cbn in H. injection H as <- _. auto.
      * cbn in H. injection H as <- _. auto.
    + destruct (f_seek _ _); try discriminate. cbn in H. injection H as <- _. auto.
Qed.
Lemma poke_file m n off d m' : poke m n off d = Ok m' -> m_file m' = m_file m /\ m_ps m' = m_ps m.
Proof.
  unfold poke. destruct (nth_error (m_blocks m) n) as [[b|]|]; try discriminate. destruct (_ <? _)%nat; [discriminate|].
  intros H. injection H as <-. auto.
Qed.
Lemma write_disk c n rd off d t junk c' : inv c -> Z.of_nat (S (size c)) < 2^32 -> (n <= size c)%nat ->
  base_write c n rd off d t junk = Ok c' -> disk c' = disk c.
Proof.
  unfold size. intros (Hlen & H1 & Hm) Hmax Hn. rewrite view_length in *. destruct Hm as (A & B & C & _). unfold base_write.
  destruct (Z.ltb_spec (c_len c) (Z.of_nat n)); [lia|]. destruct (Z.eqb_spec (Z.of_nat n) (c_len c)) as [En|En].
  - set (m1 := mkm _ _ _). intros HW. cbv zeta in HW. fold m1 in HW.
    destruct (mgr_get_block_for_write m1 0 true t junk) as [[m2 q]| | |] eqn:E2; try discriminate. cbn [rbind fst] in HW.
    destruct (poke m2 0 12 _) as [m3| | |] eqn:E3; try discriminate. cbn [rbind c_mgr c_len] in HW.
    destruct (mgr_get_block_for_write m3 n rd t junk) as [[m4 q4]| | |] eqn:E4; try discriminate. cbn [rbind fst] in HW.
    destruct (poke m4 n off d) as [m5| | |] eqn:E5; try discriminate. cbn [rbind] in HW. injection HW as <-.
    assert (Hsz : u32 (Z.of_nat (f_size (m_file m1) / m_ps m1)) = Z.of_nat (S (length (m_blocks (c_mgr c))))).
    { cbn [m1 m_file m_ps f_size]. rewrite C. replace (length (m_blocks (c_mgr c)) * m_ps (c_mgr c) + m_ps (c_mgr c))%nat with (S (length (m_blocks (c_mgr c))) * m_ps (c_mgr c))%nat by lia.
      rewrite div_mul_exact by lia. unfold u32. rewrite Z.mod_small by lia. reflexivity. }
    assert (F2 : f_bytes (m_file m2) = disk c /\ f_size (m_file m2) = f_size (m_file m1) /\ m_ps m2 = m_ps m1).
    { unfold mgr_get_block_for_write in E2. cbn [Nat.ltb Nat.leb] in E2. destruct (Nat.eqb_spec 0 (length (m_blocks m1))) as [Q|Q]; [cbn in Q; lia|].
      apply mgr_get_file in E2; [exact E2|]. intros _. rewrite Hsz. lia. }
    destruct (poke_file _ _ _ _ _ E3) as [G1 G2]. destruct (poke_file _ _ _ _ _ E5) as [G3 G4].
    unfold disk. cbn [c_mgr]. rewrite G3. unfold mgr_get_block_for_write in E4. destruct (_ <? _)%nat; [discriminate|].
    apply mgr_get_file in E4.
    + destruct E4 as (E4 & _). rewrite E4. destruct (_ =? _)%nat; cbn [m_file]; rewrite G1; apply F2.
    + intros _. destruct F2 as (_ & F2 & F3). destruct (_ =? _)%nat; cbn [m_file m_ps]; rewrite G1, G2, F2, F3, Hsz; lia.
  - cbn [rbind]. intros HW.
    destruct (mgr_get_block_for_write (c_mgr c) n rd t junk) as [[m4 q4]| | |] eqn:E4; try discriminate. cbn [rbind fst] in HW.
    destruct (poke m4 n off d) as [m5| | |] eqn:E5; try discriminate. cbn [rbind] in HW. injection HW as <-.
    destruct (poke_file _ _ _ _ _ E5) as [G3 G4]. unfold disk. cbn [c_mgr]. rewrite G3. unfold mgr_get_block_for_write in E4.
    destruct (_ <? _)%nat; [discriminate|]. destruct (Nat.eqb_spec n (length (m_blocks (c_mgr c)))); [lia|].
    apply mgr_get_file in E4; [apply E4|]. intros _. rewrite C, div_mul_exact by lia. unfold u32. rewrite Z.mod_small by lia. lia.
Qed.
Lemma read_disk c n t junk c' d : base_read c n t junk = Ok (c', d) -> disk c' = disk c.
Proof.
  unfold base_read. destruct (_ <=? _); [discriminate|]. unfold mgr_get_block. destruct (_ <=? _)%nat; [discriminate|].
  destruct (mgr_get _ _ _ _ _ _) as [[m q]| | |] eqn:E; try discriminate. cbn [rbind]. intros H. injection H as <- _.
  apply mgr_get_file in E; [apply E|discriminate].
Qed.

(** the pages may have changed in memory, the file has not *)
Definition held (ps : nat) (bs : list Z) (top : nat) (c : base) : Prop :=
  inv c /\ cps c = ps /\ disk c = bs /\ (size c <= top)%nat /\ (2 <= size c)%nat.
Lemma held_more ps bs a b c : (a <= b)%nat -> held ps bs a c -> held ps bs b c.
Proof. intros L (A & B & C & D & E). repeat (split; [assumption|]). split; [lia|assumption]. Qed.
Lemma held_write ps bs top c n rd off d t junk : held ps bs top c -> (off + length d <= ps)%nat -> Z.of_nat (S top) < 2^32 -> (n < size c \/ n = size c /\ rd = false)%nat ->
  exists c', base_write c n rd off d t junk = Ok c' /\ held ps bs (S top) c' /\ (n < size c -> size c' = size c)%nat /\ (size c <= size c')%nat /\ (n < size c')%nat.
Proof.
  intros (A & B & C & D & E) Ho Ht [Hn|[Hn ->]].
  - destruct (write_refines c n rd off d t junk A Hn) as (c' & p & q & E1 & A1 & A2 & _ & _ & A3); [now rewrite B|].
    assert (Q : size c' = size c) by (unfold size; rewrite A3; apply splice_length; cbn [length]; unfold size in Hn; lia).
    exists c'. split; [exact E1|]. rewrite Q. split; [|lia]. split; [exact A1|]. split; [congruence|]. split; [|rewrite Q; lia].
    rewrite <- C. eapply write_disk; [exact A| |apply Nat.lt_le_incl, Hn|exact E1]. lia.
  - subst n. destruct (append_refines c off d t junk A) as (c' & E1 & A1 & A2 & A3); [now rewrite B|unfold size in D; lia|].
    assert (Q : size c' = S (size c)).
    { unfold size. rewrite A3, app_length. cbn [length]. destruct (view c) as [|h r] eqn:Ev; [unfold size in E; rewrite Ev in E; cbn in E; lia|].
      unfold put_count. cbn [length]. lia. }
    exists c'. split; [exact E1|]. rewrite Q. split; [|lia]. split; [exact A1|]. split; [congruence|]. split; [|rewrite Q; lia].
    rewrite <- C. eapply write_disk; [exact A| |apply Nat.le_refl|exact E1]. unfold size in *. lia.
Qed.
(** a page of the file is always within the top: writing does not raise it then *)
Lemma held_write_in ps bs top c n rd off d t junk : held ps bs top c -> (off + length d <= ps)%nat -> Z.of_nat (S top) < 2^32 -> (n < size c)%nat ->
  exists c', base_write c n rd off d t junk = Ok c' /\ held ps bs top c' /\ size c' = size c.
Proof.
  intros H Ho Ht Hn. destruct (held_write ps bs top c n rd off d t junk H Ho Ht (or_introl Hn)) as (c' & E & (A & B & C & D & F) & S1 & _).
  exists c'. split; [exact E|]. specialize (S1 Hn). split; [|exact S1]. repeat (split; [assumption|]). split; [|assumption]. rewrite S1. apply H.
Qed.
Lemma held_read ps bs top c n t junk : held ps bs top c -> (n < size c)%nat ->
  exists c' d, base_read c n t junk = Ok (c', d) /\ held ps bs top c' /\ view c' = view c /\ nth_error (view c) n = Some d.
Proof.
  intros (A & B & C & D & E) Hn. destruct (read_refines c n t junk A Hn) as (c' & d & E1 & A1 & A2 & A3 & A4).
  exists c', d. split; [exact E1|]. split; [|auto]. unfold held, size. rewrite A3. split; [exact A1|]. split; [congruence|]. split; [|auto].
  rewrite <- C. eapply read_disk. exact E1.
Qed.
Lemma held_garbage ps bs top c a t : held ps bs top c -> held ps bs top (base_garbage c a t) /\ view (base_garbage c a t) = view c.
Proof.
  intros (A & B & C & D & E). destruct (garbage_refines c a t A) as (A1 & A2 & A3). split; [|exact A3]. unfold held, size. rewrite A3.
  split; [exact A1|]. split; [congruence|]. split; [exact C|auto].
Qed.

(** exports *)
Lemma export_held ps bs top gs : forall c c' o, held ps bs top c -> export_pages c gs = Ok (c', o) -> held ps bs top c' /\ view c' = view c.
Proof.
  induction gs as [|[n t junk|a t] gs IH]; intros c c' o H E; cbn [export_pages] in E.
  - injection E as <- _. auto.
  - destruct (Nat.lt_ge_cases n (size c)) as [Hn|Hn].
    + destruct (held_read ps bs top c n t junk H Hn) as (c1 & d & E1 & H1 & V1 & _). rewrite E1 in E.
      destruct (IH _ _ _ H1 E) as [A B]. split; [exact A|congruence].
    + rewrite out_of_range in E; [injection E as <- _; auto|]. destruct H as ((L & _) & _). unfold size in Hn. rewrite view_length in Hn. lia.
  - destruct (held_garbage ps bs top c a t H) as [H1 V1]. destruct (IH _ _ _ H1 E) as [A B]. split; [exact A|congruence].
Qed.

Section Ro.
Variables (edit : base -> free -> Z -> res (base * free)) (describe : base -> free -> res (base * free)) (v838 : bool).
Variables (ps : nat) (bs : list Z) (k : nat).
Hypothesis Hps : (4096 <= ps)%nat.
Definition fr_ok (fr : free) : Prop := Forall (fun p => 0 <= p < Z.of_nat k) (fr_pages fr) /\ 0 <= fr_len fr < 2^32.

Lemma free_page_held env top c fr c' fr' p : held ps bs top c -> (k <= size c)%nat -> fr_ok fr -> Z.of_nat (S top) < 2^32 ->
  free_page env c fr = Ok (c', fr', p) ->
  fr_ok fr' /\ held ps bs (S top) c' /\ (k <= size c')%nat.
Proof.
  intros H Hk [F1 F2] Ht E. unfold free_page in E. destruct (Z.eqb_spec (fr_len fr) 0) as [Q|Q].
  - assert (En : length (m_blocks (c_mgr c)) = size c) by (unfold size; now rewrite view_length). rewrite En in E. unfold wr in E.
    destruct (held_write ps bs top c (size c) false 0 [] (fst (env 0%nat)) (snd (env 0%nat)) H) as (c1 & E1 & H1 & _ & S1 & S2); [cbn; lia|exact Ht|right; auto|].
    rewrite E1 in E. cbn [kept rbind fst snd] in E. injection E as <- <- <-. split; [split; assumption|]. split; [exact H1|]. lia.
  - set (l := fr_len fr - 1) in *. destruct (rd (fr_pages fr) (l / 1024)) as [b| | |] eqn:Eb; try discriminate. cbn [rbind] in E.
    assert (Hb : 0 <= b < Z.of_nat k).
    { unfold rd in Eb. destruct (_ <? 0); [discriminate|]. destruct (nth_error (fr_pages fr) _) as [z|] eqn:En; [|discriminate]. injection Eb as <-.
      rewrite Forall_forall in F1. apply F1. eapply nth_error_In, En. }
    unfold wr, look in E.
    pose proof (Z.mod_pos_bound l 1024 ltac:(lia)) as Ha. set (at_ := (4 * Z.to_nat (l mod 1024))%nat) in *.
    assert (Hat : (at_ + 4 <= 4096)%nat) by (unfold at_; lia).
    destruct (held_write_in ps bs top c (Z.to_nat b) true 0 [] (fst (env 0%nat)) (snd (env 0%nat)) H) as (c1 & E1 & H1 & S1); [cbn; lia|exact Ht|lia|].
    rewrite E1 in E. cbn [kept] in E.
    destruct (held_read ps bs top c1 (Z.to_nat b) (fst (env 1%nat)) (snd (env 1%nat)) H1) as (c2 & d & E2 & H2 & V2 & Nd); [rewrite S1; lia|].
    rewrite E2 in E. cbn [kept fst snd] in E.
    assert (S2 : size c2 = size c1) by (unfold size; now rewrite V2).
    destruct (held_write_in ps bs top c2 (Z.to_nat b) true at_ (le_bytes 4 0) (fst (env 2%nat)) (snd (env 2%nat)) H2) as (c3 & E3 & H3 & S3); [rewrite le_bytes_length; lia|exact Ht|rewrite S2, S1; lia|].
    rewrite E3 in E. cbn [kept] in E.
    destruct (held_write_in ps bs top c3 1 true 8 (le_bytes 4 l) (fst (env 3%nat)) (snd (env 3%nat)) H3) as (c4 & E4 & H4 & S4); [rewrite le_bytes_length; lia|exact Ht|destruct H3 as (_ & _ & _ & _ & H3); lia|].
    rewrite E4 in E. cbn [kept rbind fst snd] in E. injection E as <- <- <-.
    split; [split; [exact F1|cbn [fr_len]; lia]|]. split; [eapply held_more; [|exact H4]; lia|]. lia.
Qed.
Lemma root_page_length : length (root_page v838 ps) = ps.
Proof. unfold root_page. cbv zeta. rewrite firstn_length, app_length, repeat_length. lia. Qed.
Lemma new_file_held env top c fr c' fr' p : held ps bs top c -> (k <= size c)%nat -> fr_ok fr -> Z.of_nat (S (S top)) < 2^32 ->
  new_file env v838 c fr = Ok (c', fr', p) -> fr_ok fr' /\ held ps bs (S (S top)) c' /\ (k <= size c')%nat.
Proof.
  intros H Hk F Ht E. unfold new_file in E. destruct (free_page env c fr) as [[[c1 fr1] q]| | |] eqn:E1; try discriminate. cbn [rbind] in E.
  destruct (free_page_held env top c fr c1 fr1 q H Hk F ltac:(lia) E1) as (F1 & H1 & K1).
  destruct q as [q|]; [|injection E as <- <- _; split; [exact F1|]; split; [eapply held_more; [|exact H1]; lia|exact K1]].
  assert (R : length (root_page v838 (m_ps (c_mgr c1))) = ps). { destruct H1 as (_ & Q & _). unfold cps in Q. rewrite Q. apply root_page_length; exact Hps. }
  unfold wr, look in E. destruct (Nat.lt_ge_cases (size c1) (Z.to_nat q)) as [G|G].
  - rewrite out_of_range_write in E; [|destruct H1 as ((L & _) & _); unfold size in G; rewrite view_length in G; lia].
    cbn [kept rbind fst snd] in E. injection E as <- <- _. split; [exact F1|]. split; [eapply held_more; [|exact H1]; lia|exact K1].
  - destruct (held_write ps bs (S top) c1 (Z.to_nat q) false 0 (root_page v838 (m_ps (c_mgr c1))) (fst (env 4%nat)) (snd (env 4%nat)) H1) as (c2 & E2 & H2 & _ & S2 & S3); [lia|exact Ht|lia|].
    rewrite E2 in E. cbn [kept] in E.
    destruct (held_read ps bs _ c2 (Z.to_nat q) (fst (env 5%nat)) (snd (env 5%nat)) H2 S3) as (c3 & d & E3 & H3 & V3 & _). rewrite E3 in E.
    cbn [kept rbind fst snd] in E. injection E as <- <- _. split; [exact F1|]. split; [exact H3|]. unfold size in *. rewrite V3. lia.
Qed.

Lemma rd_some (l : list Z) i x : rd l (Z.of_nat i) = Ok x -> nth_error l i = Some x.
Proof. unfold rd. destruct (Z.ltb_spec (Z.of_nat i) 0); [lia|]. rewrite Nat2Z.id. destruct (nth_error l i); [congruence|discriminate]. Qed.
Lemma import_slots_ro env root slots : forall i c fr c' fr' slots' threw,
  import_slots env v838 true edit root i c fr slots = Ok (c', fr', slots', threw) ->
  (threw = false /\ c' = c /\ fr' = fr /\ slots' = slots) \/
  (threw = true /\ exists j, nth_error root (i + j) = Some 1 /\ (forall j', (j' < j)%nat -> nth_error root (i + j') = Some 0) /\
    (((exists p, nth_error slots j = Some (Some p)) /\ c' = c /\ fr' = fr /\ slots' = slots) \/
     (nth_error slots j = Some None /\ exists p, new_file env v838 c fr = Ok (c', fr', p)))).
Proof.
  induction slots as [|s r IH]; intros i c fr c' fr' slots' threw E; cbn [import_slots] in E.
  - left. injection E as <- <- <- <-. auto.
  - destruct (rd root (Z.of_nat i)) as [f| | |] eqn:Ef; try discriminate. cbn [rbind] in E. apply rd_some in Ef.
    unfold to_flag in E. destruct (Z.eqb_spec f 0) as [-> |F0].
    + cbn [rbind] in E. destruct (import_slots env v838 true edit root (S i) c fr r) as [[[[c2 fr2] r2] t]| | |] eqn:Er; try discriminate.
      cbn [rbind] in E. injection E as <- <- <- <-. destruct (IH _ _ _ _ _ _ _ Er) as [(A & B & C & D)|(A & j & B & C & D)].
      * left. subst. auto.
      * right. split; [exact A|]. exists (S j). split; [rewrite <- B; f_equal; lia|]. split.
        { intros [|j'] Hj; [rewrite Nat.add_0_r; exact Ef|]. rewrite <- (C j' ltac:(lia)). f_equal. lia. }
        cbn [nth_error]. destruct D as [(D1 & D2 & D3 & D4)|D]; [left; subst; auto|right; exact D].
    + destruct (Z.eqb_spec f 1) as [-> |F1]; [|discriminate]. cbn [rbind] in E. right.
      assert (Z0 : forall j', (j' < 0)%nat -> nth_error root (i + j') = Some 0) by (intros; lia).
      destruct s as [p|].
      * cbn [rbind] in E. injection E as <- <- <- <-. split; [reflexivity|]. exists 0%nat. rewrite Nat.add_0_r. split; [exact Ef|]. split; [exact Z0|].
        left. cbn [nth_error]. eauto.
      * destruct (new_file env v838 c fr) as [[[c1 fr1] q]| | |] eqn:En; try discriminate. cbn [rbind] in E.
        assert (Q1 : c' = c1) by (destruct q; congruence). assert (Q2 : fr' = fr1) by (destruct q; congruence). assert (Q3 : threw = true) by (destruct q; congruence). subst c' fr' threw.
        split; [reflexivity|]. exists 0%nat. rewrite Nat.add_0_r. split; [exact Ef|]. split; [exact Z0|]. right. cbn [nth_error]. eauto.
Qed.
Lemma read_root_full junk root more : length root = 36%nat -> read_root junk (root ++ more) = root.
Proof.
  intros L. unfold read_root. cbv zeta. rewrite <- L, firstn_exact by reflexivity. rewrite L, Nat.sub_diag. unfold sub. cbn [firstn]. now rewrite app_nil_r.
Qed.

(** before a page was taken *)
Definition fresh (tabs : list (list (option Z))) (s : sess) : Prop :=
  held ps bs k (s_base s) /\ concat (view (s_base s)) = bs /\ size (s_base s) = k /\ fr_ok (s_free s) /\ s_tabs s = tabs.
(** after it *)
Definition taken (top : nat) (s : sess) : Prop := held ps bs top (s_base s) /\ (k <= size (s_base s))%nat /\ fr_ok (s_free s).

Lemma fresh_step tabs c s s' o : rooted c -> Z.of_nat (S (S k)) < 2^32 -> fresh tabs s -> run_command v838 true edit describe c s = Ok (s', o) ->
  fresh tabs s' \/ (taken (S (S k)) s' /\ lacking_import tabs [c] 0).
Proof.
  intros Rt Ht (H & V & Sz & F & T) E. destruct s as [b fr tb]. cbn [s_base s_free s_tabs] in *. destruct c as [gs|t p junk env]; cbn [run_command s_base s_free s_tabs] in E.
  - destruct (export_pages b gs) as [[c' o']| | |] eqn:Eg; try discriminate. cbn [rbind fst snd] in E. injection E as <- <-.
    destruct (export_held ps bs k gs _ _ _ H Eg) as [A B]. left. unfold fresh, size. cbn [s_base s_free s_tabs]. rewrite B. auto.
  - unfold import_table in E. destruct p as [| |d]; [injection E as <- <-; left; unfold fresh; auto 6|injection E as <- <-; left; unfold fresh; auto 6|].
    cbn [rooted] in Rt. destruct Rt as (root & d' & more & Ed & Ed0 & L). injection Ed as <-.
    rewrite Ed0 in E. cbn [in_file] in E. rewrite (read_root_full _ _ _ L) in E. cbn [s_base s_free s_tabs] in E.
    destruct (nth_error tb t) as [slots|] eqn:Et; [|discriminate].
    destruct (import_slots env v838 true edit root 0 b fr slots) as [[[[c1 fr1] sl1] threw]| | |] eqn:Es; try discriminate. cbn [rbind] in E.
    destruct (import_slots_ro _ _ _ _ _ _ _ _ _ _ Es) as [(-> & -> & -> & ->)|(-> & j & B & C & [(D1 & -> & -> & ->)|(D & p & En)])].
    + assert (M : made slots slots = false).
      { clear. unfold made. induction slots as [|[x|] r IH]; [reflexivity|exact IH|exact IH]. }
      rewrite M in E. cbn [rbind fst snd] in E. destruct (flush_refines b (proj1 H)) as (c' & Ef & A1 & A2 & A3 & A4 & _).
      rewrite Ef in E. cbn [rbind] in E. injection E as <- <-. left. rewrite (splice_self _ _ _ Et).
      unfold fresh, held, size. cbn [s_base s_free s_tabs]. rewrite A3. destruct H as (_ & Hp & Hd & Hs & H2). 
      split; [split; [exact A1|split; [congruence|split; [unfold disk; fold (base_close c'); congruence|auto]]]|auto].
    + injection E as <- <-. left. rewrite (splice_self _ _ _ Et). unfold fresh. cbn [s_base s_free s_tabs]. auto.
    + injection E as <- <-. right. destruct (new_file_held env k b fr c1 fr1 p H ltac:(lia) F Ht En) as (F' & H' & K').
      split; [split; [exact H'|split; [exact K'|exact F']]|].
      exists t, (Dir d), root, junk, env, slots. split; [reflexivity|]. split; [exists d, more; auto|]. subst tabs. split; [exact Et|].
      exists j. cbn [Nat.add] in *. auto.
Qed.
Lemma taken_step top c s s' o : rooted c -> Z.of_nat (S (S top)) < 2^32 -> taken top s -> run_command v838 true edit describe c s = Ok (s', o) ->
  taken (S (S top)) s' \/ good_import [c] [o] 0.
Proof.
  intros Rt Ht (H & K & F) E. destruct s as [b fr tb]. cbn [s_base s_free s_tabs] in *.
  assert (L2 : (top <= S (S top))%nat) by lia.
  destruct c as [gs|t p junk env]; cbn [run_command s_base s_free s_tabs] in E.
  - destruct (export_pages b gs) as [[c' o']| | |] eqn:Eg; try discriminate. cbn [rbind fst snd] in E. injection E as <- <-.
    destruct (export_held ps bs top gs _ _ _ H Eg) as [A B]. left. unfold taken, size in *. cbn [s_base s_free s_tabs]. rewrite B. eauto using held_more.
  - unfold import_table in E. destruct p as [| |d]; [injection E as <- <-; left; unfold taken; eauto using held_more|injection E as <- <-; left; unfold taken; eauto using held_more|].
    cbn [rooted] in Rt. destruct Rt as (root & d' & more & Ed & Ed0 & L). injection Ed as <-.
    rewrite Ed0 in E. cbn [in_file] in E. rewrite (read_root_full _ _ _ L) in E. cbn [s_base s_free s_tabs] in E.
    destruct (nth_error tb t) as [slots|] eqn:Et; [|discriminate].
    destruct (import_slots env v838 true edit root 0 b fr slots) as [[[[c1 fr1] sl1] threw]| | |] eqn:Es; try discriminate. cbn [rbind] in E.
    destruct (import_slots_ro _ _ _ _ _ _ _ _ _ _ Es) as [(-> & -> & -> & ->)|(-> & j & B & C & [(D1 & -> & -> & ->)|(D & p & En)])].
    + right. destruct (if made slots slots then _ else _) as [y| | |]; try discriminate. cbn [rbind] in E.
      destruct (base_flush (fst y)); try discriminate. cbn [rbind] in E. injection E as _ <-. exists t, d, junk, env. auto.
    + injection E as <- <-. left. unfold taken. cbn [s_base s_free s_tabs]. eauto using held_more.
    + injection E as <- <-. left. destruct (new_file_held env top b fr c1 fr1 p H K F Ht En) as (F' & H' & K'). unfold taken. cbn [s_base s_free s_tabs]. auto.
Qed.
Lemma taken_session ks : forall top s s' outs, Forall rooted ks -> Z.of_nat (top + 2 * length ks) < 2^32 -> taken top s -> session v838 true edit describe ks s = Ok (s', outs) ->
  disk (s_base s') = bs \/ exists j, good_import ks outs j.
Proof.
  induction ks as [|c ks IH]; intros top s s' outs R Hm H E; cbn [session] in E.
  - injection E as <- <-. left. apply H.
  - inversion R as [|? ? R1 R2]; subst. destruct (run_command v838 true edit describe c s) as [[s1 o]| | |] eqn:E1; try discriminate. cbn [rbind fst snd] in E.
    destruct (session v838 true edit describe ks s1) as [[s2 os]| | |] eqn:E2; try discriminate. cbn [rbind fst snd] in E. injection E as <- <-.
    cbn [length] in Hm. destruct (taken_step top c s s1 o R1 ltac:(lia) H E1) as [H1|(t & d & junk & env & Q1 & Q2)].
    + destruct (IH (S (S top)) s1 s2 os R2 ltac:(lia) H1 E2) as [A|(j & t & d & junk & env & Q1 & Q2)]; [left; exact A|].
      right. exists (S j), t, d, junk, env. auto.
    + right. exists 0%nat, t, d, junk, env. cbn [nth_error] in *. auto.
Qed.
Lemma fresh_session tabs ks : forall s s' outs, Forall rooted ks -> Z.of_nat (k + 2 * length ks) < 2^32 -> fresh tabs s -> session v838 true edit describe ks s = Ok (s', outs) ->
  disk (s_base s') = bs \/ exists i j, (i < j)%nat /\ lacking_import tabs ks i /\ good_import ks outs j.
Proof.
  induction ks as [|c ks IH]; intros s s' outs R Hm H E; cbn [session] in E.
  - injection E as <- <-. left. apply H.
  - inversion R as [|? ? R1 R2]; subst. destruct (run_command v838 true edit describe c s) as [[s1 o]| | |] eqn:E1; try discriminate. cbn [rbind fst snd] in E.
    destruct (session v838 true edit describe ks s1) as [[s2 os]| | |] eqn:E2; try discriminate. cbn [rbind fst snd] in E. injection E as <- <-.
    cbn [length] in Hm. destruct (fresh_step tabs c s s1 o R1 ltac:(lia) H E1) as [H1|[H1 (t & p & root & junk & env & slots & Q1 & Q2)]].
    + destruct (IH s1 s2 os R2 ltac:(lia) H1 E2) as [A|(i & j & L & (t & p & root & junk & env & slots & Q1 & Q2) & (t' & d & junk' & env' & Q3 & Q4))]; [left; exact A|].
      right. exists (S i), (S j). split; [lia|]. split; [exists t, p, root, junk, env, slots; auto|exists t', d, junk', env'; auto].
    + destruct (taken_session ks (S (S k)) s1 s2 os R2 ltac:(lia) H1 E2) as [A|(j & t' & d & junk' & env' & Q3 & Q4)]; [left; exact A|].
      right. exists 0%nat, (S j). split; [lia|]. split; [exists t, p, root, junk, env, slots; auto|exists t', d, junk', env'; auto].
Qed.
End Ro.

Lemma teq_true a b : teq a b = true -> a = b.
Proof. unfold teq. destruct (list_eq_dec Z.eq_dec a b); [auto|discriminate]. Qed.
Lemma viewing_flag junk file m h : for_viewing file m -> open_view true true junk file m = Ok h -> h_readonly h = true.
Proof.
  unfold open_view, delivered. cbn [andb]. intros V. unfold open_header. cbv zeta.
  destruct (negb (teq _ _)); [discriminate|]. destruct (ver_of _ _ _ _) as [v|] eqn:Ev; [|discriminate].
  destruct (_ =? 0); [discriminate|]. destruct (negb _); [discriminate|]. destruct (negb _); [discriminate|]. intros Q. injection Q as <-. cbn [h_readonly].
  destruct V as [-> |[L V]]; [destruct (old_ver v); reflexivity|].
  assert (N : forall i, (i < 4)%nat -> nth (8 + i) (firstn 24 file ++ skipn (length (firstn 24 file)) junk) 0 = nth i (sub file 8 4) 0).
  { intros i Hi. rewrite app_nth1 by (rewrite firstn_length; lia). unfold sub. rewrite <- (firstn_skipn 24 file) at 2.
    rewrite skipn_app, firstn_app. rewrite app_nth1; [|rewrite firstn_length, skipn_length, firstn_length; lia].
    rewrite <- (firstn_skipn 8 (firstn 24 file)) at 1. rewrite app_nth2 by (rewrite firstn_length, firstn_length; lia).
    rewrite !firstn_length. replace (8 + i - Nat.min 8 (Nat.min 24 (length file)))%nat with i by lia.
    generalize (skipn 8 (firstn 24 file)). clear - Hi. intros l. do 4 (destruct i as [|i]; [destruct l as [|a0 [|a1 [|a2 [|a3 l]]]]; reflexivity|]). lia. }
  pose proof (N 0%nat ltac:(lia)) as N0. pose proof (N 1%nat ltac:(lia)) as N1. pose proof (N 2%nat ltac:(lia)) as N2. pose proof (N 3%nat ltac:(lia)) as N3.
  cbn [Nat.add] in N0, N1, N2, N3. rewrite N0, N1, N2, N3 in Ev.
  destruct V as [Q|Q]; rewrite Q in Ev; cbn [nth ver_of] in Ev; injection Ev as <-; reflexivity.
Qed.

Theorem viewing edit describe junk file m h k fr tabs ks file' outs :
  for_viewing file m -> open_view true true junk file m = Ok h -> sound (h_page h) k file fr -> Forall rooted ks -> Z.of_nat (k + 2 * length ks) < 2^32 ->
  program edit describe junk file m fr tabs ks = Ok (file', outs) ->
  file' = file \/ exists i j, (i < j)%nat /\ lacking_import tabs ks i /\ good_import ks outs j.
Proof.
  intros V O (P & K & G & F1 & F2) R Hm E. unfold program in E. rewrite O in E. cbn [rbind] in E. rewrite (viewing_flag junk file m h V O) in E.
  destruct (open_ok _ _ _ G) as (c & Ec & I1 & I2 & I3 & I4 & I5). rewrite Ec in E. cbn [rbind] in E.
  set (v := match h_ver h with V8380 => true | _ => false end) in E.
  destruct (session v true edit describe ks (SESS c fr tabs)) as [[s os]| | |] eqn:Es; try discriminate. cbn [rbind fst snd] in E. injection E as <- <-.
  refine (fresh_session edit describe v (Z.to_nat (h_page h)) file k _ tabs ks (SESS c fr tabs) s os R Hm _ Es); [lia|].
  unfold fresh, held, size, disk. cbn [s_base s_free s_tabs]. fold (base_close c). rewrite I4.
  split; [split; [exact I1|split; [exact I2|split; [exact I5|lia]]]|]. split; [|split; [reflexivity|split; [split; assumption|reflexivity]]].
  rewrite I3. unfold pages_of. destruct G as (G1 & G2 & G3 & G4 & G5). rewrite G4, div_mul_exact by lia.
  clear - G4. revert file G4. generalize (Z.to_nat (h_page h)). intros ps. induction k as [|k IH]; intros file L.
  - destruct file; [reflexivity|discriminate].
  - cbn [seq map concat]. rewrite <- seq_shift, map_map. replace (map (fun x => sub file (S x * ps) ps) (seq 0 k)) with (map (fun x => sub (skipn ps file) (x * ps) ps) (seq 0 k)).
    + rewrite IH by (rewrite skipn_length; lia). cbn [Nat.mul]. unfold sub. cbn [skipn]. apply firstn_skipn.
    + apply map_ext. intros i. unfold sub. f_equal. rewrite skip_skip. f_equal. cbn [Nat.mul]. lia.
Qed.

(** ** What two imports do *)
Lemma held_write_view ps bs top c n off d t junk rd : held ps bs top c -> (off + length d <= ps)%nat -> Z.of_nat (S top) < 2^32 -> (n < size c)%nat ->
  exists c' q, base_write c n rd off d t junk = Ok c' /\ held ps bs top c' /\ length q = ps /\ view c' = splice (view c) n [splice q off d].
Proof.
  intros H Ho Ht Hn. destruct (held_write_in ps bs top c n rd off d t junk H Ho Ht Hn) as (c' & E & H' & _).
  destruct H as (A & B & _). destruct (write_refines c n rd off d t junk A Hn) as (c2 & p & q & E2 & _ & _ & A3 & A4 & A5); [now rewrite B|].
  exists c', q. split; [exact E|]. split; [exact H'|]. assert (Q : c2 = c') by congruence. subst c2. split; [|exact A5].
  pose proof (view_pages c A) as Vp. rewrite Forall_forall in Vp. rewrite B in Vp.
  destruct A4 as [-> |(_ & ->)]; [apply Vp; eapply nth_error_In, A3|rewrite B; apply repeat_length].
Qed.
Lemma nth_splice1 {A} (l : list A) n x i : (n < length l)%nat -> nth_error (splice l n [x]) i = if (i =? n)%nat then Some x else nth_error l i.
Proof.
  intros H. rewrite nth_error_splice by (simpl; lia). cbn [length]. destruct (Nat.eqb_spec i n) as [-> |N].
  - replace ((n <=? n) && (n <? n + 1))%nat with true by (symmetry; apply andb_true_intro; split; [apply Nat.leb_refl|apply Nat.ltb_lt; lia]).
    rewrite Nat.sub_diag. reflexivity.
  - destruct ((n <=? i) && (i <? n + 1))%nat eqn:E; [|reflexivity]. apply andb_prop in E. destruct E as [E1 E2]. apply Nat.leb_le in E1. apply Nat.ltb_lt in E2. lia.
Qed.

Section Two.
Variables (edit : base -> free -> Z -> res (base * free)) (describe : base -> free -> res (base * free)) (v838 : bool).
Variables (ps : nat) (bs : list Z) (k : nat).
Hypothesis Hps : (4096 <= ps)%nat.

Lemma new_file_takes env c fr b : held ps bs k c -> size c = k -> Z.of_nat (S (S k)) < 2^32 -> fr_len fr <> 0 -> 0 <= fr_len fr < 2^32 ->
  nth_error (fr_pages fr) (Z.to_nat ((fr_len fr - 1) / 1024)) = Some b -> 0 <= b < Z.of_nat k ->
  (forall d, nth_error (view c) (Z.to_nat b) = Some d ->
     let p := le_val (sub d (4 * Z.to_nat ((fr_len fr - 1) mod 1024)) 4) in 0 <= p < Z.of_nat k /\ p <> 1) ->
  exists c' p, new_file env v838 c fr = Ok (c', FREE (fr_len fr - 1) (fr_pages fr), Some p) /\ held ps bs k c' /\
    length (view c') = k /\ nth_error (view c') (Z.to_nat p) = Some (root_page v838 ps) /\ (exists d, nth_error (view c) (Z.to_nat b) = Some d /\ p = le_val (sub d (4 * Z.to_nat ((fr_len fr - 1) mod 1024)) 4)) /\
    exists q, nth_error (view c') 1 = Some q /\ sub q 8 4 = le_bytes 4 (fr_len fr - 1).
Proof.
  intros H Sz Ht L0 L Eb Hb Hp. set (l := fr_len fr - 1) in *. pose proof (Z.mod_pos_bound l 1024 ltac:(lia)) as Ha. set (at_ := (4 * Z.to_nat (l mod 1024))%nat) in *.
  assert (Hat : (at_ + 4 <= 4096)%nat) by (unfold at_; lia). assert (Q0 : 0 <= l / 1024) by (apply Z.div_pos; lia).
  assert (K2 : (2 <= k)%nat) by (rewrite <- Sz; apply H).
  unfold new_file, free_page. destruct (Z.eqb_spec (fr_len fr) 0); [lia|]. fold l. cbv zeta. fold at_.
  unfold rd. destruct (Z.ltb_spec (l / 1024) 0); [lia|]. rewrite Eb. cbn [rbind]. unfold wr, look.
  destruct (held_write_view ps bs k c (Z.to_nat b) 0 [] (fst (env 0%nat)) (snd (env 0%nat)) true H) as (c1 & q1 & E1 & H1 & L1 & V1); [cbn; lia|lia|lia|].
  rewrite E1. cbn [kept]. assert (S1 : size c1 = k) by (unfold size in *; rewrite V1, splice_length; cbn [length]; lia).
  destruct (held_read ps bs k c1 (Z.to_nat b) (fst (env 1%nat)) (snd (env 1%nat)) H1) as (c2 & d & E2 & H2 & V2 & Nd); [lia|].
  rewrite E2. cbn [kept fst snd]. assert (S2 : size c2 = k) by (unfold size in *; congruence).
  assert (Nd0 : nth_error (view c) (Z.to_nat b) = Some d).
  { destruct (write_refines c (Z.to_nat b) true 0 [] (fst (env 0%nat)) (snd (env 0%nat)) (proj1 H)) as (cx & p & q & Ex & _ & _ & A3 & A4 & A5); [unfold size in Sz; lia|destruct H as (_ & -> & _); cbn; lia|].
    assert (Q : cx = c1) by congruence. subst cx. destruct A4 as [-> |(X & _)]; [|discriminate]. rewrite A5, nth_splice1, Nat.eqb_refl in Nd by (unfold size in Sz; lia).
    rewrite A3. f_equal. assert (Q : splice p 0 [] = d) by congruence. rewrite <- Q. unfold splice. cbn [firstn length Nat.add skipn app]. reflexivity. }
  specialize (Hp d Nd0). cbv zeta in Hp. fold at_ in Hp. set (p := le_val (sub d at_ 4)) in *.
  destruct (held_write_view ps bs k c2 (Z.to_nat b) at_ (le_bytes 4 0) (fst (env 2%nat)) (snd (env 2%nat)) true H2) as (c3 & q3 & E3 & H3 & L3 & V3); [rewrite le_bytes_length; lia|lia|lia|].
  rewrite E3. cbn [kept]. assert (S3 : size c3 = k) by (unfold size in *; rewrite V3, splice_length; cbn [length]; lia).
  destruct (held_write_view ps bs k c3 1 8 (le_bytes 4 l) (fst (env 3%nat)) (snd (env 3%nat)) true H3) as (c4 & q4 & E4 & H4 & L4 & V4); [rewrite le_bytes_length; lia|lia|lia|].
  rewrite E4. cbn [kept rbind fst snd]. assert (S4 : size c4 = k) by (unfold size in *; rewrite V4, splice_length; cbn [length]; lia).
  assert (R : length (root_page v838 (m_ps (c_mgr c4))) = ps). { destruct H4 as (_ & Q & _). unfold cps in Q. rewrite Q. apply root_page_length; exact Hps. }
  destruct (held_write_view ps bs k c4 (Z.to_nat p) 0 (root_page v838 (m_ps (c_mgr c4))) (fst (env 4%nat)) (snd (env 4%nat)) false H4) as (c5 & q5 & E5 & H5 & L5 & V5); [lia|lia|lia|].
  rewrite E5. cbn [kept]. assert (S5 : size c5 = k) by (unfold size in *; rewrite V5, splice_length; cbn [length]; lia).
  destruct (held_read ps bs k c5 (Z.to_nat p) (fst (env 5%nat)) (snd (env 5%nat)) H5) as (c6 & d6 & E6 & H6 & V6 & _); [lia|].
  rewrite E6. cbn [kept rbind fst snd]. exists c6, p. split; [reflexivity|]. split; [exact H6|].
  split; [unfold size in S5; congruence|]. split.
  { rewrite V6, V5, nth_splice1 by (unfold size in S4; lia). rewrite Nat.eqb_refl. f_equal.
    replace (m_ps (c_mgr c4)) with ps by (destruct H4 as (_ & Q & _); symmetry; exact Q).
    unfold splice; cbn [firstn app Nat.add]; rewrite skipn_all2 by (rewrite L5, root_page_length by exact Hps; lia); now rewrite app_nil_r. }
  split; [exists d; split; [exact Nd0|reflexivity]|]. exists (splice q4 8 (le_bytes 4 l)).
  split.
  - rewrite V6, V5, nth_splice1 by (unfold size in S4; lia). destruct (Nat.eqb_spec 1 (Z.to_nat p)); [lia|].
    rewrite V4, nth_splice1 by (unfold size in S3; lia). rewrite Nat.eqb_refl. reflexivity.
  - unfold sub, splice. rewrite skipn_app, skipn_all2 by (rewrite firstn_length; lia). rewrite firstn_length. replace (8 - Nat.min 8 (length q4))%nat with 0%nat by lia.
    cbn [app skipn]. apply firstn_exact. apply le_bytes_length.
Qed.
Lemma new_file_grows env c fr : held ps bs k c -> size c = k -> Z.of_nat (S (S (S k))) < 2^32 -> fr_len fr = 0 ->
  exists c' p, new_file env v838 c fr = Ok (c', fr, Some p) /\ held ps bs (S k) c' /\ size c' = S k /\ view c' = put_count (view c) (S k) ++ [root_page v838 ps].
Proof.
  intros H Sz Ht L0. unfold new_file, free_page. rewrite L0. cbn [Z.eqb]. cbv zeta.
  assert (En : length (m_blocks (c_mgr c)) = k) by (unfold size in Sz; now rewrite view_length in Sz). rewrite En. unfold wr, look.
  destruct (held_write ps bs k c k false 0 [] (fst (env 0%nat)) (snd (env 0%nat)) H) as (c1 & E1 & H1 & _ & S1 & S2); [cbn; lia|lia|right; auto|].
  assert (V1 : view c1 = put_count (view c) (S k) ++ [repeat 0 ps]).
  { destruct H as (HA & HB & HC & HD & HE). destruct (append_refines c 0 [] (fst (env 0%nat)) (snd (env 0%nat)) HA) as (cx & Ex & _ & _ & Vx); [cbn; lia|unfold size in Sz; lia|].
    unfold size in Sz. rewrite Sz in Ex, Vx. assert (Q : cx = c1) by congruence. subst cx. rewrite Vx, HB. f_equal. }
  rewrite E1. cbn [kept rbind fst snd]. assert (S1' : size c1 = S k) by (destruct H1 as (_ & _ & _ & Q & _); lia).
  assert (R : length (root_page v838 (m_ps (c_mgr c1))) = ps). { destruct H1 as (_ & Q & _). unfold cps in Q. rewrite Q. apply root_page_length; exact Hps. }
  rewrite Nat2Z.id.
  destruct (held_write_view ps bs (S k) c1 k 0 (root_page v838 (m_ps (c_mgr c1))) (fst (env 4%nat)) (snd (env 4%nat)) false H1) as (c5 & q5 & E5 & H5 & L5 & V5); [lia|lia|lia|].
  rewrite E5. cbn [kept]. assert (S5 : size c5 = S k) by (unfold size in *; rewrite V5, splice_length; cbn [length]; lia).
  destruct (held_read ps bs (S k) c5 k (fst (env 5%nat)) (snd (env 5%nat)) H5) as (c6 & d6 & E6 & H6 & V6 & _); [lia|].
  rewrite E6. cbn [kept rbind fst snd]. exists c6, (Z.of_nat k). split; [reflexivity|]. split; [exact H6|]. split; [unfold size in *; congruence|].
  rewrite V6, V5. replace (m_ps (c_mgr c1)) with ps by (destruct H1 as (_ & Q & _); symmetry; exact Q).
  replace (splice q5 0 (root_page v838 ps)) with (root_page v838 ps)
    by (unfold splice; cbn [firstn app Nat.add]; rewrite skipn_all2 by (rewrite L5, root_page_length by exact Hps; lia); now rewrite app_nil_r).
  assert (Lp : length (put_count (view c) (S k)) = k) by (unfold size in Sz; destruct (view c); [cbn in Sz |- *; lia|exact Sz]).
  rewrite V1. unfold splice. rewrite firstn_app, Lp, Nat.sub_diag. rewrite firstn_all2 by lia. cbn [firstn]. rewrite app_nil_r.
  rewrite skipn_all2 by (rewrite app_length, Lp; cbn [length]; lia). now rewrite app_nil_r.
Qed.

(** a table whose first file of the export is lacking *)
Lemma import_slots_lacking env root c fr c' fr' p : new_file env v838 c fr = Ok (c', fr', Some p) -> forall slots i j,
  nth_error root (i + j) = Some 1 -> (forall j', (j' < j)%nat -> nth_error root (i + j') = Some 0) -> nth_error slots j = Some None ->
  exists slots', import_slots env v838 true edit root i c fr slots = Ok (c', fr', slots', true).
Proof.
  intros En. induction slots as [|s r IH]; intros i j R1 R0 N; [destruct j; discriminate|]. cbn [import_slots].
  assert (Rd : forall x, nth_error root i = Some x -> rd root (Z.of_nat i) = Ok x).
  { intros x Hx. unfold rd. destruct (Z.ltb_spec (Z.of_nat i) 0); [lia|]. rewrite Nat2Z.id, Hx. reflexivity. }
  destruct j as [|j].
  - rewrite Nat.add_0_r in R1. rewrite (Rd _ R1). cbn [nth_error] in N. injection N as ->. cbn [rbind to_flag Z.eqb]. rewrite En. cbn [rbind]. eexists. reflexivity.
  - pose proof (R0 0%nat ltac:(lia)) as Q. rewrite Nat.add_0_r in Q. rewrite (Rd _ Q). cbn [rbind to_flag Z.eqb].
    destruct (IH (S i) j) as [sl E]; [rewrite <- R1; f_equal; lia|intros j' Hj; rewrite <- (R0 (S j')) by lia; f_equal; lia|exact N|].
    rewrite E. cbn [rbind]. eexists. reflexivity.
Qed.
Lemma import_slots_none env root c fr : forall slots i, (forall j, (j < length slots)%nat -> nth_error root (i + j) = Some 0) ->
  import_slots env v838 true edit root i c fr slots = Ok (c, fr, slots, false).
Proof.
  induction slots as [|s r IH]; intros i R0; [reflexivity|]. cbn [import_slots].
  pose proof (R0 0%nat ltac:(cbn; lia)) as Q. rewrite Nat.add_0_r in Q.
  unfold rd at 1. destruct (Z.ltb_spec (Z.of_nat i) 0); [lia|]. rewrite Nat2Z.id, Q. cbn [rbind to_flag Z.eqb].
  rewrite IH; [reflexivity|]. intros j Hj. rewrite <- (R0 (S j)) by (cbn; lia). f_equal. lia.
Qed.
Lemma made_same slots : made slots slots = false.
Proof. unfold made. induction slots as [|[x|] r IH]; [reflexivity|exact IH|exact IH]. Qed.
Lemma import_slots_length env root c fr : forall slots i c' fr' sl t, import_slots env v838 true edit root i c fr slots = Ok (c', fr', sl, t) -> length sl = length slots.
Proof.
  induction slots as [|s r IH]; intros i c' fr' sl t E; cbn [import_slots] in E; [assert (Q : sl = []) by congruence; subst; reflexivity|].
  destruct (rd root (Z.of_nat i)); try discriminate. cbn [rbind] in E. destruct (to_flag a) as [[|]| | |]; try discriminate; cbn [rbind] in E.
  - destruct s as [q|]; [cbn [rbind] in E; assert (Q : sl = Some q :: r) by congruence; subst; reflexivity|].
    destruct (new_file env v838 c fr) as [[[x1 x2] x3]| | |]; try discriminate. cbn [rbind] in E.
    assert (Q : sl = None :: r \/ exists q, sl = Some q :: r) by (destruct x3 as [q|]; [right; exists q; congruence|left; congruence]). destruct Q as [-> |[q ->]]; reflexivity.
  - destruct (import_slots env v838 true edit root (S i) c fr r) as [[[[x1 x2] x3] x4]| | |] eqn:Er; try discriminate. cbn [rbind] in E.
    assert (Q : sl = s :: x3) by congruence. subst sl. cbn [length]. f_equal. eapply IH. exact Er.
Qed.
(** two imports: the second one writes what the first one did *)
Lemma two_imports c fr tabs ta pa ra ja ea sa tb pb rb jb eb sb c1 fr1 p :
  carries pa ra -> carries pb rb -> nth_error tabs ta = Some sa -> nth_error tabs tb = Some sb -> length sa = 3%nat -> length sb = 3%nat -> first_lacking ra sa ->
  (forall i, (i < 3)%nat -> nth_error rb i = Some 0) -> new_file ea v838 c fr = Ok (c1, fr1, Some p) -> inv c1 ->
  exists s, session v838 true edit describe [Import ta pa ja ea; Import tb pb jb eb] (SESS c fr tabs) = Ok (s, [true; false]) /\
    base_close (s_base s) = concat (view c1).
Proof.
  intros (da & ma & -> & Da & La) (db & mb & -> & Db & Lb) Ta Tb LSa LSb (j & B1 & B2 & B3) RB En Hi.
  cbn [session run_command]. unfold import_table at 1. rewrite Da. cbn [in_file s_tabs s_base s_free]. rewrite (read_root_full _ _ _ La), Ta.
  destruct (import_slots_lacking ea ra c fr c1 fr1 p En sa 0 j B1 B3 B2) as [sl E]. rewrite E. cbn [rbind fst snd].
  unfold import_table. rewrite Db. cbn [in_file s_tabs s_base s_free]. rewrite (read_root_full _ _ _ Lb).
  assert (Ls : length sl = 3%nat).
  { rewrite <- LSa. eapply import_slots_length. exact E. }
  assert (Et : exists s2, nth_error (splice tabs ta [sl]) tb = Some s2 /\ length s2 = 3%nat).
  { rewrite nth_splice1 by (apply nth_error_Some; congruence). destruct (Nat.eqb tb ta); eauto. }
  destruct Et as (s2 & Et & L2). rewrite Et.
  rewrite (import_slots_none eb rb c1 fr1 s2 0) by (intros i Hi'; apply RB; lia). cbn [rbind]. rewrite made_same. cbn [rbind fst snd].
  destruct (flush_refines c1 Hi) as (c2 & Ef & _ & _ & _ & Ec & _). rewrite Ef. cbn [rbind fst snd]. eexists. split; [reflexivity|]. exact Ec.
Qed.
End Two.

Lemma opened_view ps k file : good_file ps k file -> (2 <= k)%nat -> exists c, base_open ps file = Ok c /\ held ps file k c /\ size c = k /\ view c = pages_of ps file.
Proof.
  intros G K. destruct (open_ok _ _ _ G) as (c & Ec & I1 & I2 & I3 & I4 & I5). exists c. split; [exact Ec|]. unfold held, size, disk. rewrite I4. fold (base_close c).
  split; [split; [exact I1|split; [exact I2|split; [exact I5|lia]]]|auto].
Qed.
Lemma page_at ps k file n : good_file ps k file -> (n < k)%nat -> nth_error (pages_of ps file) n = Some (sub file (n * ps) ps).
Proof.
  intros (G1 & G2 & G3 & G4 & G5) Hn. unfold pages_of. rewrite G4, div_mul_exact by lia. rewrite nth_error_map.
  assert (Q : nth_error (seq 0 k) n = Some n). { rewrite nth_error_nth' with (d := 0%nat) by (rewrite seq_length; exact Hn). now rewrite seq_nth. }
  rewrite Q. reflexivity.
Qed.
Lemma root_page_empty v ps : (8 <= ps)%nat -> root_page (match v with V8380 => true | _ => false end) ps = page_of_empty v ps.
Proof.
  intros Hps.
  unfold root_page, page_of_empty. cbv zeta. assert (R : forall sg : list Z, (length sg <= ps)%nat -> firstn ps (sg ++ repeat 0 ps) = sg ++ repeat 0 (ps - length sg)).
  { intros sg Hs. rewrite firstn_app, firstn_all2 by exact Hs. f_equal. rewrite <- (firstn_skipn (ps - length sg) (repeat 0 ps)) at 1.
    rewrite firstn_app, firstn_firstn, Nat.min_id. rewrite firstn_length, repeat_length, Nat.min_l by lia. rewrite Nat.sub_diag. cbn [firstn]. rewrite app_nil_r.
    replace ps with ((ps - length sg) + length sg)%nat at 2 by lia. rewrite repeat_app, firstn_app, firstn_all2 by (rewrite repeat_length; lia). rewrite repeat_length, Nat.sub_diag. cbn [firstn]. apply app_nil_r. }
  destruct v; rewrite R by (cbn [length]; lia); reflexivity.
Qed.
Lemma pages_whole ps (bs : list Z) : forall k, concat (map (fun i => sub bs (i * ps) ps) (seq 0 k)) = firstn (k * ps) bs.
Proof.
  induction k as [|k IH]; [reflexivity|]. rewrite seq_S, map_app, concat_app, IH. cbn [map concat Nat.add]. rewrite app_nil_r. unfold sub.
  replace (S k * ps)%nat with (k * ps + ps)%nat by lia. rewrite <- (firstn_skipn (k * ps) (firstn (k * ps + ps) bs)).
  rewrite firstn_firstn, Nat.min_l by lia. f_equal. rewrite skipn_firstn_comm. f_equal. lia.
Qed.
Lemma grown_pages v ps k file : good_file ps k file -> (16 <= ps)%nat ->
  concat (put_count (pages_of ps file) (S k) ++ [root_page (match v with V8380 => true | _ => false end) ps]) = grown v ps k file.
Proof.
  intros (G1 & G2 & _ & G4 & _) Hps. rewrite concat_app. cbn [concat]. rewrite app_nil_r. pose proof (pages_whole ps file k) as W. rewrite firstn_all2 in W by lia.
  assert (P : pages_of ps file = map (fun i => sub file (i * ps) ps) (seq 0 k)) by (unfold pages_of; now rewrite G4, div_mul_exact by lia). rewrite <- P in W.
  assert (L : length (nth 0 (pages_of ps file) []) = ps /\ pages_of ps file <> []).
  { rewrite P. destruct k as [|k]; [lia|]. cbn [seq map nth]. split; [apply sub_length; lia|discriminate]. }
  destruct (pages_of ps file) as [|h r]; [now destruct L|]. cbn [nth] in L. destruct L as [L _]. cbn [put_count concat] in *. unfold grown. rewrite <- W.
  unfold splice. rewrite le_bytes_length. cbn [Nat.add]. rewrite firstn_app, skipn_app, L. replace (12 - ps)%nat with 0%nat by lia. replace (16 - ps)%nat with 0%nat by lia.
  cbn [firstn skipn]. rewrite app_nil_r. replace (Z.of_nat (S k)) with (Z.of_nat k + 1) by lia. rewrite <- !app_assoc. do 4 f_equal.
  apply root_page_empty. lia.
Qed.
Theorem free_page_lost edit describe junk file m h k fr tabs b ta pa ra ja ea sa tb pb rb jb eb sb :
  for_viewing file m -> open_view true true junk file m = Ok h -> sound (h_page h) k file fr -> Z.of_nat k + 2 < 2^32 ->
  carries pa ra -> carries pb rb -> nth_error tabs ta = Some sa -> nth_error tabs tb = Some sb -> length sa = 3%nat -> length sb = 3%nat ->
  first_lacking ra sa -> (forall i, (i < 3)%nat -> nth_error rb i = Some 0) ->
  0 < fr_len fr -> nth_error (fr_pages fr) (Z.to_nat ((fr_len fr - 1) / 1024)) = Some b ->
  0 <= number_at (Z.to_nat (h_page h)) file (Z.to_nat b) (Z.to_nat ((fr_len fr - 1) mod 1024)) < Z.of_nat k ->
  number_at (Z.to_nat (h_page h)) file (Z.to_nat b) (Z.to_nat ((fr_len fr - 1) mod 1024)) <> 1 ->
  exists file', program edit describe junk file m fr tabs [Import ta pa ja ea; Import tb pb jb eb] = Ok (file', [true; false]) /\
    free_count (Z.to_nat (h_page h)) file' = fr_len fr - 1 /\ length file' = length file /\
    sub file' (Z.to_nat (number_at (Z.to_nat (h_page h)) file (Z.to_nat b) (Z.to_nat ((fr_len fr - 1) mod 1024))) * Z.to_nat (h_page h)) (Z.to_nat (h_page h)) = page_of_empty (h_ver h) (Z.to_nat (h_page h)).
Proof.
  intros V O (P & K & G & F1 & F2) Hm Ca Cb Ta Tb La Lb Fl RB L0 Eb Hp Hp1. unfold program. rewrite O. cbn [rbind]. rewrite (viewing_flag junk file m h V O).
  set (ps := Z.to_nat (h_page h)) in *. assert (Hps : (4096 <= ps)%nat) by (unfold ps; lia).
  destruct (opened_view ps k file G K) as (c & Ec & H & Sz & Vw). rewrite Ec. cbn [rbind]. set (v := match h_ver h with V8380 => true | _ => false end).
  assert (Hb : 0 <= b < Z.of_nat k) by (rewrite Forall_forall in F1; apply F1; eapply nth_error_In, Eb).
  destruct (new_file_takes edit describe v ps file k Hps ea c fr b H Sz ltac:(lia) ltac:(lia) F2 Eb Hb) as (c1 & p & En & H1 & Sz1 & Nr & (db & Ndb & Edb) & q & Nq & Sq).
  { intros d Nd. rewrite Vw, (page_at ps k) in Nd by (first [exact G|lia]). assert (Q : d = sub file (Z.to_nat b * ps) ps) by congruence. subst d. cbv zeta.
    pose proof (Z.mod_pos_bound (fr_len fr - 1) 1024 ltac:(lia)) as Ha. rewrite sub_sub by lia. exact (conj Hp Hp1). }
  destruct (two_imports edit describe v ps Hps c fr tabs ta pa ra ja ea sa tb pb rb jb eb sb c1 _ p Ca Cb Ta Tb La Lb Fl RB En (proj1 H1)) as (s & Es & Ecl).
  rewrite Es. cbn [rbind fst snd]. rewrite Ecl. eexists. split; [reflexivity|]. unfold free_count.
  pose proof (view_pages c1 (proj1 H1)) as Vp. destruct H1 as (I1 & I2 & _ & I4 & I5). rewrite I2 in Vp. unfold size in I4.
  split; [|split].
  - pose proof (sub_concat (view c1) ps 1 Vp I5) as Sc. rewrite Nat.mul_1_l in Sc.
    assert (Q : q = sub (concat (view c1)) ps ps) by congruence. subst q. rewrite sub_sub in Sq by lia. rewrite Sq, le_val_bytes.
    change (256 ^ Z.of_nat 4) with (2^32). apply Z.mod_small. lia.
  - rewrite (concat_length_const _ ps Vp), Sz1. symmetry. apply G.
  - rewrite Vw, (page_at ps k) in Ndb by (first [exact G|lia]). assert (Q : db = sub file (Z.to_nat b * ps) ps) by congruence. subst db.
    pose proof (Z.mod_pos_bound (fr_len fr - 1) 1024 ltac:(lia)) as Ha. rewrite sub_sub in Edb by lia. unfold number_at. rewrite <- Edb.
    assert (Hq : (Z.to_nat p < length (view c1))%nat) by (apply nth_error_Some; rewrite Nr; discriminate).
    pose proof (sub_concat (view c1) ps _ Vp Hq) as Sc. rewrite Sc in Nr. assert (Q : sub (concat (view c1)) (Z.to_nat p * ps) ps = root_page v ps) by congruence.
    rewrite Q. apply root_page_empty. lia.
Qed.
Theorem file_grown edit describe junk file m h k fr tabs ta pa ra ja ea sa tb pb rb jb eb sb :
  for_viewing file m -> open_view true true junk file m = Ok h -> sound (h_page h) k file fr -> Z.of_nat k + 3 < 2^32 ->
  carries pa ra -> carries pb rb -> nth_error tabs ta = Some sa -> nth_error tabs tb = Some sb -> length sa = 3%nat -> length sb = 3%nat ->
  first_lacking ra sa -> (forall i, (i < 3)%nat -> nth_error rb i = Some 0) -> fr_len fr = 0 ->
  exists file', program edit describe junk file m fr tabs [Import ta pa ja ea; Import tb pb jb eb] = Ok (file', [true; false]) /\
    file' = grown (h_ver h) (Z.to_nat (h_page h)) k file.
Proof.
  intros V O (P & K & G & F1 & F2) Hm Ca Cb Ta Tb La Lb Fl RB L0. unfold program. rewrite O. cbn [rbind]. rewrite (viewing_flag junk file m h V O).
  set (ps := Z.to_nat (h_page h)) in *. assert (Hps : (4096 <= ps)%nat) by (unfold ps; lia).
  destruct (opened_view ps k file G K) as (c & Ec & H & Sz & Vw). rewrite Ec. cbn [rbind]. set (v := match h_ver h with V8380 => true | _ => false end).
  destruct (new_file_grows edit describe v ps file k Hps ea c fr H Sz ltac:(lia) L0) as (c1 & p & En & H1 & S1 & V1).
  destruct (two_imports edit describe v ps Hps c fr tabs ta pa ra ja ea sa tb pb rb jb eb sb c1 _ p Ca Cb Ta Tb La Lb Fl RB En (proj1 H1)) as (s & Es & Ecl).
  rewrite Es. cbn [rbind fst snd]. rewrite Ecl. eexists. split; [reflexivity|].
  rewrite V1, Vw. apply grown_pages; [exact G|lia].
Qed.

(** ** a file that may not be written *)
Theorem needs_writing r w junk file m h : open_view r w junk file m = Ok h -> r && w = false -> firstn 8 junk = [49; 67; 68; 66; 77; 83; 86; 56].
Proof.
  unfold open_view, delivered. intros E Q. rewrite Q in E. unfold open_header in E. change (firstn 24 (@nil Z)) with (@nil Z) in E. cbn [length skipn app] in E. change (bs _) with [49; 67; 68; 66; 77; 83; 86; 56] in E.
  destruct (teq (firstn 8 junk) [49; 67; 68; 66; 77; 83; 86; 56]) eqn:T; [|discriminate]. apply teq_true in T. exact T.
Qed.
Theorem not_writable junk file m : firstn 8 junk <> [49; 67; 68; 66; 77; 83; 86; 56] -> open_view true false junk file m = Throw.
Proof.
  intros N. unfold open_view, delivered. cbn [andb]. unfold open_header. change (firstn 24 (@nil Z)) with (@nil Z). cbn [length skipn app]. change (bs _) with [49; 67; 68; 66; 77; 83; 86; 56].
  destruct (teq (firstn 8 junk) [49; 67; 68; 66; 77; 83; 86; 56]) eqn:T; [apply teq_true in T; contradiction|reflexivity].
Qed.
Theorem same_databases junk file h : open_view true true junk file true = Ok h ->
  exists r, open_view true true junk file false = Ok (HD (h_ver h) (h_page h) (h_pages h) r).
Proof.
  unfold open_view, delivered. cbn [andb]. unfold open_header. cbv zeta.
  destruct (negb (teq _ _)); [discriminate|]. destruct (ver_of _ _ _ _) as [v|]; [|discriminate].
  destruct (_ =? 0); [discriminate|]. destruct (negb _); [discriminate|]. destruct (negb _); [discriminate|]. intros Q. injection Q as <-. cbn [h_ver h_page h_pages]. eexists. reflexivity.
Qed.
