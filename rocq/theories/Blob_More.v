(** Writing a blob from memory; blobs in objects stored in pages. *)
From Verif Require Import Prelude Lists Obj_Model Obj_Spec Obj_Proofs Obj_More Obj_Hist Blob_Model Blob_Spec Blob_Proofs Blob_Read Blob_Write Blob_Hist.
Ltac Zify.zify_post_hook ::= idtac.

(** ** write_blob_record(char*, len) *)
Section Buffer.
Context {S : Type}.
Variable get : S -> Z -> Z -> res (list Z).
Variable put : S -> Z -> list Z -> res S.
Variable size : S -> Z.
Notation pb := (put_buffer get put size).
Notation pc := (put_chunks get put size).

Lemma pc_nil k s cur prev : pc k s [] cur prev = Ok (s, cur).
Proof. destruct k; reflexivity. Qed.
Lemma sub_cons_ne {A} (l : list A) o n : (0 < n)%nat -> (o + n <= length l)%nat -> sub l o n <> [].
Proof. intros H1 H2 E. apply (f_equal (@length A)) in E. rewrite sub_length in E by lia. cbn [length] in E. lia. Qed.
Lemma step250 (buf : list Z) pos left : 0 <= pos -> 250 <= left -> pos + left <= zlen buf -> let d := sub buf (Z.to_nat pos) (Z.to_nat left) in
  Z.min (zlen d) 250 = 250 /\ firstn (Z.to_nat 250) d ++ repeat 0 (Z.to_nat (250 - 250)) = sub buf (Z.to_nat pos) 250 /\ skipn (Z.to_nat 250) d = sub buf (Z.to_nat (pos + 250)) (Z.to_nat (left - 250)).
Proof.
  intros H1 H2 H3 d. assert (Ld : length d = Z.to_nat left) by (apply sub_length; unfold zlen in H3; lia). split; [unfold zlen; lia|]. split.
  - change (Z.to_nat (250 - 250)) with 0%nat. cbn [repeat]. rewrite app_nil_r, <- sub_0_firstn. unfold d. rewrite sub_sub by lia. f_equal. lia.
  - unfold d, sub. rewrite skipn_firstn_comm, skipn_plus. f_equal; [lia|]. f_equal. lia.
Qed.
(** a multiple of 250: as from a stream *)
Lemma buffer_full : forall fuel s buf pos left cur prev, 0 <= pos -> 0 <= left -> pos + left <= zlen buf -> left mod 250 = 0 -> (Z.to_nat left <= fuel)%nat ->
  pb fuel s buf pos left cur prev = do x <- pc fuel s (sub buf (Z.to_nat pos) (Z.to_nat left)) cur prev; Ok (fst x, snd x, buf).
Proof.
  induction fuel as [|k IH]; intros s buf pos left cur prev H1 H2 H3 Hm Hk.
  - assert (left = 0) by lia. subst left. cbn [put_buffer]. rewrite Z.eqb_refl. change (Z.to_nat 0) with 0%nat. rewrite sub_nil, pc_nil. reflexivity.
  - cbn [put_buffer]. destruct (Z.eqb_spec left 0) as [->|Hne]; [change (Z.to_nat 0) with 0%nat; rewrite sub_nil, pc_nil; reflexivity|].
    assert (Hl : 250 <= left) by (pose proof (Z.div_mod left 250 ltac:(lia)); assert (0 < left / 250) by nia; lia).
    destruct (step250 buf pos left H1 Hl H3) as (E1 & E2 & E3). change BLOB_DATA with 250. replace (Z.min left 250) with 250 by lia. change (250 <? 250) with false. cbn [rbind]. rewrite rdn_ok by lia. cbn [rbind].
    rewrite put_chunks_S by (apply sub_cons_ne; unfold zlen in H3; lia). cbv zeta. rewrite E1, E2, E3. change (Z.to_nat 250) with 250%nat.
    destruct (put_chunk get put size s cur prev 250 (sub buf (Z.to_nat pos) 250)) as [[s1 n1]| | |]; try reflexivity. cbn [rbind fst snd].
    assert (Hm' : (left - 250) mod 250 = 0) by (replace left with (left - 250 + 1 * 250) in Hm by lia; rewrite Z.mod_add in Hm by lia; exact Hm).
    rewrite (IH s1 buf (pos + 250) (left - 250) n1 (u32 (cur * 256))); [reflexivity|lia|lia|lia|exact Hm'|lia].
Qed.
(** otherwise: the last bytes are replaced by zeros, in the file and in the memory of the caller, if it is large enough *)
Lemma buffer_tail : forall fuel s buf pos left cur prev, 0 <= pos -> 0 <= left -> left mod 250 <> 0 -> pos + 250 * (left / 250) + 250 <= zlen buf -> (Z.to_nat left <= fuel)%nat ->
  pb fuel s buf pos left cur prev = do x <- pc fuel s (sub buf (Z.to_nat pos) (Z.to_nat (250 * (left / 250))) ++ repeat 0 (Z.to_nat (left mod 250))) cur prev;
    Ok (fst x, snd x, splice buf (Z.to_nat (pos + 250 * (left / 250))) (repeat 0 250)).
Proof.
  induction fuel as [|k IH]; intros s buf pos left cur prev H1 H2 Hm H3 Hk; [assert (left = 0) by lia; subst left; now elim Hm|].
  cbn [put_buffer]. destruct (Z.eqb_spec left 0) as [->|Hne]; [now elim Hm|]. pose proof (Z.div_mod left 250 ltac:(lia)) as Hdm. pose proof (Z.mod_pos_bound left 250 ltac:(lia)) as Hb. change BLOB_DATA with 250.
  destruct (Z_lt_le_dec left 250) as [Hs|Hl].
  - assert (Hq : left / 250 = 0) by (apply Z.div_small; lia). assert (Hr : left mod 250 = left) by (apply Z.mod_small; lia). rewrite Hq, Hr in *. change (Z.to_nat (250 * 0)) with 0%nat. rewrite sub_nil. cbn [app].
    replace (Z.min left 250) with left by lia. destruct (Z.ltb_spec left 250); [|lia]. unfold wrn. change (zlen (repeat 0 (Z.to_nat 250))) with 250. destruct (_ || _) eqn:Q; [lia|]. cbn [rbind].
    replace (Z.to_nat (pos + 250 * 0)) with (Z.to_nat pos) by lia. set (buf' := splice buf (Z.to_nat pos) (repeat 0 (Z.to_nat 250))). change (repeat 0 250) with (repeat 0 (Z.to_nat 250)). fold buf'.
    assert (L250 : length (repeat 0 (Z.to_nat 250)) = 250%nat) by (rewrite repeat_length; reflexivity). assert (Hfit : (Z.to_nat pos + length (repeat 0%Z (Z.to_nat 250)) <= length buf)%nat) by (rewrite L250; unfold zlen in H3; lia).
    assert (Lb : length buf' = length buf) by (unfold buf'; now apply splice_length). rewrite rdn_ok by (unfold zlen in *; lia). cbn [rbind].
    assert (Er : sub buf' (Z.to_nat pos) (Z.to_nat 250) = repeat 0 (Z.to_nat 250)) by (change (Z.to_nat 250) with (length (repeat 0 (Z.to_nat 250))) at 1; unfold buf'; now apply sub_splice_same). rewrite Er.
    rewrite put_chunks_S by (destruct (Z.to_nat left) eqn:Q2; [lia|discriminate]). cbv zeta.
    assert (Ez : zlen (repeat 0 (Z.to_nat left)) = left) by (unfold zlen; rewrite repeat_length; lia). rewrite Ez. replace (Z.min left 250) with left by lia.
    rewrite firstn_all2 by (rewrite repeat_length; lia). rewrite <- repeat_app. replace (Z.to_nat left + Z.to_nat (250 - left))%nat with (Z.to_nat 250) by lia.
    destruct (put_chunk get put size s cur prev left (repeat 0 (Z.to_nat 250))) as [[s1 n1]| | |]; try reflexivity. cbn [rbind fst snd]. rewrite Z.sub_diag.
    rewrite skipn_all2 by (rewrite repeat_length; lia). destruct k; reflexivity.
  - assert (Hq : left / 250 = (left - 250) / 250 + 1) by (replace left with (left - 250 + 1 * 250) at 1 by lia; rewrite Z.div_add by lia; lia).
    assert (Hr : left mod 250 = (left - 250) mod 250) by (replace left with (left - 250 + 1 * 250) at 1 by lia; rewrite Z.mod_add by lia; reflexivity).
    set (q := (left - 250) / 250) in *. set (r := (left - 250) mod 250) in *. rewrite Hq, Hr in *. assert (Hq0 : 0 <= q) by lia.
    replace (Z.min left 250) with 250 by lia. change (250 <? 250) with false. cbn [rbind]. rewrite rdn_ok by lia. cbn [rbind]. change (Z.to_nat 250) with 250%nat.
    set (d := sub buf (Z.to_nat pos) (Z.to_nat (250 * (q + 1))) ++ repeat 0 (Z.to_nat r)).
    assert (Ls : length (sub buf (Z.to_nat pos) (Z.to_nat (250 * (q + 1)))) = Z.to_nat (250 * (q + 1))) by (apply sub_length; unfold zlen in H3; lia).
    destruct (step250 buf pos (250 * (q + 1)) H1 ltac:(lia) ltac:(lia)) as (E1 & E2 & E3). change (Z.to_nat 250) with 250%nat in E2, E3. change (Z.to_nat (250 - 250)) with 0%nat in E2. cbn [repeat] in E2. rewrite app_nil_r in E2.
    rewrite put_chunks_S by (intros Q; apply (f_equal (@length Z)) in Q; unfold d in Q; rewrite app_length, Ls in Q; cbn [length] in Q; lia). cbv zeta.
    assert (Ed : Z.min (zlen d) 250 = 250) by (unfold d, zlen; rewrite app_length, Ls; lia). rewrite Ed. change (Z.to_nat 250) with 250%nat. change (Z.to_nat (250 - 250)) with 0%nat. cbn [repeat]. rewrite app_nil_r.
    assert (F1 : firstn 250 d = sub buf (Z.to_nat pos) 250) by (unfold d; rewrite firstn_app; replace (250 - length (sub buf (Z.to_nat pos) (Z.to_nat (250 * (q + 1)))))%nat with 0%nat by lia; cbn [firstn]; rewrite app_nil_r; exact E2).
    assert (F2 : skipn 250 d = sub buf (Z.to_nat (pos + 250)) (Z.to_nat (250 * q)) ++ repeat 0 (Z.to_nat r)).
    { unfold d. rewrite skipn_app. replace (250 - length (sub buf (Z.to_nat pos) (Z.to_nat (250 * (q + 1)))))%nat with 0%nat by lia. rewrite E3. f_equal. f_equal. lia. }
    rewrite F1, F2. destruct (put_chunk get put size s cur prev 250 (sub buf (Z.to_nat pos) 250)) as [[s1 n1]| | |]; try reflexivity. cbn [rbind fst snd].
    rewrite (IH s1 buf (pos + 250) (left - 250) n1 (u32 (cur * 256))); [|lia|lia|fold r; lia|fold q; lia|lia]. fold q. fold r. replace (pos + 250 + 250 * q) with (pos + 250 * (q + 1)) by lia. reflexivity.
Qed.
(** a buffer without room behind the data *)
Lemma buffer_tight : forall fuel s buf pos left cur prev x, 0 <= pos -> 0 <= left -> left mod 250 <> 0 -> pos + left <= zlen buf -> zlen buf < pos + 250 * (left / 250) + 250 -> (Z.to_nat left <= fuel)%nat ->
  pc fuel s (sub buf (Z.to_nat pos) (Z.to_nat (250 * (left / 250)))) cur prev = Ok x -> pb fuel s buf pos left cur prev = UB.
Proof.
  induction fuel as [|k IH]; intros s buf pos left cur prev x H1 H2 Hm H3 H4 Hk E; [assert (left = 0) by lia; subst left; now elim Hm|].
  cbn [put_buffer]. destruct (Z.eqb_spec left 0) as [->|Hne]; [now elim Hm|]. pose proof (Z.div_mod left 250 ltac:(lia)) as Hdm. pose proof (Z.mod_pos_bound left 250 ltac:(lia)) as Hb. change BLOB_DATA with 250.
  destruct (Z_lt_le_dec left 250) as [Hs|Hl].
  - assert (Hq : left / 250 = 0) by (apply Z.div_small; lia). rewrite Hq in *. replace (Z.min left 250) with left by lia. destruct (Z.ltb_spec left 250); [|lia]. unfold wrn. change (zlen (repeat 0 (Z.to_nat 250))) with 250. destruct (_ || _) eqn:Q; [reflexivity|lia].
  - assert (Hq : left / 250 = (left - 250) / 250 + 1) by (replace left with (left - 250 + 1 * 250) at 1 by lia; rewrite Z.div_add by lia; lia).
    assert (Hr : left mod 250 = (left - 250) mod 250) by (replace left with (left - 250 + 1 * 250) at 1 by lia; rewrite Z.mod_add by lia; reflexivity).
    set (q := (left - 250) / 250) in *. rewrite Hq, Hr in *. assert (Hq0 : 0 <= q) by lia.
    replace (Z.min left 250) with 250 by lia. change (250 <? 250) with false. cbn [rbind]. rewrite rdn_ok by lia. cbn [rbind]. change (Z.to_nat 250) with 250%nat.
    destruct (step250 buf pos (250 * (q + 1)) H1 ltac:(lia) ltac:(lia)) as (E1 & E2 & E3).
    rewrite put_chunks_S in E by (apply sub_cons_ne; unfold zlen in H3; lia). cbv zeta in E. rewrite E1, E2, E3 in E.
    destruct (put_chunk get put size s cur prev 250 (sub buf (Z.to_nat pos) 250)) as [[s1 n1]| | |]; try discriminate. cbn [rbind fst snd] in *.
    apply (IH s1 buf (pos + 250) (left - 250) n1 (u32 (cur * 256)) x); try lia. fold q. replace (250 * (q + 1) - 250) with (250 * q) in E by lia. exact E.
Qed.

Lemma write_full s buf : zlen buf mod 250 = 0 -> write_blob_buffer get put size s buf (zlen buf) = do r <- write_blob get put size s buf; Ok (fst r, snd r, buf).
Proof.
  intros Hm. unfold write_blob_buffer, write_blob. destruct buf as [|z b] eqn:Eb; [reflexivity|]. rewrite <- Eb in *. assert (Hp : 0 < zlen buf) by (subst buf; rewrite zlen_cons; pose proof (zlen_nonneg b); lia). clear Eb z b.
  destruct (Z.eqb_spec (zlen buf) 0); [lia|]. destruct (first_block get size s) as [first| | |]; try reflexivity. cbn [rbind]. rewrite buffer_full; try lia. unfold zlen. rewrite Nat2Z.id. change (Z.to_nat 0) with 0%nat. rewrite sub_all.
  destruct (put_chunks get put size (length buf) s buf first 0) as [[s1 n1]| | |]; try reflexivity. cbn [rbind fst snd]. destruct (set_free_head put size s1 n1); reflexivity.
Qed.
Lemma write_tail s buf len : 0 < len -> len mod 250 <> 0 -> 250 * (len / 250) + 250 <= zlen buf ->
  write_blob_buffer get put size s buf len = do r <- write_blob get put size s (firstn (Z.to_nat (250 * (len / 250))) buf ++ repeat 0 (Z.to_nat (len mod 250)));
    Ok (fst r, snd r, splice buf (Z.to_nat (250 * (len / 250))) (repeat 0 250)).
Proof.
  intros Hp Hm Hc. unfold write_blob_buffer, write_blob. pose proof (Z.mod_pos_bound len 250 ltac:(lia)) as Hb. pose proof (Z.div_mod len 250 ltac:(lia)) as Hdm. assert (0 <= len / 250) by (apply Z.div_pos; lia).
  set (d := firstn _ buf ++ _). assert (Ld : length d = Z.to_nat len) by (unfold d; rewrite app_length, firstn_length, repeat_length; unfold zlen in Hc; lia).
  destruct d as [|z b] eqn:Eb; [cbn [length] in Ld; lia|]. rewrite <- Eb in *. clear Eb z b. destruct (Z.eqb_spec len 0); [lia|]. destruct (first_block get size s) as [first| | |]; try reflexivity. cbn [rbind]. rewrite Ld.
  rewrite buffer_tail by lia. change (Z.to_nat 0) with 0%nat. rewrite sub_0_firstn. rewrite Z.add_0_l. fold d.
  destruct (put_chunks get put size (Z.to_nat len) s d first 0) as [[s1 n1]| | |]; try reflexivity. cbn [rbind fst snd]. destruct (set_free_head put size s1 n1); reflexivity.
Qed.
End Buffer.

Lemma write_tight f live own free buf : blob_file f live own free -> bytes_ok buf -> zlen buf mod 250 <> 0 -> zlen f + 256 * Z.of_nat (chunks_for (length buf)) < 2^32 ->
  write_blob_buffer mem_get mem_put (@zlen Z) f buf (zlen buf) = UB.
Proof.
  intros HF Hbb Hm H32. destruct (file_n _ _ _ _ HF) as (n & Hf & Hn). destruct HF as (Hb & _ & (h & Hh & Eh & Hfr) & Hlive & Hnd). pose proof (free_hd _ _ _ Hfr) as Ehd. subst h.
  destruct (NoDup_app_d _ _ Hnd) as (_ & Hnd2 & _). assert (H0 : ~ In 0 free) by (intros Q; pose proof (free_in _ _ _ Hfr 0 Q); lia).
  pose proof (Z.div_mod (zlen buf) 250 ltac:(lia)) as Hdm. pose proof (Z.mod_pos_bound (zlen buf) 250 ltac:(lia)) as Hmb. pose proof (zlen_nonneg buf). assert (Hq : 0 <= zlen buf / 250) by (apply Z.div_pos; lia).
  set (d := sub buf 0 (Z.to_nat (250 * (zlen buf / 250)))).
  assert (Ld : (length d <= length buf)%nat) by (unfold d; rewrite sub_0_firstn, firstn_length; lia).
  assert (Hch : (chunks_for (length d) <= chunks_for (length buf))%nat) by (apply Nat.div_le_mono; lia).
  destruct (put_chunks_ok (Z.to_nat (zlen buf)) d f n free 0 [] ltac:(unfold zlen in *; lia) Hb (bytes_ok_sub _ _ _ Hbb) Hf Hn ltac:(lia) Hnd2 Hfr ltac:(lia) H0 ltac:(lia)) as (f' & n' & bs & ds & fr' & E & _).
  unfold write_blob_buffer. destruct (Z.eqb_spec (zlen buf) 0) as [Q|]; [rewrite Q in Hm; now elim Hm|]. unfold first_block. change 0 with (256 * 0) at 1. rewrite (get4 f n) by (try lia; assumption). cbn [rbind].
  change (Z.to_nat (256 * 0)) with 0%nat. rewrite Eh, u32_le4 by exact Hh. cbn [rbind].
  assert (Ef : (if hd 0 free =? 0 then u32 (zlen f / 256) else hd 0 free) = hd n free).
  { destruct free as [|c fr]; cbn [hd]; [|pose proof (free_in _ _ _ Hfr c (or_introl eq_refl)); destruct (Z.eqb_spec c 0); [lia|reflexivity]]. cbn [Z.eqb]. rewrite Hf. rewrite Z.mul_comm, Z.div_mul by lia. unfold u32. apply Z.mod_small. lia. }
  rewrite Ef. rewrite (buffer_tight mem_get mem_put (@zlen Z) (Z.to_nat (zlen buf)) f buf 0 (zlen buf) (hd n free) 0 (f', hd n' fr')); try lia; [reflexivity|]. exact E.
Qed.

(** ** Objects in pages: what runs on bytes without growth runs on them *)
Section Sim.
Context {T : Type}.
Variable get : T -> Z -> Z -> res (list Z).
Variable put : T -> Z -> list Z -> res T.
Variable size : T -> Z.
Variable R : T -> list Z -> Prop.
Hypothesis Hget : forall s f, R s f -> faithful get size s f.
Hypothesis Hput : forall s f off d, R s f -> bytes_ok d -> d <> [] -> 0 <= off -> off + zlen d <= zlen f -> exists s', put s off d = Ok s' /\ R s' (splice f (Z.to_nat off) d).

Lemma put_len f off d g : mem_put f off d = Ok g -> zlen g = Z.max (zlen f) (off + zlen d) /\ 0 <= off.
Proof.
  unfold mem_put. destruct ((off <? 0) || (zlen f <? off)) eqn:E; [discriminate|]. intros [= <-]. split; [|lia]. unfold zlen in *. rewrite !app_length, firstn_length, skipn_length. lia.
Qed.
Lemma sim_put s f off d g : R s f -> mem_put f off d = Ok g -> zlen g = zlen f -> bytes_ok d -> d <> [] -> exists s', put s off d = Ok s' /\ R s' g.
Proof.
  intros HR E Hl Hd Hne. destruct (put_len _ _ _ _ E) as [L H0]. destruct (Hput s f off d HR Hd Hne H0 ltac:(lia)) as (s' & Es & HR'). exists s'. split; [exact Es|].
  replace g with (splice f (Z.to_nat off) d); [exact HR'|]. unfold mem_put in E. destruct (_ || _); [discriminate|]. injection E as <-. unfold splice. do 3 f_equal. unfold zlen. lia.
Qed.
Lemma sim_get s f off n x : R s f -> 0 < n -> mem_get f off n = Ok x -> get s off n = Ok x.
Proof.
  intros HR Hn E. unfold mem_get in E. destruct ((off <? 0) || (n <? 0) || (zlen f <? off + n)) eqn:Q; [discriminate|]. rewrite rdn_ok in E by lia. destruct (Hget s f HR) as [_ G]. rewrite G by lia. exact E.
Qed.
Lemma sim_size s f : R s f -> size s = zlen f. Proof. intros HR. apply (Hget s f HR). Qed.
Lemma le_ne n v : le_bytes (S n) v <> []. Proof. discriminate. Qed.

Lemma sim_chunk s f cur prev len rec f4 nx : R s f -> bytes_ok rec -> rec <> [] -> put_chunk mem_get mem_put (@zlen Z) f cur prev len rec = Ok (f4, nx) -> zlen f4 = zlen f ->
  exists s4, put_chunk get put size s cur prev len rec = Ok (s4, nx) /\ R s4 f4.
Proof.
  intros HR Hrec Hne E Hl. unfold put_chunk in E.
  destruct (if prev =? 0 then Ok f else mem_put f prev (le_bytes 4 cur)) as [f1| | |] eqn:E1; try discriminate. cbn [rbind] in E. set (off := u32 (cur * 256)) in *.
  destruct (if off <? zlen f1 then do b <- mem_get f1 off 4; u32at b 0 else Ok 0) as [nxt| | |] eqn:En; try discriminate. cbn [rbind] in E.
  destruct (mem_put f1 off (le_bytes 4 0)) as [f2| | |] eqn:E2; try discriminate. cbn [rbind] in E. destruct (mem_put f2 (u32 (off + 4)) (le_bytes 2 len)) as [f3| | |] eqn:E3; try discriminate. cbn [rbind] in E.
  destruct (mem_put f3 (u32 (off + 6)) rec) as [f4'| | |] eqn:E4; try discriminate. cbn [rbind] in E. injection E as <- <-.
  assert (L1 : zlen f <= zlen f1) by (destruct (prev =? 0); [injection E1 as <-; lia|]; apply put_len in E1; lia).
  pose proof (put_len _ _ _ _ E2). pose proof (put_len _ _ _ _ E3). pose proof (put_len _ _ _ _ E4).
  assert (A1 : exists s1, (if prev =? 0 then Ok s else put s prev (le_bytes 4 cur)) = Ok s1 /\ R s1 f1).
  { destruct (prev =? 0); [injection E1 as <-; eauto|]. apply (sim_put s f); [exact HR|exact E1|lia|apply le_bytes_ok|discriminate]. }
  destruct A1 as (s1 & A1 & R1).
  destruct (sim_put s1 f1 off _ f2 R1 E2 ltac:(lia) (le_bytes_ok _ _) (le_ne _ _)) as (s2 & A2 & R2).
  destruct (sim_put s2 f2 _ _ f3 R2 E3 ltac:(lia) (le_bytes_ok _ _) (le_ne _ _)) as (s3 & A3 & R3).
  destruct (sim_put s3 f3 _ _ f4' R3 E4 ltac:(lia) Hrec Hne) as (s4 & A4 & R4).
  exists s4. split; [|exact R4]. unfold put_chunk. rewrite A1. cbn [rbind]. fold off. rewrite (sim_size s1 f1 R1).
  assert (Gn : (if off <? zlen f1 then do b <- get s1 off 4; u32at b 0 else Ok 0) = Ok nxt).
  { destruct (off <? zlen f1); [|exact En]. destruct (mem_get f1 off 4) as [x| | |] eqn:Q; try discriminate. rewrite (sim_get s1 f1 off 4 x R1 ltac:(lia) Q). exact En. }
  rewrite Gn. cbn [rbind]. rewrite A2. cbn [rbind]. rewrite A3. cbn [rbind]. rewrite A4. cbn [rbind]. rewrite (sim_size s4 f4' R4). reflexivity.
Qed.
Lemma mem_chunk_len f cur prev len rec f4 nx : put_chunk mem_get mem_put (@zlen Z) f cur prev len rec = Ok (f4, nx) -> zlen f <= zlen f4.
Proof.
  intros E. unfold put_chunk in E.
  destruct (if prev =? 0 then Ok f else mem_put f prev (le_bytes 4 cur)) as [f1| | |] eqn:E1; try discriminate. cbn [rbind] in E. set (off := u32 (cur * 256)) in *.
  destruct (if off <? zlen f1 then do b <- mem_get f1 off 4; u32at b 0 else Ok 0) as [nxt| | |] eqn:En; try discriminate. cbn [rbind] in E.
  destruct (mem_put f1 off (le_bytes 4 0)) as [f2| | |] eqn:E2; try discriminate. cbn [rbind] in E. destruct (mem_put f2 (u32 (off + 4)) (le_bytes 2 len)) as [f3| | |] eqn:E3; try discriminate. cbn [rbind] in E.
  destruct (mem_put f3 (u32 (off + 6)) rec) as [f4'| | |] eqn:E4; try discriminate. cbn [rbind] in E. injection E as <- <-.
  assert (L1 : zlen f <= zlen f1) by (destruct (prev =? 0); [injection E1 as <-; lia|]; apply put_len in E1; lia).
  pose proof (put_len _ _ _ _ E2). pose proof (put_len _ _ _ _ E3). pose proof (put_len _ _ _ _ E4). lia.
Qed.
Lemma mem_chunks_len : forall k f d cur prev f' nx, put_chunks mem_get mem_put (@zlen Z) k f d cur prev = Ok (f', nx) -> zlen f <= zlen f'.
Proof.
  induction k as [|k IH]; intros f d cur prev f' nx E; (destruct (list_eq_dec Z.eq_dec d []) as [->|Hne]; [rewrite pc_nil in E; injection E as <- <-; lia|]).
  - destruct d; [now elim Hne|discriminate].
  - rewrite put_chunks_S in E by exact Hne. cbv zeta in E. destruct (put_chunk mem_get mem_put (@zlen Z) f cur prev _ _) as [[f1 n1]| | |] eqn:E1; try discriminate. cbn [rbind fst snd] in E. apply mem_chunk_len in E1. apply IH in E. lia.
Qed.
Lemma sim_chunks : forall k s f d cur prev f' nx, R s f -> bytes_ok d -> put_chunks mem_get mem_put (@zlen Z) k f d cur prev = Ok (f', nx) -> zlen f' = zlen f ->
  exists s', put_chunks get put size k s d cur prev = Ok (s', nx) /\ R s' f'.
Proof.
  induction k as [|k IH]; intros s f d cur prev f' nx HR Hd E Hl; (destruct (list_eq_dec Z.eq_dec d []) as [->|Hne]; [rewrite pc_nil in *; injection E as <- <-; eauto|]).
  - destruct d; [now elim Hne|discriminate].
  - rewrite put_chunks_S in E by exact Hne. cbv zeta in E. set (len := Z.min (zlen d) 250) in *. set (rec := firstn (Z.to_nat len) d ++ repeat 0 (Z.to_nat (250 - len))) in *.
    destruct (put_chunk mem_get mem_put (@zlen Z) f cur prev len rec) as [[f1 n1]| | |] eqn:E1; try discriminate. cbn [rbind fst snd] in E.
    pose proof (mem_chunk_len _ _ _ _ _ _ _ E1). pose proof (mem_chunks_len _ _ _ _ _ _ _ E).
    assert (Hrec : bytes_ok rec) by (apply bytes_ok_app; split; [now apply Forall_firstn'|]; apply Forall_forall; intros x Hx; apply repeat_spec in Hx; subst x; unfold byte_ok; lia).
    assert (Lr : rec <> []) by (intros Q; apply (f_equal (@length Z)) in Q; unfold rec in Q; rewrite app_length, firstn_length, repeat_length in Q; cbn [length] in Q; unfold len, zlen in Q; lia).
    destruct (sim_chunk s f cur prev len rec f1 n1 HR Hrec Lr E1 ltac:(lia)) as (s1 & A1 & R1).
    destruct (IH s1 f1 (skipn (Z.to_nat len) d) n1 (u32 (cur * 256)) f' nx R1 (Forall_skipn' _ _ _ Hd) E ltac:(lia)) as (s' & A & R'). exists s'. split; [|exact R']. rewrite put_chunks_S by exact Hne. cbv zeta. fold len. fold rec. rewrite A1. exact A.
Qed.
Lemma sim_write s f d f' n : R s f -> bytes_ok d -> write_blob mem_get mem_put (@zlen Z) f d = Ok (f', n) -> zlen f' = zlen f -> exists s', write_blob get put size s d = Ok (s', n) /\ R s' f'.
Proof.
  intros HR Hd E Hl. unfold write_blob in *. destruct d as [|z d0]; [injection E as <- <-; eauto|]. set (d := z :: d0) in *. unfold first_block in *.
  destruct (mem_get f 0 4) as [b| | |] eqn:Eg; try discriminate. cbn [rbind] in E. rewrite (sim_get s f 0 4 b HR ltac:(lia) Eg). cbn [rbind]. destruct (u32at b 0) as [h| | |]; try discriminate. cbn [rbind] in *. rewrite (sim_size s f HR).
  set (first := if h =? 0 then u32 (zlen f / 256) else h) in *.
  destruct (put_chunks mem_get mem_put (@zlen Z) (length d) f d first 0) as [[f1 n1]| | |] eqn:E1; try discriminate. cbn [rbind fst snd] in E.
  unfold set_free_head in *. destruct (if u32 (n1 * 256) <? zlen f1 then mem_put f1 0 (le_bytes 4 n1) else mem_put f1 0 (le_bytes 4 0)) as [f2| | |] eqn:E2; try discriminate. cbn [rbind] in E. injection E as <- <-.
  pose proof (mem_chunks_len _ _ _ _ _ _ _ E1). assert (zlen f1 <= zlen f2) by (destruct (_ <? _) in E2; apply put_len in E2; lia).
  destruct (sim_chunks _ s f d first 0 f1 n1 HR Hd E1 ltac:(lia)) as (s1 & A1 & R1). rewrite A1. cbn [rbind fst snd]. rewrite (sim_size s1 f1 R1).
  assert (A2 : exists s2, (if u32 (n1 * 256) <? zlen f1 then put s1 0 (le_bytes 4 n1) else put s1 0 (le_bytes 4 0)) = Ok s2 /\ R s2 f2).
  { destruct (_ <? _); (apply (sim_put s1 f1); [exact R1|exact E2|lia|apply le_bytes_ok|discriminate]). }
  destruct A2 as (s2 & A2 & R2). rewrite A2. cbn [rbind]. eauto.
Qed.
Lemma sim_end f : forall k s i j x, R s f -> chain_end mem_get k f i j = Ok x -> chain_end get k s i j = Ok x.
Proof.
  induction k as [|k IH]; intros s i j x HR E; cbn [chain_end] in *; (destruct (i =? 0); [exact E|]); [discriminate|]. destruct (_ || _); [discriminate|].
  destruct (mem_get f (i * 256) 4) as [b| | |] eqn:Eg; try discriminate. cbn [rbind] in E. rewrite (sim_get s f _ 4 b HR ltac:(lia) Eg). cbn [rbind]. destruct (u32at b 0); try discriminate. cbn [rbind] in *. now apply IH.
Qed.
Lemma sim_delete k s f n f' : R s f -> delete_blob mem_get mem_put (@zlen Z) k f n = Ok f' -> zlen f' = zlen f -> exists s', delete_blob get put size k s n = Ok s' /\ R s' f'.
Proof.
  intros HR E Hl. unfold delete_blob in *. rewrite (sim_size s f HR). destruct (_ <=? _); [discriminate|]. destruct (n =? 0); [discriminate|].
  destruct (mem_get f 0 4) as [b| | |] eqn:Eg; try discriminate. cbn [rbind] in E. rewrite (sim_get s f 0 4 b HR ltac:(lia) Eg). cbn [rbind]. destruct (u32at b 0) as [h| | |]; try discriminate. cbn [rbind] in *.
  destruct (chain_end mem_get k f (i32 n) 0) as [j| | |] eqn:Ej; try discriminate. cbn [rbind] in E. rewrite (sim_end f k s _ _ j HR Ej). cbn [rbind].
  destruct (mem_put f (j * 256) (le_bytes 4 h)) as [f1| | |] eqn:E1; try discriminate. cbn [rbind] in E. pose proof (put_len _ _ _ _ E1). pose proof (put_len _ _ _ _ E).
  destruct (sim_put s f _ _ f1 HR E1 ltac:(lia) (le_bytes_ok _ _) (le_ne _ _)) as (s1 & A1 & R1). rewrite A1. cbn [rbind]. apply (sim_put s1 f1); [exact R1|exact E|lia|apply le_bytes_ok|discriminate].
Qed.
Lemma mem_exec_len f live x f' live' : bexec mem_get mem_put (@zlen Z) (f, live) x = Ok (f', live') -> zlen f <= zlen f'.
Proof.
  destruct x as [d|k]; cbn [bexec].
  - intros E. destruct (write_blob mem_get mem_put (@zlen Z) f d) as [[f1 n1]| | |] eqn:W; try discriminate. cbn [rbind fst snd] in E. injection E as <- _. unfold write_blob in W. destruct d as [|z d0]; [injection W as <- _; lia|].
    destruct (first_block mem_get (@zlen Z) f) as [first| | |]; try discriminate. cbn [rbind] in W. destruct (put_chunks mem_get mem_put (@zlen Z) _ f (z :: d0) first 0) as [[f2 n2]| | |] eqn:E2; try discriminate. cbn [rbind fst snd] in W. apply mem_chunks_len in E2.
    destruct (set_free_head mem_put (@zlen Z) f2 n2) as [f3| | |] eqn:E3; try discriminate. cbn [rbind] in W. injection W as <- _. unfold set_free_head in E3. destruct (_ <? _) in E3; apply put_len in E3; lia.
  - destruct (nth_error live k) as [[n d]|]; [|intros E; injection E as <- _; lia]. intros E. destruct (n =? 0); [cbn [rbind] in E; injection E as <- _; lia|].
    destruct (delete_blob mem_get mem_put (@zlen Z) (Z.to_nat (zlen f)) f n) as [f1| | |] eqn:D; try discriminate. cbn [rbind] in E. injection E as <- _. unfold delete_blob in D. destruct (_ <=? _); [discriminate|]. destruct (n =? 0); [discriminate|].
    destruct (mem_get f 0 4) as [b| | |]; try discriminate. cbn [rbind] in D. destruct (u32at b 0) as [h| | |]; try discriminate. cbn [rbind] in D. destruct (chain_end mem_get _ f (i32 n) 0) as [j| | |]; try discriminate. cbn [rbind] in D.
    destruct (mem_put f (j * 256) (le_bytes 4 h)) as [f2| | |] eqn:E1; try discriminate. cbn [rbind] in D. apply put_len in E1. apply put_len in D. lia.
Qed.
Lemma mem_execs_len : forall xs f live f' live', bexecs mem_get mem_put (@zlen Z) (f, live) xs = Ok (f', live') -> zlen f <= zlen f'.
Proof.
  induction xs as [|x xs IH]; intros f live f' live' E; cbn [bexecs] in E; [injection E as <- _; lia|]. destruct (bexec mem_get mem_put (@zlen Z) (f, live) x) as [[f1 l1]| | |] eqn:E1; try discriminate. cbn [rbind] in E. apply mem_exec_len in E1. apply IH in E. lia.
Qed.
Lemma sim_execs : forall xs s f live f' live', R s f -> Forall bop_ok xs -> bexecs mem_get mem_put (@zlen Z) (f, live) xs = Ok (f', live') -> zlen f' = zlen f ->
  exists s', bexecs get put size (s, live) xs = Ok (s', live') /\ R s' f'.
Proof.
  induction xs as [|x xs IH]; intros s f live f' live' HR Hok E Hl; cbn [bexecs] in *; [injection E as <- <-; eauto|]. inversion Hok as [|? ? Hx Hxs]; subst.
  destruct (bexec mem_get mem_put (@zlen Z) (f, live) x) as [[f1 l1]| | |] eqn:E1; try discriminate. cbn [rbind] in E. pose proof (mem_exec_len _ _ _ _ _ E1). pose proof (mem_execs_len _ _ _ _ _ E).
  assert (A : exists s1, bexec get put size (s, live) x = Ok (s1, l1) /\ R s1 f1).
  { destruct x as [d|k]; cbn [bexec] in *.
    - destruct (write_blob mem_get mem_put (@zlen Z) f d) as [[f2 n2]| | |] eqn:W; try discriminate. cbn [rbind fst snd] in E1. injection E1 as <- <-. destruct (sim_write s f d f2 n2 HR Hx W ltac:(lia)) as (s1 & A1 & R1). rewrite A1. cbn [rbind fst snd]. eauto.
    - destruct (nth_error live k) as [[n d]|]; [|injection E1 as <- <-; eauto]. destruct (n =? 0); [cbn [rbind] in *; injection E1 as <- <-; eauto|].
      destruct (delete_blob mem_get mem_put (@zlen Z) (Z.to_nat (zlen f)) f n) as [f2| | |] eqn:D; try discriminate. cbn [rbind] in E1. injection E1 as <- <-.
      destruct (sim_delete _ s f n f2 HR D ltac:(lia)) as (s1 & A1 & R1). rewrite (sim_size s f HR). rewrite A1. cbn [rbind]. eauto. }
  destruct A as (s1 & A1 & R1). rewrite A1. cbn [rbind]. apply (IH s1 f1 l1 f' live' R1 Hxs E). lia.
Qed.
End Sim.
