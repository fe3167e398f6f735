(** Writing and deleting blobs in a growing byte file. *)
From Verif Require Import Prelude Lists Obj_Model Blob_Model Blob_Spec Blob_Proofs.
Ltac Zify.zify_post_hook ::= idtac.

Definition blk (f : list Z) (b : Z) : list Z := sub f (Z.to_nat (256 * b)) 256.
Definition setb (f : list Z) (b : Z) (x : list Z) : list Z := firstn (Z.to_nat (256 * b)) f ++ x ++ skipn (Z.to_nat (256 * b) + 256) f.

Lemma c256 : Z.of_nat 256 = 256. Proof. reflexivity. Qed.
Lemma setb_len f n b x : zlen f = 256 * n -> 0 <= b <= n -> length x = 256%nat -> zlen (setb f b x) = 256 * Z.max n (b + 1).
Proof. intros Hf Hb Hx. pose proof c256. unfold setb, zlen in *. rewrite !app_length, firstn_length, skipn_length. rewrite Hx. lia. Qed.
Lemma setb_same f n b x : zlen f = 256 * n -> 0 <= b <= n -> length x = 256%nat -> blk (setb f b x) b = x.
Proof.
  intros Hf Hb Hx. pose proof c256. unfold blk, setb, sub, zlen in *. rewrite skipn_app. assert (L : length (firstn (Z.to_nat (256 * b)) f) = Z.to_nat (256 * b)) by (rewrite firstn_length; lia).
  rewrite L, Nat.sub_diag, skipn_all2 by lia. cbn [app skipn]. rewrite firstn_app, Hx, Nat.sub_diag, firstn_O, app_nil_r. rewrite <- Hx. apply firstn_all.
Qed.
Lemma setb_other f n b x c : zlen f = 256 * n -> 0 <= b <= n -> length x = 256%nat -> 0 <= c < n -> c <> b -> blk (setb f b x) c = blk f c.
Proof.
  intros Hf Hb Hx Hc Hn. pose proof c256. unfold zlen in Hf. assert (L : length (firstn (Z.to_nat (256 * b)) f) = Z.to_nat (256 * b)) by (rewrite firstn_length; lia).
  apply nth_error_ext. intros i. unfold blk. rewrite !nth_error_sub. destruct (Nat.ltb_spec i 256) as [Hi|]; [|reflexivity]. unfold setb.
  destruct (Z_lt_le_dec c b) as [Hlt|Hge].
  - rewrite nth_error_app1 by lia. rewrite <- (firstn_skipn (Z.to_nat (256 * b)) f) at 2. rewrite nth_error_app1 by lia. reflexivity.
  - rewrite nth_error_app2 by lia. rewrite nth_error_app2 by lia. rewrite L, Hx. rewrite <- (firstn_skipn (Z.to_nat (256 * b) + 256) f) at 2.
    rewrite (nth_error_app2 (firstn _ f)) by (rewrite firstn_length; lia). f_equal. rewrite firstn_length. lia.
Qed.
Lemma setb_ok f b x : bytes_ok f -> bytes_ok x -> bytes_ok (setb f b x).
Proof. intros H1 H2. unfold setb. apply bytes_ok_app. split; [apply Forall_firstn', H1|]. apply bytes_ok_app. split; [exact H2|apply Forall_skipn', H1]. Qed.
Lemma blk_len f n b : zlen f = 256 * n -> 0 <= b < n -> length (blk f b) = 256%nat.
Proof. intros Hf Hb. pose proof c256. apply sub_length. unfold zlen in Hf. lia. Qed.

Lemma put_put f off a b f1 : mem_put f off a = Ok f1 -> mem_put f1 (off + zlen a) b = mem_put f off (a ++ b).
Proof.
  unfold mem_put. destruct ((off <? 0) || (zlen f <? off)) eqn:E; [discriminate|]. intros [= <-]. pose proof (zlen_nonneg a).
  assert (L : length (firstn (Z.to_nat off) f) = Z.to_nat off) by (rewrite firstn_length; unfold zlen in E; lia).
  destruct ((off + zlen a <? 0) || _) eqn:E2.
  - unfold zlen in E, E2. rewrite !app_length, L in E2. lia.
  - f_equal. replace (Z.to_nat (off + zlen a)) with (Z.to_nat off + length a)%nat by (unfold zlen; lia).
    replace (Z.to_nat (off + zlen a + zlen b)) with (Z.to_nat off + length a + length b)%nat by (unfold zlen; lia).
    replace (Z.to_nat (off + zlen (a ++ b))) with (Z.to_nat off + length a + length b)%nat by (unfold zlen; rewrite app_length; lia).
    rewrite firstn_app, L. rewrite (firstn_all2 (firstn (Z.to_nat off) f)) by lia. replace (Z.to_nat off + length a - Z.to_nat off)%nat with (length a) by lia.
    rewrite firstn_app, firstn_all, Nat.sub_diag, firstn_O, app_nil_r. rewrite <- !app_assoc. f_equal. f_equal. f_equal.
    rewrite skipn_app, L, (skipn_all2 (firstn _ _)) by lia. cbn [app]. rewrite skipn_app, (skipn_all2 a) by lia. cbn [app]. rewrite skipn_plus. f_equal. lia.
Qed.
Lemma put_block f n b x : zlen f = 256 * n -> 0 <= b <= n -> length x = 256%nat -> mem_put f (256 * b) x = Ok (setb f b x).
Proof. intros Hf Hb Hx. unfold mem_put. destruct (_ || _) eqn:E; [lia|]. unfold setb. f_equal. f_equal. f_equal. pose proof c256. unfold zlen. rewrite Hx. f_equal. lia. Qed.
(** changing only the link of a chunk *)
Lemma put_link f n b v : zlen f = 256 * n -> 0 <= b < n -> mem_put f (256 * b) (le_bytes 4 v) = Ok (setb f b (le_bytes 4 v ++ sub (blk f b) 4 252)).
Proof.
  intros Hf Hb. rewrite <- (put_block f n); [|exact Hf|lia|rewrite app_length, le_bytes_length, sub_length by (rewrite (blk_len f n) by lia; lia); reflexivity].
  unfold mem_put. destruct (_ || _) eqn:E; [lia|]. f_equal. f_equal. unfold zlen. rewrite app_length, le_bytes_length, sub_length by (rewrite (blk_len f n) by lia; lia). rewrite <- app_assoc. f_equal.
  unfold blk. rewrite sub_sub by lia. pose proof c256. replace (Z.to_nat (256 * b + Z.of_nat 4)) with (Z.to_nat (256 * b) + 4)%nat by lia. replace (Z.to_nat (256 * b + Z.of_nat (4 + 252))) with (Z.to_nat (256 * b) + 256)%nat by lia.
  unfold sub. rewrite <- (firstn_skipn 252 (skipn (Z.to_nat (256 * b) + 4) f)) at 1. f_equal. rewrite skipn_plus. f_equal. lia.
Qed.

(** ** the relations depend on the chunks only *)
Lemma chunk_ext f g b nxt d : zlen f <= zlen g -> blk g b = blk f b -> chunk f b nxt d -> chunk g b nxt d.
Proof. intros Hl E (H1 & H2 & H3 & H4 & pad & Hp & H5). split; [exact H1|]. split; [lia|]. split; [exact H3|]. split; [exact H4|]. exists pad. split; [exact Hp|]. change (blk g b = le_bytes 4 nxt ++ le_bytes 2 (zlen d) ++ d ++ pad). rewrite E. exact H5. Qed.
Lemma linked_ext f g : zlen f <= zlen g -> forall bs ds s, (forall b, In b bs -> blk g b = blk f b) -> linked f s bs ds -> linked g s bs ds.
Proof.
  intros Hl. induction bs as [|b bs IH]; intros [|d ds] s H L; cbn [linked] in *; try contradiction; [exact L|]. destruct L as (-> & nxt & Hc & L). split; [reflexivity|]. exists nxt.
  split; [apply (chunk_ext f g); [exact Hl|apply H; now left|exact Hc]|]. apply IH; [intros x Hx; apply H; now right|exact L].
Qed.
Lemma link4 f b : (exists n, zlen f = 256 * n /\ 0 <= b < n) -> sub f (Z.to_nat (256 * b)) 4 = firstn 4 (blk f b).
Proof. intros _. unfold blk. rewrite <- (sub_0_firstn (sub f _ 256)), sub_sub by lia. f_equal. lia. Qed.
Lemma free_ext f g : zlen f <= zlen g -> forall bs s, (forall b, In b bs -> blk g b = blk f b) -> free_chain f s bs -> free_chain g s bs.
Proof.
  intros Hl. induction bs as [|b bs IH]; intros s H L; cbn [free_chain] in *; [exact L|]. destruct L as (-> & H0 & H1 & nxt & Hn & E & L). split; [reflexivity|]. split; [exact H0|]. split; [lia|]. exists nxt. split; [exact Hn|]. split.
  - assert (Eg : forall h, sub h (Z.to_nat (256 * b)) 4 = firstn 4 (blk h b)) by (intros h; unfold blk; rewrite <- (sub_0_firstn (sub h _ 256)), sub_sub by lia; f_equal; lia).
    rewrite Eg, H by now left. rewrite <- Eg. exact E.
  - apply IH; [intros x Hx; apply H; now right|exact L].
Qed.
Lemma free_hd f s bs : free_chain f s bs -> s = hd 0 bs.
Proof. destruct bs; cbn [free_chain hd]; [auto|]. intros [-> _]. reflexivity. Qed.
Lemma linked_hd f s bs ds : linked f s bs ds -> s = hd 0 bs.
Proof. destruct bs, ds; cbn [linked hd]; try contradiction; [auto|]. intros [-> _]. reflexivity. Qed.
Lemma free_in f s bs : free_chain f s bs -> forall b, In b bs -> 0 < b /\ 256 * b + 256 <= zlen f.
Proof. revert s. induction bs as [|x bs IH]; intros s L b; cbn [free_chain In] in *; [contradiction|]. destruct L as (-> & H0 & H1 & nxt & _ & _ & L). intros [<-|Hb]; [lia|exact (IH _ L b Hb)]. Qed.
Lemma linked_in f bs : forall ds s, linked f s bs ds -> forall b, In b bs -> 0 < b /\ 256 * b + 256 <= zlen f.
Proof. induction bs as [|x bs IH]; intros [|d ds] s L b; cbn [linked In] in *; try contradiction. destruct L as (-> & nxt & (H0 & H1 & _) & L). intros [<-|Hb]; [lia|exact (IH _ _ L b Hb)]. Qed.

(** a chunk built by writing link, length and data *)
Lemma chunk_new f n b nxt d pad : zlen f = 256 * n -> 0 < b < n -> (length d <= 250)%nat -> 0 <= nxt < 2^32 -> length pad = (250 - length d)%nat ->
  blk f b = le_bytes 4 nxt ++ le_bytes 2 (zlen d) ++ d ++ pad -> chunk f b nxt d.
Proof. intros H1 H2 H3 H4 H5 H6. split; [lia|]. split; [lia|]. split; [exact H3|]. split; [exact H4|]. exists pad. split; [exact H5|exact H6]. Qed.
(** ... and with its link changed *)
Lemma chunk_relink f n b old nxt d : zlen f = 256 * n -> chunk f b old d -> 0 <= nxt < 2^32 -> forall g, zlen f <= zlen g -> blk g b = le_bytes 4 nxt ++ sub (blk f b) 4 252 -> chunk g b nxt d.
Proof.
  intros Hf (H1 & H2 & H3 & H4 & pad & Hp & H5) Hn g Hg E. split; [exact H1|]. split; [lia|]. split; [exact H3|]. split; [exact Hn|]. exists pad. split; [exact Hp|]. change (blk g b = le_bytes 4 nxt ++ le_bytes 2 (zlen d) ++ d ++ pad). rewrite E. f_equal.
  change (sub f (Z.to_nat (256 * b)) 256) with (blk f b) in H5. rewrite H5. unfold sub. rewrite skipn_app, le_bytes_length, Nat.sub_diag, skipn_all2 by (rewrite le_bytes_length; lia). cbn [app skipn]. apply firstn_all2. rewrite !app_length, le_bytes_length. lia.
Qed.

(** ** one chunk *)
Lemma get4 f n b : zlen f = 256 * n -> 0 <= b < n -> mem_get f (256 * b) 4 = Ok (sub f (Z.to_nat (256 * b)) 4).
Proof. intros Hf Hb. unfold mem_get. destruct (_ || _) eqn:E; [lia|]. now rewrite rdn_ok by lia. Qed.
Lemma u32_le4 v : 0 <= v < 2^32 -> u32at (le_bytes 4 v) 0 = Ok v.
Proof. intros H. unfold u32at. rewrite rdn_ok by (unfold zlen; rewrite ?le_bytes_length; lia). cbn [rbind]. f_equal. change (Z.to_nat 0) with 0%nat. change (Z.to_nat 4) with 4%nat. rewrite <- (le_bytes_length 4 v) at 2. rewrite sub_all. now apply le_val_bytes_small. Qed.

Lemma put_chunk_ok f n fr P c0 dat rec : bytes_ok f -> zlen f = 256 * n -> 1 <= n -> n + 1 < 2^24 -> NoDup fr -> free_chain f (hd 0 fr) fr -> 0 <= P < n -> ~ In P fr -> (P <> 0 -> chunk f P 0 c0) ->
  bytes_ok rec -> (length dat <= 250)%nat -> (exists pad, length pad = (250 - length dat)%nat /\ rec = dat ++ pad) ->
  let cur := hd n fr in let fr1 := tl fr in let n1 := match fr with [] => n + 1 | _ => n end in
  exists f4, put_chunk mem_get mem_put (@zlen Z) f cur (256 * P) (zlen dat) rec = Ok (f4, hd n1 fr1) /\
    bytes_ok f4 /\ zlen f4 = 256 * n1 /\ 0 < cur < n1 /\ cur <> P /\ chunk f4 cur 0 dat /\ (P <> 0 -> chunk f4 P cur c0) /\
    (forall b, 0 <= b < n -> b <> cur -> (b <> P \/ P = 0) -> blk f4 b = blk f b) /\ free_chain f4 (hd 0 fr1) fr1.
Proof.
  intros Hb Hf Hn H24 Hnd Hfr HP HPf Hc0 Hrec Hdat (pad & Hpad & ->) cur fr1 n1.
  assert (Hcur : 0 < cur <= n /\ cur <> P /\ (fr = [] -> cur = n) /\ (fr <> [] -> cur < n /\ In cur fr)).
  { destruct fr as [|c fr']; unfold cur; cbn [hd]; [split; [lia|]; split; [lia|]; split; [reflexivity|]; intros Q; now elim Q|]. pose proof (free_in _ _ _ Hfr c (or_introl eq_refl)).
    split; [lia|]. split; [intros <-; apply HPf; now left|]. split; [discriminate|]. intros _. split; [lia|now left]. }
  destruct Hcur as (Hc1 & Hc2 & Hc3 & Hc4). assert (Ecur : cur = hd n fr) by reflexivity. clearbody cur.
  set (f1 := if P =? 0 then f else setb f P (le_bytes 4 cur ++ sub (blk f P) 4 252)).
  assert (Lx1 : length (le_bytes 4 cur ++ sub (blk f P) 4 252) = 256%nat) by (rewrite app_length, le_bytes_length, sub_length by (rewrite (blk_len f n) by lia; lia); reflexivity).
  assert (Hf1 : zlen f1 = 256 * n) by (unfold f1; destruct (P =? 0); [exact Hf|]; rewrite (setb_len f n) by (try lia; assumption); lia).
  assert (Hb1 : bytes_ok f1) by (unfold f1; destruct (P =? 0); [exact Hb|]; apply setb_ok; [exact Hb|]; apply bytes_ok_app; split; [apply le_bytes_ok|now apply bytes_ok_sub, bytes_ok_sub]).
  assert (E1 : (if 256 * P =? 0 then Ok f else mem_put f (256 * P) (le_bytes 4 cur)) = Ok f1).
  { unfold f1. destruct (Z.eqb_spec P 0) as [->|]; [reflexivity|]. destruct (Z.eqb_spec (256 * P) 0); [lia|]. now apply (put_link f n). }
  assert (O1 : forall b, 0 <= b < n -> (b <> P \/ P = 0) -> blk f1 b = blk f b).
  { intros b Hb' [Q|Q]; unfold f1; destruct (Z.eqb_spec P 0); try reflexivity; [|lia]. apply (setb_other f n); try lia; assumption. }
  set (x := le_bytes 4 0 ++ le_bytes 2 (zlen dat) ++ dat ++ pad).
  assert (Lx : length x = 256%nat) by (unfold x; rewrite !app_length, !le_bytes_length; lia).
  set (f4 := setb f1 cur x).
  assert (Ln1 : Z.max n (cur + 1) = n1).
  { unfold n1. destruct fr as [|c fr']; [specialize (Hc3 eq_refl); lia|]. destruct (Hc4 ltac:(discriminate)). lia. }
  assert (Hf4 : zlen f4 = 256 * n1) by (unfold f4; rewrite (setb_len f1 n) by (try lia; assumption); now rewrite Ln1).
  assert (S4 : blk f4 cur = x) by (apply (setb_same f1 n); try lia; assumption).
  assert (O4 : forall b, 0 <= b < n -> b <> cur -> blk f4 b = blk f1 b) by (intros b Q1 Q2; apply (setb_other f1 n); try lia; assumption).
  assert (Hb4 : bytes_ok f4).
  { apply setb_ok; [exact Hb1|]. unfold x. rewrite !bytes_ok_app. apply bytes_ok_app in Hrec. split; [apply le_bytes_ok|]. split; [apply le_bytes_ok|]. exact Hrec. }
  (* the link found in the chunk *)
  assert (Hnxt : exists nxt, (if u32 (cur * 256) <? zlen f1 then do b <- mem_get f1 (u32 (cur * 256)) 4; u32at b 0 else Ok 0) = Ok nxt /\ nxt = hd 0 fr1 /\ free_chain f4 nxt fr1).
  { unfold u32. rewrite Z.mod_small by lia. replace (cur * 256) with (256 * cur) by lia. destruct fr as [|c fr'].
    - specialize (Hc3 eq_refl). rewrite Hc3. rewrite Hf1, Z.ltb_irrefl. exists 0. split; [reflexivity|]. split; [reflexivity|reflexivity].
    - destruct (Hc4 ltac:(discriminate)) as [Q1 Q2]. rewrite Hf1. destruct (Z.ltb_spec (256 * cur) (256 * n)); [|lia]. rewrite (get4 f1 n) by (try lia; assumption). cbn [rbind].
      cbn [hd free_chain] in Hfr. destruct Hfr as (_ & R0 & R1 & nxt & R2 & R3 & R4). cbn [hd] in Ecur. rewrite <- Ecur in *.
      assert (E4 : sub f1 (Z.to_nat (256 * cur)) 4 = le_bytes 4 nxt) by (rewrite <- R3, !link4 by (exists n; lia); f_equal; apply O1; lia).
      rewrite E4, u32_le4 by exact R2. exists nxt. split; [reflexivity|]. split; [exact (free_hd _ _ _ R4)|].
      apply (free_ext f f4); [unfold n1 in Hf4; lia| |exact R4]. intros b Ib. inversion Hnd as [|? ? N1 N2]; subst. pose proof (free_in _ _ _ R4 b Ib).
      rewrite O4; [apply O1; [lia|]|lia|intros ->; contradiction]. left. intros ->. apply HPf. now right. }
  destruct Hnxt as (nxt & En & Hh & Hfr4).
  exists f4. split.
  - unfold put_chunk. rewrite E1. cbn [rbind]. rewrite En. cbn [rbind]. assert (Eo : u32 (cur * 256) = 256 * cur) by (unfold u32; rewrite Z.mod_small by lia; lia). rewrite Eo.
    assert (A1 : exists g1, mem_put f1 (256 * cur) (le_bytes 4 0) = Ok g1) by (unfold mem_put; destruct (_ || _) eqn:Q; [lia|eauto]). destruct A1 as (g1 & A1). rewrite A1. cbn [rbind].
    assert (A2 : mem_put g1 (u32 (256 * cur + 4)) (le_bytes 2 (zlen dat)) = mem_put f1 (256 * cur) (le_bytes 4 0 ++ le_bytes 2 (zlen dat))).
    { rewrite <- (put_put f1 (256 * cur) (le_bytes 4 0) (le_bytes 2 (zlen dat)) g1 A1). f_equal. unfold u32, zlen. rewrite le_bytes_length, Z.mod_small by lia. lia. }
    rewrite A2. assert (B1 : exists g2, mem_put f1 (256 * cur) (le_bytes 4 0 ++ le_bytes 2 (zlen dat)) = Ok g2) by (unfold mem_put; destruct (_ || _) eqn:Q; [lia|eauto]). destruct B1 as (g2 & B1). rewrite B1. cbn [rbind].
    assert (A3 : mem_put g2 (u32 (256 * cur + 6)) (dat ++ pad) = Ok f4).
    { assert (A4 : u32 (256 * cur + 6) = 256 * cur + zlen (le_bytes 4 0 ++ le_bytes 2 (zlen dat))) by (unfold u32, zlen; rewrite app_length, !le_bytes_length, Z.mod_small by lia; lia).
      rewrite A4, (put_put f1 (256 * cur) _ (dat ++ pad) g2 B1), <- app_assoc. apply (put_block f1 n); try lia; assumption. }
    rewrite A3. cbn [rbind]. do 2 f_equal. rewrite Hf4. replace (256 * n1 / 256) with n1 by (rewrite Z.mul_comm, Z.div_mul; lia). unfold u32. rewrite Z.mod_small by (unfold n1; destruct fr; lia).
    rewrite Hh. destruct fr1 as [|c fr'] eqn:Ef1; [reflexivity|]. cbn [hd]. cbn [free_chain] in Hfr4. destruct Hfr4 as (_ & R0 & _). destruct (Z.eqb_spec c 0); [lia|reflexivity].
  - split; [exact Hb4|]. split; [exact Hf4|]. split; [lia|]. split; [exact Hc2|].
    split; [apply (chunk_new f4 n1 cur 0 dat pad); try lia; assumption|].
    split; [intros Q; apply (chunk_relink f n P 0 cur c0 Hf (Hc0 Q)); [lia|rewrite Hf4, Hf; unfold n1; destruct fr; lia|]|].
    + rewrite O4 by lia. unfold f1. destruct (Z.eqb_spec P 0); [lia|]. apply (setb_same f n); try lia; assumption.
    + split; [intros b Q1 Q2 Q3; rewrite O4 by assumption; now apply O1|]. rewrite <- Hh. exact Hfr4.
Qed.

(** ** the loop *)
Lemma chunks_step (d : list Z) : d <> [] -> chunks_for (length d) = S (chunks_for (length (skipn (Z.to_nat (Z.min (zlen d) 250)) d))).
Proof.
  intros Hd. unfold chunks_for. rewrite skipn_length. assert (0 < length d)%nat by (destruct d; [contradiction|cbn [length]; lia]). unfold zlen.
  destruct (le_lt_dec (length d) 250) as [H1|H1].
  - replace (length d - Z.to_nat (Z.min (Z.of_nat (length d)) 250))%nat with 0%nat by lia. change ((0 + 249) / 250)%nat with 0%nat.
    symmetry. apply (Nat.div_unique _ 250 1 (length d + 249 - 250)); lia.
  - replace (Z.to_nat (Z.min (Z.of_nat (length d)) 250)) with 250%nat by lia. replace (length d + 249)%nat with (length d - 250 + 249 + 1 * 250)%nat by lia. rewrite Nat.div_add by lia. lia.
Qed.
Lemma put_chunks_S {S} (get : S -> Z -> Z -> res (list Z)) put size k f d cur prev : d <> [] -> put_chunks get put size (Datatypes.S k) f d cur prev =
  let len := Z.min (zlen d) 250 in
  do r <- put_chunk get put size f cur prev len (firstn (Z.to_nat len) d ++ repeat 0 (Z.to_nat (250 - len)));
  put_chunks get put size k (fst r) (skipn (Z.to_nat len) d) (snd r) (u32 (cur * 256)).
Proof. destruct d; [intros Q; now elim Q|]. reflexivity. Qed.
Lemma put_chunks_ok : forall fuel d f n fr P c0, (length d <= fuel)%nat -> bytes_ok f -> bytes_ok d -> zlen f = 256 * n -> 1 <= n -> n + Z.of_nat (chunks_for (length d)) < 2^24 ->
  NoDup fr -> free_chain f (hd 0 fr) fr -> 0 <= P < n -> ~ In P fr -> (P <> 0 -> chunk f P 0 c0) ->
  exists f' n' bs ds fr', put_chunks mem_get mem_put (@zlen Z) fuel f d (hd n fr) (256 * P) = Ok (f', hd n' fr') /\
    bytes_ok f' /\ zlen f' = 256 * n' /\ n <= n' <= n + Z.of_nat (chunks_for (length d)) /\ concat ds = d /\ linked f' (hd 0 bs) bs ds /\ (P <> 0 -> chunk f' P (hd 0 bs) c0) /\
    (forall b, 0 <= b < n -> ~ In b fr -> (b <> P \/ P = 0) -> blk f' b = blk f b) /\ free_chain f' (hd 0 fr') fr' /\ NoDup (bs ++ fr') /\
    (forall b, In b (bs ++ fr') -> In b fr \/ n <= b < n') /\ (d <> [] -> bs <> [] /\ hd 0 bs = hd n fr) /\
    n' = n + Z.of_nat (chunks_for (length d) - length fr) /\ length bs = chunks_for (length d) /\ length fr' = (length fr - chunks_for (length d))%nat.
Proof.
  induction fuel as [|k IH]; intros d f n fr P c0 Hk Hb Hd Hf Hn H24 Hnd Hfr HP HPf Hc0.
  all: destruct (list_eq_dec Z.eq_dec d []) as [->|Hne].
  1,3: exists f, n, [], [], fr; cbn [put_chunks app hd linked concat length]; change (chunks_for 0) with 0%nat;
    (split; [reflexivity|]); (split; [exact Hb|]); (split; [exact Hf|]); (split; [lia|]); (split; [reflexivity|]); (split; [reflexivity|]); (split; [exact Hc0|]); (split; [reflexivity|]); (split; [exact Hfr|]); (split; [exact Hnd|]);
    (split; [intros b Hbb; now left|]); (split; [intros Q; now elim Q|]); split; [lia|split; [reflexivity|lia]].
  { destruct d; [now elim Hne|cbn [length] in Hk; lia]. }
  set (len := Z.min (zlen d) 250). set (dat := firstn (Z.to_nat len) d). set (d' := skipn (Z.to_nat len) d).
  assert (Hpos : (0 < length d)%nat) by (destruct d; [now elim Hne|cbn [length]; lia]).
  assert (Ldat : zlen dat = len) by (unfold dat, len, zlen; rewrite firstn_length; lia).
  pose proof (chunks_step d Hne) as Ech. fold len in Ech. fold d' in Ech.
  assert (Ld' : (length d' <= k)%nat) by (unfold d', len, zlen; rewrite skipn_length; lia).
  destruct (put_chunk_ok f n fr P c0 dat (dat ++ repeat 0 (Z.to_nat (250 - len))) Hb Hf Hn ltac:(lia) Hnd Hfr HP HPf Hc0) as (f4 & E4 & Hb4 & Hf4 & Hcur & HcP & Hch & HchP & Ho & Hfr4).
  { apply bytes_ok_app. split; [now apply Forall_firstn'|]. apply Forall_forall. intros x Hx. apply repeat_spec in Hx. subst x. unfold byte_ok. lia. }
  { unfold zlen in Ldat. lia. }
  { exists (repeat 0 (Z.to_nat (250 - len))). split; [rewrite repeat_length; unfold zlen in Ldat; lia|reflexivity]. }
  set (cur := hd n fr) in *. set (fr1 := tl fr) in *. set (n1 := match fr with [] => n + 1 | _ => n end) in *.
  assert (Hn1 : n <= n1 <= n + 1) by (unfold n1; destruct fr; lia).
  assert (Hnd1 : NoDup (cur :: fr1)).
  { unfold cur, fr1. destruct fr as [|c fr']; cbn [hd tl]; [constructor; [intros []|constructor]|exact Hnd]. }
  assert (Hin1 : forall b, In b (cur :: fr1) -> In b fr \/ n <= b < n1).
  { unfold cur, fr1, n1. destruct fr as [|c fr']; cbn [hd tl]; [|auto]. intros b [<-|[]]. right. lia. }
  assert (Hinc : forall b, In b fr -> b < n) by (intros b Q; pose proof (free_in _ _ _ Hfr b Q); lia).
  inversion Hnd1 as [|? ? Hci Hnd2]; subst.
  destruct (IH d' f4 n1 fr1 cur dat Ld' Hb4 ltac:(now apply Forall_skipn') Hf4 ltac:(lia) ltac:(lia) Hnd2 Hfr4 ltac:(lia) Hci (fun _ => Hch)) as (f' & n' & bs & ds & fr' & E & Hb' & Hf' & Hn' & Hds & Hl & HlP & Ho' & Hfr' & Hnd' & Hin & _ & Hcn & Hcb & Hcf).
  exists f', n', (cur :: bs), (dat :: ds), fr'.
  split.
  { rewrite put_chunks_S by exact Hne. cbv zeta. fold len. fold dat. fold d'. rewrite Ldat in E4. rewrite E4. cbn [rbind fst snd].
    replace (u32 (cur * 256)) with (256 * cur) by (unfold u32; rewrite Z.mod_small by lia; lia). exact E. }
  split; [exact Hb'|]. split; [exact Hf'|]. split; [lia|]. split; [cbn [concat]; rewrite Hds; unfold dat, d'; apply firstn_skipn|].
  split; [cbn [hd linked]; split; [reflexivity|]; exists (hd 0 bs); split; [apply HlP; lia|exact Hl]|].
  assert (HPfr1 : ~ In P fr1) by (intros Q; destruct (Hin1 P (or_intror Q)); [contradiction|lia]).
  split; [intros Q; cbn [hd]; apply (chunk_ext f4 f'); [lia|apply Ho'; [lia|exact HPfr1|left; congruence]|exact (HchP Q)]|].
  split.
  { intros b Q1 Q2 Q3. assert (Q4 : ~ In b (cur :: fr1)) by (intros Q; destruct (Hin1 b Q); [contradiction|lia]). cbn [In] in Q4. rewrite Ho'; [apply Ho; [exact Q1|intros ->; apply Q4; now left|exact Q3]|lia|intros Q; apply Q4; now right|left; intros ->; apply Q4; now left]. }
  split; [exact Hfr'|]. split.
  { cbn [app]. constructor; [|exact Hnd']. intros Q. destruct (Hin cur Q); [contradiction|lia]. }
  split; [|split; [intros _; split; [discriminate|reflexivity]|cbn [length]; rewrite Ech; unfold n1, fr1 in *; destruct fr; cbn [tl length] in *; (split; [lia|]); split; lia]].
  intros b Q. cbn [app In] in Q. destruct Q as [<-|Q].
  - destruct (Hin1 cur (or_introl eq_refl)); [now left|right; lia].
  - destruct (Hin b Q) as [R|R]; [|right; lia]. destruct (Hin1 b (or_intror R)); [now left|right; lia].
Qed.
