(** Histories of blob writes and deletes. *)
From Coq Require Import Permutation.
From Verif Require Import Prelude Lists Obj_Model Blob_Model Blob_Spec Blob_Proofs Blob_Read Blob_Write.
Ltac Zify.zify_post_hook ::= idtac.

Lemma NoDup_app_i {A} (a b : list A) : NoDup a -> NoDup b -> (forall x, In x a -> ~ In x b) -> NoDup (a ++ b).
Proof. induction 1 as [|x a Hx Ha IH]; intros Hb H; cbn [app]; [exact Hb|]. constructor; [|apply IH; [exact Hb|intros y Hy; apply H; now right]]. intros Q. apply in_app_or in Q. destruct Q; [contradiction|]. apply (H x); [now left|assumption]. Qed.
Lemma NoDup_app_d {A} (a b : list A) : NoDup (a ++ b) -> NoDup a /\ NoDup b /\ (forall x, In x a -> ~ In x b).
Proof.
  induction a as [|x a IH]; cbn [app]; intros H; [split; [constructor|]; split; [exact H|intros ? []]|]. inversion H as [|? ? H1 H2]; subst. destruct (IH H2) as (A1 & A2 & A3).
  split; [constructor; [|exact A1]; intros Q; apply H1, in_or_app; now left|]. split; [exact A2|]. intros y [<-|Hy]; [intros Q; apply H1, in_or_app; now right|now apply A3].
Qed.

Lemma file_n f live own free : blob_file f live own free -> exists n, zlen f = 256 * n /\ 1 <= n.
Proof. intros (_ & (n & H1 & H2) & _). exists (Z.of_nat n). unfold zlen. rewrite H2. lia. Qed.
Lemma own_in f live own b : Forall2 (fun x bs => blob f (fst x) bs (snd x)) live own -> In b (concat own) -> 0 < b /\ 256 * b + 256 <= zlen f.
Proof. induction 1 as [|x bs live own (ds & L & _) H IH]; cbn [concat]; [intros []|]. intros Q. apply in_app_or in Q. destruct Q as [Q|Q]; [exact (linked_in _ _ _ _ L b Q)|exact (IH Q)]. Qed.
Lemma blobs_ext f g live own : zlen f <= zlen g -> (forall b, In b (concat own) -> blk g b = blk f b) -> Forall2 (fun x bs => blob f (fst x) bs (snd x)) live own -> Forall2 (fun x bs => blob g (fst x) bs (snd x)) live own.
Proof.
  intros Hl H F. induction F as [|x bs live own (ds & L & E) F IH]; [constructor|]. cbn [concat] in H. constructor; [|apply IH; intros b Hb; apply H, in_or_app; now right].
  exists ds. split; [|exact E]. apply (linked_ext f g Hl); [|exact L]. intros b Hb. apply H, in_or_app. now left.
Qed.
Lemma app_len_256 (f : list Z) n : zlen f = 256 * n -> 1 <= n -> exists m, (1 <= m)%nat /\ length f = (256 * m)%nat.
Proof. intros H1 H2. exists (Z.to_nat n). unfold zlen in H1. pose proof c256. split; [lia|]. apply Nat2Z.inj. rewrite Nat2Z.inj_mul, Z2Nat.id by lia. rewrite c256. exact H1. Qed.
Lemma put_head f n v : zlen f = 256 * n -> 1 <= n -> bytes_ok f -> exists g, mem_put f 0 (le_bytes 4 v) = Ok g /\ zlen g = 256 * n /\ bytes_ok g /\ sub g 0 4 = le_bytes 4 v /\ (forall b, 0 < b < n -> blk g b = blk f b).
Proof.
  intros Hf Hn Hb. set (x := le_bytes 4 v ++ sub (blk f 0) 4 252). assert (Lx : length x = 256%nat) by (unfold x; rewrite app_length, le_bytes_length, sub_length by (rewrite (blk_len f n) by lia; lia); reflexivity).
  exists (setb f 0 x). split; [exact (put_link f n 0 v Hf ltac:(lia))|]. split; [rewrite (setb_len f n) by (try lia; assumption); lia|].
  split; [apply setb_ok; [exact Hb|]; apply bytes_ok_app; split; [apply le_bytes_ok|now apply bytes_ok_sub, bytes_ok_sub]|]. split.
  - change (sub (setb f 0 x) 0 4) with (sub (setb f 0 x) (Z.to_nat (256 * 0)) 4). rewrite link4 by (exists n; rewrite (setb_len f n) by (try lia; assumption); lia).
    rewrite (setb_same f n) by (try lia; assumption). unfold x. rewrite firstn_app, le_bytes_length, Nat.sub_diag, firstn_O, app_nil_r. apply firstn_all2. rewrite le_bytes_length. lia.
  - intros b Hbb. apply (setb_other f n); try lia; assumption.
Qed.

Notation wr := (write_blob mem_get mem_put (@zlen Z)).
Notation del := (delete_blob mem_get mem_put (@zlen Z)).

Lemma F2_len {A B} (P : A -> B -> Prop) l m : Forall2 P l m -> length l = length m.
Proof. induction 1; [reflexivity|]. cbn [length]. congruence. Qed.
Lemma write_ok f live own free d : blob_file f live own free -> bytes_ok d -> d <> [] -> zlen f + 256 * Z.of_nat (chunks_for (length d)) < 2^32 ->
  exists f' start bs free', wr f d = Ok (f', start) /\ blob_file f' ((start, d) :: live) (bs :: own) free' /\ zlen f <= zlen f' <= zlen f + 256 * Z.of_nat (chunks_for (length d)) /\ start <> 0 /\
    zlen f' = zlen f + 256 * Z.of_nat (chunks_for (length d) - length free) /\ length bs = chunks_for (length d) /\ length free' = (length free - chunks_for (length d))%nat.
Proof.
  intros HF Hd Hne H32. destruct (file_n _ _ _ _ HF) as (n & Hf & Hn). destruct HF as (Hb & _ & (h & Hh & Eh & Hfr) & Hlive & Hnd). pose proof (free_hd _ _ _ Hfr) as Ehd. subst h.
  destruct (NoDup_app_d _ _ Hnd) as (Hnd1 & Hnd2 & Hdis).
  assert (H0 : ~ In 0 free) by (intros Q; pose proof (free_in _ _ _ Hfr 0 Q); lia).
  destruct (put_chunks_ok (length d) d f n free 0 [] (le_n _) Hb Hd Hf Hn ltac:(lia) Hnd2 Hfr ltac:(lia) H0 ltac:(lia)) as (f' & n' & bs & ds & fr' & E & Hb' & Hf' & Hn' & Hds & Hl & _ & Ho & Hfr' & Hnd' & Hin & Hst & Hcn & Hcb & Hcf).
  destruct (Hst Hne) as [Hbs Est]. clear Hst.
  assert (Hst0 : hd n free <> 0) by (destruct free as [|c fr]; cbn [hd]; [lia|]; pose proof (free_in _ _ _ Hfr c (or_introl eq_refl)); lia).
  destruct (put_head f' n' (hd 0 fr') Hf' ltac:(lia) Hb') as (g & Eg & Hg & Hbg & Hhg & Hog).
  assert (Hr : 0 <= hd 0 fr' < 2^32) by (destruct fr' as [|c fr]; cbn [hd]; [lia|]; pose proof (free_in _ _ _ Hfr' c (or_introl eq_refl)); lia).
  assert (Ehead : set_free_head mem_put (@zlen Z) f' (hd n' fr') = Ok g).
  { unfold set_free_head. rewrite <- Eg, Hf'. destruct fr' as [|c fr]; cbn [hd].
    - unfold u32. rewrite Z.mod_small by lia. destruct (Z.ltb_spec (n' * 256) (256 * n')); [lia|reflexivity].
    - pose proof (free_in _ _ _ Hfr' c (or_introl eq_refl)). unfold u32. rewrite Z.mod_small by lia. destruct (Z.ltb_spec (c * 256) (256 * n')); [reflexivity|lia]. }
  exists g, (hd n free), bs, fr'. split.
  { unfold write_blob. destruct d as [|z d0] eqn:Ed; [now elim Hne|]. rewrite <- Ed in *. unfold first_block. change 0 with (256 * 0) at 1. rewrite (get4 f n) by (try lia; assumption). cbn [rbind].
    change (Z.to_nat (256 * 0)) with 0%nat. rewrite Eh, u32_le4 by exact Hh. cbn [rbind].
    assert (Ef : (if hd 0 free =? 0 then u32 (zlen f / 256) else hd 0 free) = hd n free).
    { destruct free as [|c fr]; cbn [hd]; [|destruct (Z.eqb_spec c 0); [cbn [hd] in Hst0; lia|reflexivity]]. cbn [Z.eqb]. rewrite Hf. rewrite Z.mul_comm, Z.div_mul by lia. unfold u32. apply Z.mod_small. lia. }
    rewrite Ef. change (256 * 0) with 0 in E. rewrite E. cbn [rbind fst snd]. rewrite Ehead. reflexivity. }
  split; [|split; [lia|split; [exact Hst0|split; [lia|split; [exact Hcb|exact Hcf]]]]]. split; [exact Hbg|]. split; [exact (app_len_256 g n' Hg ltac:(lia))|]. split; [|split].
  - exists (hd 0 fr'). split; [exact Hr|]. split; [exact Hhg|]. apply (free_ext f' g); [lia| |exact Hfr']. intros b Hbb. pose proof (free_in _ _ _ Hfr' b Hbb). apply Hog. lia.
  - constructor.
    + exists ds. split; [|exact Hds]. cbn [fst]. rewrite <- Est. apply (linked_ext f' g); [lia| |exact Hl]. intros b Hbb. pose proof (linked_in _ _ _ _ Hl b Hbb). apply Hog. lia.
    + apply (blobs_ext f g); [lia| |exact Hlive]. intros b Hbb. pose proof (own_in _ _ _ b Hlive Hbb). rewrite Hog by lia. apply Ho; [lia|now apply Hdis|now right].
  - cbn [concat]. apply (Permutation_NoDup (l := concat own ++ bs ++ fr')).
    + rewrite <- app_assoc. rewrite !app_assoc. apply Permutation_app_tail, Permutation_app_comm.
    + apply NoDup_app_i; [exact Hnd1|exact Hnd'|]. intros x Hx Q. destruct (Hin x Q) as [R|R]; [exact (Hdis x Hx R)|]. pose proof (own_in _ _ _ x Hlive Hx). lia.
Qed.

(** ** deleting *)
Lemma chain_end_ok f n : zlen f = 256 * n -> zlen f <= 2^31 -> bytes_ok f -> forall bs ds s j fuel, linked f s bs ds -> (length bs <= fuel)%nat -> chain_end mem_get fuel f s j = Ok (last bs j).
Proof.
  intros Hf H31 Hb. induction bs as [|b bs IH]; intros [|d ds] s j fuel L Hk; cbn [linked] in L; try contradiction.
  - subst s. destruct fuel; reflexivity.
  - destruct L as (-> & nxt & Hch & L). pose proof Hch as (H1 & H2 & _). destruct fuel as [|k]; [cbn [length] in Hk; lia|]. cbn [chain_end]. destruct (Z.eqb_spec b 0); [lia|].
    destruct ((b <? 0) || (2^31 <=? b * 256)) eqn:Q; [lia|]. replace (b * 256) with (256 * b) by lia. rewrite (get4 f n) by (try lia; assumption). cbn [rbind].
    destruct Hch as (_ & _ & _ & Hn & pad & _ & Eb). rewrite link4 by (exists n; lia). unfold blk. rewrite Eb. rewrite firstn_app, le_bytes_length, Nat.sub_diag, firstn_O, app_nil_r, firstn_all2 by (rewrite le_bytes_length; lia).
    rewrite u32_le4 by exact Hn. cbn [rbind].
    assert (Hs : 0 <= nxt < 2^23) by (rewrite (linked_hd _ _ _ _ L); destruct bs as [|c bs']; cbn [hd]; [lia|]; pose proof (linked_in _ _ _ _ L c (or_introl eq_refl)); lia).
    replace (i32 nxt) with nxt by (unfold i32; rewrite Z.mod_small; lia). rewrite (IH ds nxt b k L) by (cbn [length] in Hk; lia). f_equal. destruct bs as [|c bs']; [reflexivity|].
    change (last (b :: c :: bs') j) with (last (c :: bs') j). clear. revert c. induction bs' as [|e bs' IH]; intros c; [reflexivity|]. exact (IH e).
Qed.
Lemma free_join f g h fr : zlen f <= zlen g -> free_chain g h fr -> 0 <= h < 2^32 -> forall bs ds s, linked f s bs ds -> bs <> [] -> NoDup bs ->
  (forall b, In b bs -> b <> last bs 0 -> blk g b = blk f b) -> firstn 4 (blk g (last bs 0)) = le_bytes 4 h -> free_chain g s (bs ++ fr).
Proof.
  intros Hl Hfr Hh. induction bs as [|b bs IH]; intros [|d ds] s L Hne Hnd Ho Hlast; cbn [linked] in L; try contradiction.
  destruct L as (-> & nxt & Hch & L). pose proof Hch as (H1 & H2 & _ & Hn & pad & _ & Eb). cbn [app free_chain]. split; [reflexivity|]. split; [exact H1|]. split; [lia|].
  assert (E4 : forall q, sub q (Z.to_nat (256 * b)) 4 = firstn 4 (blk q b)) by (intros q; unfold blk; rewrite <- (sub_0_firstn (sub q _ 256)), sub_sub by lia; f_equal; lia).
  destruct bs as [|c bs'].
  - exists h. split; [exact Hh|]. cbn [last] in Hlast. split; [rewrite E4; exact Hlast|exact Hfr].
  - exists nxt. split; [exact Hn|]. assert (Hbl : b <> last (b :: c :: bs') 0).
    { change (last (b :: c :: bs') 0) with (last (c :: bs') 0). intros Q. apply NoDup_cons_iff in Hnd. destruct Hnd as [N1 _]. apply N1. rewrite Q. clear. revert c. induction bs' as [|e bs' IH]; intros c; [now left|]. right. exact (IH e). }
    split.
    + rewrite E4, Ho by (try (now left); exact Hbl). unfold blk. rewrite Eb. rewrite firstn_app, le_bytes_length, Nat.sub_diag, firstn_O, app_nil_r. apply firstn_all2. rewrite le_bytes_length. lia.
    + apply (IH ds nxt L); [discriminate|now inversion Hnd|intros x Hx Hx2; apply Ho; [now right|exact Hx2]|exact Hlast].
Qed.
Lemma last_in (bs : list Z) : bs <> [] -> In (last bs 0) bs.
Proof. intros H. rewrite (app_removelast_last 0 H) at 2. apply in_or_app. right. now left. Qed.

Lemma delete_ok f l1 s d l2 own free fuel : blob_file f (l1 ++ (s, d) :: l2) own free -> s <> 0 -> zlen f <= 2^31 -> zlen f <= 256 * Z.of_nat fuel ->
  exists f' o1 bs o2, del fuel f s = Ok f' /\ own = o1 ++ bs :: o2 /\ blob_file f' (l1 ++ l2) (o1 ++ o2) (bs ++ free) /\ zlen f' = zlen f /\ length o1 = length l1.
Proof.
  intros HF Hs0 H31 Hfuel. destruct (file_n _ _ _ _ HF) as (n & Hf & Hn). destruct HF as (Hb & _ & (h & Hh & Eh & Hfr) & Hlive & Hnd).
  apply Forall2_app_inv_l in Hlive. destruct Hlive as (o1 & o2' & F1 & F2 & ->). inversion F2 as [|x bs l2' o2 (ds & L & Ed) F3]; subst. cbn [fst snd] in L.
  assert (Hbs : bs <> []) by (intros ->; destruct ds; cbn [linked] in L; [contradiction|contradiction]).
  assert (Pm : Permutation (concat (o1 ++ bs :: o2) ++ free) (concat (o1 ++ o2) ++ bs ++ free)).
  { rewrite !concat_app. cbn [concat]. rewrite <- !app_assoc. apply Permutation_app_head. rewrite !app_assoc. apply Permutation_app_tail, Permutation_app_comm. }
  pose proof (Permutation_NoDup Pm Hnd) as Hnd'. destruct (NoDup_app_d _ _ Hnd') as (N1 & N2 & Hdis). destruct (NoDup_app_d _ _ N2) as (N3 & N4 & Hdis2).
  assert (Hlen : (length bs <= fuel)%nat).
  { assert (Hi : incl (map Z.to_nat bs) (seq 0 (Z.to_nat n))) by (intros y Hy; apply in_map_iff in Hy; destruct Hy as (b & <- & Ib); pose proof (linked_in _ _ _ _ L b Ib); apply in_seq; lia).
    assert (Hm : NoDup (map Z.to_nat bs)).
    { assert (Hp : forall b, In b bs -> 0 < b) by (intros b Ib; pose proof (linked_in _ _ _ _ L b Ib); lia). clear - N3 Hp. induction N3 as [|b bs Hb Hbs IH]; [constructor|]. cbn [map]. constructor; [|apply IH; intros x Hx; apply Hp; now right].
      intros Q. apply in_map_iff in Q. destruct Q as (c & Ec & Ic). apply Hb. pose proof (Hp b (or_introl eq_refl)). pose proof (Hp c (or_intror Ic)). replace b with c by lia. exact Ic. }
    pose proof (NoDup_incl_length Hm Hi) as Q. rewrite map_length, seq_length in Q. lia. }
  pose proof (linked_hd _ _ _ _ L) as Es.
  assert (Hs : 0 < s /\ 256 * s + 256 <= zlen f) by (destruct bs as [|b bs']; [now elim Hbs|]; cbn [hd] in Es; subst s; exact (linked_in _ _ _ _ L b (or_introl eq_refl))).
  set (j := last bs 0). pose proof (last_in bs Hbs) as Hjin. fold j in Hjin. pose proof (linked_in _ _ _ _ L j Hjin) as Hj.
  set (x := le_bytes 4 h ++ sub (blk f j) 4 252). assert (Lx : length x = 256%nat) by (unfold x; rewrite app_length, le_bytes_length, sub_length by (rewrite (blk_len f n) by lia; lia); reflexivity).
  set (f1 := setb f j x). assert (Hf1 : zlen f1 = 256 * n) by (unfold f1; rewrite (setb_len f n) by (try lia; assumption); lia).
  assert (Hb1 : bytes_ok f1) by (apply setb_ok; [exact Hb|]; apply bytes_ok_app; split; [apply le_bytes_ok|now apply bytes_ok_sub, bytes_ok_sub]).
  destruct (put_head f1 n s Hf1 Hn Hb1) as (g & Eg & Hg & Hbg & Hhg & Hog).
  assert (O : forall b, 0 < b < n -> b <> j -> blk g b = blk f b) by (intros b Q1 Q2; rewrite Hog by lia; apply (setb_other f n); try lia; assumption).
  exists g, o1, bs, o2. split.
  { unfold delete_blob. unfold u32. rewrite Z.mod_small by lia. destruct (Z.leb_spec (zlen f) (s * 256)); [lia|]. destruct (Z.eqb_spec s 0); [lia|]. change 0 with (256 * 0) at 1. rewrite (get4 f n) by (try lia; assumption). cbn [rbind].
    change (Z.to_nat (256 * 0)) with 0%nat. rewrite Eh, u32_le4 by exact Hh. cbn [rbind]. replace (i32 s) with s by (unfold i32; rewrite Z.mod_small; lia).
    rewrite (chain_end_ok f n Hf H31 Hb bs ds s 0 fuel L Hlen). cbn [rbind]. fold j. replace (j * 256) with (256 * j) by lia. rewrite (put_link f n) by (try lia; assumption). cbn [rbind]. exact Eg. }
  split; [reflexivity|]. split; [|split; [lia|symmetry; exact (F2_len _ _ _ F1)]]. split; [exact Hbg|]. split; [exact (app_len_256 g n Hg Hn)|]. split; [|split; [|exact Hnd']].
  - exists s. split; [lia|]. split; [exact Hhg|]. apply (free_join f g h free) with (ds := ds).
    + lia.
    + apply (free_ext f g); [lia| |exact Hfr]. intros b Ib. pose proof (free_in _ _ _ Hfr b Ib). apply O; [lia|]. intros ->. exact (Hdis2 j Hjin Ib).
    + exact Hh.
    + exact L.
    + exact Hbs.
    + exact N3.
    + intros b Ib Q. pose proof (linked_in _ _ _ _ L b Ib). apply O; [lia|exact Q].
    + fold j. rewrite Hog by lia. unfold f1. rewrite (setb_same f n) by (try lia; assumption). unfold x. rewrite firstn_app, le_bytes_length, Nat.sub_diag, firstn_O, app_nil_r. apply firstn_all2. rewrite le_bytes_length. lia.
  - assert (F : Forall2 (fun x bs => blob f (fst x) bs (snd x)) (l1 ++ l2) (o1 ++ o2)) by (apply Forall2_app; assumption).
    apply (blobs_ext f g); [lia| |exact F]. intros b Ib. pose proof (own_in _ _ _ b F Ib). apply O; [lia|]. intros ->. apply (Hdis j Ib), in_or_app. now left.
Qed.

(** ** histories *)
Lemma drop_none {A} (l : list A) k : nth_error l k = None -> drop_nth k l = l.
Proof. intros H. apply nth_error_None in H. unfold drop_nth. rewrite firstn_all2, skipn_all2 by lia. apply app_nil_r. Qed.
Lemma drop_split {A} (l : list A) k x : nth_error l k = Some x -> exists a b, l = a ++ x :: b /\ drop_nth k l = a ++ b.
Proof.
  intros H. apply nth_error_split in H. destruct H as (a & b & -> & <-). exists a, b. split; [reflexivity|]. unfold drop_nth. rewrite firstn_app, Nat.sub_diag, firstn_O, app_nil_r, firstn_all.
  f_equal. rewrite skipn_app, skipn_all2 by lia. replace (S (length a) - length a)%nat with 1%nat by lia. reflexivity.
Qed.
Lemma drop_at {A} (a : list A) x b : drop_nth (length a) (a ++ x :: b) = a ++ b.
Proof. unfold drop_nth. rewrite firstn_app, Nat.sub_diag, firstn_O, app_nil_r, firstn_all. f_equal. rewrite skipn_app, skipn_all2 by lia. replace (S (length a) - length a)%nat with 1%nat by lia. reflexivity. Qed.
Lemma to_nat_NoDup (bs : list Z) : (forall b, In b bs -> 0 < b) -> NoDup bs -> NoDup (map Z.to_nat bs).
Proof.
  intros Hp N3. induction N3 as [|b bs Hb Hbs IH]; [constructor|]. cbn [map]. constructor; [|apply IH; intros x Hx; apply Hp; now right].
  intros Q. apply in_map_iff in Q. destruct Q as (c & Ec & Ic). apply Hb. pose proof (Hp b (or_introl eq_refl)). pose proof (Hp c (or_intror Ic)). replace b with c by lia. exact Ic.
Qed.
Lemma drop_map {A B} (g : A -> B) k l : map g (drop_nth k l) = drop_nth k (map g l).
Proof. unfold drop_nth. rewrite map_app, firstn_map, skipn_map. reflexivity. Qed.
Lemma blob_nil f live own free : blob_file f live own free -> blob_file f ((0, []) :: live) ([] :: own) free.
Proof. intros (A & B & C & D & E). split; [exact A|]. split; [exact B|]. split; [exact C|]. split; [|exact E]. constructor; [|exact D]. exists []. split; reflexivity. Qed.
Lemma blob_drop0 f l1 d l2 own free : blob_file f (l1 ++ (0, d) :: l2) own free -> exists o1 o2, own = o1 ++ [] :: o2 /\ length o1 = length l1 /\ blob_file f (l1 ++ l2) (o1 ++ o2) free.
Proof.
  intros (A & B & C & D & E). apply Forall2_app_inv_l in D. destruct D as (o1 & o2' & F1 & F2 & ->). inversion F2 as [|x bs l2' o2 (ds & L & Ed) F3]; subst. cbn [fst] in L.
  assert (bs = []). { destruct bs as [|b bs]; [reflexivity|]. pose proof (linked_in _ _ _ _ L b (or_introl eq_refl)). pose proof (linked_hd _ _ _ _ L) as Q. cbn [hd] in Q. lia. } subst bs.
  exists o1, o2. split; [reflexivity|]. split; [symmetry; exact (F2_len _ _ _ F1)|]. split; [exact A|]. split; [exact B|]. split; [exact C|]. split; [now apply Forall2_app|]. rewrite !concat_app in *. exact E.
Qed.

Lemma history_ok : forall xs f live own free, blob_file f live own free -> Forall bop_ok xs -> zlen f + 256 * Z.of_nat (list_sum (map bop_chunks xs)) <= 2^31 ->
  exists f' live' own' free', bexecs mem_get mem_put (@zlen Z) (f, live) xs = Ok (f', live') /\ blob_file f' live' own' free' /\ map snd live' = bplains (map snd live) xs /\ zlen f' <= zlen f + 256 * Z.of_nat (list_sum (map bop_chunks xs)).
Proof.
  induction xs as [|x xs IH]; intros f live own free HF Hok Hsz.
  - exists f, live, own, free. cbn. split; [reflexivity|]. split; [exact HF|]. split; [reflexivity|lia].
  - inversion Hok as [|? ? Hx Hxs]; subst. cbn [map] in Hsz. change (list_sum (bop_chunks x :: map bop_chunks xs)) with (bop_chunks x + list_sum (map bop_chunks xs))%nat in *.
    assert (Step : exists f1 live1 own1 free1, bexec mem_get mem_put (@zlen Z) (f, live) x = Ok (f1, live1) /\ blob_file f1 live1 own1 free1 /\ map snd live1 = bplain (map snd live) x /\ zlen f1 <= zlen f + 256 * Z.of_nat (bop_chunks x)).
    { destruct x as [d|k]; cbn [bexec bop_chunks bplain bop_ok] in *.
      - destruct (list_eq_dec Z.eq_dec d []) as [->|Hne].
        + exists f, ((0, []) :: live), ([] :: own), free. split; [reflexivity|]. split; [now apply blob_nil|]. split; [reflexivity|lia].
        + destruct (write_ok f live own free d HF Hx Hne ltac:(lia)) as (f1 & st & bs & fr & E & HF1 & Hl & _). exists f1, ((st, d) :: live), (bs :: own), fr. rewrite E. cbn [rbind fst snd]. split; [reflexivity|]. split; [exact HF1|]. split; [reflexivity|lia].
      - destruct (nth_error live k) as [[n d]|] eqn:Ek.
        + destruct (drop_split live k (n, d) Ek) as (l1 & l2 & El & Edr). rewrite <- drop_map, Edr. subst live. destruct (Z.eqb_spec n 0) as [->|Hn].
          * destruct (blob_drop0 f l1 d l2 own free HF) as (o1 & o2 & _ & _ & HF'). exists f, (l1 ++ l2), (o1 ++ o2), free. split; [reflexivity|]. split; [exact HF'|]. split; [reflexivity|lia].
          * destruct (delete_ok f l1 n d l2 own free (Z.to_nat (zlen f)) HF Hn ltac:(lia) ltac:(pose proof (zlen_nonneg f); lia)) as (f1 & o1 & bs & o2 & E & _ & HF1 & Hl & _). exists f1, (l1 ++ l2), (o1 ++ o2), (bs ++ free). rewrite E. cbn [rbind]. split; [reflexivity|]. split; [exact HF1|]. split; [reflexivity|lia].
        + exists f, live, own, free. split; [reflexivity|]. split; [exact HF|]. split; [rewrite drop_none; [reflexivity|now rewrite nth_error_map, Ek]|lia]. }
    destruct Step as (f1 & live1 & own1 & free1 & E1 & HF1 & M1 & L1). destruct (IH f1 live1 own1 free1 HF1 Hxs ltac:(lia)) as (f2 & live2 & own2 & free2 & E2 & HF2 & M2 & L2).
    exists f2, live2, own2, free2. cbn [bexecs]. rewrite E1. cbn [rbind]. split; [exact E2|]. split; [exact HF2|]. split; [rewrite M2, M1; reflexivity|]. change (list_sum (map bop_chunks (x :: xs))) with (bop_chunks x + list_sum (map bop_chunks xs))%nat. lia.
Qed.

(** a history that fits into the free chunks keeps the length *)
Lemma history_fits : forall xs f live own free, blob_file f live own free -> Forall bop_ok xs -> zlen f <= 2^31 -> bfits (length free) (map (@length Z) own) xs ->
  exists f' live' own' free', bexecs mem_get mem_put (@zlen Z) (f, live) xs = Ok (f', live') /\ blob_file f' live' own' free' /\ map snd live' = bplains (map snd live) xs /\ zlen f' = zlen f.
Proof.
  induction xs as [|x xs IH]; intros f live own free HF Hok Hsz Hfit.
  - exists f, live, own, free. cbn. split; [reflexivity|]. split; [exact HF|]. split; reflexivity.
  - inversion Hok as [|? ? Hx Hxs]; subst.
    assert (Step : exists f1 live1 own1 free1, bexec mem_get mem_put (@zlen Z) (f, live) x = Ok (f1, live1) /\ blob_file f1 live1 own1 free1 /\ map snd live1 = bplain (map snd live) x /\ zlen f1 = zlen f /\ bfits (length free1) (map (@length Z) own1) xs).
    { destruct x as [d|k]; cbn [bexec bfits bplain bop_ok] in *.
      - destruct (list_eq_dec Z.eq_dec d []) as [->|Hne].
        + exists f, ((0, []) :: live), ([] :: own), free. split; [reflexivity|]. split; [now apply blob_nil|]. split; [reflexivity|]. split; [reflexivity|]. change (chunks_for (length (@nil Z))) with 0%nat in Hfit. rewrite Nat.sub_0_r in Hfit. exact (proj2 Hfit).
        + destruct Hfit as [Hc Hfit].
          assert (H24 : Z.of_nat (length free) < 2^23).
          { destruct (file_n _ _ _ _ HF) as (n & Hf & Hn). destruct HF as (_ & _ & (h & _ & _ & Hfr) & _ & Hnd). destruct (NoDup_app_d _ _ Hnd) as (_ & N & _).
            assert (Hi : incl (map Z.to_nat free) (seq 1 (Z.to_nat (n - 1)))) by (intros y Hy; apply in_map_iff in Hy; destruct Hy as (b & <- & Ib); pose proof (free_in _ _ _ Hfr b Ib); apply in_seq; lia).
            assert (Hm : NoDup (map Z.to_nat free)) by (apply to_nat_NoDup; [intros b Ib; pose proof (free_in _ _ _ Hfr b Ib); lia|exact N]).
            pose proof (NoDup_incl_length Hm Hi) as Q. rewrite map_length, seq_length in Q. lia. }
          destruct (write_ok f live own free d HF Hx Hne ltac:(lia)) as (f1 & st & bs & fr & E & HF1 & _ & _ & Hl & Hlb & Hlf). exists f1, ((st, d) :: live), (bs :: own), fr. rewrite E. cbn [rbind fst snd]. split; [reflexivity|]. split; [exact HF1|]. split; [reflexivity|].
          split; [lia|]. rewrite Hlf. cbn [map]. rewrite Hlb. exact Hfit.
      - assert (Hlo : length own = length live) by (destruct HF as (_ & _ & _ & F & _); symmetry; exact (F2_len _ _ _ F)).
        destruct (nth_error live k) as [[n d]|] eqn:Ek.
        + apply nth_error_split in Ek as El. destruct El as (l1 & l2 & El & Elk). destruct (drop_split live k (n, d) Ek) as (l1' & l2' & El' & Edr). rewrite <- drop_map.
          assert (Ed : drop_nth k live = l1 ++ l2) by (rewrite El, <- Elk; apply drop_at). rewrite Ed. clear Edr El' l1' l2'. subst live. destruct (Z.eqb_spec n 0) as [->|Hn].
          * destruct (blob_drop0 f l1 d l2 own free HF) as (o1 & o2 & Eo & Ho & HF'). exists f, (l1 ++ l2), (o1 ++ o2), free. split; [reflexivity|]. split; [exact HF'|]. split; [reflexivity|]. split; [reflexivity|].
            subst own. rewrite <- Elk, <- Ho in Hfit. rewrite map_app in *. cbn [map] in Hfit. rewrite <- (map_length (@length Z) o1) in Hfit. rewrite drop_at, app_nth2, Nat.sub_diag in Hfit by lia. cbn [nth length] in Hfit. now rewrite Nat.add_0_r in Hfit.
          * destruct (delete_ok f l1 n d l2 own free (Z.to_nat (zlen f)) HF Hn ltac:(lia) ltac:(pose proof (zlen_nonneg f); lia)) as (f1 & o1 & bs & o2 & E & Eo & HF1 & Hl & Ho). exists f1, (l1 ++ l2), (o1 ++ o2), (bs ++ free). rewrite E. cbn [rbind]. split; [reflexivity|]. split; [exact HF1|]. split; [reflexivity|]. split; [lia|].
            subst own. rewrite <- Elk, <- Ho in Hfit. rewrite map_app in *. cbn [map] in Hfit. rewrite <- (map_length (@length Z) o1) in Hfit. rewrite drop_at, app_nth2, Nat.sub_diag in Hfit by lia. cbn [nth] in Hfit. rewrite app_length, Nat.add_comm. exact Hfit.
        + exists f, live, own, free. split; [reflexivity|]. split; [exact HF|]. split; [rewrite drop_none; [reflexivity|now rewrite nth_error_map, Ek]|]. split; [reflexivity|]. apply nth_error_None in Ek.
          rewrite nth_overflow in Hfit by (rewrite map_length; lia). rewrite drop_none in Hfit by (apply nth_error_None; rewrite map_length; lia). now rewrite Nat.add_0_r in Hfit. }
    destruct Step as (f1 & live1 & own1 & free1 & E1 & HF1 & M1 & L1 & F1). destruct (IH f1 live1 own1 free1 HF1 Hxs ltac:(lia) F1) as (f2 & live2 & own2 & free2 & E2 & HF2 & M2 & L2).
    exists f2, live2, own2, free2. cbn [bexecs]. rewrite E1. cbn [rbind]. split; [exact E2|]. split; [exact HF2|]. split; [rewrite M2, M1; reflexivity|lia].
Qed.

(** every live blob reads back, with every function *)
Lemma live_reads f live own free s d : blob_file f live own free -> zlen f < 2^32 -> In (s, d) live -> forall fuel, zlen f <= 256 * Z.of_nat fuel ->
  read_blob_object mem_get (@zlen Z) fuel f s (zlen d) = Ok d /\ (s <> 0 -> read_blob_table mem_get (@zlen Z) fuel f s (zlen d) = Ok (d, false)).
Proof.
  intros HF H32 Hin fuel Hfuel. destruct (file_n _ _ _ _ HF) as (n & Hf & Hn). destruct HF as (Hb & _ & _ & Hlive & Hnd).
  apply in_split in Hin. destruct Hin as (l1 & l2 & ->). apply Forall2_app_inv_l in Hlive. destruct Hlive as (o1 & o2' & F1 & F2 & ->). inversion F2 as [|x bs l2' o2 HB F3]; subst. cbn [fst snd] in HB. destruct HB as (ds & L & Ed).
  assert (N3 : NoDup bs) by (rewrite concat_app in Hnd; cbn [concat] in Hnd; rewrite <- !app_assoc in Hnd; apply NoDup_app_d in Hnd; destruct Hnd as (_ & Hnd & _); now apply NoDup_app_d in Hnd).
  assert (Hlen : (length bs <= fuel)%nat).
  { assert (Hi : incl (map Z.to_nat bs) (seq 0 (Z.to_nat n))) by (intros y Hy; apply in_map_iff in Hy; destruct Hy as (b & <- & Ib); pose proof (linked_in _ _ _ _ L b Ib); apply in_seq; lia).
    assert (Hm : NoDup (map Z.to_nat bs)).
    { assert (Hp : forall b, In b bs -> 0 < b) by (intros b Ib; pose proof (linked_in _ _ _ _ L b Ib); lia). clear - N3 Hp. induction N3 as [|b bs Hb Hbs IH]; [constructor|]. cbn [map]. constructor; [|apply IH; intros x Hx; apply Hp; now right].
      intros Q. apply in_map_iff in Q. destruct Q as (c & Ec & Ic). apply Hb. pose proof (Hp b (or_introl eq_refl)). pose proof (Hp c (or_intror Ic)). replace b with c by lia. exact Ic. }
    pose proof (NoDup_incl_length Hm Hi) as Q. rewrite map_length, seq_length in Q. lia. }
  assert (H256 : zlen f mod 256 = 0) by (rewrite Hf, Z.mul_comm; apply Z.mod_mul; lia).
  split; [apply (object_complete mem_get (@zlen Z) f f fuel s _ bs d); try assumption; [apply mem_faithful|exists ds; auto|now left]|].
  intros Hs. pose proof (linked_start _ _ _ _ L). rewrite (table_short mem_get (@zlen Z) f f fuel s (zlen d) bs d); try assumption; [now rewrite Z.eqb_refl|apply mem_faithful|exists ds; auto|lia|lia].
Qed.
Lemma empty_file : blob_file blob_empty [] [] [].
Proof.
  split; [apply bytes_okb_spec; reflexivity|]. split; [exists 1%nat; split; [lia|reflexivity]|]. split; [exists 0; split; [lia|]; split; reflexivity|]. split; [constructor|constructor].
Qed.
