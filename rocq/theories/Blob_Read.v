(** Reading blobs: the three functions; when reading ends. *)
From Verif Require Import Prelude Lists Obj_Model Obj_Spec Obj_Proofs Obj_More Blob_Model Blob_Spec Blob_Proofs.
Ltac Zify.zify_post_hook ::= idtac.

Lemma linked_start f s bs ds : linked f s bs ds -> 0 <= s.
Proof. destruct bs as [|b bs], ds as [|d ds]; cbn [linked]; try contradiction; [lia|]. intros (-> & nxt & (H & _) & _). lia. Qed.

Section Read.
Context {S : Type}.
Variable get : S -> Z -> Z -> res (list Z).
Variable size : S -> Z.
Notation loop := (blob_loop get).

(** ** reading into a buffer overruns it when the chain is longer *)
Lemma loop_over s f nb lim : faithful get size s f -> bytes_ok f -> zlen f = 256 * nb -> zlen f < 2^32 -> forall bs ds cur total fuel, linked f cur bs ds ->
  total <= lim -> lim < total + zlen (concat ds) -> (length bs <= fuel)%nat -> loop fuel s nb lim (Some lim) cur total = UB.
Proof.
  intros Hf Hb Hn H32. induction bs as [|b bs IH]; intros [|d ds] cur total fuel L H0 Hl Hk; cbn [linked] in L; try contradiction.
  - cbn [concat] in Hl. rewrite zlen_nil in Hl. lia.
  - destruct L as (-> & nxt & Hch & L). pose proof Hch as (Hb0 & _). destruct fuel as [|k]; [cbn [length] in Hk; lia|].
    destruct (loop_step get size s f nb lim (Some lim) b total Hf Hb Hn H32 Hb0) as [(nxt' & d' & Hch' & Es)|(Hno & Es)]; [|exfalso; exact (Hno _ _ Hch)].
    destruct (chunk_fun _ _ _ _ _ _ Hch Hch') as [<- <-]. rewrite Es. cbn [concat] in *. rewrite zlen_app in Hl.
    destruct (Z.ltb_spec lim (total + zlen d)); [reflexivity|]. rewrite (IH ds nxt (total + zlen d) k); [reflexivity|exact L|lia|lia|cbn [length] in Hk; lia].
Qed.

(** ** when reading does not end *)
Lemma zero_pos f b c : zero_path f b c -> 0 < b.
Proof. intros [x nxt (Q & _)|x nxt y (Q & _) _]; exact Q. Qed.
Lemma spin s f nb lim : faithful get size s f -> bytes_ok f -> zlen f = 256 * nb -> zlen f < 2^32 -> forall b, zero_path f b b -> forall k c total, zero_path f c b -> total <= lim -> loop k s nb lim None c total = Hang.
Proof.
  intros Hf Hb Hn H32 b Hbb. induction k as [|k IH]; intros c total Hz Ht.
  - cbn [blob_loop]. assert (0 < c) by (destruct Hz as [? ? (Q & _)|? ? ? (Q & _) _]; exact Q). destruct (Z.eqb_spec c 0); [lia|reflexivity].
  - assert (exists nxt, chunk f c nxt [] /\ zero_path f nxt b) as (nxt & Hch & Hz') by (destruct Hz as [x nxt Q|x nxt y Q R]; eauto).
    assert (Hc : 0 < c) by (destruct Hch as (Q & _); exact Q).
    destruct (loop_step get size s f nb lim None c total Hf Hb Hn H32 Hc) as [(nxt' & d' & Hch' & Es)|(Hno & Es)]; [|exfalso; exact (Hno _ _ Hch)].
    destruct (chunk_fun _ _ _ _ _ _ Hch Hch') as [<- <-]. rewrite Es. change (zlen (@nil Z)) with 0. destruct (Z.ltb_spec lim (total + 0)); [lia|]. rewrite IH; [reflexivity|exact Hz'|lia].
Qed.
Lemma reach_hang s f nb lim : faithful get size s f -> bytes_ok f -> zlen f = 256 * nb -> zlen f < 2^32 -> forall start b n t, reached f start b n -> t + Z.of_nat n <= lim -> b <> 0 ->
  (forall k, loop k s nb lim None b (t + Z.of_nat n) = Hang) -> forall k, loop k s nb lim None start t = Hang.
Proof.
  intros Hf Hb Hn H32 start b n t R. induction R as [|b nxt d n R IH Hch]; intros Ht Hb0 H k.
  - specialize (H k). now rewrite Z.add_0_r in H.
  - assert (Hc : 0 < b) by (destruct Hch as (Q & _); exact Q). apply IH; [lia|lia|]. intros j. destruct j as [|j]; [cbn [blob_loop]; destruct (Z.eqb_spec b 0); [lia|reflexivity]|].
    destruct (loop_step get size s f nb lim None b (t + Z.of_nat n) Hf Hb Hn H32 Hc) as [(nxt' & d' & Hch' & Es)|(Hno & Es)]; [|exfalso; exact (Hno _ _ Hch)].
    destruct (chunk_fun _ _ _ _ _ _ Hch Hch') as [<- <-]. rewrite Es. unfold zlen. destruct (Z.ltb_spec lim (t + Z.of_nat n + Z.of_nat (length d))); [lia|].
    replace (t + Z.of_nat n + Z.of_nat (length d)) with (t + Z.of_nat (n + length d)) by lia. now rewrite H.
Qed.

Inductive trace (f : list Z) : Z -> nat -> list (Z * nat) -> Prop :=
| trace_nil c t : trace f c t []
| trace_cons c t nxt d l : chunk f c nxt d -> trace f nxt (t + length d) l -> trace f c t ((c, t) :: l).
Lemma hang_trace s f nb lim : faithful get size s f -> bytes_ok f -> zlen f = 256 * nb -> zlen f < 2^32 -> forall k c t, 0 <= c -> Z.of_nat t <= lim -> loop k s nb lim None c (Z.of_nat t) = Hang ->
  exists l, length l = k /\ trace f c t l /\ Forall (fun p => 0 < fst p < nb /\ Z.of_nat (snd p) <= lim) l.
Proof.
  intros Hf Hb Hn H32. induction k as [|k IH]; intros c t Hc Ht E; [exists []; split; [reflexivity|]; split; constructor|].
  destruct (Z.eq_dec c 0) as [->|Hne]; [rewrite loop_0 in E; discriminate|].
  destruct (loop_step get size s f nb lim None c (Z.of_nat t) Hf Hb Hn H32 ltac:(lia)) as [(nxt & d & Hch & Es)|(Hno & Es)]; rewrite Es in E; [|discriminate].
  destruct (Z.ltb_spec lim (Z.of_nat t + zlen d)) as [|Hl]; [discriminate|]. assert (Hn0 : 0 <= nxt) by (destruct Hch as (_ & _ & _ & Q & _); lia).
  assert (E2 : loop k s nb lim None nxt (Z.of_nat (t + length d)) = Hang).
  { replace (Z.of_nat (t + length d)) with (Z.of_nat t + zlen d) by (unfold zlen; lia). destruct (loop k s nb lim None nxt (Z.of_nat t + zlen d)); try discriminate. reflexivity. }
  destruct (IH nxt (t + length d)%nat Hn0 ltac:(unfold zlen in Hl; lia) E2) as (l & L1 & L2 & L3). exists ((c, t) :: l). split; [cbn [length]; now rewrite L1|]. split; [econstructor; eassumption|].
  constructor; [|exact L3]. cbn [fst snd]. destruct Hch as (Q1 & Q2 & _). lia.
Qed.
Lemma trace_le f c t l x u r : trace f c t (l ++ (x, u) :: r) -> (t <= u)%nat.
Proof.
  revert c t. induction l as [|[y v] l IH]; intros c t H; cbn [app] in H; inversion H; subst; [lia|]. match goal with H' : trace f _ _ (l ++ _) |- _ => apply IH in H' end. lia.
Qed.
Lemma trace_zero f c t l x r : trace f c t (l ++ (x, t) :: r) -> l <> [] -> zero_path f c x.
Proof.
  revert c. induction l as [|[y v] l IH]; intros c H Hn; [contradiction|]. cbn [app] in H. inversion H as [|c0 t0 nxt d l0 Hch Ht]; subst.
  pose proof (trace_le _ _ _ _ _ _ _ Ht). assert (d = []) by (destruct d; [reflexivity|cbn [length] in *; lia]). subst d. cbn [length] in Ht. rewrite Nat.add_0_r in Ht.
  destruct l as [|p l]; [cbn [app] in Ht; inversion Ht; subst; now constructor|]. econstructor 2; [exact Hch|]. apply IH; [exact Ht|discriminate].
Qed.
Lemma trace_reached f s : forall l c t x u r n, trace f c t (l ++ (x, u) :: r) -> reached f s c n -> reached f s x (n + (u - t)) /\ trace f x u ((x, u) :: r).
Proof.
  induction l as [|[y v] l IH]; intros c t x u r n H Hr; cbn [app] in H.
  - inversion H as [|c0 t0 nxt d l0 Hch Ht]; subst. rewrite Nat.sub_diag, Nat.add_0_r. auto.
  - inversion H as [|c0 t0 nxt d l0 Hch Ht]; subst. pose proof (trace_le _ _ _ _ _ _ _ Ht). destruct (IH _ _ _ _ _ (n + length d)%nat Ht ltac:(econstructor; eassumption)) as [R T].
    split; [|exact T]. now replace (n + (u - v))%nat with (n + length d + (u - (v + length d)))%nat by lia.
Qed.
Lemma dup {A} (dec : forall x y : A, {x = y} + {x <> y}) (l : list A) : ~ NoDup l -> exists x a b c, l = a ++ x :: b ++ x :: c.
Proof.
  induction l as [|x l IH]; intros H; [exfalso; apply H; constructor|]. destruct (in_dec dec x l) as [Hi|Hi].
  - apply in_split in Hi. destruct Hi as (b & c & ->). exists x, [], b, c. reflexivity.
  - destruct IH as (y & a & b & c & ->); [intros Hn; apply H; now constructor|]. exists y, (x :: a), b, c. reflexivity.
Qed.
Lemma pair_dec (x y : Z * nat) : {x = y} + {x <> y}.
Proof. decide equality; [apply Nat.eq_dec|apply Z.eq_dec]. Qed.
Lemma mixed_radix a x b y m : 0 <= x < m -> 0 <= y < m -> a * m + x = b * m + y -> a = b /\ x = y.
Proof. intros H1 H2 E. apply (Z.div_mod_unique m); lia. Qed.
Lemma pigeon nb lim (l : list (Z * nat)) : 0 <= nb -> 0 <= lim -> Forall (fun p => 0 < fst p < nb /\ Z.of_nat (snd p) <= lim) l -> nb * (lim + 1) < zlen l -> ~ NoDup l.
Proof.
  intros Hnb Hlim Hl Hlen Hn. set (g := fun p : Z * nat => Z.to_nat (fst p * (lim + 1) + Z.of_nat (snd p))).
  assert (Hg : NoDup (map g l)).
  { clear Hlen. induction Hn as [|p l Hp Hn IH]; [constructor|]. inversion Hl as [|p0 l0 P Q]; subst. cbn [map]. constructor; [|exact (IH Q)].
    intros Hi. apply in_map_iff in Hi. destruct Hi as (q & Eq & Iq). apply Hp. rewrite Forall_forall in Q. specialize (Q q Iq). unfold g in Eq.
    assert (E : fst q * (lim + 1) + Z.of_nat (snd q) = fst p * (lim + 1) + Z.of_nat (snd p)) by (clear - Eq Q P Hlim; nia).
    destruct (mixed_radix (fst q) (Z.of_nat (snd q)) (fst p) (Z.of_nat (snd p)) (lim + 1) ltac:(lia) ltac:(lia) E) as [E1 E2]. apply Nat2Z.inj in E2. destruct p, q; cbn [fst snd] in *; now subst. }
  assert (Hi : incl (map g l) (seq 0 (Z.to_nat (nb * (lim + 1))))).
  { intros y Hy. apply in_map_iff in Hy. destruct Hy as (q & <- & Iq). rewrite Forall_forall in Hl. specialize (Hl q Iq). apply in_seq. unfold g. nia. }
  pose proof (NoDup_incl_length Hg Hi) as Hle. rewrite map_length, seq_length in Hle. unfold zlen in Hlen. assert (0 <= nb * (lim + 1)) by (apply Z.mul_nonneg_nonneg; lia). lia.
Qed.
Lemma hang_cycle s f nb lim : faithful get size s f -> bytes_ok f -> zlen f = 256 * nb -> zlen f < 2^32 -> 0 <= lim -> forall k c, 0 <= c -> nb * (lim + 1) < Z.of_nat k -> loop k s nb lim None c 0 = Hang ->
  exists b n, reached f c b n /\ Z.of_nat n <= lim /\ zero_path f b b.
Proof.
  intros Hf Hb Hn H32 Hlim k c Hc Hk E. destruct (hang_trace s f nb lim Hf Hb Hn H32 k c 0 Hc ltac:(lia) E) as (l & L1 & L2 & L3).
  assert (Hd : ~ NoDup l) by (apply (pigeon nb lim); [pose proof (zlen_nonneg f); lia|exact Hlim|exact L3|unfold zlen; lia]).
  destruct (dup pair_dec l Hd) as ((x & u) & a & b & r & ->).
  destruct (trace_reached f c a c 0 x u (b ++ (x, u) :: r) 0 L2 (reached_0 f c)) as [R T]. exists x, (0 + (u - 0))%nat. split; [exact R|]. split.
  - rewrite Forall_forall in L3. specialize (L3 (x, u) ltac:(apply in_or_app; right; left; reflexivity)). cbn [fst snd] in L3. lia.
  - apply (trace_zero f x u ((x, u) :: b) x r); [exact T|discriminate].
Qed.

(** ** the functions *)
Lemma object_sound s f fuel start lim d : faithful get size s f -> bytes_ok f -> 0 <= start -> read_blob_object get size fuel s start lim = Ok d ->
  (lim <> 2^32 - 1 -> zlen d = lim) /\ (zlen d <= lim -> exists bs, blob f start bs d).
Proof.
  intros Hf Hb Hs E. unfold read_blob_object in E. destruct ((start =? 0) && negb (lim =? 0)) eqn:E0; [discriminate|].
  pose proof Hf as [Hsz _]. rewrite Hsz in E. set (nb := u32 (zlen f / 256)) in *. destruct (Z.eqb_spec (u32 (nb * 256)) (zlen f)) as [En|]; cbn [negb] in E; [|discriminate].
  assert (H32 : zlen f < 2^32) by (rewrite <- En; unfold u32; apply Z.mod_pos_bound; lia).
  assert (Hnb : zlen f = 256 * nb).
  { pose proof (zlen_nonneg f). assert (Q : 0 <= zlen f / 256 < 2^24) by (split; [apply Z.div_pos; lia|apply Z.div_lt_upper_bound; lia]).
    assert (nb = zlen f / 256) by (unfold nb, u32; apply Z.mod_small; lia). unfold u32 in En. rewrite Z.mod_small in En by lia. lia. }
  destruct (loop fuel s nb lim None start 0) as [r| | |] eqn:El; try discriminate. cbn [rbind] in E.
  destruct (negb (lim =? 2^32 - 1) && negb (zlen r =? lim)) eqn:Ec; [discriminate|]. injection E as ->. split; [lia|]. intros Hle.
  apply (loop_sound get size s f nb lim Hf Hb Hnb H32 fuel start 0 d Hs El). left. lia.
Qed.
Lemma object_complete s f fuel start lim bs d : faithful get size s f -> bytes_ok f -> zlen f < 2^32 -> zlen f mod 256 = 0 -> blob f start bs d -> (length bs <= fuel)%nat -> zlen d = lim \/ lim = 2^32 - 1 /\ 0 < start /\ zlen d <= lim ->
  read_blob_object get size fuel s start lim = Ok d.
Proof.
  intros Hf Hb H32 H256 (ds & L & <-) Hk Hl. unfold read_blob_object. pose proof (linked_start _ _ _ _ L) as Hs.
  assert (H0 : (start =? 0) && negb (lim =? 0) = false).
  { destruct (Z.eqb_spec start 0) as [->|]; [|reflexivity]. destruct Hl as [Hl|Hl]; [|lia]. destruct bs as [|b bs], ds as [|x ds]; cbn [linked] in L; try contradiction.
    - cbn [concat] in Hl. rewrite zlen_nil in Hl. lia.
    - destruct L as (<- & nxt & (Q & _) & _). lia. }
  rewrite H0. pose proof Hf as [Hsz _]. rewrite Hsz. pose proof (zlen_nonneg f). pose proof (Z.div_mod (zlen f) 256 ltac:(lia)) as Hdm.
  assert (Q : 0 <= zlen f / 256 < 2^24) by (split; [apply Z.div_pos; lia|apply Z.div_lt_upper_bound; lia]). set (nb := zlen f / 256) in *.
  assert (Enb : u32 nb = nb) by (apply Z.mod_small; lia). rewrite Enb. replace (u32 (nb * 256)) with (zlen f) by (unfold u32; rewrite Z.mod_small by lia; lia). rewrite Z.eqb_refl. cbn [negb].
  rewrite (loop_complete get size s f nb lim Hf Hb ltac:(lia) H32 bs ds start 0 fuel L); [|lia|exact Hk]. cbn [rbind].
  destruct (negb (lim =? 2^32 - 1) && negb (zlen (concat ds) =? lim)) eqn:Ec; [lia|reflexivity].
Qed.
Lemma object_safe s f fuel start lim : faithful get size s f -> bytes_ok f -> 0 <= start -> read_blob_object get size fuel s start lim <> UB.
Proof.
  intros Hf Hb Hs. unfold read_blob_object. destruct (_ && _); [discriminate|]. pose proof Hf as [Hsz _]. rewrite Hsz. set (nb := u32 (zlen f / 256)).
  destruct (Z.eqb_spec (u32 (nb * 256)) (zlen f)) as [En|]; cbn [negb]; [|discriminate].
  assert (H32 : zlen f < 2^32) by (rewrite <- En; unfold u32; apply Z.mod_pos_bound; lia).
  assert (Hnb : zlen f = 256 * nb).
  { pose proof (zlen_nonneg f). assert (Q : 0 <= zlen f / 256 < 2^24) by (split; [apply Z.div_pos; lia|apply Z.div_lt_upper_bound; lia]).
    assert (nb = zlen f / 256) by (unfold nb, u32; apply Z.mod_small; lia). unfold u32 in En. rewrite Z.mod_small in En by lia. lia. }
  pose proof (loop_safe get size s f nb lim Hf Hb Hnb H32 fuel start 0 Hs). destruct (loop fuel s nb lim None start 0); try discriminate; [|congruence]. cbn [rbind]. destruct (_ && _); discriminate.
Qed.
(** reading ends, or the chain runs into a cycle of chunks without data *)
Lemma object_hang s f start lim : faithful get size s f -> bytes_ok f -> zlen f < 2^32 -> zlen f mod 256 = 0 -> 0 < start -> 0 <= lim ->
  ((forall fuel, read_blob_object get size fuel s start lim = Hang) <-> exists b n, reached f start b n /\ Z.of_nat n <= lim /\ zero_path f b b) /\
  (forall fuel, read_blob_object get size fuel s start lim = Hang -> zlen f / 256 * (lim + 1) < Z.of_nat fuel -> exists b n, reached f start b n /\ Z.of_nat n <= lim /\ zero_path f b b).
Proof.
  intros Hf Hb H32 H256 Hs Hlim. pose proof Hf as [Hsz _]. pose proof (zlen_nonneg f). pose proof (Z.div_mod (zlen f) 256 ltac:(lia)) as Hdm.
  assert (Q : 0 <= zlen f / 256 < 2^24) by (split; [apply Z.div_pos; lia|apply Z.div_lt_upper_bound; lia]). set (nb := zlen f / 256) in *.
  assert (Ef : forall fuel, read_blob_object get size fuel s start lim = do d <- loop fuel s nb lim None start 0; if negb (lim =? 2^32 - 1) && negb (zlen d =? lim) then Throw else Ok d).
  { intros fuel. unfold read_blob_object. destruct (Z.eqb_spec start 0); [lia|]. cbn [andb]. rewrite Hsz. fold nb. assert (Enb : u32 nb = nb) by (apply Z.mod_small; lia). rewrite Enb.
    replace (u32 (nb * 256)) with (zlen f) by (unfold u32; rewrite Z.mod_small by lia; lia). rewrite Z.eqb_refl. reflexivity. }
  assert (P : forall fuel, read_blob_object get size fuel s start lim = Hang -> nb * (lim + 1) < Z.of_nat fuel -> exists b n, reached f start b n /\ Z.of_nat n <= lim /\ zero_path f b b).
  { intros fuel E Hk. rewrite Ef in E. apply (hang_cycle s f nb lim Hf Hb ltac:(lia) H32 Hlim fuel start ltac:(lia) Hk). destruct (loop fuel s nb lim None start 0); try discriminate; [|reflexivity].
    cbn [rbind] in E. destruct (_ && _) in E; discriminate. }
  split; [|exact P]. split.
  - intros H0. apply (P (Z.to_nat (nb * (lim + 1) + 1)) (H0 _)). lia.
  - intros (b & n & R & Hn & Hz) fuel. rewrite Ef. pose proof (zero_pos f b b Hz) as Hb0.
    rewrite (reach_hang s f nb lim Hf Hb ltac:(lia) H32 start b n 0 R ltac:(lia) ltac:(lia)); [reflexivity|]. intros k. apply (spin s f nb lim Hf Hb ltac:(lia) H32 b Hz k b _ Hz). lia.
Qed.

(** Table::readBlob: a blob shorter than asked is returned as if it were whole; into a buffer of
    the size asked, a longer one is written past the end *)
Lemma table_short s f fuel start lim bs d : faithful get size s f -> bytes_ok f -> zlen f < 2^32 -> zlen f mod 256 = 0 -> blob f start bs d -> 0 < start -> (length bs <= fuel)%nat -> zlen d <= lim ->
  read_blob_table get size fuel s start lim = Ok (d, negb (zlen d =? lim)).
Proof.
  intros Hf Hb H32 H256 (ds & L & <-) Hs Hk Hl. unfold read_blob_table. destruct (Z.eqb_spec start 0); [lia|]. cbn [andb]. pose proof Hf as [Hsz _]. rewrite Hsz. pose proof (zlen_nonneg f).
  pose proof (Z.div_mod (zlen f) 256 ltac:(lia)) as Hdm. assert (E1 : u32 (zlen f) = zlen f) by (apply Z.mod_small; lia). rewrite E1. set (nb := zlen f / 256) in *.
  replace (u32 (nb * 256)) with (zlen f) by (unfold u32; rewrite Z.mod_small by lia; lia). rewrite Z.eqb_refl. cbn [negb].
  rewrite (loop_complete get size s f nb lim Hf Hb ltac:(lia) H32 bs ds start 0 fuel L); [reflexivity|lia|exact Hk].
Qed.
Lemma buffer_over s f fuel start lim bs d : faithful get size s f -> bytes_ok f -> zlen f < 2^32 -> zlen f mod 256 = 0 -> blob f start bs d -> 0 < start -> (length bs <= fuel)%nat -> 0 <= lim -> lim < zlen d ->
  read_blob_buffer get size fuel s start lim lim = UB.
Proof.
  intros Hf Hb H32 H256 (ds & L & <-) Hs Hk Hl0 Hl. unfold read_blob_buffer. destruct (Z.eqb_spec start 0); [lia|]. cbn [andb]. pose proof Hf as [Hsz _]. rewrite Hsz. pose proof (zlen_nonneg f).
  pose proof (Z.div_mod (zlen f) 256 ltac:(lia)) as Hdm. assert (E1 : u32 (zlen f) = zlen f) by (apply Z.mod_small; lia). rewrite E1. set (nb := zlen f / 256) in *.
  replace (u32 (nb * 256)) with (zlen f) by (unfold u32; rewrite Z.mod_small by lia; lia). rewrite Z.eqb_refl. cbn [negb].
  rewrite (loop_over s f nb lim Hf Hb ltac:(lia) H32 bs ds start 0 fuel L); [reflexivity|lia|lia|exact Hk].
Qed.
Lemma table_sound s f fuel start lim d w : faithful get size s f -> bytes_ok f -> zlen f < 2^32 -> 0 <= start -> read_blob_table get size fuel s start lim = Ok (d, w) -> (w = false <-> zlen d = lim) /\ (zlen d <= lim -> exists bs, blob f start bs d).
Proof.
  intros Hf Hb H32 Hs E. unfold read_blob_table in E. destruct ((start =? 0) && negb (lim =? 0)) eqn:E0; [discriminate|]. pose proof Hf as [Hsz _]. rewrite Hsz in E. pose proof (zlen_nonneg f).
  assert (E1 : u32 (zlen f) = zlen f) by (apply Z.mod_small; lia). rewrite E1 in E. set (nb := zlen f / 256) in *. pose proof (Z.div_mod (zlen f) 256 ltac:(lia)) as Hdm. pose proof (Z.mod_pos_bound (zlen f) 256 ltac:(lia)) as Hmb. fold nb in Hdm.
  destruct (Z.eqb_spec (u32 (nb * 256)) (zlen f)) as [En|]; cbn [negb] in E; [|discriminate]. unfold u32 in En. rewrite Z.mod_small in En by lia.
  destruct (loop fuel s nb lim None start 0) as [r| | |] eqn:El; try discriminate. cbn [rbind] in E. injection E as -> <-. split; [destruct (Z.eqb_spec (zlen d) lim); cbn [negb]; split; intros Q; try discriminate; try reflexivity; lia|]. intros Hle.
  apply (loop_sound get size s f nb lim Hf Hb ltac:(lia) H32 fuel start 0 d Hs El). left. lia.
Qed.
End Read.

(** objects in pages are faithful *)
Lemma obj_faithful ps f st n len tabs dp o : stored ps f st n len tabs dp -> f <> FFree -> opened f o n len tabs dp -> faithful (obj_get (Z.of_nat ps)) obj_size (st, o) (content st dp len).
Proof.
  intros Hs Hf Ho. assert (Lc : length (content st dp len) = len) by (eapply content_len; exact Hs). split.
  - unfold obj_size. cbn [snd]. rewrite (proj1 (opened_len ps f st n len tabs dp o Hs Ho)). unfold zlen. now rewrite Lc.
  - intros off m H1 H2 H3. unfold zlen in H3. rewrite Lc in H3. unfold obj_get. cbn [fst snd].
    pose proof (range_ok ps f st n len tabs dp o (Z.to_nat off) (Z.to_nat m) [] Hs Ho ltac:(lia) ltac:(lia)) as R. rewrite !Z2Nat.id in R by lia. exact R.
Qed.
