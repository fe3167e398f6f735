(** Reading blobs. *)
From Verif Require Import Prelude Lists Obj_Model Blob_Model Blob_Spec.
Ltac Zify.zify_post_hook ::= idtac.

(** an object seen as bytes *)
Definition faithful {S} (get : S -> Z -> Z -> res (list Z)) (size : S -> Z) (s : S) (f : list Z) : Prop :=
  size s = zlen f /\ forall off n, 0 <= off -> 0 < n -> off + n <= zlen f -> get s off n = Ok (sub f (Z.to_nat off) (Z.to_nat n)).

Lemma mem_faithful f : faithful mem_get (@zlen Z) f f.
Proof. split; [reflexivity|]. intros off n H1 H2 H3. unfold mem_get. destruct (_ || _) eqn:E; [lia|]. now apply rdn_ok; lia. Qed.

Lemma le_val_ok l n : bytes_ok l -> length l = n -> 0 <= le_val l < 256 ^ Z.of_nat n.
Proof. intros H <-. exact (le_val_bound l H). Qed.
Lemma le2 l : bytes_ok l -> length l = 2%nat -> 0 <= le_val l < 65536.
Proof. intros H E. exact (le_val_ok l 2 H E). Qed.
Lemma le4 l : bytes_ok l -> length l = 4%nat -> 0 <= le_val l < 2^32.
Proof. intros H E. exact (le_val_ok l 4 H E). Qed.

Lemma app_inj1 {A} (a b c d : list A) : length a = length c -> a ++ b = c ++ d -> a = c /\ b = d.
Proof. revert c; induction a as [|x a IH]; intros [|y c] H E; try discriminate; [auto|]. injection H as H. injection E as -> E. destruct (IH _ H E) as [-> ->]. auto. Qed.

(** the chunk at a place of the file, if its length is legal *)
Lemma chunk_at f b : bytes_ok f -> 0 < b -> 256 * b + 256 <= zlen f ->
  let x := sub f (Z.to_nat (256 * b)) 256 in let l := le_val (sub x 4 2) in
  l <= 250 -> chunk f b (le_val (sub x 0 4)) (sub x 6 (Z.to_nat l)).
Proof.
  intros Hb H1 H2 x l Hl. assert (Hx : bytes_ok x) by now apply bytes_ok_sub. assert (Lx : length x = 256%nat) by (apply sub_length; unfold zlen in H2; lia).
  assert (L2 : length (sub x 4 2) = 2%nat) by (apply sub_length; lia). pose proof (le2 _ (bytes_ok_sub _ 4 2 Hx) L2) as B2. fold l in B2.
  assert (L4 : length (sub x 0 4) = 4%nat) by (apply sub_length; lia).
  assert (Ld : length (sub x 6 (Z.to_nat l)) = Z.to_nat l) by (apply sub_length; lia).
  split; [exact H1|]. split; [exact H2|]. split; [lia|]. split; [exact (le4 _ (bytes_ok_sub _ 0 4 Hx) L4)|].
  exists (sub x (6 + Z.to_nat l) (250 - Z.to_nat l)). split; [rewrite Ld; apply sub_length; lia|]. fold x. unfold zlen. rewrite Ld, Z2Nat.id by lia.
  pose proof (le_bytes_val _ (bytes_ok_sub x 0 4 Hx)) as E4. rewrite L4 in E4. rewrite E4.
  pose proof (le_bytes_val _ (bytes_ok_sub x 4 2 Hx)) as E2. rewrite L2 in E2. fold l in E2. rewrite E2.
  rewrite sub_app_split. replace (Z.to_nat l + (250 - Z.to_nat l))%nat with 250%nat by lia.
  replace (sub x 4 2 ++ sub x 6 250) with (sub x 4 252) by (symmetry; exact (sub_app_split x 4 2 250)).
  transitivity (sub x 0 256); [rewrite <- Lx; symmetry; apply sub_all|symmetry; exact (sub_app_split x 0 4 252)].
Qed.
Lemma chunk_fields f b nxt d : chunk f b nxt d ->
  let x := sub f (Z.to_nat (256 * b)) 256 in length x = 256%nat /\ le_val (sub x 0 4) = nxt /\ le_val (sub x 4 2) = zlen d /\ sub x 6 (length d) = d.
Proof.
  intros (H1 & H2 & H3 & H4 & pad & Hp & E) x. fold x in E. assert (Lx : length x = 256%nat) by (apply sub_length; unfold zlen in H2; lia). split; [exact Lx|].
  rewrite E. unfold sub. split; [|split].
  - cbn [skipn]. rewrite firstn_app, le_bytes_length, Nat.sub_diag, firstn_O, app_nil_r, firstn_all2 by (rewrite le_bytes_length; lia). apply le_val_bytes_small. exact H4.
  - rewrite skipn_app, le_bytes_length, Nat.sub_diag, skipn_all2 by (rewrite le_bytes_length; lia). cbn [app skipn].
    rewrite firstn_app, le_bytes_length, Nat.sub_diag, firstn_O, app_nil_r, firstn_all2 by (rewrite le_bytes_length; lia). apply le_val_bytes_small.
    change (256 ^ Z.of_nat 2) with 65536. unfold zlen. lia.
  - rewrite skipn_app, le_bytes_length, skipn_all2 by (rewrite le_bytes_length; lia). cbn [app]. change (6 - 4)%nat with 2%nat.
    rewrite skipn_app, le_bytes_length, Nat.sub_diag, skipn_all2 by (rewrite le_bytes_length; lia). cbn [app skipn].
    rewrite firstn_app, Nat.sub_diag, firstn_O, app_nil_r. apply firstn_all.
Qed.
Lemma chunk_fun f b n1 d1 n2 d2 : chunk f b n1 d1 -> chunk f b n2 d2 -> n1 = n2 /\ d1 = d2.
Proof.
  intros A B. destruct (chunk_fields _ _ _ _ A) as (_ & A1 & A2 & A3). destruct (chunk_fields _ _ _ _ B) as (_ & B1 & B2 & B3). split; [congruence|].
  assert (length d1 = length d2) by (unfold zlen in *; lia). congruence.
Qed.

Section Read.
Context {S : Type}.
Variable get : S -> Z -> Z -> res (list Z).
Variable size : S -> Z.
Notation loop := (blob_loop get).

Lemma loop_step s f nb lim cap cur total : faithful get size s f -> bytes_ok f -> zlen f = 256 * nb -> zlen f < 2^32 -> 0 < cur ->
  (exists nxt d, chunk f cur nxt d /\ forall k, loop (Datatypes.S k) s nb lim cap cur total =
      if match cap with Some c => c <? total + zlen d | None => false end then UB
      else if lim <? total + zlen d then Ok d else do r <- loop k s nb lim cap nxt (total + zlen d); Ok (d ++ r)) \/
  ((forall nxt d, ~ chunk f cur nxt d) /\ forall k, loop (Datatypes.S k) s nb lim cap cur total = Throw).
Proof.
  intros [Hs Hg] Hb Hn H32 Hc. destruct (Z_lt_le_dec cur nb) as [Hlt|Hge].
  - set (x := sub f (Z.to_nat (256 * cur)) 256). assert (Lx : length x = 256%nat) by (apply sub_length; unfold zlen in *; lia).
    assert (Hx : bytes_ok x) by now apply bytes_ok_sub.
    assert (Ex : get s (u32 (cur * 256)) BLOB_LEN = Ok x).
    { unfold u32, BLOB_LEN. rewrite Z.mod_small by lia. rewrite Hg by lia. unfold x. now replace (cur * 256) with (256 * cur) by lia. }
    assert (E4 : u32at x 0 = Ok (le_val (sub x 0 4))) by (unfold u32at; rewrite rdn_ok by (unfold zlen; lia); reflexivity).
    assert (E2 : rdn x 4 2 = Ok (sub x 4 2)) by (now rewrite rdn_ok by (unfold zlen; lia)).
    pose proof (le2 _ (bytes_ok_sub x 4 2 Hx) ltac:(apply sub_length; lia)) as B2.
    destruct (Z_lt_le_dec 250 (le_val (sub x 4 2))) as [Hbig|Hok].
    + right. split.
      * intros nxt d Hch. pose proof Hch as (_ & _ & Hd & _). destruct (chunk_fields _ _ _ _ Hch) as (_ & _ & F & _). fold x in F. rewrite F in Hbig. unfold zlen in Hbig. lia.
      * intros k. cbn [blob_loop]. destruct (Z.eqb_spec cur 0); [lia|]. destruct (Z.leb_spec nb cur); [lia|]. rewrite Ex. cbn [rbind]. rewrite E4. cbn [rbind]. rewrite E2. cbn [rbind].
        unfold BLOB_DATA. destruct (Z.ltb_spec 250 (le_val (sub x 4 2))); [reflexivity|lia].
    + left. exists (le_val (sub x 0 4)), (sub x 6 (Z.to_nat (le_val (sub x 4 2)))). split; [now apply chunk_at; [| |lia|]|].
      intros k. cbn [blob_loop]. destruct (Z.eqb_spec cur 0); [lia|]. destruct (Z.leb_spec nb cur); [lia|]. rewrite Ex. cbn [rbind]. rewrite E4. cbn [rbind]. rewrite E2. cbn [rbind].
      unfold BLOB_DATA. destruct (Z.ltb_spec 250 (le_val (sub x 4 2))); [lia|]. rewrite rdn_ok by (unfold zlen; lia). cbn [rbind]. change (Z.to_nat 6) with 6%nat.
      assert (Ez : zlen (sub x 6 (Z.to_nat (le_val (sub x 4 2)))) = le_val (sub x 4 2)) by (unfold zlen; rewrite sub_length by lia; lia). rewrite Ez. reflexivity.
  - right. split.
    + intros nxt d (_ & H & _). lia.
    + intros k. cbn [blob_loop]. destruct (Z.eqb_spec cur 0); [lia|]. destruct (Z.leb_spec nb cur); [reflexivity|lia].
Qed.

Lemma loop_0 k s nb lim cap total : loop k s nb lim cap 0 total = Ok [].
Proof. destruct k; reflexivity. Qed.

(** what is returned is the data of the chain, cut only when it is longer than asked *)
Lemma loop_sound s f nb lim : faithful get size s f -> bytes_ok f -> zlen f = 256 * nb -> zlen f < 2^32 -> forall fuel cur total d, 0 <= cur ->
  loop fuel s nb lim None cur total = Ok d -> total + zlen d <= lim \/ cur = 0 -> exists bs, blob f cur bs d.
Proof.
  intros Hf Hb Hn H32. induction fuel as [|k IH]; intros cur total d Hc E Hl.
  - cbn [blob_loop] in E. destruct (Z.eqb_spec cur 0); [|discriminate]. exists [], []. split; [exact e|]. cbn [concat]. congruence.
  - destruct (Z.eq_dec cur 0) as [->|Hne]; [rewrite loop_0 in E; exists [], []; split; [reflexivity|cbn [concat]; congruence]|].
    destruct (loop_step s f nb lim None cur total Hf Hb Hn H32 ltac:(lia)) as [(nxt & d0 & Hch & Es)|(Hno & Es)]; rewrite Es in E; [|discriminate].
    destruct (Z.ltb_spec lim (total + zlen d0)).
    + injection E as E. subst d0. destruct Hl; lia.
    + destruct (loop k s nb lim None nxt (total + zlen d0)) as [r| | |] eqn:Er; try discriminate. cbn [rbind] in E. injection E as <-. rewrite zlen_app in Hl. assert (Hn0 : 0 <= nxt) by (destruct Hch as (_ & _ & _ & Q & _); lia).
      destruct (IH nxt _ r Hn0 Er) as (bs & ds & L & C); [left; lia|]. exists (cur :: bs), (d0 :: ds). split; [split; [reflexivity|exists nxt; auto]|cbn [concat]; now rewrite C].
Qed.
Lemma loop_complete s f nb lim : faithful get size s f -> bytes_ok f -> zlen f = 256 * nb -> zlen f < 2^32 -> forall bs ds cur total fuel, linked f cur bs ds ->
  total + zlen (concat ds) <= lim -> (length bs <= fuel)%nat -> loop fuel s nb lim None cur total = Ok (concat ds).
Proof.
  intros Hf Hb Hn H32. induction bs as [|b bs IH]; intros [|d ds] cur total fuel L Hl Hk; cbn [linked] in L; try contradiction.
  - subst cur. now rewrite loop_0.
  - destruct L as (-> & nxt & Hch & L). pose proof Hch as (Hb0 & _). destruct fuel as [|k]; [cbn [length] in Hk; lia|].
    destruct (loop_step s f nb lim None b total Hf Hb Hn H32 Hb0) as [(nxt' & d' & Hch' & Es)|(Hno & Es)]; [|exfalso; exact (Hno _ _ Hch)].
    destruct (chunk_fun _ _ _ _ _ _ Hch Hch') as [<- <-]. rewrite Es. cbn [concat] in *. rewrite zlen_app in Hl. pose proof (zlen_nonneg (concat ds)).
    destruct (Z.ltb_spec lim (total + zlen d)); [lia|]. rewrite (IH ds nxt (total + zlen d) k); [reflexivity|exact L|lia|cbn [length] in Hk; lia].
Qed.
(** reading never touches memory it should not *)
Lemma loop_safe s f nb lim : faithful get size s f -> bytes_ok f -> zlen f = 256 * nb -> zlen f < 2^32 -> forall fuel cur total, 0 <= cur -> loop fuel s nb lim None cur total <> UB.
Proof.
  intros Hf Hb Hn H32. induction fuel as [|k IH]; intros cur total Hc.
  - cbn [blob_loop]. destruct (cur =? 0); discriminate.
  - destruct (Z.eq_dec cur 0) as [->|Hne]; [rewrite loop_0; discriminate|].
    destruct (loop_step s f nb lim None cur total Hf Hb Hn H32 ltac:(lia)) as [(nxt & d & Hch & Es)|(_ & Es)]; rewrite Es; [|discriminate].
    destruct (lim <? total + zlen d); [discriminate|]. assert (Hn0 : 0 <= nxt) by (destruct Hch as (_ & _ & _ & Q & _); lia). specialize (IH nxt (total + zlen d) Hn0). destruct (loop k s nb lim None nxt (total + zlen d)); try discriminate. congruence.
Qed.
End Read.
