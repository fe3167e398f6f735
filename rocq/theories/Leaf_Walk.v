(** The walk over the index tree gives the record numbers of all leaves in order. *)
From Verif Require Import Prelude Lists Leaf_Model Leaf_Spec Leaf_Proofs.
Ltac Zify.zify_post_hook ::= idtac.

Lemma rdn_some {A} (l : list A) i n x : rdn l i n = Ok x -> 0 <= i /\ 0 <= n /\ i + n <= zlen l /\ x = sub l (Z.to_nat i) (Z.to_nat n).
Proof.
  unfold rdn. destruct (Z.ltb_spec i 0); [discriminate|]. destruct (Z.ltb_spec n 0); [discriminate|]. destruct (Z.ltb_spec (zlen l) (i + n)); [discriminate|].
  cbn [orb]. intros E. injection E as <-. repeat apply conj; try lia. reflexivity.
Qed.
Lemma land_mod x y m n : 0 <= n -> 0 <= m < 2^n -> x mod 2^n = y mod 2^n -> Z.land x m = Z.land y m.
Proof.
  intros Hn Hm H. assert (E : forall z, Z.land z m = Z.land (z mod 2^n) m).
  { intros z. rewrite <- Z.land_ones by exact Hn. rewrite <- Z.land_assoc. f_equal. rewrite Z.land_comm, Z.land_ones by exact Hn. symmetry. now apply Z.mod_small. }
  rewrite (E x), (E y), H. reflexivity.
Qed.
Lemma low32 e m : zlen e = 8 -> bytes_ok e -> 0 <= m < 2^32 -> Z.land (s64 (le_val e)) m = Z.land (le_val (firstn 4 e)) m.
Proof.
  intros He Hb Hm. apply (land_mod _ _ m 32); [lia|lia|]. rewrite <- (firstn_skipn 4 e) at 1. rewrite le_val_app.
  assert (Hf : zlen (firstn 4 e) = 4) by (unfold zlen in *; rewrite firstn_length; lia). rewrite Hf. change (256 ^ 4) with (2^32).
  set (a := le_val (firstn 4 e)). set (b := le_val (skipn 4 e)). unfold s64. destruct (Z.ltb_spec (a + 2^32 * b) (2^63)).
  - rewrite Z.mul_comm. apply Z.mod_add. lia.
  - replace (a + 2^32 * b - 2^64) with (a + (b - 2^32) * 2^32) by lia. apply Z.mod_add. lia.
Qed.
Lemma leaf_nums_ok n : forall page rbuf ibuf len rb nmask lmask rmask nb lb prev recs room, bytes_ok page -> 0 <= nmask < 2^32 ->
  unpack_recs n page rbuf ibuf len rb nmask lmask rmask nb lb prev = Ok recs -> Z.of_nat n <= room ->
  leaf_nums n page rbuf rb nmask room = Ok (map fst recs).
Proof.
  induction n as [|n IH]; intros page rbuf ibuf len rb nmask lmask rmask nb lb prev recs room Hb Hm E Hr; cbn [unpack_recs leaf_nums] in *.
  - injection E as <-. reflexivity.
  - destruct (rdn page rbuf 8) as [e| | |] eqn:Ee; try discriminate. cbn [rbind] in E. apply rdn_some in Ee. destruct Ee as (R1 & R2 & R3 & ->).
    rewrite rdn_ok by lia. cbn [rbind]. destruct (Z.leb_spec room 0); [lia|].
    destruct (len <? _); [discriminate|].
    match type of E with (do a <- ?x; _) = _ => destruct x as [a| | |]; try discriminate end. cbn [rbind] in E.
    match type of E with (do a <- ?x; _) = _ => destruct x as [b| | |]; try discriminate end. cbn [rbind] in E.
    match type of E with (do a <- ?x; _) = _ => destruct x as [r| | |] eqn:Er; try discriminate end. cbn [rbind] in E. injection E as <-.
    rewrite (IH _ _ _ _ _ _ _ _ _ _ _ _ (room - 1) Hb Hm Er) by lia. cbn [rbind map fst]. f_equal. f_equal.
    rewrite low32; [|unfold zlen; rewrite sub_length; unfold zlen in *; lia|now apply bytes_ok_sub|exact Hm].
    unfold sub. rewrite firstn_firstn. reflexivity.
Qed.
Lemma hd_field_bound page o n : bytes_ok page -> 0 <= hd_field page o n < 256 ^ Z.of_nat n.
Proof.
  intros H. unfold hd_field. pose proof (le_val_bound (sub page o n) (bytes_ok_sub _ _ _ H)) as B.
  assert ((length (sub page o n) <= n)%nat) by (unfold sub; rewrite firstn_length; lia).
  assert (256 ^ zlen (sub page o n) <= 256 ^ Z.of_nat n) by (apply Z.pow_le_mono_r; unfold zlen; lia). unfold zlen in *. lia.
Qed.
Lemma flag_low page : bytes_ok page -> (2 <= length page)%nat -> Z.land (hd_field page 0 2) 2 = Z.land (nth 0 page 0) 2.
Proof.
  intros H L. destruct page as [|a [|b page]]; cbn [length] in L; try lia. unfold hd_field. rewrite sub_0_firstn. cbn [firstn nth le_val].
  apply (land_mod _ _ 2 8); [lia|lia|]. change (2^8) with 256. rewrite Z.mul_comm. apply Z.mod_add. lia.
Qed.
Lemma i16_small x : 0 <= x < 2^15 -> i16 x = x.
Proof. intros H. unfold i16. rewrite Z.mod_small by lia. lia. Qed.

Section tree_ind.
Variable P : tree -> Prop.
Hypothesis HL : forall o r, P (Leaf o r).
Hypothesis HN : forall o kids, Forall P kids -> P (Node o kids).
Fixpoint tree_nested (t : tree) : P t :=
  match t with
  | Leaf o r => HL o r
  | Node o kids => HN o kids ((fix go l : Forall P l := match l with [] => Forall_nil P | t :: r => Forall_cons t (tree_nested t) (go r) end) kids)
  end.
End tree_ind.

Section walk.
Variables (get : Z -> Z -> res (list Z)) (pagesize len mul : Z).
Hypothesis Hlen : 0 < len < 2^15.
Hypothesis Hps : 30 <= pagesize.
Notation stored := (stored get pagesize len mul).
Notation page_at := (page_at get pagesize).
Lemma stored_kids kids : (fix all l := match l with [] => True | t :: r => stored t /\ all r end) kids -> Forall stored kids.
Proof. induction kids as [|t kids IH]; intros H; constructor; [apply H|apply IH, H]. Qed.
Lemma leaves_stored t : stored t -> Forall (fun l => stored (Leaf (fst l) (snd l))) (t_leaves t) /\ t_leaves t <> [].
Proof.
  induction t as [o r|o kids IH] using tree_nested; intros H.
  - split; [repeat constructor; exact H|discriminate].
  - cbn [Leaf_Spec.stored] in H. destruct H as (p & _ & _ & Hn & Hz & _ & _ & HK). apply stored_kids in HK. cbn [t_leaves].
    destruct kids as [|k kids]; [exfalso; rewrite Hz in Hn; unfold zlen in Hn; cbn in Hn; lia|]. clear Hz Hn. split.
    + clear - IH HK. induction (k :: kids) as [|t l IHl]; cbn [flat_map]; [constructor|]. inversion IH; inversion HK; subst. apply Forall_app. split; [now apply H1|now apply IHl].
    + inversion IH; inversion HK; subst. cbn [flat_map]. destruct (H1 H5) as [_ H7]. destruct (t_leaves k); [congruence|discriminate].
Qed.
Lemma first_leaf_ok t : forall fuel p, stored t -> page_at (t_off t) p -> (height t < fuel)%nat ->
  exists o r rest q, t_leaves t = (o, r) :: rest /\ page_at o q /\ first_leaf get fuel pagesize len mul p = Ok q.
Proof.
  induction t as [o r|o kids IH] using tree_nested; intros fuel p HS HP Hf; destruct fuel as [|k]; try lia; cbn [t_off] in HP.
  - exists o, r, [], p. split; [reflexivity|]. split; [exact HP|]. cbn [first_leaf]. destruct HS as (p' & HP' & HU & _).
    assert (p' = p) by (destruct HP as [E _], HP' as [E' _]; congruence). subst p'. unfold unpack_leafpage in HU.
    destruct (Z.eqb_spec len 0); [lia|]. rewrite flag_low in HU; [|apply HP|destruct HP as (_ & H & _); unfold zlen in H; lia].
    destruct (Z.land (nth 0 p 0) 2 =? 0); [discriminate|]. reflexivity.
  - cbn [Leaf_Spec.stored] in HS. destruct HS as (p' & HP' & HF & Hn & Hz & Hroom & Hch & HK). apply stored_kids in HK.
    assert (p' = p) by (destruct HP as [E _], HP' as [E' _]; congruence). subst p'. cbn [first_leaf]. rewrite HF. cbn [Z.eqb].
    destruct kids as [|t kids]; [exfalso; rewrite Hz in Hn; unfold zlen in Hn; cbn in Hn; lia|].
    inversion HK as [|? ? Ht HK']; subst. inversion IH as [|? ? IHt _]; subst. destruct HP as (EP & Lp & Bp).
    pose proof (zlen_nonneg kids). rewrite zlen_cons in Hroom. rewrite rdn_ok by nia. cbn [rbind]. specialize (Hch 0%nat t eq_refl).
    replace (12 + (len + 8) * Z.of_nat 0 + len + 4) with (16 + len) in Hch by lia. change (Z.to_nat 4) with 4%nat. rewrite Hch.
    assert (HQ : exists q, page_at (t_off t) q) by (destruct t; cbn [Leaf_Spec.stored] in Ht; destruct Ht as (q & Hq & _); exists q; exact Hq).
    destruct HQ as [q HQ]. pose proof HQ as HQ'. destruct HQ' as [-> _]. cbn [rbind].
    destruct (IHt k q Ht HQ) as (o' & r' & rest & q' & E1 & E2 & E3). { cbn [height map fold_right] in Hf. lia. }
    exists o', r', (rest ++ flat_map t_leaves kids), q'. split; [|split; [exact E2|exact E3]]. cbn [t_leaves flat_map]. rewrite E1. reflexivity.
Qed.
Lemma leaves_ok ls : forall fuel p room, Forall (fun l => stored (Leaf (fst l) (snd l))) ls -> chained get pagesize mul (map fst ls) ->
  match ls with [] => False | l :: _ => page_at (fst l) p end -> (length ls <= fuel)%nat -> zlen (concat (map snd ls)) <= room ->
  leaves get fuel pagesize mul p room = Ok (map fst (concat (map snd ls))).
Proof.
  induction ls as [|[o r] ls IH]; intros fuel p room HF HC HP Hf Hr; [contradiction|]. cbn [fst length] in *. destruct fuel as [|k]; [lia|]. cbn [leaves].
  inversion HF as [|? ? HS HF']; subst. cbn [fst snd Leaf_Spec.stored] in HS. destruct HS as (p' & HP' & HU & Hz & Hzb & Hrb & _).
  assert (p' = p) by (destruct HP as [E _], HP' as [E' _]; congruence). subst p'. destruct HP as (EP & Lp & Bp).
  cbn [map concat snd] in Hr |- *. rewrite zlen_app in Hr. rewrite map_app.
  unfold unpack_leafpage in HU. destruct (Z.eqb_spec len 0); [lia|]. destruct (_ =? 0); [discriminate|].
  pose proof (hd_field_bound p 28 2 Bp) as B1. pose proof (hd_field_bound p 14 4 Bp) as B2. change (256 ^ Z.of_nat 4) with (2^32) in B2.
  pose proof (hd_field_bound p 2 2 Bp) as B3. rewrite (i16_small (hd_field p 28 2)) by lia. rewrite (i16_small (hd_field p 2 2)) by lia.
  pose proof (zlen_nonneg (concat (map snd ls))). pose proof (zlen_nonneg r).
  rewrite (leaf_nums_ok _ _ _ _ _ _ _ _ _ _ _ _ _ room Bp B2 HU) by lia. cbn [rbind].
  cbn [map chained fst] in HC. destruct HC as [(p' & HP'' & HN) HC]. assert (p' = p) by (destruct HP'' as [E' _]; congruence). subst p'.
  destruct ls as [|[o2 r2] ls].
  - cbn [map] in HN. rewrite HN, Z.eqb_refl. cbn [map concat]. rewrite app_nil_r. reflexivity.
  - cbn [map fst] in HN. destruct HN as [HN1 HN2]. destruct (Z.eqb_spec (hd_field p 8 4) (2^32 - 1)); [contradiction|]. rewrite HN2.
    inversion HF' as [|? ? HS2 _]; subst. destruct HS2 as (p2 & HP2 & _). cbn [fst] in HP2. pose proof HP2 as HP2'. destruct HP2' as [-> _]. cbn [rbind].
    rewrite (IH k p2 (room - zlen (map fst r)) HF' HC HP2); [reflexivity|cbn [length] in *; lia|]. unfold zlen in *. rewrite map_length. lia.
Qed.
End walk.

Lemma walk_ok get fuel start pagesize (v838 : bool) room len t h :
  0 < len < 2^15 -> 30 <= pagesize -> let mul := if v838 then pagesize else 1 in
  stored get pagesize len mul t -> chained get pagesize mul (map fst (t_leaves t)) ->
  get start 8 = Ok h -> le_val (sub h 0 4) * mul = t_off t -> le_val (sub h 4 2) = len ->
  (height t < fuel)%nat -> (length (t_leaves t) <= fuel)%nat -> zlen (concat (map snd (t_leaves t))) <= room ->
  create_recordsindex get fuel start pagesize v838 room = Ok (map fst (concat (map snd (t_leaves t)))).
Proof.
  intros Hlen Hps mul HS HC Hh Hroot Hl Hf1 Hf2 Hroom. unfold create_recordsindex. fold mul. rewrite Hh. cbn [rbind]. rewrite Hroot, Hl, i16_small by lia.
  assert (HQ : exists q, page_at get pagesize (t_off t) q) by (destruct t; cbn [stored] in HS; destruct HS as (q & Hq & _); exists q; exact Hq).
  destruct HQ as [q HQ]. pose proof HQ as (EQ & LQ & BQ). rewrite EQ. cbn [rbind].
  destruct (leaves_stored get pagesize len mul t HS) as [HFL HNE].
  destruct (Z.eqb_spec (i16 (hd_field q 2 2)) 0) as [Z0|Z0].
  - destruct t as [o r|o kids]; cbn [stored] in HS.
    + destruct HS as (p & [EP _] & _ & Hz & Hzb & _). cbn [t_off] in EQ. assert (p = q) by congruence. subst p. pose proof (hd_field_bound q 2 2 BQ).
      rewrite i16_small in Z0 by lia. cbn [t_leaves map concat snd]. destruct r; [reflexivity|]. exfalso. rewrite zlen_cons in Hz. pose proof (zlen_nonneg r). lia.
    + destruct HS as (p & [EP _] & _ & Hn & _). cbn [t_off] in EQ. assert (p = q) by congruence. subst p. rewrite i16_small in Z0 by lia. lia.
  - destruct (first_leaf_ok get pagesize len mul Hlen Hps t fuel q HS HQ Hf1) as (o & r & rest & q' & E1 & E2 & E3). rewrite E3. cbn [rbind].
    apply (leaves_ok get pagesize len mul Hlen Hps); auto. rewrite E1. exact E2.
Qed.
