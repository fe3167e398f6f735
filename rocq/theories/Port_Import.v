(** Importing all files of a table. *)
From Verif Require Import Prelude Lists Obj_Model Obj_Spec Obj_Proofs Obj_Write Obj_More Obj_Hist Alloc_Model Alloc_Spec Alloc_Proofs Alloc_More Alloc_Len Alloc_Put Alloc_Whole Alloc_Bad Alloc_New Obj_Make Port_Model Port_Spec Port_Proofs.
Ltac Zify.zify_post_hook ::= idtac.

Local Opaque le_bytes.

Section Imp.
Variable slack : Z.
Variable cached : Z -> bool.
Variable ps : nat.
Variable v838 : bool.
Variable root : list Z.
Variable d : files.
Let P := Z.of_nat ps.

(** what the export says about the files from number [i] on *)
Definition gives (i : nat) (news : list (option (list Z * list Z))) : Prop :=
  forall j x, nth_error news j = Some x ->
    match x with
    | Some (b, v) => nth_error root (i - 1 + j) = Some 1 /\ sub root (4 + 8 * (i - 1 + j)) 8 = v /\ (4 + 8 * (i - 1 + j) + 8 <= length root)%nat /\ d (i + j)%nat = Some b /\ bytes_ok v /\ bytes_ok b
    | None => nth_error root (i - 1 + j) = Some 0
    end.
Lemma gives_tail i x news : (1 <= i)%nat -> gives i (x :: news) -> gives (S i) news.
Proof.
  intros Hi H j y Hj. specialize (H (S j) y Hj). replace (S i - 1 + j)%nat with (i - 1 + S j)%nat by lia. replace (S i + j)%nat with (i + S j)%nat by lia. exact H.
Qed.
Lemma rd_nth (l : list Z) i x : nth_error l i = Some x -> rd l (Z.of_nat i) = Ok x.
Proof. intros H. apply rd_ok; [lia|]. now rewrite Nat2Z.id. Qed.

(** one slot of the loop *)
Definition step (i : nat) (st : store) (fl : obj) (s : option obj) : res (store * obj * option obj * bool) :=
  do f <- rd root (Z.of_nat i - 1);
  do has <- to_flag f;
  if (has : bool) then
    do v <- rdn root (4 + 8 * (Z.of_nat i - 1)) 8;
    do y <- import_one slack cached P v838 false st fl s (d i) v;
    let '(st1, fl1, o, made) := y in Ok (st1, fl1, Some o, made)
  else Ok (st, fl, s, false).
Lemma files_step i st fl s r : import_files slack cached P v838 false root d i st fl (s :: r) =
  (do x <- step i st fl s; let '(st1, fl1, s1, made) := x in
   do y <- import_files slack cached P v838 false root d (S i) st1 fl1 r; let '(st2, fl2, r2, made2) := y in Ok (st2, fl2, s1 :: r2, made || made2)).
Proof. unfold step. cbn [import_files]. destruct (rd root (Z.of_nat i - 1)) as [f| | |]; [|reflexivity..]. cbn [rbind]. destruct (to_flag f) as [h| | |]; [|reflexivity..]. cbn [rbind]. reflexivity. Qed.
Lemma step_none i st fl s news : (1 <= i)%nat -> gives i (None :: news) -> step i st fl s = Ok (st, fl, s, false).
Proof. intros Hi H. specialize (H 0%nat None eq_refl). cbn in H. unfold step. replace (Z.of_nat i - 1) with (Z.of_nat (i - 1 + 0)) by lia. rewrite (rd_nth _ _ _ H). reflexivity. Qed.
Lemma step_some i st fl s b v news : (1 <= i)%nat -> gives i (Some (b, v) :: news) -> step i st fl s =
  (do y <- import_one slack cached P v838 false st fl s (Some b) v; let '(st1, fl1, o, made) := y in Ok (st1, fl1, Some o, made)).
Proof.
  intros Hi H. specialize (H 0%nat (Some (b, v)) eq_refl). cbn beta iota in H. destruct H as (H1 & H2 & H3 & H4 & _). unfold step. replace (Z.of_nat i - 1) with (Z.of_nat (i - 1 + 0)) by lia. rewrite (rd_nth _ _ _ H1). cbn [rbind to_flag Z.eqb Pos.eqb].
  replace (4 + 8 * Z.of_nat (i - 1 + 0)) with (Z.of_nat (4 + 8 * (i - 1 + 0))) by lia. rewrite rdn_ok by (unfold zlen; lia). cbn [rbind]. rewrite Nat2Z.id. change (Z.to_nat 8) with 8%nat. rewrite H2. rewrite Nat.add_0_r in H4. rewrite H4. reflexivity.
Qed.
Lemma gives_len i b v news : gives i (Some (b, v) :: news) -> length v = 8%nat /\ bytes_ok v /\ bytes_ok b.
Proof. intros H. specialize (H 0%nat _ eq_refl). cbn beta iota in H. destruct H as (_ & <- & H3 & _ & H5). split; [apply sub_length; lia|exact H5]. Qed.

Lemma all_pages_cons t ts : all_pages (t :: ts) = match t with Some t => pages t | None => [] end ++ all_pages ts.
Proof. reflexivity. Qed.
Lemma nodup_parts (a b : list Z) : NoDup (a ++ b) -> NoDup a /\ NoDup b /\ forall x, In x a -> In x b -> False.
Proof.
  intros H. split; [|split].
  - induction a as [|x a IH]; [constructor|]. cbn in H. inversion_clear H as [|? ? H1 H2]. constructor; [|now apply IH]. intros C. apply H1, in_or_app. now left.
  - induction a as [|x a IH]; [exact H|]. cbn in H. inversion_clear H. now apply IH.
  - intros x. apply disjoint_in. exact H.
Qed.
Lemma slots_frame st st' ss ts : slots_ok ps st ss ts -> good ps st' -> zlen st' = zlen st -> (forall m, In m (all_pages ts) -> 0 <= m -> page st' m = page st m) ->
  slots_ok ps st' ss ts /\ forall j t, nth_error ts j = Some (Some t) -> bytes_of st' t = bytes_of st t /\ page st' (t_n t) = page st (t_n t).
Proof.
  intros H Hg Hz. induction H as [|s t ss ts H1 H2 IH]; intros Hp.
  - split; [constructor|]. intros [|j] t Ht; discriminate.
  - rewrite all_pages_cons in Hp. destruct (slot_frame ps st st' s t H1 Hg Hz) as [A B]; [intros m Hm H0; apply Hp; [apply in_or_app; now left|exact H0]|].
    destruct IH as [C D]; [intros m Hm H0; apply Hp; [apply in_or_app; now right|exact H0]|]. split; [now constructor|]. intros [|j] x Hj; cbn [nth_error] in Hj; [|now apply (D j)]. injection Hj as ->. exact B.
Qed.

Lemma import_files_ok slots : forall ts news i st fl, (1 <= i)%nat -> gives i news -> length news = length slots -> slots_ok ps st slots ts -> Forall (fun t => forall x, t = Some x -> t_f x = F80) ts ->
  (forall j new t, nth_error news j = Some new -> nth_error ts j = Some t -> fits ps (option_map fst new) t) -> NoDup (all_pages ts) -> good ps st ->
  exists st' slots', import_files slack cached P v838 false root d i st fl slots = Ok (st', fl, slots', false) /\ good ps st' /\ zlen st' = zlen st /\ length slots' = length slots /\
    (forall j o new t, nth_error slots' j = Some o -> nth_error news j = Some new -> nth_error ts j = Some t -> restored ps st st' o new t) /\
    (forall m, 0 <= m -> ~ In m (all_pages ts) -> page st' m = page st m).
Proof.
  induction slots as [|s slots IH]; intros ts news i st fl Hi Hgv HL Hs Hf Hfit Hnd Hg.
  - exists st, []. split; [reflexivity|]. split; [exact Hg|]. split; [reflexivity|]. split; [reflexivity|]. split; [intros [|j] o new t Ho; discriminate|reflexivity].
  - inversion Hs as [|a t b r H1 H2]; subst. destruct news as [|new news]; [discriminate|]. injection HL as HL. inversion_clear Hf as [|? ? Hf1 Hf2]. rewrite all_pages_cons in Hnd. destruct (nodup_parts _ _ Hnd) as (Nd1 & Nd2 & Ndx).
    assert (Hstep : exists st1 s1, step i st fl s = Ok (st1, fl, s1, false) /\ good ps st1 /\ zlen st1 = zlen st /\ restored ps st st1 s1 new t /\ (forall m, 0 <= m -> ~ In m (match t with Some t => pages t | None => [] end) -> page st1 m = page st m)).
    { destruct new as [[b v]|].
      - rewrite (step_some i st fl s b v news Hi Hgv). pose proof (Hfit 0%nat _ _ eq_refl eq_refl) as Hf. destruct t as [t|]; cbn [fits option_map fst] in Hf; [|contradiction]. destruct Hf as (Lb & Lone).
        destruct s as [o|]; cbn [slot_ok] in H1; [|contradiction]. destruct (gives_len _ _ _ _ Hgv) as (Lv & Bv & Bb).
        destruct (one80 slack cached ps v838 st fl o t b v H1 (Hf1 t eq_refl) Hg Nd1 Bb Lb Lone Lv Bv) as (st1 & o1 & E & A1 & A2 & A3 & A4 & A5 & A6). fold P in E. rewrite E. cbn [rbind].
        exists st1, (Some o1). split; [reflexivity|]. split; [exact A2|]. split; [exact A3|]. split; [|exact A6]. split; [exact A1|]. split; [exact A4|exact A5].
      - rewrite (step_none i st fl s news Hi Hgv). exists st, s. split; [reflexivity|]. split; [exact Hg|]. split; [reflexivity|]. split; [|reflexivity]. split; [exact H1|]. destruct t; auto. }
    destruct Hstep as (st1 & s1 & E1 & G1 & Z1 & R1 & F1). rewrite files_step, E1. cbn [rbind].
    destruct (slots_frame st st1 slots r H2 G1 Z1) as [S1 B1]; [intros m Hm H0; apply F1; [exact H0|]; intros C; now apply (Ndx m)|].
    destruct (IH r news (S i) st1 fl ltac:(lia) (gives_tail _ _ _ Hi Hgv) HL S1 Hf2 (fun j new t A B => Hfit (S j) new t A B) Nd2 G1) as (st2 & r2 & E2 & G2 & Z2 & L2 & R2 & F2).
    rewrite E2. cbn [rbind orb]. exists st2, (s1 :: r2). split; [reflexivity|]. split; [exact G2|]. split; [lia|]. split; [cbn; lia|]. split.
    + intros [|j] o nw x Ho Hn Hx; cbn [nth_error] in Ho, Hn, Hx.
      * injection Ho as <-. injection Hn as <-. injection Hx as <-. destruct R1 as [R1 R1']. destruct (slot_frame ps st1 st2 s1 t R1 G2 Z2) as [A B]; [intros m Hm H0; apply F2; [exact H0|]; intros C; now apply (Ndx m)|].
        split; [exact A|]. destruct t as [t|]; [|exact Logic.I]. destruct B as [B B']. destruct new as [[b v]|]; rewrite B, B'; exact R1'.
      * destruct (R2 j o nw x Ho Hn Hx) as [A B]. split; [exact A|]. destruct x as [x|]; [|exact Logic.I]. destruct nw as [[b v]|]; [exact B|]. destruct (B1 j x Hx) as [C C']. rewrite <- C, <- C'. exact B.
    + intros m Hm Hin. rewrite all_pages_cons in Hin. rewrite F2, F1; [reflexivity|exact Hm|intros C; apply Hin, in_or_app; now left|exact Hm|intros C; apply Hin, in_or_app; now right].
Qed.
End Imp.

(** ** the whole import, from a directory that [exported] describes *)
Lemma version_of_ok o : length (version_of o) = 8%nat /\ bytes_ok (version_of o).
Proof. unfold version_of. split; [rewrite app_length, !le_bytes_length; reflexivity|apply bytes_ok_app; split; apply le_bytes_ok]. Qed.
Lemma read_root_36 junk b : length b = 36%nat -> read_root junk b = b.
Proof. intros H. unfold read_root. rewrite firstn_all2 by lia. rewrite H, Nat.sub_diag, sub_nil. apply app_nil_r. Qed.

(** what the export of [ss] gives for its first three files *)
Definition news_of (st : store) (ss : list (option obj)) (ts : list (option thing)) : list (option (list Z * list Z)) :=
  map (fun x => match x with (Some o, Some t) => Some (bytes_of st t, version_of o) | _ => None end) (combine ss ts).
Lemma news_nth st ss ts j x : nth_error (news_of st ss ts) j = Some x ->
  exists s t, nth_error ss j = Some s /\ nth_error ts j = Some t /\ x = match s, t with Some o, Some t => Some (bytes_of st t, version_of o) | _, _ => None end.
Proof.
  unfold news_of. revert ts j. induction ss as [|s ss IH]; intros [|t ts] [|j] H; cbn [combine map nth_error] in H; try discriminate.
  - injection H as <-. exists s, t. split; [reflexivity|]. split; [reflexivity|]. now destruct s, t.
  - cbn [nth_error]. now apply IH.
Qed.
Lemma exported_gives ps st ss ts d root k : slots_ok ps st ss ts -> exported st ss ts d -> d 0%nat = Some root -> length root = 36%nat /\ gives root d 1 (firstn k (news_of st ss ts)).
Proof.
  intros Hs [(r & E & R1 & R2 & R3) Hd] Hr. assert (r = root) by congruence. subst r. split; [exact R1|]. intros j x Hj.
  assert (Hj' : nth_error (news_of st ss ts) j = Some x). { clear - Hj. revert k Hj. generalize (news_of st ss ts) as l. revert j. induction j as [|j IH]; intros [|y l] [|k] H; cbn in *; try discriminate; [exact H|now apply (IH l k)]. }
  destruct (news_nth _ _ _ _ _ Hj') as (s & t & Es & Et & ->). assert (Hlt : (j < 4)%nat) by (rewrite <- R2; apply nth_error_Some; congruence).
  specialize (R3 j Hlt). rewrite (nth_error_nth ss j None Es) in R3. change (1 - 1 + j)%nat with j.
  assert (Hst : slot_ok ps st s t). { clear - Hs Es Et. revert j Es Et. induction Hs as [|a b l l' H1 H2 IH]; intros [|j] Es Et; cbn in *; try discriminate; [injection Es as <-; injection Et as <-; exact H1|now apply (IH j)]. }
  destruct s as [o|], t as [t|]; cbn [slot_ok] in Hst; try contradiction; [|exact R3]. destruct R3 as [A B]. split; [exact A|]. split; [exact B|]. split; [lia|]. split; [now apply Hd|]. split; [apply version_of_ok|]. destruct Hst as ((_ & Hby & _ & _ & _ & _ & Hpg & _) & _). unfold bytes_of, content. apply Forall_firstn'. unfold flat. apply Forall_concat. apply Forall_forall. intros p Hp. apply in_map_iff in Hp. destruct Hp as (q & <- & Hq). rewrite Forall_forall in Hpg, Hby. destruct (Hpg q Hq) as (p & [_ Hp]). rewrite (nth_error_nth_Z _ _ _ _ Hp). apply Hby. eapply nth_error_In; eauto.
Qed.
