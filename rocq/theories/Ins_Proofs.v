(** Proofs for Ins_Props. *)
From Verif Require Import Prelude Lists Field_Model Field_Spec Field_Proofs Rec_Model Ins_Model Ins_Spec.
Ltac Zify.zify_post_hook ::= idtac.
Local Opaque le_bytes.

Lemma object_24 r : length (t_pad r) = 4%nat -> zlen (object_bytes r) = 24.
Proof. intros H. unfold object_bytes, zlen. rewrite !app_length, H, !le_bytes_length. reflexivity. Qed.
Lemma rdn_two {A} (l : list A) i n : (exists x, rdn l i n = Ok x) \/ rdn l i n = UB.
Proof. unfold rdn. destruct (_ || _); eauto. Qed.
Lemma wrn_two {A} (l : list A) i d : (exists x, wrn l i d = Ok x) \/ wrn l i d = UB.
Proof. unfold wrn. destruct (_ || _); eauto. Qed.
Lemma set_two f d rec : (exists x, set_data f d rec = Ok x) \/ set_data f d rec = UB.
Proof.
  unfold set_data. destruct (f_null f).
  - destruct (wrn_two rec (f_off f) [1]) as [(x & ->)| ->]; cbn [rbind]; [|auto]. destruct (rdn_two d 0 (field_size f)) as [(y & ->)| ->]; cbn [rbind]; [|auto]. apply wrn_two.
  - destruct (rdn_two d 0 (field_size f)) as [(y & ->)| ->]; cbn [rbind]; [|auto]. apply wrn_two.
Qed.
Lemma ver_two tw file f r v : (exists x w, with_ver tw file f r v = Ok (x, w) /\ t_pad x = t_pad r) \/ with_ver tw file f r v = UB.
Proof.
  unfold with_ver, through. destruct file as [c|]; [|auto]. cbv zeta. destruct (set_two f (if tw then ver_bytes v ++ ver_bytes v else ver_bytes v) (t_data r)) as [(x & ->)| ->]; cbn [rbind]; [left|auto].
  do 2 eexists. split; reflexivity.
Qed.
Lemma field_two file f r v : (exists x w, ins_field file f r v = Ok (x, w) /\ t_pad x = t_pad r) \/ ins_field file f r v = UB.
Proof.
  unfold ins_field.
  assert (B : forall p, (exists x w, (if le_val p =? 0 then do d <- (if f_null f then set_null f (t_data r) else set_data f (repeat 0 8) (t_data r));
        with_ver true file f (TR (t_ptr r) (t_table r) (t_size r) (t_pad r) d) v else UB) = Ok (x, w) /\ t_pad x = t_pad r) \/
      (if le_val p =? 0 then do d <- (if f_null f then set_null f (t_data r) else set_data f (repeat 0 8) (t_data r));
        with_ver true file f (TR (t_ptr r) (t_table r) (t_size r) (t_pad r) d) v else UB) = UB).
  { intros p. destruct (le_val p =? 0); [|auto]. assert (K : (exists d, (if f_null f then set_null f (t_data r) else set_data f (repeat 0 8) (t_data r)) = Ok d) \/ (if f_null f then set_null f (t_data r) else set_data f (repeat 0 8) (t_data r)) = UB).
    { destruct (f_null f) eqn:E; [unfold set_null; rewrite E; apply wrn_two|apply set_two]. }
    destruct K as [(d & ->)| ->]; cbn [rbind]; [|auto]. destruct (ver_two true file f (TR (t_ptr r) (t_table r) (t_size r) (t_pad r) d) v) as [H|H]; [left; exact H|right; exact H]. }
  destruct (f_kind f); try (left; exists r, v; split; reflexivity); try apply ver_two;
    (destruct (rdn_two (object_bytes r) (24 * (f_off f + (if f_null f then 1 else 0))) 8) as [(p & ->)| ->]; cbn [rbind]; [apply B|auto]).
Qed.
Lemma fields_two file fs : forall r v, (exists x w, ins_fields file fs r v = Ok (x, w) /\ t_pad x = t_pad r) \/ ins_fields file fs r v = UB.
Proof.
  induction fs as [|f fs IH]; intros r v; cbn [ins_fields]; [left; exists r, v; split; reflexivity|].
  destruct (field_two file f r v) as [(x & w & -> & E)| ->]; cbn [rbind fst snd]; [|auto]. destruct (IH x w) as [(y & u & Q & P)|Q]; [left; exists y, u; split; [exact Q|congruence]|auto].
Qed.
Theorem no_file reclen phys fs r v : ins_record None reclen phys fs r v = UB.
Proof. unfold ins_record. cbn [create_file_data rbind]. destruct (fields_two None fs r v) as [(x & w & -> & _)| ->]; reflexivity. Qed.
Lemma blob_field file f r v : blob_kind f -> 1 <= f_off f -> length (t_pad r) = 4%nat -> ins_field file f r v = UB.
Proof.
  intros K H P. assert (Q : rdn (object_bytes r) (24 * (f_off f + (if f_null f then 1 else 0))) 8 = UB).
  { unfold rdn. rewrite (object_24 r P). destruct (Z.ltb_spec 24 (24 * (f_off f + (if f_null f then 1 else 0)) + 8)); [now rewrite orb_true_r|destruct (f_null f); lia]. }
  unfold ins_field. destruct K as [-> |[-> | ->]]; now rewrite Q.
Qed.
Theorem blob_ub file reclen phys fs r v : length (t_pad r) = 4%nat -> Exists (fun f => blob_kind f /\ 1 <= f_off f) fs -> ins_record file reclen phys fs r v = UB.
Proof.
  intros P X. assert (K : ins_fields file fs r v = UB).
  { revert r v P. induction X as [f fs (K & H)|f fs X IH]; intros r v P; cbn [ins_fields]; [now rewrite blob_field|].
    destruct (field_two file f r v) as [(x & w & -> & E)| ->]; cbn [rbind fst snd]; [|reflexivity]. apply IH. congruence. }
  unfold ins_record. destruct file as [c|]; cbn [create_file_data rbind]; now rewrite K.
Qed.

Lemma ver_len v : zlen (ver_bytes v) = 8.
Proof. unfold ver_bytes. rewrite zlen_app. unfold zlen. rewrite !le_bytes_length. reflexivity. Qed.
Definition head_same (a b : trec) : Prop := t_ptr a = t_ptr b /\ t_table a = t_table b /\ t_size a = t_size b /\ t_pad a = t_pad b.
Lemma ver_ok (tw : bool) c f r v : f_null f = false -> 0 <= f_off f -> f_off f + extent f <= zlen (t_data r) -> extent f = (if tw then 16 else 8) ->
  exists x, with_ver tw (Some c) f r v = Ok (x, next_ver v) /\ head_same x r /\ zlen (t_data x) = zlen (t_data r) /\ get_value f (t_data x) = Ok (if tw then ver_bytes v ++ ver_bytes v else ver_bytes v) /\
    forall g, distinct_places f g -> 0 <= width (f_kind g) (f_len g) -> get_value g (t_data x) = get_value g (t_data r) /\ is_null g (t_data x) = is_null g (t_data r).
Proof.
  intros N O E W. destruct (set_data_ok_w f (if tw then ver_bytes v ++ ver_bytes v else ver_bytes v) (t_data r) N O E) as (d & A & B & C & D & F).
  { rewrite W. destruct tw; [rewrite zlen_app|]; rewrite !ver_len; reflexivity. }
  unfold with_ver, through. cbv zeta. rewrite A. cbn [rbind]. eexists. split; [reflexivity|]. split; [repeat split|]. split; [exact B|]. split; [exact C|exact F].
Qed.
Definition one_in (f : field) : Z := match f_kind f with KVersion | KVersion8 => 1 | _ => 0 end.
Lemma one_ok c f r v : ~ blob_kind f -> (version_kind f -> f_null f = false /\ 0 <= f_off f /\ f_off f + extent f <= zlen (t_data r)) ->
  exists x w, ins_field (Some c) f r v = Ok (x, w) /\ v_1 w = v_1 v /\ u32 (v_2 w) = u32 (v_2 v + one_in f) /\ (v_2 v = u32 (v_2 v) -> v_2 w = u32 (v_2 w)) /\ head_same x r /\ zlen (t_data x) = zlen (t_data r) /\
    (version_kind f -> exists d, get_value f (t_data x) = Ok d /\ holds_version f (v_1 v) (v_2 v) d) /\ (~ version_kind f -> x = r) /\
    forall g, distinct_places f g -> 0 <= width (f_kind g) (f_len g) -> get_value g (t_data x) = get_value g (t_data r) /\ is_null g (t_data x) = is_null g (t_data r).
Proof.
  intros B V. assert (M : forall z, u32 (u32 z) = u32 z) by (intros z; unfold u32; now rewrite Z.mod_mod by lia).
  assert (Other : one_in f = 0 -> ~ version_kind f -> exists x w, Ok (r, v) = Ok (x, w) /\ v_1 w = v_1 v /\ u32 (v_2 w) = u32 (v_2 v + one_in f) /\ (v_2 v = u32 (v_2 v) -> v_2 w = u32 (v_2 w)) /\ head_same x r /\ zlen (t_data x) = zlen (t_data r) /\
    (version_kind f -> exists d, get_value f (t_data x) = Ok d /\ holds_version f (v_1 v) (v_2 v) d) /\ (~ version_kind f -> x = r) /\
    forall g, distinct_places f g -> 0 <= width (f_kind g) (f_len g) -> get_value g (t_data x) = get_value g (t_data r) /\ is_null g (t_data x) = is_null g (t_data r)).
  { intros E N. exists r, v. rewrite E, Z.add_0_r. split; [reflexivity|]. split; [reflexivity|]. split; [reflexivity|]. split; [auto|]. split; [repeat split|]. split; [reflexivity|]. split; [intros Q; contradiction|]. split; [reflexivity|auto]. }
  unfold ins_field. destruct (f_kind f) eqn:K; try (apply Other; [unfold one_in; now rewrite K|unfold version_kind; rewrite K; intros [Q|Q]; discriminate]); try (elim B; unfold blob_kind; rewrite K; auto; fail).
  - destruct V as (N & O & E); [now left|]. destruct (ver_ok true c f r v N O E) as (x & A & H & L & G & F); [unfold extent; rewrite N, K; reflexivity|].
    exists x, (next_ver v). split; [exact A|]. split; [reflexivity|]. split; [cbn [next_ver v_2]; unfold one_in; rewrite K; apply M|]. split; [intros _; cbn [next_ver v_2]; symmetry; apply M|]. split; [exact H|]. split; [exact L|]. split; [|split; [intros Q; elim Q; now left|exact F]].
    intros _. eexists. split; [exact G|]. split; intros Q; [|congruence]. unfold ver_bytes. now rewrite <- !app_assoc.
  - destruct V as (N & O & E); [now right|]. destruct (ver_ok false c f r v N O E) as (x & A & H & L & G & F); [unfold extent; rewrite N, K; reflexivity|].
    exists x, (next_ver v). split; [exact A|]. split; [reflexivity|]. split; [cbn [next_ver v_2]; unfold one_in; rewrite K; apply M|]. split; [intros _; cbn [next_ver v_2]; symmetry; apply M|]. split; [exact H|]. split; [exact L|]. split; [|split; [intros Q; elim Q; now right|exact F]].
    intros _. eexists. split; [exact G|]. split; intros Q; [congruence|]. reflexivity.
Qed.
Lemma all_ok c : forall fs r v, simple_fields (zlen (t_data r)) fs -> v_2 v = u32 (v_2 v) -> exists x w, ins_fields (Some c) fs r v = Ok (x, w) /\ v_1 w = v_1 v /\ v_2 w = u32 (v_2 v + versions_in fs) /\ head_same x r /\
  (forall g, Forall (fun f => distinct_places f g) fs -> 0 <= width (f_kind g) (f_len g) -> get_value g (t_data x) = get_value g (t_data r) /\ is_null g (t_data x) = is_null g (t_data r)) /\
  (forall a f b, fs = a ++ [f] ++ b -> version_kind f -> exists d, get_value f (t_data x) = Ok d /\ holds_version f (v_1 v) (u32 (v_2 v + versions_in a)) d) /\
  (forall f, In f fs -> ~ version_kind f -> get_value f (t_data x) = get_value f (t_data r) /\ is_null f (t_data x) = is_null f (t_data r)).
Proof.
  induction fs as [|f fs IH]; intros r v (F & D) V2; cbn [ins_fields versions_in].
  - exists r, v. split; [reflexivity|]. split; [reflexivity|]. split; [now rewrite Z.add_0_r|]. split; [repeat split|]. split; [auto|]. split; [intros a f b Q; destruct a; discriminate|intros f []].
  - inversion F as [|? ? (B & V & W) F']; subst. inversion D as [|? ? D1 D']; subst.
    destruct (one_ok c f r v B V) as (x & w & -> & E1 & E2 & E3 & H & L & G & Un & O). cbn [rbind fst snd]. specialize (E3 V2).
    destruct (IH x w) as (y & u & A & U1 & U2 & HS & O' & G' & K'); [split; [rewrite L; exact F'|exact D']|exact E3|]. exists y, u.
    assert (UA : forall z, u32 (v_2 w + z) = u32 (v_2 v + one_in f + z)) by (intros z; unfold u32 in *; rewrite <- Z.add_mod_idemp_l, E2, Z.add_mod_idemp_l by lia; reflexivity).
    split; [exact A|]. split; [congruence|]. split; [rewrite U2, UA; f_equal; unfold one_in; lia|]. split; [unfold head_same in *; intuition congruence|].
    assert (Sym : forall g h, distinct_places g h -> distinct_places h g) by (unfold distinct_places; tauto).
    assert (Keep : get_value f (t_data y) = get_value f (t_data x) /\ is_null f (t_data y) = is_null f (t_data x)).
    { apply O'; [|exact W]. eapply Forall_impl; [|exact D1]. intros g. apply Sym. }
    split; [|split].
    + intros g Fg Wg. inversion Fg as [|? ? Fg1 Fg2]; subst. destruct (O' g Fg2 Wg) as (-> & ->). now apply O.
    + intros a f0 b Q K. destruct a as [|a0 a]; cbn [app] in Q.
      * injection Q as -> ->. destruct (G K) as (d & Gd & Hd). exists d. rewrite (proj1 Keep). split; [exact Gd|]. cbn [versions_in]. rewrite Z.add_0_r, <- V2. exact Hd.
      * injection Q as -> ->. destruct (G' a f0 b eq_refl K) as (d & Gd & Hd). exists d. split; [exact Gd|]. rewrite E1, UA in Hd. cbn [versions_in]. unfold one_in in Hd. rewrite Z.add_assoc. exact Hd.
    + intros g [<- |Hg] Ng.
      * destruct Keep as (-> & ->). now rewrite (Un Ng).
      * destruct (K' g Hg Ng) as (-> & ->). rewrite Forall_forall in D1, F'. apply O; [now apply D1|]. now destruct (F' g Hg) as (_ & _ & Wg).
Qed.
Lemma insert_head c reclen phys x r : head_same x r -> insert_record c reclen phys x = insert_record c reclen phys r.
Proof. intros (A & B & C & D). unfold insert_record, object_bytes. now rewrite A, B, C, D. Qed.
Theorem versions c reclen phys fs r v c' n : simple_fields (zlen (t_data r)) fs -> 0 <= v_2 v < 2 ^ 32 -> insert_record c reclen phys r = Ok (c', n) ->
  exists x w, ins_record (Some c) reclen phys fs r v = Ok (c', n, x, w) /\ v_1 w = v_1 v /\ v_2 w = (v_2 v + versions_in fs) mod 2 ^ 32 /\
  (forall a f b, fs = a ++ [f] ++ b -> version_kind f -> exists d, get_value f (t_data x) = Ok d /\ holds_version f (v_1 v) ((v_2 v + versions_in a) mod 2 ^ 32) d) /\
  (forall f, In f fs -> ~ version_kind f -> get_value f (t_data x) = get_value f (t_data r) /\ is_null f (t_data x) = is_null f (t_data r)).
Proof.
  intros F V E. destruct (all_ok c fs r v F) as (x & w & A & V1 & V2 & H & _ & G & K); [unfold u32; now rewrite Z.mod_small by lia|].
  exists x, w. split; [|split; [exact V1|]; split; [exact V2|]; split; [exact G|exact K]].
  unfold ins_record. cbn [rbind]. rewrite A. cbn [rbind fst snd through]. rewrite (insert_head _ _ _ _ _ H), E. reflexivity.
Qed.

(** ** Updating *)
Lemma keep_pad f o v x w : keep_field f o v = Ok (x, w) -> t_pad x = t_pad o.
Proof. unfold keep_field. destruct (f_kind f); try (intros [= <- <-]; reflexivity); (destruct (wrn _ _ _); cbn [rbind]; [intros [= <- <-]; reflexivity|discriminate|discriminate|discriminate]). Qed.
Lemma keep_ub f o v : version_kind f -> 1 <= f_off f -> length (t_pad o) = 4%nat -> keep_field f o v = UB.
Proof.
  intros K H P. unfold keep_field. cbv zeta. destruct K as [-> | ->]; unfold wrn; rewrite (object_24 o P), ver_len.
  - destruct (Z.ltb_spec 24 (24 * (f_off f + (if f_null f then 1 else 0) + 8) + 8)); [now rewrite orb_true_r|destruct (f_null f); lia].
  - destruct (Z.ltb_spec 24 (24 * (f_off f + (if f_null f then 1 else 0)) + 8)); [now rewrite orb_true_r|destruct (f_null f); lia].
Qed.
Lemma change_ub f o r : 1 <= f_off f -> 0 < extent f -> length (t_pad r) = 4%nat -> update_field f o r = UB.
Proof.
  intros H E P. unfold update_field, rdn. rewrite (object_24 r P). rewrite <- size_extent in E. destruct (Z.ltb_spec 24 (24 * f_off f + field_size f)); [now rewrite orb_true_r|lia].
Qed.
Theorem update_bad blob fs o r v x : (forall f a b c, blob f a b = Ok c -> t_pad c = t_pad a) -> length (t_pad o) = 4%nat -> length (t_pad r) = 4%nat ->
  Exists (fun e => 1 <= f_off (snd e) /\ (fst e = false /\ version_kind (snd e) \/ fst e = true /\ ~ blob_kind (snd e) /\ 0 < extent (snd e))) fs -> upd_fields blob fs o r v <> Ok x.
Proof.
  intros B Po Pr X. revert o v Po. induction X as [(c & f) fs (H & K)|(c & f) fs X IH]; intros o v Po; cbn [upd_fields fst snd] in *.
  - destruct K as [(-> & K)|(-> & K & E)]; [rewrite keep_ub by assumption; discriminate|]. replace (match f_kind f with KImage | KString | KText => blob f o r | _ => update_field f o r end) with (update_field f o r).
    + rewrite change_ub by assumption. discriminate.
    + unfold blob_kind in K. destruct (f_kind f); try reflexivity; elim K; auto.
  - destruct c.
    + destruct (match f_kind f with KImage | KString | KText => blob f o r | _ => update_field f o r end) as [o'| | |] eqn:Q; cbn [rbind]; try discriminate. apply IH.
      assert (E : t_pad o' = t_pad o).
      { assert (U : forall z, update_field f o r = Ok z -> t_pad z = t_pad o) by (unfold update_field; intros z; destruct (rdn _ _ _); cbn [rbind]; try discriminate; destruct (wrn _ _ _); cbn [rbind]; try discriminate; intros [= <-]; reflexivity).
        destruct (f_kind f); (now apply U) || (eapply B; exact Q). }
      now rewrite E.
    + destruct (keep_field f o v) as [(o' & w)| | |] eqn:Q; cbn [rbind fst snd]; try discriminate. apply IH. apply keep_pad in Q. now rewrite Q.
Qed.
