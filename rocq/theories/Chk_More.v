(** More proofs about the test of the format: what is in order passes, and what does not. *)
From Verif Require Import Prelude Text_Model Text_Spec Text_Proofs Tree_Model Descr_Spec Descr_Model Descr_Proofs Chk_Model Chk_Spec Chk_Proofs.
Ltac Zify.zify_post_hook ::= idtac.

(** ** Induction over sound values *)
Section rec.
Variables (e : cenv) (P : list Z -> list Z -> bool -> Prop) (Q : list Z -> elem -> Prop).
Hypothesis Hskip : forall p v tw, skipped p v -> P p v tw.
Hypothesis Htext : forall p v tw s c t, content e tw v s c -> s <> [] -> cat e c s = Ok [] -> text_of s t -> readable t -> cut_between t -> P p v tw.
Hypothesis Hcat : forall p v tw s c l, content e tw v s c -> s <> [] -> cat e c s = Ok l -> l <> [] -> Forall (Q p) l -> P p v tw.
Hypothesis Hcode : forall p n d, n = [109;111;100;117;108;101] \/ n = [116;101;120;116] -> Q p (EData n d).
Hypothesis Hdata : forall p n d, P (p ++ 47 :: n) d false -> Q p (EData n d).
Hypothesis Hecat : forall p n l, Forall (Q (p ++ 47 :: n)) l -> Q p (ECat n l).
Lemma sound_rec : forall p v tw, sound e p v tw -> P p v tw
with selem_rec : forall p x, sound_elem e p x -> Q p x.
Proof.
  - intros p v tw H. destruct H as [p v tw H|p v tw s c t H1 H2 H3 H4 H5 H6|p v tw s c l H1 H2 H3 H4 H5].
    + now apply Hskip.
    + now apply (Htext p v tw s c t).
    + apply (Hcat p v tw s c l); try assumption. clear - H5 selem_rec. induction H5 as [|x l Hx F IH]; constructor; [apply selem_rec; exact Hx|exact IH].
  - intros p x H. destruct H as [p n d H|p n d H|p n l H].
    + now apply Hcode.
    + apply Hdata. now apply sound_rec.
    + apply Hecat. clear - H selem_rec. induction H as [|x l Hx F IH]; constructor; [apply selem_rec; exact Hx|exact IH].
Qed.
End rec.

(** ** What is in order passes *)
Lemma text_in_order t : readable t -> cut_between t -> check_text t = Ok true.
Proof.
  intros R C. destruct (trimmed t) as [|c r] eqn:E; [apply text_other; rewrite E; discriminate|].
  destruct (Z.eq_dec c 123) as [->|N]; [|apply text_other; rewrite E; congruence].
  rewrite (text_open _ _ E). apply trimmed_braces in E. destruct (R _ E) as (tr & T). destruct (C _ E) as (cps & F & X).
  assert (G : exists q, Forall scalar q /\ features = utf8_of q).
  { exists [123;1061;1040;1056;1040;1050;1058;1045;1056;1048;1057;1058;1048;1050;1048]. split; [|reflexivity].
    unfold scalar. repeat (apply Forall_cons; [lia|]). constructor. }
  destruct G as (q & Fq & Eq). rewrite X, Eq. destruct (equal_ic_of _ _ F Fq) as (b & B & _). rewrite B. cbn [rbind].
  destruct b; [reflexivity|]. rewrite T. reflexivity.
Qed.
Lemma header_headless s b : header_off s b -> headless s = Ok b.
Proof.
  unfold headless. intros [(h & -> & L & Z16)|[(h & -> & L & N)|(-> & K)]].
  - destruct (Z.ltb_spec (zlen ([77; 79; 88; 67; 69; 76; 0] ++ h ++ b)) 16); [lia|]. cbn [app firstn].
    destruct (same_bytes_spec [77; 79; 88; 67; 69; 76; 0] moxcel) as [_|Q]; [|now contradiction Q].
    f_equal. change (skipn 6 (h ++ b) = b). rewrite skipn_app, L, skipn_all2 by lia. reflexivity.
  - assert (M : 25 <= zlen ([0; 0; 0; 0; 1; 0; 0; 0] ++ h ++ b)).
    { unfold zlen. rewrite !app_length, L. destruct b; [congruence|]. cbn [length]. lia. }
    destruct (Z.ltb_spec (zlen ([0; 0; 0; 0; 1; 0; 0; 0] ++ h ++ b)) 16); [lia|].
    destruct (same_bytes_spec (firstn 7 ([0; 0; 0; 0; 1; 0; 0; 0] ++ h ++ b)) moxcel) as [Q|_]; [discriminate|].
    destruct (same_bytes_spec (firstn 8 ([0; 0; 0; 0; 1; 0; 0; 0] ++ h ++ b)) skd) as [_|Q]; [|now contradiction Q].
    destruct (Z.ltb_spec (zlen ([0; 0; 0; 0; 1; 0; 0; 0] ++ h ++ b)) 24); [lia|].
    destruct (Z.eqb_spec (zlen ([0; 0; 0; 0; 1; 0; 0; 0] ++ h ++ b)) 24); [lia|].
    f_equal. change (skipn 16 (h ++ b) = b). rewrite skipn_app, L, skipn_all2 by lia. reflexivity.
  - destruct (Z.ltb_spec (zlen b) 16); [reflexivity|]. destruct K as [K|(K1 & K2)]; [lia|].
    destruct (same_bytes_spec (firstn 7 b) moxcel); [contradiction|]. destruct (same_bytes_spec (firstn 8 b) skd); [contradiction|]. reflexivity.
Qed.
Lemma bytes_of_text s t : text_of s t -> t <> [] -> check_bytes s = check_text t.
Proof.
  intros (b & O & M) N. unfold check_bytes. rewrite (header_headless _ _ O). cbn [rbind].
  destruct M as [-> |(u & -> & U)].
  - destruct (encoding_spec ([239;187;191] ++ t)) as [(x & _ & B)|[(x & X & _)|(_ & X & _)]]; [|discriminate|now contradiction (X t)].
    rewrite B. destruct (Z.ltb_spec 0 (zlen ([239;187;191] ++ t) - 3)) as [_|L]; [reflexivity|].
    exfalso. unfold zlen in L. rewrite app_length in L. cbn [length] in L. destruct t; [congruence|cbn [length] in L; lia].
  - destruct (encoding_spec ([255;254] ++ u)) as [(x & X & _)|[(x & _ & B)|(_ & _ & X)]]; [discriminate| |now contradiction (X u)].
    rewrite B. destruct (Z.ltb_spec 0 (zlen ([255;254] ++ u) - 2)) as [_|L].
    + cbn [app skipn]. rewrite U. reflexivity.
    + exfalso. unfold zlen in L. rewrite app_length in L. cbn [length] in L. destruct u; [|cbn [length] in L; lia]. vm_compute in U. congruence.
Qed.
Lemma bytes_of_nothing s : text_of s [] -> check_bytes s = Ok true.
Proof.
  intros (b & O & M). unfold check_bytes. rewrite (header_headless _ _ O). cbn [rbind].
  destruct M as [-> |(u & -> & U)]; [reflexivity|].
  destruct (encoding_spec ([255;254] ++ u)) as [(x & X & _)|[(x & _ & B)|(_ & _ & X)]]; [discriminate| |now contradiction (X u)].
  rewrite B. destruct (0 <? _); [|reflexivity]. cbn [app skipn]. rewrite U. reflexivity.
Qed.
Lemma bytes_in_order s t : text_of s t -> readable t -> cut_between t -> check_bytes s = Ok true.
Proof.
  intros T R C. destruct t as [|c t]; [now apply bytes_of_nothing|]. rewrite (bytes_of_text _ _ T) by discriminate. now apply text_in_order.
Qed.
Definition eventually (f : nat -> res bool) : Prop := exists k, forall j, (k <= j)%nat -> f j = Ok true.
Lemma eventually_all {A} (f : nat -> A -> res bool) l : Forall (fun x => eventually (fun j => f j x)) l ->
  exists k, forall j, (k <= j)%nat -> Forall (fun x => f j x = Ok true) l.
Proof.
  induction 1 as [|x l (k1 & H1) F (k2 & H2)]; [exists 0%nat; constructor|]. exists (max k1 k2). intros j L. constructor; [apply H1; lia|apply H2; lia].
Qed.
Lemma elems_in_order check p l : Forall (fun x => check_elem check p true x = Ok true) l -> check_elems check p l true = Ok true.
Proof. induction 1 as [|x l H F IH]; [reflexivity|]. cbn [check_elems]. rewrite H. exact IH. Qed.
Lemma skipped_ok e k p v tw : skipped p v -> check_value e (S k) p v tw = Ok true.
Proof.
  intros [-> | ->]; cbn [check_value].
  - destruct (same_bytes_spec [80; 65; 82; 65; 77; 83; 47; 117; 115; 101; 114; 115; 46; 117; 115; 114] users_usr) as [_|N]; [reflexivity|now contradiction N].
  - now destruct (same_bytes p users_usr).
Qed.
Lemma skipped_dec p v : skipped p v \/ ~ skipped p v.
Proof.
  unfold skipped. destruct (list_eq_dec Z.eq_dec p [80;65;82;65;77;83;47;117;115;101;114;115;46;117;115;114]); [auto|].
  destruct v; [auto|]. right. intros [H|H]; congruence.
Qed.
Lemma sound_passes e p v tw : sound e p v tw -> eventually (fun j => check_value e j p v tw).
Proof.
  refine (sound_rec e (fun p v tw => eventually (fun j => check_value e j p v tw))
    (fun p x => eventually (fun j => check_elem (fun q d => check_value e j q d false) p true x)) _ _ _ _ _ _ p v tw); clear p v tw.
  - intros p v tw H. exists 1%nat. intros [|j] L; [lia|]. now apply skipped_ok.
  - intros p v tw s c t C N K T R B. exists 1%nat. intros [|j] L; [lia|].
    destruct (skipped_dec p v) as [S0|S0]; [now apply skipped_ok|]. rewrite (value_step _ _ _ _ _ _ _ S0 C), (filled _ N), K. cbn [rbind]. now apply bytes_in_order with t.
  - intros p v tw s c l C N K L F. destruct (eventually_all _ _ F) as (k & H). exists (S k). intros [|j] J; [lia|].
    destruct (skipped_dec p v) as [S0|S0]; [now apply skipped_ok|]. rewrite (value_step _ _ _ _ _ _ _ S0 C), (filled _ N), K. cbn [rbind].
    destruct l as [|x l]; [congruence|]. apply elems_in_order. apply H. lia.
  - intros p n d H. exists 0%nat. intros j _. cbn [check_elem].
    destruct H as [-> | ->]; [destruct (same_bytes_spec [109;111;100;117;108;101] n_module) as [_|Q]; [reflexivity|now contradiction Q]|].
    destruct (same_bytes_spec [116;101;120;116] n_text) as [_|Q]; [now rewrite orb_true_r|now contradiction Q].
  - intros p n d (k & H). exists k. intros j L. cbn [check_elem]. destruct (_ || _); [reflexivity|]. now apply H.
  - intros p n l F. destruct (eventually_all _ _ F) as (k & H). exists k. intros j L. rewrite check_cat. apply elems_in_order. now apply H.
Qed.
Lemma rows_in_order f l : Forall (fun r => f r = Ok true) l -> check_rows f l true = Ok true.
Proof. induction 1 as [|x l H F IH]; [reflexivity|]. cbn [check_rows]. rewrite H. exact IH. Qed.
Lemma row_in_order e t r : good_row e t r -> eventually (fun j => check_row e j t r).
Proof.
  unfold check_row. intros [H|(v & V & N & H)].
  - exists 0%nat. intros j _. now rewrite H.
  - destruct (sound_passes _ _ _ _ H) as (k & K). exists k. intros j L. destruct (r_removed r); [reflexivity|].
    rewrite V. cbn [rbind]. rewrite (stoi_int _ _ N). cbn [rbind]. rewrite Z.eqb_refl. now apply K.
Qed.
Lemma schema_in_order e t r : good_schema e t r -> eventually (fun j => check_schema e j t r).
Proof.
  unfold check_schema. intros [H|(v & V & H)].
  - exists 0%nat. intros j _. now rewrite H.
  - destruct (sound_passes _ _ _ _ H) as (k & K). exists k. intros j L. destruct (r_removed r); [reflexivity|]. rewrite V. cbn [rbind]. now apply K.
Qed.
Lemma same_len {A B} (R : A -> B -> Prop) a b : Forall2 R a b -> length a = length b.
Proof. induction 1; cbn [length]; congruence. Qed.
Lemma same_name_ok f n : same_name f n -> compare_ic f n = Ok 0.
Proof.
  intros (a & b & -> & -> & A & B & NA & NB & F). destruct (equal_ic_of a b A B) as (r & E & R). rewrite !before_nul_id in R by assumption.
  apply R in F. subst r. unfold equal_ic in E. destruct (compare_ic (utf8_of a) (utf8_of b)) as [c| | |]; cbn [rbind] in E; try discriminate.
  destruct (Z.eqb_spec c 0); [now subst|discriminate].
Qed.
Lemma named_ok fields names : Forall2 same_name fields names -> forall more, named (names ++ more) fields = Ok tt.
Proof.
  induction 1 as [|f n fields names H F IH]; intros more; [now destruct more|]. cbn [app named]. rewrite (same_name_ok _ _ H). cbn [rbind]. apply IH.
Qed.
Lemma file_table_ok t : file_fields (tt_fields t) -> file_table (Some t) = Ok t.
Proof.
  intros (six & F & H). unfold file_table.
  assert (L : length six = 6%nat) by (now apply same_len in F).
  assert (G : named seven (tt_fields t) = Ok tt /\ (length (tt_fields t) = 6 \/ length (tt_fields t) = 7)%nat).
  { destruct H as [-> |(p & -> & P)].
    - split; [|auto]. exact (named_ok _ _ F [[80;65;82;84;78;79]]).
    - split; [|rewrite app_length, L; auto]. rewrite <- (app_nil_r seven). apply named_ok. change seven with (firstn 6 seven ++ [[80;65;82;84;78;79]]). apply Forall2_app; [exact F|]. constructor; [exact P|constructor]. }
  destruct G as (G1 & G2). unfold zlen. destruct (Z.ltb_spec (Z.of_nat (length (tt_fields t))) 6); [lia|].
  destruct (Z.ltb_spec 7 (Z.of_nat (length (tt_fields t)))); [lia|]. cbn [orb]. rewrite G1. reflexivity.
Qed.
Lemma schema_table_ok t : schema_fields (tt_fields t) -> schema_table (Some t) = Ok t.
Proof.
  intros F. unfold schema_table, zlen. rewrite (same_len _ _ _ F). cbn [length]. change (Z.of_nat 1 =? 1) with true. cbn [negb].
  pose proof (named_ok _ _ F []) as G. cbn [app] in G. rewrite G. reflexivity.
Qed.
Lemma base_passes e b : good_base e b -> eventually (fun j => test_format e j b).
Proof.
  intros (c & s & p & f & d & -> & FF & FS & FR & GS & L).
  inversion FF as [|? ? F1 FF1]; subst. inversion FF1 as [|? ? F2 FF2]; subst. inversion FF2 as [|? ? F3 FF3]; subst. inversion FF3 as [|? ? F4 _]; subst.
  inversion FR as [|? ? R1 FR1]; subst. inversion FR1 as [|? ? R2 FR2]; subst. inversion FR2 as [|? ? R3 _]; subst. clear FF FF1 FF2 FF3 FR FR1 FR2.
  assert (G : forall t, Forall (good_row e (tt_name t)) (tt_rows t) -> exists k, forall j, (k <= j)%nat -> Forall (fun x => check_row e j (tt_name t) x = Ok true) (tt_rows t)).
  { intros t H. apply (eventually_all (fun j x => check_row e j (tt_name t) x)). eapply Forall_impl; [|exact H]. intros r. apply row_in_order. }
  destruct (G _ R1) as (k1 & K1), (G _ R2) as (k2 & K2), (G _ R3) as (k3 & K3).
  destruct (eventually_all (fun j x => check_schema e j (tt_name d) x) (tt_rows d)) as (k4 & K4).
  { eapply Forall_impl; [|exact GS]. intros r. apply schema_in_order. }
  exists (max (max k1 k2) (max k3 k4)). intros j J. unfold test_format. cbn [tb_config tb_configsave tb_params tb_files tb_schema].
  rewrite !file_table_ok by assumption. cbn [rbind]. rewrite schema_table_ok by assumption. cbn [rbind].
  rewrite (rows_in_order _ _ (K1 j ltac:(lia))). cbn [rbind]. rewrite (rows_in_order _ _ (K2 j ltac:(lia))). cbn [rbind].
  rewrite (rows_in_order _ _ (K3 j ltac:(lia))). cbn [rbind].
  destruct (Z.ltb_spec (zlen (tt_rows d)) 2) as [Q|_]; [unfold zlen in Q; lia|]. apply rows_in_order. apply K4. lia.
Qed.

(** ** What is not found, and what is found though nothing is wrong *)
Definition is_code (x : elem) : Prop := exists n d, x = EData n d /\ (n = [109;111;100;117;108;101] \/ n = [116;101;120;116]).
Lemma code_passes e p v tw s c l : content e tw v s c -> s <> [] -> cat e c s = Ok l -> l <> [] -> Forall is_code l -> forall k, check_value e (S k) p v tw = Ok true.
Proof.
  intros C N K L F k. destruct (skipped_dec p v) as [S0|S0]; [now apply skipped_ok|]. rewrite (value_step _ _ _ _ _ _ _ S0 C), (filled _ N), K. cbn [rbind].
  destruct l as [|x l]; [congruence|]. apply elems_in_order. eapply Forall_impl; [|exact F]. intros y (n & d & -> & H). cbn [check_elem].
  destruct H as [-> | ->]; [destruct (same_bytes_spec [109;111;100;117;108;101] n_module) as [_|Q]; [reflexivity|now contradiction Q]|].
  destruct (same_bytes_spec [116;101;120;116] n_text) as [_|Q]; [now rewrite orb_true_r|now contradiction Q].
Qed.
Lemma files_ignored e k c s p f f' d : tt_fields f' = tt_fields f -> test_format e k (TB c s p (Some f) d) = test_format e k (TB c s p (Some f') d).
Proof.
  intros E. unfold test_format. cbn [tb_config tb_configsave tb_params tb_files tb_schema].
  destruct (file_table c); cbn [rbind]; try reflexivity. destruct (file_table s); cbn [rbind]; try reflexivity. destruct (file_table p); cbn [rbind]; try reflexivity.
  unfold file_table. rewrite E. destruct (_ || _); [reflexivity|]. destruct (named _ _); reflexivity.
Qed.
Lemma no_mark_throws e p v tw s c : ~ skipped p v -> content e tw v s c -> s <> [] -> cat e c s = Ok [] -> header_off s s ->
  (forall t, s <> [239;187;191] ++ t) -> (forall t, s <> [255;254] ++ t) -> forall k, check_value e (S k) p v tw = Throw.
Proof.
  intros N C F K O M1 M2 k. rewrite (value_step _ _ _ _ _ _ _ N C), (filled _ F), K. cbn [rbind]. unfold check_bytes. rewrite (header_headless _ _ O). cbn [rbind].
  destruct (encoding_spec s) as [(t & X & _)|[(t & X & _)|(B & _)]]; [now contradiction (M1 t)|now contradiction (M2 t)|]. rewrite B. reflexivity.
Qed.
Lemma packed_empty_throws e p v tw c : ~ skipped p v -> content e tw v [] c -> cat e c [255;255;255;127;0;2;0;0;0;0;0;0;0;0;0;0] = Ok [] ->
  forall k, check_value e (S k) p v tw = Throw.
Proof. intros N C K k. rewrite (value_step _ _ _ _ _ _ _ N C). change [255;255;255;127;0;2;0;0;0;0;0;0;0;0;0;0] with template in K. rewrite K. reflexivity. Qed.
Lemma schema_short e k b d r : tb_schema b = Some d -> (length (tt_rows d) < 2)%nat -> test_format e k b <> Ok r.
Proof.
  intros D L H. unfold test_format in H. do 8 step H. apply schema_table_some in E3. assert (x3 = d) by congruence. subst x3.
  destruct (Z.ltb_spec (zlen (tt_rows d)) 2) as [Q|Q]; [discriminate|]. unfold zlen in Q. lia.
Qed.
Lemma utf8_prefix : forall ps cps rest, Forall scalar ps -> Forall scalar cps -> utf8_of cps = utf8_of ps ++ rest -> exists q, cps = ps ++ q.
Proof.
  induction ps as [|p ps IH]; intros cps rest Fp Fc E; [exists cps; reflexivity|]. inversion Fp as [|? ? P1 P2]; subst.
  rewrite utf8_of_cons, <- app_assoc in E. pose proof (next_enc8 p (utf8_of ps ++ rest) P1) as N. rewrite <- E in N.
  destruct cps as [|c cps]; [discriminate|]. inversion Fc as [|? ? C1 C2]; subst. rewrite utf8_of_cons, next_enc8 in N by assumption.
  assert (c = p) by congruence. assert (R : utf8_of cps = utf8_of ps ++ rest) by congruence. subst c.
  destruct (IH _ _ P2 C2 R) as (q & ->). exists q. reflexivity.
Qed.
Lemma cut_throws cps n : Forall scalar cps -> (n <= length (utf8_of cps))%nat -> (forall p q, cps = p ++ q -> length (utf8_of p) <> n) ->
  lower_case (firstn n (utf8_of cps)) = Throw.
Proof.
  intros F L H. unfold lower_case, map_case. destruct (decode_outcome (firstn n (utf8_of cps))) as [-> |(ps & D)]; [reflexivity|]. exfalso.
  apply decode_inv in D; [|unfold bytes_ok; apply Forall_firstn'; apply utf8_of_bytes, F]. destruct D as (P & E).
  destruct (utf8_prefix ps cps (skipn n (utf8_of cps)) P F) as (q & Q); [rewrite <- E; now rewrite firstn_skipn|].
  apply (H _ _ Q). rewrite <- E, firstn_length. lia.
Qed.
Lemma cut_text_throws t : cut_in_letter t -> check_text t = Throw.
Proof.
  intros (r & cps & B & E & F & L & H). apply trimmed_braces in B. rewrite (text_open _ _ B), E.
  unfold equal_ic, compare_ic. rewrite (cut_throws cps 15 F ltac:(lia) H). reflexivity.
Qed.
Lemma cut_value_throws e p v tw s c t : ~ skipped p v -> content e tw v s c -> s <> [] -> cat e c s = Ok [] -> text_of s t -> cut_in_letter t ->
  forall k, check_value e (S k) p v tw = Throw.
Proof.
  intros N C F K T U k. rewrite (value_step _ _ _ _ _ _ _ N C), (filled _ F), K. cbn [rbind].
  rewrite (bytes_of_text _ _ T); [now apply cut_text_throws|]. intros ->. destruct U as (r & _ & ([|w0 w] & W & _) & _); discriminate.
Qed.
(** the fields *)
Lemma name_ok f n : text_name f -> text_name n -> compare_ic f n = Ok 0 -> same_name f n.
Proof.
  intros (a & -> & A & NA) (b & -> & B & NB) C. exists a, b. repeat (split; [first [reflexivity|assumption]|]).
  destruct (equal_ic_of a b A B) as (r & E & R). rewrite !before_nul_id in R by assumption. apply R. unfold equal_ic in E. rewrite C in E. cbn in E. congruence.
Qed.
Lemma named_found names : Forall text_name names -> forall fields, named names fields = Ok tt -> fields_found names fields.
Proof.
  induction 1 as [|n names T F IH]; intros fields H i f m I1 I2 TF; [destruct i; discriminate|].
  destruct fields as [|g fields]; [destruct i; discriminate|]. cbn [named] in H. step H. destruct (Z.eqb_spec x 0) as [-> |]; [|discriminate].
  destruct i as [|i]; cbn [nth_error] in I1, I2.
  - assert (g = f) by congruence. assert (n = m) by congruence. subst. now apply name_ok.
  - exact (IH fields H i f m I1 I2 TF).
Qed.
Lemma ascii_name n : forallb (fun c => (0 <? c) && (c <? 128)) n = true -> text_name n.
Proof.
  intros H. exists n. rewrite forallb_forall in H. split; [|split].
  - assert (G : forall c, In c n -> 0 < c < 128) by (intros c I0; specialize (H c I0); lia). clear H.
    induction n as [|c n IH]; [reflexivity|]. rewrite utf8_of_cons. rewrite <- IH by (intros d I0; apply G; now right).
    unfold enc8. pose proof (G c (or_introl eq_refl)). replace (c <? 128) with true by lia. reflexivity.
  - apply Forall_forall. intros c I0. specialize (H c I0). unfold scalar. lia.
  - intros I0. specialize (H 0 I0). discriminate.
Qed.
Lemma seven_names : Forall text_name seven.
Proof. unfold seven. repeat (apply Forall_cons; [apply ascii_name; reflexivity|]). constructor. Qed.
Lemma file_table_found o t : file_table o = Ok t -> o = Some t /\ (6 <= length (tt_fields t) <= 7)%nat /\ fields_found seven (tt_fields t).
Proof.
  intros H. pose proof (file_table_some _ _ H) as ->. split; [reflexivity|]. unfold file_table, zlen in H.
  destruct (Z.ltb_spec (Z.of_nat (length (tt_fields t))) 6), (Z.ltb_spec 7 (Z.of_nat (length (tt_fields t)))); cbn [orb] in H; try discriminate. step H. destruct x.
  split; [lia|]. exact (named_found _ seven_names _ E).
Qed.
Lemma schema_table_found o t : schema_table o = Ok t -> o = Some t /\ length (tt_fields t) = 1%nat /\ fields_found [[83;69;82;73;65;76;73;90;69;68;68;65;84;65]] (tt_fields t).
Proof.
  intros H. pose proof (schema_table_some _ _ H) as ->. split; [reflexivity|]. unfold schema_table, zlen in H.
  destruct (Z.eqb_spec (Z.of_nat (length (tt_fields t))) 1); cbn [negb] in H; try discriminate. step H. destruct x.
  split; [lia|]. refine (named_found _ _ _ E). constructor; [apply ascii_name; reflexivity|constructor].
Qed.
Lemma format_fields e k b r : test_format e k b = Ok r -> exists c s p f d, b = TB (Some c) (Some s) (Some p) (Some f) (Some d) /\
  Forall (fun t => (6 <= length (tt_fields t) <= 7)%nat /\ fields_found seven (tt_fields t)) [c; s; p; f] /\
  length (tt_fields d) = 1%nat /\ fields_found [[83;69;82;73;65;76;73;90;69;68;68;65;84;65]] (tt_fields d).
Proof.
  unfold test_format. destruct b as [bc bs bp bf bd]. cbn [tb_config tb_configsave tb_params tb_files tb_schema]. intros H. do 5 step H. clear H.
  apply file_table_found in E, E0, E1, E2. apply schema_table_found in E3. destruct E as [-> E], E0 as [-> E0], E1 as [-> E1], E2 as [-> E2], E3 as [-> E3].
  do 5 eexists. split; [reflexivity|]. split; [|exact E3]. repeat (apply Forall_cons; [eassumption|]). constructor.
Qed.
