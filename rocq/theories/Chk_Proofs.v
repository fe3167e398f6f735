(** Proofs about the test of the format of a configuration. *)
From Verif Require Import Prelude Text_Model Text_Spec Text_Proofs Tree_Model Descr_Spec Descr_Model Descr_Proofs Chk_Model Chk_Spec.
Ltac Zify.zify_post_hook ::= idtac.

Lemma same_bytes_spec a b : reflect (a = b) (same_bytes a b).
Proof. unfold same_bytes. destruct (list_eq_dec Z.eq_dec a b); constructor; assumption. Qed.
Lemma go_elems check p l : forall r,
  (fix go (l : list elem) (r : bool) : res bool := match l with [] => Ok r | y :: l => do r <- check_elem check p r y; go l r end) l r = check_elems check p l r.
Proof. induction l as [|y l IH]; intros r; [reflexivity|]. cbn [check_elems]. destruct (check_elem check p r y); cbn [rbind]; [apply IH|reflexivity..]. Qed.
Lemma check_cat check p r n l : check_elem check p r (ECat n l) = check_elems check (under p n) l true.
Proof. cbn [check_elem]. apply go_elems. Qed.
(** induction over the elements of containers *)
Lemma elem_rec (P : elem -> Prop) : (forall n d, P (EData n d)) -> (forall n, P (EBad n)) -> (forall n l, Forall P l -> P (ECat n l)) -> forall x, P x.
Proof.
  intros HD HB HC. fix IH 1. intros [n d|n l|n]; [apply HD| |apply HB]. apply HC.
  induction l as [|y l IHl]; constructor; [apply IH|exact IHl].
Qed.

(** ** Never false *)
Lemma elem_true check : (forall q d b, check q d = Ok b -> b = true) ->
  forall x p r b, check_elem check p r x = Ok b -> r = true -> b = true.
Proof.
  intros Hc. apply (elem_rec (fun x => forall p r b, check_elem check p r x = Ok b -> r = true -> b = true)).
  - intros n d p r b H R. cbn [check_elem] in H. destruct (_ || _); [congruence|now apply Hc in H].
  - intros n p r b H. discriminate.
  - intros n l F p r b H _. rewrite check_cat in H.
    assert (G : forall r, r = true -> forall b, check_elems check (under p n) l r = Ok b -> b = true); [|exact (G true eq_refl b H)].
    clear H. induction F as [|y l Fy F IH]; intros r0 R b0 H; [cbn in H; congruence|]. cbn [check_elems] in H.
    destruct (check_elem check (under p n) r0 y) as [r1| | |] eqn:E; cbn [rbind] in H; try discriminate.
    exact (IH r1 (Fy _ _ _ E R) _ H).
Qed.
Lemma elems_true check : (forall q d b, check q d = Ok b -> b = true) ->
  forall l p r b, check_elems check p l r = Ok b -> r = true -> b = true.
Proof.
  intros Hc. induction l as [|y l IH]; intros p r b H R; [cbn in H; congruence|]. cbn [check_elems] in H.
  destruct (check_elem check p r y) as [r1| | |] eqn:E; cbn [rbind] in H; try discriminate.
  exact (IH _ _ _ H (elem_true check Hc _ _ _ _ E R)).
Qed.
Lemma text_true t b : check_text t = Ok b -> b = true.
Proof.
  unfold check_text. intros H. destruct (trimmed t) as [|c r]; [congruence|].
  assert (G : forall A : res bool, A = Ok b -> (A = Ok true \/ A = Throw \/ A = UB \/ A = Hang \/ exists f k, A = (do x <- f; if x : bool then Ok true else do _ <- k : res tree; Ok true)) -> b = true).
  { intros A -> [K|[K|[K|[K|(f & k & K)]]]]; try congruence. destruct f as [[|]| | |]; cbn [rbind] in K; try congruence.
    destruct k; cbn [rbind] in K; congruence. }
  apply (G _ H). clear.
  destruct c as [|c|c]; [left; reflexivity| |left; reflexivity].
  do 7 (destruct c as [c|c|]; try (left; reflexivity)).
  right; right; right; right. do 2 eexists. reflexivity.
Qed.
Lemma text_open t r : trimmed t = 123 :: r ->
  check_text t = (do f <- equal_ic (firstn 15 (123 :: r)) features; if f then Ok true else do _ <- parse_text t; Ok true).
Proof. intros E. unfold check_text. rewrite E. reflexivity. Qed.
Lemma text_other t : (forall r, trimmed t <> 123 :: r) -> check_text t = Ok true.
Proof.
  intros H. unfold check_text. destruct (trimmed t) as [|c r]; [reflexivity|].
  assert (N : c <> 123) by (intros ->; now apply (H r)).
  destruct c as [|c|c]; [reflexivity| |reflexivity].
  do 7 (destruct c as [c|c|]; try reflexivity). now contradiction N.
Qed.
Lemma blank_spec c : reflect (white c) (blank c).
Proof.
  unfold blank, white. destruct (Z.eqb_spec c 13); [constructor; auto|]. destruct (Z.eqb_spec c 10); [constructor; auto|].
  destruct (Z.eqb_spec c 9); [constructor; auto|]. destruct (Z.eqb_spec c 32); constructor; [auto|]. intuition congruence.
Qed.
Lemma trimmed_braces t : forall r, trimmed t = 123 :: r <-> braces t r.
Proof.
  unfold braces. induction t as [|c t IH]; intros r; cbn [trimmed].
  - split; [discriminate|]. intros ([|x w] & E & _); discriminate.
  - destruct (blank_spec c) as [B|B].
    + rewrite IH. split.
      * intros (w & -> & F). exists (c :: w). split; [reflexivity|]. constructor; assumption.
      * intros ([|x w] & E & F); cbn [app] in E; injection E as -> ->; [unfold white in B; exfalso; intuition congruence|].
        exists w. split; [reflexivity|]. now inversion F.
    + split.
      * intros E. injection E as -> ->. exists []. split; [reflexivity|constructor].
      * intros ([|x w] & E & F); cbn [app] in E; injection E as -> ->; [reflexivity|]. inversion F; subst. contradiction.
Qed.
Lemma bytes_true s b : check_bytes s = Ok b -> b = true.
Proof.
  unfold check_bytes. destruct (headless s) as [x| | |]; cbn [rbind]; try discriminate. unfold buffer_encoding.
  destruct (_ && _); [destruct (0 <? _); [apply text_true|congruence]|]. destruct (_ && _); [|discriminate].
  destruct (0 <? _); [|congruence]. destruct (ucs2_to_utf8 _); cbn [rbind]; try discriminate. apply text_true.
Qed.
Lemma value_true e : forall k p v tw b, check_value e k p v tw = Ok b -> b = true.
Proof.
  induction k as [|k IH]; intros p v tw b H; [discriminate|]. cbn [check_value] in H.
  destruct (same_bytes p users_usr); [congruence|]. destruct v as [|c v]; [congruence|].
  destruct (unpacked e tw (c :: v)) as [s q]. cbv zeta in H.
  destruct (cat e q _) as [l| | |]; cbn [rbind] in H; try discriminate.
  destruct l as [|x l]; [now apply bytes_true in H|]. refine (elems_true _ _ _ _ _ _ H eq_refl). intros q0 d b0. apply IH.
Qed.
Lemma rows_true f : (forall r b, f r = Ok b -> b = true) -> forall l r b, check_rows f l r = Ok b -> r = true -> b = true.
Proof.
  intros Hf. induction l as [|x l IH]; intros r b H R; [cbn in H; congruence|]. cbn [check_rows] in H.
  destruct (f x) as [y| | |] eqn:E; cbn [rbind] in H; try discriminate. rewrite (Hf _ _ E), R in H. now apply IH in H.
Qed.
Lemma row_true e k t r b : check_row e k t r = Ok b -> b = true.
Proof.
  unfold check_row. destruct (r_removed r); [congruence|]. destruct (r_value r); cbn [rbind]; try discriminate.
  destruct (stoi _); cbn [rbind]; try discriminate. destruct (_ =? _); [|discriminate]. apply value_true.
Qed.
Lemma schema_true e k t r b : check_schema e k t r = Ok b -> b = true.
Proof. unfold check_schema. destruct (r_removed r); [congruence|]. destruct (r_value r); cbn [rbind]; try discriminate. apply value_true. Qed.
Ltac step H := match type of H with rbind ?r _ = Ok _ => let x := fresh "x" in let E := fresh "E" in destruct r as [x| | |] eqn:E; cbn [rbind] in H; try discriminate H end.
Lemma format_true e k b r : test_format e k b = Ok r -> r = true.
Proof.
  unfold test_format. intros H. do 8 step H.
  destruct (zlen (tt_rows x3) <? 2); [discriminate|].
  refine (rows_true _ (schema_true e k _) _ _ _ H _). refine (rows_true _ (row_true e k _) _ _ _ E6 _).
  refine (rows_true _ (row_true e k _) _ _ _ E5 _). exact (rows_true _ (row_true e k _) _ _ _ E4 eq_refl).
Qed.

(** ** What passes *)
Lemma cstr_snoc (l : list Z) : (length (cstr (l ++ [0%Z])) <= length l)%nat.
Proof. induction l as [|c l IH]; [cbn; lia|]. cbn [app cstr]. destruct (c =? 0); cbn [length]; lia. Qed.
Lemma lower_short s t : lower_case s = Ok t -> (length t <= length s)%nat.
Proof.
  unfold lower_case, map_case. intros H. do 2 step H. destruct (Nat.ltb_spec (length s + 1) (length x0)); [discriminate|].
  assert (E1 : cstr (firstn (length s) (x0 ++ repeat 0 (length s + 1 - length x0)) ++ [0]) = t) by congruence.
  rewrite <- E1. eapply Nat.le_trans; [apply cstr_snoc|]. rewrite firstn_length. lia.
Qed.
Lemma features_low : exists t, lower_case features = Ok t /\ length t = 29%nat.
Proof. eexists. split; [vm_compute; reflexivity|reflexivity]. Qed.
(** the exemption never applies *)
Lemma never_features r f : equal_ic (firstn 15 r) features = Ok f -> f = false.
Proof.
  unfold equal_ic, compare_ic. destruct features_low as (t & E & L). intros H. step H. step E0. rewrite E in E0. cbn [rbind] in E0.
  destruct f; [|reflexivity]. exfalso. assert (x = 0) by (destruct (Z.eqb_spec x 0); [assumption|congruence]). subst x.
  assert (X : str_compare x0 t = 0) by congruence. apply str_compare_0 in X. subst x0.
  apply lower_short in E1. rewrite firstn_length in E1. lia.
Qed.
Lemma text_passes t b : check_text t = Ok b -> readable t.
Proof.
  intros H r B. apply trimmed_braces in B. rewrite (text_open _ _ B) in H. step H. apply never_features in E. subst x. step H. eauto.
Qed.
Lemma headless_spec s b : headless s = Ok b -> header_off s b \/ zlen s = 24 /\ b = s /\ firstn 8 s = skd.
Proof.
  unfold headless, header_off. intros H.
  destruct (Z.ltb_spec (zlen s) 16) as [L|L]; [left; right; right; split; [congruence|left; exact L]|].
  destruct (same_bytes_spec (firstn 7 s) moxcel) as [M|M].
  { left; left. exists (firstn 6 (skipn 7 s)). assert (b = skipn 13 s) by congruence. subst b. split; [|split; [|exact L]].
    - change [77; 79; 88; 67; 69; 76; 0] with moxcel. rewrite <- M. replace (skipn 13 s) with (skipn 6 (skipn 7 s)) by (rewrite skipn_plus; reflexivity). now rewrite !firstn_skipn.
    - rewrite firstn_length, skipn_length. unfold zlen in L. lia. }
  destruct (same_bytes_spec (firstn 8 s) skd) as [M2|M2].
  { destruct (Z.ltb_spec (zlen s) 24); [discriminate|]. destruct (Z.eqb_spec (zlen s) 24); [right; split; [assumption|split; [congruence|exact M2]]|].
    left; right; left. assert (b = skipn 24 s) by congruence. subst b. exists (firstn 16 (skipn 8 s)). unfold zlen in *. split; [|split].
    - change [0; 0; 0; 0; 1; 0; 0; 0] with skd. rewrite <- M2. replace (skipn 24 s) with (skipn 16 (skipn 8 s)) by (rewrite skipn_plus; reflexivity). now rewrite !firstn_skipn.
    - rewrite firstn_length, skipn_length. lia.
    - intros K. apply (f_equal (@length Z)) in K. rewrite skipn_length in K. cbn [length] in K. lia. }
  left; right; right. split; [congruence|]. right. split; assumption.
Qed.
Lemma starts_spec p s : starts_with p s = true <-> exists t, s = p ++ t.
Proof.
  unfold starts_with. destruct (list_eq_dec _ _ _) as [E|E]; split; try discriminate; try reflexivity.
  - intros _. exists (skipn (length p) s). rewrite <- E at 1. now rewrite firstn_skipn.
  - intros (t & ->). contradiction E. now rewrite firstn_app, Nat.sub_diag, firstn_all, app_nil_r.
Qed.
Lemma encoding_spec b :
  (exists t, b = [239;187;191] ++ t /\ buffer_encoding b = (1, 3)) \/ (exists t, b = [255;254] ++ t /\ buffer_encoding b = (2, 2)) \/
  (buffer_encoding b = (0, 0) /\ (forall t, b <> [239;187;191] ++ t) /\ forall t, b <> [255;254] ++ t).
Proof.
  unfold buffer_encoding. destruct (starts_with [239;187;191] b) eqn:E1.
  { left. apply starts_spec in E1. destruct E1 as (t & ->). exists t. split; reflexivity. }
  rewrite andb_false_r. right. destruct (starts_with [255;254] b) eqn:E2.
  { left. apply starts_spec in E2. destruct E2 as (t & ->). exists t. split; reflexivity. }
  rewrite andb_false_r. right. split; [reflexivity|].
  split; intros t E; [assert (starts_with [239;187;191] b = true) by (apply starts_spec; eauto)|assert (starts_with [255;254] b = true) by (apply starts_spec; eauto)]; congruence.
Qed.
Lemma bytes_passes s b : check_bytes s = Ok b -> exists t, text_of s t /\ readable t.
Proof.
  unfold check_bytes. intros H. step H. destruct (headless_spec _ _ E) as [O|(L & -> & K)].
  - unfold text_of. destruct (encoding_spec x) as [(t & X & B)|[(t & X & B)|(B & _)]]; rewrite B in H; try discriminate.
    + exists t. split; [exists x; split; [exact O|left; exact X]|].
      destruct (Z.ltb_spec 0 (zlen x - 3)).
      * subst x. cbn [app skipn] in H. now apply text_passes in H.
      * subst x. unfold zlen in *. rewrite app_length in *. cbn [length] in *. destruct t; [|cbn [length] in *; lia].
        intros r ([|w0 w] & R & _); discriminate.
    + destruct (Z.ltb_spec 0 (zlen x - 2)).
      * step H. subst x. cbn [app skipn] in E0. exists x0. split; [exists ([255;254] ++ t); split; [exact O|right; exists t; split; [reflexivity|exact E0]]|].
        now apply text_passes in H.
      * subst x. unfold zlen in *. rewrite app_length in *. cbn [length] in *. destruct t; [|cbn [length] in *; lia].
        exists []. split; [exists ([255;254] ++ []); split; [exact O|right; exists []; split; reflexivity]|].
        intros r ([|w0 w] & R & _); discriminate.
  - exfalso. destruct (encoding_spec s) as [(t & X & B)|[(t & X & B)|(B & _)]]; [subst s; discriminate..|]. rewrite B in H. discriminate.
Qed.
Lemma content_unpacked e tw v s c : content e tw v s c <-> unpacked e tw v = (s, c).
Proof.
  unfold unpacked. split.
  - intros [? ? H|? ? H|? ? H H2|? ? ? H H2]; rewrite H; try reflexivity; rewrite H2; reflexivity.
  - destruct (z e v) as [u|] eqn:E.
    + destruct tw.
      * destruct (z e u) as [t|] eqn:E2; intros H; injection H as <- <-; econstructor; eassumption.
      * intros H; injection H as <- <-. now constructor.
    + intros H; injection H as <- <-. now constructor.
Qed.
Lemma elems_each check : forall l p r b x, check_elems check p l r = Ok b -> In x l -> exists r' b', check_elem check p r' x = Ok b'.
Proof.
  induction l as [|y l IH]; intros p r b x H HI; [contradiction|]. cbn [check_elems] in H. step H.
  destruct HI as [->|HI]; [eauto|eauto].
Qed.
Lemma elems_path check p l q d : at_path p l q d -> forall r b, check_elems check p l r = Ok b -> exists b', check q d = Ok b'.
Proof.
  induction 1 as [p l n d HI N1 N2|p l n k q d HI _ IH]; intros r b H; destruct (elems_each _ _ _ _ _ _ H HI) as (r' & b' & E).
  - cbn [check_elem] in E. destruct (same_bytes_spec n n_module); [contradiction|]. destruct (same_bytes_spec n n_text); [contradiction|]. cbn [orb] in E. eauto.
  - rewrite check_cat in E. eauto.
Qed.
Lemma value_step e k p v tw s c : ~ skipped p v -> content e tw v s c ->
  check_value e (S k) p v tw = (do l <- cat e c (match s with [] => template | _ => s end);
    match l with [] => check_bytes (match s with [] => template | _ => s end) | _ => check_elems (fun q d => check_value e k q d false) p l true end).
Proof.
  intros N C. apply content_unpacked in C. unfold skipped in N. cbn [check_value].
  destruct (same_bytes_spec p users_usr); [intuition congruence|]. destruct v as [|x v]; [intuition congruence|]. rewrite C. reflexivity.
Qed.
Lemma filled (s : list Z) : s <> [] -> match s with [] => template | _ => s end = s.
Proof. destruct s; [congruence|reflexivity]. Qed.
Lemma value_passes e p v tw s : inside e p v tw s -> forall k b, check_value e k p v tw = Ok b -> exists t, text_of s t /\ readable t.
Proof.
  induction 1 as [p v tw s c N C F K|p v tw s c l q d r N C F K L A I IH]; intros [|k] b H; try discriminate;
  rewrite (value_step _ _ _ _ _ _ _ N C), (filled _ F), K in H; cbn [rbind] in H.
  - now apply bytes_passes in H.
  - destruct l as [|x l]; [congruence|]. destruct (elems_path _ _ _ _ _ A _ _ H) as (b' & E). exact (IH _ _ E).
Qed.
Lemma bad_fails check l : has_bad l -> forall p r b, check_elems check p l r <> Ok b.
Proof.
  induction 1 as [l n HI|l n k HI _ IH]; intros p r b H; destruct (elems_each _ _ _ _ _ _ H HI) as (r' & b' & E); [discriminate|].
  rewrite check_cat in E. exact (IH _ _ _ E).
Qed.
Lemma value_opened e p v tw : unopened e p v tw -> forall k b, check_value e k p v tw <> Ok b.
Proof.
  induction 1 as [p v tw s c N C F K|p v tw s c l N C F K B|p v tw s c l q d N C F K A _ IH]; intros [|k] b H; try discriminate;
  rewrite (value_step _ _ _ _ _ _ _ N C), (filled _ F) in H.
  - destruct (cat e c s) as [l| | |]; try discriminate. now contradiction (K l).
  - rewrite K in H. cbn [rbind] in H. destruct l as [|x l]; [inversion B; contradiction|]. exact (bad_fails _ _ B _ _ _ H).
  - rewrite K in H. cbn [rbind] in H. destruct l as [|x l]; [inversion A; contradiction|]. destruct (elems_path _ _ _ _ _ A _ _ H) as (b' & E). exact (IH _ _ E).
Qed.
Lemma rows_each f : forall l r b x, check_rows f l r = Ok b -> In x l -> exists b', f x = Ok b'.
Proof.
  induction l as [|y l IH]; intros r b x H HI; [contradiction|]. cbn [check_rows] in H. step H. destruct HI as [->|HI]; eauto.
Qed.
Lemma row_passes e k t r b : check_row e k t r = Ok b -> r_removed r = false ->
  exists v, r_value r = Ok v /\ (forall n, size_right (r_size r) n -> n = zlen v) /\ ~ unopened e (t ++ 47 :: r_name r) v (72 <? zlen (r_name r)) /\
    forall s, inside e (t ++ 47 :: r_name r) v (72 <? zlen (r_name r)) s -> exists x, text_of s x /\ readable x.
Proof.
  unfold check_row. intros H R. rewrite R in H. step H. step H. exists x. split; [reflexivity|]. destruct (Z.eqb_spec x0 (zlen x)) as [Q|Q]; [|discriminate]. split.
  - intros n N. apply stoi_int in N. congruence.
  - split; [intros U; exact (value_opened _ _ _ _ U _ _ H)|]. intros s HI. exact (value_passes _ _ _ _ _ HI _ _ H).
Qed.
Lemma schema_passes e k t r b : check_schema e k t r = Ok b -> r_removed r = false ->
  exists v, r_value r = Ok v /\ ~ unopened e t v false /\ forall s, inside e t v false s -> exists x, text_of s x /\ readable x.
Proof.
  unfold check_schema. intros H R. rewrite R in H. step H. exists x. split; [reflexivity|]. split; [intros U; exact (value_opened _ _ _ _ U _ _ H)|]. intros s HI. exact (value_passes _ _ _ _ _ HI _ _ H).
Qed.
Lemma file_table_some o t : file_table o = Ok t -> o = Some t.
Proof. unfold file_table. destruct o as [x|]; [|discriminate]. destruct (_ || _); [discriminate|]. intros H. step H. congruence. Qed.
Lemma schema_table_some o t : schema_table o = Ok t -> o = Some t.
Proof. unfold schema_table. destruct o as [x|]; [|discriminate]. destruct (negb _); [discriminate|]. intros H. step H. congruence. Qed.
Lemma format_passes e k b r : test_format e k b = Ok r ->
  (forall t x, looked_at b t -> In x (tt_rows t) -> r_removed x = false -> exists v, r_value x = Ok v /\ (forall n, size_right (r_size x) n -> n = zlen v) /\
     ~ unopened e (tt_name t ++ 47 :: r_name x) v (72 <? zlen (r_name x)) /\
     forall s, inside e (tt_name t ++ 47 :: r_name x) v (72 <? zlen (r_name x)) s -> exists u, text_of s u /\ readable u) /\
  (forall t x, tb_schema b = Some t -> In x (tt_rows t) -> r_removed x = false -> exists v, r_value x = Ok v /\ ~ unopened e (tt_name t) v false /\
     forall s, inside e (tt_name t) v false s -> exists u, text_of s u /\ readable u).
Proof.
  unfold test_format. intros H. do 8 step H.
  apply file_table_some in E, E0, E1. apply schema_table_some in E3. destruct (zlen (tt_rows x3) <? 2); [discriminate|].
  split.
  - intros t y [L|[L|L]] HI R.
    + assert (t = x) by congruence. subst t. destruct (rows_each _ _ _ _ _ E4 HI) as (b' & Q). exact (row_passes _ _ _ _ _ Q R).
    + assert (t = x0) by congruence. subst t. destruct (rows_each _ _ _ _ _ E5 HI) as (b' & Q). exact (row_passes _ _ _ _ _ Q R).
    + assert (t = x1) by congruence. subst t. destruct (rows_each _ _ _ _ _ E6 HI) as (b' & Q). exact (row_passes _ _ _ _ _ Q R).
  - intros t y L HI R. assert (t = x3) by congruence. subst t. destruct (rows_each _ _ _ _ _ H HI) as (b' & Q). exact (schema_passes _ _ _ _ _ Q R).
Qed.
