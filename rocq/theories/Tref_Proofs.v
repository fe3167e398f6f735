(** Proofs for Tref_Props. *)
From Verif Require Import Prelude Text_Model Text_Spec Text_Proofs Descr_Model Descr_Spec Descr_Proofs Full_Spec Full_Proofs Tref_Model Tref_Spec.
Ltac Zify.zify_post_hook ::= idtac.

(** ** the file *)
Lemma decimal_stoi t n : decimal t n -> n <= 2147483647 -> stoi t = Ok n /\ 0 <= n.
Proof.
  intros (N & D & V) H. destruct (digits_of t D) as (ds & -> & F). assert (Q : n = digits_value ds).
  { rewrite <- V. unfold ten, digits_value. generalize 0. clear. induction ds as [|d ds IH]; intros a; [reflexivity|]. cbn [map fold_left]. rewrite IH. f_equal. lia. }
  pose proof (digits_value_nonneg ds F) as P. split; [|lia]. apply stoi_int. split; [change (2 ^ 31) with 2147483648; lia|]. exists ds. split; [intros ->; now apply N|]. split; [exact F|]. left. auto.
Qed.
Lemma split_at_tab a b : ~ In 9 a -> split_tab (a ++ [9] ++ b) = Some (a, b).
Proof.
  induction a as [|c a IH]; intros N; [reflexivity|]. cbn [app split_tab]. destruct (Z.eqb_spec c 9); [elim N; left; assumption|]. cbn [app] in IH. rewrite IH; [reflexivity|]. intros X. apply N. now right.
Qed.
Lemma says_split s m n : says s m n -> m < 2147483647 -> n < 2147483647 -> exists a b, split_tab s = Some (a, b) /\ stoi a = Ok m /\ stoi b = Ok n /\ 0 <= n.
Proof.
  intros (a & b & -> & A & B) Hm Hn. exists a, b. split; [apply split_at_tab|].
  - destruct A as (_ & D & _). intros X. rewrite Forall_forall in D. specialize (D 9 X). lia.
  - destruct (decimal_stoi a m A) as (Ea & _); [lia|]. destruct (decimal_stoi b n B) as (Eb & P); [lia|]. auto.
Qed.
Lemma says_fun s m n m' n' : says s m n -> says s m' n' -> m = m' /\ n = n'.
Proof.
  intros (a & b & -> & A & B) (a' & b' & E & A' & B').
  assert (Na : forall x y, decimal x y -> ~ In 9 x). { intros x y (_ & D & _) X. rewrite Forall_forall in D. specialize (D 9 X). lia. }
  pose proof (split_at_tab a b (Na a m A)) as S1. pose proof (split_at_tab a' b' (Na a' m' A')) as S2. rewrite E, S2 in S1. injection S1 as -> ->.
  destruct A as (_ & _ & <-), A' as (_ & _ & <-), B as (_ & _ & <-), B' as (_ & _ & <-). auto.
Qed.
Lemma max_number_ok ls : good_lines ls -> forall k, 0 <= k < 2147483647 -> exists m, max_number ls k = Ok m /\ k <= m < 2147483647 /\ forall s a n, In s ls -> says s a n -> n <= m.
Proof.
  induction 1 as [|s r (a & n & S1 & Ha & Hn) H IH]; intros k Hk; cbn [max_number]; [exists k; split; [reflexivity|]; split; [lia|intros s a n []]|].
  destruct (says_split s a n S1 Ha Hn) as (ta & tb & -> & _ & -> & P). cbn [rbind]. destruct (IH (if k <? n then n else k)) as (m & E & R & Q); [destruct (Z.ltb_spec k n); lia|].
  exists m. split; [exact E|]. assert (k <= m /\ n <= m) by (destruct (Z.ltb_spec k n); lia). split; [lia|]. intros s' a' n' [<- |Hin] S2; [|now apply (Q s' a' n')].
  destruct (says_fun _ _ _ _ _ S1 S2) as (_ & <-). lia.
Qed.
Lemma fill_ok ls : good_lines ls -> forall mp, (forall s a n, In s ls -> says s a n -> n < zlen mp) -> exists mp', fill ls mp = Ok mp' /\ length mp' = length mp.
Proof.
  induction 1 as [|s r (a & n & S1 & Ha & Hn) H IH]; intros mp L; cbn [fill]; [exists mp; auto|].
  destruct (says_split s a n S1 Ha Hn) as (ta & tb & -> & -> & -> & P). cbn [rbind]. pose proof (L s a n (or_introl eq_refl) S1) as Ln.
  destruct (Z.ltb_spec n 0); [lia|]. destruct (Z.leb_spec (zlen mp) n); [lia|]. cbn [orb].
  assert (Q : length (splice mp (Z.to_nat n) [a]) = length mp) by (unfold zlen in *; apply splice_length; cbn [length]; lia).
  destruct (IH (splice mp (Z.to_nat n) [a])) as (mp' & E & L'); [intros s' a' n' Hin S2; unfold zlen; rewrite Q; apply (L s' a' n'); [now right|exact S2]|].
  exists mp'. split; [exact E|congruence].
Qed.
Lemma map_ok ls : good_lines ls -> exists mp, number_map ls = Ok mp /\ forall s a n, In s ls -> says s a n -> n < zlen mp.
Proof.
  intros G. destruct (max_number_ok ls G 0 ltac:(lia)) as (m & E & R & Q). unfold number_map. rewrite E. cbn [rbind]. destruct (Z.eqb_spec m 2147483647); [lia|].
  destruct (fill_ok ls G (repeat 0 (Z.to_nat (m + 1)))) as (mp & -> & L).
  - intros s a o Hin S1. unfold zlen. rewrite repeat_length. specialize (Q s a o Hin S1). lia.
  - exists mp. split; [reflexivity|]. intros s a o Hin S1. unfold zlen. rewrite L, repeat_length. specialize (Q s a o Hin S1). lia.
Qed.

(** ** the fields *)
Lemma meant_ends f : Forall (fun c => 0 < c < 128) (rf_name f) -> exists b, ends_with_ic (rf_name f) [84; 82; 69; 70] = Ok b /\ (meant f <-> b = true /\ rf_four f = true).
Proof.
  intros H. exists (has_end [116; 114; 101; 102] (rf_name f)). split.
  - rewrite ends_ascii; [reflexivity|exact H| |discriminate]. constructor; [lia|]. constructor; [lia|]. constructor; [lia|]. constructor; [lia|constructor].
  - unfold has_end, meant. change small with low. cbn [length]. split.
    + intros (A & p & w & E & M). split; [|exact A]. assert (L : length w = 4%nat) by (rewrite <- (map_length low), M; reflexivity).
      rewrite E, app_length, L. replace (length p + 4 - 4)%nat with (length p) by lia. rewrite skipn_app, skipn_all, Nat.sub_diag. cbn [app skipn]. now destruct (list_eq_dec Z.eq_dec (map low w) [116; 114; 101; 102]).
    + intros (A & B). split; [exact B|]. destruct (list_eq_dec _ _ _) as [e|]; [|discriminate]. exists (firstn (length (rf_name f) - 4) (rf_name f)), (skipn (length (rf_name f) - 4) (rf_name f)).
      split; [symmetry; apply firstn_skipn|exact e].
Qed.
(** the end of a name whose other letters may be anything *)
Lemma meant_true f b : meant f -> ends_with_ic (rf_name f) [84; 82; 69; 70] = Ok b -> b = true.
Proof.
  intros (_ & p & w & E & M) H. assert (L : length w = 4%nat) by (rewrite <- (map_length small), M; reflexivity). change small with low in M.
  assert (Hw : Forall (fun c => 0 < c < 128) w).
  { assert (K : forall c d, low c = d -> 97 <= d <= 122 -> 0 < c < 128) by (intros c d X Y; unfold low in X; destruct ((65 <=? c) && (c <=? 90)) eqn:Q; lia).
    do 4 (destruct w as [|? w]; [discriminate|]). destruct w; [|discriminate]. cbn [map] in M. injection M as M1 M2 M3 M4.
    constructor; [apply (K _ _ M1); lia|]. constructor; [apply (K _ _ M2); lia|]. constructor; [apply (K _ _ M3); lia|]. constructor; [apply (K _ _ M4); lia|constructor]. }
  unfold ends_with_ic in H. rewrite E, app_length, L in H. cbn [length] in H. destruct (Nat.ltb_spec (length p + 4) 4); [lia|].
  replace (length p + 4 - 4)%nat with (length p) in H by lia. rewrite skipn_app, skipn_all, Nat.sub_diag in H. cbn [app skipn] in H.
  rewrite ascii_equal in H; [|exact Hw|constructor; [lia|]; constructor; [lia|]; constructor; [lia|]; constructor; [lia|constructor]].
  rewrite M in H. change (map low [84; 82; 69; 70]) with [116; 114; 101; 102] in H. destruct (list_eq_dec _ _ _) in H; [congruence|congruence].
Qed.
Lemma live_nth r : live r <-> (nth 0 r 1 =? 0) = true.
Proof. unfold live. destruct r as [|c r]; cbn [nth nth_error]; [split; discriminate|]. rewrite Z.eqb_eq. split; congruence. Qed.
Lemma first_live_some rs r : In r rs -> live r -> exists r', first_live rs = Some r' /\ In r' rs /\ live r'.
Proof.
  intros Hin L. unfold first_live. destruct (find _ rs) as [r'|] eqn:E.
  - apply find_some in E. destruct E as (E1 & E2). exists r'. rewrite live_nth. auto.
  - pose proof (find_none _ _ E r Hin) as Q. cbv beta in Q. apply live_nth in L. congruence.
Qed.
Lemma first_live_none rs : (forall r, In r rs -> ~ live r) -> first_live rs = None.
Proof.
  intros H. unfold first_live. destruct (find _ rs) as [r'|] eqn:E; [|reflexivity]. apply find_some in E. destruct E as (E1 & E2). apply live_nth in E2. elim (H r' E1 E2).
Qed.
Lemma rounds_not fuel mp f r u : rounds fuel mp f r <> Ok u.
Proof. induction fuel as [|k IH]; cbn [rounds]; [discriminate|]. cbv zeta. destruct (_ =? 0); [exact IH|]. destruct (nth_error _ _); [exact IH|discriminate]. Qed.
Lemma fields_not fuel mp rs f fs u : In f fs -> meant f -> (exists r, In r rs /\ live r) -> of_fields fuel mp rs fs <> Ok u.
Proof.
  intros Hin M (r & Hr & L). revert u. induction fs as [|g fs IH]; intros u; [destruct Hin|]. cbn [of_fields]. destruct Hin as [-> |Hin].
  - unfold of_field. destruct (ends_with_ic _ _) as [b| | |] eqn:E; try discriminate. cbn [rbind]. pose proof (meant_true f b M E). subst b. destruct M as (F4 & _). rewrite F4. cbn [negb].
    destruct (first_live_some rs r Hr L) as (r' & -> & _). destruct (rounds fuel mp f r') as [x| | |] eqn:R; try discriminate. elim (rounds_not _ _ _ _ _ R).
  - destruct (of_field fuel mp rs g); try discriminate. cbn [rbind]. now apply IH.
Qed.
Theorem endless fuel ls db db' : Exists concerned db -> replace_tref fuel ls db <> Ok db'.
Proof.
  intros H. unfold replace_tref. destruct (number_map ls) as [mp| | |]; try discriminate. cbn [rbind]. destruct (of_tables fuel mp db) as [u| | |] eqn:E; try discriminate. exfalso. revert u E.
  induction H as [t r ((f & Hf & M) & L)|t r H IH]; intros u; cbn [of_tables].
  - destruct (of_fields fuel mp (rt_recs t) (rt_fields t)) as [x| | |] eqn:E; try discriminate. elim (fields_not _ _ _ _ _ _ Hf M L E).
  - destruct (of_fields fuel mp (rt_recs t) (rt_fields t)); try discriminate. cbn [rbind]. apply IH.
Qed.

(** ** tables without such records *)
Lemma fields_quiet fuel mp t : plain_names t -> ~ concerned t -> of_fields fuel mp (rt_recs t) (rt_fields t) = Ok tt.
Proof.
  intros P N. assert (H : forall fs, (forall f, In f fs -> In f (rt_fields t)) -> Forall (fun f => Forall (fun c => 0 < c < 128) (rf_name f)) fs -> of_fields fuel mp (rt_recs t) fs = Ok tt).
  { induction fs as [|f fs IH]; intros S1 F; [reflexivity|]. inversion F as [|? ? F1 F2]; subst. cbn [of_fields]. unfold of_field. destruct (meant_ends f F1) as (b & -> & M). cbn [rbind].
    destruct b; cbn [negb rbind]; [|apply IH; [intros g Hg; apply S1; now right|exact F2]]. destruct (rf_four f) eqn:F4; cbn [negb rbind]; [|apply IH; [intros g Hg; apply S1; now right|exact F2]].
    rewrite first_live_none; [cbn [rbind]; apply IH; [intros g Hg; apply S1; now right|exact F2]|].
    intros r Hr L. apply N. split; [exists f; split; [apply S1; now left|apply M; auto]|exists r; auto]. }
  apply H; [auto|exact P].
Qed.
Theorem quiet fuel ls db : good_lines ls -> Forall plain_names db -> Forall (fun t => ~ concerned t) db -> replace_tref fuel ls db = Ok db.
Proof.
  intros G P N. destruct (map_ok ls G) as (mp & E & _). unfold replace_tref. rewrite E. cbn [rbind]. replace (of_tables fuel mp db) with (Ok tt : res unit); [reflexivity|]. symmetry.
  induction db as [|t db IH]; [reflexivity|]. inversion P as [|? ? P1 P2]; inversion N as [|? ? N1 N2]; subst. cbn [of_tables]. rewrite fields_quiet by assumption. cbn [rbind]. now apply IH.
Qed.
Lemma quiet_replaced ls db : Forall (fun t => ~ concerned t) db -> all_replaced ls db db.
Proof.
  intros N. unfold all_replaced. induction N as [|t db N1 N2 IH]; [constructor|]. constructor; [|exact IH]. split; [reflexivity|].
  assert (H : forall rs, (forall r, In r rs -> In r (rt_recs t)) -> Forall2 (replaced ls t) rs rs).
  { induction rs as [|r rs IHr]; intros S1; constructor; [|apply IHr; intros x Hx; apply S1; now right].
    split; [reflexivity|]. split; [|reflexivity]. intros L f old new Hf M _ _. elim N1. split; [exists f; auto|exists r; split; [apply S1; now left|exact L]]. }
  apply H. auto.
Qed.

(** ** it goes on for ever *)
Lemma number_has f r : Forall byte_ok r -> (rf_off f + (if rf_null f then 5 else 4) <= length r)%nat -> (number_of f r = 0 \/ has_number f r (number_of f r)) /\ 0 <= number_of f r.
Proof.
  intros B L. unfold number_of. destruct (rf_null f && (nth (rf_off f) r 0 =? 0)) eqn:E; [split; [now left|lia]|]. set (at_ := if rf_null f then S (rf_off f) else rf_off f).
  replace (rf_off f + (if rf_null f then 1 else 0))%nat with at_ by (unfold at_; destruct (rf_null f); lia).
  assert (Ls : length (sub r at_ 4) = 4%nat) by (apply sub_length; unfold at_; destruct (rf_null f); lia).
  assert (Bs : Forall byte_ok (sub r at_ 4)) by (unfold sub; apply Forall_firstn', Forall_skipn', B).
  destruct (sub r at_ 4) as [|a [|b [|c [|d [|e q]]]]] eqn:Es; try discriminate. cbn [rev app le_val].
  inversion Bs as [|? ? B1 Bs1]; subst. inversion Bs1 as [|? ? B2 Bs2]; subst. inversion Bs2 as [|? ? B3 Bs3]; subst. inversion Bs3 as [|? ? B4 _]; subst. unfold byte_ok in *. split; [right|lia].
  exists a, b, c, d. fold at_. split; [exact Es|]. split; [lia|]. intros Hn. rewrite Hn in E. cbn [andb] in E. apply Z.eqb_neq in E. intros X. apply E. now apply nth_error_nth.
Qed.
Lemma rounds_hang mp f r : (number_of f r = 0 \/ (Z.to_nat (number_of f r) < length mp)%nat) -> forall fuel, rounds fuel mp f r = Hang.
Proof.
  intros H. induction fuel as [|k IH]; cbn [rounds]; [reflexivity|]. cbv zeta. destruct (Z.eqb_spec (number_of f r) 0); [exact IH|]. destruct H as [H|H]; [contradiction|].
  destruct (nth_error mp (Z.to_nat (number_of f r))) eqn:E; [exact IH|]. apply nth_error_None in E. lia.
Qed.
Theorem hangs fuel ls db : good_lines ls -> Forall plain_names db -> Forall shaped db -> Forall (within ls) db -> Exists concerned db -> replace_tref fuel ls db = Hang.
Proof.
  intros G P Sh W H. destruct (map_ok ls G) as (mp & E & Q). unfold replace_tref. rewrite E. cbn [rbind].
  assert (A : forall t, plain_names t -> shaped t -> within ls t -> of_fields fuel mp (rt_recs t) (rt_fields t) = Ok tt \/ of_fields fuel mp (rt_recs t) (rt_fields t) = Hang).
  { intros t Pt St Wt. assert (K : forall fs, (forall f, In f fs -> In f (rt_fields t)) -> Forall (fun f => Forall (fun c => 0 < c < 128) (rf_name f)) fs -> of_fields fuel mp (rt_recs t) fs = Ok tt \/ of_fields fuel mp (rt_recs t) fs = Hang).
    { induction fs as [|f fs IH]; intros S1 F; [now left|]. inversion F as [|? ? F1 F2]; subst. cbn [of_fields]. specialize (IH (fun g Hg => S1 g (or_intror Hg)) F2).
      unfold of_field. destruct (meant_ends f F1) as (b & -> & M). cbn [rbind]. destruct b; cbn [negb rbind]; [|exact IH]. destruct (rf_four f) eqn:F4; cbn [negb rbind]; [|exact IH].
      destruct (first_live (rt_recs t)) as [r|] eqn:FL; cbn [rbind]; [|exact IH]. right. rewrite rounds_hang; [reflexivity|].
      unfold first_live in FL. apply find_some in FL. destruct FL as (Hr & Lr). apply live_nth in Lr. destruct (St f r (S1 f (or_introl eq_refl)) Hr) as (By & Le).
      destruct (number_has f r By Le) as ([Z0|Hn] & Pos); [now left|]. right.
      destruct (Wt f r _ (S1 f (or_introl eq_refl)) (proj2 M (conj eq_refl eq_refl)) Hr Lr Hn) as (s & m & o & Is & Ss & Lo). specialize (Q s m o Is Ss). unfold zlen in Q. lia. }
    apply K; [auto|exact Pt]. }
  assert (B : of_tables fuel mp db = Ok tt \/ of_tables fuel mp db = Hang).
  { clear H. induction db as [|t db IH]; [now left|]. inversion P; inversion Sh; inversion W; subst. cbn [of_tables]. destruct (A t) as [-> | ->]; try assumption; [|now right]. cbn [rbind]. apply IH; assumption. }
  destruct B as [B|B]; [|now rewrite B]. exfalso. apply (endless fuel ls db db H). unfold replace_tref. rewrite E. cbn [rbind]. now rewrite B.
Qed.

(** ** a number above all those of the file *)
Lemma max_number_top ls N : good_lines ls -> (forall s a n, In s ls -> says s a n -> n < N) -> forall k m, k < N -> max_number ls k = Ok m -> m < N.
Proof.
  intros G H. induction G as [|s r (a & n & S1 & Ha & Hn) G IH]; intros k m Hk; cbn [max_number]; [intros E; injection E as <-; exact Hk|].
  destruct (says_split s a n S1 Ha Hn) as (ta & tb & -> & _ & -> & P). cbn [rbind]. apply IH; [intros s' a' n' Hin; apply H; now right|].
  pose proof (H s a n (or_introl eq_refl) S1). destruct (Z.ltb_spec k n); assumption.
Qed.
Lemma map_top ls N : good_lines ls -> (forall s a n, In s ls -> says s a n -> n < N) -> 0 < N -> exists mp, number_map ls = Ok mp /\ zlen mp <= N.
Proof.
  intros G H HN. destruct (max_number_ok ls G 0 ltac:(lia)) as (m & E & R & Q). pose proof (max_number_top ls N G H 0 m HN E) as T. unfold number_map. rewrite E. cbn [rbind]. destruct (Z.eqb_spec m 2147483647); [lia|].
  destruct (fill_ok ls G (repeat 0 (Z.to_nat (m + 1)))) as (mp & -> & L).
  - intros s a o Hin S1. unfold zlen. rewrite repeat_length. specialize (Q s a o Hin S1). lia.
  - exists mp. split; [reflexivity|]. unfold zlen. rewrite L, repeat_length. lia.
Qed.
Lemma has_number_of f r n : has_number f r n -> number_of f r = n.
Proof.
  intros (a & b & c & d & E & -> & N). unfold number_of. replace (rf_off f + (if rf_null f then 1 else 0))%nat with (if rf_null f then S (rf_off f) else rf_off f) by (destruct (rf_null f); lia).
  rewrite E. cbn [rev app le_val]. destruct (rf_null f && (nth (rf_off f) r 0 =? 0)) eqn:Q; [|lia]. apply andb_prop in Q. destruct Q as (Q1 & Q2). specialize (N Q1). rewrite Q1 in E. apply Z.eqb_eq in Q2.
  exfalso. assert (Lr : (rf_off f < length r)%nat).
  { destruct (Nat.lt_ge_cases (rf_off f) (length r)) as [X|X]; [exact X|]. unfold sub in E. rewrite skipn_all2 in E by lia. discriminate. }
  apply N. rewrite <- Q2. now apply nth_error_nth'.
Qed.
Theorem outside fuel ls pre t post fs1 f fs2 dead r more n : good_lines ls -> Forall plain_names (pre ++ [t]) -> Forall (fun t => ~ concerned t) pre ->
  rt_fields t = fs1 ++ [f] ++ fs2 -> Forall (fun g => ~ meant g) fs1 -> meant f -> rt_recs t = dead ++ [r] ++ more -> Forall (fun x => ~ live x) dead -> live r ->
  has_number f r n -> 0 < n -> (forall s a o, In s ls -> says s a o -> o < n) -> replace_tref (S fuel) ls (pre ++ [t] ++ post) = UB.
Proof.
  intros G P N Ef F1 M Er D L Hn Pn H. destruct (map_top ls n G H Pn) as (mp & E & Lm). unfold replace_tref. rewrite E. cbn [rbind].
  apply Forall_app in P. destruct P as (P1 & P2). inversion P2 as [|? ? Pt _]; subst.
  replace (of_tables (S fuel) mp (pre ++ [t] ++ post)) with (UB : res unit); [reflexivity|]. symmetry.
  induction pre as [|x pre IH]; cbn [app of_tables].
  - replace (of_fields (S fuel) mp (rt_recs t) (rt_fields t)) with (UB : res unit); [reflexivity|]. symmetry. unfold plain_names in Pt. rewrite Ef in Pt |- *. rewrite Er. clear Ef Er P2.
    induction fs1 as [|g fs1 IHf]; cbn [app of_fields].
    + unfold of_field. cbn [app] in Pt. inversion Pt as [|? ? Pf _]; subst. destruct (meant_ends f Pf) as (b & -> & Mb). destruct (proj1 Mb M) as (-> & F4). cbn [rbind negb]. rewrite F4. cbn [negb].
      replace (first_live (dead ++ r :: more)) with (Some r).
      * cbn [rounds]. cbv zeta. rewrite (has_number_of f r n Hn). destruct (Z.eqb_spec n 0); [lia|]. unfold zlen in Lm.
        destruct (nth_error mp (Z.to_nat n)) eqn:Q; [|reflexivity]. assert (Z.to_nat n < length mp)%nat by (apply nth_error_Some; congruence). lia.
      * unfold first_live. clear - D L. induction dead as [|y dead IHd]; cbn [app find]; [apply live_nth in L; now rewrite L|]. inversion D as [|? ? D1 D2]; subst.
        destruct (nth 0 y 1 =? 0) eqn:Q; [apply live_nth in Q; contradiction|]. now apply IHd.
    + cbn [app] in Pt. inversion Pt as [|? ? Pg Pr]; subst. inversion F1 as [|? ? Ng Nr]; subst. unfold of_field at 1. destruct (meant_ends g Pg) as (b & -> & Mb). cbn [rbind].
      destruct b; cbn [negb rbind]; [destruct (rf_four g) eqn:F4; cbn [negb rbind]; [elim Ng; apply Mb; auto|]|]; apply (IHf Nr Pr).
  - inversion P1 as [|? ? Px P1']; subst. inversion N as [|? ? Nx N']; subst. rewrite fields_quiet by assumption. cbn [rbind]. now apply IH.
Qed.
