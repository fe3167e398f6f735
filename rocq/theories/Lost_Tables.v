(** Proofs for the list of tables: restoring lost tables and deleting a table. *)
From Verif Require Import Prelude Lists Obj_Model Obj_Spec Obj_Proofs Obj_Facts Cf_Proofs Descr_Model Descr_Spec Descr_Proofs Lost_Model Lost_Spec Lost_Proofs.
Ltac Zify.zify_post_hook ::= idtac.
Local Opaque le_bytes.

(** ** the objects that look like tables *)
Lemma like_cut x : table_like x -> (4 <= length x)%nat.
Proof. unfold table_like. intros H. assert (P : length (firstn 4 x) = 4%nat) by now rewrite H. rewrite firstn_length in P. lia. Qed.
Lemma looks ps st i junk : (exists len tabs dp, stored ps F80 st i len tabs dp) -> exists b,
  (do o <- obj_open (Z.of_nat ps) false st i;
   if 3 <? obj_len o then match get_range (Z.of_nat ps) st o 0 4 junk with Ok b => Ok (bytes_eqb b sig_table) | Throw => Ok false | UB => UB | Hang => Hang end else Ok false) = Ok b /\
  (b = true <-> exists len tabs dp, stored ps F80 st i len tabs dp /\ table_like (content st dp len)).
Proof.
  intros (len & tabs & dp & D). destruct (read_facts _ _ _ _ _ _ _ D) as (o & O & L & R & _). cbn [is838] in O. rewrite O. cbn [rbind]. rewrite L.
  assert (X : forall len' tabs' dp', stored ps F80 st i len' tabs' dp' -> table_like (content st dp' len') -> (4 <= len)%nat /\ get_range (Z.of_nat ps) st o 0 4 junk = Ok sig_table).
  { intros len' tabs' dp' D' T. destruct (read_facts _ _ _ _ _ _ _ D') as (o' & O' & L' & R' & _). cbn [is838] in O'. assert (o' = o) as -> by congruence. assert (len' = len) as -> by lia.
    pose proof (like_cut _ T) as C. unfold content in C. rewrite firstn_length in C. split; [lia|]. change 0 with (Z.of_nat 0). change 4 with (Z.of_nat 4). rewrite R' by lia. f_equal. exact T. }
  destruct (Z.ltb_spec 3 (Z.of_nat len)) as [H|H].
  - pose proof (R 0%nat 4%nat junk ltac:(lia) ltac:(lia)) as G. change (Z.of_nat 0) with 0 in G. change (Z.of_nat 4) with 4 in G. rewrite G. eexists. split; [reflexivity|]. rewrite beq_spec. split.
    + intros Q. exists len, tabs, dp. split; [exact D|exact Q].
    + intros (len' & tabs' & dp' & D' & T). destruct (X _ _ _ D' T) as [_ G']. rewrite G' in G. congruence.
  - exists false. split; [reflexivity|]. split; [discriminate|]. intros (len' & tabs' & dp' & D' & T). destruct (X _ _ _ D' T). lia.
Qed.
Lemma lost_tables_ok ps st known junk : pages st -> (forall i, unused st known i -> exists len tabs dp, stored ps F80 st i len tabs dp) ->
  forall n i, 0 < i -> i + Z.of_nat n = zlen st -> exists l, lost_tables junk (Z.of_nat ps) false st known n i = Ok l /\ ascending l /\
    (forall j, In j l <-> i <= j /\ unused st known j /\ exists len tabs dp, stored ps F80 st j len tabs dp /\ table_like (content st dp len)).
Proof.
  intros H Hs. induction n as [|n IH]; intros i Hi Hn.
  - exists []. split; [reflexivity|]. split; [exact Logic.I|]. intros j. split; [easy|]. intros (A & B & _). apply unused_range in B. lia.
  - cbn [lost_tables]. destruct (step_lost st known i H ltac:(lia)) as (b & S & B). rewrite S. cbn [rbind]. destruct (IH (i + 1) ltac:(lia) ltac:(lia)) as (l & E & As & M). rewrite E.
    destruct (b && negb (is_known known i)) eqn:Q.
    + pose proof (proj1 B eq_refl) as U. destruct (looks ps st i junk (Hs i U)) as (c & -> & C). cbn [rbind]. destruct c.
      * exists (i :: l). split; [reflexivity|]. split; [split; [|exact As]; apply Forall_forall; intros y Hy; apply M in Hy; lia|].
        intros j. cbn [In]. rewrite M. split; [intros [<- | (A & D)]; [split; [lia|]; split; [exact U|now apply C]|split; [lia|exact D]]|]. intros (A & D). destruct (Z.eq_dec i j); [now left|right; split; [lia|exact D]].
      * exists l. split; [reflexivity|]. split; [exact As|]. intros j. rewrite M. split; [intros [A D]; split; [lia|exact D]|]. intros [A D]. split; [|exact D]. destruct (Z.eq_dec i j) as [<-|]; [|lia]. destruct D as [_ D]. apply C in D. discriminate.
    + cbn [rbind]. exists l. split; [reflexivity|]. split; [exact As|]. intros j. rewrite M. split; [intros [A D]; split; [lia|exact D]|]. intros [A D]. split; [|exact D]. destruct (Z.eq_dec i j) as [<-|]; [|lia]. destruct D as [D _]. apply B in D. congruence.
Qed.

(** ** numbers in the middle of bytes *)
Lemma skip_twice (l : list Z) m : forall n, skipn m (skipn n l) = skipn (m + n) l.
Proof. intros n. revert l. induction n as [|n IH]; intros l; [now rewrite Nat.add_0_r|]. rewrite Nat.add_succ_r. destruct l; [now rewrite !skipn_nil|]. cbn [skipn]. apply IH. Qed.
Lemma rdn_mid (a x b : list Z) o n : o = zlen a -> n = zlen x -> rdn (a ++ x ++ b) o n = Ok x.
Proof.
  intros -> ->. rewrite rdn_ok; [|apply zlen_nonneg|apply zlen_nonneg|rewrite !zlen_app; pose proof (zlen_nonneg b); lia]. f_equal. unfold sub, zlen. rewrite !Nat2Z.id, skipn_app, skipn_all, Nat.sub_diag. cbn [app skipn].
  rewrite firstn_app, firstn_all, Nat.sub_diag. apply app_nil_r.
Qed.
Lemma wrn_mid (a x b y : list Z) o : o = zlen a -> zlen y = zlen x -> wrn (a ++ x ++ b) o y = Ok (a ++ y ++ b).
Proof.
  intros -> H. unfold wrn. pose proof (zlen_nonneg a). pose proof (zlen_nonneg b). destruct (Z.ltb_spec (zlen a) 0); [lia|]. rewrite !zlen_app. destruct (Z.ltb_spec (zlen a + (zlen x + zlen b)) (zlen a + zlen y)); [lia|]. cbn [orb].
  f_equal. unfold zlen in *. rewrite Nat2Z.id. apply splice_mid; [reflexivity|lia].
Qed.
Notation words l := (concat (map (le_bytes 4) l)).
Lemma words_app a b : words (a ++ b) = words a ++ words b.
Proof. now rewrite map_app, concat_app. Qed.
Lemma four v : zlen (le_bytes 4 v) = 4.
Proof. unfold zlen. now rewrite le_bytes_length. Qed.
Lemma word_val x : word x -> le_val (le_bytes 4 x) = x.
Proof. intros H. apply le_val_bytes_small. exact H. Qed.

Lemma put_ok h : forall l P done rest, zlen P = h + 4 -> 4 * zlen l <= zlen rest ->
  put_numbers (P ++ words done ++ rest) h (zlen done) l = Ok (P ++ words (done ++ l) ++ skipn (4 * length l) rest).
Proof.
  induction l as [|x l IH]; intros P done rest HP HR.
  - cbn [put_numbers length]. now rewrite app_nil_r.
  - cbn [put_numbers]. rewrite zlen_cons in HR. pose proof (zlen_nonneg l) as NL.
    assert (E : rest = firstn 4 rest ++ skipn 4 rest) by now rewrite firstn_skipn. assert (F : zlen (firstn 4 rest) = 4) by (unfold zlen in *; rewrite firstn_length; lia). rewrite E at 1.
    rewrite app_assoc. rewrite (wrn_mid (P ++ words done) (firstn 4 rest) (skipn 4 rest) (le_bytes 4 x)); [|rewrite zlen_app, zlen_words; lia|rewrite four; lia]. cbn [rbind].
    replace ((P ++ words done) ++ le_bytes 4 x ++ skipn 4 rest) with (P ++ words (done ++ [x]) ++ skipn 4 rest) by (rewrite words_app; cbn [map concat]; now rewrite app_nil_r, <- !app_assoc).
    replace (zlen done + 1) with (zlen (done ++ [x])) by (rewrite zlen_app; reflexivity). rewrite IH; [|exact HP|unfold zlen in *; rewrite skipn_length; lia]. rewrite <- app_assoc. cbn [app].
    rewrite skip_twice. do 4 f_equal. cbn [length]. lia.
Qed.

Definition hd_len (old : bool) : Z := if old then 8 else 32.
Lemma num_ok P num rest h : zlen P = h -> word num -> num_tables (P ++ le_bytes 4 num ++ rest) h = Ok (i32 num).
Proof. intros H W. unfold num_tables. rewrite rdn_mid; [|lia|now rewrite four]. cbn [rbind]. now rewrite word_val. Qed.
Lemma i32_small x : 0 <= x < 2 ^ 31 -> i32 x = x.
Proof. intros H. unfold i32. rewrite Z.mod_small; lia. Qed.

Lemma add_ok old lang pad blocks rest l junk : zlen lang + 1 + zlen pad = hd_len old -> zlen blocks + zlen l < 2 ^ 31 -> 4 * zlen l <= zlen junk ->
  exists rest', root_add (hd_len old) junk (root_data (hd_len old) lang pad (zlen blocks) blocks rest) l = Ok (root_data (hd_len old) lang pad (zlen (blocks ++ l)) (blocks ++ l) rest') /\ zlen rest' = zlen rest.
Proof.
  intros HL HN HJ. unfold root_data. set (P := lang ++ 0 :: pad). assert (HP : zlen P = hd_len old) by (unfold P; rewrite zlen_app, zlen_cons; lia).
  assert (R : forall n b r, lang ++ 0 :: pad ++ le_bytes 4 n ++ words b ++ r = P ++ le_bytes 4 n ++ words b ++ r) by (intros; unfold P; rewrite <- app_assoc; reflexivity). rewrite !R.
  set (tail := firstn (4 * length l) junk). assert (HT : zlen tail = 4 * zlen l) by (unfold tail, zlen in *; rewrite firstn_length; lia).
  pose proof (zlen_nonneg blocks) as NB. pose proof (zlen_nonneg l) as NL. pose proof (zlen_nonneg rest) as NR.
  unfold root_add. fold tail. rewrite <- !app_assoc. rewrite num_ok by (exact HP || unfold word; lia). cbn [rbind]. rewrite i32_small by lia.
  rewrite (app_assoc P). rewrite put_ok; [|rewrite zlen_app, four; lia|rewrite zlen_app; lia]. cbn [rbind]. rewrite <- (app_assoc P). rewrite num_ok by (exact HP || unfold word; lia). cbn [rbind]. rewrite i32_small by lia.
  rewrite wrn_mid; [|lia|now rewrite !four]. exists (skipn (4 * length l) (rest ++ tail)). split; [|unfold zlen in *; rewrite skipn_length, app_length; lia].
  rewrite R. do 4 f_equal. rewrite zlen_app. unfold u32. now rewrite Z.mod_small by lia.
Qed.
Lemma restored (old : bool) ps st known junk lang pad blocks rest : pages st -> 0 < zlen st -> (forall i, unused st known i -> exists len tabs dp, stored ps F80 st i len tabs dp) ->
  Forall (fun c => c <> 0) lang -> zlen lang + 1 + zlen pad = (if old then 8 else 32) -> Forall (fun b => 0 <= b < 2 ^ 32) blocks -> zlen blocks + zlen st < 2 ^ 31 -> 4 * zlen st <= zlen junk ->
  exists l root', ascending l /\ (forall j, In j l <-> unused st known j /\ exists len tabs dp, stored ps F80 st j len tabs dp /\ table_like (content st dp len)) /\
    create_lost_tables old junk (Z.of_nat ps) false st known (root_data (if old then 8 else 32) lang pad (zlen blocks) blocks rest) = Ok root' /\ root_tables old root' = Ok (lang, blocks ++ l).
Proof.
  intros Hp Hn Hs HL HP HB HN HJ. unfold create_lost_tables. destruct (lost_tables_ok ps st known junk Hp Hs (length st - 1)%nat 1 ltac:(lia) (first_page st Hn)) as (l & E & As & M). rewrite E. cbn [rbind].
  assert (M' : forall j, In j l <-> unused st known j /\ exists len tabs dp, stored ps F80 st j len tabs dp /\ table_like (content st dp len)).
  { intros j. rewrite M. split; [easy|]. intros U. split; [destruct U as [[U _] _]; lia|exact U]. }
  assert (Ln : zlen l <= zlen st).
  { assert (ND : NoDup l). { clear - As. induction l as [|x l IH]; [constructor|]. destruct As as [A1 A2]. constructor; [|now apply IH]. intros C. rewrite Forall_forall in A1. apply A1 in C. lia. }
    assert (I : incl l (map Z.of_nat (seq 0 (length st)))). { intros j Hj. apply M' in Hj. destruct Hj as [U _]. apply unused_range in U. apply in_map_iff. exists (Z.to_nat j). split; [lia|]. apply in_seq. unfold zlen in U. lia. }
    apply NoDup_incl_length in I; [|exact ND]. rewrite map_length, seq_length in I. unfold zlen. lia. }
  assert (WL : Forall (fun b => 0 <= b < 2 ^ 32) l). { apply Forall_forall. intros j Hj. apply M' in Hj. destruct Hj as [U _]. apply unused_range in U. pose proof (zlen_nonneg blocks). lia. }
  exists l. assert (K : l = [] \/ exists y r, l = y :: r) by (destruct l as [|y r]; [now left|right; now exists y, r]). destruct K as [El | (y & r & El)].
  - subst l. eexists. split; [exact As|]. split; [exact M'|]. split; [reflexivity|]. rewrite app_nil_r. apply root_ok; try assumption. pose proof (zlen_nonneg st). lia.
  - destruct (add_ok old lang pad blocks rest l junk HP ltac:(lia) ltac:(lia)) as (rest' & A & _). exists (root_data (hd_len old) lang pad (zlen (blocks ++ l)) (blocks ++ l) rest').
    split; [exact As|]. split; [exact M'|]. split; [rewrite El in A |- *; exact A|]. apply root_ok; try assumption; [rewrite zlen_app; lia|apply Forall_app; split; assumption].
Qed.
Lemma new_none junk ps st known n : pages st -> forall i, 0 < i -> i + Z.of_nat n = zlen st -> forall l, lost_tables junk ps true st known n i = Ok l -> l = [].
Proof.
  intros Hp. induction n as [|n IH]; intros i Hi Hn l E; cbn [lost_tables] in E; [congruence|]. destruct (step_lost st known i Hp ltac:(lia)) as (b & S & B). rewrite S in E. cbn [rbind] in E.
  destruct (b && negb (is_known known i)) eqn:Q.
  - rewrite (new_throws _ _ _ _ Hp (proj1 B eq_refl)) in E. discriminate E.
  - cbn [rbind] in E. destruct (lost_tables _ _ _ _ _ _ _) as [r| | |] eqn:R; try discriminate E. cbn [rbind] in E. assert (r = l) as -> by congruence. apply (IH (i + 1) ltac:(lia) ltac:(lia) _ R).
Qed.
Lemma new_unrestored old junk ps st known root root' : pages st -> 0 < zlen st -> create_lost_tables old junk ps true st known root = Ok root' -> root' = root.
Proof.
  intros Hp Hn E. unfold create_lost_tables in E. destruct (lost_tables _ _ _ _ _ _ _) as [l| | |] eqn:L; try discriminate E. cbn [rbind] in E.
  rewrite (new_none _ _ _ _ _ Hp 1 ltac:(lia) (first_page st Hn) _ L) in E. congruence.
Qed.

(** ** deleting *)
Lemma find_number_ok h : forall a P done x b rest, zlen P = h + 4 -> Forall word a -> word x -> ~ In x a ->
  find_number (length a + S (length b)) (P ++ words done ++ words (a ++ x :: b) ++ rest) h (zlen done) x = Ok (zlen done + zlen a).
Proof.
  induction a as [|y a IH]; intros P done x b rest HP Wa Wx N.
  - cbn [length Nat.add find_number app map concat]. rewrite (app_assoc P). rewrite <- (app_assoc (le_bytes 4 x)). rewrite rdn_mid; [|rewrite zlen_app, zlen_words; lia|now rewrite four]. cbn [rbind]. rewrite word_val, Z.eqb_refl by exact Wx. f_equal. change (zlen (@nil Z)) with 0. lia.
  - inversion Wa; subst. cbn [length Nat.add find_number app map concat]. rewrite (app_assoc P). rewrite <- (app_assoc (le_bytes 4 y)). rewrite rdn_mid; [|rewrite zlen_app, zlen_words; lia|now rewrite four]. cbn [rbind]. rewrite word_val by assumption.
    destruct (Z.eqb_spec y x); [subst; exfalso; apply N; now left|].
    replace ((P ++ words done) ++ le_bytes 4 y ++ words (a ++ x :: b) ++ rest) with (P ++ words (done ++ [y]) ++ words (a ++ x :: b) ++ rest) by (rewrite words_app; cbn [map concat]; now rewrite app_nil_r, <- !app_assoc).
    replace (zlen done + 1) with (zlen (done ++ [y])) by (rewrite zlen_app; reflexivity). rewrite IH; try assumption; [|intros C; apply N; now right]. f_equal. rewrite zlen_app, (zlen_cons y a). change (zlen [y]) with 1. lia.
Qed.
Lemma shift_ok h : forall b P c x rest, zlen P = h + 4 -> exists y,
  shift_numbers (length b) (P ++ words c ++ words (x :: b) ++ rest) h (zlen c) = Ok (P ++ words (c ++ b) ++ le_bytes 4 y ++ rest).
Proof.
  induction b as [|z b IH]; intros P c x rest HP.
  - exists x. cbn [length shift_numbers map concat]. now rewrite !app_nil_r.
  - cbn [length shift_numbers map concat].
    replace (P ++ words c ++ (le_bytes 4 x ++ le_bytes 4 z ++ words b) ++ rest) with ((P ++ words c ++ le_bytes 4 x) ++ le_bytes 4 z ++ (words b ++ rest)) by now rewrite <- !app_assoc.
    rewrite rdn_mid; [|rewrite !zlen_app, zlen_words, four; lia|now rewrite four]. cbn [rbind].
    replace ((P ++ words c ++ le_bytes 4 x) ++ le_bytes 4 z ++ words b ++ rest) with ((P ++ words c) ++ le_bytes 4 x ++ (le_bytes 4 z ++ words b ++ rest)) by now rewrite <- !app_assoc.
    rewrite wrn_mid; [|rewrite zlen_app, zlen_words; lia|now rewrite !four]. cbn [rbind].
    replace ((P ++ words c) ++ le_bytes 4 z ++ le_bytes 4 z ++ words b ++ rest) with (P ++ words (c ++ [z]) ++ words (z :: b) ++ rest) by (rewrite words_app; cbn [map concat]; now rewrite app_nil_r, <- !app_assoc).
    replace (zlen c + 1) with (zlen (c ++ [z])) by (rewrite zlen_app; reflexivity). destruct (IH P (c ++ [z]) z rest HP) as (y & ->). exists y. now rewrite <- (app_assoc c).
Qed.
Lemma del_ok (old : bool) lang pad a x b rest : zlen lang + 1 + zlen pad = hd_len old -> Forall word a -> word x -> ~ In x a -> zlen (a ++ x :: b) < 2 ^ 31 ->
  exists rest', root_del (hd_len old) (root_data (hd_len old) lang pad (zlen (a ++ x :: b)) (a ++ x :: b) rest) x = Ok (root_data (hd_len old) lang pad (zlen (a ++ b)) (a ++ b) rest') /\ zlen rest' = zlen rest.
Proof.
  intros HL Wa Wx N HN. unfold root_data. set (P := lang ++ 0 :: pad). assert (HP : zlen P = hd_len old) by (unfold P; rewrite zlen_app, zlen_cons; lia).
  assert (R : forall n w r, lang ++ 0 :: pad ++ le_bytes 4 n ++ words w ++ r = P ++ le_bytes 4 n ++ words w ++ r) by (intros; unfold P; rewrite <- app_assoc; reflexivity). rewrite !R.
  set (k := zlen (a ++ x :: b)) in *. assert (Hk : k = zlen a + 1 + zlen b) by (unfold k; rewrite zlen_app, zlen_cons; lia). pose proof (zlen_nonneg a) as NA. pose proof (zlen_nonneg b) as NB.
  unfold root_del. rewrite num_ok by (exact HP || unfold word; lia). cbn [rbind]. rewrite i32_small by lia. replace (Z.to_nat k) with (length a + S (length b))%nat by (unfold zlen in Hk; lia).
  pose proof (find_number_ok (hd_len old) a (P ++ le_bytes 4 k) [] x b rest ltac:(rewrite zlen_app, four; lia) Wa Wx N) as F. cbn [map concat app] in F. change (zlen (@nil Z)) with 0 in F. rewrite <- (app_assoc P) in F. rewrite F. cbn [rbind].
  rewrite wrn_mid; [|lia|now rewrite !four]. cbn [rbind]. replace (Z.to_nat (k - 1 - (0 + zlen a))) with (length b) by (unfold zlen in *; lia).
  replace (P ++ le_bytes 4 (u32 (k - 1)) ++ words (a ++ x :: b) ++ rest) with ((P ++ le_bytes 4 (u32 (k - 1))) ++ words a ++ words (x :: b) ++ rest) by (rewrite words_app; now rewrite <- !app_assoc).
  destruct (shift_ok (hd_len old) b (P ++ le_bytes 4 (u32 (k - 1))) a x rest ltac:(rewrite zlen_app, four; lia)) as (y & E). rewrite Z.add_0_l, E. cbn [rbind].
  exists (firstn (length rest) (le_bytes 4 y ++ rest)). split.
  - rewrite R. f_equal. set (Q := P ++ le_bytes 4 (u32 (k - 1))).
    assert (L : (length (Q ++ words (a ++ b) ++ le_bytes 4 y ++ rest) - 4 = length (Q ++ words (a ++ b)) + length rest)%nat) by (rewrite !app_length, le_bytes_length; lia). rewrite L.
    rewrite (app_assoc Q), firstn_app_2. unfold Q. rewrite <- !app_assoc. do 3 f_equal. unfold u32. rewrite Z.mod_small by lia. rewrite zlen_app. lia.
  - unfold zlen. rewrite firstn_length, app_length, le_bytes_length. lia.
Qed.
Lemma drop_ok x : forall a b, ~ In x a -> drop_from x (a ++ x :: b) = a ++ b.
Proof.
  intros a b N. unfold drop_from. assert (I : index_of x (a ++ x :: b) = length a).
  { induction a as [|y a IH]; cbn [app index_of]; [now rewrite Z.eqb_refl|]. destruct (Z.eqb_spec y x); [subst; exfalso; apply N; now left|]. rewrite IH; [reflexivity|]. intros C. apply N. now right. }
  rewrite I. assert (F : firstn (length a) (a ++ x :: b) = a) by (rewrite firstn_app, firstn_all, Nat.sub_diag; apply app_nil_r). rewrite F.
  assert (K : skipn (S (length a)) (a ++ x :: b) = b). { rewrite skipn_app, skipn_all2 by lia. replace (S (length a) - length a)%nat with 1%nat by lia. reflexivity. }
  rewrite K. apply firstn_all2. rewrite !app_length. cbn [length]. lia.
Qed.
Lemma deleted (old : bool) lang pad a x b rest ta tb : Forall (fun c => c <> 0) lang -> zlen lang + 1 + zlen pad = (if old then 8 else 32) ->
  Forall (fun b => 0 <= b < 2 ^ 32) (a ++ x :: b) -> zlen (a ++ x :: b) < 2 ^ 31 -> ~ In x a -> ~ In x ta ->
  exists root', delete_table old false (ta ++ x :: tb) (root_data (if old then 8 else 32) lang pad (zlen (a ++ x :: b)) (a ++ x :: b) rest) x = Ok (ta ++ tb, root') /\
    root_tables old root' = Ok (lang, a ++ b) /\ zlen root' = zlen (root_data (if old then 8 else 32) lang pad (zlen (a ++ x :: b)) (a ++ x :: b) rest) - 4.
Proof.
  intros HL HP W HN N NT. apply Forall_app in W. destruct W as [Wa W]. inversion W as [|? ? Wx Wb]; subst. destruct (del_ok old lang pad a x b rest HP Wa Wx N HN) as (rest' & E & Lr).
  eexists. split; [|split].
  - unfold delete_table, descr_page. unfold hd_len in E. rewrite E. cbn [rbind]. rewrite (drop_ok x ta tb NT). reflexivity.
  - apply root_ok; try assumption; [rewrite zlen_app in *; rewrite zlen_cons in HN; lia|apply Forall_app; split; assumption].
  - unfold root_data. rewrite !zlen_app, !zlen_cons, !zlen_app, !zlen_words, !four, !zlen_app, !zlen_cons, Lr. lia.
Qed.
