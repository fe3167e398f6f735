(** Proofs about saved configurations and lists of hashes. *)
From Verif Require Import Prelude Lists Codec_Model Codec_Spec Codec_Proofs Text_Model Tree_Model Cfg_Model Cfg_Spec Cfg_Proofs Cfg_Updates Cfg_Saved.
Ltac Zify.zify_post_hook ::= idtac.

Lemma mget_in {A : Type} k (v : A) m : NoDup (map fst m) -> In (k, v) m <-> mget k m = Some v.
Proof.
  induction m as [|[a b] m IH]; intros ND; cbn [mget map fst In] in *; [split; [intros []|discriminate]|]. inversion ND as [|x y N1 N2]. subst. destruct (eq_list k a) eqn:E.
  - apply eq_list_spec in E. subst a. split; [intros [H|H]; [congruence|]|intros H; left; congruence]. exfalso. apply N1. apply (in_map fst) in H. exact H.
  - rewrite <- IH by exact N2. split; [intros [H|H]; [|exact H]|auto]. injection H as -> ->. rewrite eq_list_refl in E. discriminate.
Qed.
(** ** Saved configurations *)
Section Save.
Variables (lower : list Z -> list Z).
Definition used1 (k : list Z) (f : tfile) : bool := negb (eq_list k (lower [100;101;108;101;116;101;100])) && negb (first_len f =? 0).
Definition used2 (del : list (list Z)) (k : list Z) (f : tfile) : bool := negb (eq_list k (lower s_DynamicallyUpdated)) && negb (first_len f =? 0) && negb (existsb (eq_list (lower (t_name f))) del).
Local Notation keyed := (keyed lower).
Lemma keyed_cons k f m : keyed ((k, f) :: m) -> k = lower (t_name f) /\ mget k m = None /\ keyed m.
Proof.
  intros [H1 H2]. cbn [map fst] in H1. inversion H1 as [|x y N1 N2]. subst. split; [apply H2; left; reflexivity|]. split; [|split; [exact N2|intros k0 f0 I; apply H2; right; exact I]].
  destruct (mget k m) as [v|] eqn:E; [|reflexivity]. apply mget_in in E; [|exact N2]. exfalso. apply N1. apply (in_map fst) in E. exact E.
Qed.
Lemma save_first_ok top files : forall m, keyed files -> (forall k f, mget k files = Some f -> mget k m = None) -> exists m', save_first lower top files m = Ok m' /\
  forall k, mget k m' = match mget k files with Some f => if used1 k f then Some (CF f (t_name f) top) else mget k m | None => mget k m end.
Proof.
  induction files as [|[k f] files IH]; intros m HK HN; cbn [save_first]; [exists m; split; [reflexivity|intros k; reflexivity]|]. destruct (keyed_cons _ _ _ HK) as (E & NK & HK').
  assert (HN' : forall k0 f0, mget k0 files = Some f0 -> mget k0 m = None).
  { intros k0 f0 H. apply (HN k0 f0). cbn [mget]. rewrite eq_list_neq; [exact H|]. intros ->. congruence. }
  assert (SK : used1 k f = false -> exists m', save_first lower top files m = Ok m' /\ forall k0, mget k0 m' = match mget k0 ((k, f) :: files) with Some f0 => if used1 k0 f0 then Some (CF f0 (t_name f0) top) else mget k0 m | None => mget k0 m end).
  { intros HU. destruct (IH m HK' HN') as (m' & E1 & E2). exists m'. split; [exact E1|]. intros k0. rewrite E2. cbn [mget]. destruct (eq_list k0 k) eqn:EK; [|reflexivity]. apply eq_list_spec in EK. subst k0. rewrite NK, HU. reflexivity. }
  assert (UU : used1 k f = negb (eq_list k (lower [100;101;108;101;116;101;100])) && negb (first_len f =? 0)) by reflexivity.
  destruct (eq_list k (lower [100;101;108;101;116;101;100])); [apply SK; exact UU|]. destruct (first_len f =? 0); [apply SK; exact UU|]. cbn [negb andb] in UU. clear SK.
  assert (GK : mget k m = None) by (apply (HN k f); cbn [mget]; rewrite eq_list_refl; reflexivity). rewrite <- E, GK.
  destruct (IH (mput k (CF f (t_name f) top) m) HK') as (m' & E1 & E2).
  { intros k0 f0 H. rewrite mget_put_other by congruence. exact (HN' k0 f0 H). }
  exists m'. split; [exact E1|]. intros k0. rewrite E2. cbn [mget]. destruct (eq_list k0 k) eqn:EK.
  - apply eq_list_spec in EK. subst k0. rewrite NK, UU, mget_put_same. reflexivity.
  - rewrite mget_put_other by (intros ->; rewrite eq_list_refl in EK; discriminate). reflexivity.
Qed.
Lemma rank_save_plain dynup g n : ~ In 46 n -> ~ has s_dynupdate n -> lower [] <> lower s_new -> rank_save lower dynup g n = Ok (n, -1, g).
Proof.
  intros H1 H2 H3. unfold rank_save. rewrite rfind_char_none by exact H1. cbn [rbind]. rewrite eq_list_neq by exact H3.
  destruct (sfind n s_dynupdate) as [i|] eqn:E; [exfalso; apply H2; apply sfind_has; eexists; exact E|]. reflexivity.
Qed.
Lemma save_second_ok dynup del g files : lower [] <> lower s_new -> forall m, keyed files -> (forall k f, In (k, f) files -> used2 del k f = true -> ~ In 46 (t_name f) /\ ~ has s_dynupdate (t_name f)) ->
  (forall k c, mget k m = Some c -> -1 <= c_dyn c) -> exists m', save_second lower dynup del g files m = Ok m' /\
  forall k, mget k m' = match mget k m with Some c => Some c | None => match mget k files with Some f => if used2 del k f then Some (CF f (t_name f) (-1)) else None | None => None end end.
Proof.
  intros HL. induction files as [|[k f] files IH]; intros m HK HP HD; cbn [save_second]; [exists m; split; [reflexivity|intros k; destruct (mget k m); reflexivity]|]. destruct (keyed_cons _ _ _ HK) as (E & NK & HK').
  assert (HP' : forall k0 f0, In (k0, f0) files -> used2 del k0 f0 = true -> ~ In 46 (t_name f0) /\ ~ has s_dynupdate (t_name f0)) by (intros k0 f0 I; apply HP; right; exact I).
  assert (SK : used2 del k f = false -> exists m', save_second lower dynup del g files m = Ok m' /\ forall k0, mget k0 m' = match mget k0 m with Some c => Some c | None => match mget k0 ((k, f) :: files) with Some f0 => if used2 del k0 f0 then Some (CF f0 (t_name f0) (-1)) else None | None => None end end).
  { intros HU. destruct (IH m HK' HP' HD) as (m' & E1 & E2). exists m'. split; [exact E1|]. intros k0. rewrite E2. destruct (mget k0 m); [reflexivity|]. cbn [mget]. destruct (eq_list k0 k) eqn:EK; [|reflexivity]. apply eq_list_spec in EK. subst k0. rewrite NK, HU. reflexivity. }
  assert (UU : used2 del k f = negb (eq_list k (lower s_DynamicallyUpdated)) && negb (first_len f =? 0) && negb (existsb (eq_list (lower (t_name f))) del)) by reflexivity.
  destruct (eq_list k (lower s_DynamicallyUpdated)); [apply SK; exact UU|]. destruct (first_len f =? 0); [apply SK; exact UU|]. destruct (existsb (eq_list (lower (t_name f))) del); [apply SK; exact UU|]. cbn [negb andb] in UU. clear SK.
  destruct (HP k f (or_introl eq_refl) UU) as [P1 P2]. rewrite rank_save_plain by assumption. cbn [rbind]. unfold offer. rewrite <- E.
  destruct (mget k m) as [c|] eqn:EC.
  - specialize (HD k c EC) as HC. destruct (Z.ltb_spec (c_dyn c) (-1)); [lia|]. destruct (IH m HK' HP' HD) as (m' & E1 & E2). exists m'. split; [exact E1|]. intros k0. rewrite E2. destruct (mget k0 m) eqn:EM; [reflexivity|]. cbn [mget]. rewrite eq_list_neq by (intros ->; congruence). reflexivity.
  - destruct (IH (mput k (CF f (t_name f) (-1)) m) HK' HP') as (m' & E1 & E2).
    { intros k0 c H. destruct (str_dec k0 k) as [->|N]; [rewrite mget_put_same in H; injection H as <-; cbn; lia|rewrite mget_put_other in H by exact N; exact (HD _ _ H)]. }
    exists m'. split; [exact E1|]. intros k0. rewrite E2. cbn [mget]. destruct (str_dec k0 k) as [->|N].
    + rewrite mget_put_same, EC, eq_list_refl, UU. reflexivity.
    + rewrite mget_put_other by exact N. rewrite (eq_list_neq k0 k) by exact N. reflexivity.
Qed.
End Save.
Lemma zlen_ge0 {A} (l : list A) : 0 <= zlen l.
Proof. unfold zlen. lia. Qed.
Lemma save_ok lower dynup del config saved : lower [] <> lower s_new -> keyed lower config -> keyed lower saved ->
  (forall k f, In (k, f) config -> k <> lower s_DynamicallyUpdated -> first_len f <> 0 -> ~ In k del -> ~ In 46 (t_name f) /\ ~ has s_dynupdate (t_name f)) ->
  exists m, save_files lower dynup del config saved = Ok m /\ forall b,
    (forall f, In (lower b, f) saved -> lower b <> lower [100;101;108;101;116;101;100] -> first_len f <> 0 -> option_map c_file (mget (lower b) m) = Some f) /\
    ((forall f, In (lower b, f) saved -> lower b = lower [100;101;108;101;116;101;100] \/ first_len f = 0) ->
       (forall f, In (lower b, f) config -> lower b <> lower s_DynamicallyUpdated -> first_len f <> 0 -> ~ In (lower b) del -> option_map c_file (mget (lower b) m) = Some f) /\
       ((forall f, In (lower b, f) config -> lower b = lower s_DynamicallyUpdated \/ first_len f = 0 \/ In (lower b) del) -> mget (lower b) m = None)).
Proof.
  intros HL HC HS HP. unfold save_files. destruct (save_first_ok lower (zlen dynup + 2) saved [] HS) as (m1 & E1 & H1); [intros k f _; reflexivity|]. rewrite E1. cbn [rbind].
  assert (U2 : forall k f, In (k, f) config -> used2 lower del k f = true <-> k <> lower s_DynamicallyUpdated /\ first_len f <> 0 /\ ~ In k del).
  { intros k f I. unfold used2. rewrite !andb_true_iff, !negb_true_iff, Z.eqb_neq. assert (EK : k = lower (t_name f)) by (apply HC; exact I). rewrite <- EK. split.
    - intros [[A B] C]. repeat split; [intros ->; rewrite eq_list_refl in A; discriminate|exact B|]. intros ID. assert (X : existsb (eq_list k) del = true) by (apply existsb_exists; exists k; split; [exact ID|apply eq_list_refl]). congruence.
    - intros (A & B & C). repeat split; [apply eq_list_neq; exact A|exact B|]. destruct (existsb (eq_list k) del) eqn:X; [|reflexivity]. apply existsb_exists in X. destruct X as (y & Y1 & Y2). apply eq_list_spec in Y2. subst y. contradiction. }
  assert (U1 : forall k f, used1 lower k f = true <-> k <> lower [100;101;108;101;116;101;100] /\ first_len f <> 0).
  { intros k f. unfold used1. rewrite andb_true_iff, !negb_true_iff, Z.eqb_neq. split; intros [A B]; split; try exact B; [intros ->; rewrite eq_list_refl in A; discriminate|apply eq_list_neq; exact A]. }
  destruct (save_second_ok lower dynup del (repeat 0 16) config HL m1 HC) as (m2 & E2 & H2).
  { intros k f I U. apply U2 in U; [|exact I]. apply (HP k f I); tauto. }
  { intros k c H. rewrite H1 in H. cbn [mget] in H. destruct (mget k saved) as [f|]; [|discriminate]. destruct (used1 lower k f); [|discriminate]. injection H as <-. cbn [c_dyn]. pose proof (zlen_ge0 dynup). lia. }
  exists m2. split; [exact E2|]. intros b. rewrite H2, H1. cbn [mget]. destruct HS as [HS1 HS2]. destruct HC as [HC1 HC2]. split.
  - intros f I A B. apply mget_in in I; [|exact HS1]. rewrite I. assert (U : used1 lower (lower b) f = true) by (apply U1; auto). rewrite U. reflexivity.
  - intros NS. assert (M1 : match mget (lower b) saved with Some f => if used1 lower (lower b) f then Some (CF f (t_name f) (zlen dynup + 2)) else None | None => None end = None).
    { destruct (mget (lower b) saved) as [f|] eqn:E; [|reflexivity]. apply mget_in in E; [|exact HS1]. destruct (used1 lower (lower b) f) eqn:U; [|reflexivity]. apply U1 in U. specialize (NS f E). tauto. }
    rewrite M1. split.
    + intros f I A B C. assert (U : used2 lower del (lower b) f = true) by (apply U2; auto). apply mget_in in I; [|exact HC1]. rewrite I, U. reflexivity.
    + intros NC. destruct (mget (lower b) config) as [f|] eqn:E; [|reflexivity]. apply mget_in in E; [|exact HC1]. destruct (used2 lower del (lower b) f) eqn:U; [|reflexivity]. apply U2 in U; [|exact E]. specialize (NC f E). tauto.
Qed.
(** a name with a dot is kept under another name *)
Lemma rank_save_dot lower dynup g a e : a <> [] -> e <> [] -> ~ In 46 e -> ~ has s_dynupdate a -> lower e <> lower s_new -> zlen (a ++ 46 :: e) < 2 ^ 63 ->
  rank_save lower dynup g (a ++ 46 :: e) = Ok (removelast a ++ 46 :: e, -1, g).
Proof.
  intros NA NE ND NM NN LZ. unfold rank_save. rewrite rfind_char_at by exact ND. rewrite zlen_app, zlen_cons in *. pose proof (zlen_ge0 a). pose proof (zlen_ge0 e). unfold substr. rewrite zlen_app, zlen_cons. assert (LA : 1 <= zlen a) by (destruct a; [congruence|]; rewrite zlen_cons; pose proof (zlen_ge0 a); lia).
  change (Z.of_nat (length a)) with (zlen a). destruct (Z.ltb_spec (zlen a + (1 + zlen e)) 0); [lia|]. cbn [rbind]. destruct (Z.ltb_spec (zlen a + (1 + zlen e)) (zlen a + 1)); [lia|]. cbn [rbind].
  unfold u64. rewrite !Z.mod_small by lia. change (Z.to_nat 0) with 0%nat. rewrite skipn_O.
  assert (EA : firstn (Z.to_nat (zlen a - 1)) (a ++ 46 :: e) = removelast a).
  { rewrite removelast_firstn_len. unfold zlen. rewrite firstn_app. replace (Z.to_nat (Z.of_nat (length a) - 1) - length a)%nat with 0%nat by lia. rewrite firstn_O, app_nil_r. f_equal. lia. }
  assert (EE : firstn (Z.to_nat (zlen a + (1 + zlen e) - zlen a)) (skipn (Z.to_nat (zlen a + 1)) (a ++ 46 :: e)) = e).
  { replace (Z.to_nat (zlen a + 1)) with (S (length a)) by (unfold zlen; lia). rewrite skipn_len_cons. apply firstn_all2. unfold zlen. lia. }
  rewrite EA, EE, eq_list_neq by exact NN. destruct (sfind (removelast a) s_dynupdate) as [i|] eqn:ES.
  - exfalso. apply NM. destruct (proj1 (sfind_has s_dynupdate (removelast a))) as (u & v & E); [eexists; exact ES|]. exists u, (v ++ [last a 0]). rewrite (app_removelast_last 0 NA) at 1. rewrite E, <- !app_assoc. reflexivity.
  - cbn [rbind]. destruct e; [congruence|reflexivity].
Qed.
Lemma save_dot_lost lower dynup a e ad tm k : a <> [] -> e <> [] -> ~ In 46 e -> ~ has s_dynupdate a -> lower e <> lower s_new -> zlen (a ++ 46 :: e) < 2 ^ 63 -> k <> lower s_DynamicallyUpdated -> lower (removelast a ++ 46 :: e) <> lower (a ++ 46 :: e) ->
  let f := TF (a ++ 46 :: e) ad tm in first_len f <> 0 -> exists m, save_files lower dynup [] [(k, f)] [] = Ok m /\ mget (lower (a ++ 46 :: e)) m = None /\ option_map c_file (mget (lower (removelast a ++ 46 :: e)) m) = Some f.
Proof.
  intros H1 H2 H3 H4 H5 H6 H7 H8 f H9. unfold save_files. cbn [save_first rbind save_second]. rewrite eq_list_neq by exact H7. apply Z.eqb_neq in H9. rewrite H9. cbn [existsb t_name f]. rewrite rank_save_dot by assumption. cbn [rbind].
  eexists. split; [reflexivity|]. unfold offer. cbn [mget mput]. rewrite eq_list_neq by congruence. rewrite eq_list_refl. split; reflexivity.
Qed.

(** a new version of a file takes the place of the file with a shorter name *)
Lemma rank_save_new lower dynup g a e : a <> [] -> ~ In 46 e -> ~ has s_dynupdate a -> lower e = lower s_new -> zlen (a ++ 46 :: e) < 2 ^ 63 ->
  rank_save lower dynup g (a ++ 46 :: e) = Ok (removelast a, zlen dynup + 1, g).
Proof.
  intros NA ND NM NN LZ. unfold rank_save. rewrite rfind_char_at by exact ND. rewrite zlen_app, zlen_cons in *. pose proof (zlen_ge0 a). pose proof (zlen_ge0 e). unfold substr. rewrite zlen_app, zlen_cons. assert (LA : 1 <= zlen a) by (destruct a; [congruence|]; rewrite zlen_cons; pose proof (zlen_ge0 a); lia).
  change (Z.of_nat (length a)) with (zlen a). destruct (Z.ltb_spec (zlen a + (1 + zlen e)) 0); [lia|]. cbn [rbind]. destruct (Z.ltb_spec (zlen a + (1 + zlen e)) (zlen a + 1)); [lia|]. cbn [rbind].
  unfold u64. rewrite !Z.mod_small by lia. change (Z.to_nat 0) with 0%nat. rewrite skipn_O.
  assert (EA : firstn (Z.to_nat (zlen a - 1)) (a ++ 46 :: e) = removelast a).
  { rewrite removelast_firstn_len. unfold zlen. rewrite firstn_app. replace (Z.to_nat (Z.of_nat (length a) - 1) - length a)%nat with 0%nat by lia. rewrite firstn_O, app_nil_r. f_equal. lia. }
  assert (EE : firstn (Z.to_nat (zlen a + (1 + zlen e) - zlen a)) (skipn (Z.to_nat (zlen a + 1)) (a ++ 46 :: e)) = e).
  { replace (Z.to_nat (zlen a + 1)) with (S (length a)) by (unfold zlen; lia). rewrite skipn_len_cons. apply firstn_all2. unfold zlen. lia. }
  rewrite EA, EE, NN, eq_list_refl. destruct (sfind (removelast a) s_dynupdate) as [i|] eqn:ES; [|reflexivity].
  exfalso. apply NM. destruct (proj1 (sfind_has s_dynupdate (removelast a))) as (u & v & E); [eexists; exact ES|]. exists u, (v ++ [last a 0]). rewrite (app_removelast_last 0 NA) at 1. rewrite E, <- !app_assoc. reflexivity.
Qed.
Lemma has_prefix pat a b : has pat a -> has pat (a ++ b).
Proof. intros (u & v & ->). exists u, (v ++ b). rewrite <- !app_assoc. reflexivity. Qed.
Lemma save_new lower dynup n c a1 a2 tm1 tm2 k1 k2 l : ~ In 46 n -> ~ has s_dynupdate (n ++ [c]) -> lower [] <> lower s_new -> zlen n < 2 ^ 62 -> k1 <> lower s_DynamicallyUpdated -> k2 <> lower s_DynamicallyUpdated ->
  let f := TF n a1 tm1 in let v := TF (n ++ c :: 46 :: s_new) a2 tm2 in first_len f <> 0 -> first_len v <> 0 -> l = [(k1, f); (k2, v)] \/ l = [(k2, v); (k1, f)] ->
  exists m, save_files lower dynup [] l [] = Ok m /\ option_map c_file (mget (lower n) m) = Some v.
Proof.
  intros H1 H2 H3 H4 H5 H6 f v H7 H8 HL. assert (NA : n ++ [c] <> []) by (intros E; apply (f_equal (@length Z)) in E; rewrite app_length in E; cbn in E; lia).
  assert (EV : t_name v = (n ++ [c]) ++ 46 :: s_new) by (unfold v; cbn [t_name]; rewrite <- app_assoc; reflexivity).
  assert (R1 : forall g, rank_save lower dynup g (t_name f) = Ok (n, -1, g)) by (intros g; apply rank_save_plain; [exact H1| |exact H3]; intros E; apply H2; apply has_prefix; exact E).
  assert (R2 : forall g, rank_save lower dynup g (t_name v) = Ok (n, zlen dynup + 1, g)).
  { intros g. rewrite EV, rank_save_new; [rewrite removelast_last; reflexivity|exact NA| |exact H2|reflexivity|].
    - unfold s_new. cbn [In]. intuition discriminate.
    - rewrite !zlen_app, !zlen_cons. change (zlen (@nil Z)) with 0. change (zlen s_new) with 3. lia. }
  pose proof (zlen_ge0 dynup). apply Z.eqb_neq in H7, H8. unfold save_files. cbn [save_first rbind]. destruct HL as [-> | ->]; cbn [save_second]; rewrite ?H7, ?H8, !eq_list_neq by assumption; cbn [existsb].
  - rewrite R1. cbn [rbind]. rewrite R2. cbn [rbind]. eexists. split; [reflexivity|]. unfold offer. cbn [mget mput]. rewrite eq_list_refl. cbn [c_dyn]. destruct (Z.ltb_spec (-1) (zlen dynup + 1)); [|lia]. cbn [mput mget]. repeat (rewrite ?eq_list_refl; cbn [mget mput]). reflexivity.
  - rewrite R2. cbn [rbind]. rewrite R1. cbn [rbind]. eexists. split; [reflexivity|]. unfold offer. cbn [mget mput]. rewrite eq_list_refl. cbn [c_dyn]. destruct (Z.ltb_spec (zlen dynup + 1) (-1)); [lia|]. cbn [mget]. rewrite eq_list_refl. reflexivity.
Qed.

(** ** Lists of hashes *)
Lemma cas_ok lower tab nl line l : Forall is_noise nl -> forall hash m rest, Forall (fun p => bytes_ok (snd p) /\ length hash = length (snd p) /\ exists f, get_file lower tab (hexstring (snd p)) = Some f) l \/ (hash = [] /\ exists n, Forall (fun p => bytes_ok (snd p) /\ length (snd p) = n /\ exists f, get_file lower tab (hexstring (snd p)) = Some f) l) ->
  exists m', cas_loop (length l) lower tab hash (hash_items nl line l ++ rest) m = Ok m' /\
  (forall i n h, nth_error l i = Some (n, h) -> (forall j n2 h2, nth_error l j = Some (n2, h2) -> lower n2 = lower n -> (j <= i)%nat) -> mget (lower n) m' = get_file lower tab (hexstring h)) /\
  (forall k, (forall n h, In (n, h) l -> lower n <> k) -> mget k m' = mget k m).
Proof.
  intros HNL. induction l as [|[n h] l IH]; intros hash m rest HF; cbn [cas_loop length]; [exists m; split; [reflexivity|]; split; [intros i n h H; destruct i; discriminate|intros; reflexivity]|].
  change (hash_items nl line ((n, h) :: l) ++ rest) with (Node n nd_string [] :: Node (base64_encode nl line h) nd_binary2 [] :: (hash_items nl line l ++ rest)).
  assert (HB : bytes_ok h /\ (exists f, get_file lower tab (hexstring h) = Some f) /\ h ++ skipn (length h) hash = h /\ Forall (fun p => bytes_ok (snd p) /\ length h = length (snd p) /\ exists f, get_file lower tab (hexstring (snd p)) = Some f) l).
  { destruct HF as [HF|(-> & k & HF)]; inversion HF as [|x y (B1 & B2 & B3) F]; subst; cbn [snd] in *; (split; [exact B1|]; split; [exact B3|]; split).
    - rewrite skipn_all2 by lia. apply app_nil_r.
    - eapply Forall_impl; [|exact F]. intros p (P1 & P2 & P3). split; [exact P1|]; split; [lia|exact P3].
    - rewrite skipn_nil. apply app_nil_r.
    - eapply Forall_impl; [|exact F]. intros p (P1 & P2 & P3). split; [exact P1|]; split; [lia|exact P3]. }
  destruct HB as (B1 & (f & B2) & B3 & B4). rewrite b64_roundtrip by assumption. rewrite B3, B2. destruct (IH h (mput (lower n) f m) rest (or_introl B4)) as (m' & E1 & E2 & E3). exists m'. split; [exact E1|]. split.
  - intros [|i] n0 h0 HI HU; cbn [nth_error] in HI.
    + injection HI as <- <-. rewrite E3; [rewrite mget_put_same; symmetry; exact B2|]. intros n2 h2 I2 E. apply In_nth_error in I2. destruct I2 as (j & J). specialize (HU (S j) n2 h2 J E). lia.
    + apply (E2 i); [exact HI|]. intros j n2 h2 J E. specialize (HU (S j) n2 h2 J E). lia.
  - intros k HK. rewrite E3 by (intros n2 h2 I2; apply (HK n2 h2); right; exact I2). apply mget_put_other. intros ->. apply (HK n h); [left; reflexivity|reflexivity].
Qed.
(** a hash shorter than the one before is read with the end of that one *)
Lemma cas_shorter lower tab nl line n1 h1 n2 h2 f1 rest : Forall is_noise nl -> bytes_ok h1 -> bytes_ok h2 -> (length h2 < length h1)%nat -> get_file lower tab (hexstring h1) = Some f1 -> get_file lower tab (hexstring (h2 ++ skipn (length h2) h1)) = None ->
  cas_loop 2 lower tab [] (hash_items nl line [(n1, h1); (n2, h2)] ++ rest) [] = Throw.
Proof.
  intros HN B1 B2 L G1 G2. cbn [hash_items flat_map app cas_loop]. rewrite !b64_roundtrip by assumption. rewrite skipn_nil, app_nil_r, G1, G2. reflexivity.
Qed.

(** ** The files of a user *)
Lemma cas_user_none lower uid files : (forall k f, In (k, f) files -> lower (firstn (length uid) k) <> lower uid) -> forall m, cas_user lower uid files m = Ok m.
Proof. induction files as [|[k f] files IH]; intros H m; [reflexivity|]. cbn [cas_user]. rewrite eq_list_neq by (apply (H k f); left; reflexivity). apply IH. intros k0 f0 I. apply (H k0 f0). right. exact I. Qed.
Lemma cas_info_none lower uid files : (forall k f, In (k, f) files -> lower (firstn (length uid) k) <> lower uid) -> cas_info lower uid files = Ok None.
Proof. intros H. unfold cas_info. rewrite cas_user_none by exact H. reflexivity. Qed.
Lemma cas_info_lost lower uid k ad tm : lower (firstn (length uid) k) = lower uid -> zlen uid < 2 ^ 32 -> lower (removelast s_configinfo) <> lower s_configinfo -> cas_info lower uid [(k, TF (uid ++ s_configinfo) ad tm)] = Throw.
Proof.
  intros H1 H2 H3. unfold cas_info. cbn [cas_user]. rewrite H1, eq_list_refl. cbn [t_name]. unfold substr. rewrite zlen_app. change (zlen s_configinfo) with 10. pose proof (zlen_ge0 uid). destruct (Z.ltb_spec (zlen uid + 10) (zlen uid)); [lia|]. cbn [rbind].
  replace (zlen uid + 10 - zlen uid - 1) with 9 by lia. change (Z.to_nat (u64 9)) with 9%nat. replace (Z.to_nat (zlen uid)) with (length uid) by (unfold zlen; lia). rewrite skipn_app, Nat.sub_diag, skipn_all2, skipn_O by lia. cbn [app].
  change (firstn 9 s_configinfo) with (removelast s_configinfo). cbn [mput rbind find c_name]. rewrite eq_list_neq by exact H3. reflexivity.
Qed.

(** ** The list of updates *)
Lemma take_ok gs : forall ts rest, Forall is_guid gs -> Forall2 (fun g t => guid_as_1C g = Ok t) gs ts -> forall kids, take_guids (length gs) (map (fun t => Node t nd_guid kids) ts ++ rest) = Ok gs.
Proof.
  induction gs as [|g gs IH]; intros ts rest HG HT kids; inversion HT as [|x y u v E F]; subst; [reflexivity|]. inversion HG as [|x z G1 G2]; subst. cbn [length take_guids map app].
  destruct (guid_1C_roundtrip g G1) as (t & T1 & _ & T3). rewrite E in T1. injection T1 as <-. rewrite T3. cbn [rbind]. rewrite IH by assumption. reflexivity.
Qed.
Lemma take_short n : forall l, (length l < n)%nat -> (forall v ty kids, In (Node v ty kids) l -> zlen v = 36) -> take_guids n l = UB.
Proof.
  induction n as [|n IH]; intros l L H; [lia|]. cbn [take_guids]. destruct l as [|[v ty kids] l]; [reflexivity|]. assert (E : exists g, guid_of_text v = Ok g).
  { unfold guid_of_text. rewrite (H v ty kids) by (left; reflexivity). cbn. eexists. reflexivity. }
  destruct E as (g & ->). cbn [rbind]. rewrite IH; [reflexivity|cbn [length] in L; lia|]. intros v0 ty0 k0 I. apply (H v0 ty0 k0). right. exact I.
Qed.
Lemma dynup_ok gs ts rest v w ty0 ty1 x0 kids tail n : Forall is_guid gs -> Forall2 (fun g t => guid_as_1C g = Ok t) gs ts -> to_int_def n 0 = Ok (zlen gs) ->
  dynup_of (Node v ty0 (Node w ty1 (x0 :: Node n nd_number [] :: map (fun t => Node t nd_guid kids) ts ++ rest) :: tail)) = Ok gs.
Proof. intros HG HT HN. cbn [dynup_of]. rewrite HN. cbn [rbind]. pose proof (zlen_ge0 gs). destruct (Z.ltb_spec (zlen gs) 0); [lia|]. unfold zlen. rewrite Nat2Z.id. apply take_ok; assumption. Qed.
Lemma dynup_short l v w ty0 ty1 x0 tail n k : (forall v ty kids, In (Node v ty kids) l -> zlen v = 36) -> to_int_def n 0 = Ok k -> zlen l < k ->
  dynup_of (Node v ty0 (Node w ty1 (x0 :: Node n nd_number [] :: l) :: tail)) = UB.
Proof. intros HL HN LK. cbn [dynup_of]. rewrite HN. cbn [rbind]. pose proof (zlen_ge0 l). destruct (Z.ltb_spec k 0); [lia|]. apply take_short; [unfold zlen in LK; lia|exact HL]. Qed.
