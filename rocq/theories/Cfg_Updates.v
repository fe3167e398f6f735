(** Proofs about opened files, updates and saved configurations. *)
From Verif Require Import Prelude Lists Codec_Model Codec_Spec Codec_Proofs Text_Model Tree_Model Cfg_Model Cfg_Spec Cfg_Proofs.
Ltac Zify.zify_post_hook ::= idtac.

(** ** Opening, reading raw, closing *)
Lemma c_run_ok packed raw inflate part d ops : (packed = true -> inflate raw = Some d) -> forall s,
  (c_stream s = None \/ c_stream s = Some (if packed then d else raw)) -> (c_raw s = None \/ c_raw s = Some raw) -> c_run packed raw inflate part s ops = map (contents packed raw d) ops.
Proof.
  intros HI. induction ops as [|o ops IH]; intros s HS HR; [reflexivity|]. cbn [c_run map]. destruct o; cbn [c_step contents].
  - unfold c_open. destruct HS as [HS|HS]; rewrite HS.
    + destruct packed.
      * rewrite HI in * by reflexivity. destruct HR as [HR|HR]; rewrite HR; [|rewrite HI by reflexivity]; (f_equal; apply IH; cbn [c_stream c_raw]; auto).
      * destruct HR as [HR|HR]; rewrite HR; (f_equal; apply IH; cbn [c_stream c_raw]; auto).
    + f_equal. apply IH; auto.
  - unfold c_ropen. destruct HR as [HR|HR]; rewrite HR.
    + destruct HS as [HS|HS]; rewrite HS; [f_equal; apply IH; cbn [c_stream c_raw]; auto|]. destruct packed; f_equal; apply IH; cbn [c_stream c_raw]; auto.
    + f_equal. apply IH; auto.
  - f_equal. apply IH; cbn [c_stream c_raw]; auto.
Qed.
Lemma c_run_broken raw inflate part ops : inflate raw = None -> forall (tried : bool) s, c_stream s = (if tried then Some part else None) -> (c_raw s = None \/ c_raw s = Some raw) ->
  c_run true raw inflate part s ops = failing raw part tried ops.
Proof.
  intros HI. induction ops as [|o ops IH]; intros tried s HS HR; [reflexivity|]. cbn [c_run failing]. destruct o; cbn [c_step].
  - unfold c_open. rewrite HS. destruct tried.
    + f_equal. apply IH; assumption.
    + destruct HR as [HR|HR]; rewrite HR, HI; f_equal; apply IH; cbn [c_stream c_raw]; auto.
  - unfold c_ropen. destruct HR as [HR|HR]; rewrite HR; [|f_equal; apply IH; auto].
    rewrite HS. destruct tried; f_equal; apply IH; cbn [c_stream c_raw]; auto.
  - f_equal. apply IH; cbn [c_stream c_raw]; auto.
Qed.

(** ** Which names are compressed *)
Lemma sfind_has pat s : (exists i, sfind s pat = Some i) <-> has pat s.
Proof.
  induction s as [|x s IH].
  - cbn [sfind]. rewrite firstn_nil. destruct (eq_list [] pat) eqn:E; split.
    + intros _. apply eq_list_spec in E. subst. exists [], []. reflexivity.
    + intros _. eexists. reflexivity.
    + intros (i & H). discriminate.
    + intros (a & b & H). exfalso. symmetry in H. apply app_eq_nil in H. destruct H as [_ H]. apply app_eq_nil in H. destruct H as [-> _]. rewrite eq_list_refl in E. discriminate.
  - cbn [sfind]. destruct (eq_list (firstn (length pat) (x :: s)) pat) eqn:E; split.
    + intros _. apply eq_list_spec in E. exists [], (skipn (length pat) (x :: s)). cbn [app]. rewrite <- E at 1. symmetry. apply firstn_skipn.
    + intros _. eexists. reflexivity.
    + intros (i & H). destruct (sfind s pat) as [j|]; [|discriminate]. destruct (proj1 IH) as (a & b & ->); [eexists; reflexivity|]. exists (x :: a), b. reflexivity.
    + intros ([|y a] & b & H).
      * exfalso. cbn [app] in H. rewrite H in E. rewrite firstn_app, Nat.sub_diag, firstn_O, app_nil_r, firstn_all, eq_list_refl in E. discriminate.
      * injection H as -> ->. destruct (proj2 IH) as (i & ->); [exists a, b; reflexivity|]. eexists. reflexivity.
Qed.
Lemma rfind_char_spec c s : match rfind_char c s with None => ~ In c s | Some i => exists a b, s = a ++ c :: b /\ length a = i /\ ~ In c b end.
Proof.
  induction s as [|x s IH]; cbn [rfind_char]; [intros []|]. destruct (rfind_char c s) as [i|].
  - destruct IH as (a & b & -> & E & N). exists (x :: a), b. cbn [length app]. auto.
  - destruct (Z.eqb_spec x c) as [->|NE]; [exists [], s; auto|]. intros [H|H]; auto.
Qed.
Lemma rfind_char_at c a b : ~ In c b -> rfind_char c (a ++ c :: b) = Some (length a).
Proof.
  intros N. induction a as [|x a IH]; cbn [app rfind_char length].
  - pose proof (rfind_char_spec c b) as H. destruct (rfind_char c b) as [i|]; [destruct H as (u & v & -> & _); exfalso; apply N; apply in_or_app; right; left; reflexivity|]. rewrite Z.eqb_refl. reflexivity.
  - rewrite IH. reflexivity.
Qed.
Lemma rfind_char_none c s : ~ In c s -> rfind_char c s = None.
Proof. intros N. pose proof (rfind_char_spec c s) as H. destruct (rfind_char c s); [|reflexivity]. destruct H as (a & b & -> & _). exfalso. apply N. apply in_or_app. right. left. reflexivity. Qed.
Lemma skipn_len_cons {A} (a b : list A) c : skipn (S (length a)) (a ++ c :: b) = b.
Proof. induction a as [|x a IH]; [reflexivity|exact IH]. Qed.
Lemma firstn_len_app {A} (a b : list A) : firstn (length a) (a ++ b) = a.
Proof. rewrite firstn_app, Nat.sub_diag, firstn_O, app_nil_r. apply firstn_all. Qed.
Lemma packed_ok lower name : name <> [] -> exists b, is_packed lower name = Ok b /\ (b = false <-> not_compressed lower name).
Proof.
  intros N. unfold is_packed, not_compressed. cbv zeta.
  assert (SE : forall a, eq_list (lower name) (lower a) = true <-> lower name = lower a) by (intros a; apply eq_list_spec).
  match goal with |- context [if ?b then Ok false else _] => destruct b eqn:E4 end.
  { exists false. split; [reflexivity|]. split; [intros _|reflexivity]. left. rewrite !orb_true_iff, !SE in E4. cbn [In]. destruct E4 as [[[E|E]|E]|E]; [exists s_DynamicallyUpdated|exists s_SprScndInfo|exists s_DBNamesVersion|exists s_siVersions]; tauto. }
  rewrite !orb_false_iff in E4. assert (N4 : ~ exists a, In a [s_DynamicallyUpdated; s_SprScndInfo; s_DBNamesVersion; s_siVersions] /\ lower name = lower a).
  { intros (a & I & E). apply SE in E. destruct E4 as [[[F1 F2] F3] F4]. cbn [In] in I. destruct I as [<-|[<-|[<-|[<-|[]]]]]; congruence. }
  destruct name as [|c t]; [congruence|]. cbn [hd]. destruct (Z.eqb_spec c 123) as [->|NC]; [exists false; split; [reflexivity|]; split; [intros _; right; left; exists t; reflexivity|reflexivity]|].
  destruct (sfind (lower (c :: t)) s_fo_version) as [i|] eqn:EF.
  { exists false. split; [reflexivity|]. split; [intros _|reflexivity]. right. right. left. apply sfind_has. eexists. exact EF. }
  assert (NF : ~ has s_fo_version (lower (c :: t))) by (intros H; apply sfind_has in H; destruct H; congruence).
  pose proof (rfind_char_spec 46 (c :: t)) as HR. destruct (rfind_char 46 (c :: t)) as [i|] eqn:ER.
  - destruct HR as (a & b & EA & LI & NB). eexists. split; [reflexivity|]. rewrite negb_false_iff, orb_true_iff, !eq_list_spec. subst i. rewrite EA, skipn_len_cons. split.
    + intros [E|E]; right; right; right; exists b; (split; [exists a; split; [reflexivity|exact NB]|auto]).
    + intros [H|[(u & H)|[H|(e & (a' & EE & NE) & H)]]].
      * exfalso. apply N4. rewrite EA. exact H.
      * exfalso. rewrite <- EA in H. injection H as H _. congruence.
      * exfalso. apply NF. rewrite EA. exact H.
      * assert (b = e); [|subst; exact H]. assert (Q : rfind_char 46 (a ++ 46 :: b) = rfind_char 46 (a' ++ 46 :: e)) by (rewrite EE; reflexivity). rewrite !rfind_char_at in Q by assumption. injection Q as Q.
        apply (f_equal (skipn (S (length a)))) in EE. rewrite skipn_len_cons in EE. rewrite Q, skipn_len_cons in EE. exact EE.
  - exists true. split; [reflexivity|]. split; [discriminate|]. intros [H|[(u & H)|[H|(e & (a' & EE & NE) & H)]]]; exfalso; [exact (N4 H)|congruence|exact (NF H)|]. apply HR. rewrite EE. apply in_or_app. right. left. reflexivity.
Qed.

(** ** The best file of a name *)
Section Best.
Variables (lower : list Z -> list Z) (dynup : list (list Z)).
Definition cand (files : smap tfile) (k : list Z) (f : tfile) (r : Z) : Prop :=
  exists key name, In (key, f) files /\ key <> lower s_DynamicallyUpdated /\ first_len f <> 0 /\ rank_file lower dynup (t_name f) = Ok (name, r) /\ lower name = k.
Definition best (P : list Z -> tfile -> Z -> Prop) (m : smap cfile) : Prop :=
  forall k, match mget k m with None => forall f r, ~ P k f r | Some c => P k (c_file c) (c_dyn c) /\ forall f r, P k f r -> r <= c_dyn c end.
Lemma best_offer (P Q : list Z -> tfile -> Z -> Prop) m f name r : best P m -> (forall k g x, Q k g x <-> P k g x \/ (k = lower name /\ g = f /\ x = r)) -> best Q (offer lower m f name r).
Proof.
  intros HB HQ k. unfold offer. destruct (str_dec k (lower name)) as [->|N].
  - pose proof (HB (lower name)) as H. destruct (mget (lower name) m) as [p|] eqn:EG.
    + destruct H as [H1 H2]. destruct (Z.ltb_spec (c_dyn p) r) as [L|L].
      * rewrite mget_put_same. cbn [c_file c_dyn]. split; [apply HQ; right; auto|]. intros g x Hx. apply HQ in Hx. destruct Hx as [Hx|(_ & _ & ->)]; [specialize (H2 _ _ Hx); lia|lia].
      * rewrite EG. split; [apply HQ; left; exact H1|]. intros g x Hx. apply HQ in Hx. destruct Hx as [Hx|(_ & _ & ->)]; [exact (H2 _ _ Hx)|exact L].
    + rewrite mget_put_same. cbn [c_file c_dyn]. split; [apply HQ; right; auto|]. intros g x Hx. apply HQ in Hx. destruct Hx as [Hx|(_ & _ & ->)]; [exfalso; exact (H _ _ Hx)|lia].
  - assert (E : mget k (match mget (lower name) m with None => mput (lower name) (CF f name r) m | Some p => if c_dyn p <? r then mput (lower name) (CF f (c_name p) r) m else m end) = mget k m).
    { destruct (mget (lower name) m) as [p|]; [destruct (c_dyn p <? r)|]; try reflexivity; apply mget_put_other; exact N. }
    rewrite E. specialize (HB k). destruct (mget k m) as [c|].
    + destruct HB as [H1 H2]. split; [apply HQ; left; exact H1|]. intros g x Hx. apply HQ in Hx. destruct Hx as [Hx|(Hk & _)]; [exact (H2 _ _ Hx)|congruence].
    + intros g x Hx. apply HQ in Hx. destruct Hx as [Hx|(Hk & _)]; [exact (HB _ _ Hx)|congruence].
Qed.
Lemma cand_app P Q k f r : cand (P ++ Q) k f r <-> cand P k f r \/ cand Q k f r.
Proof.
  unfold cand. split.
  - intros (key & name & I & H). apply in_app_or in I. destruct I as [I|I]; [left|right]; exists key, name; auto.
  - intros [(key & name & I & H)|(key & name & I & H)]; exists key, name; (split; [apply in_or_app; auto|exact H]).
Qed.
Lemma config_best files : forall P m m', best (cand P) m -> config_loop lower dynup files m = Ok m' -> best (cand (P ++ files)) m'.
Proof.
  induction files as [|[key f] files IH]; intros P m m' HB E; cbn [config_loop] in E; [injection E as <-; rewrite app_nil_r; exact HB|].
  assert (EA : P ++ (key, f) :: files = (P ++ [(key, f)]) ++ files) by (rewrite <- app_assoc; reflexivity). rewrite EA.
  assert (SK : (key = lower s_DynamicallyUpdated \/ first_len f = 0) -> best (cand (P ++ [(key, f)])) m).
  { intros HS k. specialize (HB k). assert (Q : forall g x, cand (P ++ [(key, f)]) k g x <-> cand P k g x).
    { intros g x. rewrite cand_app. split; [|auto]. intros [H|(key' & name & [I|[]] & H1 & H2 & _)]; [exact H|]. injection I as <- <-. exfalso. tauto. }
    destruct (mget k m) as [c|]; [split; [apply Q; apply HB|intros g x Hx; apply Q in Hx; destruct HB as [_ HB]; exact (HB _ _ Hx)]|intros g x Hx; apply Q in Hx; exact (HB _ _ Hx)]. }
  destruct (eq_list key (lower s_DynamicallyUpdated)) eqn:E1; [apply eq_list_spec in E1; apply (IH _ m); [apply SK; auto|exact E]|].
  destruct (Z.eqb_spec (first_len f) 0) as [E2|E2]; [apply (IH _ m); [apply SK; auto|exact E]|].
  destruct (rank_file lower dynup (t_name f)) as [[name r]| | |] eqn:ER; try discriminate. cbn [rbind] in E. eapply IH; [|exact E]. eapply best_offer; [exact HB|].
  intros k g x. rewrite cand_app. split.
  - intros [H|(key' & name' & [I|[]] & H1 & H2 & H3 & H4)]; [left; exact H|]. injection I as <- <-. rewrite ER in H3. injection H3 as <- <-. right. auto.
  - intros [H|(-> & -> & ->)]; [left; exact H|]. right. exists key, name. repeat split; auto; [left; reflexivity|]. intros ->. rewrite eq_list_refl in E1. discriminate.
Qed.
Lemma config_ok files : (forall key f, In (key, f) files -> key <> lower s_DynamicallyUpdated -> first_len f <> 0 -> exists q, rank_file lower dynup (t_name f) = Ok q) -> forall m, exists m', config_loop lower dynup files m = Ok m'.
Proof.
  induction files as [|[key f] files IH]; intros HR m; cbn [config_loop]; [eexists; reflexivity|]. assert (HR' : forall key f, In (key, f) files -> key <> lower s_DynamicallyUpdated -> first_len f <> 0 -> exists q, rank_file lower dynup (t_name f) = Ok q) by (intros k0 f0 I; apply (HR k0); right; exact I).
  destruct (eq_list key (lower s_DynamicallyUpdated)) eqn:E1; [apply IH; exact HR'|]. destruct (Z.eqb_spec (first_len f) 0) as [E2|E2]; [apply IH; exact HR'|].
  destruct (HR key f) as ([name r] & ->); [left; reflexivity|intros ->; rewrite eq_list_refl in E1; discriminate|exact E2|]. cbn [rbind]. apply IH. exact HR'.
Qed.

(** *** What a name means *)
Lemma rfind_none pat s : ~ has pat s -> rfind pat s = None.
Proof.
  induction s as [|x s IH]; intros N; cbn [rfind].
  - rewrite firstn_nil. rewrite eq_list_neq; [reflexivity|]. intros <-. apply N. exists [], []. reflexivity.
  - rewrite IH by (intros (a & b & ->); apply N; exists (x :: a), b; reflexivity). rewrite eq_list_neq; [reflexivity|]. intros E. apply N. exists [], (skipn (length pat) (x :: s)). cbn [app]. rewrite <- E at 1. symmetry. apply firstn_skipn.
Qed.
Lemma rank_means name base r : means lower name base r -> rank_file lower dynup name = Ok (base, r).
Proof.
  unfold rank_file. intros [n H1 H0 H2 | a e H1 H2 H3 H4 | a e H1 H2 H3].
  - rewrite rfind_char_none by exact H1. rewrite eq_list_neq by exact H0; rewrite rfind_none by exact H2; reflexivity.
  - rewrite rfind_char_at by exact H1. rewrite firstn_len_app, skipn_len_cons. rewrite eq_list_neq by exact H4. rewrite rfind_none by exact H3. cbn [rbind]. destruct e; [congruence|reflexivity].
  - rewrite rfind_char_at by exact H1. rewrite firstn_len_app, skipn_len_cons. rewrite H3, eq_list_refl. rewrite rfind_none by exact H2. reflexivity.
Qed.
End Best.
