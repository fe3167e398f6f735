From Verif Require Import Prelude Text_Model Tree_Model Tree_Spec.

(** ** regular expressions: the derivative matcher accepts the denoted language *)
Inductive lang : re -> list Z -> Prop :=
| l_eps : lang REps []
| l_cls l c : in_cls l c = true -> lang (RCls l) [c]
| l_cat a b s t : lang a s -> lang b t -> lang (RCat a b) (s ++ t)
| l_alt1 a b s : lang a s -> lang (RAlt a b) s
| l_alt2 a b s : lang b s -> lang (RAlt a b) s
| l_star0 a : lang (RStar a) []
| l_star a s t : lang a s -> lang (RStar a) t -> lang (RStar a) (s ++ t).

Lemma nullable_lang r : nullable r = true <-> lang r [].
Proof.
  induction r as [| |l|a IHa b IHb|a IHa b IHb|a IHa]; cbn [nullable].
  - split; [discriminate|inversion 1].
  - split; [constructor|reflexivity].
  - split; [discriminate|inversion 1].
  - rewrite andb_true_iff, IHa, IHb. split.
    + intros [Ha Hb]. exact (l_cat a b [] [] Ha Hb).
    + intros H. inversion H as [| |? ? s t Ha Hb E1 E2| | | |]; subst.
      apply app_eq_nil in E2. destruct E2 as [-> ->]. auto.
  - rewrite orb_true_iff, IHa, IHb. split.
    + intros [H|H]; [now apply l_alt1|now apply l_alt2].
    + intros H. inversion H; subst; auto.
  - split; [constructor|reflexivity].
Qed.

Lemma star_cons a c w : lang (RStar a) (c :: w) -> exists s t, w = s ++ t /\ lang a (c :: s) /\ lang (RStar a) t.
Proof.
  intros H. remember (RStar a) as r eqn:Er. remember (c :: w) as x eqn:Ex. revert Er Ex.
  induction H as [| | | | | |a' s t Ha IHa Hb IHb]; intros Er Ex; try discriminate.
  injection Er as ->. destruct s as [|d s].
  - apply IHb; [reflexivity|exact Ex].
  - simpl in Ex. injection Ex as -> <-. exists s, t. auto.
Qed.

Lemma deriv_lang r c s : lang (deriv c r) s <-> lang r (c :: s).
Proof.
  revert s. induction r as [| |l|a IHa b IHb|a IHa b IHb|a IHa]; intros s; cbn [deriv].
  - split; inversion 1.
  - split; inversion 1.
  - destruct (in_cls l c) eqn:E; split; intros H.
    + inversion H; subst. now constructor.
    + inversion H; subst. constructor.
    + inversion H.
    + inversion H; subst. congruence.
  - assert (Hcat : lang (RCat (deriv c a) b) s <-> exists u v, s = u ++ v /\ lang a (c :: u) /\ lang b v).
    { split.
      - intros H. inversion H as [| |? ? u v Ha Hb E1 E2| | | |]; subst. exists u, v. rewrite <- IHa. auto.
      - intros (u & v & -> & Ha & Hb). constructor; [now apply IHa|assumption]. }
    assert (Hr : lang (RCat a b) (c :: s) <-> (nullable a = true /\ lang b (c :: s)) \/ exists u v, s = u ++ v /\ lang a (c :: u) /\ lang b v).
    { split.
      - intros H. inversion H as [| |? ? u v Ha Hb E1 E2| | | |]; subst. destruct u as [|d u].
        + left. simpl in E2. subst. rewrite nullable_lang. auto.
        + right. simpl in E2. injection E2 as -> <-. exists u, v. auto.
      - intros [[Hn Hb]|(u & v & -> & Ha & Hb)].
        + rewrite nullable_lang in Hn. exact (l_cat a b [] _ Hn Hb).
        + exact (l_cat a b (c :: u) v Ha Hb). }
    rewrite Hr. destruct (nullable a).
    + split.
      * intros H. inversion H; subst; [right; now apply Hcat|left; split; [reflexivity|now apply IHb]].
      * intros [[_ H]|H]; [apply l_alt2; now apply IHb|apply l_alt1; now apply Hcat].
    + rewrite Hcat. split; [right; assumption|]. intros [[H _]|H]; [discriminate|assumption].
  - split.
    + intros H. inversion H; subst; [apply l_alt1; now apply IHa|apply l_alt2; now apply IHb].
    + intros H. inversion H; subst; [apply l_alt1; now apply IHa|apply l_alt2; now apply IHb].
  - split.
    + intros H. inversion H as [| |? ? u v Ha Hb E1 E2| | | |]; subst. 
      exact (l_star a (c :: u) v (proj1 (IHa u) Ha) Hb).
    + intros H. destruct (star_cons _ _ _ H) as (u & v & -> & Ha & Hb). constructor; [now apply IHa|assumption].
Qed.

Lemma match_lang s : forall r, re_match r s = true <-> lang r s.
Proof.
  induction s as [|c s IH]; intros r; cbn [re_match]; [apply nullable_lang|]. rewrite IH. apply deriv_lang.
Qed.

(** ** languages of the combinators *)
Lemma cat_lang a b s : lang (RCat a b) s <-> exists u v, s = u ++ v /\ lang a u /\ lang b v.
Proof.
  split.
  - intros H. inversion H as [| |? ? u v Ha Hb E1 E2| | | |]; subst. eauto.
  - intros (u & v & -> & Ha & Hb). now constructor.
Qed.
Lemma alt_lang a b s : lang (RAlt a b) s <-> lang a s \/ lang b s.
Proof. split; [inversion 1; subst; auto|intros [H|H]; [now apply l_alt1|now apply l_alt2]]. Qed.
Lemma eps_lang s : lang REps s <-> s = [].
Proof. split; [inversion 1; reflexivity|intros ->; constructor]. Qed.
Lemma cls_lang l s : lang (RCls l) s <-> exists c, s = [c] /\ in_cls l c = true.
Proof. split; [inversion 1; subst; eauto|intros (c & -> & H); now constructor]. Qed.
Lemma opt_lang r s : lang (ropt r) s <-> s = [] \/ lang r s.
Proof. unfold ropt. now rewrite alt_lang, eps_lang. Qed.
Lemma chr_lang c s : lang (rchr c) s <-> s = [c].
Proof.
  unfold rchr. rewrite cls_lang. unfold in_cls. cbn [existsb fst snd]. split.
  - intros (x & -> & H). f_equal. lia.
  - intros ->. exists c. split; [reflexivity|]. lia.
Qed.
Lemma star_cls_lang l s : lang (RStar (RCls l)) s <-> Forall (fun c => in_cls l c = true) s.
Proof.
  split.
  - intros H. remember (RStar (RCls l)) as r eqn:Er. induction H as [| | | | |a|a s t Ha IHa Hb IHb]; try discriminate; [constructor|].
    injection Er as ->. rewrite cls_lang in Ha. destruct Ha as (c & -> & Hc). simpl. constructor; auto.
  - induction 1 as [|c s Hc Hs IH]; [constructor|]. apply (l_star (RCls l) [c] s); [now constructor|assumption].
Qed.
Lemma plus_cls_lang l s : lang (rplus (RCls l)) s <-> s <> [] /\ Forall (fun c => in_cls l c = true) s.
Proof.
  unfold rplus. rewrite cat_lang. split.
  - intros (u & v & -> & Hu & Hv). rewrite cls_lang in Hu. destruct Hu as (c & -> & Hc).
    rewrite star_cls_lang in Hv. split; [discriminate|]. simpl. now constructor.
  - intros [Hn H]. destruct s as [|c s]; [congruence|]. inversion H; subst. exists [c], s. split; [reflexivity|].
    split; [now constructor|now apply star_cls_lang].
Qed.
Lemma rep_cls_lang l n : forall s, lang (rrep n (RCls l)) s <-> length s = n /\ Forall (fun c => in_cls l c = true) s.
Proof.
  induction n as [|n IH]; intros s; cbn [rrep].
  - rewrite eps_lang. split; [intros ->; split; [reflexivity|constructor]|]. intros [H _]. now destruct s.
  - rewrite cat_lang. split.
    + intros (u & v & -> & Hu & Hv). rewrite cls_lang in Hu. destruct Hu as (c & -> & Hc). apply IH in Hv. destruct Hv as [Hl Hf].
      split; [simpl; congruence|]. simpl. now constructor.
    + intros [Hl Hf]. destruct s as [|c s]; [discriminate|]. inversion Hf; subst. exists [c], s. split; [reflexivity|].
      split; [now constructor|]. apply IH. split; [now injection Hl|assumption].
Qed.
Lemma str_lang w : forall s, lang (rstr w) s <-> s = w.
Proof.
  induction w as [|c w IH]; intros s; cbn [rstr]; [apply eps_lang|]. rewrite cat_lang. split.
  - intros (u & v & -> & Hu & Hv). apply chr_lang in Hu. apply IH in Hv. now subst.
  - intros ->. exists [c], w. split; [reflexivity|]. split; [now apply chr_lang|now apply IH].
Qed.

Lemma in_digit c : in_cls cls_digit c = true <-> is_digit c.
Proof. unfold in_cls, cls_digit, is_digit. cbn [existsb fst snd]. lia. Qed.
Lemma in_hex c : in_cls cls_hex c = true <-> is_hexd c.
Proof. unfold in_cls, cls_hex, is_hexd. cbn [existsb fst snd]. lia. Qed.
Lemma in_b64 c : in_cls cls_b64 c = true <-> is_b64c c.
Proof. unfold in_cls, cls_b64, is_b64c. cbn [existsb fst snd]. lia. Qed.
Lemma Forall_iff {A} (P Q : A -> Prop) l : (forall x, P x <-> Q x) -> Forall P l <-> Forall Q l.
Proof. intros H. split; apply Forall_impl; intros a; apply H. Qed.

Lemma number_lang v : lang exp_number v <-> number_text v.
Proof.
  unfold exp_number, number_text, sign_text, digits1. rewrite cat_lang. split.
  - intros (s & d & -> & Hs & Hd). rewrite opt_lang, chr_lang in Hs. rewrite plus_cls_lang in Hd.
    rewrite (Forall_iff _ _ _ in_digit) in Hd. eauto.
  - intros (s & d & -> & Hs & Hd). exists s, d. split; [reflexivity|]. rewrite opt_lang, chr_lang.
    rewrite plus_cls_lang, (Forall_iff _ _ _ in_digit). auto.
Qed.

Lemma number_exp_lang v : lang exp_number_exp v <-> number_exp_text v.
Proof.
  unfold exp_number_exp, number_exp_text, exponent_text, sign_text, digits1. split.
  - rewrite cat_lang. intros (s & r1 & -> & Hs & H1). rewrite cat_lang in H1. destruct H1 as (d & r2 & -> & Hd & H2).
    rewrite cat_lang in H2. destruct H2 as (pf & e & -> & Hpf & He).
    rewrite opt_lang, chr_lang in Hs. rewrite plus_cls_lang, (Forall_iff _ _ _ in_digit) in Hd.
    rewrite opt_lang in Hpf, He.
    assert (Hp : exists p f, pf = p ++ f /\ (p = [] \/ p = [46]) /\ Forall is_digit f).
    { destruct Hpf as [->|Hpf]; [exists [], []; repeat split; auto|].
      rewrite cat_lang in Hpf. destruct Hpf as (p & f & -> & Hp & Hf). rewrite opt_lang, chr_lang in Hp.
      rewrite star_cls_lang, (Forall_iff _ _ _ in_digit) in Hf. eauto. }
    destruct Hp as (p & f & -> & Hp & Hf). exists s, d, p, f, e. rewrite <- !app_assoc. split; [reflexivity|]. do 4 (split; [assumption|]).
    destruct He as [->|He]; [left; reflexivity|right].
    rewrite cat_lang in He. destruct He as (x & y & -> & Hx & Hy). rewrite alt_lang, !chr_lang in Hx.
    rewrite cat_lang in Hy. destruct Hy as (s2 & d2 & -> & Hs2 & Hd2). rewrite opt_lang, chr_lang in Hs2.
    rewrite plus_cls_lang, (Forall_iff _ _ _ in_digit) in Hd2.
    destruct Hx as [->| ->]; [exists 101|exists 69]; exists s2, d2; (split; [reflexivity|]); (split; [lia|]); split; assumption.
  - intros (s & d & p & f & e & -> & Hs & Hd & Hp & Hf & He).
    rewrite cat_lang. exists s, (d ++ p ++ f ++ e). split; [reflexivity|]. rewrite opt_lang, chr_lang. split; [assumption|].
    rewrite cat_lang. exists d, (p ++ f ++ e). split; [reflexivity|]. rewrite plus_cls_lang, (Forall_iff _ _ _ in_digit). split; [assumption|].
    rewrite cat_lang. exists (p ++ f), e. split; [now rewrite app_assoc|]. split.
    + rewrite opt_lang. right. rewrite cat_lang. exists p, f. split; [reflexivity|]. rewrite opt_lang, chr_lang.
      rewrite star_cls_lang, (Forall_iff _ _ _ in_digit). auto.
    + rewrite opt_lang. destruct He as [->|(x & s2 & d2 & -> & Hx & Hs2 & Hd2)]; [left; reflexivity|right].
      rewrite cat_lang. exists [x], (s2 ++ d2). split; [reflexivity|]. rewrite alt_lang, !chr_lang. split; [destruct Hx as [->| ->]; auto|].
      rewrite cat_lang. exists s2, d2. split; [reflexivity|]. rewrite opt_lang, chr_lang, plus_cls_lang, (Forall_iff _ _ _ in_digit). auto.
Qed.

Lemma guid_lang v : lang exp_guid v <-> guid_text v.
Proof.
  unfold exp_guid, guid_text, hexn.
  assert (Hx : forall n s, lang (rrep n (RCls cls_hex)) s <-> length s = n /\ Forall is_hexd s).
  { intros n s. rewrite rep_cls_lang. now rewrite (Forall_iff _ _ _ in_hex). }
  split.
  - intros H. do 8 (rewrite cat_lang in H; let u := fresh "u" in let v := fresh "v" in
      destruct H as (u & v & -> & ?Hu & H)).
    rewrite ?Hx, ?chr_lang in *. subst. do 5 eexists. split; [reflexivity|]. auto.
  - intros (a & b & c & d & e & -> & Ha & Hb & Hc & Hd & He).
    repeat (rewrite cat_lang; do 2 eexists; split; [reflexivity|]; split; [rewrite ?Hx, ?chr_lang; first [assumption|reflexivity]|]).
    rewrite Hx. assumption.
Qed.

Lemma prefix_lang w v : lang (RCat (rstr w) (RStar (RCls cls_b64))) v <-> exists b, v = w ++ b /\ Forall is_b64c b.
Proof.
  rewrite cat_lang. split.
  - intros (u & b & -> & Hu & Hb). apply str_lang in Hu. subst. rewrite star_cls_lang, (Forall_iff _ _ _ in_b64) in Hb. eauto.
  - intros (b & -> & Hb). exists w, b. split; [reflexivity|]. rewrite str_lang, star_cls_lang, (Forall_iff _ _ _ in_b64). auto.
Qed.
Lemma link_lang v : lang exp_link v <-> link_text v.
Proof.
  unfold exp_link, link_text, digits1, hexn. split.
  - rewrite cat_lang. intros (d & r & -> & Hd & Hr). rewrite cat_lang in Hr. destruct Hr as (c & h & -> & Hc & Hh).
    apply chr_lang in Hc. subst. rewrite plus_cls_lang, (Forall_iff _ _ _ in_digit) in Hd.
    rewrite rep_cls_lang, (Forall_iff _ _ _ in_hex) in Hh. do 2 eexists. split; [reflexivity|]. auto.
  - intros (d & h & -> & Hd & Hh). rewrite cat_lang. exists d, ([58] ++ h). split; [reflexivity|].
    rewrite plus_cls_lang, (Forall_iff _ _ _ in_digit). split; [assumption|].
    rewrite cat_lang. exists [58], h. split; [reflexivity|]. rewrite chr_lang, rep_cls_lang, (Forall_iff _ _ _ in_hex). auto.
Qed.
Lemma bare_lang v : lang exp_binary2 v <-> base64_bare_text v.
Proof. unfold exp_binary2, base64_bare_text. now rewrite plus_cls_lang, (Forall_iff _ _ _ in_b64). Qed.

(** the kinds exclude each other apart from the listed overlaps *)
Lemma Forall_In {A} (P : A -> Prop) l x : Forall P l -> In x l -> P x.
Proof. intros H. rewrite Forall_forall in H. apply H. Qed.

Definition numchar (c : Z) : Prop := is_digit c \/ c = 45 \/ c = 46 \/ c = 101 \/ c = 69.
Lemma sign_chars s : sign_text s -> Forall numchar s.
Proof. unfold sign_text, numchar. intros [->| ->]; [constructor|]. constructor; [lia|constructor]. Qed.
Lemma digit_chars s : Forall is_digit s -> Forall numchar s.
Proof. apply Forall_impl. intros c H. left. exact H. Qed.
Lemma number_exp_chars v : number_exp_text v -> Forall numchar v.
Proof.
  intros (s & d & p & f & e & -> & Hs & [_ Hd] & Hp & Hf & He).
  repeat (apply Forall_app; split).
  - now apply sign_chars.
  - now apply digit_chars.
  - destruct Hp as [->| ->]; [constructor|]. constructor; [unfold numchar; lia|constructor].
  - now apply digit_chars.
  - destruct He as [->|(x & s2 & d2 & -> & Hx & Hs2 & [_ Hd2])]; [constructor|].
    constructor; [unfold numchar; lia|]. apply Forall_app. split; [now apply sign_chars|now apply digit_chars].
Qed.
Lemma number_is_exp v : number_text v -> number_exp_text v.
Proof.
  intros (s & d & -> & Hs & Hd). exists s, d, [], [], []. rewrite !app_nil_l, app_nil_r. unfold exponent_text. auto 10.
Qed.

(** the 9th, 14th, ... characters of a GUID are minus signs; a number has at most two
    of them, so no GUID is a number with exponent *)
Fixpoint minus_count (s : list Z) : nat := match s with [] => 0 | c :: t => (if Z.eqb c 45 then 1 else 0) + minus_count t end.
Lemma minus_app a b : minus_count (a ++ b) = (minus_count a + minus_count b)%nat.
Proof. induction a as [|x a IH]; [reflexivity|]. cbn [app minus_count]. rewrite IH. lia. Qed.
Lemma minus_none (P : Z -> Prop) s : (forall c, P c -> c <> 45) -> Forall P s -> minus_count s = 0%nat.
Proof.
  intros HP. induction 1 as [|c s Hc Hs IH]; [reflexivity|]. cbn [minus_count]. rewrite IH. specialize (HP c Hc).
  destruct (Z.eqb_spec c 45); [congruence|reflexivity].
Qed.
Lemma minus_sign s : sign_text s -> (minus_count s <= 1)%nat.
Proof. intros [->| ->]; cbn; lia. Qed.
Lemma minus_digits s : Forall is_digit s -> minus_count s = 0%nat.
Proof. apply minus_none. unfold is_digit. lia. Qed.
Lemma minus_hex s : Forall is_hexd s -> minus_count s = 0%nat.
Proof. apply minus_none. unfold is_hexd. lia. Qed.
Lemma number_exp_minus v : number_exp_text v -> (minus_count v <= 2)%nat.
Proof.
  intros (s & d & p & f & e & -> & Hs & [_ Hd] & Hp & Hf & He). rewrite !minus_app.
  pose proof (minus_sign s Hs). rewrite (minus_digits d Hd), (minus_digits f Hf).
  assert (minus_count p = 0%nat) as -> by (destruct Hp as [->| ->]; reflexivity).
  assert (minus_count e <= 1)%nat; [|lia].
  destruct He as [->|(x & s2 & d2 & -> & Hx & Hs2 & [_ Hd2])]; [cbn; lia|].
  cbn [minus_count]. rewrite minus_app, (minus_digits d2 Hd2). pose proof (minus_sign s2 Hs2).
  destruct (Z.eqb_spec x 45); lia.
Qed.
Lemma guid_minus v : guid_text v -> minus_count v = 4%nat.
Proof.
  intros (a & b & c & d & e & -> & [_ Ha] & [_ Hb] & [_ Hc] & [_ Hd] & [_ He]).
  rewrite !minus_app, (minus_hex _ Ha), (minus_hex _ Hb), (minus_hex _ Hc), (minus_hex _ Hd), (minus_hex _ He). reflexivity.
Qed.
Lemma b64c_minus v : Forall is_b64c v -> minus_count v = 0%nat.
Proof. apply minus_none. unfold is_b64c. lia. Qed.

Definition guid_char (c : Z) : Prop := is_hexd c \/ c = 45.
Lemma guid_chars v : guid_text v -> Forall guid_char v.
Proof.
  intros (a & b & c & d & e & -> & [_ Ha] & [_ Hb] & [_ Hc] & [_ Hd] & [_ He]).
  assert (H : forall s, Forall is_hexd s -> Forall guid_char s) by (intros s; apply Forall_impl; intros x; left; assumption).
  repeat (apply Forall_app; split); auto; (constructor; [right; reflexivity|constructor]).
Qed.
Lemma link_colon v : link_text v -> In 58 v.
Proof. intros (d & h & -> & _). rewrite !in_app_iff. right. left. now left. Qed.
Lemma base64_hash v : base64_text v -> In 35 v.
Proof. intros (b & -> & _). simpl. auto. Qed.
Lemma data_hash v : data_text v -> In 35 v.
Proof. intros (b & -> & _). simpl. auto. Qed.
Lemma link_no_hash v : link_text v -> ~ In 35 v.
Proof.
  intros (d & h & -> & [_ Hd] & [_ Hh]) H. rewrite !in_app_iff in H. destruct H as [H|[[H|[]]|H]]; [|lia|].
  - pose proof (Forall_In _ _ _ Hd H) as X. unfold is_digit in X. lia.
  - pose proof (Forall_In _ _ _ Hh H) as X. unfold is_hexd in X. lia.
Qed.

(** ** classification is exact on NUL-free texts *)
Lemma cstr_id v : ~ In 0 v -> cstr v = v.
Proof.
  induction v as [|c v IH]; intros H; [reflexivity|]. cbn [cstr]. destruct (Z.eqb_spec c 0) as [->|]; [exfalso; apply H; now left|].
  f_equal. apply IH. intros Hin. apply H. now right.
Qed.

Lemma match_cases r v (P : list Z -> Prop) : (lang r v <-> P v) -> (re_match r v = true /\ P v) \/ (re_match r v = false /\ ~ P v).
Proof.
  intros H. destruct (re_match r v) eqn:E; [left|right]; (split; [reflexivity|]).
  - apply H. now apply match_lang.
  - intros HP. apply H in HP. apply match_lang in HP. congruence.
Qed.

Lemma number_nonempty v : number_text v -> v <> [].
Proof. intros (s & d & -> & _ & [Hd _]) E. apply app_eq_nil in E. tauto. Qed.
Lemma number_exp_nonempty v : number_exp_text v -> v <> [].
Proof. intros (s & d & p & f & e & -> & _ & [Hd _] & _) E. apply app_eq_nil in E. destruct E as [_ E]. apply app_eq_nil in E. tauto. Qed.

Lemma classify_kind v : ~ In 0 v -> value_kind v (classify v).
Proof.
  intros H0. destruct v as [|c0 v0]; [reflexivity|]. unfold classify. rewrite (cstr_id _ H0). cbv zeta.
  set (v := c0 :: v0) in *.
  destruct (match_cases _ v _ (number_lang v)) as [[-> HN]|[-> HN]]; [exact HN|].
  destruct (match_cases _ v _ (number_exp_lang v)) as [[-> HE]|[-> HE]]; [split; assumption|].
  destruct (match_cases _ v _ (guid_lang v)) as [[-> HG]|[-> HG]]; [exact HG|].
  destruct (match_cases exp_binary v base64_text (prefix_lang [35;98;97;115;101;54;52;58] v)) as [[-> HB]|[-> HB]]; [exact HB|].
  destruct (match_cases _ v _ (link_lang v)) as [[-> HL]|[-> HL]]; [exact HL|].
  destruct (match_cases _ v _ (bare_lang v)) as [[-> HB2]|[-> HB2]]; [split; [exact HB2|split; assumption]|].
  destruct (match_cases exp_binary_d v data_text (prefix_lang [35;100;97;116;97;58] v)) as [[-> HD]|[-> HD]]; [exact HD|].
  split; [discriminate|]. auto 10.
Qed.

Lemma kind_unique v a b : value_kind v a -> value_kind v b -> a = b.
Proof.
  assert (X1 : number_exp_text v -> guid_text v -> False).
  { intros A B. apply number_exp_minus in A. apply guid_minus in B. lia. }
  assert (X1' : number_text v -> guid_text v -> False) by (intros A; apply X1, number_is_exp, A).
  assert (N35 : number_exp_text v -> ~ In 35 v).
  { intros A B. pose proof (Forall_In _ _ _ (number_exp_chars v A) B) as X. unfold numchar, is_digit in X. lia. }
  assert (N58 : number_exp_text v -> ~ In 58 v).
  { intros A B. pose proof (Forall_In _ _ _ (number_exp_chars v A) B) as X. unfold numchar, is_digit in X. lia. }
  assert (G35 : guid_text v -> ~ In 35 v).
  { intros A B. pose proof (Forall_In _ _ _ (guid_chars v A) B) as X. unfold guid_char, is_hexd in X. lia. }
  assert (G58 : guid_text v -> ~ In 58 v).
  { intros A B. pose proof (Forall_In _ _ _ (guid_chars v A) B) as X. unfold guid_char, is_hexd in X. lia. }
  assert (B35 : base64_bare_text v -> ~ In 35 v).
  { intros [_ A] B. pose proof (Forall_In _ _ _ A B) as X. unfold is_b64c in X. lia. }
  assert (B58 : base64_bare_text v -> ~ In 58 v).
  { intros [_ A] B. pose proof (Forall_In _ _ _ A B) as X. unfold is_b64c in X. lia. }
  assert (GB : guid_text v -> base64_bare_text v -> False).
  { intros A [_ B]. apply guid_minus in A. apply b64c_minus in B. lia. }
  assert (DB : base64_text v -> data_text v -> False).
  { intros (x & -> & _) (y & E & _). discriminate. }
  pose proof (number_nonempty v) as E1. pose proof (number_exp_nonempty v) as E2.
  pose proof (number_is_exp v) as NE.
  pose proof (base64_hash v) as BH. pose proof (data_hash v) as DH. pose proof (link_colon v) as LC. pose proof (link_no_hash v) as LH.
  assert (Hnil : v = [] -> ~ In 35 v /\ ~ In 58 v /\ ~ guid_text v /\ ~ base64_bare_text v).
  { intros ->. split; [intros []|]. split; [intros []|]. split; [intros A; apply guid_minus in A; discriminate|]. intros [A _]. congruence. }
  destruct a, b; cbn [value_kind]; try reflexivity; tauto.
Qed.

Lemma classify_exact v ty : ~ In 0 v -> classify v = ty <-> value_kind v ty.
Proof.
  intros H0. pose proof (classify_kind v H0) as H. split; [intros <-; exact H|]. intros H2. exact (kind_unique v _ _ H H2).
Qed.

(** characters a value of a known kind can contain *)
Lemma kind_chars v ty : value_kind v ty -> ty <> nd_unknown -> forall c, In c v -> c <> 44 /\ c <> 125 /\ c <> 34 /\ c <> 123 /\ c <> 32 /\ c <> 9 /\ c <> 0.
Proof.
  intros H Hu c Hin.
  destruct ty; cbn [value_kind] in H; try contradiction; try congruence.
  - subst. destruct Hin.
  - apply number_is_exp in H. pose proof (Forall_In _ _ _ (number_exp_chars v H) Hin) as X. unfold numchar, is_digit in X. lia.
  - destruct H as [H _]. pose proof (Forall_In _ _ _ (number_exp_chars v H) Hin) as X. unfold numchar, is_digit in X. lia.
  - pose proof (Forall_In _ _ _ (guid_chars v H) Hin) as X. unfold guid_char, is_hexd in X. lia.
  - destruct H as (b & -> & Hb). rewrite in_app_iff in Hin. destruct Hin as [Hin|Hin]; [cbn [In] in Hin; lia|].
    pose proof (Forall_In _ _ _ Hb Hin) as X. unfold is_b64c in X. lia.
  - destruct H as [[_ H] _]. pose proof (Forall_In _ _ _ H Hin) as X. unfold is_b64c in X. lia.
  - destruct H as (d & h & -> & [_ Hd] & [_ Hh]). rewrite !in_app_iff in Hin. destruct Hin as [Hin|[Hin|Hin]].
    + pose proof (Forall_In _ _ _ Hd Hin) as X. unfold is_digit in X. lia.
    + cbn [In] in Hin. lia.
    + pose proof (Forall_In _ _ _ Hh Hin) as X. unfold is_hexd in X. lia.
  - destruct H as (b & -> & Hb). rewrite in_app_iff in Hin. destruct Hin as [Hin|Hin]; [cbn [In] in Hin; lia|].
    pose proof (Forall_In _ _ _ Hb Hin) as X. unfold is_b64c in X. lia.
Qed.

(** ** printing and reading back *)
Lemma prun_app s a b : prun s (a ++ b) = do s' <- prun s a; prun s' b.
Proof.
  revert s. induction a as [|c a IH]; intros s; [reflexivity|]. cbn [app prun]. destruct (pstep s c) as [s'| | |]; cbn [rbind]; auto.
Qed.
Lemma prun_snoc s s' a b : prun s a = Ok s' -> prun s (a ++ b) = prun s' b.
Proof. intros H. rewrite prun_app, H. reflexivity. Qed.

Fixpoint tree_rect' (P : tree -> Prop) (H : forall v ty ks, Forall P ks -> P (Node v ty ks)) (t : tree) : P t :=
  match t with
  | Node v ty ks => H v ty ks ((fix go ks : Forall P ks := match ks with
                                | [] => Forall_nil _ | k :: r => Forall_cons _ (tree_rect' P H k) (go r) end) ks)
  end.

Fixpoint out_kids (ks : list tree) (text : list Z) (lt : node_type) : list Z * node_type :=
  match ks with
  | [] => (text, lt)
  | [k] => (outtext k text, node_ty k)
  | k :: r => out_kids r (outtext k text ++ [44]) (node_ty k)
  end.
Lemma outtext_node v ty k ks text :
  outtext (Node v ty (k :: ks)) text =
  let text := (match text with [] => [] | _ => text ++ [13; 10] end) ++ [123] in
  let '(text, lt) := out_kids (k :: ks) text nd_unknown in
  (if is_list_ty lt then text ++ [13; 10] else text) ++ [125].
Proof.
  cbn [outtext]. cbv zeta.
  match goal with |- context [(fix go ks t l {struct ks} := _) ?ks0 ?t0 ?l0] =>
    enough (E : forall ks t l, (fix go (ks : list tree) (text : list Z) (lt : node_type) {struct ks} : list Z * node_type :=
              match ks with [] => (text, lt) | [k] => (outtext k text, node_ty k)
              | k :: (_ :: _) as r => go r (outtext k text ++ [44]) (node_ty k) end) ks t l = out_kids ks t l) end.
  - rewrite E. reflexivity.
  - clear. intros ks. induction ks as [|k ks IH]; intros t l; [reflexivity|]. destruct ks as [|k2 ks]; [reflexivity|].
    change (out_kids (k :: k2 :: ks) t l) with (out_kids (k2 :: ks) (outtext k t ++ [44]) (node_ty k)). rewrite <- IH. reflexivity.
Qed.

(** the parser state after the text of a child has been read, its end not yet seen *)
Definition pend (t : tree) (k : list tree) (st : list (list tree)) (s : pstate) : Prop :=
  match t with
  | Node v ty _ =>
      match ty with
      | nd_list => exists cur, s = mkp s_delimiter cur ((k ++ [t]) :: st)
      | nd_string => s = mkp s_quote_or_endstring v (k :: st)
      | nd_empty => exists cur, s = mkp s_value cur (k :: st)
      | _ => s = mkp s_nonstring v (k :: st)
      end
  end.

Lemma run_string v : forall cur st, prun (mkp s_string cur st) (double_quotes v ++ [34]) = Ok (mkp s_quote_or_endstring (cur ++ v) st).
Proof.
  induction v as [|c v IH]; intros cur st.
  - cbn. now rewrite app_nil_r.
  - unfold double_quotes in *. cbn [flat_map]. destruct (Z.eqb_spec c 34) as [->|Hc].
    + cbn [app prun pstep p_mode p_cur p_stack rbind Z.eqb Pos.eqb]. rewrite IH, <- app_assoc. reflexivity.
    + cbn [app prun pstep p_mode p_cur p_stack]. destruct (Z.eqb_spec c 34); [lia|]. cbn [rbind]. rewrite IH, <- app_assoc. reflexivity.
Qed.

Lemma run_nonstring v : forall cur st, (forall c, In c v -> c <> 44 /\ c <> 125) ->
  prun (mkp s_nonstring cur st) v = Ok (mkp s_nonstring (cur ++ v) st).
Proof.
  induction v as [|c v IH]; intros cur st H; [cbn; now rewrite app_nil_r|].
  cbn [prun pstep p_mode p_cur p_stack]. destruct (H c (or_introl eq_refl)) as [H1 H2].
  destruct (Z.eqb_spec c 44); [lia|]. destruct (Z.eqb_spec c 125); [lia|]. cbn [orb rbind].
  rewrite IH; [now rewrite <- app_assoc|]. intros x Hx. apply H. now right.
Qed.

Definition value_ty (ty : node_type) : Prop :=
  match ty with nd_string | nd_empty | nd_unknown | nd_list => False | _ => True end.

Lemma leaf_value v ty : leaf_ok v ty -> value_ty ty ->
  value_kind v ty /\ exists c w, v = c :: w /\ (forall x, In x v -> x <> 44 /\ x <> 125 /\ x <> 34 /\ x <> 123 /\ x <> 0) /\ is_ws c = false.
Proof.
  intros H Hv. assert (Hk : value_kind v ty /\ match v with c :: _ => c <> 13 /\ c <> 10 | [] => False end).
  { destruct ty; try contradiction; exact H. }
  destruct Hk as [Hk Hc]. split; [exact Hk|]. destruct v as [|c w]; [contradiction|]. exists c, w. split; [reflexivity|].
  assert (Hch : forall x, In x (c :: w) -> x <> 44 /\ x <> 125 /\ x <> 34 /\ x <> 123 /\ x <> 32 /\ x <> 9 /\ x <> 0).
  { apply (kind_chars _ ty Hk). destruct ty; try contradiction; discriminate. }
  split; [intros x Hx; specialize (Hch x Hx); tauto|].
  specialize (Hch c (or_introl eq_refl)). unfold is_ws. lia.
Qed.

Lemma run_leaf v ty text cur k st : leaf_ok v ty ->
  prun pinit text = Ok (mkp s_value cur (k :: st)) ->
  exists s, prun pinit (outtext (Node v ty []) text) = Ok s /\ pend (Node v ty []) k st s.
Proof.
  intros H Hr.
  assert (Hval : value_ty ty -> outtext (Node v ty []) text = text ++ v ->
    exists s, prun pinit (text ++ v) = Ok s /\ s = mkp s_nonstring v (k :: st)).
  { intros Hv _. destruct (leaf_value v ty H Hv) as (_ & c & w & -> & Hch & Hws).
    eexists. split; [|reflexivity]. rewrite (prun_snoc _ _ _ _ Hr). cbn [prun pstep p_mode p_cur p_stack].
    destruct (Hch c (or_introl eq_refl)) as (A & B & C & D & _). rewrite Hws.
    destruct (Z.eqb_spec c 34); [lia|]. destruct (Z.eqb_spec c 123); [lia|]. destruct (Z.eqb_spec c 125); [lia|].
    destruct (Z.eqb_spec c 44); [lia|]. cbn [rbind]. rewrite run_nonstring; [reflexivity|].
    intros x Hx. destruct (Hch x (or_intror Hx)). tauto. }
  destruct ty; cbn [outtext pend]; try (cbn in H; contradiction); try (apply Hval; [exact I|reflexivity]).
  - cbn in H. subst. exists (mkp s_value cur (k :: st)). eauto.
  - eexists. split; [|reflexivity]. rewrite (prun_snoc _ _ _ _ Hr). cbn [app prun pstep p_mode p_cur p_stack is_ws Z.eqb Pos.eqb orb rbind].
    apply (run_string v [] (k :: st)).
Qed.

Lemma pend_value v ty k st s : leaf_ok v ty -> value_ty ty -> pend (Node v ty []) k st s ->
  s = mkp s_nonstring v (k :: st) /\ classify v = ty /\ ty <> nd_unknown.
Proof.
  intros Hl Hv H. destruct (leaf_value v ty Hl Hv) as (Hk & c & w & Ev & Hch & _).
  split; [destruct ty; try contradiction; exact H|].
  split; [|destruct ty; try contradiction; discriminate].
  apply classify_exact; [intros X; apply Hch in X; lia|exact Hk].
Qed.

Lemma pend_comma t k st s : printable t -> pend t k st s -> exists cur, pstep s 44 = Ok (mkp s_value cur ((k ++ [t]) :: st)).
Proof.
  intros Hp H. inversion Hp as [v ty Hl E|ks H1 H2 H3 E]; subst.
  - assert (Hval : value_ty ty -> exists cur, pstep s 44 = Ok (mkp s_value cur ((k ++ [Node v ty []]) :: st))).
    { intros Hv. destruct (pend_value v ty k st s Hl Hv H) as (-> & Hc & Hu).
      exists v. cbn [pstep p_mode p_cur p_stack Z.eqb Pos.eqb orb]. rewrite Hc. destruct ty; try contradiction; reflexivity. }
    destruct ty; try (apply Hval; exact I); try (cbn in Hl; contradiction).
    + destruct H as (cur & ->). cbn in Hl. subst. exists cur. reflexivity.
    + cbn in H. subst s. exists v. reflexivity.
  - destruct H as (cur & ->). exists cur. reflexivity.
Qed.

Lemma pend_close t k p st s : printable t -> k ++ [t] <> [Node [] nd_empty []] -> pend t k (p :: st) s ->
  exists cur, pstep s 125 = Ok (mkp s_delimiter cur ((p ++ [Node [] nd_list (k ++ [t])]) :: st)).
Proof.
  intros Hp Hne H. inversion Hp as [v ty Hl E|ks H1 H2 H3 E]; subst.
  - assert (Hval : value_ty ty -> exists cur, pstep s 125 = Ok (mkp s_delimiter cur ((p ++ [Node [] nd_list (k ++ [Node v ty []])]) :: st))).
    { intros Hv. destruct (pend_value v ty k (p :: st) s Hl Hv H) as (-> & Hc & Hu).
      exists v. cbn [pstep p_mode p_cur p_stack Z.eqb Pos.eqb orb]. rewrite Hc. destruct ty; try contradiction; reflexivity. }
    destruct ty; try (apply Hval; exact I); try (cbn in Hl; contradiction).
    + destruct H as (cur & ->). cbn in Hl. subst. exists cur. destruct k as [|k0 k]; [exfalso; apply Hne; reflexivity|]. reflexivity.
    + cbn in H. subst s. exists v. reflexivity.
  - destruct H as (cur & ->). exists cur. reflexivity.
Qed.

Lemma pend_nl t k st s : is_list_ty (node_ty t) = true -> pend t k st s -> prun s [13; 10] = Ok s /\ pend t k st s.
Proof.
  intros Hl H. split; [|exact H]. destruct t as [v ty ks]. destruct ty; try discriminate. destruct H as (cur & ->). reflexivity.
Qed.

Definition reads (t : tree) : Prop := printable t -> forall text cur k st,
  prun pinit text = Ok (mkp s_value cur (k :: st)) ->
  exists s, prun pinit (outtext t text) = Ok s /\ pend t k st s.

Lemma run_kids ks : ks <> [] -> Forall reads ks -> Forall printable ks -> forall text lt cur k st,
  prun pinit text = Ok (mkp s_value cur (k :: st)) ->
  exists s kk t, prun pinit (fst (out_kids ks text lt)) = Ok s /\ pend t kk st s /\ k ++ ks = kk ++ [t] /\ printable t /\
    snd (out_kids ks text lt) = node_ty t.
Proof.
  intros Hne. induction ks as [|t ks IH]; [congruence|]. intros Hr Hp text lt cur k st Hrun.
  inversion Hr as [|? ? Hr1 Hr2]; subst. inversion Hp as [|? ? Hp1 Hp2]; subst.
  destruct (Hr1 Hp1 text cur k st Hrun) as (s & Hs & Hpend).
  destruct ks as [|t2 ks].
  - cbn [out_kids fst snd]. exists s, k, t. auto.
  - change (out_kids (t :: t2 :: ks) text lt) with (out_kids (t2 :: ks) (outtext t text ++ [44]) (node_ty t)).
    destruct (pend_comma t k st s Hp1 Hpend) as (cur2 & Hc).
    assert (Hrun2 : prun pinit (outtext t text ++ [44]) = Ok (mkp s_value cur2 ((k ++ [t]) :: st))).
    { rewrite (prun_snoc _ _ _ _ Hs). cbn [prun]. rewrite Hc. reflexivity. }
    destruct (IH ltac:(discriminate) Hr2 Hp2 _ (node_ty t) _ _ _ Hrun2) as (s2 & kk & t' & A & B & C & D & E).
    exists s2, kk, t'. repeat split; try assumption. rewrite <- C, <- app_assoc. reflexivity.
Qed.

Lemma reads_all t : reads t.
Proof.
  induction t as [v ty ks IH] using tree_rect'. intros Hp text cur k st Hrun.
  inversion Hp as [? ? Hl|? H1 H2 H3]; subst; [now apply (run_leaf v ty text cur k st)|].
  destruct ks as [|k1 ks]; [congruence|]. rewrite outtext_node. cbv zeta.
  assert (Hopen : prun pinit ((match text with [] => [] | _ => text ++ [13; 10] end) ++ [123]) = Ok (mkp s_value cur ([] :: k :: st))).
  { destruct text as [|c0 text].
    - cbn in Hrun. injection Hrun as <- <- <-. reflexivity.
    - rewrite <- app_assoc. rewrite (prun_snoc _ _ _ _ Hrun). reflexivity. }
  destruct (run_kids (k1 :: ks) H1 IH H3 _ nd_unknown _ _ _ Hopen) as (s & kk & t & A & B & C & D & E).
  destruct (out_kids (k1 :: ks) _ nd_unknown) as [out lt] eqn:Eo. cbn [fst snd] in *. cbn [app] in C.
  assert (Hs : prun pinit (if is_list_ty lt then out ++ [13; 10] else out) = Ok s).
  { destruct (is_list_ty lt) eqn:El; [|exact A]. rewrite (prun_snoc _ _ _ _ A). apply (pend_nl t kk (k :: st) s); [congruence|exact B]. }
  destruct (pend_close t kk k st s D ltac:(rewrite <- C; exact H2) B) as (cur2 & Hc).
  exists (mkp s_delimiter cur2 ((k ++ [Node [] nd_list (k1 :: ks)]) :: st)). split; [|exists cur2; reflexivity].
  rewrite (prun_snoc _ _ _ _ Hs). cbn [prun]. rewrite Hc, <- C. reflexivity.
Qed.

Lemma print_parse t : printable t -> t <> Node [] nd_empty [] -> parse_text (outtext t []) = Ok (Node [] nd_list [t]).
Proof.
  intros Hp Hne. destruct (reads_all t Hp [] [] [] [] eq_refl) as (s & Hs & H). unfold parse_text. rewrite Hs. cbn [rbind].
  inversion Hp as [v ty Hl|ks H1 H2 H3]; subst.
  - assert (Hval : value_ty ty -> pfinish s = Ok (Node [] nd_list [Node v ty []])).
    { intros Hv. destruct (pend_value v ty [] [] s Hl Hv H) as (-> & Hc & Hu). cbn. now rewrite Hc. }
    destruct ty; try (apply Hval; exact I); try (cbn in Hl; contradiction).
    + cbn in Hl. subst. congruence.
    + cbn in H. subst s. reflexivity.
  - destruct H as (cur & ->). reflexivity.
Qed.

(** ** whatever the parser accepts is well formed *)
Lemma wf_printable t : wf_tree t -> no_empty_list t -> printable t.
Proof.
  induction t as [v ty ks IH] using tree_rect'. intros Hw Hn.
  inversion Hn as [? ? ? Hne Hf E]; subst. inversion Hw as [? ? Hl|? H1 H2]; subst; [now constructor|].
  apply pr_list; [apply Hne; reflexivity|exact H1|]. clear Hne H1 Hw Hn.
  rewrite Forall_forall in *. intros x Hx. apply IH; auto.
Qed.

Definition inv_mode (s : pstate) : Prop :=
  match p_mode s with
  | s_delimiter => match p_stack s with k :: _ => exists x t, k = x ++ [t] /\ t <> Node [] nd_empty [] | [] => False end
  | s_nonstring => match p_cur s with
                   | c :: _ => is_ws c = false /\ ~ In 0 (p_cur s) | [] => False end
  | _ => True
  end.
Definition inv (s : pstate) : Prop := Forall (Forall wf_tree) (p_stack s) /\ p_stack s <> [] /\ inv_mode s.

Lemma inv_add st t : Forall (Forall wf_tree) st -> st <> [] -> wf_tree t ->
  Forall (Forall wf_tree) (add_child st t) /\ add_child st t <> [].
Proof.
  intros H Hne Ht. destruct st as [|k r]; [congruence|]. inversion H; subst. cbn [add_child]. split; [|discriminate].
  constructor; [|assumption]. apply Forall_app. split; [assumption|]. constructor; [exact Ht|constructor].
Qed.

Lemma snoc_inj {A} (a b : list A) x y : a ++ [x] = b ++ [y] -> x = y.
Proof. intros H. apply app_inj_tail in H. tauto. Qed.

Lemma inv_close st cur st' : Forall (Forall wf_tree) st -> (forall k r, st = k :: r -> k <> [Node [] nd_empty []]) ->
  close_list st = Ok st' -> inv (mkp s_delimiter cur st').
Proof.
  intros H Hne E. destruct st as [|k [|p r]]; try discriminate. cbn [close_list] in E. injection E as <-.
  inversion H as [|? ? Hk H2]; subst. inversion H2 as [|? ? Hp Hr]; subst.
  unfold inv. cbn [p_stack p_mode inv_mode]. split; [|split; [discriminate|]].
  - constructor; [|assumption]. apply Forall_app. split; [assumption|]. constructor; [|constructor].
    apply wf_list; [now apply (Hne k (p :: r))|assumption].
  - unfold inv_mode. cbn [p_mode p_stack]. do 2 eexists. split; [reflexivity|discriminate].
Qed.

Lemma leaf_of_kind v : v <> [] -> ~ In 0 v -> match v with c :: _ => is_ws c = false | [] => False end -> classify v <> nd_unknown ->
  leaf_ok v (classify v).
Proof.
  intros Hne H0 Hws Hu. pose proof (classify_kind v H0) as Hk. destruct v as [|c w]; [congruence|].
  assert (Hc : c <> 13 /\ c <> 10) by (unfold is_ws in Hws; lia).
  destruct (classify (c :: w)) eqn:E; try congruence; try (cbn in Hk; contradiction); try (split; [exact Hk|exact Hc]).
Qed.

Lemma pstep_inv s c s' : inv s -> c <> 0 -> pstep s c = Ok s' -> inv s'.
Proof.
  intros (Hst & Hne & Hm) H0 E. unfold pstep in E. destruct s as [m cur st]. cbn [p_mode p_cur p_stack] in *.
  unfold inv_mode in Hm. cbn [p_mode p_cur p_stack] in Hm.
  assert (Hempty : wf_tree (Node [] nd_empty [])) by (apply wf_leaf; reflexivity).
  destruct m.
  - destruct (is_ws c) eqn:Ews; [injection E as <-; repeat split; assumption|].
    destruct (Z.eqb_spec c 34); [injection E as <-; repeat split; assumption|].
    destruct (Z.eqb_spec c 123).
    { injection E as <-. repeat split; cbn [p_stack]; [|discriminate]. constructor; [constructor|assumption]. }
    destruct (Z.eqb_spec c 125).
    { cbv zeta in E. match type of E with rbind (close_list ?x) _ = _ =>
        assert (Hk : Forall (Forall wf_tree) x /\ forall k r, x = k :: r -> k <> [Node [] nd_empty []]) end.
      { destruct st as [|[|k0 k] r]; [congruence| |].
        - split; [assumption|]. intros k r' Ek. injection Ek as <- <-. discriminate.
        - split; [apply inv_add; assumption|]. cbn [add_child]. intros kk r' Ek. injection Ek as <- <-.
          intros X. destruct k; discriminate. }
      match type of E with rbind (close_list ?x) _ = _ => destruct (close_list x) as [st3| | |] eqn:Ec end; try discriminate.
      cbn [rbind] in E. injection E as <-. destruct Hk as [Hk2 Hk3]. exact (inv_close _ cur st3 Hk2 Hk3 Ec). }
    destruct (Z.eqb_spec c 44).
    { injection E as <-. destruct (inv_add st _ Hst Hne Hempty). repeat split; assumption. }
    injection E as <-. split; [assumption|split; [assumption|]]. unfold inv_mode. cbn [p_mode p_cur].
    split; [exact Ews|]. intros [X|[]]. congruence.
  - destruct (is_ws c) eqn:Ews; [injection E as <-; repeat split; assumption|].
    destruct (Z.eqb_spec c 44); [injection E as <-; repeat split; assumption|].
    destruct (Z.eqb_spec c 125); [|discriminate].
    destruct (close_list st) as [st3| | |] eqn:Ec; try discriminate. cbn [rbind] in E. injection E as <-.
    apply (inv_close st cur st3 Hst); [|exact Ec]. intros k r ->. cbn in Hm. destruct Hm as (x & t & -> & Ht). intros X. apply (snoc_inj x []) in X. contradiction.
  - destruct (Z.eqb_spec c 34); injection E as <-; repeat split; assumption.
  - destruct (Z.eqb_spec c 34); [injection E as <-; repeat split; assumption|].
    assert (Hs : wf_tree (Node cur nd_string [])) by (apply wf_leaf; exact I).
    destruct (inv_add st _ Hst Hne Hs) as [A B].
    assert (Hlast : forall k r, add_child st (Node cur nd_string []) = k :: r -> exists x t, k = x ++ [t] /\ t <> Node [] nd_empty []).
    { intros k r Ek. destruct st as [|k0 r0]; [congruence|]. cbn [add_child] in Ek. injection Ek as <- <-. do 2 eexists. split; [reflexivity|discriminate]. }
    destruct (is_ws c) eqn:Ews.
    { injection E as <-. split; [assumption|split; [assumption|]]. unfold inv_mode. cbn [p_mode p_stack].
      destruct (add_child st (Node cur nd_string [])) as [|k r]; [congruence|]. exact (Hlast k r eq_refl). }
    destruct (Z.eqb_spec c 44); [injection E as <-; repeat split; assumption|].
    destruct (Z.eqb_spec c 125); [|discriminate].
    destruct (close_list _) as [st3| | |] eqn:Ec; try discriminate. cbn [rbind] in E. injection E as <-.
    apply (inv_close _ cur st3 A); [|exact Ec]. intros k r Ek X. destruct (Hlast k r Ek) as (x & t & -> & Ht). apply (snoc_inj x []) in X. contradiction.
  - destruct cur as [|c0 cw]; [contradiction|]. destruct Hm as [Hws Hn0]. set (cur := c0 :: cw) in *.
    destruct ((c =? 44) || (c =? 125)) eqn:Ed.
    + assert (Hu : classify cur <> nd_unknown) by (intros X; rewrite X in E; discriminate).
      assert (Hs : wf_tree (Node cur (classify cur) [])).
      { apply wf_leaf. apply leaf_of_kind; [discriminate|assumption|exact Hws|exact Hu]. }
      assert (Hty : classify cur <> nd_empty) by (intros X; pose proof (classify_kind cur Hn0) as Y; rewrite X in Y; discriminate).
      destruct (inv_add st _ Hst Hne Hs) as [A B].
      assert (Hlast : forall k r, add_child st (Node cur (classify cur) []) = k :: r -> exists x t, k = x ++ [t] /\ t <> Node [] nd_empty []).
      { intros k r Ek. destruct st as [|k1 r0]; [congruence|]. cbn [add_child] in Ek. injection Ek as <- <-. do 2 eexists. split; [reflexivity|].
        intros X. discriminate. }
      assert (E2 : (if c =? 44 then Ok (mkp s_value cur (add_child st (Node cur (classify cur) [])))
        else do st3 <- close_list (add_child st (Node cur (classify cur) [])); Ok (mkp s_delimiter cur st3)) = Ok s').
      { destruct (classify cur); try congruence; exact E. }
      clear E. destruct (Z.eqb_spec c 44); [injection E2 as <-; repeat split; assumption|].
      destruct (close_list _) as [st3| | |] eqn:Ec; try discriminate. cbn [rbind] in E2. injection E2 as <-.
      apply (inv_close _ cur st3 A); [|exact Ec]. intros k r Ek X. destruct (Hlast k r Ek) as (x & t & -> & Ht). apply (snoc_inj x []) in X. contradiction.
    + injection E as <-. split; [assumption|split; [assumption|]]. unfold inv_mode. cbn [p_mode p_cur]. subst cur. cbn [app].
      split; [exact Hws|]. change (c0 :: cw ++ [c]) with ((c0 :: cw) ++ [c]). rewrite in_app_iff. intros [X|[X|[]]]; [exact (Hn0 X)|congruence].
Qed.

Lemma prun_inv text : forall s s', inv s -> ~ In 0 text -> prun s text = Ok s' -> inv s'.
Proof.
  induction text as [|c text IH]; intros s s' Hi H0 E; cbn [prun] in E; [injection E as <-; exact Hi|].
  destruct (pstep s c) as [s1| | |] eqn:Es; try discriminate. cbn [rbind] in E.
  apply (IH s1 s'); [|intros X; apply H0; now right|exact E]. apply (pstep_inv s c s1 Hi); [|exact Es].
  intros ->. apply H0. now left.
Qed.

(** a leaf whose kind is not known: only possible as the very last value of the text *)
Lemma parse_wf text v ty ks : ~ In 0 text -> parse_text text = Ok (Node v ty ks) ->
  v = [] /\ ty = nd_list /\ exists pre last, ks = pre ++ [last] /\ Forall wf_tree pre /\
    (wf_tree last \/ exists w, last = Node w nd_unknown [] /\ value_kind w nd_unknown).
Proof.
  intros H0 H. unfold parse_text in H. destruct (prun pinit text) as [s| | |] eqn:Er; try discriminate. cbn [rbind] in H.
  assert (Hi : inv s).
  { apply (prun_inv text pinit s); [|exact H0|exact Er]. split; [|split; [discriminate|exact I]]. repeat constructor. }
  destruct Hi as (Hst & Hne & Hm). unfold pfinish in H. destruct s as [m cur st]. unfold inv_mode in Hm. cbn [p_mode p_cur p_stack] in *.
  destruct m; cbn [rbind] in H; try discriminate.
  - destruct st as [|k [|]]; try discriminate. injection H as <- <- <-. split; [reflexivity|]. split; [reflexivity|].
    inversion Hst as [|? ? Hk _]; subst.
    destruct Hm as (pre & last & Ek & _). exists pre, last. subst k. apply Forall_app in Hk. destruct Hk as [A B]. inversion B; subst. auto.
  - destruct st as [|k [|]]; try discriminate. cbn [add_child] in H. injection H as <- <- <-. split; [reflexivity|]. split; [reflexivity|].
    inversion Hst as [|? ? Hk _]; subst. exists k, (Node cur nd_string []). split; [reflexivity|]. split; [exact Hk|]. left. apply wf_leaf. exact I.
  - destruct st as [|k [|]]; try discriminate. cbn [add_child] in H. injection H as <- <- <-. split; [reflexivity|]. split; [reflexivity|].
    inversion Hst as [|? ? Hk _]; subst. exists k, (Node cur (classify cur) []). split; [reflexivity|]. split; [exact Hk|].
    destruct cur as [|c0 cw]; [contradiction|]. destruct Hm as [Hws Hn0].
    assert (Hd : classify (c0 :: cw) = nd_unknown \/ classify (c0 :: cw) <> nd_unknown) by (destruct (classify (c0 :: cw)); auto; right; discriminate).
    destruct Hd as [Hd|Hd].
    + right. exists (c0 :: cw). rewrite Hd. split; [reflexivity|]. rewrite <- Hd. now apply classify_kind.
    + left. apply wf_leaf. apply leaf_of_kind; [discriminate|assumption|exact Hws|exact Hd].
Qed.

Lemma pstep_total s c : p_stack s <> [] -> (exists s', pstep s c = Ok s' /\ p_stack s' <> []) \/ pstep s c = Throw.
Proof.
  intros Hne. destruct s as [m cur st]. cbn [p_stack] in Hne.
  assert (Hadd : forall t, add_child st t <> []) by (intros t; destruct st; [congruence|discriminate]).
  assert (Hcl : forall st0 cur, (exists s', (do st1 <- close_list st0; Ok (mkp s_delimiter cur st1)) = Ok s' /\ p_stack s' <> []) \/
     (do st1 <- close_list st0; Ok (mkp s_delimiter cur st1)) = Throw).
  { intros st0 cu. destruct st0 as [|k [|p r]]; cbn; eauto. left. eexists. split; [reflexivity|discriminate]. }
  unfold pstep. cbn [p_mode p_cur p_stack]. cbv zeta. destruct m.
  - destruct (is_ws c); [left; eauto|]. destruct (c =? 34); [left; eauto|].
    destruct (c =? 123); [left; eexists; split; [reflexivity|discriminate]|].
    destruct (c =? 125); [apply Hcl|]. destruct (c =? 44); left; eexists; (split; [reflexivity|]); cbn; auto.
  - destruct (is_ws c); [left; eauto|]. destruct (c =? 44); [left; eauto|]. destruct (c =? 125); [apply Hcl|auto].
  - destruct (c =? 34); left; eauto.
  - destruct (c =? 34); [left; eauto|]. destruct (is_ws c); [left; eexists; split; [reflexivity|apply Hadd]|].
    destruct (c =? 44); [left; eexists; split; [reflexivity|apply Hadd]|]. destruct (c =? 125); [apply Hcl|auto].
  - destruct ((c =? 44) || (c =? 125)); [|left; eauto].
    destruct (classify cur); auto; (destruct (c =? 44); [left; eexists; split; [reflexivity|apply Hadd]|apply Hcl]).
Qed.

Lemma prun_total text : forall s, p_stack s <> [] -> (exists s', prun s text = Ok s') \/ prun s text = Throw.
Proof.
  induction text as [|c text IH]; intros s Hs; cbn [prun]; [eauto|].
  destruct (pstep_total s c Hs) as [(s' & -> & Hs')| ->]; cbn [rbind]; auto.
Qed.

Lemma parse_total text : (exists t, parse_text text = Ok t) \/ parse_text text = Throw.
Proof.
  unfold parse_text. destruct (prun_total text pinit ltac:(discriminate)) as [(s & ->)| ->]; cbn [rbind]; [|auto].
  unfold pfinish. destruct (p_mode s); cbn [rbind]; auto; destruct s as [m cur [|k [|k2 st]]]; cbn; eauto.
Qed.

Lemma parse_result text : ~ In 0 text ->
  parse_text text = Throw \/
  exists pre last, parse_text text = Ok (Node [] nd_list (pre ++ [last])) /\ Forall wf_tree pre /\
    (wf_tree last \/ exists w, last = Node w nd_unknown [] /\ value_kind w nd_unknown).
Proof.
  intros H0. destruct (parse_total text) as [([v ty ks] & E)|E]; [|now left]. right.
  destruct (parse_wf text v ty ks H0 E) as (-> & -> & pre & last & -> & A & B). eauto.
Qed.

Lemma reparse text v ty ks t : ~ In 0 text -> parse_text text = Ok (Node v ty ks) -> In t ks ->
  no_empty_list t -> node_ty t <> nd_unknown -> ~ is_empty_leaf t -> parse_text (outtext t []) = Ok (Node [] nd_list [t]).
Proof.
  intros H0 E Hin Hn Hu He. destruct (parse_wf text v ty ks H0 E) as (-> & -> & pre & last & -> & A & B).
  assert (Hw : wf_tree t).
  { rewrite in_app_iff in Hin. destruct Hin as [Hin|[<-|[]]].
    - exact (Forall_In _ _ _ A Hin).
    - destruct B as [B|(w & -> & _)]; [exact B|]. exfalso. apply Hu. reflexivity. }
  apply print_parse; [now apply wf_printable|exact He].
Qed.
