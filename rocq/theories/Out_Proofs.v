From Coq Require Import Sorted.
From Verif Require Import Prelude Text_Spec Text_Model Text_Proofs Codec_Spec Codec_Model Codec_Proofs Tree_Model Tree_Spec Tree_Proofs Lost_Spec Lost_Proofs Cf_Model Cfg_Model Cfg_Proofs Run_Model Depot_Model Depot_Spec Depot_Proofs Depot_Export Save_Model Save_Spec Save_Proofs Conf_Files Out_Model Out_Spec.
Ltac Zify.zify_post_hook ::= idtac.

(** ** Maps *)
Lemma fold_get (k : list Z) (l : list (list Z * list Z)) : forall a, fold_left (fun a '(k', d) => if list_eq_dec Z.eq_dec k k' then Some d else a) l a = match map_get l k with Some d => Some d | None => a end.
Proof.
  unfold map_get. induction l as [|[k' d] l IH]; intros a; [reflexivity|]. cbn [fold_left]. rewrite IH. destruct (list_eq_dec Z.eq_dec k k'); [|reflexivity]. rewrite (IH (Some d)). destruct (fold_left _ l None); reflexivity.
Qed.
Lemma map_get_app l1 l2 k : map_get (l1 ++ l2) k = match map_get l2 k with Some d => Some d | None => map_get l1 k end.
Proof. unfold map_get at 1. rewrite fold_left_app. rewrite fold_get. reflexivity. Qed.
Lemma puts_get (l : list (list Z * list Z)) k : mget k (puts l) = map_get l k.
Proof.
  unfold puts. assert (G : forall m, mget k (fold_left (fun m '(k, v) => mput k v m) l m) = match map_get l k with Some d => Some d | None => mget k m end).
  { induction l as [|[k' d] l IH]; intros m; [reflexivity|]. cbn [fold_left]. rewrite IH. change ((k', d) :: l) with ([(k', d)] ++ l). rewrite map_get_app. destruct (map_get l k); [reflexivity|]. unfold map_get. cbn [fold_left].
    destruct (list_eq_dec Z.eq_dec k k') as [->|N]; [apply mget_put_same|now apply mget_put_other]. }
  rewrite G. destruct (map_get l k); reflexivity.
Qed.
Lemma puts_sorted {A} (l : list (list Z * A)) : sorted (puts l).
Proof.
  unfold puts. assert (G : forall m, sorted m -> sorted (fold_left (fun m '(k, v) => mput k v m) l m)); [|apply G; constructor].
  induction l as [|[k d] l IH]; intros m H; [exact H|]. cbn [fold_left]. apply IH. now apply mput_sorted.
Qed.
Lemma puts_In l k d : In (k, d) (puts l) <-> map_get l k = Some d.
Proof.
  rewrite <- puts_get. split; [apply mget_In; apply sorted_nodup; apply puts_sorted|apply In_mget].
Qed.
Lemma puts_key l k : In k (map fst (puts l)) <-> map_get l k <> None.
Proof.
  split.
  - intros H. apply in_map_iff in H. destruct H as ([k' d] & <- & H). apply puts_In in H. cbn [fst]. congruence.
  - destruct (map_get l k) as [d|] eqn:E; [|contradiction]. intros _. apply puts_In in E. apply (in_map fst) in E. exact E.
Qed.
Lemma map_get_map (f : list Z -> list Z) l k : map_get (map (fun '(k, i) => (k, f i)) l) k = option_map f (map_get l k).
Proof.
  induction l as [|[k' d] l IH]; [reflexivity|]. cbn [map]. change ((k', f d) :: map (fun '(k, i) => (k, f i)) l) with ([(k', f d)] ++ map (fun '(k, i) => (k, f i)) l). change ((k', d) :: l) with ([(k', d)] ++ l). rewrite !map_get_app, IH. destruct (map_get l k); [reflexivity|].
  unfold map_get. cbn [fold_left]. destruct (list_eq_dec Z.eq_dec k k'); reflexivity.
Qed.

(** ** Identifiers *)
Lemma hex_ok b : 0 <= b < 16 -> is_hexd (hexdigit b).
Proof. intros H. unfold hexdigit, is_hexd. destruct (Z.ltb_spec b 10); lia. Qed.
Lemma hex_pair b : 0 <= b < 256 -> is_hexd (hexdigit (Z.shiftr b 4)) /\ is_hexd (hexdigit (Z.land b 15)).
Proof.
  intros H. split; apply hex_ok.
  - rewrite Z.shiftr_div_pow2 by lia. change (2 ^ 4) with 16. split; [apply Z.div_pos; lia|apply Z.div_lt_upper_bound; lia].
  - change 15 with (Z.ones 4). rewrite Z.land_ones by lia. apply Z.mod_pos_bound. lia.
Qed.
Lemma format_hex g idx : bytes_ok g -> Forall (fun i => 0 <= i < zlen g) idx -> exists t, (forall rest r, format_guid g rest = Ok r -> format_guid g (idx ++ rest) = Ok (t ++ r)) /\ length t = (2 * length idx)%nat /\ Forall is_hexd t.
Proof.
  intros B. induction 1 as [|i idx H _ (t & T1 & T2 & T3)]; [exists []; split; [auto|]; split; [reflexivity|constructor]|].
  destruct (nth_error g (Z.to_nat i)) as [b|] eqn:E; [|apply nth_error_None in E; unfold zlen in H; lia]. exists (hexdigit (Z.shiftr b 4) :: hexdigit (Z.land b 15) :: t).
  assert (Hb : 0 <= b < 256) by (unfold bytes_ok in B; rewrite Forall_forall in B; apply B; eapply nth_error_In; exact E). destruct (hex_pair b Hb) as (X & Y). split; [|split; [cbn [length]; lia|now constructor; [|constructor]]].
  intros rest r Hr. cbn [app format_guid]. destruct (Z.eqb_spec i (-1)); [lia|]. rewrite (rd_ok g i b) by (assumption || lia). cbn [rbind]. rewrite (T1 rest r Hr). reflexivity.
Qed.
Lemma ms_form g : is_guid g -> exists t, guid_as_MS g = Ok t /\ guid_text t.
Proof.
  intros [L B]. unfold guid_as_MS. assert (Z16 : zlen g = 16) by (unfold zlen; lia).
  destruct (format_hex g [3; 2; 1; 0] B) as (a & A1 & A2 & A3); [repeat constructor; lia|]. destruct (format_hex g [5; 4] B) as (b & B1 & B2 & B3); [repeat constructor; lia|]. destruct (format_hex g [7; 6] B) as (c & C1 & C2 & C3); [repeat constructor; lia|].
  destruct (format_hex g [8; 9] B) as (d & D1 & D2 & D3); [repeat constructor; lia|]. destruct (format_hex g [10; 11; 12; 13; 14; 15] B) as (e & E1 & E2 & E3); [repeat constructor; lia|].
  assert (M : forall idx r, format_guid g idx = Ok r -> format_guid g (-1 :: idx) = Ok (45 :: r)) by (intros idx r H; cbn [format_guid]; rewrite H; reflexivity).
  exists (a ++ 45 :: b ++ 45 :: c ++ 45 :: d ++ 45 :: e ++ []). split.
  - change idx_MS with ([3; 2; 1; 0] ++ -1 :: [5; 4] ++ -1 :: [7; 6] ++ -1 :: [8; 9] ++ -1 :: [10; 11; 12; 13; 14; 15] ++ []). apply A1, M, B1, M, C1, M, D1, M, E1. reflexivity.
  - exists a, b, c, d, e. rewrite app_nil_r. cbn [app]. split; [reflexivity|]. unfold hexn. repeat split; assumption.
Qed.
Lemma ms_ok g : is_guid g -> guid_as_MS g = Ok (ms g) /\ guid_text (ms g).
Proof. intros H. destruct (ms_form g H) as (t & E & F). unfold ms. rewrite E. auto. Qed.
Lemma guid_leaf t : guid_text t -> printable (Node t nd_guid []).
Proof.
  intros H. apply pr_leaf. cbn [leaf_ok value_kind]. split; [exact H|]. destruct H as (a & b & c & d & e & -> & (L & F) & _). destruct a as [|x a]; [discriminate|]. cbn [app]. inversion F as [|? ? X _]; subst. unfold is_hexd in X. split; lia.
Qed.
Lemma to_string_written n : 0 <= n < 2 ^ 64 -> written n (to_string n).
Proof. intros H. unfold to_string. destruct (Z.ltb_spec n 0); [lia|]. apply decimal_written; [|lia]. change (10 ^ Z.of_nat 20) with 100000000000000000000. lia. Qed.
Lemma number_leaf n : 0 <= n < 2 ^ 64 -> printable (number n).
Proof.
  intros H. apply pr_leaf. destruct (to_string_written n H) as (ds & N & F & -> & _). cbn [leaf_ok value_kind]. split.
  - exists [], (map (fun d => d + 48) ds). split; [reflexivity|]. split; [now left|]. split; [destruct ds; [contradiction|discriminate]|]. clear - F. induction F as [|d ds H _ IH]; constructor; [unfold is_digit; lia|exact IH].
  - destruct ds as [|d ds]; [contradiction|]. cbn [map]. inversion F; subst. split; lia.
Qed.

(** ** The same loop with other data *)
Section Same.
Variables (same : list Z -> list Z -> bool) (v : Z) (rows : list vrow) (exts : list xrow).
Notation R := (map v_row rows).
Notation X := (map x_row exts).
Notation R' := (map id_row rows).
Notation X' := (map id_ext exts).
Lemma shown_id r : In r rows -> (shown v R' (id_row r) <-> shown v R (v_row r)).
Proof.
  intros Ir. unfold shown, decisive. split; intros (_ & H1 & H2 & H3); (split; [now apply in_map|]); (split; [exact H1|]); (split; [exact H2|]); intros r' Hr' E D; apply in_map_iff in Hr'; destruct Hr' as (q & <- & Iq).
  - apply (H3 (id_row q)); [now apply in_map|exact E|exact D].
  - apply (H3 (v_row q)); [now apply in_map|exact E|exact D].
Qed.
Lemma attached_id r x : In r rows -> In x exts -> (attached same v X' (id_row r) (id_ext x) <-> attached same v X (v_row r) (x_row x)).
Proof.
  intros Ir Ix. unfold attached. split; intros (_ & H1 & H2 & H3 & H4 & e' & He & H5 & H6 & H7); (split; [now apply in_map|]); (split; [exact H1|]); (split; [exact H2|]); (split; [exact H3|]); apply in_map_iff in He; destruct He as (q & <- & Iq); (split; [|]).
  - intros e Ie. apply in_map_iff in Ie. destruct Ie as (p & <- & Ip). apply (H4 (id_ext p)). now apply in_map.
  - exists (x_row q). split; [now apply in_map|]. split; [exact H5|]. split; [exact H6|exact H7].
  - intros e Ie. apply in_map_iff in Ie. destruct Ie as (p & <- & Ip). apply (H4 (x_row p)). now apply in_map.
  - exists (id_ext q). split; [now apply in_map|]. split; [exact H5|]. split; [exact H6|exact H7].
Qed.
Lemma sorted_map {A B} (f g : A -> B) (P : B -> B -> Prop) l : (forall a b, P (f a) (f b) -> P (g a) (g b)) -> StronglySorted P (map f l) -> StronglySorted P (map g l).
Proof.
  intros H. induction l as [|a l IH]; intros S0; [constructor|]. cbn [map] in *. inversion S0 as [|? ? S1 F]; subst. constructor; [now apply IH|]. rewrite Forall_forall in *. intros y Hy. apply in_map_iff in Hy. destruct Hy as (b & <- & Ib). apply H. apply F. now apply in_map.
Qed.
Lemma depot_id : depot_ok same R X -> depot_ok same R' X'.
Proof.
  intros [H1 H2 H3 H4 H5]. constructor; [exact H1| | | |].
  - rewrite Forall_forall in *. intros r Hr. apply in_map_iff in Hr. destruct Hr as (q & <- & Iq). apply (H2 (v_row q)). now apply in_map.
  - rewrite Forall_forall in *. intros r Hr. apply in_map_iff in Hr. destruct Hr as (q & <- & Iq). apply (H3 (x_row q)). now apply in_map.
  - revert H4. apply sorted_map. intros a b H. exact H.
  - revert H5. apply sorted_map. intros a b H. exact H.
Qed.
Lemma complete_id : complete same None v R' X'.
Proof.
  intros r (Ir & _). apply in_map_iff in Ir. destruct Ir as (q & <- & _). split; [exists (v_id q); now left|]. intros e (Ie & _). apply in_map_iff in Ie. destruct Ie as (p & <- & _). exists (x_id p). now left.
Qed.
Lemma exported_id k i : Forall (fun r => is_guid (h_obj r)) R -> (exported same ms None v R' X' k i <-> holds_id same v rows exts k i).
Proof.
  intros HG. rewrite Forall_forall in HG. assert (T : forall r, In r rows -> forall k, (k = ms (h_obj (v_row r)) <-> id_text (h_obj (v_row r)) k)).
  { intros r Ir k0. destruct (ms_ok (h_obj (v_row r))) as (E & _); [apply HG; now apply in_map|]. unfold id_text. rewrite E. split; [congruence|]. intros Q. congruence. }
  unfold exported, holds_id. split.
  - intros [(r & S1 & -> & [D|[D _]])|(r & e & S1 & A & -> & [D|[D _]])].
    + pose proof S1 as (Ir & _). apply in_map_iff in Ir. destruct Ir as (q & <- & Iq). left. exists q. split; [exact Iq|]. split; [now apply shown_id|]. split; [apply (T q Iq); reflexivity|]. cbn in D. congruence.
    + exfalso. pose proof S1 as (Ir & _). apply in_map_iff in Ir. destruct Ir as (q & <- & Iq). discriminate D.
    + pose proof S1 as (Ir & _). apply in_map_iff in Ir. destruct Ir as (q & <- & Iq). pose proof A as (Ie & _). apply in_map_iff in Ie. destruct Ie as (x & <- & Ix). right. exists (v_row q), x. split; [now apply shown_id|]. split; [exact Ix|]. split; [now apply attached_id|]. split; [reflexivity|]. cbn in D. congruence.
    + exfalso. pose proof A as (Ie & _). apply in_map_iff in Ie. destruct Ie as (x & <- & Ix). discriminate D.
  - intros [(r & Ir & S1 & E & ->)|(r & x & S1 & Ix & A & -> & ->)].
    + left. exists (id_row r). split; [now apply shown_id|]. split; [apply (T r Ir) in E; exact E|now left].
    + right. pose proof S1 as (Ir & _). apply in_map_iff in Ir. destruct Ir as (q & <- & Iq). exists (id_row q), (id_ext x). split; [now apply shown_id|]. split; [now apply attached_id|]. split; [reflexivity|now left].
Qed.
End Same.

Lemma export_log same oname pack v rows exts : depot_ok same rows exts -> rows <> [] -> complete same pack v rows exts ->
  exists log, export same oname pack v rows exts = Ok log /\ forall k d, In (k, d) log <-> exported same oname pack v rows exts k d.
Proof.
  intros [D1 D2 D3 D4 D5] NE HC. unfold export.
  assert (C0 : core same oname pack v exts [] (DS None (-1) true (repeat 0 16) exts [])).
  { unfold core. cbn [d_cur d_lastremoved d_rech1 d_lastver d_exts d_log]. repeat apply conj; [reflexivity|apply zero_guid|discriminate|intros _ r ([] & _)|exists []; split; [reflexivity|constructor]|intros r ([] & _)|].
    intros k d. split; [intros []|intros (r & ([] & _) & _)]. }
  destruct (loop_ok same oname pack v exts D1 D3 D5 rows [] _ None D2 D4 C0) as [(st & E & K1 & K2)|(E & r & K1 & K2)];
    [left; split; reflexivity|intros p []|reflexivity|reflexivity|exact NE| |]; cbn [app] in *; rewrite E; cbn [rbind].
  - exists (d_log st). split; [reflexivity|]. intros k d. rewrite exported_outs. apply K2.
  - exfalso. apply K2. apply HC. exact K1.
Qed.
Lemma map_get_Some l k d : map_get l k = Some d -> In (k, d) l.
Proof.
  induction l as [|[k' d'] l IH]; [discriminate|]. change ((k', d') :: l) with ([(k', d')] ++ l) at 1. rewrite map_get_app. destruct (map_get l k) as [x|]; [intros E; right; apply IH; exact E|]. unfold map_get. cbn [fold_left]. destruct (list_eq_dec Z.eq_dec k k') as [->|]; [|discriminate]. intros E. left. congruence.
Qed.
Lemma map_get_some l k d : In (k, d) l -> exists x, map_get l k = Some x.
Proof.
  induction l as [|[k' d'] l IH]; [intros []|]. intros H. change ((k', d') :: l) with ([(k', d')] ++ l). rewrite map_get_app. destruct (map_get l k) as [x|]; [exists x; reflexivity|]. destruct H as [H|H]; [|destruct (IH H) as (x & E); discriminate]. injection H as -> ->. unfold map_get. cbn [fold_left]. destruct (list_eq_dec Z.eq_dec k k); [eexists; reflexivity|contradiction].
Qed.
Lemma map_get_one k a d : map_get [(a, d)] k = if list_eq_dec Z.eq_dec k a then Some d else None.
Proof. reflexivity. Qed.

(** ** The container *)
Lemma numbered_combine m : forall j, map (fun x => c_name (snd x)) (map (fun '((k, _), j) => (k, CF (TF k [(Z.of_nat (S j), 1)] (Z.of_nat j)) k (-1))) (combine m (seq j (length m)))) = map fst (m : smap (list Z)).
Proof. induction m as [|[k d] m IH]; intros j; [reflexivity|]. cbn [length seq combine map snd c_name fst]. f_equal. apply IH. Qed.
Lemma numbered_stands now (all : list (list Z)) : forall (m : smap (list Z)) cs j, (forall i, (i < length m)%nat -> nth (j + i) all [] = snd (nth i m ([], []))) -> Forall2 (fun x c => fst x = utf8_of c /\ Forall scalar c) m cs ->
  Forall (fun x => snd x <> []) m -> (forall i, 0 <= now i < 2 ^ 64) ->
  Forall2 (stands (fun s _ => nth (Z.to_nat s - 1) all []) (fun t => (now (Z.to_nat t), now (Z.to_nat t)))) (map (fun '((k, _), j) => (k, CF (TF k [(Z.of_nat (S j), 1)] (Z.of_nat j)) k (-1))) (combine m (seq j (length m))))
    (map (fun '((c, x), j) => EN c (now j) (now j) (snd x)) (combine (combine cs m) (seq j (length m)))).
Proof.
  intros m cs. revert m. induction cs as [|c cs IH]; intros m j HN HC HD HT; inversion HC as [|[k d] ? m' ? (E1 & E2) HC']; subst; [constructor|]. inversion HD; subst. cbn [length seq combine map]. apply Forall2_cons.
  - unfold stands. cbn [snd c_name c_file t_time t_addr Save_Spec.e_name e_create e_modify e_bytes]. split; [exact E1|]. split; [exact E2|]. rewrite Nat2Z.id. split; [reflexivity|]. split; [apply HT|]. split; [|assumption].
    assert (Q : nth (Z.to_nat (Z.of_nat (S j)) - 1) all [] = d). { specialize (HN 0%nat ltac:(cbn [length]; lia)). rewrite Nat.add_0_r in HN. cbn [nth snd] in HN. rewrite Nat2Z.id. cbn [Nat.sub]. now rewrite Nat.sub_0_r. }
    cbn [snd]. assert (Q2 : d = nth (Z.to_nat (Z.of_nat (S j)) - 1) all [] ++ []) by (rewrite app_nil_r; now symmetry). rewrite Q2. apply (j_part (fun s _ => nth (Z.to_nat s - 1) all [])); [lia|constructor].
  - apply IH; [|assumption..]. intros i Hi. specialize (HN (S i) ltac:(cbn [length]; lia)). cbn [nth] in HN. rewrite <- HN. f_equal. lia.
Qed.
Lemma entries_has now (m : smap (list Z)) : forall cs j, Forall2 (fun x c => fst x = utf8_of c /\ Forall scalar c) m cs -> forall k d,
  has (map (fun '((c, x), j) => EN c (now j) (now j) (snd x)) (combine (combine cs m) (seq j (length m)))) k d <-> In (k, d) m.
Proof.
  intros cs. revert m. induction cs as [|c cs IH]; intros m j HC k d; inversion HC as [|[k' d'] ? m' ? (E1 & E2) HC']; subst; [split; [intros (e & [] & _)|intros []]|]. cbn [length seq combine map]. cbn [fst] in E1.
  specialize (IH m' (S j) HC' k d). unfold has in *. split.
  - intros (e & [<- |I1] & N & B); [left; cbn [Save_Spec.e_name e_bytes snd] in N, B; congruence|right; apply IH; exists e; auto].
  - intros [H|H]; [injection H as -> ->; eexists; split; [left; reflexivity|]; cbn [Save_Spec.e_name e_bytes snd]; split; [now symmetry|reflexivity]|]. apply IH in H. destruct H as (e & I1 & H). exists e. split; [now right|exact H].
Qed.
Lemma entries_names now (lower : list Z -> list Z) (m : smap (list Z)) : forall cs j, Forall2 (fun x c => fst x = utf8_of c /\ Forall scalar c) m cs ->
  map (fun e => lower (utf8_of (Save_Spec.e_name e))) (map (fun '((c, x), j) => EN c (now j) (now j) (snd x)) (combine (combine cs m) (seq j (length m)))) = map (fun x => lower (fst x)) m.
Proof.
  intros cs. revert m. induction cs as [|c cs IH]; intros m j HC; inversion HC as [|[k' d'] ? m' ? (E1 & E2) HC']; subst; [reflexivity|]. cbn [length seq combine map fst] in *. f_equal; [now rewrite E1|]. apply IH. exact HC'.
Qed.

(** ** All together *)
Lemma plain_utf8 t : Forall (fun c => 0 <= c < 128) t -> utf8_of t = t /\ Forall scalar t.
Proof.
  induction 1 as [|c t H _ (IH & IS)]; [split; [reflexivity|constructor]|]. split.
  - unfold utf8_of in *. cbn [flat_map]. rewrite IH. unfold enc8. destruct (Z.ltb_spec c 128); [reflexivity|lia].
  - constructor; [unfold scalar; lia|exact IS].
Qed.
Lemma guid_plain t : guid_text t -> Forall (fun c => 0 <= c < 128) t.
Proof.
  assert (H0 : forall n s, hexn n s -> Forall (fun c => 0 <= c < 128) s) by (intros n s (_ & F); eapply Forall_impl; [|exact F]; unfold is_hexd; intros; lia).
  intros (a & b & c & d & e & -> & A & B & C & D & E). apply Forall_app. split; [eapply H0; exact A|]. cbn [app]. constructor; [lia|]. apply Forall_app. split; [eapply H0; exact B|]. cbn [app]. constructor; [lia|]. apply Forall_app. split; [eapply H0; exact C|]. cbn [app]. constructor; [lia|].
  apply Forall_app. split; [eapply H0; exact D|]. cbn [app]. constructor; [lia|]. eapply H0; exact E.
Qed.
Lemma NoDup_lower (lower : list Z -> list Z) (m : smap (list Z)) : NoDup (map fst m) -> (forall k d k' d', In (k, d) m -> In (k', d') m -> lower k = lower k' -> k = k') -> NoDup (map (fun x => lower (fst x)) m).
Proof.
  induction m as [|[k d] m IH]; intros N H; [constructor|]. cbn [map fst] in *. inversion N as [|? ? N1 N2]; subst. constructor.
  - intros I1. apply in_map_iff in I1. destruct I1 as ([k' d'] & E & I1). cbn [fst] in E. assert (k' = k) by (apply (H k' d' k d); [now right|now left|exact E]). subst k'. apply N1. apply (in_map fst) in I1. exact I1.
  - apply IH; [exact N2|]. intros k1 d1 k2 d2 I1 I2. apply (H k1 d1 k2 d2); now right.
Qed.
Lemma choose_names (m : smap (list Z)) : Forall (fun x => exists c, fst x = utf8_of c /\ Forall scalar c) m -> exists cs, Forall2 (fun x c => fst x = utf8_of c /\ Forall scalar c) m cs.
Proof. induction 1 as [|x m (c & H) _ (cs & IH)]; [exists []; constructor|]. exists (c :: cs). now constructor. Qed.
Section Main.
Variables (lower : list Z -> list Z) (same : list Z -> list Z -> bool) (fuel : nat) (after : list Z) (now : nat -> Z) (uuid : nat -> list Z) (deflate : list Z -> list Z) (inflate : list Z -> option (list Z)).
Variables (pack : option (list Z -> option (list Z))) (ver major minor : Z) (root : list Z) (rows : list vrow) (exts : list xrow).
Hypothesis HL : NoDup (map lower [s_root; s_version; s_versions]).
Hypothesis HA : In 0 after.
Hypothesis HT : forall i, 0 <= now i < 2 ^ 64.
Hypothesis HU : forall i, is_guid (uuid i).
Hypothesis HD : forall x, inflate (deflate x) = Some x.
Hypothesis HE : forall x, x <> [] -> deflate x <> [].
Hypothesis HM : 0 <= major < 2 ^ 16 /\ 0 <= minor < 2 ^ 16.
Hypothesis HR : is_guid root.
Hypothesis HS : depot_sound same rows exts.
Hypothesis HC : complete same pack ver (map v_row rows) (map x_row exts).
Hypothesis HN : names_clear lower same pack ver rows exts.
Hypothesis HB : zlen rows + zlen exts < 2 ^ 62.

Lemma text_reads es name t : printable t -> node_ty t = nd_list -> has es name (deflate (marked (outtext t []))) -> reads inflate es name t.
Proof.
  intros P L H. exists (deflate (marked (outtext t []))), (outtext t []). split; [exact H|]. split; [apply HD|]. apply print_parse; [exact P|]. intros E. unfold is_empty_leaf in E. subst t. discriminate L.
Qed.
Lemma puts_length {A} (l : list (list Z * A)) : (length (puts l) <= length l)%nat.
Proof.
  unfold puts. assert (P : forall k (v : A) m, (length (mput k v m) <= S (length m))%nat). { intros k v m. induction m as [|[k' v'] m IH]; [cbn; lia|]. cbn [mput]. destruct (eq_list k k'); [cbn [length]; lia|]. destruct (str_ltb k k'); cbn [length] in *; lia. }
  assert (G : forall m, (length (fold_left (fun m '(k, v) => mput k v m) l m) <= length l + length m)%nat); [|specialize (G []); cbn [length] in G; lia].
  induction l as [|[k d] l IH]; intros m; [cbn; lia|]. cbn [fold_left length]. specialize (IH (mput k d m)). specialize (P k d m). lia.
Qed.

Lemma shown_In r : shown ver (map v_row rows) r -> exists x, In x rows /\ v_row x = r.
Proof. intros (H & _). apply in_map_iff in H. destruct H as (x & E & I1). exists x. auto. Qed.
Lemma attached_In r e : attached same ver (map x_row exts) r e -> exists x, In x exts /\ x_row x = e.
Proof. intros (H & _). apply in_map_iff in H. destruct H as (x & E & I1). exists x. auto. Qed.
Lemma obj_guid r : In r rows -> is_guid (h_obj (v_row r)).
Proof. destruct HS as ([_ G _ _ _] & _). rewrite Forall_map, Forall_forall in G. apply G. Qed.
Lemma name_ms g : name_text g = ms g.
Proof. unfold name_text, ms. reflexivity. Qed.
Lemma same_keys k : (exists d, holds_file same pack ver rows exts k d) <-> (exists i, holds_id same ver rows exts k i).
Proof.
  split.
  - intros (d & [(r & S1 & -> & _)|(r & e & S1 & A1 & -> & _)]).
    + destruct (shown_In r S1) as (x & I1 & <-). exists (v_id x). left. exists x. repeat (split; [assumption|]). split; [|reflexivity]. rewrite name_ms. unfold id_text. exact (proj1 (ms_ok _ (obj_guid x I1))).
    + destruct (attached_In r e A1) as (x & I1 & <-). exists (x_id x). right. exists r, x. auto.
  - intros (i & [(r & I1 & S1 & T & _)|(r & x & S1 & I1 & A1 & -> & _)]).
    + destruct (HC _ S1) as ((d & D) & _). exists d. left. exists (v_row r). split; [exact S1|]. split; [|exact D]. unfold name_text. unfold id_text in T. now rewrite T.
    + destruct (HC _ S1) as (_ & D). destruct (D _ A1) as (d & D1). exists d. right. exists r, (x_row x). auto.
Qed.
Lemma exported_name k d : exported same ms pack ver (map v_row rows) (map x_row exts) k d <-> holds_file same pack ver rows exts k d.
Proof.
  unfold holds_file, exported. split; (intros [(r & A & B & C)|H]; [left; exists r; split; [exact A|]; split; [|exact C]|right; exact H]); [now rewrite name_ms|now rewrite <- name_ms].
Qed.
Lemma id_guid k i : holds_id same ver rows exts k i -> is_guid i.
Proof.
  destruct HS as (_ & _ & G1 & G2 & _). rewrite Forall_forall in G1, G2. intros [(r & I1 & _ & _ & ->)|(r & x & _ & I1 & _ & _ & ->)]; auto.
Qed.
Lemma file_name k d : holds_file same pack ver rows exts k d -> exists c, k = utf8_of c /\ Forall scalar c.
Proof.
  intros [(r & S1 & -> & _)|(r & e & S1 & A1 & -> & _)].
  - destruct (shown_In r S1) as (x & I1 & <-). destruct (ms_ok _ (obj_guid x I1)) as (_ & T). destruct (plain_utf8 _ (guid_plain _ T)) as (E & F). rewrite name_ms. exists (ms (h_obj (v_row x))). split; [symmetry; exact E|exact F].
  - destruct (attached_In r e A1) as (x & I1 & <-). destruct HS as (_ & _ & _ & _ & G). rewrite Forall_forall in G. destruct (G x I1) as (c & F & E). exists c. auto.
Qed.
Lemma key_bound k i : holds_id same ver rows exts k i -> In k (map (fun r => ms (h_obj (v_row r))) rows ++ map (fun x => Depot_Model.e_name (x_row x)) exts).
Proof.
  intros [(r & I1 & _ & T & _)|(r & x & _ & I1 & _ & -> & _)]; apply in_or_app; [left|right]; apply in_map_iff; [exists r|exists x]; split; try assumption; try reflexivity. unfold ms. unfold id_text in T. now rewrite T.
Qed.
Lemma reserved_plain n : In n [s_root; s_version; s_versions] -> exists c, n = utf8_of c /\ Forall scalar c.
Proof.
  intros H. assert (F : Forall (fun c => 0 <= c < 128) n) by (destruct H as [<- |[<- |[<- |[]]]]; unfold s_root, s_version, s_versions; repeat (constructor; [lia|]); constructor).
  destruct (plain_utf8 n F) as (E & G). exists n. auto.
Qed.
Lemma reserved_inj a b : In a [s_root; s_version; s_versions] -> In b [s_root; s_version; s_versions] -> lower a = lower b -> a = b.
Proof.
  intros A B E. cbn [map] in HL. inversion HL as [|? ? N1 N2]; subst. inversion N2 as [|? ? N3 N4]; subst. cbn [In] in *.
  destruct A as [<- |[<- |[<- |[]]]], B as [<- |[<- |[<- |[]]]]; try reflexivity; exfalso; intuition congruence.
Qed.

Theorem version_saved : exists es, configuration lower same pack ver rows exts inflate major minor root es /\
  (room es < 2147483647 -> room es <= Z.of_nat fuel ->
   exists d ys, save_version lower same fuel after now uuid deflate pack ver major minor root rows exts = Ok d /\
     (forall junk, length junk = 31%nat -> is_catalog junk d = Ok true) /\ open_files fuel after d = Ok ys /\ Forall2 (shows fuel after d) ys es).
Proof.
  destruct HS as (DO & NE & GI & GX & UX). destruct HN as (N1 & N2 & N3).
  assert (GR : Forall (fun r => is_guid (h_obj r)) (map v_row rows)) by apply DO.
  destruct (export_log same ms pack ver _ _ DO) as (data & ED & HDt); [destruct rows; [contradiction|discriminate]|exact HC|].
  destruct (export_log same ms None ver _ _ (depot_id same rows exts DO)) as (ids & EI & HI0); [destruct rows; [contradiction|discriminate]|apply complete_id|].
  assert (HI : forall k i, In (k, i) ids <-> holds_id same ver rows exts k i) by (intros k i; rewrite HI0; now apply exported_id). clear HI0.
  assert (HDt2 : forall k d, In (k, d) data <-> holds_file same pack ver rows exts k d) by (intros k d; rewrite HDt; apply exported_name). clear HDt. rename HDt2 into HDt.
  (* the two maps *)
  assert (MD : forall k d, holds_file same pack ver rows exts k d -> map_get data k = Some d).
  { intros k d H. destruct (map_get_some data k d ltac:(now apply HDt)) as (x & E). rewrite E. f_equal. apply map_get_Some in E. apply HDt in E. now destruct (N1 k x k d E H eq_refl). }
  assert (MI : forall k i, holds_id same ver rows exts k i -> map_get ids k = Some i).
  { intros k i H. destruct (map_get_some ids k i ltac:(now apply HI)) as (x & E). rewrite E. f_equal. apply map_get_Some in E. apply HI in E. exact (N2 k x i E H). }
  set (vm := vermap uuid ids). set (em := extmap deflate major minor root vm data).
  assert (NR : forall k n, (exists d, holds_file same pack ver rows exts k d) -> In n [s_root; s_version; s_versions] -> k <> n) by (intros k n (d & H) I1 ->; destruct (N3 n d H) as (_ & _ & N); exact (N n I1 eq_refl)).
  (* the map of the identifiers *)
  assert (VG : forall k, map_get ([([], ms (uuid 0%nat)); (s_version, ms (uuid 1%nat))] ++ map (fun '(k, i) => (k, ms i)) ids ++ [(s_versions, ms (uuid 2%nat)); (s_root, ms (uuid 3%nat))]) k =
    if list_eq_dec Z.eq_dec k s_root then Some (ms (uuid 3%nat)) else if list_eq_dec Z.eq_dec k s_versions then Some (ms (uuid 2%nat)) else
    match map_get ids k with Some i => Some (ms i) | None => if list_eq_dec Z.eq_dec k s_version then Some (ms (uuid 1%nat)) else if list_eq_dec Z.eq_dec k [] then Some (ms (uuid 0%nat)) else None end).
  { intros k. rewrite !map_get_app, map_get_map. change [(s_versions, ms (uuid 2%nat)); (s_root, ms (uuid 3%nat))] with ([(s_versions, ms (uuid 2%nat))] ++ [(s_root, ms (uuid 3%nat))]). change [([], ms (uuid 0%nat)); (s_version, ms (uuid 1%nat))] with ([([] : list Z, ms (uuid 0%nat))] ++ [(s_version, ms (uuid 1%nat))]).
    rewrite !map_get_app, !map_get_one. destruct (list_eq_dec Z.eq_dec k s_root); [reflexivity|]. destruct (list_eq_dec Z.eq_dec k s_versions); [reflexivity|]. destruct (map_get ids k); [reflexivity|]. cbn [option_map]. destruct (list_eq_dec Z.eq_dec k s_version); reflexivity. }
  assert (EG : forall k, map_get ([(s_version, deflate (marked (version_text major minor)))] ++ data ++ [(s_root, deflate (marked (root_text root))); (s_versions, deflate (marked (versions_text vm)))]) k =
    if list_eq_dec Z.eq_dec k s_versions then Some (deflate (marked (versions_text vm))) else if list_eq_dec Z.eq_dec k s_root then Some (deflate (marked (root_text root))) else
    match map_get data k with Some d => Some d | None => if list_eq_dec Z.eq_dec k s_version then Some (deflate (marked (version_text major minor))) else None end).
  { intros k. rewrite !map_get_app. change [(s_root, deflate (marked (root_text root))); (s_versions, deflate (marked (versions_text vm)))] with ([(s_root, deflate (marked (root_text root)))] ++ [(s_versions, deflate (marked (versions_text vm)))]).
    rewrite !map_get_app, !map_get_one. destruct (list_eq_dec Z.eq_dec k s_versions); [reflexivity|]. destruct (list_eq_dec Z.eq_dec k s_root); [reflexivity|]. destruct (map_get data k); reflexivity. }
  assert (EM : forall k d, In (k, d) em <-> holds_file same pack ver rows exts k d \/ (k = s_version /\ d = deflate (marked (version_text major minor))) \/ (k = s_root /\ d = deflate (marked (root_text root))) \/ (k = s_versions /\ d = deflate (marked (versions_text vm)))).
  { intros k d. unfold em, extmap. rewrite puts_In, EG. split.
    - destruct (list_eq_dec Z.eq_dec k s_versions) as [E|_]; [intros H; injection H as <-; auto|]. destruct (list_eq_dec Z.eq_dec k s_root) as [E|_]; [intros H; injection H as <-; auto|].
      destruct (map_get data k) as [x|] eqn:E; [intros H; injection H as ->; left; apply HDt, map_get_Some, E|]. destruct (list_eq_dec Z.eq_dec k s_version) as [E1|_]; [intros H; injection H as <-; auto|discriminate].
    - intros [H|[(-> & ->)|[(-> & ->)|(-> & ->)]]].
      + destruct (list_eq_dec Z.eq_dec k s_versions) as [E|_]; [exfalso; apply (NR k s_versions); [exists d; exact H|cbn; auto|exact E]|]. destruct (list_eq_dec Z.eq_dec k s_root) as [E|_]; [exfalso; apply (NR k s_root); [exists d; exact H|cbn; auto|exact E]|]. now rewrite (MD k d H).
      + destruct (list_eq_dec Z.eq_dec s_version s_versions); [discriminate|]. destruct (list_eq_dec Z.eq_dec s_version s_root); [discriminate|]. destruct (map_get data s_version) as [x|] eqn:E; [|reflexivity]. exfalso. apply (NR s_version s_version); [exists x; apply HDt, map_get_Some, E|cbn; auto|reflexivity].
      + destruct (list_eq_dec Z.eq_dec s_root s_versions); [discriminate|]. reflexivity.
      + reflexivity. }
  assert (VK : forall k, In k (map fst vm) <-> k = [] \/ In k [s_root; s_version; s_versions] \/ exists d, holds_file same pack ver rows exts k d).
  { intros k. unfold vm, vermap. rewrite puts_key, VG, same_keys. cbn [In]. destruct (list_eq_dec Z.eq_dec k s_root) as [->|A]; [split; [auto|discriminate]|]. destruct (list_eq_dec Z.eq_dec k s_versions) as [->|B]; [split; [auto 6|discriminate]|].
    destruct (map_get ids k) as [i|] eqn:E; [split; [intros _; right; right; exists i; apply HI, map_get_Some, E|discriminate]|]. destruct (list_eq_dec Z.eq_dec k s_version) as [->|C]; [split; [auto 6|discriminate]|]. destruct (list_eq_dec Z.eq_dec k []) as [->|D]; [split; [auto|discriminate]|].
    split; [congruence|]. intros [?|[[?|[?|[?|[]]]]|(i & H)]]; try (exfalso; congruence). rewrite (MI k i H) in E. discriminate. }
  assert (VV : forall k t, In (k, t) vm -> guid_text t).
  { intros k t. unfold vm, vermap. rewrite puts_In, VG. intros H. assert (UU : forall j, guid_text (ms (uuid j))) by (intros j; apply ms_ok, HU).
    destruct (list_eq_dec Z.eq_dec k s_root); [injection H as <-; apply UU|]. destruct (list_eq_dec Z.eq_dec k s_versions); [injection H as <-; apply UU|]. destruct (map_get ids k) as [i|] eqn:E; [injection H as <-; apply ms_ok; apply (id_guid k), HI, map_get_Some, E|].
    destruct (list_eq_dec Z.eq_dec k s_version); [injection H as <-; apply UU|]. destruct (list_eq_dec Z.eq_dec k []); [injection H as <-; apply UU|discriminate]. }
  assert (VS : NoDup (map fst vm)) by (apply sorted_nodup, puts_sorted).
  assert (VB : 0 <= zlen vm < 2 ^ 64).
  { split; [unfold zlen; lia|]. assert (L : (length (map fst vm) <= length ([] :: s_root :: s_version :: s_versions :: map (fun r => ms (h_obj (v_row r))) rows ++ map (fun x => Depot_Model.e_name (x_row x)) exts))%nat).
    { apply NoDup_incl_length; [exact VS|]. intros k Hk. apply VK in Hk. cbn [In] in *. destruct Hk as [->|[[?|[?|[?|[]]]]|Hk]]; auto 6. apply same_keys in Hk. destruct Hk as (i & Hk). do 4 right. exact (key_bound k i Hk). }
    rewrite map_length in L. cbn [length] in L. rewrite app_length, !map_length in L. unfold zlen in *. lia. }
  (* the names *)
  assert (ES : NoDup (map fst em)) by (apply sorted_nodup, puts_sorted).
  assert (EN' : Forall (fun x => exists c, fst x = utf8_of c /\ Forall scalar c) em).
  { apply Forall_forall. intros [k d] H. cbn [fst]. apply EM in H. destruct H as [H|[(-> & _)|[(-> & _)|(-> & _)]]]; [exact (file_name k d H)| | |]; apply reserved_plain; cbn; auto. }
  destruct (choose_names em EN') as (cs & HCs).
  assert (EL : NoDup (map (fun x => lower (fst x)) em)).
  { apply NoDup_lower; [exact ES|]. intros k d k' d' H H' E. apply EM in H. apply EM in H'.
    assert (Q : forall n x y, holds_file same pack ver rows exts x y -> In n [s_root; s_version; s_versions] -> lower x <> lower n) by (intros n x y Hx; now apply (N3 x y)).
    assert (P : forall q e, (q = s_version /\ e = deflate (marked (version_text major minor))) \/ (q = s_root /\ e = deflate (marked (root_text root))) \/ (q = s_versions /\ e = deflate (marked (versions_text vm))) -> In q [s_root; s_version; s_versions]) by (intros q e [(-> & _)|[(-> & _)|(-> & _)]]; cbn; auto).
    destruct H as [H|H]; [|apply P in H]; (destruct H' as [H'|H']; [|apply P in H']).
    - apply (N1 k d k' d' H H' E).
    - exfalso. exact (Q k' k d H H' E).
    - exfalso. exact (Q k k' d' H' H (eq_sym E)).
    - now apply reserved_inj. }
  exists (map (fun '((c, x), j) => EN c (now j) (now j) (snd x)) (combine (combine cs em) (seq 0 (length em)))).
  assert (HH := fun k d => entries_has now em cs 0%nat HCs k d). split.
  - unfold configuration. split; [rewrite (entries_names now lower em cs 0%nat HCs); exact EL|]. split; [intros k d H; apply HH, EM; now left|]. split.
    { intros k d H. apply HH, EM in H. cbn [In]. destruct H as [H|[(-> & _)|[(-> & _)|(-> & _)]]]; auto. }
    split.
    { exists (to_string major), (to_string minor). split; [apply to_string_written; lia|]. split; [apply to_string_written; lia|]. apply text_reads; [|reflexivity|].
      - apply pr_list; [discriminate|discriminate|]. constructor; [|constructor]. apply pr_list; [discriminate|discriminate|]. constructor; [apply number_leaf; lia|]. constructor; [apply number_leaf; lia|constructor].
      - apply HH, EM. auto. }
    split.
    { exists (ms root). destruct (ms_ok root HR) as (E & T). split; [exact E|]. apply text_reads; [|reflexivity|apply HH, EM; auto].
      apply pr_list; [discriminate|discriminate|]. constructor; [|constructor; [now apply guid_leaf|constructor]]. apply (number_leaf 2). lia. }
    exists (to_string (zlen vm)), vm. split; [now apply to_string_written|]. split.
    { apply text_reads; [|reflexivity|].
      - apply pr_list; [discriminate|discriminate|]. constructor; [apply (number_leaf 1); lia|]. constructor; [now apply number_leaf|]. unfold pairs. apply Forall_flat_map, Forall_forall. intros [k t] H. cbn [fst snd]. constructor; [apply pr_leaf; exact Logic.I|]. constructor; [apply guid_leaf; exact (VV k t H)|constructor].
      - assert (Q : pairs vm = flat_map (fun '(k, i) => [Node k nd_string []; Node i nd_guid []]) vm) by (unfold pairs; apply flat_map_ext; intros [k i]; reflexivity). rewrite Q. apply HH, EM. auto 6. }
    split; [exact VS|]. split.
    { intros k i H. exists (ms i). split; [apply ms_ok; exact (id_guid k i H)|]. unfold vm, vermap. rewrite puts_In, VG. assert (Hk : exists d, holds_file same pack ver rows exts k d) by (apply same_keys; exists i; exact H).
      destruct (list_eq_dec Z.eq_dec k s_root) as [E|_]; [exfalso; apply (NR k s_root Hk); [cbn; auto|exact E]|]. destruct (list_eq_dec Z.eq_dec k s_versions) as [E|_]; [exfalso; apply (NR k s_versions Hk); [cbn; auto|exact E]|]. now rewrite (MI k i H). }
    intros k. rewrite VK. split.
    + intros [->|[H|(d & H)]]; [auto|right|right; exists d; apply HH, EM; auto]. cbn [In] in H. destruct H as [<- |[<- |[<- |[]]]]; eexists; apply HH, EM; auto 8.
    + intros [->|(b & H)]; [auto|right]. apply HH, EM in H. cbn [In]. destruct H as [H|[(-> & _)|[(-> & _)|(-> & _)]]]; auto. right. exists b. exact H.
  - intros R1 R2. unfold save_version. rewrite ED. cbn [rbind]. unfold ids_of. rewrite EI. cbn [rbind]. fold vm. fold em. unfold write_files.
    assert (ND : Forall (fun x => snd x <> []) em).
    { apply Forall_forall. intros [k d] H. cbn [snd]. apply EM in H. destruct H as [H|[(_ & ->)|[(_ & ->)|(_ & ->)]]]; [exact (proj1 (proj2 (N3 k d H)))| | |]; apply HE; unfold marked; discriminate. }
    assert (ST := numbered_stands now (map snd em) em cs 0%nat ltac:(intros i Hi; cbn [Nat.add]; now rewrite (map_nth_lt snd em i ([], []))) HCs ND HT).
    assert (NL : NoDup (map (fun x => lower (c_name (snd x))) (numbered em))).
    { rewrite <- (map_map (fun x => c_name (snd x)) lower). unfold numbered. rewrite numbered_combine, map_map. exact EL. }
    destruct (saved_ok lower fuel after _ _ (numbered em) _ HA NL ST R1 R2) as (d & ys & E1 & E2 & E3 & E4 & _). exists d, ys. auto.
Qed.
End Main.
