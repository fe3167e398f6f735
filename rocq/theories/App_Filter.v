(** Proofs about table filters, version ranges and times. *)
From Coq Require Import String Ascii.
From Verif Require Import Prelude Lists Text_Model Text_Spec Text_Proofs Codec_Model Codec_Proofs App_Model App_Spec App_Proofs.
Ltac Zify.zify_post_hook ::= idtac.

(** ** The text of the filter *)
Definition is_sep (c : Z) : bool := (c =? 32) || (c =? 9) || (c =? 44) || (c =? 59) || (c =? 10).
Lemma is_sep_ok c : is_sep c = true <-> separator c.
Proof. unfold is_sep, separator. rewrite !orb_true_iff, !Z.eqb_eq. tauto. Qed.
Definition tr (c : Z) : list Z := if c =? 42 then [46; 42] else if c =? 63 then [46] else if is_sep c then [10] else [c].

Lemma flat_flat {A B C} (f : B -> list C) (g : A -> list B) l : flat_map f (flat_map g l) = flat_map (fun x => flat_map f (g x)) l.
Proof. induction l as [|x l IH]; [reflexivity|]. cbn [flat_map]. rewrite flat_map_app, IH. reflexivity. Qed.

Lemma filter_text_ok f : filter_text f = Ok (flat_map tr f).
Proof.
  unfold filter_text. rewrite !replace_all. cbn [rbind]. rewrite !replace_all. cbn [rbind]. rewrite !replace_all. cbn [rbind]. rewrite !replace_all. cbn [rbind]. rewrite !replace_all. cbn [rbind]. rewrite replace_all.
  f_equal. unfold subst1. rewrite !flat_flat. apply flat_map_ext. intros c. unfold tr, is_sep.
  destruct (Z.eqb_spec c 42) as [->|]; [reflexivity|]. cbn [flat_map app]. destruct (Z.eqb_spec c 63) as [->|]; [reflexivity|]. cbn [flat_map app].
  destruct (Z.eqb_spec c 32) as [->|]; [reflexivity|]. cbn [flat_map app]. destruct (Z.eqb_spec c 9) as [->|]; [reflexivity|]. cbn [flat_map app].
  destruct (Z.eqb_spec c 44) as [->|]; [reflexivity|]. cbn [flat_map app]. destruct (Z.eqb_spec c 59) as [->|]; [reflexivity|]. cbn [flat_map app orb].
  destruct (Z.eqb_spec c 10) as [->|]; reflexivity.
Qed.

(** the pieces between separators *)
Fixpoint pieces (f cur : list Z) : list (list Z) :=
  match f with [] => [cur] | c :: t => if is_sep c then cur :: pieces t [] else pieces t (cur ++ [c]) end.
Definition nonempty (l : list Z) : bool := match l with [] => false | _ => true end.

Lemma get_lines_line l : ~ In 10 l -> forall t cur, get_lines (l ++ t) cur = get_lines t (cur ++ l).
Proof.
  induction l as [|c l IH]; intros H t cur; [rewrite app_nil_r; reflexivity|]. cbn [app get_lines].
  replace (c =? 10) with false by (symmetry; apply Z.eqb_neq; intros ->; apply H; left; reflexivity).
  rewrite IH by (intros E; apply H; right; exact E). rewrite <- app_assoc. reflexivity.
Qed.
Lemma tr_nonsep c : is_sep c = false -> ~ In 10 (tr c) /\ tr c <> [].
Proof.
  intros H. unfold tr. rewrite H. destruct (c =? 42); [split; [intros [E|[E|[]]]; lia|discriminate]|]. destruct (c =? 63); [split; [intros [E|[]]; lia|discriminate]|].
  split; [|discriminate]. intros [E|[]]. subst c. discriminate H.
Qed.
Lemma tr_sep c : is_sep c = true -> tr c = [10].
Proof.
  intros H. unfold tr. destruct (Z.eqb_spec c 42) as [->|]; [discriminate H|]. destruct (Z.eqb_spec c 63) as [->|]; [discriminate H|]. rewrite H. reflexivity.
Qed.
Lemma tr_nonempty l : nonempty (flat_map tr l) = nonempty l.
Proof.
  destruct l as [|c l]; [reflexivity|]. cbn [flat_map]. unfold tr at 1. destruct (c =? 42); [reflexivity|]. destruct (c =? 63); [reflexivity|]. destruct (is_sep c); reflexivity.
Qed.

Lemma lines_pieces f : forall cur, filter nonempty (get_lines (flat_map tr f) (flat_map tr cur)) = map (flat_map tr) (filter nonempty (pieces f cur)).
Proof.
  induction f as [|c f IH]; intros cur.
  - cbn [flat_map get_lines pieces filter]. destruct (flat_map tr cur) as [|z l] eqn:E; rewrite <- (tr_nonempty cur), E; [reflexivity|]. cbn [filter nonempty map]. rewrite E. reflexivity.
  - cbn [flat_map pieces]. destruct (is_sep c) eqn:ES.
    + rewrite (tr_sep c ES). cbn [app get_lines]. change (10 =? 10) with true. cbn iota. cbn [filter]. rewrite tr_nonempty. change (get_lines (flat_map tr f) []) with (get_lines (flat_map tr f) (flat_map tr [])). destruct (nonempty cur); rewrite (IH []); reflexivity.
    + destruct (tr_nonsep c ES) as (H1 & _). rewrite get_lines_line by exact H1.
      replace (flat_map tr cur ++ tr c) with (flat_map tr (cur ++ [c])) by (rewrite flat_map_app; cbn [flat_map]; rewrite app_nil_r; reflexivity). apply IH.
Qed.

Lemma pieces_in f : forall cur w, Forall (fun c => ~ separator c) cur ->
  (In w (pieces f cur) <-> (exists w' b, w = cur ++ w' /\ f = w' ++ b /\ Forall (fun c => ~ separator c) w' /\ (b = [] \/ exists s b', b = s :: b' /\ separator s)) \/
     (exists a s b, f = (a ++ [s]) ++ w ++ b /\ separator s /\ Forall (fun c => ~ separator c) w /\ (b = [] \/ exists s b', b = s :: b' /\ separator s))).
Proof.
  induction f as [|c f IH]; intros cur w HC.
  - cbn [pieces In]. split.
    + intros [<-|[]]. left. exists [], []. rewrite app_nil_r. repeat split; [constructor|left; reflexivity].
    + intros [(w' & b & E1 & E2 & _)|(a & s & b & E & _)].
      * symmetry in E2. apply app_eq_nil in E2. destruct E2 as (-> & _). rewrite app_nil_r in E1. left. congruence.
      * destruct a; discriminate.
  - cbn [pieces]. destruct (is_sep c) eqn:ES.
    + apply is_sep_ok in ES. cbn [In]. rewrite (IH [] w (Forall_nil _)). split.
      * intros [<-|[(w' & b & E1 & E2 & E3 & E4)|(a & s & b & E1 & E2 & E3 & E4)]].
        -- left. exists [], (c :: f). rewrite app_nil_r. repeat split; [constructor|right; exists c, f; split; [reflexivity|exact ES]].
        -- right. exists [], c, b. cbn [app] in *. subst. repeat split; assumption.
        -- right. exists (c :: a), s, b. cbn [app] in *. rewrite E1. repeat split; assumption.
      * intros [(w' & b & E1 & E2 & E3 & E4)|(a & s & b & E1 & E2 & E3 & E4)].
        -- destruct w' as [|x w']; [left; rewrite app_nil_r in E1; congruence|]. exfalso. injection E2 as <- _. inversion E3. contradiction.
        -- right. destruct a as [|x a]; cbn [app] in E1; injection E1 as <- E1.
           ++ left. exists w, b. repeat split; assumption.
           ++ right. exists a, s, b. repeat split; assumption.
    + assert (HS : ~ separator c) by (intros H; apply is_sep_ok in H; congruence).
      assert (HC' : Forall (fun c => ~ separator c) (cur ++ [c])) by (apply Forall_app; split; [exact HC|constructor; [exact HS|constructor]]).
      rewrite (IH (cur ++ [c]) w HC'). split.
      * intros [(w' & b & E1 & E2 & E3 & E4)|(a & s & b & E1 & E2 & E3 & E4)].
        -- left. exists (c :: w'), b. rewrite <- app_assoc in E1. cbn [app] in *. rewrite E2. repeat split; [exact E1|constructor; assumption|exact E4].
        -- right. exists (c :: a), s, b. cbn [app]. rewrite E1. repeat split; assumption.
      * intros [(w' & b & E1 & E2 & E3 & E4)|(a & s & b & E1 & E2 & E3 & E4)].
        -- destruct w' as [|x w']; cbn [app] in E2.
           { exfalso. destruct E4 as [->|(s & b' & -> & HB)]; [discriminate|]. injection E2 as -> _. contradiction. }
           injection E2 as <- E2. left. exists w', b. rewrite <- app_assoc. inversion E3. repeat split; assumption.
        -- right. destruct a as [|x a]; cbn [app] in E1; injection E1 as <- E1; [contradiction|]. exists a, s, b. repeat split; assumption.
Qed.

Lemma pieces_words f w : In w (filter nonempty (pieces f [])) <-> word_of f w.
Proof.
  rewrite filter_In, (pieces_in f [] w (Forall_nil _)). unfold word_of. split.
  - intros (H & HN). assert (HW : w <> []) by (destruct w; [discriminate|discriminate]). destruct H as [(w' & b & E1 & E2 & E3 & E4)|(a & s & b & E1 & E2 & E3 & E4)].
    + cbn [app] in E1. subst w'. exists [], b. repeat split; [exact E2|exact HW|exact E3|left; reflexivity|exact E4].
    + exists (a ++ [s]), b. repeat split; [exact E1|exact HW|exact E3|right; exists a, s; split; [reflexivity|exact E2]|exact E4].
  - intros (a & b & E1 & E2 & E3 & E4 & E5). split; [|destruct w; [congruence|reflexivity]]. destruct E4 as [->|(a' & s & -> & E4)].
    + left. exists w, b. repeat split; assumption.
    + right. exists a', s, b. repeat split; assumption.
Qed.

(** ** Letter case of plain texts *)
Definition plain (s : list Z) : Prop := Forall (fun c => 1 <= c < 128) s.
Lemma plain_text s : plain s -> utf8_of s = s /\ Forall scalar s /\ ~ In 0 s.
Proof.
  induction 1 as [|c s HC _ (I1 & I2 & I3)]; [repeat split; [constructor|intros []]|]. repeat split.
  - rewrite utf8_of_cons, I1. unfold enc8. replace (c <? 128) with true by (symmetry; apply Z.ltb_lt; lia). reflexivity.
  - constructor; [unfold scalar; lia|exact I2].
  - intros [E|E]; [lia|contradiction].
Qed.
Lemma to_lower_plain c : 1 <= c < 128 -> 1 <= to_lower c < 128.
Proof. intros H. destruct (to_lower_cases c) as [(A & B)|[(A & B)|[(A & B)|(A & B)]]]; lia. Qed.
Lemma plain_lower s : plain s -> lower_case s = Ok (map to_lower s).
Proof.
  intros H. destruct (plain_text s H) as (E1 & E2 & E3). rewrite <- E1 at 1. rewrite lower_of by exact E2. rewrite before_nul_id by exact E3. f_equal.
  apply plain_text. apply Forall_map. eapply Forall_impl; [|exact H]. intros c. apply to_lower_plain.
Qed.

Lemma tr_plain f : plain f -> plain (flat_map tr f).
Proof.
  induction 1 as [|c f HC _ IH]; [constructor|]. cbn [flat_map]. apply Forall_app. split; [|exact IH]. unfold tr.
  destruct (c =? 42); [repeat constructor; lia|]. destruct (c =? 63); [repeat constructor; lia|]. destruct (is_sep c); repeat constructor; lia.
Qed.

Lemma anchored_ok ls : Forall plain ls -> anchored ls = Ok (map (fun l => 94 :: map to_lower l ++ [36]) (filter nonempty ls)).
Proof.
  induction 1 as [|l ls HL _ IH]; [reflexivity|]. cbn [anchored filter]. rewrite IH. cbn [rbind]. destruct l as [|c l]; [reflexivity|].
  rewrite plain_lower by exact HL. reflexivity.
Qed.
Lemma lines_plain s : forall cur, plain s -> plain cur -> Forall plain (get_lines s cur).
Proof.
  induction s as [|c s IH]; intros cur HS HC; cbn [get_lines].
  - destruct cur; [constructor|constructor; [exact HC|constructor]].
  - inversion HS as [|x y H1 H2]. subst. destruct (c =? 10).
    + constructor; [exact HC|apply IH; [exact H2|constructor]].
    + apply IH; [exact H2|]. apply Forall_app. split; [exact HC|constructor; [exact H1|constructor]].
Qed.

(** ** The expression of a word *)
Definition atom_of (c : Z) : atom := if c =? 42 then AnyStar else if c =? 63 then Any else Lit (to_lower c).
Lemma special_lower c : filter_char c -> c <> 42 -> c <> 63 -> special (to_lower c) = false /\ to_lower c <> 46 /\ to_lower c <> 94 /\ to_lower c <> 36 /\ to_lower c <> 42.
Proof.
  intros (H1 & H2) N1 N2. unfold special.
  assert (HX : forall k, In k [46; 91; 93; 123; 125; 40; 41; 92; 42; 43; 63; 124; 94; 36] -> to_lower c <> k).
  { intros k HK E. assert (EC : c = k).
    { cbn [In] in HK. destruct (to_lower_cases c) as [(A & B)|[(A & B)|[(A & B)|(A & B)]]]; lia. }
    apply H2. rewrite EC. clear - HK EC N1 N2. cbn [In] in HK.
    repeat (destruct HK as [HK|HK]; [rewrite <- HK in *; first [congruence|vm_compute; tauto]|]). destruct HK. }
  split; [|repeat split; apply HX; cbn [In]; tauto].
  destruct (existsb (Z.eqb (to_lower c)) [46; 91; 93; 123; 125; 40; 41; 92; 42; 43; 63; 124; 94; 36]) eqn:E; [|reflexivity].
  apply existsb_exists in E. destruct E as (k & HK & E). apply Z.eqb_eq in E. exfalso. exact (HX k HK E).
Qed.

Lemma atoms_word w : Forall filter_char w -> Forall (fun c => ~ separator c) w ->
  atoms (map to_lower (flat_map tr w) ++ [36]) = Some (map atom_of w ++ [Eol]) /\ hd 0 (map to_lower (flat_map tr w) ++ [36]) <> 42.
Proof.
  induction w as [|c w IH]; intros HF HS; [split; [reflexivity|cbn; lia]|].
  inversion HF as [|x y F1 F2]. inversion HS as [|x2 y2 S1 S2]. subst. destruct (IH F2 S2) as (I1 & I2). cbn [flat_map map].
  destruct (Z.eqb_spec c 42) as [->|N1].
  - change (tr 42) with [46; 42]. change (atom_of 42) with AnyStar. cbn [app map]. change (to_lower 46) with 46. change (to_lower 42) with 42. cbn [app]. split; [|cbn [hd]; lia].
    change (atoms (46 :: 42 :: (map to_lower (flat_map tr w) ++ [36]))) with (option_map (cons AnyStar) (atoms (map to_lower (flat_map tr w) ++ [36]))).
    rewrite I1. reflexivity.
  - destruct (Z.eqb_spec c 63) as [->|N2].
    + change (tr 63) with [46]. change (atom_of 63) with Any. cbn [app map]. change (to_lower 46) with 46. cbn [app]. split; [|cbn [hd]; lia].
      destruct (map to_lower (flat_map tr w) ++ [36]) as [|z t] eqn:E; [destruct (map to_lower (flat_map tr w)); discriminate|].
      cbn [hd] in I2. assert (EZ : atoms (46 :: z :: t) = option_map (cons Any) (atoms (z :: t))).
      { destruct z as [|p|p]; try reflexivity. do 6 (destruct p; try reflexivity). congruence. }
      rewrite EZ, I1. reflexivity.
    + assert (ES : is_sep c = false) by (destruct (is_sep c) eqn:ES; [exfalso; apply S1, is_sep_ok, ES|reflexivity]). destruct (special_lower c F1 N1 N2) as (P1 & P2 & P3 & P4 & P5).
      assert (ET : tr c = [c]) by (unfold tr; rewrite ES; apply Z.eqb_neq in N1, N2; rewrite N1, N2; reflexivity).
      assert (EA : atom_of c = Lit (to_lower c)) by (unfold atom_of; apply Z.eqb_neq in N1, N2; rewrite N1, N2; reflexivity).
      rewrite ET, EA. cbn [app map]. split; [|exact P5]. cbn [app atoms]. apply Z.eqb_neq in P2, P3, P4. rewrite P2, P3, P4, P1, I1. reflexivity.
Qed.

Lemma match_wild w : forall b s, plain s -> (re_match (map atom_of w ++ [Eol]) b (map to_lower s) = true <-> wild w s).
Proof.
  induction w as [|c w IH]; intros b s HS.
  - cbn [map app re_match]. destruct s as [|x s]; cbn [map]; [split; [constructor|reflexivity]|split; [discriminate|intros H; inversion H]].
  - cbn [map app]. unfold atom_of at 1. destruct (Z.eqb_spec c 42) as [->|N1].
    + cbn [re_match]. revert b. induction s as [|x s IHs]; intros b.
      * cbn [map]. rewrite orb_false_r. pose proof (IH b [] HS) as HI. cbn [map] in HI. rewrite HI. split; [intros H; constructor; exact H|].
        intros H. inversion H; assumption.
      * inversion HS as [|y z S1 S2]. subst. cbn [map]. rewrite orb_true_iff. change (to_lower x :: map to_lower s) with (map to_lower (x :: s)). rewrite (IH b (x :: s) HS). rewrite (IHs S2 false). split.
        -- intros [H|H]; [constructor; exact H|apply w_more; exact H].
        -- intros H. inversion H; subst; [left; assumption|right; assumption|congruence].
    + destruct (Z.eqb_spec c 63) as [->|N2].
      * cbn [re_match]. destruct s as [|x s]; cbn [map]; [split; [discriminate|intros H; inversion H]|]. inversion HS as [|y z S1 S2]. subst. rewrite (IH false s S2).
        split; [intros H; constructor; exact H|]. intros H. inversion H; subst; [assumption|congruence].
      * cbn [re_match]. destruct s as [|x s]; cbn [map]; [split; [discriminate|intros H; inversion H; congruence]|]. inversion HS as [|y z S1 S2]. subst. rewrite andb_true_iff, (IH false s S2), Z.eqb_eq.
        split.
        -- intros (H1 & H2). apply w_char; [exact N1|exact N2| |exact H2]. apply to_lower_same. congruence.
        -- intros H. inversion H; subst; try congruence. split; [symmetry; apply to_lower_same; assumption|assumption].
Qed.

Lemma any_match_ok other ws name : Forall (fun w => Forall filter_char w /\ Forall (fun c => ~ separator c) w) ws -> plain name ->
  exists b, any_match other (map (fun l => 94 :: map to_lower l ++ [36]) (map (flat_map tr) ws)) (map to_lower name) = Ok b /\ (b = true <-> exists w, In w ws /\ wild w name).
Proof.
  intros HW HN. induction HW as [|w ws (H1 & H2) _ (b & I1 & I2)]; [exists false; split; [reflexivity|split; [discriminate|intros (w & [] & _)]]|].
  cbn [map any_match]. unfold boost_match. cbn [atoms]. change (94 =? 46) with false. change (94 =? 94) with true. cbn iota.
  rewrite (proj1 (atoms_word w H1 H2)). cbn [option_map rbind re_match andb].
  destruct (re_match (map atom_of w ++ [Eol]) true (map to_lower name)) eqn:E.
  - exists true. split; [reflexivity|]. split; [|reflexivity]. intros _. exists w. split; [left; reflexivity|]. apply (match_wild w true name HN). exact E.
  - exists b. split; [exact I1|]. rewrite I2. split.
    + intros (v & V1 & V2). exists v. split; [right; exact V1|exact V2].
    + intros (v & [V1|V1] & V2); [|exists v; split; assumption]. subst v. apply (match_wild w true name HN) in V2. congruence.
Qed.

Theorem selected_ok other f name : Forall filter_char f -> plain name ->
  ((forall w, ~ word_of f w) -> selected other f name = Throw) /\
  ((exists w, word_of f w) -> exists b, selected other f name = Ok b /\ (b = true <-> exists w, word_of f w /\ wild w name)).
Proof.
  intros HF HN. assert (HP : plain f) by (eapply Forall_impl; [|exact HF]; intros c (H & _); exact H).
  unfold selected. rewrite filter_text_ok. cbn [rbind].
  rewrite anchored_ok by (apply lines_plain; [apply tr_plain; exact HP|constructor]). cbn [rbind].
  pose proof (lines_pieces f []) as HL. cbn [flat_map] in HL. rewrite HL. clear HL.
  set (ws := filter nonempty (pieces f [])).
  assert (HW : Forall (fun w => Forall filter_char w /\ Forall (fun c => ~ separator c) w) ws).
  { apply Forall_forall. intros w HI. apply pieces_words in HI. destruct HI as (a & b & E & _ & HS & _). split; [|exact HS]. rewrite E in HF. apply Forall_app in HF. destruct HF as (_ & HF). apply Forall_app in HF. apply HF. }
  destruct (any_match_ok other ws name HW HN) as (b & E1 & E2). split.
  - intros H. destruct ws as [|w ws'] eqn:EW; [reflexivity|]. exfalso. apply (H w). apply pieces_words. fold ws. rewrite EW. left. reflexivity.
  - intros (w & HWW). exists b. split.
    + rewrite plain_lower by exact HN. cbn [rbind]. destruct ws as [|v vs] eqn:EW; [|exact E1]. exfalso. apply pieces_words in HWW. fold ws in HWW. rewrite EW in HWW. exact HWW.
    + rewrite E2. split; intros (v & V1 & V2); exists v; (split; [apply pieces_words; exact V1|exact V2]).
Qed.

(** a question mark does not stand for a letter that is not plain *)
Lemma re_one name : re_match [Bol; Any; Eol] true name = true -> length name = 1%nat.
Proof. cbn [re_match andb]. destruct name as [|x [|y t]]; [discriminate|reflexivity|discriminate]. Qed.
Lemma question_bytes other c : scalar c -> 128 <= c -> selected other [63] (utf8_of [c]) = Ok false.
Proof.
  intros HC HB. unfold selected. rewrite filter_text_ok. cbn [rbind flat_map]. change (tr 63 ++ []) with [46]. cbn [get_lines app]. change (46 =? 10) with false. cbn iota.
  change (anchored [[46]]) with (Ok [[94; 46; 36]]). cbn [rbind]. rewrite lower_of by (constructor; [exact HC|constructor]). rewrite before_nul_id by (intros [E|[]]; lia). cbn [map rbind any_match].
  unfold boost_match. change (atoms [94; 46; 36]) with (Some [Bol; Any; Eol]). cbn [rbind].
  destruct (re_match [Bol; Any; Eol] true (utf8_of [to_lower c])) eqn:E; [exfalso|reflexivity]. apply re_one in E. cbn [utf8_of flat_map] in E. rewrite app_nil_r, enc8_len_lower in E.
  unfold enc8 in E. replace (c <? 128) with false in E by (symmetry; apply Z.ltb_ge; lia). destruct (c <? 2048); [discriminate|]. destruct (c <? 65536); discriminate.
Qed.
Lemma dot_any other x : 1 <= x < 128 -> selected other [97; 46; 98] [97; x; 98] = Ok true.
Proof.
  intros HX. unfold selected. rewrite filter_text_ok. cbn [rbind]. change (anchored (get_lines (flat_map tr [97; 46; 98]) [])) with (Ok [[94; 97; 46; 98; 36]]). cbn [rbind].
  rewrite plain_lower by (repeat constructor; lia). cbn [rbind map any_match]. change (to_lower 97) with 97. change (to_lower 98) with 98. unfold boost_match.
  change (atoms [94; 97; 46; 98; 36]) with (Some [Bol; Lit 97; Any; Lit 98; Eol]). reflexivity.
Qed.

(** ** Ranges *)
Definition digit_text (ds : list Z) : list Z := map (fun d => d + 48) ds.
Lemma digit_no_colon ds : Forall (fun d => 0 <= d <= 9) ds -> ~ In 58 (digit_text ds).
Proof. induction 1 as [|d ds H _ IH]; [intros []|]. cbn [digit_text map]. intros [E|E]; [lia|exact (IH E)]. Qed.
Lemma sfind_first c a b : ~ In c a -> sfind (a ++ c :: b) [c] = Some (length a).
Proof.
  induction a as [|x a IH]; intros H; rewrite sfind_char; cbn [app length].
  - rewrite Z.eqb_refl. reflexivity.
  - replace (x =? c) with false by (symmetry; apply Z.eqb_neq; intros ->; apply H; left; reflexivity). rewrite IH by (intros E; apply H; right; exact E). reflexivity.
Qed.
Lemma range_ok a d b : Forall (fun d => 0 <= d <= 9) (a ++ [d]) -> b <> [] -> Forall (fun d => 0 <= d <= 9) b -> digits_value (a ++ [d]) <= 2147483647 -> digits_value b <= 2147483647 ->
  parse_range (digit_text (a ++ [d]) ++ 58 :: digit_text b) = Ok (digits_value a, digits_value b).
Proof.
  intros HA HBN HB LA LB. unfold parse_range. rewrite sfind_first by (apply digit_no_colon; exact HA).
  assert (LD : length (digit_text (a ++ [d])) = S (length a)) by (unfold digit_text; rewrite map_length, app_length; cbn [length]; lia). rewrite LD.
  replace (skipn (S (length a) + 1) (digit_text (a ++ [d]) ++ 58 :: digit_text b)) with (digit_text b).
  2:{ rewrite <- LD. rewrite skipn_app, skipn_all2 by lia. replace (length (digit_text (a ++ [d])) + 1 - length (digit_text (a ++ [d])))%nat with 1%nat by lia. reflexivity. }
  unfold digit_text at 1. rewrite to_int_def_digits by assumption. replace (digits_value b <=? 2147483647) with true by (symmetry; apply Z.leb_le; exact LB). cbn [rbind].
  assert (EF : firstn (length a) (digit_text (a ++ [d]) ++ 58 :: digit_text b) = digit_text a).
  { unfold digit_text at 1. rewrite map_app, <- app_assoc. replace (length a) with (length (digit_text a)) by (unfold digit_text; apply map_length). apply first_app. }
  rewrite EF. apply Forall_app in HA. destruct HA as (HA & HD). inversion HD as [|x y D1 _]. subst.
  destruct a as [|z a]; [reflexivity|]. unfold digit_text. rewrite to_int_def_digits by (assumption || discriminate).
  assert (LE : digits_value (z :: a) <= digits_value ((z :: a) ++ [d])).
  { pose proof (digits_value_nonneg _ HA). unfold digits_value in *. rewrite fold_left_app. cbn [fold_left] in *. lia. }
  replace (digits_value (z :: a) <=? 2147483647) with true by (symmetry; apply Z.leb_le; lia). reflexivity.
Qed.
Lemma range_single ds : ds <> [] -> Forall (fun d => 0 <= d <= 9) ds -> digits_value ds <= 2147483647 -> parse_range (digit_text ds) = Ok (digits_value ds, digits_value ds).
Proof.
  intros HN HD HL. unfold parse_range. assert (E : sfind (digit_text ds) [58] = None).
  { pose proof (sfind_split 58 (digit_text ds)) as H. destruct (sfind (digit_text ds) [58]) as [p|]; [|reflexivity]. destruct H as (a & b & E & _). exfalso. apply (digit_no_colon ds HD). rewrite E. apply in_or_app. right. left. reflexivity. }
  rewrite E. unfold digit_text. rewrite to_int_def_digits by assumption. replace (digits_value ds <=? 2147483647) with true by (symmetry; apply Z.leb_le; exact HL). reflexivity.
Qed.

(** ** Times *)
Lemma i64_small x : - 2^63 <= x < 2^63 -> i64 x = x.
Proof. intros H. unfold i64. rewrite Z.mod_small by lia. lia. Qed.
Lemma unix_small t : 0 <= t < 2^32 -> unix_to_filetime t = t * 10000000 + 11644473600.
Proof. intros H. unfold unix_to_filetime. rewrite (Z.mod_small t) by lia. apply Z.mod_small. lia. Qed.
Lemma posix_back junk t : 0 <= t < 2^32 ->
  filetime_to_posix false junk (unix_to_filetime t) = if t <? 11643310 then t - 11643309 else t - 11643310.
Proof.
  intros H. rewrite unix_small by exact H. unfold filetime_to_posix, quad_part. rewrite i64_small by lia. destruct (Z.ltb_spec t 11643310) as [HL|HL].
  - replace (t * 10000000 + 11644473600 - 11644473600 * 10000) with (- ((11643309 - t) * 10000000 + 1526400)) by lia. rewrite Z.quot_opp_l by lia.
    rewrite Z.quot_div_nonneg by lia. rewrite Z.div_add_l by lia. change (1526400 / 10000000) with 0. lia.
  - rewrite Z.quot_div_nonneg by lia. replace (t * 10000000 + 11644473600 - 11644473600 * 10000) with ((t - 11643310) * 10000000 + 8473600) by lia.
    rewrite Z.div_add_l by lia. change (8473600 / 10000000) with 0. lia.
Qed.
Lemma posix_wide ft : 0 <= ft -> - 11644473 <= filetime_to_posix true 0 ft <= - 11644044.
Proof.
  intros H. unfold filetime_to_posix, quad_part. pose proof (Z.mod_pos_bound ft (2^32) ltac:(lia)) as HB. set (m := ft mod 2^32) in *. rewrite Z.mul_0_r, Z.add_0_r, i64_small by lia.
  replace (m - 11644473600 * 10000) with (- (116444736000000 - m)) by lia. rewrite Z.quot_opp_l by lia. rewrite Z.quot_div_nonneg by lia.
  pose proof (Z.div_mod (116444736000000 - m) 10000000 ltac:(lia)) as HD. pose proof (Z.mod_pos_bound (116444736000000 - m) 10000000 ltac:(lia)). lia.
Qed.
Lemma current_off junk t : 11643310 <= t < 2^32 -> v8_current false junk t = v8_time t - 116561157455527.
Proof.
  intros H. unfold v8_current, v8_from_filetime, filetime_to_local. rewrite posix_back by lia. replace (t <? 11643310) with false by (symmetry; apply Z.ltb_ge; lia).
  rewrite unix_small by lia. rewrite i64_small by lia. rewrite Z.quot_div_nonneg by lia.
  replace ((t - 11643310) * 10000000 + 11644473600) with (((t - 11643310) * 10000 + 11644473) * 1000 + 600) by lia. rewrite Z.div_add_l by lia. change (600 / 1000) with 0.
  unfold v8_time, EPOCH_START_WIN. lia.
Qed.
