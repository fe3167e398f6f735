(** Proofs about exporting a range of versions of a depot. *)
From Coq Require Import Sorted.
From Verif Require Import Prelude Lists Codec_Model Codec_Spec Codec_Proofs Depot_Model Depot_Spec Depot_Export.
Ltac Zify.zify_post_hook ::= idtac.

Section Part.
Variables (v6 : bool) (pack : list Z -> option (list Z)) (inflate : list Z -> option (list Z)) (b e : Z).
Definition packs : option (list Z -> option (list Z)) := if v6 then Some pack else None.
Definition wanted (P : list hrow) (r : hrow) : Prop := last_in b e P r /\ h_removed r = false /\ h_packed r = true.
Definition readable (r : hrow) : Prop := exists d x, stored packs (h_data r) (h_hash r) d /\ inflate d = Some x.
Definition fout (r : hrow) (k x : list Z) : Prop := k = h_obj r /\ exists d, stored packs (h_data r) (h_hash r) d /\ inflate d = Some x.
Definition gone (P : list hrow) (o : list Z) : Prop := exists r, last_in b e P r /\ h_obj r = o /\ h_removed r = true /\ known_before b P o.
Definition pcore (P : list hrow) (st : pstate) : Prop :=
  is_guid (p_cur st) /\
  match p_r2 st with Some r => h_obj r = p_cur st /\ last_in b e P r | None => forall r, last_in b e P r -> h_obj r <> p_cur st end /\
  match p_r1 st with Some q => h_obj q = p_cur st /\ last_before b P q | None => ~ known_before b P (p_cur st) end /\
  (forall r, wanted P r -> h_obj r <> p_cur st -> readable r) /\
  (forall k x, In (k, x) (p_files st) <-> exists r, wanted P r /\ h_obj r <> p_cur st /\ fout r k x) /\
  (forall o, In o (p_deleted st) <-> gone P o /\ o <> p_cur st).
Definition pdone (P : list hrow) (next : list Z) (st : pstate) : Prop :=
  p_cur st = next /\ p_r1 st = None /\ p_r2 st = None /\ (forall r, wanted P r -> readable r) /\
  (forall k x, In (k, x) (p_files st) <-> exists r, wanted P r /\ fout r k x) /\ (forall o, In o (p_deleted st) <-> gone P o).

Lemma last_in_unique P r r' : StronglySorted hist_lt P -> last_in b e P r -> last_in b e P r' -> h_obj r = h_obj r' -> r = r'.
Proof.
  intros HS (I1 & I2 & I3) (J1 & J2 & J3) E. destruct (sorted_mid hist_lt P HS r r' I1 J1) as [H|[H|H]]; [exact H| |]; exfalso.
  - specialize (I3 r' J1 (eq_sym E) J2). destruct H as [H|[_ H]]; [rewrite E in H|]; lia.
  - specialize (J3 r I1 E I2). destruct H as [H|[_ H]]; [rewrite E in H|]; lia.
Qed.
Lemma known_dec P o : known_before b P o \/ ~ known_before b P o.
Proof.
  induction P as [|x P [(q & H1 & H2)|IH]]; [right; intros (q & [] & _)|left; exists q; split; [right; exact H1|exact H2]|].
  destruct (eq_dec_guid (h_obj x) o) as [E|N]; [destruct (Z_lt_dec (h_ver x) b) as [L|L]|].
  - left. exists x. repeat split; [left; reflexivity|exact E|exact L].
  - right. intros (q & [<-|H1] & H2 & H3); [lia|]. apply IH. exists q. auto.
  - right. intros (q & [<-|H1] & H2 & H3); [congruence|]. apply IH. exists q. auto.
Qed.

Lemma compare_calm inb r1 r2 : (forall q, r1 = Some q -> h_packed q = false \/ h_data q = None) -> compare_rows v6 inb r1 r2 = Ok (true, false).
Proof. intros H. unfold compare_rows. destruct r1 as [q|]; [|reflexivity]. destruct (H q eq_refl) as [E|E]; rewrite E; [reflexivity|]. destruct (negb (h_packed q)); reflexivity. Qed.
Lemma flush_part P st next : StronglySorted hist_lt P -> pcore P st ->
  (forall r q, p_r2 st = Some r -> p_r1 st = Some q -> h_removed r = false -> h_packed r = true -> h_packed q = false \/ h_data q = None) ->
  (exists st', part_object v6 pack inflate st next = Ok st' /\ pdone P next st') \/ (part_object v6 pack inflate st next = Throw /\ exists r, wanted P r /\ ~ readable r).
Proof.
  intros HS (C1 & C2 & C3 & C4 & C5 & C6) HQ. unfold part_object. destruct (p_r2 st) as [r2|] eqn:E2.
  2:{ left. eexists. split; [reflexivity|]. unfold pdone. cbn [p_cur p_r1 p_r2 p_files p_deleted]. repeat apply conj; try reflexivity.
      - intros r Hr. apply C4; [exact Hr|apply C2; apply Hr].
      - intros k x. rewrite C5. split; intros (r & K); exists r; [tauto|]. destruct K as [K1 K2]. split; [exact K1|split; [apply C2; apply K1|exact K2]].
      - intros o. rewrite C6. split; [tauto|]. intros K. split; [exact K|]. destruct K as (r & K1 & K2 & _). rewrite <- K2. apply C2. exact K1. }
  destruct C2 as [O2 L2]. assert (HU : forall r, last_in b e P r -> h_obj r = p_cur st -> r = r2) by (intros r H1 H2; apply (last_in_unique P); congruence || assumption).
  destruct (h_removed r2) eqn:R2.
  { left. eexists. split; [reflexivity|]. unfold pdone. cbn [p_cur p_r1 p_r2 p_files p_deleted].
    assert (NW : forall r, wanted P r -> h_obj r <> p_cur st) by (intros r (W1 & W2 & _) H; rewrite (HU r W1 H) in W2; congruence). repeat apply conj; try reflexivity.
    - intros r Hr. apply C4; [exact Hr|apply NW; exact Hr].
    - intros k x. rewrite C5. split; intros (r & K); exists r; [tauto|]. destruct K as [K1 K2]. split; [exact K1|split; [apply NW; exact K1|exact K2]].
    - intros o. destruct (p_r1 st) as [q|] eqn:E1.
      + destruct C3 as [Q1 (Q2 & Q3 & Q4)]. rewrite in_app_iff, C6. cbn [In]. split.
        * intros [[K _]|[<-|[]]]; [exact K|]. exists r2. repeat split; try assumption; [apply L2|apply L2|apply L2|apply L2|]. exists q. repeat split; [exact Q2|congruence|exact Q3].
        * intros K. destruct (eq_dec_guid o (p_cur st)) as [E|N]; [right; left; congruence|left; auto].
      + rewrite C6. split; [tauto|]. intros K. split; [exact K|]. intros E. destruct K as (r & _ & _ & _ & K). apply C3. rewrite <- E. exact K. }
  assert (NG : forall o, gone P o -> o <> p_cur st) by (intros o (r & K1 & K2 & K3 & _) E; rewrite (HU r K1) in K3 by congruence; congruence).
  assert (DEL : forall o, In o (p_deleted st) <-> gone P o) by (intros o; rewrite C6; split; [tauto|]; intros K; split; [exact K|apply NG; exact K]).
  destruct (h_packed r2) eqn:K2; cbn [negb].
  2:{ left. eexists. split; [reflexivity|]. unfold pdone. cbn [p_cur p_r1 p_r2 p_files p_deleted].
      assert (NW : forall r, wanted P r -> h_obj r <> p_cur st) by (intros r (W1 & _ & W2) H; rewrite (HU r W1 H) in W2; congruence). repeat apply conj; try reflexivity.
      - intros r Hr. apply C4; [exact Hr|apply NW; exact Hr].
      - intros k x. rewrite C5. split; intros (r & K); exists r; [tauto|]. destruct K as [L K]. split; [exact L|split; [apply NW; exact L|exact K]].
      - exact DEL. }
  rewrite compare_calm by (intros q Hq; apply (HQ r2 q eq_refl Hq R2 K2)). cbn [rbind negb].
  assert (W2 : wanted P r2) by (repeat split; try assumption; apply L2).
  assert (GO : forall d inb, stored packs (h_data r2) (h_hash r2) d ->
    (exists st', match inflate d with None => Throw | Some x => Ok (PS None None next inb (p_files st ++ [(h_obj r2, x)]) (p_deleted st)) end = Ok st' /\ pdone P next st') \/
    (match inflate d with None => Throw | Some x => Ok (PS None None next inb (p_files st ++ [(h_obj r2, x)]) (p_deleted st)) end = Throw /\ exists r, wanted P r /\ ~ readable r)).
  { intros d inb SD. destruct (inflate d) as [x|] eqn:EI.
    - left. eexists. split; [reflexivity|]. unfold pdone. cbn [p_cur p_r1 p_r2 p_files p_deleted]. repeat apply conj; try reflexivity.
      + intros r Hr. destruct (eq_dec_guid (h_obj r) (p_cur st)) as [E|N]; [rewrite (HU r (proj1 Hr) E); exists d, x; auto|apply C4; assumption].
      + intros k x0. rewrite in_app_iff, C5. cbn [In]. split.
        * intros [(r & K)|[H|[]]]; [exists r; tauto|]. injection H as <- <-. exists r2. split; [exact W2|]. split; [reflexivity|]. exists d. auto.
        * intros (r & K1 & K3). destruct (eq_dec_guid (h_obj r) (p_cur st)) as [E|N]; [|left; exists r; auto]. right. left. rewrite (HU r (proj1 K1) E) in K3. destruct K3 as [-> (d0 & S0 & I0)].
          rewrite (stored_fun _ _ _ _ _ S0 SD) in I0. congruence.
      + exact DEL.
    - right. split; [reflexivity|]. exists r2. split; [exact W2|]. intros (d0 & x & S0 & I0). rewrite (stored_fun _ _ _ _ _ S0 SD) in I0. congruence. }
  destruct (h_data r2) as [d|] eqn:ED.
  - cbn [rbind]. apply GO. left. reflexivity.
  - destruct v6 eqn:EV; [destruct (pack (h_hash r2)) as [d|] eqn:EP|].
    + cbn [rbind]. apply GO. right. split; [reflexivity|]. exists pack. unfold packs. rewrite EV. auto.
    + right. split; [reflexivity|]. exists r2. split; [exact W2|]. intros (d0 & x & S0 & I0). rewrite ED in S0. unfold packs in S0. rewrite EV in S0. destruct S0 as [S0|[_ (p & P1 & P2)]]; [discriminate|]. congruence.
    + right. split; [reflexivity|]. exists r2. split; [exact W2|]. intros (d0 & x & S0 & I0). rewrite ED in S0. unfold packs in S0. rewrite EV in S0. destruct S0 as [S0|[_ (p & P1 & P2)]]; discriminate.
Qed.

Lemma last_in_other P x r : h_obj r <> h_obj x -> last_in b e (P ++ [x]) r <-> last_in b e P r.
Proof.
  intros N. unfold last_in. split; intros (I1 & I2 & I3); split; [|split; [exact I2|]| |split; [exact I2|]].
  - apply in_app_or in I1. destruct I1 as [I1|[<-|[]]]; [exact I1|congruence].
  - intros r' J1. apply I3. apply in_or_app. left. exact J1.
  - apply in_or_app. left. exact I1.
  - intros r' J1 J2 J3. apply in_app_or in J1. destruct J1 as [J1|[<-|[]]]; [apply I3; assumption|congruence].
Qed.
Lemma last_in_idle P x r : ~ b <= h_ver x <= e -> last_in b e (P ++ [x]) r <-> last_in b e P r.
Proof.
  intros N. unfold last_in. split; intros (I1 & I2 & I3); split; [|split; [exact I2|]| |split; [exact I2|]].
  - apply in_app_or in I1. destruct I1 as [I1|[<-|[]]]; [exact I1|contradiction].
  - intros r' J1. apply I3. apply in_or_app. left. exact J1.
  - apply in_or_app. left. exact I1.
  - intros r' J1 J2 J3. apply in_app_or in J1. destruct J1 as [J1|[<-|[]]]; [apply I3; assumption|contradiction].
Qed.
Lemma last_in_new P x : Forall (fun p => hist_lt p x) P -> b <= h_ver x <= e -> last_in b e (P ++ [x]) x.
Proof.
  intros HF D. split; [apply in_or_app; right; left; reflexivity|]. split; [exact D|]. intros r' J1 J2 J3. apply in_app_or in J1. destruct J1 as [J1|[<-|[]]]; [|lia].
  rewrite Forall_forall in HF. destruct (HF r' J1) as [H|[_ H]]; [rewrite J2 in H; lia|lia].
Qed.
Lemma last_before_new P x : Forall (fun p => hist_lt p x) P -> h_ver x < b -> last_before b (P ++ [x]) x.
Proof.
  intros HF D. split; [apply in_or_app; right; left; reflexivity|]. split; [exact D|]. intros r' J1 J2 J3. apply in_app_or in J1. destruct J1 as [J1|[<-|[]]]; [|lia].
  rewrite Forall_forall in HF. destruct (HF r' J1) as [H|[_ H]]; [rewrite J2 in H; lia|lia].
Qed.
Lemma known_other P x o : h_obj x <> o \/ b <= h_ver x -> known_before b (P ++ [x]) o <-> known_before b P o.
Proof.
  intros N. split; intros (q & H1 & H2 & H3); exists q; repeat apply conj; try assumption.
  - apply in_app_or in H1. destruct H1 as [H1|[<-|[]]]; [exact H1|]. destruct N; [congruence|lia].
  - apply in_or_app. left. exact H1.
Qed.
Lemma take_part P st x : pcore P st -> p_cur st = h_obj x -> Forall (fun p => hist_lt p x) P -> pcore (P ++ [x]) (part_take b e st x).
Proof.
  intros (C1 & C2 & C3 & C4 & C5 & C6) EC HF.
  assert (WO : forall r, h_obj r <> p_cur st -> wanted (P ++ [x]) r <-> wanted P r) by (intros r N; unfold wanted; rewrite last_in_other by congruence; reflexivity).
  assert (GOE : forall o, o <> p_cur st -> gone (P ++ [x]) o <-> gone P o).
  { intros o N. unfold gone. split; intros (r & K1 & K2 & K3 & K4); exists r; (split; [apply (last_in_other P x r); congruence || assumption|]; split; [exact K2|]; split; [exact K3|]; apply (known_other P x o); [left; congruence|exact K4]). }
  assert (OTH : forall r1 r2, match r2 with Some r => h_obj r = p_cur st /\ last_in b e (P ++ [x]) r | None => forall r, last_in b e (P ++ [x]) r -> h_obj r <> p_cur st end ->
     match r1 with Some q => h_obj q = p_cur st /\ last_before b (P ++ [x]) q | None => ~ known_before b (P ++ [x]) (p_cur st) end ->
     pcore (P ++ [x]) (PS r1 r2 (p_cur st) (p_in st) (p_files st) (p_deleted st))).
  { intros r1 r2 H1 H2. unfold pcore. cbn [p_r1 p_r2 p_cur p_in p_files p_deleted]. split; [exact C1|]. split; [exact H1|]. split; [exact H2|]. repeat apply conj.
    - intros r Hr N. apply C4; [|exact N]. apply WO; assumption.
    - intros k y. rewrite C5. split; intros (r & K1 & K2 & K3); exists r; (split; [apply WO; assumption|auto]).
    - intros o. rewrite C6. split; intros [K1 K2]; (split; [apply GOE; assumption|exact K2]). }
  assert (R2S : ~ b <= h_ver x <= e -> match p_r2 st with Some r => h_obj r = p_cur st /\ last_in b e (P ++ [x]) r | None => forall r, last_in b e (P ++ [x]) r -> h_obj r <> p_cur st end).
  { intros N. destruct (p_r2 st) as [r|]; [destruct C2 as [H1 H2]; split; [exact H1|]; apply last_in_idle; assumption|]. intros r Hr. apply C2. apply (last_in_idle P x r); assumption. }
  assert (R1S : b <= h_ver x -> match p_r1 st with Some q => h_obj q = p_cur st /\ last_before b (P ++ [x]) q | None => ~ known_before b (P ++ [x]) (p_cur st) end).
  { intros N. destruct (p_r1 st) as [q|]; [|intros H; apply C3; apply (known_other P x); [right; exact N|exact H]]. destruct C3 as [H1 (I1 & I2 & I3)]. split; [exact H1|]. split; [apply in_or_app; left; exact I1|]. split; [exact I2|].
    intros r' J1 J2 J3. apply in_app_or in J1. destruct J1 as [J1|[<-|[]]]; [apply I3; assumption|lia]. }
  unfold part_take. destruct (Z.ltb_spec (h_ver x) b) as [L|L]; [|destruct (Z.leb_spec (h_ver x) e) as [M|M]].
  - apply OTH; [apply R2S; lia|]. split; [congruence|]. apply last_before_new; assumption.
  - apply OTH; [split; [congruence|]; apply last_in_new; auto|apply R1S; exact L].
  - destruct st as [r1 r2 cur inb fs del]. cbn [p_r1 p_r2 p_cur p_in p_files p_deleted] in *. apply OTH; [apply R2S; lia|apply R1S; exact L].
Qed.
Lemma pdone_core P next st : is_guid next -> (forall p, In p P -> h_obj p <> next) -> pdone P next st -> pcore P st.
Proof.
  intros G HP (D1 & D2 & D3 & D4 & D5 & D6). unfold pcore. rewrite D1, D2, D3.
  assert (NW : forall r, wanted P r -> h_obj r <> next) by (intros r ((I1 & _) & _); apply HP; exact I1).
  split; [exact G|]. split; [intros r (I1 & _); apply HP; exact I1|]. split; [intros (q & I1 & I2 & _); exact (HP q I1 I2)|]. repeat apply conj.
  - intros r Hr _. apply D4. exact Hr.
  - intros k x. rewrite D5. split; intros (r & K); exists r; [|tauto]. destruct K as [K1 K2]. split; [exact K1|split; [apply NW; exact K1|exact K2]].
  - intros o. rewrite D6. split; [|tauto]. intros K. split; [exact K|]. destruct K as (r & (I1 & _) & <- & _). apply HP. exact I1.
Qed.
(** rows of other objects do not matter *)
Lemma last_in_app P Q r : (forall y, In y Q -> h_obj y <> h_obj r) -> In r P -> last_in b e (P ++ Q) r <-> last_in b e P r.
Proof.
  intros N IR. unfold last_in. split; intros (I1 & I2 & I3); split; [exact IR|split; [exact I2|]|apply in_or_app; left; exact I1|split; [exact I2|]].
  - intros r' J1. apply I3. apply in_or_app. left. exact J1.
  - intros r' J1 J2 J3. apply in_app_or in J1. destruct J1 as [J1|J1]; [apply I3; assumption|exfalso; exact (N r' J1 J2)].
Qed.
Definition calm (rows : list hrow) : Prop := forall r q, wanted rows r -> last_before b rows q -> h_obj q = h_obj r -> h_packed q = false \/ h_data q = None.
Lemma part_ok Q : forall P st last_, Forall (fun r => is_guid (h_obj r)) Q -> StronglySorted hist_lt (P ++ Q) -> pcore P st -> calm (P ++ Q) ->
  (P = [] /\ p_cur st = repeat 0 16 \/ exists p, In p P /\ h_obj p = p_cur st) -> (forall p, In p P -> be_val (h_obj p) <= be_val (p_cur st)) -> (last_ = None -> P = []) -> P ++ Q <> [] ->
  (exists st', part_loop v6 pack inflate b e Q last_ st = Ok st' /\ (forall r, wanted (P ++ Q) r -> readable r) /\
     (forall k x, In (k, x) (p_files st') <-> exists r, wanted (P ++ Q) r /\ fout r k x) /\ forall o, In o (p_deleted st') <-> gone (P ++ Q) o) \/
  (part_loop v6 pack inflate b e Q last_ st = Throw /\ exists r, wanted (P ++ Q) r /\ ~ readable r).
Proof.
  induction Q as [|x Q IH]; intros P st last_ HG HS HC HCalm HCur HP HL1 HNE.
  - rewrite app_nil_r in *. cbn [part_loop]. destruct last_ as [r0|]; [|exfalso; apply HNE, HL1; reflexivity].
    destruct (flush_part P st (h_obj r0) HS HC) as [(st' & E & D)|(E & r & K1 & K2)].
    + intros r q E2 E1 R K. destruct HC as (_ & C2 & C3 & _). rewrite E2 in C2. rewrite E1 in C3. destruct C2 as [C2 C2'], C3 as [C3 C3']. apply (HCalm r q); [repeat split; try assumption; apply C2'|exact C3'|congruence].
    + left. exists st'. destruct D as (_ & _ & _ & D4 & D5 & D6). auto.
    + right. split; [exact E|exists r; auto].
  - inversion HG as [|a c G1 G2]. subst a c.
    assert (HF : Forall (fun p => hist_lt p x) P).
    { clear - HS. induction P as [|y P IH]; [constructor|]. inversion HS as [|a c S1 S2]. subst. constructor; [|apply IH; exact S1]. rewrite Forall_forall in S2. apply S2. apply in_or_app. right. left. reflexivity. }
    assert (SP : StronglySorted hist_lt P).
    { clear - HS. induction P as [|y P IH]; [constructor|]. inversion HS as [|a c S1 S2]. subst. constructor; [apply IH; exact S1|]. apply Forall_app in S2. tauto. }
    assert (LE : be_val (p_cur st) <= be_val (h_obj x)).
    { destruct HCur as [[_ H]|(p & H1 & H2)]; [rewrite H; apply (Z.le_trans _ 0); [reflexivity|apply be_nonneg; exact G1]|]. rewrite <- H2. rewrite Forall_forall in HF. destruct (HF p H1) as [H|[H _]]; [lia|rewrite H; lia]. }
    cbn [part_loop].
    assert (STEP : forall st1, pcore P st1 -> p_cur st1 = h_obj x -> (forall p, In p P -> be_val (h_obj p) <= be_val (h_obj x)) ->
      (exists st', part_loop v6 pack inflate b e Q (Some x) (part_take b e st1 x) = Ok st' /\ (forall r, wanted (P ++ x :: Q) r -> readable r) /\
         (forall k y, In (k, y) (p_files st') <-> exists r, wanted (P ++ x :: Q) r /\ fout r k y) /\ forall o, In o (p_deleted st') <-> gone (P ++ x :: Q) o) \/
      (part_loop v6 pack inflate b e Q (Some x) (part_take b e st1 x) = Throw /\ exists r, wanted (P ++ x :: Q) r /\ ~ readable r)).
    { intros st1 K1 K2 K3. assert (EA : P ++ x :: Q = (P ++ [x]) ++ Q) by (rewrite <- app_assoc; reflexivity). rewrite EA in *.
      assert (EC : p_cur (part_take b e st1 x) = h_obj x) by (unfold part_take; destruct (h_ver x <? b); [|destruct (h_ver x <=? e)]; exact K2).
      apply IH; try assumption; [apply take_part; assumption|right; exists x; split; [apply in_or_app; right; left; reflexivity|rewrite EC; reflexivity]| | discriminate].
      intros p Hp. rewrite EC. apply in_app_or in Hp. destruct Hp as [Hp|[<-|[]]]; [apply K3; exact Hp|lia]. }
    assert (C1 : is_guid (p_cur st)) by (destruct HC; assumption).
    destruct (guid_eqb (h_obj x) (p_cur st)) eqn:EQ; cbn [negb].
    + apply guid_eq_spec in EQ; [|exact G1|exact C1]. cbn [rbind]. apply STEP; [exact HC|congruence|rewrite EQ; exact HP].
    + assert (LT : be_val (p_cur st) < be_val (h_obj x)).
      { destruct (Z.eq_dec (be_val (p_cur st)) (be_val (h_obj x))) as [E|N]; [|lia]. exfalso. apply (val_inj _ _ C1 G1) in E. assert (H : guid_eqb (h_obj x) (p_cur st) = true) by (apply guid_eq_spec; congruence). congruence. }
      assert (BX : forall y r, In y (x :: Q) -> In r P -> h_obj y <> h_obj r).
      { intros y r Hy Hr H. specialize (HP r Hr). assert (HX : be_val (h_obj x) <= be_val (h_obj y)).
        { destruct Hy as [<-|Hy]; [lia|]. assert (SX : StronglySorted hist_lt (x :: Q)) by (clear - HS; induction P as [|z P IH]; [exact HS|]; inversion HS; auto). inversion SX as [|a c S1 S2]. subst. rewrite Forall_forall in S2. destruct (S2 y Hy) as [H0|[H0 _]]; [lia|rewrite H0; lia]. }
        rewrite H in HX. lia. }
      assert (WX : forall r, wanted P r -> wanted (P ++ x :: Q) r).
      { intros r (W1 & W2). split; [|exact W2]. apply last_in_app; [|destruct W1; assumption|exact W1]. intros y Hy. apply BX; [exact Hy|destruct W1; assumption]. }
      destruct (flush_part P st (h_obj x) SP HC) as [(st1 & E & D)|(E & r & K1 & K2)].
      * intros r q E2 E1 R K. destruct HC as (_ & C2 & C3 & _). rewrite E2 in C2. rewrite E1 in C3. destruct C2 as [C2 C2'], C3 as [C3 C3'].
        apply (HCalm r q); [apply WX; repeat split; try assumption; apply C2'| |congruence]. destruct C3' as (I1 & I2 & I3). split; [apply in_or_app; left; exact I1|]. split; [exact I2|].
        intros r' J1 J2 J3. apply in_app_or in J1. destruct J1 as [J1|J1]; [apply I3; assumption|]. exfalso. exact (BX r' q J1 I1 J2).
      * rewrite E. cbn [rbind]. apply STEP; [apply (pdone_core P (h_obj x)); [exact G1| |exact D]|destruct D; assumption|].
        -- intros p Hp H. specialize (HP p Hp). rewrite H in HP. lia.
        -- intros p Hp. specialize (HP p Hp). lia.
      * rewrite E. cbn [rbind]. right. split; [reflexivity|]. exists r. split; [apply WX; exact K1|exact K2].
Qed.
End Part.

Lemma export_part_ok v6 pack inflate b e rows : b <= e -> Forall (fun r => is_guid (h_obj r)) rows -> StronglySorted hist_lt rows -> rows <> [] -> calm b e rows ->
  ((forall r, wanted b e rows r -> readable v6 pack inflate r) -> exists files deleted, export_part v6 pack inflate b e rows = Ok (files, deleted) /\
     (forall k x, In (k, x) files <-> exists r, wanted b e rows r /\ fout v6 pack inflate r k x) /\ forall o, In o deleted <-> gone b e rows o) /\
  (~ (forall r, wanted b e rows r -> readable v6 pack inflate r) -> export_part v6 pack inflate b e rows = Throw).
Proof.
  intros LE HG HS NE HC. unfold export_part. destruct (Z.ltb_spec e b); [lia|].
  assert (C0 : pcore v6 pack inflate b e [] (PS None None (repeat 0 16) [] [] [])).
  { unfold pcore. cbn [p_r1 p_r2 p_cur p_in p_files p_deleted]. split; [exact zero_guid|]. split; [intros r ([] & _)|]. split; [intros (q & [] & _)|]. repeat apply conj.
    - intros r (([] & _) & _). - intros k x. split; [intros []|intros (r & (([] & _) & _) & _)]. - intros o. split; [intros []|intros [(r & ([] & _) & _) _]]. }
  destruct (part_ok v6 pack inflate b e rows [] _ None HG HS C0 HC) as [(st & E & K1 & K2 & K3)|(E & r & K1 & K2)];
    [left; split; reflexivity|intros p []|reflexivity|exact NE| |]; cbn [app] in *; rewrite E; cbn [rbind]; split; intros HR.
  - exists (p_files st), (p_deleted st). auto.
  - exfalso. apply HR. exact K1.
  - exfalso. apply K2. apply HR. exact K1.
  - reflexivity.
Qed.

Lemma part_exact (v6 : bool) pack inflate b e rows : b <= e -> Forall (fun r => is_guid (h_obj r)) rows -> StronglySorted hist_lt rows -> rows <> [] ->
  let kept r := last_in b e rows r /\ h_removed r = false /\ h_packed r = true in
  let data r x := exists d, stored (if v6 then Some pack else None) (h_data r) (h_hash r) d /\ inflate d = Some x in
  (forall r q, kept r -> last_before b rows q -> h_obj q = h_obj r -> h_packed q = false \/ h_data q = None) ->
  ((forall r, kept r -> exists x, data r x) -> exists files deleted, export_part v6 pack inflate b e rows = Ok (files, deleted) /\
     (forall k x, In (k, x) files <-> exists r, kept r /\ k = h_obj r /\ data r x) /\
     (forall o, In o deleted <-> exists r, last_in b e rows r /\ h_obj r = o /\ h_removed r = true /\ known_before b rows o)) /\
  (~ (forall r, kept r -> exists x, data r x) -> export_part v6 pack inflate b e rows = Throw).
Proof.
  cbv zeta. intros LE HG HS NE HC. destruct (export_part_ok v6 pack inflate b e rows LE HG HS NE HC) as [H1 H2]. split.
  - intros HR. apply H1. intros r Hr. destruct (HR r Hr) as (x & d & K). exists d, x. exact K.
  - intros HR. apply H2. intros K. apply HR. intros r Hr. destruct (K r Hr) as (d & x & K1). exists x, d. exact K1.
Qed.
Lemma part_sym v6 pack inflate b e rows : export_part v6 pack inflate b e rows = export_part v6 pack inflate e b rows.
Proof. unfold export_part. destruct (Z.ltb_spec e b), (Z.ltb_spec b e); try reflexivity; [lia|]. assert (b = e) as -> by lia. reflexivity. Qed.
Lemma guid_neq a b : is_guid a -> is_guid b -> a <> b -> guid_eqb a b = false.
Proof. intros A B N. destruct (guid_eqb a b) eqn:E; [|reflexivity]. apply guid_eq_spec in E; [congruence|exact A|exact B]. Qed.
Lemma guid_same a : is_guid a -> guid_eqb a a = true.
Proof. intros A. apply guid_eq_spec; [exact A|exact A|reflexivity]. Qed.
Lemma part_old pack inflate b e o q r d : h_obj q = o -> h_obj r = o -> is_guid o -> o <> repeat 0 16 ->
  h_ver q < b <= h_ver r -> h_ver r <= e -> h_packed q = true -> h_data q = Some d -> h_removed r = false -> h_packed r = true ->
  export_part false pack inflate b e [q; r] = UB.
Proof.
  intros EQ ER G NZ HV1 HV2 PQ DQ RR PR. unfold export_part. destruct (Z.ltb_spec e b); [lia|]. cbn [part_loop p_cur]. rewrite EQ, ER. rewrite guid_neq by (assumption || apply zero_guid). cbn [negb part_object p_r2 rbind].
  cbn [p_in p_files p_deleted]. assert (E1 : part_take b e (PS None None o [] [] []) q = PS (Some q) None o [] [] []) by (unfold part_take; destruct (Z.ltb_spec (h_ver q) b); [reflexivity|lia]). rewrite E1. cbn [p_cur]. rewrite guid_same by exact G. cbn [negb rbind].
  unfold part_take. destruct (Z.ltb_spec (h_ver r) b); [lia|]. destruct (Z.leb_spec (h_ver r) e); [|lia]. cbn [p_cur p_r1 p_r2 p_in p_files p_deleted].
  unfold part_object, compare_rows. cbn [p_cur p_r1 p_r2 p_in p_files p_deleted]. rewrite RR, PR, PQ, DQ. cbn [negb]. destruct (h_data r); reflexivity.
Qed.
Lemma part_three pack inflate b e o' a q r da dq dr x :
  h_obj a = o' -> is_guid o' -> o' <> repeat 0 16 -> is_guid (h_obj q) -> h_obj q = h_obj r -> o' <> h_obj q -> h_obj q <> repeat 0 16 ->
  b <= h_ver a <= e -> h_removed a = false -> h_packed a = true -> h_data a = Some da -> inflate da = Some x ->
  h_ver q < b <= h_ver r -> h_ver r <= e -> h_packed q = true -> h_data q = Some dq -> h_removed r = false -> h_packed r = true -> h_data r = Some dr ->
  export_part true pack inflate b e [a; q; r] =
  Ok (if list_eq_dec Z.eq_dec (h_hash r) (h_hash q) then [(o', x)] else if list_eq_dec Z.eq_dec da dr then [(o', x)] else [(o', x); (h_obj r, x)], []).
Proof.
  intros EA GA NA GQ EQ NQ NZ HVA RA PA DA IA HVQ HVR PQ DQ RR PR DR. unfold export_part. destruct (Z.ltb_spec e b); [lia|]. cbn [part_loop p_cur]. rewrite EA. rewrite guid_neq by (assumption || apply zero_guid). cbn [negb part_object p_r2 rbind].
  set (s1 := part_take b e (PS None None o' [] [] []) a). assert (E1 : s1 = PS None (Some a) o' [] [] []) by (unfold s1, part_take; destruct (Z.ltb_spec (h_ver a) b); [lia|]; destruct (Z.leb_spec (h_ver a) e); [reflexivity|lia]).
  cbv [p_in p_files p_deleted]. change (part_take b e (PS None None o' [] [] []) a) with s1. rewrite E1. cbn [p_cur]. rewrite guid_neq by (try assumption; congruence). cbn [negb].
  assert (E3 : part_object true pack inflate (PS None (Some a) o' [] [] []) (h_obj q) = Ok (PS None None (h_obj q) da [(o', x)] [])).
  { unfold part_object. cbn [p_cur p_r1 p_r2 p_in p_files p_deleted compare_rows]. rewrite RA, PA, DA. cbn [negb rbind]. rewrite IA, EA. reflexivity. }
  rewrite E3. cbn [rbind].
  cbn [app]. match goal with |- context [part_take b e ?s q] => assert (E2 : part_take b e s q = PS (Some q) (p_r2 s) (p_cur s) (p_in s) (p_files s) (p_deleted s)) by (unfold part_take; destruct (Z.ltb_spec (h_ver q) b); [reflexivity|lia]) end.
  rewrite E2. cbn [p_cur p_r1 p_r2 p_in p_files p_deleted]. rewrite <- EQ, guid_same by exact GQ. cbn [negb rbind].
  unfold part_take. destruct (Z.ltb_spec (h_ver r) b); [lia|]. destruct (Z.leb_spec (h_ver r) e); [|lia]. cbn [p_cur p_r1 p_r2 p_in p_files p_deleted].
  unfold part_object, compare_rows. cbn [p_cur p_r1 p_r2 p_in p_files p_deleted]. rewrite RR, PR, PQ, DQ, DR. cbn [negb rbind].
  destruct (list_eq_dec Z.eq_dec (h_hash r) (h_hash q)); [reflexivity|].
  destruct (list_eq_dec Z.eq_dec da dr); cbn [negb rbind p_files p_deleted app]; rewrite ?IA; cbn [rbind p_files p_deleted]; rewrite ?EQ; reflexivity.
Qed.
Lemma part_stale pack inflate b e o' a q r da dq dr x :
  h_obj a = o' -> is_guid o' -> o' <> repeat 0 16 -> is_guid (h_obj q) -> h_obj q = h_obj r -> o' <> h_obj q -> h_obj q <> repeat 0 16 ->
  b <= h_ver a <= e -> h_removed a = false -> h_packed a = true -> h_data a = Some da -> inflate da = Some x ->
  h_ver q < b <= h_ver r -> h_ver r <= e -> h_packed q = true -> h_data q = Some dq -> h_removed r = false -> h_packed r = true -> h_data r = Some dr ->
  dr <> da -> h_hash r <> h_hash q ->
  export_part true pack inflate b e [a; q; r] = Ok ([(o', x); (h_obj r, x)], []).
Proof.
  intros EA GA NA GQ EQ NQ NZ HVA RA PA DA IA HVQ HVR PQ DQ RR PR DR N1 N2. rewrite (part_three pack inflate b e o' a q r da dq dr x) by assumption.
  destruct (list_eq_dec Z.eq_dec (h_hash r) (h_hash q)); [congruence|]. destruct (list_eq_dec Z.eq_dec da dr); [congruence|reflexivity].
Qed.
Lemma part_skipped pack inflate b e o' a q r da dq x :
  h_obj a = o' -> is_guid o' -> o' <> repeat 0 16 -> is_guid (h_obj q) -> h_obj q = h_obj r -> o' <> h_obj q -> h_obj q <> repeat 0 16 ->
  b <= h_ver a <= e -> h_removed a = false -> h_packed a = true -> h_data a = Some da -> inflate da = Some x ->
  h_ver q < b <= h_ver r -> h_ver r <= e -> h_packed q = true -> h_data q = Some dq -> h_removed r = false -> h_packed r = true -> h_data r = Some da ->
  export_part true pack inflate b e [a; q; r] = Ok ([(o', x)], []).
Proof.
  intros EA GA NA GQ EQ NQ NZ HVA RA PA DA IA HVQ HVR PQ DQ RR PR DR. rewrite (part_three pack inflate b e o' a q r da dq da x) by assumption.
  destruct (list_eq_dec Z.eq_dec (h_hash r) (h_hash q)); [reflexivity|]. destruct (list_eq_dec Z.eq_dec da da); [reflexivity|congruence].
Qed.
Lemma part_unpacked v6 pack inflate b e a r : is_guid (h_obj a) -> h_obj a <> repeat 0 16 -> h_obj r = h_obj a -> b <= h_ver a < h_ver r -> h_ver r <= e ->
  h_packed a = true -> h_removed r = false -> h_packed r = false -> export_part v6 pack inflate b e [a; r] = Ok ([], []).
Proof.
  intros G NZ ER HV1 HV2 _ RR PR. unfold export_part. destruct (Z.ltb_spec e b); [lia|]. cbn [part_loop p_cur]. rewrite ER. rewrite guid_neq by (assumption || apply zero_guid). cbn [negb part_object p_r2 rbind p_in p_files p_deleted].
  assert (E1 : part_take b e (PS None None (h_obj a) [] [] []) a = PS None (Some a) (h_obj a) [] [] []) by (unfold part_take; destruct (Z.ltb_spec (h_ver a) b); [lia|]; destruct (Z.leb_spec (h_ver a) e); [reflexivity|lia]).
  rewrite E1. cbn [p_cur]. rewrite guid_same by exact G. cbn [negb rbind]. unfold part_take. destruct (Z.ltb_spec (h_ver r) b); [lia|]. destruct (Z.leb_spec (h_ver r) e); [|lia].
  unfold part_object. cbn [p_cur p_r1 p_r2 p_in p_files p_deleted]. rewrite RR, PR. reflexivity.
Qed.
