(** Proofs about exporting one version of a depot. *)
From Coq Require Import Sorted.
From Verif Require Import Prelude Lists Codec_Model Codec_Spec Codec_Proofs Depot_Model Depot_Spec.
Ltac Zify.zify_post_hook ::= idtac.

Lemma gt_val a b : is_guid a -> is_guid b -> guid_gtb a b = (be_val b <? be_val a).
Proof. exact (guid_gt_spec a b). Qed.
Lemma val_inj a b : is_guid a -> is_guid b -> be_val a = be_val b -> a = b.
Proof. intros Ha Hb E. destruct (guid_order a b a Ha Hb Ha) as (_ & _ & _ & H & _). apply H; rewrite gt_val by assumption; apply Z.ltb_ge; lia. Qed.
Lemma eq_dec_guid (a b : list Z) : {a = b} + {a <> b}. Proof. apply list_eq_dec, Z.eq_dec. Qed.
Lemma be_from l : forall a, 0 <= a -> bytes_ok l -> 0 <= fold_left (fun a b => 256 * a + b) l a.
Proof. induction l as [|x l IH]; intros a HA HB; [exact HA|]. inversion HB as [|y z B1 B2]. subst. unfold byte_ok in B1. cbn [fold_left]. apply IH; [lia|exact B2]. Qed.
Lemma be_nonneg g : is_guid g -> 0 <= be_val g.
Proof. intros [_ H]. apply be_from; [lia|exact H]. Qed.
Lemma zero_guid : is_guid (repeat 0 16). Proof. split; [reflexivity|apply bytes_okb_spec; reflexivity]. Qed.

(** ** Data *)
Lemma fetch_ok pack data hash : (exists d, fetch pack data hash = Ok d /\ stored pack data hash d) \/ (fetch pack data hash = Throw /\ forall d, ~ stored pack data hash d).
Proof.
  unfold fetch, stored. destruct data as [d|]; [left; exists d; auto|]. destruct pack as [p|].
  - destruct (p hash) as [d|] eqn:E; [left; exists d; split; [reflexivity|right; split; [reflexivity|exists p; auto]]|].
    right. split; [reflexivity|]. intros d [H|[_ (q & H1 & H2)]]; [discriminate|]. congruence.
  - right. split; [reflexivity|]. intros d [H|[_ (q & H1 & H2)]]; discriminate.
Qed.
Lemma stored_fun pack data hash d d' : stored pack data hash d -> stored pack data hash d' -> d = d'.
Proof. intros [H|[H (p & H1 & H2)]] [K|[K (q & K1 & K2)]]; congruence. Qed.

(** ** External files of one object *)
Section Exts.
Variable same : list Z -> list Z -> bool.
Hypothesis HEQ : equiv same.
Lemma same_refl a : same a a = true. Proof. destruct HEQ as (H & _). apply H. Qed.
Lemma same_sym a b : same a b = same b a.
Proof. destruct HEQ as (_ & H & _). destruct (same a b) eqn:E, (same b a) eqn:F; try reflexivity; [apply H in E|apply H in F]; congruence. Qed.
Lemma same_trans a b c : same a b = true -> same b c = true -> same a c = true. Proof. destruct HEQ as (_ & _ & H). apply H. Qed.

Definition apart (l : list erow) : Prop := ForallOrdPairs (fun a b => same (e_name a) (e_name b) = false) l.
Lemma put_in x l : apart l -> forall e, In e (put_rece same x l) <-> e = x \/ In e l /\ same (e_name x) (e_name e) = false.
Proof.
  induction 1 as [|y l HY _ IH]; intros e; [cbn [put_rece In]; split; [intros [H|[]]; auto|intros [H|[[] _]]; auto]|]. cbn [put_rece]. destruct (same (e_name x) (e_name y)) eqn:E.
  - cbn [In]. split.
    + intros [H|H]; [auto|]. right. split; [right; exact H|]. rewrite Forall_forall in HY. specialize (HY e H). destruct (same (e_name x) (e_name e)) eqn:F; [|reflexivity].
      rewrite same_sym in E. rewrite (same_trans _ _ _ E F) in HY. discriminate.
    + intros [H|[[H|H] F]]; [auto| |auto]. subst e. congruence.
  - cbn [In]. rewrite IH. split.
    + intros [H|[H|[H F]]]; [subst e; auto|auto|auto].
    + intros [H|[[H|H] F]]; auto.
Qed.
Lemma put_apart x l : apart l -> apart (put_rece same x l).
Proof.
  induction 1 as [|y l HY HL IH]; [constructor; constructor|]. cbn [put_rece]. destruct (same (e_name x) (e_name y)) eqn:E.
  - constructor; [|exact HL]. eapply Forall_impl; [|exact HY]. intros z Hz. cbv beta in *. destruct (same (e_name x) (e_name z)) eqn:F; [|reflexivity].
    rewrite same_sym in E. rewrite (same_trans _ _ _ E F) in Hz. discriminate.
  - constructor; [|exact IH]. apply Forall_forall. intros z Hz. apply put_in in Hz; [|exact HL]. destruct Hz as [->|[Hz _]]; [rewrite same_sym; exact E|]. rewrite Forall_forall in HY. apply HY. exact Hz.
Qed.

(** [L] = the rows looked at so far *)
Definition picked (v : Z) (cur : list Z) (L : list erow) (e : erow) : Prop :=
  In e L /\ e_obj e = cur /\ e_ver e <= v /\ e_packed e = true /\
  forall e', In e' L -> e_obj e' = cur -> e_ver e' <= v -> e_packed e' = true -> same (e_name e') (e_name e) = true -> e_ver e' <= e_ver e.
Definition named (lastver : Z) (cur : list Z) (L : list erow) (n : list Z) : Prop := exists e, In e L /\ e_obj e = cur /\ e_ver e = lastver /\ e_name e = n.
Lemma scan_ok v lastver cur : is_guid cur -> forall exts L reces names, Forall (fun e => is_guid (e_obj e)) exts -> StronglySorted (ext_lt same) (L ++ exts) ->
  apart reces -> (forall e, In e reces <-> picked v cur L e) -> (forall n, In n names <-> named lastver cur L n) ->
  exists A rest reces' names', exts = A ++ rest /\ ext_scan same v lastver cur exts reces names = (rest, reces', names') /\
    Forall (fun e => be_val (e_obj e) <= be_val cur) A /\ Forall (fun e => be_val cur < be_val (e_obj e)) rest /\
    (forall e, In e reces' <-> picked v cur (L ++ A) e) /\ (forall n, In n names' <-> named lastver cur (L ++ A) n).
Proof.
  intros HC. induction exts as [|e exts IH]; intros L reces names HG HS HA HR HN.
  - exists [], [], reces, names. cbn [ext_scan app]. rewrite app_nil_r. repeat apply conj; try constructor; try assumption.
    + intros H. apply HR. exact H. + intros H. apply HR. exact H. + intros H. apply HN. exact H. + intros H. apply HN. exact H.
  - inversion HG as [|x y G1 G2]. subst. cbn [ext_scan]. rewrite gt_val by assumption. destruct (Z.ltb_spec (be_val cur) (be_val (e_obj e))) as [LT|GE].
    + exists [], (e :: exts), reces, names. cbn [app]. rewrite app_nil_r. repeat apply conj; [reflexivity|reflexivity|constructor| |exact HR|exact HN].
      constructor; [exact LT|]. assert (HE : Forall (ext_lt same e) exts).
      { clear - HS. induction L as [|x L IH]; [inversion HS; assumption|]. apply IH. inversion HS. assumption. }
      eapply Forall_impl; [|exact HE]. intros x Hx. cbv beta. destruct Hx as [Hx|[Hx _]]; [lia|]. rewrite <- Hx. exact LT.
    + assert (HLe : Forall (fun x => ext_lt same x e) L).
      { clear - HS. induction L as [|x L IH]; [constructor|]. inversion HS as [|a b S1 S2]. subst. constructor; [|apply IH; exact S1]. rewrite Forall_forall in S2. apply S2. apply in_or_app. right. left. reflexivity. }
      assert (HS2 : StronglySorted (ext_lt same) ((L ++ [e]) ++ exts)) by (rewrite <- app_assoc; exact HS).
      assert (NEXT : forall reces2 names2, apart reces2 -> (forall x, In x reces2 <-> picked v cur (L ++ [e]) x) -> (forall n, In n names2 <-> named lastver cur (L ++ [e]) n) ->
        exists A rest reces' names', e :: exts = A ++ rest /\ ext_scan same v lastver cur exts reces2 names2 = (rest, reces', names') /\
          Forall (fun e => be_val (e_obj e) <= be_val cur) A /\ Forall (fun e => be_val cur < be_val (e_obj e)) rest /\
          (forall e, In e reces' <-> picked v cur (L ++ A) e) /\ (forall n, In n names' <-> named lastver cur (L ++ A) n)).
      { intros reces2 names2 H1 H2 H3. destruct (IH (L ++ [e]) reces2 names2 G2 HS2 H1 H2 H3) as (A & rest & r' & n' & E1 & E2 & E3 & E4 & E5 & E6).
        exists (e :: A), rest, r', n'. rewrite <- app_assoc in E5, E6. cbn [app] in E5, E6. repeat apply conj; [rewrite E1; reflexivity|exact E2|constructor; [exact GE|exact E3]|exact E4|exact E5|exact E6]. }
      destruct (guid_eqb (e_obj e) cur) eqn:EQ.
      * apply guid_eq_spec in EQ; [|exact G1|exact HC]. apply NEXT.
        -- destruct ((e_ver e <=? v) && e_packed e); [apply put_apart; exact HA|exact HA].
        -- intros x. destruct (Z.leb_spec (e_ver e) v) as [V|V]; [destruct (e_packed e) eqn:P|]; cbn [andb].
           ++ rewrite put_in by exact HA. rewrite HR. unfold picked. split.
              ** intros [->|[(I1 & I2 & I3 & I4 & I5) NS]].
                 --- repeat apply conj; [apply in_or_app; right; left; reflexivity|exact EQ|exact V|exact P|]. intros e' I K1 K2 K3 K4. apply in_app_or in I. destruct I as [I|[<-|[]]]; [|lia].
                     rewrite Forall_forall in HLe. specialize (HLe e' I). destruct HLe as [HLe|[_ [HLe|[_ HLe]]]]; [rewrite K1, EQ in HLe; lia|lia|congruence].
                 --- repeat apply conj; [apply in_or_app; left; exact I1|exact I2|exact I3|exact I4|]. intros e' I K1 K2 K3 K4. apply in_app_or in I. destruct I as [I|[<-|[]]]; [apply I5; assumption|]. congruence.
              ** intros (I1 & I2 & I3 & I4 & I5). apply in_app_or in I1. destruct I1 as [I1|[<-|[]]]; [|left; reflexivity]. right.
                 assert (NS : same (e_name e) (e_name x) = false).
                 { destruct (same (e_name e) (e_name x)) eqn:F; [|reflexivity]. exfalso. assert (HV : e_ver e <= e_ver x) by (apply I5; [apply in_or_app; right; left; reflexivity|exact EQ|exact V|exact P|exact F]).
                   rewrite Forall_forall in HLe. specialize (HLe x I1). destruct HLe as [HLe|[_ [HLe|[_ HLe]]]]; [rewrite I2, EQ in HLe; lia|lia|]. rewrite same_sym in HLe. congruence. }
                 split; [|exact NS]. repeat apply conj; [exact I1|exact I2|exact I3|exact I4|]. intros e' I K1 K2 K3 K4. apply I5; try assumption. apply in_or_app. left. exact I.
           ++ rewrite HR. unfold picked. split; intros (I1 & I2 & I3 & I4 & I5); repeat apply conj; try assumption.
              ** apply in_or_app. left. exact I1. ** intros e' I K1 K2 K3 K4. apply in_app_or in I. destruct I as [I|[<-|[]]]; [apply I5; assumption|congruence].
              ** apply in_app_or in I1. destruct I1 as [I1|[<-|[]]]; [exact I1|congruence]. ** intros e' I K1 K2 K3 K4. apply I5; try assumption. apply in_or_app. left. exact I.
           ++ rewrite HR. unfold picked. split; intros (I1 & I2 & I3 & I4 & I5); repeat apply conj; try assumption.
              ** apply in_or_app. left. exact I1. ** intros e' I K1 K2 K3 K4. apply in_app_or in I. destruct I as [I|[<-|[]]]; [apply I5; assumption|lia].
              ** apply in_app_or in I1. destruct I1 as [I1|[<-|[]]]; [exact I1|lia]. ** intros e' I K1 K2 K3 K4. apply I5; try assumption. apply in_or_app. left. exact I.
        -- intros n. destruct (Z.eqb_spec (e_ver e) lastver) as [V|V].
           ++ rewrite in_app_iff, HN. unfold named. split.
              ** intros [(x & I1 & I2 & I3 & I4)|[<-|[]]]; [exists x; repeat apply conj; try assumption; apply in_or_app; left; exact I1|]. exists e. repeat apply conj; try assumption; [apply in_or_app; right; left; reflexivity|reflexivity].
              ** intros (x & I1 & I2 & I3 & I4). apply in_app_or in I1. destruct I1 as [I1|[<-|[]]]; [left; exists x; auto|right; left; exact I4].
           ++ rewrite HN. unfold named. split.
              ** intros (x & I1 & I2 & I3 & I4). exists x. repeat apply conj; try assumption. apply in_or_app. left. exact I1.
              ** intros (x & I1 & I2 & I3 & I4). apply in_app_or in I1. destruct I1 as [I1|[<-|[]]]; [exists x; auto|lia].
      * assert (NE : e_obj e <> cur) by (intros H; apply (guid_eq_spec _ _ G1 HC) in H; congruence). apply NEXT; [exact HA| |].
        -- intros x. rewrite HR. unfold picked. split; intros (I1 & I2 & I3 & I4 & I5); repeat apply conj; try assumption.
           ++ apply in_or_app. left. exact I1. ++ intros e' I K1 K2 K3 K4. apply in_app_or in I. destruct I as [I|[<-|[]]]; [apply I5; assumption|congruence].
           ++ apply in_app_or in I1. destruct I1 as [I1|[<-|[]]]; [exact I1|congruence]. ++ intros e' I K1 K2 K3 K4. apply I5; try assumption. apply in_or_app. left. exact I.
        -- intros n. rewrite HN. unfold named. split.
           ++ intros (x & I1 & I2 & I3 & I4). exists x. repeat apply conj; try assumption. apply in_or_app. left. exact I1.
           ++ intros (x & I1 & I2 & I3 & I4). apply in_app_or in I1. destruct I1 as [I1|[<-|[]]]; [exists x; auto|congruence].
Qed.
Lemma store_ok pack names reces : let used e := In e reces /\ exists n, In n names /\ same n (e_name e) = true in
  (exists log, ext_store same pack names reces = Ok log /\ (forall e, used e -> exists d, stored pack (e_data e) (e_hash e) d) /\
     forall k d, In (k, d) log <-> exists e, used e /\ k = e_name e /\ stored pack (e_data e) (e_hash e) d) \/
  (ext_store same pack names reces = Throw /\ exists e, used e /\ forall d, ~ stored pack (e_data e) (e_hash e) d).
Proof.
  induction reces as [|e reces IH]; cbv zeta.
  - left. exists []. cbn [ext_store In]. repeat apply conj; [reflexivity|intros e [[] _]|]. intros k d. split; [intros []|intros (e & [[] _] & _)].
  - cbv zeta in IH. cbn [ext_store]. destruct (existsb (fun n => same n (e_name e)) names) eqn:EX.
    + apply existsb_exists in EX. destruct (fetch_ok pack (e_data e) (e_hash e)) as [(d & E1 & E2)|(E1 & E2)].
      * rewrite E1. cbn [rbind]. destruct IH as [(log & L1 & L2 & L3)|(L1 & x & [L2 L3] & L4)].
        -- left. rewrite L1. cbn [rbind]. exists ((e_name e, d) :: log). repeat apply conj; [reflexivity| |].
           ++ intros x [[<-|I] HX]; [exists d; exact E2|]. apply L2. split; assumption.
           ++ intros k d0. cbn [In]. rewrite L3. split.
              ** intros [H|(x & [I HX] & K1 & K2)]; [injection H as <- <-; exists e; split; [split; [left; reflexivity|exact EX]|auto]|]. exists x. split; [split; [right; exact I|exact HX]|auto].
              ** intros (x & [[<-|I] HX] & K1 & K2); [left; rewrite K1, (stored_fun _ _ _ _ _ K2 E2); reflexivity|]. right. exists x. repeat split; assumption.
        -- right. rewrite L1. split; [reflexivity|]. exists x. split; [split; [right; exact L2|exact L3]|exact L4].
      * right. rewrite E1. split; [reflexivity|]. exists e. split; [split; [left; reflexivity|exact EX]|exact E2].
    + assert (NX : ~ exists n, In n names /\ same n (e_name e) = true) by (intros H; apply existsb_exists in H; congruence).
      destruct IH as [(log & L1 & L2 & L3)|(L1 & x & [L2 L3] & L4)].
      * left. exists log. repeat apply conj; [exact L1|intros x [[<-|I] HX]; [contradiction|apply L2; split; assumption]|].
        intros k d. rewrite L3. split; intros (x & [I HX] & K).
        -- exists x. split; [split; [right; exact I|exact HX]|exact K]. -- destruct I as [<-|I]; [contradiction|]. exists x. split; [split; assumption|exact K].
      * right. split; [exact L1|]. exists x. split; [split; [right; exact L2|exact L3]|exact L4].
Qed.

(** the rows picked from all of EXTERNALS are those of the specification *)
Lemma picked_attached v exts0 r : forall e, (picked v (h_obj r) exts0 e /\ exists n, named (h_ver r) (h_obj r) exts0 n /\ same n (e_name e) = true) <-> attached same v exts0 r e.
Proof.
  intros e. unfold picked, attached, named. split.
  - intros ((I1 & I2 & I3 & I4 & I5) & n & (x & K1 & K2 & K3 & K4) & K5). repeat apply conj; try assumption. exists x. rewrite K4. auto.
  - intros (I1 & I2 & I3 & I4 & I5 & x & K1 & K2 & K3 & K4). split; [repeat apply conj; assumption|]. exists (e_name x). split; [exists x; auto|exact K4].
Qed.
End Exts.

(** ** The loop over HISTORY *)
Section Loop.
Variables (same : list Z -> list Z -> bool) (oname : list Z -> list Z) (pack : option (list Z -> option (list Z))) (v : Z) (exts0 : list erow).
Hypothesis HEQ : equiv same.
Hypothesis HEG : Forall (fun e => is_guid (e_obj e)) exts0.
Hypothesis HES : StronglySorted (ext_lt same) exts0.

Definition outs (r : hrow) (k d : list Z) : Prop :=
  k = oname (h_obj r) /\ stored pack (h_data r) (h_hash r) d \/ exists e, attached same v exts0 r e /\ k = e_name e /\ stored pack (e_data e) (e_hash e) d.
Definition comp (r : hrow) : Prop := (exists d, stored pack (h_data r) (h_hash r) d) /\ forall e, attached same v exts0 r e -> exists d, stored pack (e_data e) (e_hash e) d.
Definition core (P : list hrow) (st : dstate) : Prop :=
  is_guid (d_cur st) /\
  (d_lastremoved st = false -> exists r, d_rech1 st = Some r /\ h_obj r = d_cur st /\ shown v P r /\ d_lastver st = h_ver r) /\
  (d_lastremoved st = true -> forall r, shown v P r -> h_obj r <> d_cur st) /\
  (exists A, exts0 = A ++ d_exts st /\ Forall (fun e => be_val (e_obj e) < be_val (d_cur st)) A) /\
  (forall r, shown v P r -> h_obj r <> d_cur st -> comp r) /\
  (forall k d, In (k, d) (d_log st) <-> exists r, shown v P r /\ h_obj r <> d_cur st /\ outs r k d).
Definition done (P : list hrow) (old next : list Z) (st : dstate) : Prop :=
  d_cur st = next /\ d_lastremoved st = true /\ (exists A, exts0 = A ++ d_exts st /\ Forall (fun e => be_val (e_obj e) <= be_val old) A) /\
  (forall r, shown v P r -> comp r) /\ (forall k d, In (k, d) (d_log st) <-> exists r, shown v P r /\ outs r k d).

Lemma sorted_mid {A} (R : A -> A -> Prop) l : StronglySorted R l -> forall a b, In a l -> In b l -> a = b \/ R a b \/ R b a.
Proof.
  induction 1 as [|x l HS IH HF]; intros a b [].
  - subst x. intros [->|H]; [auto|]. rewrite Forall_forall in HF. auto.
  - intros [<-|HB]; [rewrite Forall_forall in HF; auto|apply IH; assumption].
Qed.
Lemma shown_unique P r r' : StronglySorted hist_lt P -> shown v P r -> shown v P r' -> h_obj r = h_obj r' -> r = r'.
Proof.
  intros HS (I1 & I2 & _ & I4) (J1 & J2 & _ & J4) E. destruct (sorted_mid hist_lt P HS r r' I1 J1) as [H|[H|H]]; [exact H| |]; exfalso.
  - specialize (I4 r' J1 (eq_sym E) J2). destruct H as [H|[_ H]]; [rewrite E in H|]; lia.
  - specialize (J4 r I1 E I2). destruct H as [H|[_ H]]; [rewrite E in H|]; lia.
Qed.
Lemma flush_ok P st next : StronglySorted hist_lt P -> core P st ->
  (exists st', flush_object same oname pack v st next = Ok st' /\ done P (d_cur st) next st') \/
  (flush_object same oname pack v st next = Throw /\ exists r, shown v P r /\ ~ comp r).
Proof.
  intros HS (C1 & C2 & C3 & (A & C4 & C4') & C5 & C6). unfold flush_object. destruct (d_lastremoved st) eqn:LR.
  - left. eexists. split; [reflexivity|]. unfold done. cbn [d_cur d_lastremoved d_exts d_log]. repeat apply conj; [reflexivity|reflexivity| | |].
    + exists A. split; [exact C4|]. eapply Forall_impl; [|exact C4']. intros x Hx. cbv beta in *. lia.
    + intros r Hr. apply C5; [exact Hr|apply C3; auto].
    + intros k d. rewrite C6. split; intros (r & K); [exists r; tauto|]. exists r. destruct K as [K1 K2]. split; [exact K1|split; [apply C3; auto|exact K2]].
  - destruct (C2 eq_refl) as (r & R1 & R2 & R3 & R4). rewrite R1. destruct (fetch_ok pack (h_data r) (h_hash r)) as [(d & E1 & E2)|(E1 & E2)].
    2:{ right. rewrite E1. split; [reflexivity|]. exists r. split; [exact R3|]. intros [[d H] _]. exact (E2 d H). }
    rewrite E1. cbn [rbind].
    assert (GE : Forall (fun e => is_guid (e_obj e)) (d_exts st)) by (rewrite C4 in HEG; apply Forall_app in HEG; tauto).
    assert (SE : StronglySorted (ext_lt same) (A ++ d_exts st)) by (rewrite <- C4; exact HES).
    assert (NA : forall e, In e A -> e_obj e <> d_cur st) by (intros e He H; rewrite Forall_forall in C4'; specialize (C4' e He); rewrite H in C4'; lia).
    destruct (scan_ok same HEQ v (d_lastver st) (d_cur st) C1 (d_exts st) A [] [] GE SE) as (A2 & rest & reces & names & X1 & X2 & X3 & X4 & X5 & X6).
    + constructor.
    + intros e. split; [intros []|]. intros (I1 & I2 & _). exact (NA e I1 I2).
    + intros n. split; [intros []|]. intros (e & I1 & I2 & _). exact (NA e I1 I2).
    + rewrite X2. assert (NR : forall e, In e rest -> e_obj e <> d_cur st) by (intros e He H; rewrite Forall_forall in X4; specialize (X4 e He); rewrite H in X4; lia).
      assert (EA : exts0 = (A ++ A2) ++ rest) by (rewrite <- app_assoc, <- X1; exact C4).
      assert (U : forall e, (In e reces /\ exists n, In n names /\ same n (e_name e) = true) <-> attached same v exts0 r e).
      { intros e. rewrite <- (picked_attached same v exts0 r e). rewrite R2, <- R4, X5. split; intros [H (n & K1 & K2)]; (split; [|exists n; split; [|exact K2]]).
        - destruct H as (I1 & I2 & I3 & I4 & I5). rewrite EA. repeat apply conj; try assumption; [apply in_or_app; left; exact I1|]. intros e' J1 J2. apply in_app_or in J1. destruct J1 as [J1|J1]; [apply I5; assumption|exfalso; exact (NR e' J1 J2)].
        - apply X6 in K1. destruct K1 as (x & J1 & J2). exists x. rewrite EA. split; [apply in_or_app; left; exact J1|exact J2].
        - destruct H as (I1 & I2 & I3 & I4 & I5). rewrite EA in I1, I5. repeat apply conj; try assumption; [|intros e' J1; apply I5; apply in_or_app; left; exact J1]. apply in_app_or in I1. destruct I1 as [I1|I1]; [exact I1|exfalso; exact (NR e I1 I2)].
        - apply X6. destruct K1 as (x & J1 & J2 & J3). exists x. rewrite EA in J1. apply in_app_or in J1. destruct J1 as [J1|J1]; [|exfalso; exact (NR x J1 J2)]. repeat apply conj; tauto. }
      destruct (store_ok same pack names reces) as [(log & L1 & L2 & L3)|(L1 & e & L2 & L3)].
      * left. rewrite L1. cbn [rbind]. eexists. split; [reflexivity|]. unfold done. cbn [d_cur d_lastremoved d_exts d_log].
        assert (CR : comp r) by (split; [exists d; exact E2|intros e He; apply L2; apply U; exact He]).
        assert (HU : forall r', shown v P r' -> h_obj r' = d_cur st -> r' = r) by (intros r' H1 H2; apply (shown_unique P); try assumption; congruence).
        repeat apply conj; [reflexivity|reflexivity| | |].
        -- exists (A ++ A2). split; [exact EA|]. apply Forall_app. split; [|exact X3]. eapply Forall_impl; [|exact C4']. intros x Hx. cbv beta in *. lia.
        -- intros r' Hr'. destruct (eq_dec_guid (h_obj r') (d_cur st)) as [E|N]; [rewrite (HU r' Hr' E); exact CR|apply C5; assumption].
        -- intros k d0. rewrite in_app_iff, C6. cbn [In]. rewrite L3. split.
           ++ intros [(r' & K1 & K2 & K3)|[H|(e & K1 & K2 & K3)]].
              ** exists r'. tauto. ** injection H as <- <-. exists r. split; [exact R3|]. left. auto. ** exists r. split; [exact R3|]. right. exists e. split; [apply U; exact K1|auto].
           ++ intros (r' & K1 & K2). destruct (eq_dec_guid (h_obj r') (d_cur st)) as [E|N]; [|left; exists r'; auto]. right. rewrite (HU r' K1 E) in K2. destruct K2 as [[K2 K3]|(e & K2 & K3 & K4)].
              ** left. rewrite K2, (stored_fun _ _ _ _ _ K3 E2). reflexivity. ** right. exists e. split; [apply U; exact K2|auto].
      * right. rewrite L1. split; [reflexivity|]. exists r. split; [exact R3|]. intros [_ H]. destruct (H e) as [d0 Hd]; [apply U; exact L2|]. exact (L3 d0 Hd).
Qed.

(** one more row *)
Lemma shown_other P x r : h_obj r <> h_obj x -> shown v (P ++ [x]) r <-> shown v P r.
Proof.
  intros N. unfold shown. split; intros (I1 & I2 & I3 & I4); split; [|split; [exact I2|split; [exact I3|]]| |split; [exact I2|split; [exact I3|]]].
  - apply in_app_or in I1. destruct I1 as [I1|[<-|[]]]; [exact I1|congruence].
  - intros r' J1. apply I4. apply in_or_app. left. exact J1.
  - apply in_or_app. left. exact I1.
  - intros r' J1 J2 J3. apply in_app_or in J1. destruct J1 as [J1|[<-|[]]]; [apply I4; assumption|congruence].
Qed.
Lemma shown_idle P x r : ~ decisive v x -> shown v (P ++ [x]) r <-> shown v P r.
Proof.
  intros N. unfold shown. split; intros (I1 & I2 & I3 & I4); split; [|split; [exact I2|split; [exact I3|]]| |split; [exact I2|split; [exact I3|]]].
  - apply in_app_or in I1. destruct I1 as [I1|[<-|[]]]; [exact I1|contradiction].
  - intros r' J1. apply I4. apply in_or_app. left. exact J1.
  - apply in_or_app. left. exact I1.
  - intros r' J1 J2 J3. apply in_app_or in J1. destruct J1 as [J1|[<-|[]]]; [apply I4; assumption|contradiction].
Qed.
Lemma shown_new P x r : Forall (fun p => hist_lt p x) P -> decisive v x -> h_obj r = h_obj x -> shown v (P ++ [x]) r <-> r = x /\ h_removed x = false.
Proof.
  intros HF D E. unfold shown. split.
  - intros (I1 & I2 & I3 & I4). apply in_app_or in I1. destruct I1 as [I1|[<-|[]]]; [|auto]. exfalso.
    assert (HV : h_ver x <= h_ver r) by (apply I4; [apply in_or_app; right; left; reflexivity|congruence|exact D]).
    rewrite Forall_forall in HF. destruct (HF r I1) as [H|[_ H]]; [rewrite E in H|]; lia.
  - intros [-> R]. repeat apply conj; [apply in_or_app; right; left; reflexivity|apply D|apply D|exact R|]. intros r' J1 J2 J3. apply in_app_or in J1. destruct J1 as [J1|[<-|[]]]; [|lia].
    rewrite Forall_forall in HF. destruct (HF r' J1) as [H|[_ H]]; [rewrite J2 in H; lia|lia].
Qed.
Lemma take_ok P st x : core P st -> d_cur st = h_obj x -> Forall (fun p => hist_lt p x) P -> core (P ++ [x]) (take_row v st x).
Proof.
  intros (C1 & C2 & C3 & C4 & C5 & C6) EC HF.
  assert (OTH : forall lv lr r1, (lr = false -> exists r, r1 = Some r /\ h_obj r = d_cur st /\ shown v (P ++ [x]) r /\ lv = h_ver r) -> (lr = true -> forall r, shown v (P ++ [x]) r -> h_obj r <> d_cur st) ->
     core (P ++ [x]) (DS r1 lv lr (d_cur st) (d_exts st) (d_log st))).
  { intros lv lr r1 H1 H2. unfold core. cbn [d_cur d_lastremoved d_rech1 d_lastver d_exts d_log]. repeat apply conj; [exact (proj1 C1)|exact (proj2 C1)|exact H1|exact H2|exact C4| |].
    - intros r Hr N. apply C5; [|exact N]. apply (shown_other P x r); [congruence|exact Hr].
    - intros k d. rewrite C6. split; intros (r & K1 & K2 & K3); exists r; (split; [|auto]); apply (shown_other P x r); congruence || assumption. }
  assert (IDLE : ~ decisive v x -> core (P ++ [x]) st).
  { intros ND. destruct st as [r1 lv lr cur exts log]. cbn [d_cur d_lastremoved d_rech1 d_lastver d_exts d_log] in *. apply OTH.
    - intros H. destruct (C2 H) as (r & R1 & R2 & R3 & R4). exists r. repeat apply conj; try assumption; apply (shown_idle P x r ND); exact R3.
    - intros H r Hr. apply C3; [exact H|]. apply (shown_idle P x r ND). exact Hr. }
  unfold take_row. destruct (Z.leb_spec (h_ver x) v) as [V|V].
  - destruct (h_removed x) eqn:R; [|destruct (h_packed x) eqn:K].
    + assert (D : decisive v x) by (split; [exact V|left; exact R]). apply OTH; [discriminate|]. intros _ r Hr E. rewrite EC in E. apply (shown_new P x r HF D E) in Hr. destruct Hr as [_ H]. congruence.
    + assert (D : decisive v x) by (split; [exact V|right; exact K]). apply OTH; [|discriminate]. intros _. exists x. repeat apply conj; auto.
      * apply in_or_app. right. left. reflexivity. * intros r' J1 J2 J3. apply (proj2 (shown_new P x x HF D eq_refl) (conj eq_refl R)); assumption.
    + apply IDLE. intros [_ [H|H]]; congruence.
  - apply IDLE. intros [H _]. lia.
Qed.

Lemma done_core P old next st : is_guid next -> be_val old < be_val next -> (forall p, In p P -> be_val (h_obj p) <= be_val old) -> done P old next st -> core P st.
Proof.
  intros G LT HP (D1 & D2 & (A & D3 & D3') & D4 & D5). unfold core. rewrite D1, D2.
  assert (NO : forall r, shown v P r -> h_obj r <> next) by (intros r (I1 & _) H; specialize (HP r I1); rewrite H in HP; lia).
  repeat apply conj; [apply G|apply G|discriminate|intros _; exact NO| | |].
  - exists A. split; [exact D3|]. eapply Forall_impl; [|exact D3']. intros e He. cbv beta in *. lia.
  - intros r Hr _. apply D4. exact Hr.
  - intros k d. rewrite D5. split; intros (r & K); exists r; [destruct K as [K1 K2]; split; [exact K1|split; [apply NO; exact K1|exact K2]]|tauto].
Qed.
Lemma loop_ok Q : forall P st last_, Forall (fun r => is_guid (h_obj r)) Q -> StronglySorted hist_lt (P ++ Q) -> core P st ->
  (P = [] /\ d_cur st = repeat 0 16 \/ exists p, In p P /\ h_obj p = d_cur st) -> (forall p, In p P -> be_val (h_obj p) <= be_val (d_cur st)) -> (last_ = None -> P = []) -> (P = [] -> last_ = None) ->
  P ++ Q <> [] ->
  (exists st', export_loop same oname pack v Q last_ st = Ok st' /\ (forall r, shown v (P ++ Q) r -> comp r) /\ forall k d, In (k, d) (d_log st') <-> exists r, shown v (P ++ Q) r /\ outs r k d) \/
  (export_loop same oname pack v Q last_ st = Throw /\ exists r, shown v (P ++ Q) r /\ ~ comp r).
Proof.
  induction Q as [|x Q IH]; intros P st last_ HG HS HC HCur HP HL1 HL2 HNE.
  - rewrite app_nil_r in *. cbn [export_loop]. destruct last_ as [r0|]; [|exfalso; apply HNE, HL1; reflexivity].
    destruct (flush_ok P st (h_obj r0) HS HC) as [(st' & E & D)|(E & r & K1 & K2)]; [left|right; split; [exact E|exists r; auto]].
    exists st'. destruct D as (_ & _ & _ & D4 & D5). auto.
  - inversion HG as [|a b G1 G2]. subst a b.
    assert (HF : Forall (fun p => hist_lt p x) P).
    { clear - HS. induction P as [|y P IH]; [constructor|]. inversion HS as [|a b S1 S2]. subst. constructor; [|apply IH; exact S1]. rewrite Forall_forall in S2. apply S2. apply in_or_app. right. left. reflexivity. }
    assert (SP : StronglySorted hist_lt P).
    { clear - HS. induction P as [|y P IH]; [constructor|]. inversion HS as [|a b S1 S2]. subst. constructor; [apply IH; exact S1|]. apply Forall_app in S2. tauto. }
    assert (LE : be_val (d_cur st) <= be_val (h_obj x)).
    { destruct HCur as [[_ H]|(p & H1 & H2)]; [rewrite H; apply (Z.le_trans _ 0); [reflexivity|apply be_nonneg; exact G1]|]. rewrite <- H2. rewrite Forall_forall in HF. destruct (HF p H1) as [H|[H _]]; [lia|rewrite H; lia]. }
    cbn [export_loop].
    assert (STEP : forall st1, core P st1 -> d_cur st1 = h_obj x -> (forall p, In p P -> be_val (h_obj p) <= be_val (h_obj x)) ->
      (exists st', export_loop same oname pack v Q (Some x) (take_row v st1 x) = Ok st' /\ (forall r, shown v (P ++ x :: Q) r -> comp r) /\ forall k d, In (k, d) (d_log st') <-> exists r, shown v (P ++ x :: Q) r /\ outs r k d) \/
      (export_loop same oname pack v Q (Some x) (take_row v st1 x) = Throw /\ exists r, shown v (P ++ x :: Q) r /\ ~ comp r)).
    { intros st1 K1 K2 K3. assert (EA : P ++ x :: Q = (P ++ [x]) ++ Q) by (rewrite <- app_assoc; reflexivity). rewrite EA in *.
      assert (EC : d_cur (take_row v st1 x) = h_obj x) by (unfold take_row; destruct (h_ver x <=? v); [destruct (h_removed x); [|destruct (h_packed x)]|]; exact K2).
      apply IH; try assumption; [apply take_ok; assumption|right; exists x; split; [apply in_or_app; right; left; reflexivity|rewrite EC; reflexivity]| | discriminate|].
      - intros p Hp. rewrite EC. apply in_app_or in Hp. destruct Hp as [Hp|[<-|[]]]; [apply K3; exact Hp|lia].
      - intros H. destruct P; discriminate. }
    assert (C1 : is_guid (d_cur st)) by (destruct HC; assumption).
    destruct (guid_eqb (h_obj x) (d_cur st)) eqn:EQ; cbn [negb].
    + apply guid_eq_spec in EQ; [|exact G1|exact C1]. cbn [rbind]. apply STEP; [exact HC|congruence|rewrite EQ; exact HP].
    + assert (LT : be_val (d_cur st) < be_val (h_obj x)).
      { destruct (Z.eq_dec (be_val (d_cur st)) (be_val (h_obj x))) as [E|N]; [|lia]. exfalso. apply (val_inj _ _ C1 G1) in E. assert (H : guid_eqb (h_obj x) (d_cur st) = true) by (apply guid_eq_spec; congruence). congruence. }
      destruct (flush_ok P st (h_obj x) SP HC) as [(st1 & E & D)|(E & r & K1 & K2)].
      * rewrite E. cbn [rbind]. apply STEP; [apply (done_core P (d_cur st) (h_obj x)); assumption|destruct D; assumption|]. intros p Hp. specialize (HP p Hp). lia.
      * rewrite E. cbn [rbind]. right. split; [reflexivity|]. exists r. split; [|exact K2].
        assert (BX : forall y, In y (x :: Q) -> h_obj y <> h_obj r).
        { intros y Hy H. assert (HB : be_val (h_obj r) <= be_val (d_cur st)) by (apply HP; destruct K1; assumption). assert (HX : be_val (h_obj x) <= be_val (h_obj y)).
          { destruct Hy as [<-|Hy]; [lia|]. assert (SX : StronglySorted hist_lt (x :: Q)) by (clear - HS; induction P as [|z P IH]; [exact HS|]; inversion HS; auto). inversion SX as [|a b S1 S2]. subst. rewrite Forall_forall in S2. destruct (S2 y Hy) as [H0|[H0 _]]; [lia|rewrite H0; lia]. }
          rewrite H in HX. lia. }
        destruct K1 as (I1 & I2 & I3 & I4). repeat apply conj; [apply in_or_app; left; exact I1|apply I2|apply I2|exact I3|]. intros r' J1 J2 J3. apply in_app_or in J1. destruct J1 as [J1|J1]; [apply I4; assumption|]. exfalso. exact (BX r' J1 J2).
Qed.
End Loop.

Lemma map_get_spec log : forall k d, (forall d', In (k, d') log -> d' = d) -> (map_get log k = Some d <-> In (k, d) log).
Proof.
  unfold map_get. intros k d.
  assert (H : forall l acc, (forall d', In (k, d') l -> d' = d) -> (acc = None \/ acc = Some d) ->
    fold_left (fun a '(k', d') => if list_eq_dec Z.eq_dec k k' then Some d' else a) l acc = (if in_dec (fun x y => list_eq_dec (list_eq_dec Z.eq_dec) x y) [k; d] (map (fun '(a, b) => [a; b]) l) then Some d else acc)).
  { induction l as [|[k' d'] l IH]; intros acc HF HA; [reflexivity|]. cbn [fold_left map]. destruct (list_eq_dec Z.eq_dec k k') as [->|N].
    - assert (E : d' = d) by (apply HF; left; reflexivity). subst d'. rewrite IH; [|intros x Hx; apply HF; right; exact Hx|right; reflexivity].
      destruct (in_dec _ [k'; d] (map _ l)); destruct (in_dec _ [k'; d] ([k'; d] :: map _ l)) as [|NI]; try reflexivity; exfalso; apply NI; left; reflexivity.
    - rewrite IH; [|intros x Hx; apply HF; right; exact Hx|exact HA].
      destruct (in_dec _ [k; d] (map _ l)) as [I|I]; destruct (in_dec _ [k; d] ([k'; d'] :: map _ l)) as [J|J]; try reflexivity; exfalso; [apply J; right; exact I|]. destruct J as [J|J]; [congruence|contradiction]. }
  intros HF. rewrite H; [|exact HF|left; reflexivity]. destruct (in_dec _ [k; d] (map _ log)) as [I|I].
  - split; [|reflexivity]. intros _. apply in_map_iff in I. destruct I as ([a b] & E & I). injection E as -> ->. exact I.
  - split; [discriminate|]. intros J. exfalso. apply I. apply in_map_iff. exists (k, d). auto.
Qed.

Lemma exported_outs same oname pack v rows exts k d : exported same oname pack v rows exts k d <-> exists r, shown v rows r /\ outs same oname pack v exts r k d.
Proof.
  unfold exported, outs. split.
  - intros [(r & H1 & H2 & H3)|(r & e & H1 & H2 & H3 & H4)]; exists r; (split; [exact H1|]); [left; auto|right; exists e; auto].
  - intros (r & H1 & [[H2 H3]|(e & H2 & H3 & H4)]); [left; exists r; auto|right; exists r, e; auto].
Qed.
Lemma export_ok same oname pack v rows exts : depot_ok same rows exts -> rows <> [] ->
  (complete same pack v rows exts -> exists log, export same oname pack v rows exts = Ok log /\
     forall k d, (forall d', exported same oname pack v rows exts k d' -> d' = d) -> (map_get log k = Some d <-> exported same oname pack v rows exts k d)) /\
  (~ complete same pack v rows exts -> export same oname pack v rows exts = Throw).
Proof.
  intros [D1 D2 D3 D4 D5] NE. unfold export.
  assert (C0 : core same oname pack v exts [] (DS None (-1) true (repeat 0 16) exts [])).
  { unfold core. cbn [d_cur d_lastremoved d_rech1 d_lastver d_exts d_log]. repeat apply conj; [reflexivity|apply zero_guid|discriminate|intros _ r ([] & _)|exists []; split; [reflexivity|constructor]|intros r ([] & _)|].
    intros k d. split; [intros []|intros (r & ([] & _) & _)]. }
  destruct (loop_ok same oname pack v exts D1 D3 D5 rows [] _ None D2 D4 C0) as [(st & E & K1 & K2)|(E & r & K1 & K2)];
    [left; split; reflexivity|intros p []|reflexivity|reflexivity|exact NE| |]; cbn [app] in *; rewrite E; cbn [rbind]; split; intros HC.
  - exists (d_log st). split; [reflexivity|]. intros k d HF. rewrite exported_outs, <- K2. apply map_get_spec. intros d' I. apply HF. apply exported_outs. apply K2. exact I.
  - exfalso. apply HC. intros r Hr. apply K1. exact Hr.
  - exfalso. apply K2. apply HC. exact K1.
  - reflexivity.
Qed.
Lemma export_defined same oname pack v rows exts : depot_ok same rows exts -> rows <> [] ->
  export same oname pack v rows exts = Throw \/ exists log, export same oname pack v rows exts = Ok log.
Proof.
  intros [D1 D2 D3 D4 D5] NE. unfold export.
  assert (C0 : core same oname pack v exts [] (DS None (-1) true (repeat 0 16) exts [])).
  { unfold core. cbn [d_cur d_lastremoved d_rech1 d_lastver d_exts d_log]. repeat apply conj; [reflexivity|apply zero_guid|discriminate|intros _ r ([] & _)|exists []; split; [reflexivity|constructor]|intros r ([] & _)|].
    intros k d. split; [intros []|intros (r & ([] & _) & _)]. }
  destruct (loop_ok same oname pack v exts D1 D3 D5 rows [] _ None D2 D4 C0) as [(st & E & K1 & K2)|(E & r & K1 & K2)];
    [left; split; reflexivity|intros p []|reflexivity|reflexivity|exact NE| |]; rewrite E; cbn [rbind]; [right; eexists; reflexivity|left; reflexivity].
Qed.
