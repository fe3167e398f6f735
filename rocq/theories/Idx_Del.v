(** The whole index: adding, keys that are there already, removing. *)
From Verif Require Import Prelude Lists Leaf_Model Leaf_Spec Leaf_Proofs Leaf_Walk Leaf_More Idx_Model Idx_Spec Idx_Order Idx_Proofs Idx_Tree Idx_Add.
Ltac Zify.zify_post_hook ::= idtac.

(** ** From parts to the index *)
Lemma index_tok x f t : index_ok x f t -> tok x f t.
Proof. intros [I1 I2 I3 I4 I5 I6 I7 I8 I9 I10 I11]. destruct I7 as [N P]. constructor; [exact I4|exact I6|exact N|]. intros o Ho. destruct (P o Ho) as (P1 & P2 & P3 & _). lia. Qed.
Lemma chain_step x f f' t t' : 0 < x_len x < 2^15 -> 30 < x_ps x <= 2^16 -> step x f f' t t' -> stored (get f) (x_ps x) (x_len x) (x_mul x) t -> map fst (t_leaves t') = map fst (t_leaves t) ->
  chained (get f) (x_ps x) (x_mul x) (map fst (t_leaves t)) -> chained (get f') (x_ps x) (x_mul x) (map fst (t_leaves t)).
Proof.
  intros Hlen Hps HSt HS HE. destruct (leaves_stored _ _ _ _ _ (s_stored _ _ _ _ _ HSt)) as [HL _].
  assert (HP : forall o, In o (map fst (t_leaves t)) -> exists p', page_at (get f') (x_ps x) o p').
  { intros o Ho. rewrite <- HE in Ho. apply in_map_iff in Ho. destruct Ho as (l & <- & Hl). rewrite Forall_forall in HL. specialize (HL l Hl). cbn [stored] in HL. destruct HL as (p & HP & _). eauto. }
  pose proof (s_links _ _ _ _ _ HSt) as HK. clear HE HL HS HSt. induction (map fst (t_leaves t)) as [|o l IH]; intros HC; [exact I|]. cbn [chained] in *. destruct HC as [(p & P1 & P2) HC]. split.
  - destruct (HP o (or_introl eq_refl)) as (p' & P'). exists p'. split; [exact P'|]. specialize (HK o (or_introl eq_refl)).
    destruct P1 as (G1 & _), P' as (G2 & _). rewrite (get_part _ _ _ _ 4 8 G2), (get_part _ _ _ _ 4 8 G1) in HK by lia. apply ok_inj in HK. change (Z.to_nat 4) with 4%nat in HK. change (Z.to_nat 8) with 8%nat in HK.
    assert (E : hd_field p' 8 4 = hd_field p 8 4). { unfold hd_field. f_equal. transitivity (sub (sub p' 4 8) 4 4); [now rewrite sub_sub by lia|]. rewrite HK. now rewrite sub_sub by lia. }
    rewrite E. exact P2.
  - apply IH; [intros o' Ho'; apply HP; now right|intros o' Ho'; apply HK; now right|exact HC].
Qed.
Lemma at_home_leaves x f f' t t' key g : index_ok x f t -> step x f f' t t' -> t_leaves t' = at_home key g (t_leaves t) -> t_recs t' = g (t_recs t) -> ss (g (t_recs t)) -> Forall (rec_ok (x_len x)) (g (t_recs t)) ->
  index_ok x f' t'.
Proof.
  intros [I1 I2 I3 I4 I5 I6 I7 I8 I9 I10 I11] HSt HL HR HSS HRO. pose proof HSt as [S1 S2 S3 S4 S5 S6 S7 S8 S9].
  assert (HE : map fst (t_leaves t') = map fst (t_leaves t)) by (rewrite HL; apply at_home_offs).
  constructor; auto.
  - rewrite HE. now apply (chain_step x f f' t t').
  - destruct I7 as [N P]. split; rewrite S4; [exact N|]. rewrite S2. exact P.
  - rewrite HR. now apply ss_sorted.
  - rewrite HR. exact HRO.
  - rewrite S3. exact I10.
  - destruct I11 as (h & H1 & H2 & H3). exists h. split; [|now rewrite S3]. rewrite S8; [exact H1|lia|]. intros o Ho. destruct I7 as [_ P]. destruct (P o Ho) as (_ & _ & _ & P4). lia.
Qed.
Lemma index_full x f t : index_ok x f t -> Forall (fun l => snd l <> []) (t_leaves t) \/ (length (t_leaves t) <= 1)%nat.
Proof.
  intros HI. destruct t as [o r|o kids]; [right; cbn; lia|left]. apply (keyed_full x f (Node o kids)); [apply HI|]. pose proof (index_tok x f _ HI) as HT.
  destruct (tok_page x f _ HT) as (page & HG & _). cbn [t_off] in HG. destruct (node_reads x (i_len _ _ _ HI) (i_ps _ _ _ HI) f o kids page HT HG) as (_ & _ & _ & _ & R5 & _ & R7).
  destruct kids as [|k kids]; [change (zlen (@nil tree)) with 0 in R5; lia|]. destruct (R7 0%nat k eq_refl) as (_ & HN & _). intros E. change (k :: kids) with ([] ++ k :: kids) in E. rewrite recs_node in E. apply app_eq_nil in E. destruct E as [_ E]. apply app_eq_nil in E. tauto.
Qed.

Theorem add_ok x junk f t key num fuel : index_ok x f t -> (height t < fuel)%nat -> rec_ok (x_len x) (num, key) -> ~ In key (map snd (t_recs t)) -> fits x (zlen (home key (t_leaves t)) + 1) ->
  exists f' t', write_index fuel x junk f key num = Ok (f', x) /\ index_ok x f' t' /\ t_leaves t' = at_home key (added key num) (t_leaves t) /\ t_recs t' = added key num (t_recs t) /\
    height t' = height t /\ zlen f' = zlen f /\ (forall off n, 0 <= n -> (forall o, In o (t_pages t) -> off + n <= o \/ o + x_ps x <= off) -> get f' off n = get f off n).
Proof.
  intros HI Hf Hrec HN Hfit. pose proof (index_tok x f t HI) as HT. pose proof HI as [I1 I2 I3 I4 I5 I6 I7 I8 I9 I10 I11]. pose proof (sorted_ss _ I8) as SS. fold (ss (t_recs t)) in SS.
  destruct (write_rec_ok x I1 I2 junk key num Hrec fuel f t Hf I3 HT SS I9 HN Hfit) as (f' & t' & EW & HSt & HL).
  pose proof (rec_same_len _ _ _ _ Hrec I9) as HSL.
  assert (HR : t_recs t' = added key num (t_recs t)).
  { unfold t_recs at 1. rewrite HL. apply (at_home_added key num); auto; [now apply (index_full x f)|]. apply (leaves_stored _ _ _ _ _ I4). }
  exists f', t'. split.
  - unfold write_index. rewrite I10, EW. cbn [rbind]. unfold outcome. destruct (last (map Some (t_recs t)) None) as [[? k]|]; [destruct (key_ltb k key)|]; reflexivity.
  - split; [|split; [exact HL|split; [exact HR|split; [apply HSt|split; [apply HSt|apply HSt]]]]].
    apply (at_home_leaves x f f' t t' key (added key num)); auto; [now apply added_ss|now apply added_rec_ok].
Qed.

(** ** Keys that are there already *)
Lemma find_leaf_dup primary key num recs n0 : forall i, ss recs -> same_len key recs -> In (n0, key) recs -> primary = true \/ n0 = num -> find_leaf primary key num recs i = Throw.
Proof.
  induction recs as [|[n k] recs IH]; intros i HS HL HI HP; [contradiction|]. cbn [find_leaf]. pose proof (Forall_inv HL) as Lk. cbn [snd] in Lk.
  apply (ss_app [(n, k)] recs) in HS. destruct HS as (_ & HS & HS2).
  destruct HI as [E|HI].
  - injection E as -> ->. destruct (memcmp_cases key key eq_refl) as [[_ M]|[[E _]|[E _]]]; [|rewrite ltb_irrefl in E; discriminate|rewrite ltb_irrefl in E; discriminate].
    rewrite M. cbn [Z.eqb]. destruct HP as [-> | ->]; [reflexivity|]. rewrite Z.eqb_refl, orb_true_r. reflexivity.
  - specialize (HS2 (n, k) (n0, key) (or_introl eq_refl) HI). cbn [snd] in HS2.
    destruct (memcmp_cases key k ltac:(lia)) as [[E _]|[[E _]|[_ M]]]; [subst k; rewrite ltb_irrefl in HS2; discriminate|rewrite (ltb_asym _ _ HS2) in E; discriminate|].
    rewrite M. cbn [Z.eqb Z.ltb Z.compare]. apply IH; auto. exact (Forall_inv_tail HL).
Qed.
Lemma key_in_kid key n a k b : ss (t_recs (Node 0 a) ++ t_recs k ++ t_recs (Node 0 b)) -> same_len key (t_recs (Node 0 a) ++ t_recs k ++ t_recs (Node 0 b)) -> t_recs k <> [] ->
  Forall (fun t => ends_before key (t_recs t) = true) a -> b = [] \/ ends_before key (t_recs k) = false ->
  In (n, key) (t_recs (Node 0 a) ++ t_recs k ++ t_recs (Node 0 b)) -> In (n, key) (t_recs k).
Proof.
  intros HS HL HN HA HB HI. pose proof (ss_kids a k b HS) as (SA & SK & _). apply in_app_or in HI. destruct HI as [HI|HI].
  - exfalso. unfold t_recs in HI. cbn [t_leaves] in HI. apply in_concat in HI. destruct HI as (r & Hr & HI). apply in_map_iff in Hr. destruct Hr as (l & <- & Hl). apply in_flat_map in Hl. destruct Hl as (t & Ht & Hl).
    rewrite Forall_forall in HA, SA. destruct (ends_all key _ (SA t Ht) (HA t Ht)) as [_ HF]. rewrite Forall_forall in HF. specialize (HF _ (recs_in t l _ Hl HI)). cbn [snd] in HF. rewrite ltb_irrefl in HF. discriminate.
  - apply in_app_or in HI. destruct HI as [HI|HI]; [exact HI|exfalso]. destruct HB as [-> | HB]; [contradiction|].
    apply ss_app in HS. destruct HS as (_ & HS & _). apply ss_app in HS. destruct HS as (_ & _ & HS). apply Forall_app in HL. destruct HL as [_ HL]. apply Forall_app in HL. destruct HL as [HL _].
    destruct (not_ends key _ SK HN HL HB) as (n0 & k0 & Hin & HK). specialize (HS _ _ Hin HI). cbn [snd] in HS. destruct HK as [-> | HK]; [rewrite ltb_irrefl in HS; discriminate|rewrite (ltb_asym _ _ HK) in HS; discriminate].
Qed.
Lemma write_dup x junk key num n0 : 0 < x_len x < 2^15 -> 30 < x_ps x <= 2^16 -> x_primary x = true \/ n0 = num -> forall fuel f t, (height t < fuel)%nat -> tok x f t -> ss (t_recs t) -> same_len key (t_recs t) ->
  In (n0, key) (t_recs t) -> write_rec fuel x junk f (t_off t) key num = Throw.
Proof.
  intros Hlen Hps HP. induction fuel as [|fuel IH]; intros f t Hh HT HS HL HI; [lia|].
  destruct (tok_page x f t HT) as (page & HG & ZP & BP). cbn [write_rec]. rewrite HG. cbn [rbind].
  destruct t as [o r|o kids]; cbn [t_off] in *.
  - assert (ER : t_recs (Leaf o r) = r) by (unfold t_recs; cbn [t_leaves map concat snd]; apply app_nil_r). rewrite ER in *.
    destruct HT as [T1 _ _ _]. cbn [stored] in T1. destruct T1 as (p & [P1 _] & HU & _). assert (p = page) by congruence. subst p.
    pose proof (leaf_flag _ _ _ _ (proj1 Hlen) HU) as HF. destruct (Z.eqb_spec (Z.land (hd_field page 0 2) 2) 0); [contradiction|]. cbn [negb].
    unfold write_leaf. rewrite HU. cbn [rbind]. now rewrite (find_leaf_dup _ _ _ _ n0).
  - destruct (node_reads x Hlen Hps f o kids page HT HG) as (R1 & R2 & R3 & R4 & R5 & R6 & R7). rewrite R1. cbn [Z.eqb negb]. rewrite R2.
    destruct (choose x Hlen Hps key f o kids page (x_primary x) HT HG HL) as (a & k & b & -> & HA & HB & HC).
    destruct HC as [(_ & _ & E)|(i & EI & Ei)]; [rewrite E; reflexivity|].
    assert (Hnk : nth_error (a ++ k :: b) (length a) = Some k) by (rewrite nth_error_app2, Nat.sub_diag by lia; reflexivity).
    destruct (R7 (length a) k Hnk) as (J1 & J2 & J3 & bb & J4 & J5). rewrite recs_node in *.
    rewrite EI. cbn [rbind]. rewrite Ei. replace (12 + zlen a * (x_len x + 8) + x_len x + 4) with (12 + Z.of_nat (length a) * (x_len x + 8) + x_len x + 4) by (unfold zlen; lia). rewrite J4. cbn [rbind]. rewrite J5.
    pose proof (ss_kids a k b HS) as (_ & SK & _). rewrite IH; [reflexivity|exact (height_kid o a k b fuel Hh)|exact (tok_kid x f o a k b HT)|exact SK| |].
    + apply Forall_app in HL. destruct HL as [_ HL]. apply Forall_app in HL. apply HL.
    + now apply (key_in_kid key n0 a k b).
Qed.
Theorem dup_refused x junk f t key num n0 fuel : index_ok x f t -> (height t < fuel)%nat -> In (n0, key) (t_recs t) -> x_primary x = true \/ n0 = num -> write_index fuel x junk f key num = Throw.
Proof.
  intros HI Hf Hin HP. pose proof (index_tok x f t HI) as HT. pose proof HI as [I1 I2 I3 I4 I5 I6 I7 I8 I9 I10 I11]. unfold write_index. rewrite I10.
  rewrite (write_dup x junk key num n0 I1 I2 HP fuel f t Hf HT (sorted_ss _ I8)); [reflexivity| |exact Hin].
  rewrite Forall_forall in I9. apply (rec_same_len (x_len x) key n0); [now apply (I9 (n0, key))|apply Forall_forall; exact I9].
Qed.

(** ** Removing *)
Lemma find_rec_at key num a b : forall i, ss (a ++ (num, key) :: b) -> same_len key (a ++ (num, key) :: b) -> find_rec key num (a ++ (num, key) :: b) i = Some (i + length a)%nat.
Proof.
  induction a as [|[n k] a IH]; intros i HS HL; cbn [app find_rec].
  - destruct (memcmp_cases key key eq_refl) as [[_ M]|[[E _]|[E _]]]; [|rewrite ltb_irrefl in E; discriminate|rewrite ltb_irrefl in E; discriminate]. rewrite M, !Z.eqb_refl. cbn [andb length]. f_equal. lia.
  - pose proof (Forall_inv HL) as Lk. cbn [snd] in Lk. apply (ss_app [(n, k)] (a ++ (num, key) :: b)) in HS. destruct HS as (_ & HS & HS2).
    specialize (HS2 (n, k) (num, key) (or_introl eq_refl) ltac:(apply in_or_app; right; now left)). cbn [snd] in HS2.
    destruct (memcmp_cases key k ltac:(lia)) as [[-> _]|[[E M]|[E M]]]; [rewrite ltb_irrefl in HS2; discriminate| |]; rewrite M; cbn [Z.eqb andb]; rewrite IH; auto; try exact (Forall_inv_tail HL); cbn [length]; f_equal; lia.
Qed.
Lemma find_rec_none key num recs : forall i, same_len key recs -> ~ In (num, key) recs -> find_rec key num recs i = None.
Proof.
  induction recs as [|[n k] recs IH]; intros i HL HN; cbn [find_rec]; [reflexivity|]. pose proof (Forall_inv HL) as Lk. cbn [snd] in Lk.
  destruct (memcmp_cases key k ltac:(lia)) as [[-> M]|[[E M]|[E M]]]; rewrite M; cbn [Z.eqb andb].
  - destruct (Z.eqb_spec n num) as [-> | _]; [exfalso; apply HN; now left|]. apply IH; [exact (Forall_inv_tail HL)|intros Hi; apply HN; now right].
  - apply IH; [exact (Forall_inv_tail HL)|intros Hi; apply HN; now right].
  - apply IH; [exact (Forall_inv_tail HL)|intros Hi; apply HN; now right].
Qed.
(** the last record, if it is another now *)
Definition dlast (key : list Z) (l : list (Z * list Z)) : option (list Z * Z) :=
  match last (map Some l) None with
  | Some (_, k) => if list_eq_dec Z.eq_dec k key then match last (map Some (removed key l)) None with Some (m, e) => Some (e, m) | None => None end else None
  | None => None
  end.
Lemma delete_leaf_ok x f block page key num recs : 0 < x_len x < 2^15 -> 30 < x_ps x <= 2^16 -> zlen page = x_ps x -> bytes_ok page ->
  unpack_leafpage (x_len x) (x_ps x) page = Ok recs -> Forall (rec_ok (x_len x)) recs -> ss recs -> In (num, key) recs -> 2 <= zlen recs -> fits x (zlen recs - 1) ->
  exists p, delete_leaf x f block page key num = Ok (put f block p, DO (dlast key recs) false) /\ holds x page p (removed key recs).
Proof.
  intros Hlen Hps Hpg Hok HU HR HS HI H2 Hfit. unfold delete_leaf. rewrite HU. cbn [rbind]. destruct (in_split _ _ HI) as (a & b & E).
  assert (HSL : same_len key recs) by (rewrite Forall_forall in HR; apply (rec_same_len (x_len x) key num); [now apply (HR (num, key))|apply Forall_forall; exact HR]).
  assert (EF : find_rec key num recs 0 = Some (length a)) by (rewrite E in *; rewrite (find_rec_at key num a b 0 HS HSL); reflexivity). rewrite EF.
  assert (ER : firstn (length a) recs ++ skipn (S (length a)) recs = a ++ b).
  { rewrite E. rewrite firstn_app, Nat.sub_diag, firstn_all, firstn_O, app_nil_r. f_equal. rewrite skipn_app, skipn_all2 by lia. replace (S (length a) - length a)%nat with 1%nat by lia. reflexivity. }
  rewrite ER. assert (ERM : removed key recs = a ++ b) by (rewrite E in *; now apply removed_one). rewrite ERM.
  assert (HLn : zlen (a ++ b) = zlen recs - 1) by (rewrite E, !zlen_app, zlen_cons; lia).
  destruct (a ++ b) as [|r0 rs] eqn:EAB; [exfalso; change (zlen (@nil (Z * list Z))) with 0 in HLn; lia|]. rewrite <- EAB in *. clear r0 rs EAB.
  rewrite wrn_in by (rewrite ?zlen_le; lia). cbn [rbind]. set (page1 := splice page _ _).
  assert (L1 : zlen page1 = x_ps x) by (unfold page1; rewrite zlen_splice; [exact Hpg|rewrite le_bytes_length; unfold zlen in *; change (Z.to_nat 2) with 2%nat; lia]).
  assert (B1 : bytes_ok page1) by (apply bytes_ok_splice; [exact Hok|apply le_bytes_ok]).
  assert (S1 : sub page1 4 8 = sub page 4 8) by (unfold page1; apply sub_splice_other; rewrite le_bytes_length; unfold zlen in *; change (Z.to_nat 2) with 2%nat; lia).
  assert (HR' : Forall (rec_ok (x_len x)) (a ++ b)) by (rewrite E in HR; apply Forall_app in HR; destruct HR as [HR1 HR2]; apply Forall_app; split; [exact HR1|exact (Forall_inv_tail HR2)]).
  assert (HS' : sorted (map snd (a ++ b))) by (rewrite <- ERM; apply ss_sorted; now apply removed_ss).
  pose proof (leaf_flag _ _ _ _ (proj1 Hlen) HU) as Hfl. pose proof (hd_field_bound page 0 2 Hok) as Hfb. change (256 ^ Z.of_nat 2) with (2^16) in Hfb. unfold fits in Hfit.
  destruct (leaf_pack (x_primary x) (x_len x) (x_ps x) (a ++ b) (flat [last recs (0, [])]) page1 (hd_field page 0 2) Hlen Hps L1 B1 HR' HS' ltac:(rewrite HLn; exact Hfit) Hfb Hfl)
    as (p1 & EP & P1 & P2 & P3 & P4 & P5 & P6 & P7 & P8 & P9 & P10).
  assert (EB : unpacked ((a ++ b) ++ [last recs (0, [])]) = flat (a ++ b) ++ flat [last recs (0, [])]) by (unfold unpacked, flat; now rewrite map_app, concat_app).
  rewrite EB, EP. cbn [rbind fst]. rewrite wrn_in by (rewrite ?zlen_le; lia). cbn [rbind]. eexists. split.
  - f_equal. f_equal. f_equal. unfold dlast. rewrite ERM. destruct b as [|r b].
    + replace (Nat.eqb (length a) (length recs - 1)) with true by (symmetry; apply Nat.eqb_eq; rewrite E, app_length; cbn [length]; lia).
      rewrite E, last_some. destruct (list_eq_dec Z.eq_dec key key) as [_|]; [|congruence]. rewrite app_nil_r in *. destruct (last_split a) as [[-> _]|(c & [m e] & -> & El)]; [change (zlen (@nil (Z * list Z))) with 0 in HLn; lia|]. rewrite El, last_last. reflexivity.
    + replace (Nat.eqb (length a) (length recs - 1)) with false by (symmetry; apply Nat.eqb_neq; rewrite E, app_length; cbn [length]; lia).
      rewrite E. rewrite last_app_some by discriminate. change ((num, key) :: r :: b) with ([(num, key)] ++ r :: b). rewrite last_app_some by discriminate.
      destruct (last_split (r :: b)) as [[? _]|(c & [m e] & Ec & El)]; [discriminate|]. rewrite El. destruct (list_eq_dec Z.eq_dec e key) as [-> | _]; [exfalso|reflexivity].
      rewrite E in HS. apply ss_app in HS. destruct HS as (_ & HS & _). apply (ss_app [(num, key)] (r :: b)) in HS. destruct HS as (_ & _ & HS).
      specialize (HS (num, key) (m, key) (or_introl eq_refl) ltac:(rewrite Ec; apply in_or_app; right; now left)). cbn [snd] in HS. rewrite ltb_irrefl in HS. discriminate.
  - change (Z.to_nat 0) with 0%nat. unfold holds. repeat apply conj; try assumption; try lia; [nia|]. rewrite P9. exact S1.
Qed.

Section del.
Variable x : ix.
Notation ps := (x_ps x).
Notation len := (x_len x).
Notation mul := (x_mul x).
Hypothesis Hlen : 0 < len < 2^15.
Hypothesis Hps : 30 < ps <= 2^16.
Lemma find_entry_ok key page ks : forall i at_, (forall j e, nth_error ks j = Some e -> rdn page (at_ + (len + 8) * Z.of_nat j) len = Ok e) ->
  Forall (fun e => length e = length key) ks -> exists a b, ks = a ++ b /\ Forall (fun e => key_ltb e key = true) a /\
    match b with
    | [] => find_entry (length ks) len key page i at_ = Ok None
    | e :: _ => key_ltb e key = false /\ find_entry (length ks) len key page i at_ = Ok (Some (i + zlen a, if list_eq_dec Z.eq_dec e key then true else false))
    end.
Proof.
  induction ks as [|e ks IH]; intros i at_ HR HL.
  - exists [], []. repeat split. constructor.
  - cbn [length find_entry]. pose proof (HR 0%nat e eq_refl) as E0. replace (at_ + (len + 8) * Z.of_nat 0) with at_ in E0 by lia. rewrite E0. cbn [rbind].
    pose proof (Forall_inv HL) as L0. cbn beta in L0. destruct (memcmp_cases key e ltac:(lia)) as [[-> M]|[[E M]|[E M]]]; rewrite M.
    + exists [], (e :: ks). repeat split; [constructor|apply ltb_irrefl|]. cbn [Z.eqb Z.leb Z.compare]. change (zlen (@nil (list Z))) with 0. rewrite Z.add_0_r. destruct (list_eq_dec Z.eq_dec e e); [reflexivity|congruence].
    + exists [], (e :: ks). repeat split; [constructor|now apply ltb_asym|]. cbn [Z.eqb Z.leb Z.compare]. change (zlen (@nil (list Z))) with 0. rewrite Z.add_0_r. destruct (list_eq_dec Z.eq_dec e key) as [-> | _]; [rewrite ltb_irrefl in E; discriminate|reflexivity].
    + cbn [Z.leb Z.compare]. destruct (IH (i + 1) (at_ + len + 8)) as (a & b & E1 & E2 & E3); [|exact (Forall_inv_tail HL)|].
      { intros j e' Hj. replace (at_ + len + 8 + (len + 8) * Z.of_nat j) with (at_ + (len + 8) * Z.of_nat (S j)) by lia. now apply HR. }
      exists (e :: a), b. split; [now rewrite E1 at 1|]. split; [constructor; assumption|]. rewrite zlen_cons. replace (i + (1 + zlen a)) with (i + 1 + zlen a) by lia. exact E3.
Qed.
Lemma choose2 key f o kids page : tok x f (Node o kids) -> get f o ps = Ok page -> same_len key (t_recs (Node o kids)) ->
  (Forall (fun t => ends_before key (t_recs t) = true) kids /\ find_entry (Z.to_nat (zlen kids)) len key page 0 12 = Ok None) \/
  exists a k b, kids = a ++ k :: b /\ Forall (fun t => ends_before key (t_recs t) = true) a /\ ends_before key (t_recs k) = false /\
    find_entry (Z.to_nat (zlen kids)) len key page 0 12 = Ok (Some (zlen a, if list_eq_dec Z.eq_dec (lastkey k) key then true else false)).
Proof.
  intros HT HG HL. destruct (node_reads x Hlen Hps f o kids page HT HG) as (_ & _ & _ & _ & R5 & _ & R7).
  assert (HNE : forall k, In k kids -> t_recs k <> []) by (intros k Hk; destruct (In_nth_error _ _ Hk) as [j Hj]; apply (R7 j k Hj)).
  destruct (find_entry_ok key page (map lastkey kids) 0 12) as (a & b & E1 & E2 & E3).
  { intros j e Hj. rewrite nth_error_map in Hj. destruct (nth_error kids j) as [k|] eqn:Ek; [|discriminate]. cbn [option_map] in Hj. injection Hj as <-. apply (R7 j k Ek). }
  { apply Forall_forall. intros e He. apply in_map_iff in He. destruct He as (k & <- & Hk). destruct (lastkey_in k (HNE k Hk)) as [n Hn].
    unfold same_len in HL. rewrite Forall_forall in HL. apply (HL (n, lastkey k)). apply (kid_in kids k); assumption. }
  rewrite map_length in E3. replace (Z.to_nat (zlen kids)) with (length kids) by (unfold zlen; lia).
  assert (E1' := E1). apply map_eq_app in E1'. destruct E1' as (a' & b' & -> & <- & <-).
  assert (HA : Forall (fun t => ends_before key (t_recs t) = true) a').
  { apply Forall_forall. intros t Ht. rewrite ends_last by (apply HNE, in_or_app; now left). rewrite Forall_forall in E2. apply E2. now apply in_map. }
  assert (HZ : zlen (map lastkey a') = zlen a') by (unfold zlen; now rewrite map_length). rewrite HZ, Z.add_0_l in E3.
  destruct b' as [|k b'].
  - left. cbn [map] in E3. rewrite app_nil_r in *. auto.
  - right. cbn [map] in E3. exists a', k, b'. split; [reflexivity|]. split; [exact HA|]. rewrite ends_last by (apply HNE, in_or_app; right; now left). exact E3.
Qed.
Lemma put_same f o page : get f o ps = Ok page -> put f o page = f.
Proof.
  intros H. apply get_some in H. destruct H as (H1 & H2 & H3 & -> & H4). rewrite put_in by lia. apply splice_self. unfold zlen in *. lia.
Qed.
Lemma entry_reads f o kids page j k : tok x f (Node o kids) -> get f o ps = Ok page -> nth_error kids j = Some k -> exists n e, last (map Some (t_recs k)) None = Some (n, e) /\
  sub page (Z.to_nat (12 + Z.of_nat j * (len + 8))) (Z.to_nat len) = e /\ sub page (Z.to_nat (12 + Z.of_nat j * (len + 8) + len)) 4 = be4 n /\
  0 <= Z.of_nat j * (len + 8) /\ 12 + Z.of_nat j * (len + 8) + len + 8 <= ps.
Proof.
  intros HT HG Hj. pose proof HT as [T1 T2 T3 T4]. cbn [keyed] in T2. destruct T2 as [K1 _]. destruct (K1 j k Hj) as (n & e & E1 & E2 & E3).
  destruct (node_reads x Hlen Hps f o kids page HT HG) as (_ & _ & _ & _ & _ & R6 & R7). destruct (R7 j k Hj) as (J1 & _).
  assert (MM : (len + 8) * Z.of_nat j + (len + 8) <= (len + 8) * zlen kids) by nia. assert (0 <= (len + 8) * Z.of_nat j) by nia.
  rewrite <- !Z.add_assoc in E2. rewrite <- !Z.add_assoc in E3. rewrite (get_part f o ps page) in E2 by (try exact HG; lia). rewrite (get_part f o ps page) in E3 by (try exact HG; lia).
  apply ok_inj in E2. apply ok_inj in E3. exists n, e. split; [exact E1|]. split; [rewrite <- E2; do 2 f_equal; ring|]. split; [unfold be4; rewrite <- E3; do 2 f_equal; ring|]. lia.
Qed.
Lemma be4_val n : 0 <= n < 2^32 -> le_val (rev (be4 n)) = n.
Proof. intros H. unfold be4. rewrite rev_involutive. apply le_val_bytes_small. exact H. Qed.
Lemma zlen_be4 n : zlen (be4 n) = 4. Proof. unfold be4, zlen. now rewrite rev_length, le_bytes_length. Qed.
(** a record that is not there *)
Theorem delete_absent key num : forall fuel f t, (height t < fuel)%nat -> tok x f t -> ss (t_recs t) -> Forall (rec_ok len) (t_recs t) -> same_len key (t_recs t) -> ~ In (num, key) (t_recs t) ->
  exists l, delete_rec fuel x f (t_off t) key num = Ok (f, DO l false) /\ (l = None \/ exists n e, last (map Some (t_recs t)) None = Some (n, e) /\ l = Some (e, n)).
Proof.
  induction fuel as [|fuel IH]; intros f t Hh HT HS HR HL HN; [lia|].
  destruct (tok_page x f t HT) as (page & HG & ZP & BP). cbn [delete_rec]. rewrite HG. cbn [rbind].
  destruct t as [o r|o kids]; cbn [t_off] in *.
  - assert (ER : t_recs (Leaf o r) = r) by (unfold t_recs; cbn [t_leaves map concat snd]; apply app_nil_r). rewrite ER in *.
    destruct HT as [T1 _ _ _]. cbn [stored] in T1. destruct T1 as (p & [P1 _] & HU & _). assert (p = page) by congruence. subst p.
    pose proof (leaf_flag _ _ _ _ (proj1 Hlen) HU) as HF. destruct (Z.eqb_spec (Z.land (hd_field page 0 2) 2) 0); [contradiction|]. cbn [negb].
    unfold delete_leaf. rewrite HU. cbn [rbind]. rewrite find_rec_none by assumption. exists None. split; [reflexivity|now left].
  - destruct (node_reads x Hlen Hps f o kids page HT HG) as (R1 & R2 & R3 & R4 & R5 & R6 & R7). rewrite R1. cbn [Z.eqb negb]. rewrite R2.
    destruct (choose2 key f o kids page HT HG HL) as [[_ E]|(a & k & b & -> & HA & HB & HC)].
    { rewrite E. cbn [rbind]. exists None. split; [reflexivity|now left]. }
    rewrite HC. cbn [rbind].
    assert (Hnk : nth_error (a ++ k :: b) (length a) = Some k) by (rewrite nth_error_app2, Nat.sub_diag by lia; reflexivity).
    destruct (R7 (length a) k Hnk) as (J1 & J2 & J3 & bb & J4 & J5). destruct (entry_reads f o _ page (length a) k HT HG Hnk) as (ne & ee & N1 & N2 & N3 & N4 & N5). rewrite recs_node in *.
    replace (zlen a * (len + 8)) with (Z.of_nat (length a) * (len + 8)) by (unfold zlen; lia). rewrite J4. cbn [rbind]. rewrite J5.
    pose proof (ss_kids a k b HS) as (_ & SK & _). apply Forall_app in HL. destruct HL as [_ HL]. apply Forall_app in HL. destruct HL as [HL _].
    apply Forall_app in HR. destruct HR as [_ HR]. apply Forall_app in HR. destruct HR as [HR _].
    destruct (IH f k (height_kid o a k b fuel Hh) (tok_kid x f o a k b HT) SK HR HL) as (l & EL & Hl); [intros Hi; apply HN; apply in_or_app; right; apply in_or_app; now left|].
    rewrite EL. cbn [rbind d_empty d_last orb].
    assert (RN : rec_ok len (ne, ee)). { destruct (last_split (t_recs k)) as [[E _]|(c & y & E & El)]; [congruence|]. rewrite El in N1. injection N1 as ->. rewrite E in HR. apply Forall_app in HR. destruct HR as [_ HR]. exact (Forall_inv HR). }
    destruct RN as (RN1 & RN2 & RN3). cbn [fst snd] in RN1, RN2, RN3.
    assert (EQ : (do q <- match l with Some (k0, m) => do page0 <- wrn page (12 + Z.of_nat (length a) * (len + 8)) k0; do page1 <- wrn page0 (12 + Z.of_nat (length a) * (len + 8) + len) (be4 m); Ok (page1, zlen (a ++ k :: b)) | None => Ok (page, zlen (a ++ k :: b)) end; Ok q) = Ok (page, zlen (a ++ k :: b))).
    { destruct Hl as [-> | (n0 & e0 & E0 & ->)]; [reflexivity|]. rewrite N1 in E0. injection E0 as <- <-. rewrite wrn_in by lia. cbn [rbind]. rewrite <- N2 at 1. rewrite splice_self by (unfold zlen in *; lia).
      rewrite wrn_in by (rewrite ?zlen_be4; lia). cbn [rbind]. rewrite <- N3 at 1. rewrite splice_self by (unfold zlen in *; lia). reflexivity. }
    match goal with |- context [do q <- ?m; _] => replace m with (@Ok (list Z * Z) (page, zlen (a ++ k :: b))) end.
    2:{ symmetry. destruct Hl as [-> | (n0 & e0 & E0 & ->)]; [reflexivity|]. cbn [rbind] in EQ. destruct (wrn page _ e0) as [q1| | |]; try discriminate. cbn [rbind] in *. destruct (wrn q1 _ (be4 n0)) as [q2| | |]; try discriminate. exact EQ. }
    cbn [rbind]. destruct (Z.eqb_spec (zlen (a ++ k :: b)) 0); [lia|]. rewrite zlen_app, zlen_cons.
    destruct (Z.eqb_spec (zlen a) (zlen a + (1 + zlen b) - 1)) as [EB|EB].
    + assert (b = []) by (destruct b; [reflexivity|rewrite zlen_cons in EB; pose proof (zlen_nonneg b); lia]). subst b. change (zlen (@nil tree)) with 0.
      destruct (list_eq_dec Z.eq_dec (lastkey k) key) as [Ek|Ek]; cbn [andb].
      * replace (12 + (zlen a + (1 + 0) - 1) * (len + 8)) with (12 + Z.of_nat (length a) * (len + 8)) by (unfold zlen; lia).
        rewrite rdn_ok by lia. cbn [rbind]. rewrite rdn_ok by lia. cbn [rbind]. change (Z.to_nat 4) with 4%nat. rewrite N2, N3, be4_val by exact RN1. rewrite orb_true_r, (put_same f o page HG).
        eexists. split; [reflexivity|]. right. exists ne, ee. split; [|reflexivity]. rewrite app_nil_r, last_app_some; assumption.
      * cbn [rbind]. exists None. split; [|now left]. destruct Hl as [-> | (n0 & e0 & E0 & ->)]; cbn [orb]; [reflexivity|]. rewrite (put_same f o page HG). reflexivity.
    + cbn [andb rbind]. exists None. split; [|now left]. destruct Hl as [-> | (n0 & e0 & E0 & ->)]; cbn [orb]; [reflexivity|]. rewrite (put_same f o page HG). reflexivity.
Qed.

(** a record that is there, in a leaf with others *)
Lemma removed_last key l : ss l -> removed key l <> [] ->
  match dlast key l with
  | Some (e, m) => last (map Some (removed key l)) None = Some (m, e)
  | None => last (map Some (removed key l)) None = last (map Some l) None
  end.
Proof.
  intros HS HN. unfold dlast. destruct (last_split l) as [[-> El]|(a & [n k] & E & El)]; rewrite El; [exfalso; now apply HN|].
  destruct (list_eq_dec Z.eq_dec k key) as [-> | D].
  - destruct (last_split (removed key l)) as [[E' _]|(c & [m e] & _ & El')]; [congruence|]. rewrite El'. reflexivity.
  - rewrite E, removed_app. unfold removed at 2. cbn [filter snd]. destruct (list_eq_dec Z.eq_dec k key); [contradiction|]. cbn [negb]. apply last_some.
Qed.
Lemma dlast_app key a k b : ss (a ++ k ++ b) -> In key (map snd k) -> removed key k <> [] -> dlast key (a ++ k ++ b) = match b with [] => dlast key k | _ => None end.
Proof.
  intros HS HI HN. assert (Hk : k <> []) by (intros ->; contradiction). apply in_map_iff in HI. destruct HI as ([n0 k0] & E0 & HI). cbn [snd] in E0. subst k0.
  unfold dlast. destruct b as [|r b].
  - rewrite !app_nil_r in *. rewrite last_app_some by exact Hk. destruct (last (map Some k) None) as [[n e]|]; [|reflexivity]. destruct (list_eq_dec Z.eq_dec e key); [|reflexivity]. now rewrite removed_app, last_app_some.
  - rewrite app_assoc, last_app_some by discriminate. destruct (last_split (r :: b)) as [[E _]|(c & [n e] & E & El)]; [discriminate|]. rewrite El.
    destruct (list_eq_dec Z.eq_dec e key) as [-> | _]; [exfalso|reflexivity]. apply ss_app in HS. destruct HS as (_ & HS & _). apply ss_app in HS. destruct HS as (_ & _ & HS).
    specialize (HS (n0, key) (n, key) HI ltac:(rewrite E; apply in_or_app; right; now left)). cbn [snd] in HS. rewrite ltb_irrefl in HS. discriminate.
Qed.
Lemma home_long key ls : ss (all_recs ls) -> Forall (fun l => snd l <> []) ls \/ (length ls <= 1)%nat -> same_len key (all_recs ls) -> ls <> [] -> 2 <= zlen (home key ls) -> removed key (all_recs ls) <> [].
Proof.
  intros HS HF HL HN H2. rewrite <- at_home_removed by assumption. unfold all_recs in *.
  assert (HL2 : forall r, ss r -> 2 <= zlen r -> removed key r <> []).
  { intros r SR ZR E. destruct r as [|[n1 k1] [|[n2 k2] r]]; [change (zlen (@nil (Z * list Z))) with 0 in ZR; lia|rewrite zlen_cons in ZR; change (zlen (@nil (Z * list Z))) with 0 in ZR; lia|].
    unfold removed in E. cbn [filter snd] in E. apply (ss_app [(n1, k1)] ((n2, k2) :: r)) in SR. destruct SR as (_ & _ & SR). specialize (SR (n1, k1) (n2, k2) (or_introl eq_refl) (or_introl eq_refl)). cbn [snd] in SR.
    destruct (list_eq_dec Z.eq_dec k1 key) as [-> | _]; [|discriminate]. destruct (list_eq_dec Z.eq_dec k2 key) as [-> | _]; [|discriminate]. rewrite ltb_irrefl in SR. discriminate. }
  clear HF HL. induction ls as [|[o r] ls IH]; [congruence|]. cbn [home at_home] in *. cbn [map concat snd] in HS. apply ss_app in HS. destruct HS as (HS1 & HS2 & _). destruct ls as [|l ls].
  - cbn [map concat snd]. rewrite app_nil_r. now apply HL2.
  - destruct (ends_before key r); cbn [map concat snd]; intros E; apply app_eq_nil in E; destruct E as [E1 E2]; [apply (IH HS2); [discriminate|exact H2|exact E2]|now apply (HL2 r)].
Qed.
Theorem delete_rec_ok key num : forall fuel f t, (height t < fuel)%nat -> bytes_ok f -> tok x f t -> ss (t_recs t) -> Forall (rec_ok len) (t_recs t) -> same_len key (t_recs t) -> In (num, key) (t_recs t) ->
  2 <= zlen (home key (t_leaves t)) -> fits x (zlen (home key (t_leaves t)) - 1) ->
  exists f' t', delete_rec fuel x f (t_off t) key num = Ok (f', DO (dlast key (t_recs t)) false) /\ step x f f' t t' /\ t_leaves t' = at_home key (removed key) (t_leaves t).
Proof.
  induction fuel as [|fuel IH]; intros f t Hh Hb HT HS HR HL HI H2 Hfit; [lia|].
  destruct (tok_page x f t HT) as (page & HG & ZP & BP). cbn [delete_rec]. rewrite HG. cbn [rbind].
  destruct t as [o r|o kids]; cbn [t_off] in *.
  - assert (ER : t_recs (Leaf o r) = r) by (unfold t_recs; cbn [t_leaves map concat snd]; apply app_nil_r). rewrite ER in *.
    pose proof HT as [T1 _ _ _]. cbn [stored] in T1. destruct T1 as (p & [P1 _] & HU & _). assert (p = page) by congruence. subst p.
    pose proof (leaf_flag _ _ _ _ (proj1 Hlen) HU) as HF. destruct (Z.eqb_spec (Z.land (hd_field page 0 2) 2) 0); [contradiction|]. cbn [negb].
    cbn [t_leaves home] in H2, Hfit. destruct (delete_leaf_ok x f o page key num r Hlen Hps ZP BP HU HR HS HI H2 Hfit) as (p & EW & HH). rewrite EW.
    exists (put f o p), (Leaf o (removed key r)). split; [reflexivity|]. split; [|reflexivity]. eapply leaf_step; eassumption.
  - destruct (node_reads x Hlen Hps f o kids page HT HG) as (R1 & R2 & R3 & R4 & R5 & R6 & R7). rewrite R1. cbn [Z.eqb negb]. rewrite R2.
    destruct (choose2 key f o kids page HT HG HL) as [[HA E]|(a & k & b & -> & HA & HB & HC)].
    { exfalso. unfold t_recs in HI, HS. cbn [t_leaves] in HI. apply in_concat in HI. destruct HI as (r & Hr & HI). apply in_map_iff in Hr. destruct Hr as (l & <- & Hl). apply in_flat_map in Hl. destruct Hl as (t & Ht & Hl).
      destruct (in_split _ _ Ht) as (a & b & ->). fold (t_recs (Node o (a ++ t :: b))) in HS. rewrite recs_node in HS. pose proof (ss_kids a t b HS) as (_ & SK & _). rewrite Forall_forall in HA.
      destruct (ends_all key _ SK (HA t Ht)) as [_ HF]. rewrite Forall_forall in HF. specialize (HF _ (recs_in t l _ Hl HI)). cbn [snd] in HF. rewrite ltb_irrefl in HF. discriminate. }
    rewrite HC. cbn [rbind].
    assert (Hnk : nth_error (a ++ k :: b) (length a) = Some k) by (rewrite nth_error_app2, Nat.sub_diag by lia; reflexivity).
    destruct (R7 (length a) k Hnk) as (J1 & J2 & J3 & bb & J4 & J5). destruct (entry_reads f o _ page (length a) k HT HG Hnk) as (ne & ee & N1 & N2 & N3 & N4 & N5). rewrite recs_node in *.
    set (at_ := 12 + zlen a * (len + 8)). assert (EAT : 12 + Z.of_nat (length a) * (len + 8) = at_) by (unfold at_, zlen; lia). rewrite EAT in *.
    rewrite J4. cbn [rbind]. rewrite J5. pose proof (ss_kids a k b HS) as (SA & SK & _).
    assert (HIk : In (num, key) (t_recs k)) by (apply (key_in_kid key num a k b); auto).
    assert (HLk : same_len key (t_recs k)) by (apply Forall_app in HL; destruct HL as [_ HL]; apply Forall_app in HL; apply HL).
    assert (HRk : Forall (rec_ok len) (t_recs k)) by (apply Forall_app in HR; destruct HR as [_ HR]; apply Forall_app in HR; apply HR).
    assert (HF : Forall full (a ++ k :: b)).
    { destruct HT as [_ T2 _ _]. cbn [keyed] in T2. destruct T2 as [_ T2]. apply all_kids in T2. apply Forall_forall. intros t Ht. rewrite Forall_forall in T2. apply (keyed_full x f); [now apply T2|].
      destruct (In_nth_error _ _ Ht) as [j Hj]. apply (R7 j t Hj). }
    apply Forall_app in HF. destruct HF as [HFa HFk]. pose proof (Forall_inv HFk) as HFk'.
    destruct (at_home_node key (removed key) o a k b) as [AH1 AH2]; [|exact HFk'|exact J2|right; exact HB|].
    { apply Forall_forall. intros t Ht. rewrite Forall_forall in HA, SA, HFa. split; [now apply SA|split; [now apply HFa|now apply HA]]. }
    rewrite AH2 in H2, Hfit.
    destruct (IH f k (height_kid o a k b fuel Hh) Hb (tok_kid x f o a k b HT) SK HRk HLk HIk H2 Hfit) as (f1 & k' & EW & HSt & HLv). rewrite EW. cbn [rbind d_empty d_last orb].
    assert (HRk' : t_recs k' = removed key (t_recs k)) by (unfold t_recs at 1; rewrite HLv; apply (at_home_removed key); auto).
    assert (HNE : removed key (t_recs k) <> []) by (apply (home_long key (t_leaves k)); auto; now apply leaves_ne).
    pose proof (removed_last key (t_recs k) SK HNE) as HRL.
    assert (HLv' : t_leaves (Node o (a ++ k' :: b)) = at_home key (removed key) (t_leaves (Node o (a ++ k :: b)))).
    { rewrite AH1. cbn [t_leaves]. rewrite flat_map_app. cbn [flat_map]. now rewrite HLv. }
    assert (HIm : In key (map snd (t_recs k))) by (apply in_map_iff; exists (num, key); auto).
    rewrite (dlast_app key _ _ _ HS HIm HNE).
    assert (Eeq : (if list_eq_dec Z.eq_dec (lastkey k) key then true else false) = match dlast key (t_recs k) with Some _ => true | None => false end).
    { unfold dlast, lastkey. rewrite N1. destruct (list_eq_dec Z.eq_dec ee key) as [-> | _]; [|reflexivity]. destruct (last_split (removed key (t_recs k))) as [[E _]|(c & [m e] & _ & El)]; [congruence|]. rewrite El. reflexivity. }
    rewrite Eeq. clear Eeq.
    assert (HBn : t_recs (Node 0 b) = [] <-> b = []).
    { split; [|intros ->; reflexivity]. intros E. destruct b as [|b0 b']; [reflexivity|exfalso]. assert (HX0 : t_recs b0 <> []) by (apply (R7 (S (length a)) b0); rewrite nth_error_app2 by lia; replace (S (length a) - length a)%nat with 1%nat by lia; reflexivity).
      change (b0 :: b') with ([] ++ b0 :: b') in E. rewrite recs_node in E. apply app_eq_nil in E. destruct E as [_ E]. apply app_eq_nil in E. tauto. }
    destruct (dlast key (t_recs k)) as [[e m]|] eqn:ED.
    + (* the entry of the child changes *)
      assert (RM : rec_ok len (m, e)).
      { rewrite Forall_forall in HRk. apply HRk. apply (removed_in key). destruct (last_split (removed key (t_recs k))) as [[E _]|(c & y & E & El)]; [congruence|]. rewrite HRL in El. injection El as <-. rewrite E. apply in_or_app. right. now left. }
      destruct RM as (Rm & Rk & Rb). cbn [fst snd] in Rm, Rk, Rb. pose proof (zlen_be4 m) as Zb.
      rewrite wrn_in by lia. cbn [rbind]. set (p1 := splice page _ e).
      assert (L1 : zlen p1 = ps) by (unfold p1; rewrite zlen_splice; [exact ZP|unfold zlen in *; lia]).
      rewrite wrn_in by lia. cbn [rbind]. set (p2 := splice p1 _ (be4 m)).
      assert (L2 : zlen p2 = ps) by (unfold p2; rewrite zlen_splice; [exact L1|unfold zlen in *; lia]).
      assert (SE : sub p2 (Z.to_nat at_) (Z.to_nat len) = e).
      { unfold p2. rewrite sub_splice_other by (unfold zlen in *; lia). unfold p1. replace (Z.to_nat len) with (length e) by (unfold zlen in *; lia). apply sub_splice_same. unfold zlen in *. lia. }
      assert (SM : sub p2 (Z.to_nat (at_ + len)) 4 = be4 m).
      { unfold p2. replace 4%nat with (length (be4 m)) by (unfold zlen in Zb; lia). apply sub_splice_same. unfold zlen in *. lia. }
      exists (put f1 o p2), (Node o (a ++ k' :: b)). split; [|split; [|exact HLv']].
      * destruct (Z.eqb_spec (zlen (a ++ k :: b)) 0); [lia|]. rewrite zlen_app, zlen_cons. rewrite andb_true_r.
        destruct (Z.eqb_spec (zlen a) (zlen a + (1 + zlen b) - 1)) as [EB|EB].
        -- assert (b = []) by (destruct b; [reflexivity|rewrite zlen_cons in EB; pose proof (zlen_nonneg b); lia]). subst b. change (zlen (@nil tree)) with 0. replace (12 + (zlen a + (1 + 0) - 1) * (len + 8)) with at_ by (unfold at_; lia).
           rewrite rdn_ok by lia. cbn [rbind]. rewrite rdn_ok by lia. cbn [rbind]. change (Z.to_nat 4) with 4%nat. rewrite SE, SM, be4_val by exact Rm. reflexivity.
        -- cbn [rbind orb]. destruct (t_recs (Node 0 b)) eqn:EBR; [|reflexivity]. exfalso. assert (b = []) by (apply HBn; reflexivity). subst b. change (zlen (@nil tree)) with 0 in EB. lia.
      * apply (node_step x Hlen Hps f f1 (put f1 o p2) o a k k' b page p2 m e); auto.
        -- apply bytes_ok_splice; [apply bytes_ok_splice; assumption|]. unfold be4. apply Forall_rev. apply le_bytes_ok.
        -- fold at_. intros c n HD. unfold p2. rewrite sub_splice_other by (unfold zlen in *; lia). unfold p1. rewrite sub_splice_other by (unfold zlen in *; lia). reflexivity.
        -- rewrite HRk'. exact HRL.
    + exists f1, (Node o (a ++ k' :: b)). cbn [rbind]. split; [|split; [|exact HLv']].
      * destruct (Z.eqb_spec (zlen (a ++ k :: b)) 0); [lia|]. rewrite andb_false_r. cbn [rbind orb]. destruct (t_recs (Node 0 b)); reflexivity.
      * apply (node_step x Hlen Hps f f1 f1 o a k k' b page page ne ee); auto; fold at_; auto. rewrite HRk', HRL. exact N1.
Qed.
End del.

Theorem remove_ok x f t key num fuel : index_ok x f t -> (height t < fuel)%nat -> In (num, key) (t_recs t) -> 2 <= zlen (home key (t_leaves t)) -> fits x (zlen (home key (t_leaves t)) - 1) ->
  exists f' t', delete_index fuel x f key num = Ok f' /\ index_ok x f' t' /\ t_leaves t' = at_home key (removed key) (t_leaves t) /\ t_recs t' = removed key (t_recs t) /\
    height t' = height t /\ zlen f' = zlen f /\ (forall off n, 0 <= n -> (forall o, In o (t_pages t) -> off + n <= o \/ o + x_ps x <= off) -> get f' off n = get f off n).
Proof.
  intros HI Hf Hin H2 Hfit. pose proof (index_tok x f t HI) as HT. pose proof HI as [I1 I2 I3 I4 I5 I6 I7 I8 I9 I10 I11]. pose proof (sorted_ss _ I8) as SS. fold (ss (t_recs t)) in SS.
  assert (HSL : same_len key (t_recs t)) by (rewrite Forall_forall in I9; apply (rec_same_len (x_len x) key num); [now apply (I9 (num, key))|apply Forall_forall; exact I9]).
  destruct (delete_rec_ok x I1 I2 key num fuel f t Hf I3 HT SS I9 HSL Hin H2 Hfit) as (f' & t' & EW & HSt & HL).
  assert (HR : t_recs t' = removed key (t_recs t)) by (unfold t_recs at 1; rewrite HL; apply (at_home_removed key); auto; now apply (index_full x f)).
  exists f', t'. split; [unfold delete_index; rewrite I10, EW; reflexivity|].
  split; [|split; [exact HL|split; [exact HR|split; [apply HSt|split; [apply HSt|apply HSt]]]]].
  apply (at_home_leaves x f f' t t' key (removed key)); auto; [now apply removed_ss|]. apply Forall_forall. intros r Hr. rewrite Forall_forall in I9. apply I9. now apply (removed_in key).
Qed.
Theorem absent_ok x f t key num fuel : index_ok x f t -> (height t < fuel)%nat -> zlen key = x_len x -> ~ In (num, key) (t_recs t) -> delete_index fuel x f key num = Ok f.
Proof.
  intros HI Hf Hk Hin. pose proof (index_tok x f t HI) as HT. pose proof HI as [I1 I2 I3 I4 I5 I6 I7 I8 I9 I10 I11].
  assert (HSL : same_len key (t_recs t)) by (eapply Forall_impl; [|exact I9]; intros r (_ & Hr & _); unfold zlen in *; lia).
  destruct (delete_absent x I1 I2 key num fuel f t Hf HT (sorted_ss _ I8) I9 HSL Hin) as (l & EW & _). unfold delete_index. rewrite I10, EW. reflexivity.
Qed.

(** ** What a walk lists, and histories *)
Theorem index_walk x f t fuel room : index_ok x f t -> (height t < fuel)%nat -> (length (t_leaves t) <= fuel)%nat -> zlen (t_recs t) <= room -> create_recordsindex (get f) fuel (x_start x) (x_ps x) (x_838 x) room = Ok (map fst (t_recs t)).
Proof.
  intros [I1 I2 I3 I4 I5 I6 I7 I8 I9 I10 I11] H1 H2 H3. destruct I11 as (h & E1 & E2 & E3). unfold x_mul in *.
  apply (walk_ok (get f) fuel (x_start x) (x_ps x) (x_838 x) room (x_len x) t h); try assumption; lia.
Qed.
Theorem history_ok fuel x junk : forall ops f t, index_ok x f t -> (height t < fuel)%nat -> roomy x ops (t_leaves t) ->
  exists f' t', run fuel x junk f ops = Ok (f', x) /\ index_ok x f' t' /\ t_recs t' = fold_left op_recs ops (t_recs t) /\ map fst (t_leaves t') = map fst (t_leaves t) /\ height t' = height t.
Proof.
  induction ops as [|[[|] [n k]] ops IH]; intros f t HI Hh HR.
  - exists f, t. split; [reflexivity|]. split; [exact HI|]. split; [reflexivity|]. split; reflexivity.
  - cbn [roomy] in HR. destruct HR as (R1 & R2 & R3 & R4). destruct (add_ok x junk f t k n fuel HI Hh R1 R2 R3) as (f1 & t1 & E1 & E2 & E3 & E4 & E5 & _). cbn [run]. rewrite E1. cbn [rbind fst snd].
    rewrite <- E3 in R4. destruct (IH f1 t1 E2 ltac:(lia) R4) as (f' & t' & F1 & F2 & F3 & F4 & F5). exists f', t'. split; [exact F1|]. split; [exact F2|]. cbn [fold_left]. unfold op_recs at 2. cbn [fst snd]. rewrite <- E4. split; [exact F3|]. split; [|lia]. rewrite F4, E3. apply at_home_offs.
  - cbn [roomy] in HR. destruct HR as (R1 & R2 & R3 & R4). destruct (remove_ok x f t k n fuel HI Hh R1 R2 R3) as (f1 & t1 & E1 & E2 & E3 & E4 & E5 & _). cbn [run]. rewrite E1. cbn [rbind fst snd].
    rewrite <- E3 in R4. destruct (IH f1 t1 E2 ltac:(lia) R4) as (f' & t' & F1 & F2 & F3 & F4 & F5). exists f', t'. split; [exact F1|]. split; [exact F2|]. cbn [fold_left]. unfold op_recs at 2. cbn [fst snd]. rewrite <- E4. split; [exact F3|]. split; [|lia]. rewrite F4, E3. apply at_home_offs.
Qed.
