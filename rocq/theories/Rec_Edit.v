(** Pending edits refine the list of new records; what writing records stores. *)
From Verif Require Import Prelude Lists Field_Model Rec_Model Rec_Spec Rec_Proofs.
From Verif Require Import Field_Keys Field_Proofs.
Ltac Zify.zify_post_hook ::= idtac.

(** ** The list of pending records *)
Lemma find_map g ch n : (forall c, p_num (g c) = p_num c) -> find_pend n (map g ch) = option_map g (find_pend n ch).
Proof. intros H. induction ch as [|c ch IH]; [reflexivity|]. cbn [map find_pend]. rewrite H. destruct (p_num c =? n); [reflexivity|exact IH]. Qed.
Lemma find_num n ch c : find_pend n ch = Some c -> p_num c = n /\ In c ch.
Proof. induction ch as [|d ch IH]; cbn [find_pend]; [discriminate|]. destruct (Z.eqb_spec (p_num d) n); [intros E; injection E as ->; split; [assumption|left; reflexivity]|]. intros E. destruct (IH E) as [A B]. split; [exact A|right; exact B]. Qed.
Lemma find_none n ch : find_pend n ch = None <-> ~ In n (map p_num ch).
Proof.
  induction ch as [|d ch IH]; cbn [find_pend map In]; [tauto|]. destruct (Z.eqb_spec (p_num d) n) as [E|E]; [split; [discriminate|tauto]|]. rewrite IH. tauto.
Qed.
Lemma find_in ch c : NoDup (map p_num ch) -> In c ch -> find_pend (p_num c) ch = Some c.
Proof.
  induction ch as [|d ch IH]; intros ND HI; [destruct HI|]. cbn [map] in ND. inversion_clear ND as [|? ? N1 N2]. cbn [find_pend]. destruct HI as [->|HI]; [now rewrite Z.eqb_refl|]. destruct (Z.eqb_spec (p_num d) (p_num c)) as [E|E]; [|now apply IH]. exfalso. apply N1. rewrite E. now apply in_map.
Qed.
Lemma remove_in n ch x : In x (map p_num (remove_pend n ch)) -> In x (map p_num ch).
Proof. induction ch as [|d ch IH]; cbn [remove_pend map]; [tauto|]. destruct (p_num d =? n); cbn [map In]; tauto. Qed.
Lemma remove_nodup n ch : NoDup (map p_num ch) -> NoDup (map p_num (remove_pend n ch)).
Proof. induction ch as [|d ch IH]; cbn [remove_pend map]; intros H; [constructor|]. inversion_clear H as [|? ? N1 N2]. destruct (p_num d =? n); [exact N2|]. cbn [map]. constructor; [|now apply IH]. intros HI. now apply N1, (remove_in n). Qed.
Lemma find_remove n m ch : NoDup (map p_num ch) -> find_pend n (remove_pend m ch) = if n =? m then None else find_pend n ch.
Proof.
  induction ch as [|d ch IH]; cbn [remove_pend map find_pend]; intros H; [destruct (n =? m); reflexivity|]. inversion_clear H as [|? ? N1 N2]. destruct (Z.eqb_spec (p_num d) m) as [E|E].
  - destruct (Z.eqb_spec n m) as [->|E2]; [rewrite <- E; now apply find_none|]. destruct (Z.eqb_spec (p_num d) n); [lia|reflexivity].
  - cbn [find_pend]. rewrite (IH N2). destruct (Z.eqb_spec n m) as [->|E2]; [|reflexivity]. destruct (Z.eqb_spec (p_num d) m); [lia|reflexivity].
Qed.
Definition down (m : Z) (c : pend) : pend := if m <? p_num c then PD (p_num c - 1) (p_typ c) (p_rec c) else c.
Lemma find_down m ch n : ~ In m (map p_num ch) -> find_pend n (map (down m) ch) = if n <? m then find_pend n ch else option_map (down m) (find_pend (n + 1) ch).
Proof.
  induction ch as [|c ch IH]; cbn [map find_pend In]; intros H; [destruct (n <? m); reflexivity|]. specialize (IH ltac:(tauto)). unfold down at 1 2. destruct (Z.ltb_spec m (p_num c)) as [L|L]; cbn [p_num].
  - rewrite IH. destruct (Z.ltb_spec n m).
    + destruct (Z.eqb_spec (p_num c - 1) n); [lia|]. destruct (Z.eqb_spec (p_num c) n); [lia|reflexivity].
    + destruct (Z.eqb_spec (p_num c - 1) n); destruct (Z.eqb_spec (p_num c) (n + 1)); try lia; [|reflexivity]. cbn [option_map]. unfold down. destruct (Z.ltb_spec m (p_num c)); [reflexivity|lia].
  - rewrite IH. destruct (Z.ltb_spec n m); [reflexivity|]. destruct (Z.eqb_spec (p_num c) n); destruct (Z.eqb_spec (p_num c) (n + 1)); try reflexivity; exfalso; apply H; lia.
Qed.
Lemma down_nodup m ch : NoDup (map p_num ch) -> ~ In m (map p_num ch) -> NoDup (map p_num (map (down m) ch)).
Proof.
  intros ND HM. rewrite map_map. assert (EQ : map (fun c => p_num (down m c)) ch = map (fun x => if m <? x then x - 1 else x) (map p_num ch)) by (rewrite map_map; apply map_ext; intros c; unfold down; destruct (m <? p_num c); reflexivity).
  rewrite EQ. clear EQ. revert ND HM. generalize (map p_num ch). intros l. induction l as [|x l IH]; intros ND HM; [constructor|]. inversion_clear ND as [|? ? N1 N2]. cbn [map In] in *. constructor; [|apply IH; tauto].
  intros HI. apply in_map_iff in HI. destruct HI as (y & E & Hy). assert (y <> m) by (intros ->; tauto). assert (x <> m) by tauto. assert (x <> y) by (intros ->; tauto). destruct (Z.ltb_spec m y), (Z.ltb_spec m x); lia.
Qed.

(** ** The invariant *)
Definition expect (phys : Z) (v : view) (n : Z) : option pend :=
  if n <? phys then if existsb (Z.eqb n) (v_del v) then Some (PD n Deleted []) else None
  else match nth_error (v_new v) (Z.to_nat (n - phys)) with Some r => Some (PD n Inserted r) | None => None end.
Definition inv (phys reclen : Z) (e : edits) (v : view) : Prop :=
  e_added e = zlen (v_new v) /\ NoDup (map p_num (e_ch e)) /\ (forall n, find_pend n (e_ch e) = expect phys v n) /\ Forall (fun r => zlen r = reclen) (v_new v).
Lemma nth_drop {A} (l : list A) i j : nth_error (drop_at i l) j = if (j <? i)%nat then nth_error l j else nth_error l (S j).
Proof.
  unfold drop_at. revert i j. induction l as [|x l IH]; intros i j.
  - rewrite firstn_nil. cbn [skipn app]. destruct j; destruct (_ <? _)%nat; reflexivity.
  - destruct i as [|i]; [reflexivity|]. cbn [firstn app]. destruct j as [|j]; [reflexivity|]. cbn [nth_error]. change (skipn (S (S i)) (x :: l)) with (skipn (S i) l). rewrite IH. change (S j <? S i)%nat with (j <? i)%nat. destruct (j <? i)%nat; reflexivity.
Qed.
Lemma drop_length {A} (l : list A) i : (i < length l)%nat -> length (drop_at i l) = (length l - 1)%nat.
Proof. intros H. unfold drop_at. rewrite app_length, firstn_length, skipn_length. lia. Qed.
Lemma put_all ch n off v : (forall c, In c ch -> p_num c = n -> 0 <= off /\ off + zlen v <= zlen (p_rec c)) ->
  fold_right (fun c r => do r <- r; if p_num c =? n then do d <- wrn (p_rec c) off v; Ok (PD n (p_typ c) d :: r) else Ok (c :: r)) (Ok []) ch =
  Ok (map (fun c => if p_num c =? n then PD n (p_typ c) (splice (p_rec c) (Z.to_nat off) v) else c) ch).
Proof.
  induction ch as [|c ch IH]; intros H; [reflexivity|]. cbn [fold_right map]. rewrite IH by (intros d Hd; apply H; right; exact Hd). cbn [rbind]. destruct (Z.eqb_spec (p_num c) n) as [E|E]; [|reflexivity].
  destruct (H c (or_introl eq_refl) E). rewrite wrn_ok by assumption. reflexivity.
Qed.
Definition setat (i : nat) (off : Z) (d : list Z) (l : list (list Z)) : list (list Z) :=
  map (fun p => if (fst p =? i)%nat then splice (snd p) (Z.to_nat off) d else snd p) (combine (seq 0 (length l)) l).
Lemma nth_setat l i off d j : nth_error (setat i off d l) j = option_map (fun r => if (j =? i)%nat then splice r (Z.to_nat off) d else r) (nth_error l j).
Proof.
  unfold setat. rewrite nth_error_map. assert (E : forall (l : list (list Z)) k j, nth_error (combine (seq k (length l)) l) j = option_map (fun r => ((k + j)%nat, r)) (nth_error l j)).
  { clear. induction l as [|x l IH]; intros k [|j]; try reflexivity; [cbn; now rewrite Nat.add_0_r|]. cbn [length seq combine nth_error]. rewrite IH. replace (k + S j)%nat with (S k + j)%nat by lia. reflexivity. }
  rewrite E. destruct (nth_error l j); reflexivity.
Qed.
Lemma setat_length l i off d : length (setat i off d l) = length l.
Proof. unfold setat. rewrite map_length, combine_length, seq_length. lia. Qed.
Lemma existsb_filter (l : list Z) k n : existsb (Z.eqb n) (filter (fun x => negb (x =? k)) l) = if n =? k then false else existsb (Z.eqb n) l.
Proof.
  induction l as [|x l IH]; cbn [filter existsb]; [destruct (n =? k); reflexivity|]. destruct (Z.eqb_spec x k) as [E|E]; cbn [negb existsb]; rewrite IH; destruct (Z.eqb_spec n k) as [E2|E2]; destruct (Z.eqb_spec n x) as [E3|E3]; try reflexivity; lia.
Qed.
Lemma step_ok phys reclen o e v : 0 <= phys -> 0 < reclen -> inv phys reclen e v -> op_ok phys reclen o v -> exists e', do_op phys reclen o e = Ok e' /\ inv phys reclen e' (spec_op reclen o v).
Proof.
  intros Hp Hr (I1 & I2 & I3 & I4) HO. destruct o as [i|i|k|k|i off d]; cbn [op_ok do_op spec_op] in *.
  - (* Insert *) unfold set_rec_type. destruct (Z.ltb_spec (phys + Z.of_nat i) phys); [lia|]. rewrite I3. unfold expect. destruct (Z.ltb_spec (phys + Z.of_nat i) phys); [lia|]. replace (Z.to_nat (phys + Z.of_nat i - phys)) with i by lia. 
    destruct (Nat.eqb_spec i (length (v_new v))) as [Ei|Ei].
    + assert (nth_error (v_new v) i = None) as -> by (apply nth_error_None; lia). destruct (Z.ltb_spec (phys + e_added e) (phys + Z.of_nat i)); [unfold zlen in *; lia|]. eexists. split; [reflexivity|]. split; [|split; [|split]]; cbn [e_added e_ch v_new v_del].
      * rewrite zlen_app. change (zlen [repeat 0 (Z.to_nat reclen)]) with 1. lia.
      * cbn [map p_num]. constructor; [|exact I2]. apply find_none. rewrite I3. unfold expect. destruct (Z.ltb_spec (phys + Z.of_nat i) phys); [lia|]. replace (Z.to_nat (phys + Z.of_nat i - phys)) with i by lia.
        assert (nth_error (v_new v) i = None) as -> by (apply nth_error_None; lia). reflexivity.
      * intros n. cbn [find_pend p_num]. unfold expect. cbn [v_new v_del]. destruct (Z.eqb_spec (phys + Z.of_nat i) n) as [<-|En].
        -- destruct (Z.ltb_spec (phys + Z.of_nat i) phys); [lia|]. replace (Z.to_nat (phys + Z.of_nat i - phys)) with i by lia. rewrite nth_error_app2, Ei, Nat.sub_diag by lia. reflexivity.
        -- rewrite I3. unfold expect. destruct (Z.ltb_spec n phys); [reflexivity|]. destruct (Nat.lt_ge_cases (Z.to_nat (n - phys)) (length (v_new v))) as [L|L]; [now rewrite nth_error_app1|].
           rewrite (proj2 (nth_error_None (v_new v) (Z.to_nat (n - phys)))) by lia. rewrite (proj2 (nth_error_None (v_new v ++ _) (Z.to_nat (n - phys)))) by (rewrite app_length; cbn [length]; lia). reflexivity.
      * apply Forall_app. split; [exact I4|]. apply Forall_cons; [|apply Forall_nil]. unfold zlen. rewrite repeat_length. lia.
    + destruct (nth_error (v_new v) i) as [r|] eqn:E; [|apply nth_error_None in E; lia]. eexists. split; [reflexivity|]. split; [exact I1|]. split; [|split; [|exact I4]]; cbn [e_ch].
      * rewrite map_map. rewrite (map_ext _ p_num); [exact I2|]. intros c. destruct (Z.eqb_spec (p_num c) (phys + Z.of_nat i)); cbn [p_num]; lia.
      * intros n. rewrite find_map by (intros c; destruct (Z.eqb_spec (p_num c) (phys + Z.of_nat i)); cbn [p_num]; lia). rewrite I3. unfold expect. destruct (Z.ltb_spec n phys).
        -- destruct (existsb (Z.eqb n) (v_del v)); [|reflexivity]. cbn [option_map p_num]. destruct (Z.eqb_spec n (phys + Z.of_nat i)); [lia|reflexivity].
        -- destruct (nth_error (v_new v) (Z.to_nat (n - phys))) as [r2|]; [|reflexivity]. cbn [option_map p_num p_rec]. destruct (Z.eqb_spec n (phys + Z.of_nat i)) as [->|]; reflexivity.
  - (* Remove *) unfold set_rec_type. destruct (Z.ltb_spec (phys + Z.of_nat i) phys); [lia|]. pose proof (I3 (phys + Z.of_nat i)) as F. unfold expect in F. destruct (Z.ltb_spec (phys + Z.of_nat i) phys); [lia|]. replace (Z.to_nat (phys + Z.of_nat i - phys)) with i in F by lia.
    destruct (nth_error (v_new v) i) as [r|] eqn:E; [|apply nth_error_None in E; lia]. rewrite F. set (m := phys + Z.of_nat i) in *. fold (down m). change (map (fun c => down m c)) with (map (down m)).
    assert (NI : ~ In m (map p_num (remove_pend m (e_ch e)))) by (apply find_none; rewrite find_remove by exact I2; now rewrite Z.eqb_refl).
    exists (ED (e_added e - 1) (map (down m) (remove_pend m (e_ch e)))). split; [reflexivity|]. split; [|split; [|split]]; cbn [e_added e_ch v_new v_del].
    + unfold zlen in *. rewrite drop_length by lia. lia.
    + apply down_nodup; [|exact NI]. now apply remove_nodup.
    + intros n. rewrite find_down by exact NI. rewrite !find_remove by exact I2. rewrite !I3. unfold expect. cbn [v_new v_del]. rewrite nth_drop. destruct (Z.ltb_spec n m) as [L|L].
      * destruct (Z.eqb_spec n m); [lia|]. destruct (Z.ltb_spec n phys); [reflexivity|]. destruct (Nat.ltb_spec (Z.to_nat (n - phys)) i); [reflexivity|lia].
      * destruct (Z.eqb_spec (n + 1) m); [lia|]. destruct (Z.ltb_spec (n + 1) phys); [lia|]. destruct (Z.ltb_spec n phys); [lia|]. destruct (Nat.ltb_spec (Z.to_nat (n - phys)) i); [lia|].
        replace (Z.to_nat (n + 1 - phys)) with (S (Z.to_nat (n - phys))) by lia. destruct (nth_error (v_new v) (S (Z.to_nat (n - phys)))); [|reflexivity]. cbn [option_map]. unfold down. cbn [p_num p_typ p_rec]. destruct (Z.ltb_spec m (n + 1)); [|lia]. do 2 f_equal. lia.
    + unfold drop_at. apply Forall_app. split; [now apply Forall_firstn'|now apply Forall_skipn'].
  - (* Delete *) unfold set_rec_type. destruct (Z.ltb_spec k phys); [|lia]. pose proof (I3 k) as F. unfold expect in F. destruct (Z.ltb_spec k phys); [|lia]. destruct (existsb (Z.eqb k) (v_del v)) eqn:EX; rewrite F.
    + eexists. split; [reflexivity|]. split; [exact I1|]. split; [|split; [|exact I4]]; cbn [e_ch].
      * rewrite map_map. rewrite (map_ext _ p_num); [exact I2|]. intros c. destruct (Z.eqb_spec (p_num c) k); cbn [p_num]; lia.
      * intros n. rewrite find_map by (intros c; destruct (Z.eqb_spec (p_num c) k); cbn [p_num]; lia). rewrite I3. unfold expect. cbn [v_new v_del existsb]. destruct (Z.ltb_spec n phys).
        -- destruct (Z.eqb_spec n k) as [->|]; [rewrite EX; cbn [option_map p_num]; rewrite Z.eqb_refl; reflexivity|]. cbn [orb]. destruct (existsb (Z.eqb n) (v_del v)); [|reflexivity]. cbn [option_map p_num]. destruct (Z.eqb_spec n k); [lia|reflexivity].
        -- destruct (nth_error (v_new v) (Z.to_nat (n - phys))); [|reflexivity]. cbn [option_map p_num]. destruct (Z.eqb_spec n k); [lia|reflexivity].
    + eexists. split; [reflexivity|]. split; [exact I1|]. split; [|split; [|exact I4]]; cbn [e_ch].
      * cbn [map p_num]. constructor; [|exact I2]. apply find_none. exact F.
      * intros n. cbn [find_pend p_num]. rewrite I3. unfold expect. cbn [v_new v_del existsb]. destruct (Z.eqb_spec k n) as [->|].
        -- destruct (Z.ltb_spec n phys); [|lia]. rewrite Z.eqb_refl. reflexivity.
        -- destruct (Z.eqb_spec n k); [lia|reflexivity].
  - (* Restore *) unfold set_rec_type. destruct (Z.ltb_spec k phys); [|lia]. eexists. split; [reflexivity|]. split; [exact I1|]. split; [|split; [|exact I4]]; cbn [e_ch].
    + now apply remove_nodup.
    + intros n. rewrite find_remove by exact I2. rewrite I3. unfold expect. cbn [v_new v_del]. rewrite existsb_filter. destruct (Z.eqb_spec n k) as [->|]; [|reflexivity]. destruct (Z.ltb_spec k phys); [reflexivity|lia].
  - (* SetValue *) destruct HO as (O1 & O2 & O3). unfold set_edit_value. destruct (Z.ltb_spec (phys + Z.of_nat i) phys); [lia|]. pose proof (I3 (phys + Z.of_nat i)) as F. unfold expect in F. destruct (Z.ltb_spec (phys + Z.of_nat i) phys); [lia|]. replace (Z.to_nat (phys + Z.of_nat i - phys)) with i in F by lia.
    destruct (nth_error (v_new v) i) as [r|] eqn:E; [|apply nth_error_None in E; lia]. rewrite F. set (m := phys + Z.of_nat i) in *. cbv zeta. fold (setat i off d (v_new v)).
    assert (Hrl : zlen r = reclen) by (apply (proj1 (Forall_forall _ _) I4), (nth_error_In _ _ E)).
    rewrite put_all by (intros c Hc Hm; pose proof (find_in _ _ I2 Hc) as F2; rewrite Hm, F in F2; injection F2 as <-; cbn [p_rec]; lia). cbn [rbind].
    assert (G : forall c, p_num (if p_num c =? m then PD m (p_typ c) (splice (p_rec c) (Z.to_nat off) d) else c) = p_num c) by (intros c; destruct (Z.eqb_spec (p_num c) m); cbn [p_num]; lia).
    eexists. split; [reflexivity|]. split; [|split; [|split]]; cbn [e_added e_ch v_new v_del].
    + unfold zlen in *. rewrite setat_length. exact I1.
    + rewrite map_map. rewrite (map_ext _ p_num G). exact I2.
    + intros n. rewrite (find_map (fun c => if p_num c =? m then PD m (p_typ c) (splice (p_rec c) (Z.to_nat off) d) else c)) by exact G. rewrite I3. unfold expect. cbn [v_new v_del]. rewrite nth_setat. destruct (Z.ltb_spec n phys).
      * destruct (existsb (Z.eqb n) (v_del v)); [|reflexivity]. cbn [option_map p_num]. destruct (Z.eqb_spec n m); [lia|reflexivity].
      * destruct (nth_error (v_new v) (Z.to_nat (n - phys))); [|reflexivity]. cbn [option_map p_num p_typ p_rec]. destruct (Z.eqb_spec n m) as [En|En]; destruct (Nat.eqb_spec (Z.to_nat (n - phys)) i) as [E2|E2]; try (exfalso; lia); [rewrite En; reflexivity|reflexivity].
    + apply Forall_forall. intros x Hx. apply In_nth_error in Hx. destruct Hx as [j Hj]. rewrite nth_setat in Hj. destruct (nth_error (v_new v) j) as [r2|] eqn:E2; [|discriminate]. cbn [option_map] in Hj. injection Hj as <-.
      assert (Hr2 : zlen r2 = reclen) by (apply (proj1 (Forall_forall _ _) I4), (nth_error_In _ _ E2)). destruct (j =? i)%nat; [|exact Hr2]. unfold zlen in *. rewrite splice_length; lia.
Qed.
Lemma history_inv phys reclen os : 0 <= phys -> 0 < reclen -> forall e v, inv phys reclen e v -> history_ok phys reclen os v -> exists e', do_ops phys reclen os e = Ok e' /\ inv phys reclen e' (spec_ops reclen os v).
Proof.
  intros Hp Hr. induction os as [|o os IH]; intros e v HI HO; [exists e; split; [reflexivity|exact HI]|]. destruct HO as [O1 O2]. destruct (step_ok phys reclen o e v Hp Hr HI O1) as (e' & E & HI'). cbn [do_ops]. rewrite E. cbn [rbind]. apply (IH e' _ HI' O2).
Qed.
Lemma inv_start phys reclen : inv phys reclen (ED 0 []) (VW [] []).
Proof. split; [reflexivity|]. split; [constructor|]. split; [|constructor]. intros n. cbn [e_ch find_pend]. unfold expect. cbn [v_del v_new existsb]. destruct (n <? phys); [reflexivity|]. destruct (Z.to_nat (n - phys)); reflexivity. Qed.

Lemma edits_ok phys reclen os content log rows : 0 <= phys -> 0 < reclen -> history_ok phys reclen os (VW [] []) -> let v := spec_ops reclen os (VW [] []) in
  zlen rows = log -> log + zlen (v_new v) < 2^31 -> phys + zlen (v_new v) < 2^32 ->
  exists e, do_ops phys reclen os (ED 0 []) = Ok e /\
    (forall i r, nth_error (v_new v) i = Some r -> get_phys_numrec phys log rows (log + 1 + Z.of_nat i) e = Ok (phys + Z.of_nat i) /\ get_rec_type (phys + Z.of_nat i) e = Inserted /\ get_edit_record content reclen (phys + Z.of_nat i) e = Ok r) /\
    (forall row, 0 < row <= log -> get_phys_numrec phys log rows row e = rd rows (row - 1)) /\
    (forall row, log + zlen (v_new v) < row < 2^31 -> get_phys_numrec phys log rows row e = Throw) /\
    (forall k, 0 <= k < phys -> (get_rec_type k e = Deleted <-> In k (v_del v)) /\ (get_rec_type k e = NotChanged <-> ~ In k (v_del v)) /\ get_edit_record content reclen k e = get_record content reclen k).
Proof.
  intros Hp Hr HO v HL HB1 HB2. destruct (history_inv phys reclen os Hp Hr _ _ (inv_start phys reclen) HO) as (e & E & I1 & I2 & I3 & I4). fold v in I1, I3, I4. exists e. split; [exact E|]. pose proof (zlen_nonneg rows) as Z0. pose proof (zlen_nonneg (v_new v)) as Z1. split; [|split; [|split]].
  - intros i r Hi. assert (Hi2 : (i < length (v_new v))%nat) by (apply nth_error_Some; congruence). unfold get_phys_numrec, get_rec_type, get_edit_record. rewrite I1, I3. unfold expect. destruct (Z.ltb_spec (phys + Z.of_nat i) phys); [lia|]. replace (Z.to_nat (phys + Z.of_nat i - phys)) with i by lia. rewrite Hi. cbn [p_typ p_rec].
    split; [|split; reflexivity]. unfold zlen in *. unfold u32. rewrite !Z.mod_small by lia. destruct (Z.eqb_spec (log + 1 + Z.of_nat i) 0); [lia|]. destruct (Z.ltb_spec (log + Z.of_nat (length (v_new v))) (log + 1 + Z.of_nat i)); [lia|]. destruct (Z.ltb_spec log (log + 1 + Z.of_nat i)); [|lia]. f_equal. lia.
  - intros row Hrow. unfold get_phys_numrec. rewrite I1. unfold u32. rewrite !Z.mod_small by lia. destruct (Z.eqb_spec row 0); [lia|]. destruct (Z.ltb_spec (log + zlen (v_new v)) row); [lia|]. destruct (Z.ltb_spec log row); [lia|]. reflexivity.
  - intros row Hrow. unfold get_phys_numrec. rewrite I1. unfold u32. rewrite !Z.mod_small by lia. destruct (Z.eqb_spec row 0); [lia|]. destruct (Z.ltb_spec (log + zlen (v_new v)) row); [reflexivity|lia].
  - intros k Hk. unfold get_rec_type, get_edit_record. rewrite I3. unfold expect. destruct (Z.ltb_spec k phys); [|lia]. assert (EX : existsb (Z.eqb k) (v_del v) = true <-> In k (v_del v)) by (rewrite existsb_exists; split; [intros (x & A & B); apply Z.eqb_eq in B; now subst|intros A; exists k; split; [exact A|apply Z.eqb_refl]]).
    destruct (existsb (Z.eqb k) (v_del v)); cbn [p_typ].
    + assert (HI : In k (v_del v)) by now apply EX. split; [tauto|]. split; [|reflexivity]. split; [discriminate|tauto].
    + assert (HI : ~ In k (v_del v)) by (intros A; apply EX in A; discriminate). split; [|split; [|reflexivity]]; [split; [discriminate|tauto]|tauto].
Qed.

(** editing a stored record *)
Lemma edit_stored phys reclen n off v raw e : n < phys -> v <> raw -> set_edit_value phys reclen n off v raw e = UB.
Proof. intros Hn Hv. unfold set_edit_value. destruct (Z.ltb_spec n phys); [|lia]. destruct (find_pend n (e_ch e)); [reflexivity|]. destruct (list_eq_dec Z.eq_dec v raw); [contradiction|reflexivity]. Qed.
Lemma edit_first_new phys reclen off v raw : set_edit_value phys reclen phys off v raw (ED 0 []) = UB.
Proof. unfold set_edit_value. rewrite Z.ltb_irrefl. cbn [find_pend e_ch]. rewrite Z.eqb_refl. reflexivity. Qed.

(** ** Writing *)
Lemma put_inside c pos d : 0 <= pos -> pos + zlen d <= zlen c -> put c pos d = splice c (Z.to_nat pos) d.
Proof.
  intros H1 H2. unfold put, splice. f_equal. unfold zlen in *. replace (Z.to_nat pos - length c)%nat with 0%nat by lia. cbn [repeat]. now rewrite app_nil_r.
Qed.
Lemma put_end c d : put c (zlen c) d = c ++ d.
Proof. unfold put, zlen. rewrite Nat2Z.id, Nat.sub_diag. cbn [repeat]. rewrite app_nil_r, firstn_all. f_equal. rewrite skipn_all2 by lia. apply app_nil_r. Qed.
Lemma object_len r : length (t_pad r) = 4%nat -> zlen (object_bytes r) = 24.
Proof. intros H. unfold object_bytes, zlen. rewrite !app_length, H, !le_bytes_length. reflexivity. Qed.
Lemma write_over content reclen phys n r : 0 < n <= phys -> 24 < reclen -> length (t_pad r) = 4%nat -> write_data_record content reclen phys n (object_bytes r) = UB.
Proof.
  intros Hn Hr Hp. unfold write_data_record. destruct (Z.ltb_spec phys n); [lia|]. cbn [andb]. destruct (Z.eqb_spec n 0); [lia|]. destruct (Z.eqb_spec phys 0); [lia|]. unfold rdn. rewrite (object_len r Hp). destruct (Z.ltb_spec 24 (0 + reclen)); [|lia]. rewrite orb_true_r. reflexivity.
Qed.
Lemma write_bytes content reclen phys n d : 0 < n < phys -> 0 < reclen <= zlen d -> phys * reclen = zlen content -> phys * reclen <= 2^32 ->
  exists content', write_data_record content reclen phys n d = Ok content' /\ zlen content' = zlen content /\ get_record content' reclen n = Ok (firstn (Z.to_nat reclen) d) /\
    (forall i, 0 <= i < phys -> i <> n -> get_record content' reclen i = get_record content reclen i).
Proof.
  intros Hn Hr HC H32. assert (n * reclen + reclen <= phys * reclen) by nia. unfold write_data_record. destruct (Z.ltb_spec phys n); [lia|]. cbn [andb]. destruct (Z.eqb_spec n 0); [lia|]. destruct (Z.eqb_spec phys 0); [lia|]. rewrite rdn_ok by lia. cbn [rbind].
  change (Z.to_nat 0) with 0%nat. rewrite sub_0_firstn. unfold u32. rewrite Z.mod_small by nia. assert (HL : zlen (firstn (Z.to_nat reclen) d) = reclen) by (unfold zlen in *; rewrite firstn_length; lia).
  rewrite put_inside by nia. eexists. split; [reflexivity|]. split; [|split].
  - unfold zlen in *. rewrite splice_length; nia.
  - unfold get_record, u32. rewrite Z.mod_small by nia. pose proof (rdn_splice_in content (firstn (Z.to_nat reclen) d) (n * reclen)) as RS. rewrite HL in RS. apply RS; nia.
  - intros i Hi Hne. assert (i * reclen + reclen <= phys * reclen) by nia. unfold get_record, u32. rewrite Z.mod_small by nia. apply rdn_splice_out; [nia|nia|]. rewrite HL. destruct (Z.lt_ge_cases i n); [left; nia|right; nia].
Qed.
(** the bytes stored are those of the object *)
Lemma write_object content reclen phys n r : 0 < n < phys -> 0 < reclen <= 24 -> length (t_pad r) = 4%nat -> phys * reclen = zlen content -> phys * reclen <= 2^32 ->
  exists content', write_data_record content reclen phys n (object_bytes r) = Ok content' /\ get_record content' reclen n = Ok (firstn (Z.to_nat reclen) (object_bytes r)).
Proof.
  intros Hn Hr Hp HC H32. destruct (write_bytes content reclen phys n (object_bytes r) Hn ltac:(rewrite (object_len r Hp); lia) HC H32) as (c & A & _ & B & _). eauto.
Qed.
Lemma delete_middle content reclen phys n r : 0 < n < phys - 1 -> 5 <= reclen <= 24 -> length (t_pad r) = 4%nat -> phys * reclen = zlen content -> phys * reclen <= 2^32 ->
  exists content', delete_data_record content reclen phys n r = Ok (content', phys) /\ zlen content' = zlen content /\
    (forall i, 0 <= i < phys -> i <> n -> get_record content' reclen i = get_record content reclen i) /\
    (forall m, rd content 0 = Ok m -> m <> 0 -> (do rec <- get_record content' reclen n; is_removed rec) = Ok true) /\
    rdn content' 1 4 = rdn content 1 4.
Proof.
  intros Hn Hr Hp HC H32. unfold delete_data_record. destruct (Z.leb_spec phys n); [lia|]. destruct (Z.eqb_spec n 0); [lia|]. destruct (Z.eqb_spec n (phys - 1)); [lia|].
  assert (HZ : 4 <= zlen content) by nia. rewrite rdn_ok by lia. cbn [rbind]. change (Z.to_nat 0) with 0%nat. rewrite sub_0_firstn. change (Z.to_nat 4) with 4%nat. set (f4 := firstn 4 content).
  assert (HF : zlen f4 = 4) by (unfold f4, zlen in *; rewrite firstn_length; lia). pose proof (object_len r Hp) as HO. rewrite wrn_ok by lia. cbn [rbind]. change (Z.to_nat 0) with 0%nat.
  assert (EP : put content 0 f4 = content). { rewrite put_inside by lia. change (Z.to_nat 0) with 0%nat. unfold splice. cbn [firstn app]. unfold f4. rewrite firstn_length, Nat.min_l by (unfold zlen in HZ; lia). cbn [Nat.add]. apply firstn_skipn. }
  rewrite EP. set (ob := splice (object_bytes r) 0 f4). assert (HOB : zlen ob = 24) by (unfold ob, zlen in *; rewrite splice_length; lia).
  destruct (write_bytes content reclen phys n ob ltac:(lia) ltac:(lia) HC H32) as (c & A & B & C & D). rewrite A. cbn [rbind]. exists c. split; [reflexivity|]. split; [exact B|]. split; [exact D|]. split.
  - intros m Hm Hm0. rewrite C. cbn [rbind]. unfold is_removed. assert (E0 : rd (firstn (Z.to_nat reclen) ob) 0 = Ok m).
    { unfold ob, splice. cbn [firstn app]. destruct content as [|x ct]; [change (zlen (@nil Z)) with 0 in HZ; lia|]. change (rd (x :: ct) 0) with (Ok x) in Hm. injection Hm as ->. unfold f4. cbn [firstn app]. replace (Z.to_nat reclen) with (S (Z.to_nat (reclen - 1))) by lia. reflexivity. }
    rewrite E0. cbn [rbind]. destruct (Z.eqb_spec m 0); [contradiction|reflexivity].
  - assert (HR : reclen <= zlen content) by nia. specialize (D 0 ltac:(lia) ltac:(lia)). unfold get_record, u32 in D. rewrite Z.mul_0_l in D. change (0 mod 2^32) with 0 in D. rewrite !rdn_ok in D by lia. injection D as D. change (Z.to_nat 0) with 0%nat in D. rewrite !sub_0_firstn in D.
    rewrite !rdn_ok by lia. f_equal. rewrite <- (sub_firstn c (Z.to_nat reclen)) by lia. rewrite <- (sub_firstn content (Z.to_nat reclen)) by lia. now rewrite D.
Qed.
Lemma delete_last content reclen phys r : 1 < phys -> 0 < reclen -> phys * reclen = zlen content -> phys * reclen <= 2^32 ->
  exists content', delete_data_record content reclen phys (phys - 1) r = Ok (content', phys - 1) /\ zlen content' = (phys - 1) * reclen /\
    (forall i, 0 <= i < phys - 1 -> get_record content' reclen i = get_record content reclen i).
Proof.
  intros Hn Hr HC H32. unfold delete_data_record. destruct (Z.leb_spec phys (phys - 1)); [lia|]. destruct (Z.eqb_spec (phys - 1) 0); [lia|]. rewrite Z.eqb_refl. unfold u32. rewrite Z.mod_small by nia. eexists. split; [reflexivity|].
  assert (HL : zlen (firstn (Z.to_nat ((phys - 1) * reclen)) content) = (phys - 1) * reclen) by (unfold zlen in *; rewrite firstn_length; nia). split; [exact HL|].
  intros i Hi. assert (i * reclen + reclen <= (phys - 1) * reclen) by nia. unfold get_record, u32. rewrite Z.mod_small by nia. rewrite !rdn_ok by nia. f_equal. apply sub_firstn. nia.
Qed.
(** two new records in one session *)
Lemma insert_twice content reclen phys r r2 : 0 < phys -> 5 <= reclen <= 24 -> length (t_pad r) = 4%nat -> phys * reclen = zlen content -> (phys + 1) * reclen <= 2^32 -> rdn content 1 4 = Ok [0; 0; 0; 0] ->
  insert_record content reclen phys r = Ok (content ++ firstn (Z.to_nat reclen) (object_bytes r), phys) /\
  insert_record (content ++ firstn (Z.to_nat reclen) (object_bytes r)) reclen phys r2 = Throw.
Proof.
  intros Hn Hr Hp HC H32 H0. pose proof (object_len r Hp) as HO. assert (HZ : 5 <= zlen content) by nia. set (d := firstn (Z.to_nat reclen) (object_bytes r)). assert (HD : zlen d = reclen) by (unfold d, zlen in *; rewrite firstn_length; lia). split.
  - unfold insert_record. destruct (Z.eqb_spec (zlen content) 0); [lia|]. rewrite H0. cbn [rbind]. change (le_val [0; 0; 0; 0] =? 0) with true. cbv iota zeta. rewrite <- HC, Z.div_mul by lia. unfold write_data_record. rewrite Z.ltb_irrefl. cbn [andb]. destruct (Z.eqb_spec phys 0); [lia|].
    rewrite rdn_ok by lia. cbn [rbind]. change (Z.to_nat 0) with 0%nat. rewrite sub_0_firstn. fold d. unfold u32. rewrite Z.mod_small by nia. rewrite HC, put_end. reflexivity.
  - unfold insert_record. rewrite zlen_app. destruct (Z.eqb_spec (zlen content + zlen d) 0); [lia|].
    assert (E : rdn (content ++ d) 1 4 = Ok [0;0;0;0]). { rewrite rdn_ok in * by (rewrite ?zlen_app; lia). injection H0 as H0. f_equal. rewrite <- H0. unfold sub. rewrite skipn_app. rewrite firstn_app. replace (Z.to_nat 4 - length (skipn (Z.to_nat 1) content))%nat with 0%nat by (rewrite skipn_length; unfold zlen in *; lia). cbn [firstn]. apply app_nil_r. }
    rewrite E. cbn [rbind]. change (le_val [0; 0; 0; 0] =? 0) with true. cbv iota zeta. rewrite HD, <- HC. replace (phys * reclen + reclen) with ((phys + 1) * reclen) by lia. rewrite Z.div_mul by lia. unfold write_data_record. destruct (Z.ltb_spec phys (phys + 1)); [|lia]. destruct (Z.eqb_spec phys 0); [lia|]. rewrite andb_false_r. reflexivity.
Qed.
Lemma update_outside f o r : 1 <= f_off f -> 0 < field_size f -> length (t_pad r) = 4%nat -> update_field f o r = UB.
Proof. intros H1 H2 H3. unfold update_field, rdn. rewrite (object_len r H3). destruct (Z.ltb_spec 24 (24 * f_off f + field_size f)); [|lia]. rewrite orb_true_r. reflexivity. Qed.
