(** Proofs about a run of the program: the commands, the log, the exit status, paths and sizes. *)
From Coq Require Import String Ascii.
From Verif Require Import Prelude Lists Text_Spec Codec_Model App_Model App_Spec App_Proofs Obj_Model Port_Model Lost_Spec Lost_Proofs Run_Model Run_Spec Run_Proofs.
Ltac Zify.zify_post_hook ::= idtac.

(** ** What the first pass does to the files *)
Lemma after_app cwd a b m : after cwd (a ++ b) m = after cwd b (after cwd a m).
Proof. apply fold_left_app. Qed.
Lemma after_plain cwd : forall cs m, ~ has cs 14 -> m_fs (after cwd cs m) = m_fs m /\ m_con (after cwd cs m) = m_con m /\ m_log (after cwd cs m) = m_log m.
Proof.
  induction cs as [|c cs IH]; intros m H; [auto|]. rewrite has_cons in H. cbn [after fold_left]. change (fold_left (noted cwd) cs (noted cwd m c)) with (after cwd cs (noted cwd m c)).
  destruct (IH (noted cwd m c)) as (A & B & C); [tauto|]. rewrite A, B, C. unfold noted. destruct (c_cmd c =? 1); [auto|]. destruct (Z.eqb_spec (c_cmd c) 14); [tauto|auto].
Qed.
Lemma after_con cwd : forall cs m, m_con (after cwd cs m) = m_con m.
Proof.
  induction cs as [|c cs IH]; intros m; [reflexivity|]. cbn [after fold_left]. change (fold_left (noted cwd) cs (noted cwd m c)) with (after cwd cs (noted cwd m c)).
  rewrite IH. unfold noted, set_logfile. destruct (c_cmd c =? 1); [reflexivity|]. now destruct (c_cmd c =? 14).
Qed.
Lemma after_error cwd : forall cs m, m_error (after cwd cs m) = m_error m.
Proof.
  induction cs as [|c cs IH]; intros m; [reflexivity|]. cbn [after fold_left]. change (fold_left (noted cwd) cs (noted cwd m c)) with (after cwd cs (noted cwd m c)).
  rewrite IH. unfold noted, set_logfile. destruct (c_cmd c =? 1); [reflexivity|]. now destruct (c_cmd c =? 14).
Qed.
Lemma set_fs cwd m s q x : In (q, x) (m_fs (set_logfile cwd m s)) <-> In (q, x) (m_fs m) /\ ~ (within (full_path cwd s) q /\ file_exists (m_fs m) (full_path cwd s) = true).
Proof.
  unfold set_logfile. cbn [m_fs]. destruct (file_exists (m_fs m) (full_path cwd s)); [rewrite rem_in; tauto|]. split; [intros H; split; [exact H|]; intros [_ Q]; discriminate|tauto].
Qed.
Lemma after_keeps cwd : forall cs m q x, (forall c p, In c cs -> c_cmd c = 14 -> place cwd (c_p1 c) p -> ~ within p q) -> In (q, x) (m_fs m) -> In (q, x) (m_fs (after cwd cs m)).
Proof.
  induction cs as [|c cs IH]; intros m q x H I; [exact I|]. cbn [after fold_left]. change (fold_left (noted cwd) cs (noted cwd m c)) with (after cwd cs (noted cwd m c)).
  apply IH; [intros d p D; apply H; now right|]. unfold noted. destruct (c_cmd c =? 1); [exact I|]. destruct (Z.eqb_spec (c_cmd c) 14) as [E | _]; [|exact I].
  apply set_fs. split; [exact I|]. intros [Q _]. revert Q. apply (H c); [now left|exact E|now apply place_full].
Qed.
Lemma noted_ok cwd m c : disk_ok (m_fs m) -> disk_ok (m_fs (noted cwd m c)).
Proof. intros H. unfold noted, set_logfile. destruct (c_cmd c =? 1); [exact H|]. destruct (c_cmd c =? 14); [|exact H]. cbn [m_fs]. destruct (file_exists _ _); [now apply rem_ok|exact H]. Qed.
Lemma after_ok cwd : forall cs m, disk_ok (m_fs m) -> disk_ok (m_fs (after cwd cs m)).
Proof. induction cs as [|c cs IH]; intros m H; [exact H|]. cbn [after fold_left]. apply IH. now apply noted_ok. Qed.

(** ** The second loop *)
Lemma action_spec c : 0 <= c_cmd c <= 18 -> is_action c = negb (setter (c_cmd c)).
Proof.
  intros H. unfold is_action, setter. generalize dependent (c_cmd c). intros k H.
  assert (C : In k [0; 1; 2; 3; 4; 5; 6; 7; 8; 9; 10; 11; 12; 13; 14; 15; 16; 17; 18]) by (cbn [In]; lia).
  cbn [In] in C. repeat (destruct C as [<- | C]; [reflexivity|]). contradiction.
Qed.
Section loop.
  Context {W : Type}.
  Variable act : opts -> command -> W -> W * list (list Z) * ending.
  Variable v : voice.
  Lemma loop_ok o : forall cs w m, known cs -> exists ms w', fold_left (fun s c => step act v o c s) cs (w, m) = (w', says m ms) /\ carried act (v_error v) o (actions cs) w ms w'.
  Proof.
    induction cs as [|c cs IH]; intros w m K.
    - exists [], w. split; [reflexivity|constructor].
    - inversion K as [|? ? K1 K2]; subst. cbn [fold_left actions filter]. unfold step at 2. rewrite (action_spec c K1). destruct (setter (c_cmd c)); cbn [negb].
      + destruct (IH w m K2) as (ms & w' & E & C). exists ms, w'. auto.
      + cbn [fst snd]. destruct (act o c w) as [[w1 ts] e] eqn:A.
        destruct (IH w1 (says m (ts ++ reported (v_error v) e)) K2) as (ms & w' & E & C).
        exists (ts ++ reported (v_error v) e ++ ms), w'. split.
        * rewrite !says_app in *. rewrite <- E. f_equal. f_equal. now destruct e.
        * eapply ca_cons; [exact A|exact C].
  Qed.
  Lemma loop_error o : forall cs w m, m_error (snd (fold_left (fun s c => step act v o c s) cs (w, m))) = m_error m.
  Proof.
    assert (S1 : forall m t, m_error (say m t) = m_error m) by (intros m t; unfold say; now destruct (m_log m)).
    assert (S2 : forall ts m, m_error (says m ts) = m_error m) by (induction ts as [|t ts IH]; intros m; [reflexivity|]; cbn [says fold_left]; change (fold_left say ts (say m t)) with (says (say m t) ts); now rewrite IH, S1).
    induction cs as [|c cs IH]; intros w m; [reflexivity|]. cbn [fold_left]. unfold step at 2. destruct (is_action c); [|apply IH]. cbn [fst snd]. destruct (act o c w) as [[w1 ts] e]. rewrite IH. destruct e; rewrite ?S1, S2; reflexivity.
  Qed.
End loop.
Lemma say_error m t : m_error (say m t) = m_error m.
Proof. unfold say. now destruct (m_log m). Qed.
Lemma says_error ts : forall m, m_error (says m ts) = m_error m.
Proof. induction ts as [|t ts IH]; intros m; [reflexivity|]. cbn [says fold_left]. change (fold_left say ts (say m t)) with (says (say m t) ts). now rewrite IH, say_error. Qed.

(** ** A run with an opened database *)
Section opened.
  Context {W : Type}.
  Variable act : opts -> command -> W -> W * list (list Z) * ending.
  Variable rest : bool -> list Z -> res (option W).
  Variable v : voice.
  Lemma opened cwd cs file m pf b w : cs <> [] -> ~ has cs 0 -> answers_ok cs -> known cs -> disk_ok (m_fs m) ->
    file <> [] -> place cwd file pf -> In (pf, Some b) (m_fs m) -> (forall c p, In c cs -> c_cmd c = 14 -> place cwd (c_p1 c) p -> ~ within p pf) -> opens rest cs b w ->
    exists o ms w', run act rest v cwd cs file m = Ok (0, says (after cwd cs m) (v_opened v :: ms), Some w') /\ settings cs o /\ carried act (v_error v) o (actions cs) w ms w'.
  Proof.
    intros NE H A K OK NF P I L [SG OP]. destruct (first_ok cwd cs m opts0 H A) as (o & E & S1 & S2 & S3).
    assert (SH : o_shared o = true <-> has cs 3). { rewrite S1. cbn [opts0 o_shared]. split; [intros [Q | Q]; [discriminate|exact Q]|auto]. }
    destruct (loop_ok act v o cs w (say (after cwd cs m) (v_opened v)) K) as (ms & w' & LE & C).
    exists o, ms, w'. split; [|split; [split; [exact SH|split; [exact S2|exact S3]]|exact C]].
    unfold run. destruct cs as [|c0 cs0] eqn:EC; [congruence|]. rewrite <- EC in *. rewrite E. cbn [rbind]. destruct file as [|f0 file0] eqn:EF; [congruence|]. rewrite <- EF in *.
    assert (EP : full_path cwd file = pf) by (symmetry; now apply place_full). rewrite EP.
    assert (I' : In (pf, Some b) (m_fs (after cwd cs m))) by now apply after_keeps.
    rewrite (proj2 (look_in _ pf (Some b) (after_ok cwd cs m OK)) I'). cbn [open_base rbind]. rewrite SG. change (bytes_eqb (codes "1CDBMSV8") SIG_CON) with true. cbn iota.
    rewrite (OP (o_shared o) SH). cbn [rbind]. rewrite LE. reflexivity.
  Qed.
  (** without a log everything goes to the console *)
  Theorem run_console cwd cs file m pf b w : cs <> [] -> ~ has cs 0 -> ~ has cs 14 -> answers_ok cs -> known cs -> disk_ok (m_fs m) -> m_log m = None ->
    file <> [] -> place cwd file pf -> In (pf, Some b) (m_fs m) -> opens rest cs b w ->
    exists o ms m' w', run act rest v cwd cs file m = Ok (0, m', Some w') /\ settings cs o /\ carried act (v_error v) o (actions cs) w ms w' /\
      m_con m' = m_con m ++ v_opened v :: ms /\ m_fs m' = m_fs m.
  Proof.
    intros NE H HL A K OK L NF P I OP. destruct (opened cwd cs file m pf b w NE H A K OK NF P I) as (o & ms & w' & E & S1 & C).
    { intros c p Q E. exfalso. apply HL. now exists c. }
    { exact OP. }
    exists o, ms, (says (after cwd cs m) (v_opened v :: ms)), w'. split; [exact E|]. split; [exact S1|]. split; [exact C|].
    destruct (after_plain cwd cs m HL) as (F1 & F2 & F3). rewrite says_con by congruence. cbn [m_con m_fs]. rewrite F1, F2. auto.
  Qed.
  (** with one log everything goes there *)
  Theorem run_log cwd a c r file m q n pf b w : let cs := a ++ c :: r in let p := q ++ [n] in
    c_cmd c = 14 -> ~ has a 14 -> ~ has r 14 -> ~ has cs 0 -> answers_ok cs -> known cs -> disk_ok (m_fs m) ->
    place cwd (c_p1 c) p -> In (q, None) (m_fs m) -> (forall t, t <> [] -> absent (m_fs m) (p ++ t)) -> ~ In (p, None) (m_fs m) ->
    file <> [] -> place cwd file pf -> pf <> p -> In (pf, Some b) (m_fs m) -> opens rest cs b w ->
    exists o ms m' w', run act rest v cwd cs file m = Ok (0, m', Some w') /\ settings cs o /\ carried act (v_error v) o (actions cs) w ms w' /\
      m_con m' = m_con m /\ In (p, Some (concat (v_opened v :: ms))) (m_fs m') /\ (forall s x, s <> p -> (In (s, x) (m_fs m') <-> In (s, x) (m_fs m))).
  Proof.
    intros cs p EC NA NR H A K OK PL IQ LF ND NF P NP I OP.
    assert (EP : full_path cwd (c_p1 c) = p) by (symmetry; now apply place_full).
    destruct (opened cwd cs file m pf b w) as (o & ms & w' & E & S1 & C); try assumption.
    { unfold cs. intros Q. apply app_eq_nil in Q. destruct Q as [_ Q]. discriminate. }
    { intros d pd D ED PD [t W1]. apply in_app_or in D. destruct D as [D | [D | D]].
      - apply NA. now exists d.
      - subst d. assert (pd = p) by (apply place_full in PD; congruence). subst pd. subst pf. destruct t as [|t0 t]; [now rewrite app_nil_r in NP|]. now apply (LF (t0 :: t) ltac:(discriminate) (Some b)).
      - apply NR. now exists d. }
    set (m1 := after cwd cs m). assert (M1 : m_fs m1 = m_fs (set_logfile cwd m (c_p1 c)) /\ m_con m1 = m_con m /\ m_log m1 = Some p).
    { unfold m1, cs. rewrite after_app. destruct (after_plain cwd a m NA) as (F1 & F2 & F3). cbn [after fold_left]. fold (after cwd a m). change (fold_left (noted cwd) r) with (fun m => after cwd r m). cbn beta.
      destruct (after_plain cwd r (noted cwd (after cwd a m) c) NR) as (G1 & G2 & G3). rewrite G1, G2, G3. unfold noted. rewrite EC. change (14 =? 1) with false. change (14 =? 14) with true. cbn iota.
      unfold set_logfile. cbn [m_fs m_con m_log]. rewrite F1, F2, EP. auto. }
    destruct M1 as (F & FC & FL).
    assert (IN : forall s x, s <> p -> (In (s, x) (m_fs m1) <-> In (s, x) (m_fs m))).
    { intros s x N. rewrite F, set_fs, EP. split; [tauto|]. intros Q. split; [exact Q|]. intros [[t W1] _]. destruct t as [|t0 t]; [rewrite app_nil_r in W1; congruence|]. subst s. now apply (LF (t0 :: t) ltac:(discriminate) x). }
    assert (AB : absent (m_fs m1) p).
    { intros x Q. rewrite F, set_fs, EP in Q. destruct Q as [Q N]. apply N. split; [exists []; now rewrite app_nil_r|]. unfold file_exists. destruct x as [x|]; [|contradiction].
      now rewrite (proj2 (look_in _ p (Some x) OK) Q). }
    assert (NQ : q <> p) by (unfold p; intros Q; apply (f_equal (@List.length _)) in Q; rewrite app_length in Q; cbn [List.length] in Q; lia).
    destruct (says_log q n (v_opened v :: ms) m1 []) as (T1 & T2 & T3); [exact FL|apply after_ok; exact OK|apply IN; [exact NQ|exact IQ]|right; auto|].
    exists o, ms, (says m1 (v_opened v :: ms)), w'. split; [exact E|]. split; [exact S1|]. split; [exact C|]. split; [congruence|]. split.
    - apply T2. right. discriminate.
    - intros s x N. rewrite T3 by exact N. now apply IN.
  Qed.
End opened.
