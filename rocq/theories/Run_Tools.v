(** Proofs about a run of the program: the exit status, the log, the tables of a command, paths and sizes. *)
From Coq Require Import String Ascii.
From Verif Require Import Prelude Lists Text_Spec Codec_Model App_Model App_Spec App_Proofs Obj_Model Port_Model Lost_Spec Lost_Proofs Run_Model Run_Spec Run_Proofs Run_Steps.
Ltac Zify.zify_post_hook ::= idtac.

(** ** The exit status *)
Section status.
  Context {W : Type}.
  Variable act : opts -> command -> W -> W * list (list Z) * ending.
  Variable rest : bool -> list Z -> res (option W).
  Variable v : voice.
  Lemma run_error cwd cs file m code m' w : ~ has cs 0 -> answers_ok cs -> run act rest v cwd cs file m = Ok (code, m', w) ->
    m_error m' = m_error m /\ (w <> None -> code = 0) /\ (code <> 0 -> In code [-71; -81; -82]).
  Proof.
    intros H A. unfold run. destruct cs as [|c0 cs0] eqn:EC.
    { intros E. assert (E' : (0, m, @None W) = (code, m', w)) by congruence. injection E' as <- <- <-. repeat split; congruence. }
    rewrite <- EC in *. destruct (first_ok cwd cs m opts0 H A) as (o & E1 & _). rewrite E1. cbn [rbind]. destruct file as [|f0 f].
    { intros E. assert (E' : (-71, say (after cwd cs m) (v_nofile v), @None W) = (code, m', w)) by congruence. injection E' as <- <- <-. rewrite say_error, after_error. split; [reflexivity|]. split; [congruence|]. intros _. now left. }
    destruct (look _ _) as [x|].
    2:{ intros E. assert (E' : (-81, say (after cwd cs m) (v_absent v), @None W) = (code, m', w)) by congruence. injection E' as <- <- <-. rewrite say_error, after_error. split; [reflexivity|]. split; [congruence|]. intros _. right. now left. }
    destruct (open_base rest (negb (o_shared o)) x) as [b| | |]; try discriminate. cbn [rbind]. destruct b as [w0|].
    - pose proof (loop_error act v o cs w0 (say (after cwd cs m) (v_opened v))) as LE.
      destruct (fold_left (fun s c => step act v o c s) cs (w0, say (after cwd cs m) (v_opened v))) as [w1 m1]. cbn [snd] in LE.
      intros E. assert (E' : (0, m1, Some w1) = (code, m', w)) by congruence. injection E' as <- <- <-. rewrite LE, say_error, after_error. repeat split; congruence.
    - intros E. assert (E' : (-82, say (after cwd cs m) (v_closed v), @None W) = (code, m', w)) by congruence. injection E' as <- <- <-. rewrite say_error, after_error. split; [reflexivity|]. split; [congruence|]. intros _. right. right. now left.
  Qed.
  Lemma first_error cwd : forall cs m o m' o' h, first_pass cwd cs m o = Ok (m', o', h) -> m_error m' = m_error m.
  Proof.
    induction cs as [|c cs IH]; intros m o m' o' h; cbn [first_pass]; [congruence|].
    destruct (c_cmd c =? 0); [congruence|]. destruct (c_cmd c =? 1); [intros E; now apply IH in E|]. destruct (c_cmd c =? 14); [intros E; now apply IH in E|].
    destruct (c_cmd c =? 3); [apply IH|]. destruct (c_cmd c =? 5); [destruct (is_true_string (c_p1 c)); try discriminate; cbn [rbind]; apply IH|].
    destruct (c_cmd c =? 6); [destruct (is_true_string (c_p1 c)); try discriminate; cbn [rbind]; apply IH|]. apply IH.
  Qed.
  (** whatever the commands did: once the database is open the status is 0 *)
  Theorem status_zero fuel cwd args d code m w : main act rest v fuel cwd args d = Ok (code, m, Some w) -> code = 0.
  Proof.
    unfold main. destruct (parse_args fuel args) as [p| | |]; try discriminate. cbn [rbind]. set (m0 := says (mess0 d) (map (v_note v) (p_notes p))).
    assert (E0 : m_error m0 = false) by apply says_error. unfold run. destruct (p_cmds p) as [|c cs] eqn:EC; [cbn [rbind]; discriminate|]. rewrite <- EC.
    destruct (first_pass cwd (p_cmds p) m0 opts0) as [[[m1 o] h]| | |] eqn:FP; try discriminate. apply first_error in FP. cbn [rbind]. destruct h; [cbn [rbind]; discriminate|].
    destruct (p_file p); [cbn [rbind]; discriminate|]. destruct (look _ _) as [x|]; [|cbn [rbind]; discriminate].
    destruct (open_base rest (negb (o_shared o)) x) as [[w0|]| | |]; try discriminate. cbn [rbind].
    pose proof (loop_error act v o (p_cmds p) w0 (say m1 (v_opened v))) as LE. destruct (fold_left _ (p_cmds p) _) as [w1 m2]. cbn [snd] in LE. rewrite say_error in LE. cbn [rbind]. change (negb (0 =? 0)) with false. cbn iota.
    rewrite LE, FP, E0. congruence.
  Qed.
  (** a file that is not a database ends the program by an exception *)
  Theorem not_a_base fuel cwd args d p pf x : parse_args fuel args = Ok p -> p_cmds p <> [] -> ~ has (p_cmds p) 0 -> ~ has (p_cmds p) 14 -> answers_ok (p_cmds p) -> disk_ok d ->
    p_file p <> [] -> place cwd (p_file p) pf -> In (pf, x) d -> (forall b, x = Some b -> firstn 8 b <> codes "1CDBMSV8") -> main act rest v fuel cwd args d = Throw.
  Proof.
    intros EP NE H HL A OK NF P I N. unfold main. rewrite EP. cbn [rbind]. set (m0 := says (mess0 d) (map (v_note v) (p_notes p))).
    assert (F0 : m_fs m0 = d) by (unfold m0; now rewrite says_con).
    unfold run. destruct (p_cmds p) as [|c cs] eqn:EC; [congruence|]. rewrite <- EC in *. destruct (first_ok cwd (p_cmds p) m0 opts0 H A) as (o & E1 & _). rewrite E1. cbn [rbind].
    destruct (p_file p) as [|f0 f] eqn:EF; [congruence|]. rewrite <- EF in *. assert (EQ : full_path cwd (p_file p) = pf) by (symmetry; now apply place_full). rewrite EQ.
    destruct (after_plain cwd (p_cmds p) m0 HL) as (F1 & _). rewrite F1, F0. rewrite (proj2 (look_in d pf x OK) I). unfold open_base. destruct x as [b|]; [|reflexivity].
    rewrite beq_neq; [reflexivity|]. exact (N b eq_refl).
  Qed.
  Theorem status_file fuel cwd args d p : parse_args fuel args = Ok p -> p_cmds p <> [] -> ~ has (p_cmds p) 0 -> ~ has (p_cmds p) 14 -> answers_ok (p_cmds p) -> disk_ok d ->
    (p_file p = [] -> exists m, main act rest v fuel cwd args d = Ok (-71, m, None) /\ m_con m = map (v_note v) (p_notes p) ++ [v_nofile v] /\ m_fs m = d) /\
    (forall pf, p_file p <> [] -> place cwd (p_file p) pf -> absent d pf ->
       exists m, main act rest v fuel cwd args d = Ok (-81, m, None) /\ m_con m = map (v_note v) (p_notes p) ++ [v_absent v] /\ m_fs m = d).
  Proof.
    intros EP NE H HL A OK. unfold main. rewrite EP. cbn [rbind]. set (m0 := says (mess0 d) (map (v_note v) (p_notes p))).
    assert (F0 : m_fs m0 = d /\ m_con m0 = map (v_note v) (p_notes p) /\ m_log m0 = None) by (unfold m0; rewrite says_con by reflexivity; auto). destruct F0 as (F0 & C0 & L0).
    unfold run. destruct (p_cmds p) as [|c cs] eqn:EC; [congruence|]. rewrite <- EC in *. destruct (first_ok cwd (p_cmds p) m0 opts0 H A) as (o & E1 & _). rewrite E1. cbn [rbind].
    destruct (after_plain cwd (p_cmds p) m0 HL) as (F1 & F2 & F3).
    split.
    - intros EF. rewrite EF. cbn [rbind]. eexists. split; [reflexivity|]. unfold say. rewrite F3, L0. cbn [m_con m_fs]. rewrite F1, F2, C0. auto.
    - intros pf EF P AB. destruct (p_file p) as [|f0 f] eqn:EN; [congruence|]. rewrite <- EN in *. assert (EQ : full_path cwd (p_file p) = pf) by (symmetry; now apply place_full). rewrite EQ, F1, F0.
      rewrite (proj2 (look_none d pf) AB). cbn [rbind]. eexists. split; [reflexivity|]. unfold say. rewrite F3, L0. cbn [m_con m_fs]. rewrite F1, F2, C0. auto.
  Qed.

  (** ** A directory named as the log *)
  Lemma append_other d p t r y : r <> p -> (In (r, y) (append d p t) <-> In (r, y) d).
  Proof.
    intros N. unfold append. destruct (look d p) as [[z|]|].
    - rewrite in_map_iff. split.
      + intros ([a b] & E & Q). cbn [fst snd] in E. destruct (beqs a p) eqn:B; [|injection E as -> ->; exact Q]. apply beqs_spec in B. subst a. injection E as E _. congruence.
      + intros Q. exists (r, y). cbn [fst snd]. destruct (beqs r p) eqn:B; [apply beqs_spec in B; congruence|]. auto.
    - tauto.
    - destruct (look d (removelast p)) as [[z|]|]; [tauto| |tauto]. split; [intros [Q | Q]; [injection Q as Q _; congruence|exact Q]|now right].
  Qed.
  Lemma says_other p : forall ts m r y, m_log m = Some p -> r <> p -> (In (r, y) (m_fs (says m ts)) <-> In (r, y) (m_fs m)).
  Proof.
    induction ts as [|t ts IH]; intros m r y L N; [reflexivity|]. change (says m (t :: ts)) with (says (say m t) ts). rewrite IH; [|unfold say; now rewrite L|exact N].
    unfold say. rewrite L. cbn [m_fs]. now apply append_other.
  Qed.
  Lemma step_says o c w m : exists w' ts, step act v o c (w, m) = (w', says m ts).
  Proof.
    unfold step. destruct (is_action c); [|exists w, []; reflexivity]. cbn [fst snd]. destruct (act o c w) as [[w1 ts] e]. destruct e as [|t|].
    - exists w1, ts. reflexivity.
    - exists w1, (ts ++ [t]). now rewrite says_app.
    - exists w1, (ts ++ [v_error v]). now rewrite says_app.
  Qed.
  Lemma loop_says o : forall cs w m, exists w' ts, fold_left (fun s c => step act v o c s) cs (w, m) = (w', says m ts).
  Proof.
    induction cs as [|c cs IH]; intros w m; [exists w, []; reflexivity|]. cbn [fold_left]. destruct (step_says o c w m) as (w1 & ts & ->). destruct (IH w1 (says m ts)) as (w' & ts' & ->). exists w', (ts ++ ts'). now rewrite says_app.
  Qed.
  Lemma run_says cwd cs file m code m' w : cs <> [] -> ~ has cs 0 -> answers_ok cs -> run act rest v cwd cs file m = Ok (code, m', w) -> exists ts, m' = says (after cwd cs m) ts.
  Proof.
    intros NE H A. unfold run. destruct cs as [|c0 cs0] eqn:EC; [congruence|]. rewrite <- EC in *. destruct (first_ok cwd cs m opts0 H A) as (o & E1 & _). rewrite E1. cbn [rbind]. destruct file as [|f0 f].
    { intros E. assert (E' : say (after cwd cs m) (v_nofile v) = m') by congruence. exists [v_nofile v]. now subst. }
    destruct (look _ _) as [x|].
    2:{ intros E. assert (E' : say (after cwd cs m) (v_absent v) = m') by congruence. exists [v_absent v]. now subst. }
    destruct (open_base rest (negb (o_shared o)) x) as [b| | |]; try discriminate. cbn [rbind]. destruct b as [w0|].
    - destruct (loop_says o cs w0 (say (after cwd cs m) (v_opened v))) as (w1 & ts & LE). rewrite LE. intros E. assert (E' : says (say (after cwd cs m) (v_opened v)) ts = m') by congruence. exists (v_opened v :: ts). now subst.
    - intros E. assert (E' : say (after cwd cs m) (v_closed v) = m') by congruence. exists [v_closed v]. now subst.
  Qed.
  Theorem log_directory cwd a c r file m p x code m' w : let cs := a ++ c :: r in c_cmd c = 14 -> ~ has a 14 -> ~ has r 14 -> ~ has cs 0 -> answers_ok cs -> disk_ok (m_fs m) ->
    place cwd (c_p1 c) p -> In (p, x) (m_fs m) -> run act rest v cwd cs file m = Ok (code, m', w) -> forall q, within p q -> q <> p -> absent (m_fs m') q.
  Proof.
    intros cs EC NA NR H A OK PL I E q WI NQ y Q.
    assert (EP : full_path cwd (c_p1 c) = p) by (symmetry; now apply place_full).
    assert (NE : cs <> []) by (unfold cs; intros Z0; apply app_eq_nil in Z0; destruct Z0 as [_ Z0]; discriminate).
    destruct (run_says cwd cs file m code m' w NE H A E) as [ts ->].
    assert (M1 : m_fs (after cwd cs m) = m_fs (set_logfile cwd m (c_p1 c)) /\ m_log (after cwd cs m) = Some p).
    { unfold cs. rewrite after_app. destruct (after_plain cwd a m NA) as (F1 & F2 & F3). cbn [after fold_left]. fold (after cwd a m). change (fold_left (noted cwd) r) with (fun m => after cwd r m). cbn beta.
      destruct (after_plain cwd r (noted cwd (after cwd a m) c) NR) as (G1 & G2 & G3). rewrite G1, G3. unfold noted. rewrite EC. change (14 =? 1) with false. change (14 =? 14) with true. cbn iota.
      unfold set_logfile. cbn [m_fs m_log]. rewrite F1, EP. auto. }
    destruct M1 as (F & L). apply (says_other p) in Q; [|exact L|exact NQ]. rewrite F, set_fs, EP in Q. destruct Q as [_ Q]. apply Q. split; [exact WI|]. unfold file_exists. now rewrite (proj2 (look_in _ p x OK) I).
  Qed.
  (** -l at the end of the command line, without a name *)
  Lemma parse_l fuel file : file <> [] -> hd 0 file <> 45 -> last file 0 <> 34 -> parse_args (S fuel) [file; codes "-l"] = Ok (PD [CM 14 [] [] []] file [MissingParam [108]]).
  Proof.
    intros NE H L. unfold parse_args. cbn [List.length parse_loop]. destruct file as [|c k]; [congruence|]. cbn [hd] in H. destruct (Z.eqb_spec c 45); [congruence|].
    cbn [p_file p_cmds p_notes]. rewrite dequote_unquoted by assumption. reflexivity.
  Qed.
  Theorem log_missing fuel cwd file d : disk_ok d -> In (cwd, None) d -> file <> [] -> ~ In (hd 0 file) [45; 47] -> last file 0 <> 34 ->
    exists m, main act rest v (S fuel) cwd [file; codes "-l"] d = Ok (-81, m, None) /\ forall q, within cwd q -> q <> cwd -> absent (m_fs m) q.
  Proof.
    intros OK I NE H L. unfold main. rewrite parse_l by (try assumption; intros Q; apply H; now left). cbn [rbind p_notes p_cmds p_file map].
    set (m0 := says (mess0 d) [v_note v (MissingParam [108])]). assert (F0 : m_fs m0 = d) by reflexivity.
    set (cs := [CM 14 [] [] []]). assert (EX : exists m, run act rest v cwd cs file m0 = Ok (-81, m, None)).
    { unfold run, cs. cbn [first_pass c_cmd]. change (14 =? 0) with false. change (14 =? 1) with false. change (14 =? 14) with true. cbn iota. cbn [rbind c_p1]. destruct file as [|c0 f0] eqn:EF; [congruence|]. rewrite <- EF.
      assert (PF : exists t, full_path cwd file = cwd ++ t).
      { rewrite EF in *. unfold full_path. cbn [hd In] in H. exists (comps (c0 :: f0)). destruct c0 as [|c0|c0]; try reflexivity. do 6 (destruct c0 as [c0|c0|]; try reflexivity). exfalso. apply H. auto. }
      destruct PF as [t PF]. rewrite PF.
      assert (N : look (m_fs (set_logfile cwd m0 [])) (cwd ++ t) = None).
      { apply look_none. intros x Q. apply set_fs in Q. assert (FE : full_path cwd [] = cwd) by (unfold full_path; apply app_nil_r). rewrite FE in Q. destruct Q as [_ Q]. apply Q. split; [now exists t|]. unfold file_exists. rewrite F0. now rewrite (proj2 (look_in d cwd None OK) I). }
      rewrite N. eexists. reflexivity. }
    destruct EX as [m E]. rewrite E. cbn [rbind]. change (negb (-81 =? 0)) with true. cbn iota. exists m. split; [reflexivity|].
    apply (log_directory cwd [] (CM 14 [] [] []) [] file m0 cwd None (-81) m None); try assumption.
    - reflexivity.
    - intros (x & [] & _).
    - intros (x & [] & _).
    - intros (x & [<- | []] & Q). discriminate.
    - constructor; [|constructor]. cbn. intros [Q | Q]; discriminate.
    - exists []. split; [apply n_one; [easy|left; auto]|]. right. split; [discriminate|now rewrite app_nil_r].
  Qed.
End status.

(** ** The tables of a command *)
Section tables.
  Context {T W : Type}.
  Variable (sel : T -> bool) (deal : T -> W -> res (W * bool)) (ok : T -> list Z).
  Theorem tables_all : forall ts w w', dealt deal (filter sel ts) w w' -> each_table sel deal ok ts w = (w', map ok (filter sel ts), true).
  Proof.
    induction ts as [|t ts IH]; intros w w' D; cbn [each_table filter] in *; [inversion D; reflexivity|].
    destruct (sel t); [|now apply IH]. inversion D as [|? ? ? ? ? ? E D']; subst. rewrite E. now rewrite (IH _ _ D').
  Qed.
  Theorem tables_stop a t r w w1 : dealt deal (filter sel a) w w1 -> sel t = true -> deal t w1 = Throw -> each_table sel deal ok (a ++ t :: r) w = (w1, map ok (filter sel a), false).
  Proof.
    intros D S1 E. revert w D. induction a as [|x a IH]; intros w D.
    - inversion D; subst. cbn [app each_table filter map]. now rewrite S1, E.
    - cbn [app each_table filter] in *. destruct (sel x); [|now apply IH]. inversion D as [|? ? ? ? ? ? E2 D']; subst. rewrite E2. now rewrite (IH _ D').
  Qed.
End tables.
