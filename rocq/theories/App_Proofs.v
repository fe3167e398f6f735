(** Proofs about arguments and keys. *)
From Coq Require Import String Ascii.
From Verif Require Import Prelude Lists Text_Model Text_Spec Text_Proofs Codec_Model Codec_Proofs App_Model App_Spec.
Ltac Zify.zify_post_hook ::= idtac.

Lemma first_app {A} (a b : list A) : firstn (length a) (a ++ b) = a.
Proof. rewrite firstn_app, Nat.sub_diag, firstn_all. apply app_nil_r. Qed.

Lemma Forall2_len {A B} (P : A -> B -> Prop) a b : Forall2 P a b -> length a = length b.
Proof. induction 1; [reflexivity|]. cbn [length]. lia. Qed.

(** ** dequote *)
Lemma back_snoc s c : back (s ++ [c]) = Ok c.
Proof. unfold back. rewrite rev_app_distr. reflexivity. Qed.
Lemma back_last s : s <> [] -> back s = Ok (last s 0).
Proof. intros H. destruct (exists_last H) as (t & c & ->). rewrite back_snoc, last_last. reflexivity. Qed.

Lemma loop_done fuel n r : r <> [] -> last r 0 <> 34 -> dequote_loop (S fuel) n r = Ok r.
Proof. intros H1 H2. cbn [dequote_loop]. rewrite back_last by exact H1. cbn [rbind]. apply Z.eqb_neq in H2. unfold QUOTE. rewrite H2. reflexivity. Qed.
Lemma loop_stuck n r : (length r <= n - 1)%nat -> r <> [] -> last r 0 = 34 -> forall fuel, dequote_loop fuel n r = Hang.
Proof.
  intros HL HN HQ. induction fuel as [|k IH]; [reflexivity|]. cbn [dequote_loop]. rewrite back_last by exact HN. cbn [rbind]. rewrite HQ. change (34 =? QUOTE) with true.
  cbn iota. rewrite firstn_all2 by exact HL. exact IH.
Qed.

Lemma dequote_unquoted fuel s : s <> [] -> last s 0 <> 34 -> dequote (S fuel) s = Ok s.
Proof.
  intros HN HL. unfold dequote. destruct (Nat.ltb_spec (length s) 2); [reflexivity|]. rewrite back_last by exact HN. cbn [rbind].
  pose proof HL as HL'. apply Z.eqb_neq in HL'. unfold QUOTE at 2. rewrite HL', andb_false_r. apply loop_done; assumption.
Qed.
Lemma dequote_pair s : dequote_loop 0 0 s = Hang -> forall fuel, dequote fuel (34 :: s ++ [34]) = dequote_loop fuel (length s + 2) s.
Proof.
  intros _ fuel. unfold dequote. rewrite app_comm_cons. destruct (Nat.ltb_spec (length ((34 :: s) ++ [34])) 2) as [H|H]; [rewrite app_length in H; cbn [length] in H; lia|].
  rewrite back_snoc. cbn [rbind]. change (nth 0 ((34 :: s) ++ [34]) 0 =? QUOTE) with true. change (34 =? QUOTE) with true. cbn [andb].
  rewrite app_length. cbn [length app skipn]. replace (S (length s) + 1 - 2)%nat with (length s) by lia. rewrite first_app. f_equal. lia.
Qed.
Lemma dequote_tail fuel s c : c <> 34 -> dequote (S fuel) (c :: s ++ [34]) = dequote_loop fuel (length s + 2) (c :: s).
Proof.
  intros HC. unfold dequote. rewrite app_comm_cons. destruct (Nat.ltb_spec (length ((c :: s) ++ [34])) 2) as [H|H]; [rewrite app_length in H; cbn [length] in H; lia|].
  rewrite back_snoc. cbn [rbind]. replace (nth 0 ((c :: s) ++ [34]) 0 =? QUOTE) with false by (symmetry; apply Z.eqb_neq; exact HC). cbn [andb].
  cbn [dequote_loop]. rewrite back_snoc. cbn [rbind]. change (34 =? QUOTE) with true. cbn iota. rewrite app_length. cbn [length].
  replace (S (length s) + 1 - 1)%nat with (length (c :: s)) by (cbn [length]; lia). rewrite first_app. f_equal. lia.
Qed.

(** every argument falls into one of these cases *)
Lemma dequote_cases fuel s : (2 <= fuel)%nat ->
  match s with
  | [] => dequote fuel s = Ok []
  | [c] => dequote fuel s = Ok [c]
  | _ => last s 0 <> 34 /\ dequote fuel s = Ok s \/
         exists c t, s = c :: t ++ [34] /\
           (c = 34 /\ t = [] /\ dequote fuel s = UB \/
            c = 34 /\ t <> [] /\ last t 0 <> 34 /\ dequote fuel s = Ok t \/
            c <> 34 /\ last (c :: t) 0 <> 34 /\ dequote fuel s = Ok (c :: t) \/
            (t <> [] /\ last t 0 = 34) /\ forall k, dequote k s = Hang)
  end.
Proof.
  intros HF. destruct fuel as [|[|fuel]]; try lia. destruct s as [|c [|d u]]; [reflexivity|reflexivity|]. set (s := c :: d :: u).
  destruct (Z.eq_dec (last s 0) 34) as [HL|HL]; [right|left; split; [exact HL|apply dequote_unquoted; [discriminate|exact HL]]].
  assert (HT : exists t, d :: u = t ++ [34]).
  { assert (HN : d :: u <> []) by discriminate. destruct (exists_last HN) as (t & x & E). exists t. rewrite E. f_equal. f_equal. unfold s in HL. rewrite E in HL.
    change (c :: t ++ [x]) with ((c :: t) ++ [x]) in HL. rewrite last_last in HL. exact HL. }
  destruct HT as (t & HT). exists c, t. split; [unfold s; rewrite HT; reflexivity|]. unfold s. rewrite HT.
  destruct (list_eq_dec Z.eq_dec t []) as [E|NE].
  - subst t. destruct (Z.eq_dec c 34) as [E|N].
    + left. subst c. repeat split; reflexivity.
    + right; right; left. split; [exact N|]. split; [exact N|]. rewrite dequote_tail by exact N. apply loop_done; [discriminate|exact N].
  - destruct (Z.eq_dec (last t 0) 34) as [EQ|NQ].
    + right; right; right. split; [split; assumption|]. intros k. destruct (Z.eq_dec c 34) as [E|N].
      * subst c. rewrite dequote_pair by reflexivity. apply loop_stuck; [lia|exact NE|exact EQ].
      * destruct k as [|k]; [|rewrite dequote_tail by exact N; apply loop_stuck; [cbn [length]; lia|discriminate|destruct t; [congruence|exact EQ]]].
        unfold dequote. rewrite app_comm_cons. destruct (Nat.ltb_spec (length ((c :: t) ++ [34])) 2) as [H|H]; [rewrite app_length in H; cbn [length] in H; lia|].
        rewrite back_snoc. cbn [rbind]. reflexivity.
    + destruct (Z.eq_dec c 34) as [E|N].
      * right; left. subst c. repeat split; [exact NE|exact NQ|]. rewrite dequote_pair by reflexivity. apply loop_done; assumption.
      * right; right; left. split; [exact N|]. assert (HL' : last (c :: t) 0 <> 34) by (destruct t; [congruence|exact NQ]). split; [exact HL'|].
        rewrite dequote_tail by exact N. apply loop_done; [discriminate|exact HL'].
Qed.

Lemma dequote_spelled fuel a v : spelled a v -> dequote (S fuel) a = Ok v.
Proof.
  intros H. destruct H as [| |s H1 H2|s H1 H2]; [reflexivity|reflexivity|apply dequote_unquoted; assumption|]. rewrite dequote_pair by reflexivity. apply loop_done; assumption.
Qed.

(** ** Keys *)
Lemma codes_lower : Forall (fun e => let '(_, names, _) := e in Forall (fun n => map to_lower (codes n) = codes n /\ utf8_of (codes n) = codes n /\ ~ In 0 (codes n)) names) key_table.
Proof.
  unfold key_table. repeat (apply Forall_cons; [repeat (apply Forall_cons; [split; [vm_compute; reflexivity|split; [vm_compute; reflexivity|vm_compute; intuition discriminate]]|]); apply Forall_nil|]). apply Forall_nil.
Qed.
(** the definitions against the table, both ways *)
Definition flat_table : list (list Z * Z * nat) := flat_map (fun e => let '(c, names, n) := e in map (fun m => (codes m, c, n)) names) key_table.
Lemma defs_perm : forallb (fun d => existsb (fun e => let '(k, c, n) := e in eq_list k (d_key d) && (c =? d_cmd d) && Nat.eqb n (d_num d)) flat_table) definitions = true /\
  forallb (fun e => let '(k, c, n) := e in match find_def k definitions with Some d => (d_cmd d =? c) && Nat.eqb (d_num d) n | None => false end) flat_table = true.
Proof. split; vm_compute; reflexivity. Qed.

Lemma find_def_some p ds d : find_def p ds = Some d -> In d ds /\ d_key d = p.
Proof.
  induction ds as [|e ds IH]; cbn [find_def]; [discriminate|]. destruct (str_compare p (d_key e) =? 0) eqn:E; intros H.
  - injection H as <-. apply Z.eqb_eq, str_compare_0 in E. split; [left; reflexivity|congruence].
  - destruct (IH H). split; [right; assumption|assumption].
Qed.

Lemma in_flat cmd names n name : In (cmd, names, n) key_table -> In name names -> In (codes name, cmd, n) flat_table.
Proof. intros H1 H2. apply in_flat_map. exists (cmd, names, n). split; [exact H1|]. apply in_map_iff. exists name. split; [reflexivity|exact H2]. Qed.

Lemma lower_same cps ds : Forall2 same_letter cps ds -> map to_lower cps = map to_lower ds.
Proof. induction 1 as [|c d cps ds H _ IH]; [reflexivity|]. cbn [map]. f_equal; [apply to_lower_same; exact H|exact IH]. Qed.
Lemma same_nz cps ds : Forall2 same_letter cps ds -> ~ In 0 ds -> ~ In 0 cps.
Proof.
  induction 1 as [|c d cps ds H _ IH]; intros N; [exact N|]. intros [E|E].
  - subst c. apply N. left. apply to_lower_same in H. change (to_lower 0) with 0 in H. exact (proj1 (to_lower_0 d) (eq_sym H)).
  - apply IH; [intros E2; apply N; right; exact E2|exact E].
Qed.

Lemma key_found k cmd n : key_text k cmd n -> exists p d, lower_case k = Ok p /\ find_def p definitions = Some d /\ d_cmd d = cmd /\ d_num d = n.
Proof.
  intros (cps & names & name & -> & HS & HI & HN & HF). pose proof (proj1 (Forall_forall _ _) codes_lower _ HI) as HC. cbn beta iota in HC.
  destruct (proj1 (Forall_forall _ _) HC _ HN) as (C1 & C2 & C3). exists (codes name).
  assert (HL : lower_case (utf8_of cps) = Ok (codes name)).
  { rewrite lower_of by exact HS. rewrite before_nul_id by exact (same_nz _ _ HF C3). rewrite (lower_same _ _ HF), C1, C2. reflexivity. }
  pose proof (proj1 (forallb_forall _ _) (proj2 defs_perm) _ (in_flat _ _ _ _ HI HN)) as HD. cbn beta iota in HD.
  destruct (find_def (codes name) definitions) as [d|]; [|discriminate]. exists d. apply andb_prop in HD. destruct HD as (D1 & D2).
  split; [exact HL|]. split; [reflexivity|]. split; [apply Z.eqb_eq; exact D1|apply Nat.eqb_eq; exact D2].
Qed.

Lemma lower_text cps : Forall2 same_letter cps (map to_lower cps).
Proof. induction cps as [|c cps IH]; [constructor|]. constructor; [|exact IH]. apply to_lower_same. symmetry. apply to_lower_idem. Qed.

Lemma key_unknown cps : Forall scalar cps -> ~ In 0 cps -> (forall cmd n, ~ key_text (utf8_of cps) cmd n) ->
  lower_case (utf8_of cps) = Ok (utf8_of (map to_lower cps)) /\ find_def (utf8_of (map to_lower cps)) definitions = None.
Proof.
  intros HS HZ HK. split; [rewrite lower_of by exact HS; rewrite before_nul_id by exact HZ; reflexivity|].
  destruct (find_def (utf8_of (map to_lower cps)) definitions) as [d|] eqn:E; [exfalso|reflexivity].
  apply find_def_some in E. destruct E as (HI & HD). pose proof (proj1 (forallb_forall _ _) (proj1 defs_perm) _ HI) as HX. apply existsb_exists in HX.
  destruct HX as (((k & c) & n) & HK1 & HK2). apply andb_prop in HK2. destruct HK2 as (HK2 & _). apply andb_prop in HK2. destruct HK2 as (HK2 & _). apply eq_list_true in HK2.
  apply in_flat_map in HK1. destruct HK1 as (((c2 & names) & n2) & HT & HM). apply in_map_iff in HM. destruct HM as (name & HE & HN). injection HE as E1 E2 E3. subst c2 n2.
  apply (HK c n). exists cps, names, name. split; [reflexivity|]. split; [exact HS|]. split; [exact HT|]. split; [exact HN|].
  pose proof (proj1 (Forall_forall _ _) codes_lower _ HT) as HC. cbn beta iota in HC. destruct (proj1 (Forall_forall _ _) HC _ HN) as (C1 & C2 & C3).
  assert (EC : map to_lower cps = codes name).
  { apply utf8_of_inj; [apply Forall_map; eapply Forall_impl; [|exact HS]; intros; apply to_lower_scalar; assumption| |].
    - rewrite <- C1. apply Forall_map. apply Forall_forall. intros z Hz. unfold codes in Hz. apply in_map_iff in Hz. destruct Hz as (a & <- & _). apply to_lower_scalar. pose proof (N_ascii_bounded a). unfold scalar. lia.
    - rewrite C2, E1, HK2. symmetry. exact HD. }
  rewrite <- EC. apply lower_text.
Qed.

(** ** Yes or no *)
Lemma yes_utf8 : map utf8_of yes_words = [[49]; [121]; [121; 101; 115]; [208; 180]; [208; 180; 208; 176]]. Proof. reflexivity. Qed.
Lemma true_string cps : Forall scalar cps -> ~ In 0 cps -> exists b, is_true_string (utf8_of cps) = Ok b /\ (b = true <-> exists w, In w yes_words /\ Forall2 same_letter cps w).
Proof.
  intros HS HZ. unfold is_true_string. rewrite lower_of by exact HS. rewrite before_nul_id by exact HZ. cbn [rbind]. eexists. split; [reflexivity|].
  set (l := utf8_of (map to_lower cps)).
  transitivity (In l (map utf8_of yes_words)).
  - rewrite yes_utf8. rewrite !Bool.orb_true_iff, !Z.eqb_eq, !str_compare_0. cbn [In]. intuition congruence.
  - rewrite in_map_iff. split.
    + intros (w & E & HW). exists w. split; [exact HW|]. assert (EW : map to_lower cps = w).
      { apply utf8_of_inj; [apply Forall_map; eapply Forall_impl; [|exact HS]; intros; apply to_lower_scalar; assumption| |symmetry; exact E].
        unfold yes_words in HW. cbn [In] in HW. repeat (destruct HW as [HW|HW]; [subst w|]); try contradiction; repeat constructor; unfold scalar; lia. }
      rewrite <- EW. apply lower_text.
    + intros (w & HW & HF). exists w. split; [|exact HW]. unfold l. rewrite (lower_same _ _ HF). f_equal.
      unfold yes_words in HW. cbn [In] in HW. repeat (destruct HW as [HW|HW]; [subst w|]); try contradiction; reflexivity.
Qed.

(** ** Parameters *)
Definition params (c : command) : list (list Z) := [c_p1 c; c_p2 c; c_p3 c].
Lemma set_param_params l v c : (l < 3)%nat -> params (set_param l v c) = firstn l (params c) ++ v :: skipn (S l) (params c) /\ c_cmd (set_param l v c) = c_cmd c.
Proof. intros H. destruct l as [|[|[|l]]]; [split; reflexivity|split; reflexivity|split; reflexivity|lia]. Qed.

Lemma take_ok fuel key ps vs rest : Forall2 spelled ps vs -> forall l c, (l + length ps <= 3)%nat ->
  exists c', take_params (S fuel) key (length ps) l (ps ++ rest) c = Ok (c', rest, []) /\ c_cmd c' = c_cmd c /\ params c' = firstn l (params c) ++ vs ++ skipn (l + length ps) (params c).
Proof.
  induction 1 as [|a v ps vs HA _ IH]; intros l c HL.
  - exists c. cbn [length app take_params]. rewrite Nat.add_0_r, firstn_skipn. split; [reflexivity|]. split; reflexivity.
  - cbn [length] in HL. cbn [length app take_params]. rewrite (dequote_spelled fuel a v HA). cbn [rbind].
    destruct (set_param_params l v c ltac:(lia)) as (S1 & S2).
    destruct (IH (S l) (set_param l v c) ltac:(lia)) as (c' & E1 & E2 & E3). exists c'. split; [exact E1|]. split; [congruence|]. rewrite E3, S1.
    assert (LP : length (params c) = 3%nat) by reflexivity.
    assert (LF : length (firstn l (params c)) = l) by (rewrite firstn_length; lia).
    rewrite firstn_app, LF. replace (S l - l)%nat with 1%nat by lia. rewrite firstn_all2 by lia. cbn [firstn]. rewrite <- app_assoc. cbn [app]. f_equal. f_equal. f_equal.
    rewrite skipn_app, LF. rewrite skipn_all2 by lia. cbn [app]. replace (S l + length ps - l)%nat with (S (length ps)) by lia. rewrite skipn_cons, skipn_plus. f_equal. lia.
Qed.

Lemma take_none fuel key k : forall l c, exists m, take_params fuel key k l [] c = Ok (c, [], m) /\ length m = k /\ Forall (fun x => x = MissingParam key) m.
Proof.
  induction k as [|k IH]; intros l c; cbn [take_params]; [exists []; repeat split; constructor|].
  destruct (IH (S l) c) as (m & E1 & E2 & E3). rewrite E1. cbn [rbind]. exists (MissingParam key :: m). split; [reflexivity|]. split; [cbn [length]; lia|constructor; [reflexivity|exact E3]].
Qed.

Lemma take_missing fuel key ps vs : Forall2 spelled ps vs -> forall k l c, (l + length ps <= 3)%nat ->
  exists c' m, take_params (S fuel) key (length ps + k) l ps c = Ok (c', [], m) /\ length m = k /\ Forall (fun x => x = MissingParam key) m /\
    c_cmd c' = c_cmd c /\ params c' = firstn l (params c) ++ vs ++ skipn (l + length ps) (params c).
Proof.
  induction 1 as [|a v ps vs HA _ IH]; intros k l c HL.
  - cbn [length Nat.add]. destruct (take_none (S fuel) key k l c) as (m & E1 & E2 & E3). exists c, m. split; [exact E1|]. split; [exact E2|]. split; [exact E3|]. split; [reflexivity|].
    rewrite Nat.add_0_r. cbn [app]. rewrite firstn_skipn. reflexivity.
  - cbn [length] in HL. cbn [length Nat.add take_params]. rewrite (dequote_spelled fuel a v HA). cbn [rbind].
    destruct (set_param_params l v c ltac:(lia)) as (S1 & S2).
    destruct (IH k (S l) (set_param l v c) ltac:(lia)) as (c' & m & E1 & E2 & E3 & E4 & E5). exists c', m. split; [exact E1|]. split; [exact E2|]. split; [exact E3|]. split; [congruence|]. rewrite E5, S1.
    assert (LP : length (params c) = 3%nat) by reflexivity.
    assert (LF : length (firstn l (params c)) = l) by (rewrite firstn_length; lia).
    rewrite firstn_app, LF. replace (S l - l)%nat with 1%nat by lia. rewrite firstn_all2 by lia. cbn [firstn]. rewrite <- app_assoc. cbn [app]. f_equal. f_equal. f_equal.
    rewrite skipn_app, LF. rewrite skipn_all2 by lia. cbn [app]. replace (S l + length ps - l)%nat with (S (length ps)) by lia. rewrite skipn_cons, skipn_plus. f_equal. lia.
Qed.

Lemma def_num_le p d : find_def p definitions = Some d -> (d_num d <= 2)%nat /\ (d_pre d = [] /\ added (d_cmd d) = [] \/ d_num d = 1%nat /\ d_pre d <> [] /\ added (d_cmd d) = [d_pre d]).
Proof.
  intros H. apply find_def_some in H. destruct H as (H & _).
  assert (HA : Forall (fun d => (d_num d <= 2)%nat /\ (d_pre d = [] /\ added (d_cmd d) = [] \/ d_num d = 1%nat /\ d_pre d <> [] /\ added (d_cmd d) = [d_pre d])) definitions).
  { unfold definitions. repeat (apply Forall_cons; [split; [cbn [d_num]; lia|first [left; split; reflexivity|right; split; [reflexivity|split; [discriminate|reflexivity]]]]|]). apply Forall_nil. }
  exact (proj1 (Forall_forall _ _) HA _ H).
Qed.

(** what is left in the places of the command after the predefined parameter *)
Lemma pre_params p d cm vs : find_def p definitions = Some d -> length vs = d_num d -> params cm = firstn 3 (vs ++ repeat [] 3) ->
  let cm' := match d_pre d with [] => cm | v => set_param (d_num d) v cm end in c_cmd cm' = c_cmd cm /\ params cm' = firstn 3 (vs ++ added (d_cmd d) ++ repeat [] 3).
Proof.
  intros HD HV HP. cbv zeta. destruct (def_num_le p d HD) as (HL & [(E1 & E2)|(E1 & E2 & E3)]).
  - rewrite E1, E2. split; [reflexivity|exact HP].
  - rewrite E3. destruct (d_pre d) as [|z v]; [congruence|]. destruct (set_param_params (d_num d) (z :: v) cm ltac:(lia)) as (S1 & S2).
    split; [exact S2|]. rewrite S1, E1, HP. destruct vs as [|w [|x vs]]; cbn in HV; try lia. reflexivity.
Qed.

Definition matches (c : command) (e : Z * list (list Z)) : Prop := c_cmd c = fst e /\ params c = firstn 3 (snd e ++ added (fst e) ++ repeat [] 3).
Definition unknown (x : note) : bool := match x with UnknownKey _ => true | _ => false end.

Lemma parse_ok fuel args cs fs us : args_of args cs fs us -> forall n s, (length args <= n)%nat ->
  exists p, parse_loop (S fuel) n args s = Ok p /\
    (exists new, p_cmds p = p_cmds s ++ new /\ Forall2 matches new cs) /\
    p_file p = match p_file s with [] => hd [] fs | f => f end /\
    (exists notes, p_notes p = p_notes s ++ notes /\ length (filter unknown notes) = length us).
Proof.
  induction 1 as [|k cmd n0 ps vs rest cs fs us HK HN HP _ IH|k cmd n0 ps vs HK HN HP|cps rest cs fs us HS HZ HK _ IH|a f rest cs fs us HA HH HSP _ IH]; intros n s HL.
  - exists s. destruct n; cbn [parse_loop]; (split; [reflexivity|]); (split; [exists []; rewrite app_nil_r; split; [reflexivity|constructor]|]);
      (split; [destruct (p_file s); reflexivity|]); exists []; rewrite app_nil_r; split; reflexivity.
  - destruct n as [|n]; [cbn [length] in HL; lia|]. cbn [length] in HL. rewrite app_length in HL.
    destruct (key_found k cmd n0 HK) as (p & d & E1 & E2 & E3 & E4). destruct (def_num_le p d E2) as (D1 & _).
    cbn [parse_loop]. change (45 =? 45) with true. cbn iota. rewrite E1. cbn [rbind]. rewrite E2.
    replace (d_num d) with (length ps) by congruence.
    destruct (take_ok fuel p ps vs rest HP 0 (CM (d_cmd d) [] [] []) ltac:(rewrite HN, <- E4; lia)) as (c' & T1 & T2 & T3). rewrite T1. cbn [rbind].
    assert (LV : length vs = length ps) by (symmetry; exact (Forall2_len _ _ _ HP)).
    destruct (pre_params p d c' vs E2 ltac:(congruence)) as (P1 & P2).
    { rewrite T3. cbn [firstn app]. unfold params. cbn [c_p1 c_p2 c_p3]. assert (HH : (length vs <= 2)%nat) by lia. rewrite <- LV. clear - HH. destruct vs as [|w [|x [|y vs]]]; cbn in HH; try lia; reflexivity. }
    replace (length ps) with (d_num d) by congruence.
    destruct (IH n (PD (p_cmds s ++ [match d_pre d with [] => c' | v => set_param (d_num d) v c' end]) (p_file s) (p_notes s ++ [])) ltac:(lia)) as (q & Q1 & (new & Q2 & Q3) & Q4 & (notes & Q5 & Q6)).
    exists q. split; [exact Q1|]. split.
    { exists ((match d_pre d with [] => c' | v => set_param (d_num d) v c' end) :: new). split; [rewrite Q2; cbn [p_cmds]; rewrite <- app_assoc; reflexivity|].
      constructor; [|exact Q3]. split; [cbn [fst]; rewrite P1, T2; exact E3|cbn [fst snd]; rewrite <- E3; exact P2]. }
    split; [exact Q4|]. exists notes. split; [rewrite Q5; cbn [p_notes]; rewrite app_nil_r; reflexivity|exact Q6].
  - destruct n as [|n]; [cbn [length] in HL; lia|].
    destruct (key_found k cmd n0 HK) as (p & d & E1 & E2 & E3 & E4). destruct (def_num_le p d E2) as (D1 & _).
    cbn [parse_loop]. change (45 =? 45) with true. cbn iota. rewrite E1. cbn [rbind]. rewrite E2.
    assert (EN : d_num d = (length ps + (n0 - length ps))%nat) by lia.
    destruct (take_missing fuel p ps vs HP (n0 - length ps) 0 (CM (d_cmd d) [] [] []) ltac:(lia)) as (c' & m & T1 & T0 & T00 & T2 & T3). rewrite <- EN in T1. rewrite T1. cbn [rbind].
    assert (LV : length vs = length ps) by (symmetry; exact (Forall2_len _ _ _ HP)).
    set (ws := vs ++ repeat [] (n0 - length ps)).
    assert (LW : length ws = n0) by (unfold ws; rewrite app_length, repeat_length; lia).
    destruct (pre_params p d c' ws E2 ltac:(congruence)) as (P1 & P2).
    { rewrite T3. cbn [firstn app Nat.add]. unfold params. cbn [c_p1 c_p2 c_p3]. unfold ws. assert (HH : (n0 <= 2)%nat) by lia. rewrite <- LV in HN |- *. clear - HN HH.
      destruct vs as [|w [|x [|y vs]]]; cbn [length] in HN |- *; destruct n0 as [|[|[|n0]]]; try lia; reflexivity. }
    exists (PD (p_cmds s ++ [match d_pre d with [] => c' | v => set_param (d_num d) v c' end]) (p_file s) (p_notes s ++ m)).
    split; [destruct n; reflexivity|]. cbn [p_cmds p_file p_notes]. split.
    { exists [match d_pre d with [] => c' | v => set_param (d_num d) v c' end]. split; [reflexivity|]. constructor; [|constructor]. split; [cbn [fst]; rewrite P1, T2; exact E3|cbn [fst snd]; rewrite <- E3; exact P2]. }
    split; [destruct (p_file s); reflexivity|]. exists m. split; [reflexivity|]. clear - T00. induction T00 as [|x m -> _ IH]; [reflexivity|exact IH].
  - destruct n as [|n]; [cbn [length] in HL; lia|]. cbn [length] in HL. destruct (key_unknown cps HS HZ HK) as (E1 & E2).
    cbn [parse_loop]. change (45 =? 45) with true. cbn iota. rewrite E1. cbn [rbind]. rewrite E2.
    destruct (IH n (PD (p_cmds s) (p_file s) (p_notes s ++ [UnknownKey (utf8_of (map to_lower cps))])) ltac:(lia)) as (q & Q1 & (new & Q2 & Q3) & Q4 & (notes & Q5 & Q6)).
    exists q. split; [exact Q1|]. split; [exists new; split; [exact Q2|exact Q3]|]. split; [exact Q4|]. exists (UnknownKey (utf8_of (map to_lower cps)) :: notes). split; [rewrite Q5; cbn [p_notes]; rewrite <- app_assoc; reflexivity|].
    cbn [filter unknown length]. rewrite Q6. reflexivity.
  - destruct n as [|n]; [cbn [length] in HL; lia|]. cbn [length] in HL. destruct a as [|c a]; [congruence|]. cbn [hd] in HH. cbn [parse_loop].
    replace (c =? 45) with false by (symmetry; apply Z.eqb_neq; exact HH).
    assert (HF : f <> []) by (intros ->; inversion HSP; congruence).
    destruct (p_file s) as [|z g] eqn:EF.
    + rewrite (dequote_spelled fuel _ _ HSP). cbn [rbind].
      destruct (IH n (PD (p_cmds s) f (p_notes s)) ltac:(lia)) as (q & Q1 & (new & Q2 & Q3) & Q4 & (notes & Q5 & Q6)).
      exists q. split; [exact Q1|]. split; [exists new; split; [exact Q2|exact Q3]|]. split; [rewrite Q4; cbn [p_file hd]; destruct f; [congruence|reflexivity]|]. exists notes. split; [exact Q5|exact Q6].
    + destruct (IH n (PD (p_cmds s) (z :: g) (p_notes s ++ [SecondFile (c :: a)])) ltac:(lia)) as (q & Q1 & (new & Q2 & Q3) & Q4 & (notes & Q5 & Q6)).
      exists q. split; [exact Q1|]. split; [exists new; split; [exact Q2|exact Q3]|]. split; [exact Q4|]. exists (SecondFile (c :: a) :: notes). split; [rewrite Q5; cbn [p_notes]; rewrite <- app_assoc; reflexivity|exact Q6].
Qed.

Theorem parse_args_ok fuel args cs fs us : args_of args cs fs us ->
  exists p, parse_args (S fuel) args = Ok p /\ Forall2 matches (p_cmds p) cs /\ p_file p = hd [] fs /\ length (filter unknown (p_notes p)) = length us.
Proof.
  intros H. destruct (parse_ok fuel args cs fs us H (length args) (PD [] [] []) ltac:(lia)) as (p & E1 & (new & E2 & E3) & E4 & (notes & E5 & E6)).
  exists p. split; [exact E1|]. cbn [p_cmds p_notes p_file app] in *. rewrite E2, E5. split; [exact E3|]. split; [exact E4|exact E6].
Qed.

(** ** The refuted side *)
Lemma parse_hang t : (2 <= length t)%nat -> last t 0 = 34 -> hd 0 t <> 45 -> forall fuel rest, parse_args fuel ((t ++ [34]) :: rest) = Hang.
Proof.
  intros HN HL HH fuel rest. unfold parse_args. cbn [length parse_loop]. destruct t as [|c t]; [cbn [length] in HN; lia|]. cbn [app hd length] in *.
  replace (c =? 45) with false by (symmetry; apply Z.eqb_neq; exact HH). cbn [p_file].
  assert (HT : t <> []) by (intros ->; cbn [length] in HN; lia).
  assert (E : dequote fuel (c :: t ++ [34]) = Hang).
  { pose proof (dequote_cases 2 (c :: t ++ [34]) ltac:(lia)) as H. destruct (t ++ [34]) as [|d u] eqn:E; [destruct t; discriminate|].
    destruct H as [(H & _)|(c2 & t2 & E2 & H)].
    - exfalso. apply H. rewrite <- E. change (last ((c :: t) ++ [34]) 0 = 34). apply last_last.
    - rewrite <- E in E2. injection E2 as E3 E4. apply app_inj_tail in E4. destruct E4 as (E4 & _). subst c2 t2.
      destruct H as [(H1 & H2 & _)|[(H1 & H2 & H3 & _)|[(_ & H & _)|(_ & H)]]].
      + congruence.
      + exfalso. apply H3. destruct t; [congruence|exact HL].
      + contradiction.
      + apply H. }
  rewrite E. reflexivity.
Qed.
