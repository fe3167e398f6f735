(** Proofs about the paths of saved configurations and about the report of table sizes. *)
From Coq Require Import String Ascii.
From Verif Require Import Prelude Lists Text_Spec Codec_Model App_Model App_Spec App_Proofs Obj_Model Port_Model Lost_Spec Lost_Proofs Run_Model Run_Spec Run_Proofs.
Ltac Zify.zify_post_hook ::= idtac.

(** ** The last name and its extension *)
Lemma names_nonempty s : forall cur, names s cur <> [].
Proof. induction s as [|c s IH]; intros cur; cbn [names]; [discriminate|]. destruct (c =? 47); [discriminate|apply IH]. Qed.
Lemma last_cons {A} (x : A) l d : l <> [] -> last (x :: l) d = last l d.
Proof. now destruct l. Qed.
Lemma last_any {A} (l : list A) : l <> [] -> forall d e, last l d = last l e.
Proof. induction l as [|x l IH]; intros N d e; [congruence|]. destruct l; [reflexivity|]. rewrite !last_cons by discriminate. apply IH. discriminate. Qed.
Lemma names_last a n : ~ In 47 n -> (a = [] \/ last a 0 = 47) -> last (names (a ++ n) []) [] = n.
Proof.
  intros N H. assert (G : forall a cur, (a = [] \/ last a 0 = 47) -> last (names (a ++ n) cur) [] = if match a with [] => true | _ => false end then cur ++ n else n).
  { clear a H. induction a as [|c a IH]; intros cur H.
    - cbn [app]. now rewrite names_end by exact N.
    - cbn [app names]. assert (H' : a = [] /\ c = 47 \/ last a 0 = 47 /\ a <> []). { destruct H as [H | H]; [discriminate|]. destruct a as [|d a]; [left; auto|right; split; [exact H|discriminate]]. }
      destruct (c =? 47) eqn:E.
      + rewrite last_cons by apply names_nonempty. rewrite IH by tauto. now destruct a.
      + destruct H' as [[_ ->] | [H1 H2]]; [discriminate|]. rewrite IH by auto. now destruct a. }
  rewrite G by exact H. now destruct a.
Qed.
Lemma split_last s : exists a n, s = a ++ n /\ ~ In 47 n /\ (a = [] \/ last a 0 = 47).
Proof.
  induction s as [|c s (a & n & -> & N & H)] using rev_ind; [exists [], []; auto|]. destruct (Z.eq_dec c 47) as [-> | NC].
  - exists ((a ++ n) ++ [47]), []. rewrite app_nil_r. split; [reflexivity|]. split; [easy|]. right. apply last_last.
  - exists a, (n ++ [c]). rewrite app_assoc. split; [reflexivity|]. split; [|exact H]. intros Q. apply in_app_or in Q. destruct Q as [Q | [Q | []]]; congruence || contradiction.
Qed.
Lemma last_dot_none t : forall cur, ~ In 46 t -> last_dot t cur = cur.
Proof. induction t as [|c t IH]; intros cur H; [reflexivity|]. cbn [last_dot]. destruct (Z.eqb_spec c 46) as [-> | _]; [exfalso; apply H; now left|]. apply IH. intros Q. apply H. now right. Qed.
Lemma last_dot_some b t : forall cur, ~ In 46 t -> last_dot (b ++ 46 :: t) cur = 46 :: t.
Proof.
  induction b as [|c b IH]; intros cur H; cbn [app last_dot]; [change (46 =? 46) with true; cbn iota; now apply last_dot_none|]. now apply IH.
Qed.
Lemma dot_split n : ~ In 46 n \/ exists b t, n = b ++ 46 :: t /\ ~ In 46 t.
Proof.
  induction n as [|c n IH] using rev_ind; [left; easy|]. destruct (Z.eq_dec c 46) as [-> | N]; [right; exists n, []; auto|].
  destruct IH as [H | (b & t & -> & H)].
  - left. intros Q. apply in_app_or in Q. destruct Q as [Q | [Q | []]]; congruence || contradiction.
  - right. exists b, (t ++ [c]). split; [now rewrite <- app_assoc|]. intros Q. apply in_app_or in Q. destruct Q as [Q | [Q | []]]; congruence || contradiction.
Qed.
Lemma lower1_inv c d : lower1 c = d -> 97 <= d <= 122 -> c = d \/ c = d - 32.
Proof. unfold lower1. intros E H. destruct ((65 <=? c) && (c <=? 90)) eqn:B; lia. Qed.
Lemma is_cf_spec s : is_cf s = true <-> cf_name s.
Proof.
  unfold is_cf, cf_name, extension. split.
  - destruct (split_last s) as (a & n & -> & N & H). rewrite names_last by assumption. destruct (bytes_eqb n [46] || bytes_eqb n [46; 46]); [discriminate|].
    rewrite beq_spec. destruct (dot_split n) as [D | (b & t & -> & D)]; [rewrite last_dot_none by exact D; discriminate|]. rewrite last_dot_some by exact D. intros E.
    destruct t as [|c [|f [|x t]]]; try discriminate. cbn [map] in E. injection E as E1 E2.
    apply lower1_inv in E1; [|lia]. apply lower1_inv in E2; [|lia]. exists a, b, c, f. split; [reflexivity|]. split; [exact N|]. split; [exact H|]. cbn [In]. lia.
  - intros (a & n & c & f & -> & N & H & C & F). rewrite names_last by assumption. assert (D : ~ In 46 [c; f]) by (cbn [In] in *; lia).
    assert (L : (3 <= List.length (n ++ [46%Z; c; f]))%nat) by (rewrite app_length; cbn [List.length]; lia).
    rewrite (beq_neq (n ++ [46; c; f]) [46]), (beq_neq (n ++ [46; c; f]) [46; 46]) by (intros Q; rewrite Q in L; cbn [List.length] in L; lia). cbn [orb]. rewrite last_dot_some by exact D. apply beq_spec. cbn [map].
    cbn [In] in C, F. destruct C as [<- | [<- | []]], F as [<- | [<- | []]]; reflexivity.
Qed.

(** ** A name inside a directory *)
Lemma comps_app a b : comps (a ++ 47 :: b) = comps a ++ comps b.
Proof.
  unfold comps. assert (G : forall a cur, names (a ++ 47 :: b) cur = names a cur ++ names b []).
  { clear a. induction a as [|c a IH]; intros cur; cbn [app names]; [reflexivity|]. destruct (c =? 47); [cbn [app]; now rewrite IH|apply IH]. }
  rewrite G. apply filter_app.
Qed.
Lemma full_head cwd c s t : full_path cwd (c :: s ++ t) = (if c =? 47 then [] else cwd) ++ comps (c :: s ++ t).
Proof. unfold full_path. destruct (Z.eqb_spec c 47) as [-> | N]; [reflexivity|]. destruct c as [|c|c]; try reflexivity. do 6 (destruct c as [c|c|]; try reflexivity). congruence. Qed.
Lemma slash_place cwd s n p : s <> [] -> n <> [] -> n <> [46] -> ~ In 47 n -> place cwd s p -> place cwd (slash s n) (p ++ [n]).
Proof.
  intros NE N1 N2 N3 P. apply place_full in P. subst p. apply place_full.
  assert (CN : comps n = [n]) by (apply names_comps; apply n_one; [exact N3|right; auto]).
  unfold slash. destruct s as [|c s]; [congruence|]. pose proof (full_head cwd c s []) as F0. rewrite app_nil_r in F0. rewrite F0.
  destruct (Z.eqb_spec (last (c :: s) 0) 47) as [E | E].
  - assert (exists t, c :: s = t ++ [47]) as [t ET]. { destruct (exists_last (l := c :: s) ltac:(discriminate)) as (t & x & Q). exists t. rewrite Q in E |- *. rewrite last_last in E. now subst x. }
    cbn [app]. rewrite full_head. rewrite <- app_assoc. f_equal.
    change (c :: s ++ n) with ((c :: s) ++ n). rewrite ET. rewrite <- app_assoc. cbn [app]. rewrite !comps_app. rewrite CN. change (comps []) with (@nil (list Z)). now rewrite app_nil_r.
  - cbn [app]. rewrite full_head. rewrite <- app_assoc. f_equal. change (c :: s ++ 47 :: n) with ((c :: s) ++ 47 :: n). now rewrite comps_app, CN.
Qed.
Lemma is_dir_spec cwd d s p : disk_ok d -> s <> [] -> place cwd s p -> (is_dir cwd d s = true <-> In (p, None) d).
Proof.
  intros OK NE P. apply place_full in P. subst p. unfold is_dir. destruct s as [|c0 s0] eqn:ES; [congruence|]. rewrite <- ES in *. rewrite <- (look_in d _ None OK). destruct (look d (full_path cwd s)) as [[x|]|]; split; congruence.
Qed.
Theorem path_rules cwd d s p name : disk_ok d -> s <> [] -> place cwd s p -> In name [codes "dbcf.cf"; codes "cf.cf"] ->
  (cf_name s -> config_path true cwd d name s = Some s) /\
  (~ cf_name s -> In (p, None) d -> exists t, config_path true cwd d name s = Some t /\ place cwd t (p ++ [name])) /\
  (~ cf_name s -> ~ In (p, None) d -> config_path true cwd d name s = None) /\ config_path false cwd d name s = None.
Proof.
  intros OK NE P N. rewrite <- is_cf_spec. rewrite <- (is_dir_spec cwd d s p OK NE P). unfold config_path.
  assert (NN : name <> [] /\ name <> [46] /\ ~ In 47 name) by (cbn [In] in N; destruct N as [<- | [<- | []]]; (split; [discriminate|]); (split; [discriminate|]); cbn; lia).
  destruct NN as (N1 & N2 & N3). split; [now intros ->|]. split; [|split; [|reflexivity]].
  - intros C D. apply Bool.not_true_is_false in C. rewrite C, D. eexists. split; [reflexivity|]. now apply slash_place.
  - intros C D. apply Bool.not_true_is_false in C, D. now rewrite C, D.
Qed.
Lemma slash_cf s n : s <> [] -> ~ In 47 n -> slash s (n ++ [46; 99; 102]) = s ++ n ++ [46; 99; 102] /\ last s 0 = 47 \/ slash s (n ++ [46; 99; 102]) = s ++ 47 :: n ++ [46; 99; 102].
Proof. intros NE H. unfold slash. destruct s as [|c s]; [congruence|]. destruct (Z.eqb_spec (last (c :: s) 0) 47); auto. Qed.
Lemma slash_cf_name s n : s <> [] -> ~ In 47 n -> cf_name (slash s (n ++ [46; 99; 102])).
Proof.
  intros NE H. assert (H' : ~ In 47 (n ++ [46; 99; 102])) by (intros Q; apply in_app_or in Q; cbn [In] in Q; lia || (destruct Q as [Q | Q]; [contradiction|lia])).
  destruct (slash_cf s n NE H) as [[-> L] | ->].
  - exists s, n, 99, 102. cbn [In]. auto 10.
  - exists (s ++ [47]), n, 99, 102. rewrite <- app_assoc. split; [reflexivity|]. split; [exact H'|]. rewrite last_last. cbn [In]. auto 10.
Qed.
Theorem all_rules cwd d s p : disk_ok d -> s <> [] -> place cwd s p ->
  (In (p, None) d -> exists a b, all_paths true cwd d s = [a; b] /\ place cwd a (p ++ [codes "dbcf.cf"]) /\ place cwd b (p ++ [codes "cf.cf"])) /\
  (~ In (p, None) d -> all_paths true cwd d s = []) /\ all_paths false cwd d s = [].
Proof.
  intros OK NE P. rewrite <- (is_dir_spec cwd d s p OK NE P). unfold all_paths. rewrite Bool.andb_true_r, Bool.andb_false_r. split; [|split; [|reflexivity]].
  - intros D. rewrite D. unfold config_path.
    assert (C1 : is_cf (slash s s_dbcf) = true) by (apply is_cf_spec; apply (slash_cf_name s [100; 98; 99; 102] NE); cbn; lia).
    assert (C2 : is_cf (slash s s_cf) = true) by (apply is_cf_spec; apply (slash_cf_name s [99; 102] NE); cbn; lia).
    rewrite C1, C2. eexists. eexists. split; [reflexivity|]. split; apply slash_place; try assumption; try discriminate; cbn; lia.
  - intros D. apply Bool.not_true_is_false in D. now rewrite D.
Qed.

(** ** Sizes *)
Lemma to_string_ok n : 0 <= n < 2 ^ 63 -> numeral n (to_string n).
Proof.
  intros H. unfold to_string. destruct (Z.ltb_spec n 0); [lia|]. apply (decimal_written 20 n); [|lia]. change (10 ^ Z.of_nat 20) with 100000000000000000000. change (2 ^ 63) with 9223372036854775808 in H. lia.
Qed.
Lemma object_size_ok x : (forall n, x = Some n -> 0 <= n < 2 ^ 31) -> object_size x = size_of x /\ 0 <= size_of x < 2 ^ 31.
Proof.
  destruct x as [n|]; intros H; cbn [object_size size_of]; [|split; [reflexivity|lia]]. specialize (H n eq_refl). split; [|exact H]. unfold i32. rewrite Z.mod_small by lia. lia.
Qed.
Theorem report_ok ts : Forall small ts ->
  exists r, size_report ts = [239; 187; 191] ++ codes "table_name|records_count|data_size|blob_size|index_size" ++ [13; 10] ++ r /\ size_lines ts r.
Proof.
  intros H. exists (flat_map size_line ts). split; [unfold size_report; reflexivity|].
  induction H as [|t ts (H0 & H1 & H2 & H3) _ IH]; [constructor|]. cbn [flat_map]. unfold size_line at 1.
  destruct (object_size_ok _ H1) as (-> & R1). destruct (object_size_ok _ H2) as (-> & R2). destruct (object_size_ok _ H3) as (-> & R3).
  assert (E : (z_name t ++ [124] ++ to_string (z_recs t) ++ [124] ++ to_string (size_of (z_data t)) ++ [124] ++ to_string (size_of (z_blob t)) ++ [124] ++ to_string (size_of (z_index t)) ++ [13; 10]) ++ flat_map size_line ts
    = z_name t ++ codes "|" ++ to_string (z_recs t) ++ codes "|" ++ to_string (size_of (z_data t)) ++ codes "|" ++ to_string (size_of (z_blob t)) ++ codes "|" ++ to_string (size_of (z_index t)) ++ [13; 10] ++ flat_map size_line ts).
  { change (codes "|") with [124]. now rewrite <- !app_assoc. }
  rewrite E. apply sl_cons; try (apply to_string_ok; lia). exact IH.
Qed.
Lemma cut_at a : forall b x y, ~ In 124 a -> ~ In 124 b -> a ++ 124 :: x = b ++ 124 :: y -> a = b /\ x = y.
Proof.
  induction a as [|c a IH]; intros [|d b] x y HA HB E; cbn [app] in E.
  - injection E as ->. auto.
  - injection E as <- _. exfalso. apply HB. now left.
  - injection E as -> _. exfalso. apply HA. now left.
  - injection E as -> E. destruct (IH b x y) as [-> ->]; [intros Q; apply HA; now right|intros Q; apply HB; now right|exact E|auto].
Qed.
Lemma numeral_plain n t : numeral n t -> ~ In 124 t.
Proof. intros H Q. pose proof (digits_plain n t H) as F. rewrite Forall_forall in F. apply F in Q. lia. Qed.
Lemma to_string_plain n : - 2 ^ 31 <= n < 2 ^ 32 -> ~ In 124 (to_string n).
Proof.
  intros H. destruct (Z.ltb_spec n 0) as [L|L].
  - unfold to_string. rewrite (proj2 (Z.ltb_lt n 0) L). intros [Q | Q]; [discriminate|]. revert Q. apply (numeral_plain (- n)). apply (decimal_written 20 (- n)); [|lia]. change (10 ^ Z.of_nat 20) with 100000000000000000000. change (2 ^ 31) with 2147483648 in *. lia.
  - apply (numeral_plain n). apply to_string_ok. change (2 ^ 63) with 9223372036854775808. change (2 ^ 32) with 4294967296 in *. lia.
Qed.
Lemma to_string_not n m : - 2 ^ 31 <= n < 2 ^ 32 -> n <> m -> ~ numeral m (to_string n).
Proof.
  intros H N M. destruct (Z.ltb_spec n 0) as [L|L].
  - pose proof (digits_plain m _ M) as F. unfold to_string in F. rewrite (proj2 (Z.ltb_lt n 0) L) in F. apply Forall_inv in F. clear - F. lia.
  - apply N. apply (written_same n m (to_string n)); [|exact M]. apply to_string_ok. change (2 ^ 63) with 9223372036854775808. change (2 ^ 32) with 4294967296 in *. lia.
Qed.
Lemma i32_range n : - 2 ^ 31 <= i32 n < 2 ^ 31.
Proof. unfold i32. pose proof (Z.mod_pos_bound (n + 2 ^ 31) (2 ^ 32) ltac:(lia)). change (2 ^ 32) with (2 * 2 ^ 31) in *. lia. Qed.
Theorem report_large t ts n : 0 <= z_recs t < 2 ^ 32 -> z_data t = Some n -> 2 ^ 31 <= n ->
  ~ exists r, size_report (t :: ts) = [239; 187; 191] ++ codes "table_name|records_count|data_size|blob_size|index_size" ++ [13; 10] ++ r /\ size_lines (t :: ts) r.
Proof.
  intros H0 H1 H2 (r & E & L). inversion L as [|? ? a b c d r' A B C D L' E1 E2]; subst. unfold size_report in E.
  change size_header with (codes "table_name|records_count|data_size|blob_size|index_size" ++ [13; 10]) in E. rewrite <- app_assoc in E. apply app_inv_head in E. apply app_inv_head in E. apply app_inv_head in E.
  cbn [flat_map] in E. unfold size_line at 1 in E. rewrite <- !app_assoc in E. apply app_inv_head in E. change (codes "|") with [124] in E. cbn [app] in E. injection E as E.
  apply cut_at in E; [|apply to_string_plain; change (2 ^ 31) with 2147483648; lia|exact (numeral_plain _ _ A)]. destruct E as [_ E].
  rewrite H1 in *. cbn [object_size size_of] in *. pose proof (i32_range n) as R.
  apply cut_at in E; [|apply to_string_plain; change (2 ^ 32) with (2 * 2 ^ 31); lia|exact (numeral_plain _ _ B)]. destruct E as [E _]. subst b. revert B. apply to_string_not; [change (2 ^ 32) with (2 * 2 ^ 31); lia|]. lia.
Qed.
