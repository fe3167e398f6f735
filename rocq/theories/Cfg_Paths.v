(** Proofs about paths in containers. *)
From Verif Require Import Prelude Lists Codec_Model Codec_Proofs Tree_Model Cfg_Model Cfg_Spec Cfg_Proofs.
Ltac Zify.zify_post_hook ::= idtac.

Definition slash (c : Z) : Z := if c =? 47 then 92 else c.
Lemma replace_ok s : string_replace s [47] [92] true = Ok (map slash s).
Proof. rewrite replace_all. f_equal. induction s as [|x s IH]; [reflexivity|]. cbn [subst1 flat_map map]. unfold slash at 1. fold (subst1 47 [92] s). rewrite IH. destruct (x =? 47); reflexivity. Qed.
Lemma sfind_at c a b : ~ In c a -> sfind (a ++ c :: b) [c] = Some (length a).
Proof.
  induction a as [|x a IH]; intros H; rewrite sfind_char; cbn [app length]; [rewrite Z.eqb_refl; reflexivity|].
  destruct (Z.eqb_spec x c) as [->|N]; [exfalso; apply H; left; reflexivity|]. rewrite IH by (intros E; apply H; right; exact E). reflexivity.
Qed.
Lemma sfind_no c s : ~ In c s -> sfind s [c] = None.
Proof. intros N. pose proof (sfind_split c s) as H. destruct (sfind s [c]) as [p|]; [|reflexivity]. destruct H as (a & b & -> & _). exfalso. apply N. apply in_or_app. right. left. reflexivity. Qed.
Lemma slash_plain s : ~ In 47 s -> map slash s = s.
Proof. induction s as [|x s IH]; intros N; [reflexivity|]. cbn [map]. f_equal; [unfold slash; destruct (Z.eqb_spec x 47); [exfalso; apply N; left; assumption|reflexivity]|apply IH; intros I; apply N; right; exact I]. Qed.
Lemma join_slash l : Forall plain_component l -> map slash (join 47 l) = join 92 l.
Proof.
  induction 1 as [|x l (H1 & H2 & H3) H IH]; [reflexivity|]. destruct l as [|y l]; [apply slash_plain; exact H2|].
  change (join 47 (x :: y :: l)) with (x ++ 47 :: join 47 (y :: l)). change (join 92 (x :: y :: l)) with (x ++ 92 :: join 92 (y :: l)). rewrite map_app. cbn [map]. rewrite IH, slash_plain by exact H2. reflexivity.
Qed.
(** the names that are really looked up: every one but the last without its last character *)
Fixpoint cut_names (l : list (list Z)) : list (list Z) := match l with [] => [] | [x] => [x] | x :: t => removelast x :: cut_names t end.
Lemma find_mget {A : Type} k (m : smap A) : find (fun p => if list_eq_dec Z.eq_dec (fst p) k then true else false) m = option_map (pair k) (mget k m).
Proof. induction m as [|[a b] m IH]; [reflexivity|]. cbn [find mget fst]. unfold eq_list. destruct (list_eq_dec Z.eq_dec a k), (list_eq_dec Z.eq_dec k a); try (exfalso; congruence); [subst; reflexivity|exact IH]. Qed.
Lemma removelast_firstn (x : list Z) : removelast x = firstn (length x - 1) x.
Proof. rewrite removelast_firstn_len. f_equal. destruct (length x); cbn; lia. Qed.
Lemma walk_ok lower l : forall fuel c, l <> [] -> Forall plain_component l -> (length (join 92 l) <= fuel)%nat -> zlen (join 92 l) < 2 ^ 64 -> walk fuel lower c (join 92 l) = Ok (descend lower c (cut_names l)).
Proof.
  induction l as [|x l IH]; intros fuel c N F LF LZ; [congruence|]. inversion F as [|y z (F1 & F2 & F3) FF]. subst. destruct l as [|y l].
  - cbn [join] in *. destruct fuel as [|fuel]; cbn [walk]; rewrite sfind_no by exact F3; unfold cat_get; cbn [cut_names descend]; rewrite find_mget; destruct (mget (lower x) c) as [[d sub]|]; reflexivity.
  - change (join 92 (x :: y :: l)) with (x ++ 92 :: join 92 (y :: l)) in *. rewrite app_length in LF. cbn [length] in LF. rewrite zlen_app, zlen_cons in LZ. destruct fuel as [|fuel]; [lia|]. cbn [walk]. rewrite sfind_at by exact F3.
    assert (LX : (0 < length x)%nat) by (destruct x; [congruence|cbn; lia]). pose proof (zlen_nonneg (join 92 (y :: l))) as LJ.
    unfold substr. rewrite zlen_app, zlen_cons. unfold zlen in LZ, LJ |- * . destruct (Z.ltb_spec (Z.of_nat (length x) + (1 + Z.of_nat (length (join 92 (y :: l))))) 0); [lia|]. cbn [rbind].
    unfold u64. rewrite Z.mod_small by lia. cbn [skipn]. change (skipn (Z.to_nat 0) (x ++ 92 :: join 92 (y :: l))) with (x ++ 92 :: join 92 (y :: l)). rewrite firstn_app. replace (Z.to_nat (Z.of_nat (length x) - 1) - length x)%nat with 0%nat by lia. rewrite firstn_O, app_nil_r.
    replace (Z.to_nat (Z.of_nat (length x) - 1)) with (length x - 1)%nat by lia. rewrite <- removelast_firstn. change (cut_names (x :: y :: l)) with (removelast x :: cut_names (y :: l)). unfold cat_get. cbn [descend]. rewrite find_mget.
    destruct (mget (lower (removelast x)) c) as [[d [sub|]]|]; cbn [option_map nd_sub]; [| |reflexivity].
    + destruct (Z.ltb_spec (Z.of_nat (length x) + (1 + Z.of_nat (length (join 92 (y :: l))))) (Z.of_nat (length x) + 1)); [lia|]. cbn [rbind]. rewrite Z.mod_small by lia.
      replace (Z.to_nat (Z.of_nat (length x) + 1)) with (length x + 1)%nat by lia. rewrite <- skipn_plus, skipn_app, Nat.sub_diag, (skipn_all2 x) by lia. cbn [app skipn]. rewrite firstn_all2 by lia.
      rewrite IH; [|discriminate|exact FF|lia|unfold zlen; lia]. destruct l; reflexivity.
    + destruct l; reflexivity.
Qed.
Lemma readfile_ok lower l c : l <> [] -> Forall plain_component l -> zlen (join 47 l) < 2 ^ 64 -> cf_readfile lower c (join 47 l) = Ok (descend lower c (cut_names l)).
Proof.
  intros N F LZ. unfold cf_readfile. rewrite replace_ok. cbn [rbind]. rewrite join_slash by exact F. assert (E : length (join 92 l) = length (join 47 l)) by (rewrite <- join_slash by exact F; apply map_length).
  apply walk_ok; try assumption; [lia|]. unfold zlen in *. rewrite E. exact LZ.
Qed.
(** a file in a container in a container is not found, unless the name without its last character happens to be the same *)
Lemma readfile_nested lower a b d e : plain_component a -> plain_component b -> zlen (a ++ 47 :: b) < 2 ^ 64 -> lower (removelast a) <> lower a ->
  let c := [(lower a, Nd d (Some [(lower b, Nd e None)]))] in descend lower c [a; b] = Some e /\ cf_readfile lower c (a ++ 47 :: b) = Ok None.
Proof.
  intros HA HB L N c. split.
  - cbn [descend c find fst]. destruct (list_eq_dec Z.eq_dec (lower a) (lower a)); [|congruence]. cbn [descend find fst]. destruct (list_eq_dec Z.eq_dec (lower b) (lower b)); [reflexivity|congruence].
  - change (a ++ 47 :: b) with (join 47 [a; b]). rewrite readfile_ok; [|discriminate|constructor; [exact HA|constructor; [exact HB|constructor]]|exact L]. cbn [cut_names descend c find fst]. destruct (list_eq_dec Z.eq_dec (lower a) (lower (removelast a))); [congruence|reflexivity].
Qed.
(** a path starting with a separator asks for a container named by the whole path *)
Lemma readfile_rooted lower c path : zlen path < 2 ^ 32 -> cat_get lower c (map slash (47 :: path)) = None -> cf_readfile lower c (47 :: path) = Ok None.
Proof.
  intros L H. unfold cf_readfile. rewrite replace_ok. cbn [rbind map length walk]. change (slash 47) with 92. change (92 :: map slash path) with ([] ++ 92 :: map slash path) at 1. rewrite sfind_at by (intros []). cbn [length]. unfold substr. change (Z.of_nat 0 - 1) with (-1).
  destruct (Z.ltb_spec (zlen (92 :: map slash path)) 0) as [L0|L0]; [pose proof (zlen_nonneg (92 :: map slash path)); lia|]. cbn [rbind]. change (u64 (-1)) with (2 ^ 64 - 1). change (Z.to_nat 0) with 0%nat. rewrite skipn_O.
  rewrite firstn_all2 by (cbn [length]; rewrite map_length; unfold zlen in L; lia). cbn [map] in H. change (slash 47) with 92 in H. rewrite H. reflexivity.
Qed.
Lemma cut_names_eq l : l <> [] -> cut_names l = map (@removelast Z) (removelast l) ++ [last l []].
Proof. induction l as [|x l IH]; [congruence|]. intros _. destruct l as [|y l]; [reflexivity|]. change (cut_names (x :: y :: l)) with (removelast x :: cut_names (y :: l)). rewrite IH by discriminate. reflexivity. Qed.
Lemma readfile_cut lower l c : l <> [] -> Forall plain_component l -> zlen (join 47 l) < 2 ^ 64 ->
  cf_readfile lower c (join 47 l) = Ok (descend lower c (map (@removelast Z) (removelast l) ++ [last l []])).
Proof. intros H1 H2 H3. rewrite readfile_ok by assumption. rewrite cut_names_eq by exact H1. reflexivity. Qed.
Lemma readfile_root lower n e : plain_component n -> zlen n < 2 ^ 32 -> lower (92 :: n) <> lower n ->
  let c := [(lower n, Nd e None)] in cf_readfile lower c n = Ok (Some e) /\ cf_readfile lower c (47 :: n) = Ok None.
Proof.
  intros H L N c. split.
  - change n with (join 47 [n]) at 1. rewrite readfile_ok; [|discriminate|constructor; [exact H|constructor]|cbn [join]; lia]. cbn [cut_names descend c find fst]. destruct (list_eq_dec Z.eq_dec (lower n) (lower n)); [reflexivity|congruence].
  - apply readfile_rooted; [exact L|]. unfold cat_get. cbn [map c mget]. change (slash 47) with 92. rewrite slash_plain by apply H. rewrite eq_list_neq by exact N. reflexivity.
Qed.
