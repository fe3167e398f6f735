(** Proofs about vendor configurations. *)
From Verif Require Import Prelude Lists Codec_Model Codec_Proofs Text_Model Tree_Model Descr_Model Descr_Spec Descr_Proofs Cfg_Model Cfg_Spec Cfg_Proofs Cfg_Updates Sup_Model Sup_Spec.
Import String.StringSyntax.
Ltac Zify.zify_post_hook ::= idtac.

(** ** Nodes *)
Lemma reach_sub t i p r : reach t (i :: p) r -> exists c, sub_node t i = Ok c /\ reach c p r.
Proof. intros H. inversion H as [|v ty l j c q s N R]; subst. cbn [sub_node]. rewrite N. eauto. Qed.
Lemma sub_reach t i c p r : sub_node t i = Ok c -> reach c p r -> reach t (i :: p) r.
Proof. destruct t as [v ty l]. cbn [sub_node]. destruct (nth_error l i) eqn:E; [|discriminate]. intros H R. assert (t = c) as <- by congruence. econstructor; eauto. Qed.
Lemma sub_cases t i : (exists c, sub_node t i = Ok c) \/ (sub_node t i = UB).
Proof. destruct t as [v ty l]. cbn [sub_node]. destruct (nth_error l i); eauto. Qed.
Lemma reach_end t r : reach t [] r -> t = r.
Proof. now inversion 1. Qed.
Lemma reach_app t p q r : reach t (p ++ q) r <-> exists m, reach t p m /\ reach m q r.
Proof.
  revert t. induction p as [|i p IH]; intros t; cbn [app].
  - split; [intros H; exists t; split; [constructor|exact H]|]. intros (m & H & H'). now rewrite (reach_end _ _ H).
  - split.
    + intros H. destruct (reach_sub _ _ _ _ H) as (c & E & H'). apply IH in H'. destruct H' as (m & A & B). exists m. split; [|exact B]. now apply sub_reach with c.
    + intros (m & H & B). destruct (reach_sub _ _ _ _ H) as (c & E & H'). apply sub_reach with c; [exact E|]. apply IH. eauto.
Qed.
Lemma reach_fun t p a b : reach t p a -> reach t p b -> a = b.
Proof.
  revert t. induction p as [|i p IH]; intros t A B; [now rewrite <- (reach_end _ _ A), <- (reach_end _ _ B)|].
  destruct (reach_sub _ _ _ _ A) as (c & E & A'), (reach_sub _ _ _ _ B) as (c' & E' & B'). assert (c = c') as <- by congruence. eauto.
Qed.
(** the nodes along a path, one after another *)
Fixpoint follow (t : tree) (p : list nat) : res tree := match p with [] => Ok t | i :: p => do c <- sub_node t i; follow c p end.
Lemma follow_ok t p r : reach t p r <-> follow t p = Ok r.
Proof.
  revert t. induction p as [|i p IH]; intros t; cbn [follow].
  - split; [intros H; now rewrite (reach_end _ _ H)|]. intros H. assert (t = r) as <- by congruence. constructor.
  - split.
    + intros H. destruct (reach_sub _ _ _ _ H) as (c & -> & H'). cbn [rbind]. now apply IH.
    + destruct (sub_node t i) as [c| | |] eqn:E; try discriminate. cbn [rbind]. intros H. apply sub_reach with c; [exact E|]. now apply IH.
Qed.
Lemma follow_cases t p : (exists r, reach t p r) \/ follow t p = UB.
Proof.
  revert t. induction p as [|i p IH]; intros t; cbn [follow]; [left; exists t; constructor|].
  destruct (sub_cases t i) as [[c E]|E]; rewrite E; cbn [rbind]; [|now right].
  destruct (IH c) as [[r H]|H]; [|now right]. left. exists r. now apply sub_reach with c.
Qed.
Lemma follow_none t p : no_node t p -> follow t p = UB.
Proof. intros H. destruct (follow_cases t p) as [[r R]|]; [|assumption]. destruct (H _ R). Qed.
Lemma follow_text t p v : text_at t p v -> exists r, follow t p = Ok r /\ node_value r = v.
Proof. intros (ty & l & H). apply follow_ok in H. eauto. Qed.
Lemma follow_app t p q : follow t (p ++ q) = do m <- follow t p; follow m q.
Proof. revert t. induction p as [|i p IH]; intros t; cbn [follow app]; [reflexivity|]. destruct (sub_node t i); cbn [rbind]; auto. Qed.
Lemma text_app t p q v : text_at t (p ++ q) v -> exists m, follow t p = Ok m /\ text_at m q v.
Proof. intros (ty & l & H). apply reach_app in H. destruct H as (m & A & B). exists m. split; [now apply follow_ok|]. exists ty, l. exact B. Qed.
Lemma none_app t p q m : follow t p = Ok m -> no_node t (p ++ q) -> no_node m q.
Proof. intros E N r R. apply (N r). apply reach_app. exists m. split; [now apply follow_ok|exact R]. Qed.

(** ** Elements *)
Lemma mget_in {A} k (m : smap A) v : mget k m = Some v -> In (k, v) m.
Proof. induction m as [|[a b] m IH]; [discriminate|]. cbn [mget]. destruct (eq_list k a) eqn:E; [|intros H; right; auto]. apply eq_list_spec in E. subst. intros H. left. congruence. Qed.
Lemma element_get lower c n x : element lower c n x -> cat_get lower c n = Some x.
Proof.
  intros [I U]. unfold cat_get. destruct (mget (lower n) c) as [y|] eqn:E; [apply mget_in in E; f_equal; auto|].
  exfalso. apply mget_none_keys in E. apply E. apply (in_map fst) in I. exact I.
Qed.
Lemma no_element_get lower c n : no_element lower c n -> cat_get lower c n = None.
Proof. intros H. unfold cat_get. destruct (mget (lower n) c) as [y|] eqn:E; [|reflexivity]. apply mget_in in E. destruct (H _ E). Qed.
Lemma document_tree d t : document d t -> get_tree d = Ok t.
Proof.
  intros [(x & -> & E)|(b & x & -> & E & E')]; unfold get_tree.
  - assert (buffer_encoding ([239; 187; 191] ++ x) = (1, 3)) as ->; [|exact E]. unfold buffer_encoding, starts_with. cbn [app length firstn Nat.leb andb]. destruct (list_eq_dec Z.eq_dec [239; 187; 191] [239; 187; 191]); [reflexivity|congruence].
  - assert (buffer_encoding ([255; 254] ++ b) = (2, 2)) as ->; [|cbn [app skipn]; rewrite E; exact E'].
    unfold buffer_encoding, starts_with. change (firstn (length [255; 254]) ([255; 254] ++ b)) with [255; 254]. destruct (list_eq_dec Z.eq_dec (firstn (length [239; 187; 191]) ([255; 254] ++ b)) [239; 187; 191]) as [Q|_]; [discriminate|].
    rewrite andb_false_r. destruct (list_eq_dec Z.eq_dec [255; 254] [255; 254]); [reflexivity|congruence].
Qed.
Lemma bs_version : bs "version" = s_version. Proof. reflexivity. Qed.
Lemma bs_metadata : bs "metadata" = s_metadata. Proof. reflexivity. Qed.
Lemma bs_root : bs "root" = s_root. Proof. reflexivity. Qed.
Lemma bs_general : general = s_general. Proof. reflexivity. Qed.

Lemma version_follow e c f t : element (s_lower e) c (bs "version") f -> document (nd_data f) t ->
  get_version e c = do v <- follow t [0; 0; 0]%nat; stoi (node_value v).
Proof.
  rewrite bs_version. intros H D. unfold get_version. rewrite (element_get _ _ _ _ H), (document_tree _ _ D). cbn [rbind follow].
  destruct (sub_node t 0) as [a| | |]; cbn [rbind]; try reflexivity. destruct (sub_node a 0) as [b| | |]; cbn [rbind]; try reflexivity.
  destruct (sub_node b 0); reflexivity.
Qed.
Lemma holder_get e c h : holder (s_lower e) c h -> forall n, get_file e c n = Ok (cat_get (s_lower e) h n).
Proof.
  intros (f & t & vt & v & H & D & T & V & W) n. unfold get_file. rewrite (version_follow e c f t H D).
  destruct (follow_text _ _ _ T) as (r & -> & <-). cbn [rbind]. rewrite (stoi_int _ _ V). cbn [rbind].
  destruct W as [[L ->]|[L (m & M & S)]].
  - destruct (Z.ltb_spec v 100); [lia|reflexivity].
  - destruct (Z.ltb_spec v 100); [|lia]. rewrite bs_metadata in M. rewrite (element_get _ _ _ _ M), S. reflexivity.
Qed.

(** ** The file *)
Lemma stored_content e f : vf_name f <> [] -> ~ not_compressed (s_lower e) (vf_name f) ->
  content e f = match s_inflate e (vf_raw f) with Some d => Ok d | None => Throw end.
Proof.
  intros N C. unfold content. destruct (packed_ok (s_lower e) _ N) as (b & -> & B). cbn [rbind]. destruct b; [reflexivity|]. destruct C. now apply B.
Qed.
Lemma stored_catalog e f c : stored e f c -> main_catalog e f = Ok c.
Proof.
  intros (N & C & d1 & d2 & E1 & E2 & ->). unfold main_catalog. rewrite stored_content, E1 by assumption. cbn [rbind]. now rewrite E2.
Qed.

(** ** The loop *)
Definition at_node (e : senv) (nd : tree) : res (option (list Z * list Z * list Z)) := do a <- sub_node nd 1; do c <- sub_node a 1; do r <- conf_info c; Ok (Some r).
Lemma scan_skip e mt top : sub_node mt 0 = Ok top -> forall i n k, (forall j, (j < i)%nat -> not_general (s_lower e) mt (k + j)) -> scan e (i + n) k top = scan e n (k + i) top.
Proof.
  intros E0. induction i as [|i IH]; intros n k H; [now rewrite Nat.add_0_r|]. cbn [Nat.add scan].
  destruct (H 0%nat ltac:(lia)) as (g & T & G). destruct (follow_text _ _ _ T) as (r & F & <-). cbn [follow] in F. rewrite E0 in F. cbn [rbind] in F.
  rewrite Nat.add_0_r in F. replace (3 + k)%nat with (S (S (S k))) in F by lia.
  destruct (sub_node top (S (S (S k)))) as [nd| | |]; try discriminate. cbn [rbind] in *. destruct (sub_node nd 0) as [ty| | |]; try discriminate. cbn [rbind] in *.
  assert (ty = r) as -> by congruence. rewrite bs_general in G. rewrite eq_list_neq by exact G. rewrite IH; [f_equal; lia|]. intros j J. replace (S k + j)%nat with (k + S j)%nat by lia. apply H. lia.
Qed.
Lemma scan_at e mt top nd ty n i : sub_node mt 0 = Ok top -> sub_node top (3 + i) = Ok nd -> sub_node nd 0 = Ok ty -> s_lower e (node_value ty) = s_lower e general ->
  scan e (S n) i top = at_node e nd.
Proof. intros E0 E1 E2 G. cbn [scan]. cbn [Nat.add] in E1. cbn [Nat.add]. rewrite E1. cbn [rbind]. rewrite E2. cbn [rbind]. rewrite bs_general in G. rewrite G, eq_list_refl. reflexivity. Qed.

(** up to the loop *)
Definition finish (f : vfile) (q : option (list Z * list Z * list Z)) : vendor := match q with Some (nm, s, v) => VC f nm s v | None => VC f [] [] [] end.
Lemma build_meta e f c mt n : stored e f c -> meta (s_lower e) c mt n ->
  exists top, sub_node mt 0 = Ok top /\ build e f = do q <- scan e (Z.to_nat n) 0 top; Ok (finish f q).
Proof.
  intros S (h & r & rt & mn & m & nt & H & R & D & T & M & D' & T' & I).
  unfold build. rewrite (stored_catalog e f c S). cbn [rbind]. rewrite !(holder_get e c h H). cbn [rbind]. rewrite bs_root in R. rewrite (element_get _ _ _ _ R), (document_tree _ _ D). cbn [rbind].
  destruct (follow_text _ _ _ T) as (x & F & <-). cbn [follow] in F. destruct (sub_node rt 0) as [a| | |]; try discriminate. cbn [rbind] in *.
  destruct (sub_node a 1) as [b| | |]; try discriminate. cbn [rbind] in *. assert (b = x) as -> by congruence. rewrite (holder_get e c h H). cbn [rbind]. rewrite (element_get _ _ _ _ M), (document_tree _ _ D'). cbn [rbind].
  destruct (follow_text _ _ _ T') as (y & F' & <-). cbn [follow] in F'. destruct (sub_node mt 0) as [top| | |]; try discriminate. cbn [rbind] in *. exists top. split; [reflexivity|].
  destruct (sub_node top 2) as [z| | |]; try discriminate. cbn [rbind] in *. assert (z = y) as -> by congruence. rewrite (stoi_int _ _ I). cbn [rbind].
  destruct (scan e (Z.to_nat n) 0 top) as [[[[? ?] ?]|]| | |]; reflexivity.
Qed.
Lemma build_at e f c mt n i g : stored e f c -> meta (s_lower e) c mt n -> Z.of_nat i < n -> (forall j, (j < i)%nat -> not_general (s_lower e) mt j) ->
  text_at mt [0; 3 + i; 0]%nat g -> s_lower e g = s_lower e general ->
  exists nd, follow mt [0; 3 + i]%nat = Ok nd /\ build e f = do q <- at_node e nd; Ok (finish f q).
Proof.
  intros S M L B T G. destruct (build_meta e f c mt n S M) as (top & E0 & ->).
  destruct (follow_text _ _ _ T) as (r & F & <-). cbn [follow] in F |- *. rewrite E0 in F |- *. cbn [rbind] in F |- *.
  destruct (sub_node top (3 + i)) as [nd| | |] eqn:E1; try discriminate. cbn [rbind] in *. destruct (sub_node nd 0) as [ty| | |] eqn:E2; try discriminate. cbn [rbind] in *. assert (ty = r) as -> by congruence.
  exists nd. split; [reflexivity|]. replace (Z.to_nat n) with (i + Datatypes.S (Z.to_nat n - i - 1))%nat by lia. rewrite (scan_skip e mt top E0 i _ 0) by exact B.
  cbn [Nat.add]. now rewrite (scan_at e mt top nd r _ i E0 E1 E2 G).
Qed.
Lemma at_follow e nd : at_node e nd = do c <- follow nd [1; 1]%nat; do r <- conf_info c; Ok (Some r).
Proof. unfold at_node. cbn [follow]. destruct (sub_node nd 1) as [a| | |]; cbn [rbind]; try reflexivity. destruct (sub_node a 1) as [c| | |]; reflexivity. Qed.
Lemma conf_follow c kt k : text_at c [0]%nat kt -> int_text kt k ->
  conf_info c = do n <- follow c [1; 1; 2]%nat; do s <- follow c [if (k =? 15)%Z then 11 else 14]%nat; do v <- follow c [if (k =? 15)%Z then 12 else 15]%nat; Ok (node_value n, node_value s, node_value v).
Proof.
  intros T I. unfold conf_info. destruct (follow_text _ _ _ T) as (r & F & <-). cbn [follow] in F |- *. destruct (sub_node c 0) as [x| | |]; try discriminate. cbn [rbind] in *. assert (x = r) as -> by congruence.
  rewrite (stoi_int _ _ I). cbn [rbind]. destruct (sub_node c 1) as [a| | |]; cbn [rbind]; try reflexivity. destruct (sub_node a 1) as [b| | |]; cbn [rbind]; try reflexivity.
  destruct (sub_node b 2) as [n| | |]; cbn [rbind]; try reflexivity. destruct (k =? 15).
  - destruct (sub_node c 11) as [s| | |]; cbn [rbind]; try reflexivity. destruct (sub_node c 12); reflexivity.
  - destruct (sub_node c 14) as [s| | |]; cbn [rbind]; try reflexivity. destruct (sub_node c 15); reflexivity.
Qed.

Theorem build_readable e f v : readable e f v -> build e f = Ok v.
Proof.
  intros (<- & c & S & mt & n & i & g & kt & k & M & L & B & T & G & TK & IK & TN & TS & TV).
  destruct (build_at e _ c mt n i g S M L B T G) as (nd & F & ->). rewrite at_follow.
  change [0; 3 + i; 1; 1; 0]%nat with ([0; 3 + i] ++ [1; 1; 0])%nat in TK. change [0; 3 + i; 1; 1; 1; 1; 2]%nat with ([0; 3 + i] ++ [1; 1; 1; 1; 2])%nat in TN.
  change [0; 3 + i; 1; 1; if (k =? 15)%Z then 11 else 14]%nat with ([0; 3 + i] ++ [1; 1; if (k =? 15)%Z then 11 else 14])%nat in TS.
  change [0; 3 + i; 1; 1; if (k =? 15)%Z then 12 else 15]%nat with ([0; 3 + i] ++ [1; 1; if (k =? 15)%Z then 12 else 15])%nat in TV.
  apply text_app in TK, TN, TS, TV. rewrite F in TK, TN, TS, TV.
  destruct TK as (? & K0 & TK), TN as (? & N0 & TN), TS as (? & S0 & TS), TV as (? & V0 & TV). assert (nd = x) as <- by congruence. assert (nd = x0) as <- by congruence. assert (nd = x1) as <- by congruence. assert (nd = x2) as <- by congruence.
  change [1; 1; 0]%nat with ([1; 1] ++ [0])%nat in TK. change [1; 1; 1; 1; 2]%nat with ([1; 1] ++ [1; 1; 2])%nat in TN.
  change [1; 1; if (k =? 15)%Z then 11 else 14]%nat with ([1; 1] ++ [if (k =? 15)%Z then 11 else 14])%nat in TS. change [1; 1; if (k =? 15)%Z then 12 else 15]%nat with ([1; 1] ++ [if (k =? 15)%Z then 12 else 15])%nat in TV.
  apply text_app in TK, TN, TS, TV. destruct TK as (cf & C0 & TK). rewrite C0 in TN, TS, TV |- *. cbn [rbind].
  destruct TN as (? & C1 & TN), TS as (? & C2 & TS), TV as (? & C3 & TV). assert (cf = x) as <- by congruence. assert (cf = x0) as <- by congruence. assert (cf = x1) as <- by congruence.
  rewrite (conf_follow _ _ _ TK IK). destruct (follow_text _ _ _ TN) as (xn & -> & EN), (follow_text _ _ _ TS) as (xs & -> & ES), (follow_text _ _ _ TV) as (xv & -> & EV). cbn [rbind finish].
  rewrite EN, ES, EV. destruct v; reflexivity.
Qed.
(** without the section "General" *)
Theorem build_unnamed e f c mt n : stored e f c -> meta (s_lower e) c mt n -> (forall j, Z.of_nat j < n -> not_general (s_lower e) mt j) -> build e f = Ok (VC f [] [] []).
Proof.
  intros S M B. destruct (build_meta e f c mt n S M) as (top & E0 & ->). replace (Z.to_nat n) with (Z.to_nat n + 0)%nat by lia. rewrite (scan_skip e mt top E0 _ 0 0); [reflexivity|].
  intros j J. apply B. lia.
Qed.

Theorem build_reported e f : vf_name f <> [] -> ~ not_compressed (s_lower e) (vf_name f) -> reported e f -> build e f = Throw.
Proof.
  intros N C H. unfold build. destruct H as [E|d E E'|c S V|c h S H R|c h r rt mn S H R D T M].
  - unfold main_catalog. rewrite stored_content, E by assumption. reflexivity.
  - unfold main_catalog. rewrite stored_content, E by assumption. cbn [rbind]. rewrite E'. reflexivity.
  - rewrite (stored_catalog e f c S). cbn [rbind]. unfold get_file at 1, get_version. rewrite bs_version in V. rewrite (no_element_get _ _ _ V). reflexivity.
  - rewrite (stored_catalog e f c S). cbn [rbind]. rewrite (holder_get e c h H). cbn [rbind]. rewrite bs_root in R. rewrite (no_element_get _ _ _ R). reflexivity.
  - rewrite (stored_catalog e f c S). cbn [rbind]. rewrite (holder_get e c h H). cbn [rbind]. rewrite bs_root in R. rewrite (element_get _ _ _ _ R), (document_tree _ _ D). cbn [rbind].
    destruct (follow_text _ _ _ T) as (x & F & <-). cbn [follow] in F. destruct (sub_node rt 0) as [a| | |]; try discriminate. cbn [rbind] in *.
    destruct (sub_node a 1) as [b| | |]; try discriminate. cbn [rbind] in *. assert (b = x) as -> by congruence. rewrite (holder_get e c h H). cbn [rbind]. rewrite (no_element_get _ _ _ M). reflexivity.
Qed.
Theorem build_cut e f c : stored e f c -> cut_short (s_lower e) c -> build e f = UB.
Proof.
  intros S H. destruct H as [vf t H D N|h r rt H R D N|h r rt mn m mt H R D T M D' N|mt n i M L B N|mt n i g M L B T G N|mt n i g kt k p M L B T G TK IK P N].
  - unfold build. rewrite (stored_catalog e f c S). cbn [rbind]. unfold get_file at 1. rewrite (version_follow e c vf t H D), (follow_none _ _ N). reflexivity.
  - unfold build. rewrite (stored_catalog e f c S). cbn [rbind]. rewrite (holder_get e c h H). cbn [rbind]. rewrite bs_root in R. rewrite (element_get _ _ _ _ R), (document_tree _ _ D). cbn [rbind].
    pose proof (follow_none _ _ N) as F. cbn [follow] in F. destruct (sub_node rt 0) as [a| | |]; try discriminate; [|reflexivity]. cbn [rbind] in *. destruct (sub_node a 1) as [b| | |]; try discriminate. reflexivity.
  - unfold build. rewrite (stored_catalog e f c S). cbn [rbind]. rewrite (holder_get e c h H). cbn [rbind]. rewrite bs_root in R. rewrite (element_get _ _ _ _ R), (document_tree _ _ D). cbn [rbind].
    destruct (follow_text _ _ _ T) as (x & F & <-). cbn [follow] in F. destruct (sub_node rt 0) as [a| | |]; try discriminate. cbn [rbind] in *.
    destruct (sub_node a 1) as [b| | |]; try discriminate. cbn [rbind] in *. assert (b = x) as -> by congruence. rewrite (holder_get e c h H). cbn [rbind]. rewrite (element_get _ _ _ _ M), (document_tree _ _ D'). cbn [rbind].
    pose proof (follow_none _ _ N) as F'. cbn [follow] in F'. destruct (sub_node mt 0) as [top| | |]; try discriminate; [|reflexivity]. cbn [rbind] in *. destruct (sub_node top 2) as [b| | |]; try discriminate. reflexivity.
  - destruct (build_meta e f c mt n S M) as (top & E0 & ->). replace (Z.to_nat n) with (i + Datatypes.S (Z.to_nat n - i - 1))%nat by lia. rewrite (scan_skip e mt top E0 i _ 0) by exact B.
    pose proof (follow_none _ _ N) as F. cbn [follow] in F. rewrite E0 in F. cbn [rbind] in F. cbn [scan Nat.add] in F |- *. destruct (sub_node top (Datatypes.S (Datatypes.S (Datatypes.S i)))) as [nd| | |]; try discriminate; [|reflexivity].
    cbn [rbind] in *. destruct (sub_node nd 0) as [ty| | |]; try discriminate. reflexivity.
  - destruct (build_at e f c mt n i g S M L B T G) as (nd & F & ->). rewrite at_follow. change [0; 3 + i; 1; 1; 0]%nat with ([0; 3 + i] ++ [1; 1; 0])%nat in N. pose proof (none_app _ _ _ _ F N) as N1.
    destruct (follow nd [1; 1]%nat) as [cf| | |] eqn:E.
    + cbn [rbind]. change [1; 1; 0]%nat with ([1; 1] ++ [0])%nat in N1. pose proof (follow_none _ _ (none_app _ _ _ _ E N1)) as Q. cbn [follow] in Q. unfold conf_info. destruct (sub_node cf 0) as [x| | |]; try discriminate. reflexivity.
    + exfalso. destruct (follow_cases nd [1; 1]%nat) as [[r R]|R]; [apply follow_ok in R|]; congruence.
    + reflexivity.
    + exfalso. destruct (follow_cases nd [1; 1]%nat) as [[r R]|R]; [apply follow_ok in R|]; congruence.
  - destruct (build_at e f c mt n i g S M L B T G) as (nd & F & ->). rewrite at_follow. change [0; 3 + i; 1; 1; 0]%nat with ([0; 3 + i] ++ [1; 1] ++ [0])%nat in TK. apply text_app in TK. destruct TK as (nd' & F' & TK). assert (nd = nd') as <- by congruence.
    apply text_app in TK. destruct TK as (cf & E & TK). rewrite E. cbn [rbind]. rewrite (conf_follow _ _ _ TK IK).
    change ([0; 3 + i; 1; 1] ++ p)%nat with ([0; 3 + i] ++ [1; 1] ++ p)%nat in N. pose proof (follow_none _ _ (none_app _ _ _ _ E (none_app _ _ _ _ F N))) as Q. clear - P Q.
    destruct P as [<- | [<- | [<- | []]]].
    + rewrite Q. reflexivity.
    + destruct (follow_cases cf [1; 1; 2]%nat) as [[r R]|R]; [apply follow_ok in R|]; rewrite R; cbn [rbind]; [|reflexivity]. rewrite Q. reflexivity.
    + destruct (follow_cases cf [1; 1; 2]%nat) as [[r R]|R]; [apply follow_ok in R|]; rewrite R; cbn [rbind]; [|reflexivity].
      destruct (follow_cases cf [if (k =? 15)%Z then 11 else 14]%nat) as [[r' R']|R']; [apply follow_ok in R'|]; rewrite R'; cbn [rbind]; [|reflexivity]. rewrite Q. reflexivity.
Qed.

(** ** The list *)
Lemma add_all_ok e : forall fs vs l, Forall2 (fun f v => build e f = Ok v) (map snd (filter (fun p => zlen (fst p) =? 73) fs)) vs -> add_all e fs l = (l ++ vs, Ok tt).
Proof.
  induction fs as [|[k f] fs IH]; intros vs l H; cbn [filter map add_all fst] in *.
  - inversion H; subst. now rewrite app_nil_r.
  - destruct (zlen k =? 73); [|now apply IH]. cbn [map snd] in H. inversion H; subst. rewrite H2, (IH l') by assumption. now rewrite <- app_assoc.
Qed.
Lemma add_all_bad e : forall fs a f b l, map snd (filter (fun p => zlen (fst p) =? 73) fs) = a ++ f :: b -> Forall (fun f => exists v, build e f = Ok v) a -> build e f = Throw ->
  exists l', add_all e fs l = (l', Throw).
Proof.
  induction fs as [|[k g] fs IH]; intros a f b l E A F; cbn [filter map add_all fst] in *; [destruct a; discriminate|].
  destruct (zlen k =? 73); [|now apply (IH a f b)]. cbn [map snd] in E. destruct a as [|x a]; cbn [app] in E; injection E as -> E.
  - rewrite F. eauto.
  - inversion A as [|? ? [v V] A']; subst. rewrite V. now apply (IH a f b).
Qed.
Lemma readable_built e fs vs : Forall2 (readable e) fs vs -> Forall2 (fun f v => build e f = Ok v) fs vs.
Proof. induction 1; constructor; auto. now apply build_readable. Qed.
Theorem listed e cs c vs : Forall2 (readable e) (vendor_files cs c) vs ->
  supplier_configs e cs c (DS [] false) = (DS vs true, Ok vs) /\ supplier_configs e cs c (DS vs true) = (DS vs true, Ok vs).
Proof.
  intros H. split; [|reflexivity]. unfold supplier_configs. cbn [ds_defined ds_list]. rewrite (add_all_ok e _ vs []); [reflexivity|]. now apply readable_built.
Qed.
Theorem one_bad e cs c a f b l : vendor_files cs c = a ++ f :: b -> Forall (fun f => exists v, readable e f v) a -> vf_name f <> [] -> ~ not_compressed (s_lower e) (vf_name f) -> reported e f ->
  exists l', supplier_configs e cs c (DS l false) = (DS l' false, Throw).
Proof.
  intros E A N C R. unfold supplier_configs. cbn [ds_defined ds_list]. destruct (add_all_bad e (cs ++ c) a f b l E) as (l' & ->); [|now apply build_reported|now exists l'].
  eapply Forall_impl; [|exact A]. intros g [v V]. exists v. now apply build_readable.
Qed.

(** ** Saving *)
Lemma readable_content e f v : readable e f v -> exists d x, content e f = Ok d /\ s_inflate e d = Some x /\ unpacked e f x.
Proof.
  intros (<- & c & (N & C & d1 & d2 & E1 & E2 & _) & _). exists d1, d2. rewrite stored_content, E1 by assumption. repeat split; auto. exists d1. auto.
Qed.
Lemma unpacked_fun e f x y : unpacked e f x -> unpacked e f y -> x = y.
Proof. intros (d & A & B) (d' & A' & B'). assert (d = d') as <- by congruence. congruence. Qed.
Lemma cf_target v : cf_name v = target v. Proof. reflexivity. Qed.
(** the last one saved under a name is what is found there *)
Lemma save_last e can part : forall vs d, Forall (fun v => exists f, readable e f v) vs -> exists d', save_all e can part vs d = Ok (map (fun v => (target v, true)) vs, d') /\
  (forall n, ~ In n (map target vs) -> d' n = d n) /\
  (forall a v b x, vs = a ++ v :: b -> ~ In (target v) (map target b) -> can (target v) = true -> unpacked e (v_file v) x -> d' (target v) = Some x) /\
  (forall n, can n = false -> d' n = d n).
Proof.
  induction vs as [|v vs IH]; intros d H.
  - exists d. split; [reflexivity|]. split; [reflexivity|]. split; [|reflexivity]. intros a w b x E. destruct a; discriminate.
  - inversion H as [|? ? (f & R) H']; subst. pose proof R as (E & _). subst f. destruct (readable_content e _ v R) as (c & x & C & I & U). cbn [save_all]. unfold save_to_file. rewrite C. cbn [rbind]. rewrite I. cbn [rbind fst snd]. rewrite !cf_target.
    set (d1 := if can (target v) then put d (target v) x else d). destruct (IH d1 H') as (d' & -> & P1 & P2 & P3). cbn [rbind fst snd map]. exists d'. split; [reflexivity|].
    assert (O : forall n, n <> target v -> d1 n = d n). { intros n N. unfold d1, put. destruct (can (target v)); [|reflexivity]. now rewrite eq_list_neq. }
    split; [|split].
    + intros n N. rewrite P1 by (intros Q; apply N; now right). apply O. intros ->. apply N. now left.
    + intros a w b y E N K Uy. destruct a as [|a0 a]; cbn [app] in E; injection E as <- E.
      * subst b. rewrite P1 by exact N. unfold d1, put. rewrite K, eq_list_refl. f_equal. now apply (unpacked_fun e (v_file v)).
      * now apply (P2 a w b y).
    + intros n N. rewrite P3 by exact N. destruct (list_eq_dec Z.eq_dec n (target v)) as [->|Q]; [unfold d1; now rewrite N|now apply O].
Qed.
Theorem saved_vendors e can part cs c vs d : Forall2 (readable e) (vendor_files cs c) vs ->
  exists d', save_vendors e can part cs c (DS [] false) d = Ok (map (fun v => (target v, true)) vs, d') /\
  (forall n, ~ In n (map target vs) -> d' n = d n) /\
  (forall a v b x, vs = a ++ v :: b -> ~ In (target v) (map target b) -> can (target v) = true -> unpacked e (v_file v) x -> d' (target v) = Some x) /\
  (forall n, can n = false -> d' n = d n).
Proof.
  intros H. unfold save_vendors. destruct (listed e cs c vs H) as [-> _]. cbn [snd rbind]. apply save_last.
  clear - H. induction H; constructor; eauto.
Qed.
Theorem saved_apart e can part cs c vs d : Forall2 (readable e) (vendor_files cs c) vs -> NoDup (map target vs) -> (forall v, In v vs -> can (target v) = true) ->
  exists d', save_vendors e can part cs c (DS [] false) d = Ok (map (fun v => (target v, true)) vs, d') /\
  (forall v, In v vs -> exists x, unpacked e (v_file v) x /\ d' (target v) = Some x) /\
  (forall n, ~ In n (map target vs) -> d' n = d n).
Proof.
  intros H N C. destruct (saved_vendors e can part cs c vs d H) as (d' & E & P1 & P2 & _). exists d'. split; [exact E|]. split; [|exact P1].
  intros v I. assert (R : exists f, readable e f v) by (clear - H I; induction H as [|f w fs ws R H IH]; [destruct I|]; destruct I as [-> | I]; eauto).
  destruct R as (f & R). destruct (readable_content e f v R) as (dd & x & _ & _ & U). pose proof R as (<- & _). exists x. split; [exact U|].
  apply in_split in I. destruct I as (a & b & ->). apply (P2 a v b x eq_refl); [|apply C; apply in_elt|exact U].
  rewrite map_app in N. cbn [map] in N. apply NoDup_remove_2 in N. intros Q. apply N. apply in_or_app. now right.
Qed.

(** ** Names of two GUIDs *)
Lemma sep_unique (a b a' x : list Z) c : a ++ c :: b = a' ++ c :: x -> ~ In c b -> ~ In c x -> b = x.
Proof.
  revert a'. induction a as [|y a IH]; intros [|y' a'] E N N'; cbn [app] in E; [now injection E|injection E as E1 E2..].
  - subst y'. exfalso. apply N. rewrite E2. apply in_elt.
  - subst y. exfalso. apply N'. rewrite <- E2. apply in_elt.
  - now apply (IH a').
Qed.
Lemma guids_compressed lower n : ascii_lowers lower -> two_guids n -> n <> [] /\ ~ not_compressed lower n.
Proof.
  intros AL (a & b & -> & LA & LB & GA & GB). split; [destruct a; discriminate|].
  assert (R : Forall (fun c => 0 < c < 128) (a ++ [46] ++ b)).
  { apply Forall_app. split; [|constructor; [lia|]]; eapply Forall_impl; try eassumption; cbv beta; intros c [?|[?|[?|?]]]; lia. }
  assert (RB : Forall (fun c => 0 < c < 128) b) by (apply Forall_app in R; destruct R as [_ R]; inversion R; assumption).
  assert (LEN : forall x y, Forall (fun c => 0 < c < 128) x -> Forall (fun c => 0 < c < 128) y -> lower x = lower y -> length x = length y).
  { intros x y X Y E. rewrite (AL x X), (AL y Y) in E. apply (f_equal (@length Z)) in E. now rewrite !map_length in E. }
  intros [(s & I & E)|[(t & E)|[(u & v & E)|(x & X & E)]]].
  - apply LEN in E; [|exact R|].
    + rewrite !app_length, LA, LB in E. cbn [length] in E. cbn [In] in I. repeat (destruct I as [<- | I]; [discriminate|]). destruct I.
    + cbn [In] in I. repeat (destruct I as [<- | I]; [repeat (constructor; [lia|]); constructor|]). destruct I.
  - destruct a as [|c a]; [discriminate|]. inversion GA as [|? ? G _]; subst. cbn [app] in E. injection E as -> _. destruct G as [?|[?|[?|?]]]; lia.
  - rewrite (AL _ R) in E. assert (Q : Forall (fun c => c <> 111) (map (fun c => if (65 <=? c) && (c <=? 90) then c + 32 else c) (a ++ [46] ++ b))).
    { assert (G1 : forall c, guid_char c -> (if (65 <=? c) && (c <=? 90) then c + 32 else c) <> 111) by (intros c G; unfold guid_char in G; destruct (Z.leb_spec 65 c), (Z.leb_spec c 90); cbn [andb]; lia).
      apply Forall_map. apply Forall_app. split; [|constructor; [vm_compute; discriminate|]]; (eapply Forall_impl; [exact G1|assumption]). }
    rewrite E in Q. apply Forall_app in Q. destruct Q as [_ Q]. apply Forall_app in Q. destruct Q as [Q _]. inversion Q as [|? ? _ Q1]; subst. inversion Q1; subst. congruence.
  - assert (x = b) as ->.
    { destruct X as (a' & X & NX). symmetry. apply (sep_unique a b a' x 46); [exact X| |exact NX]. intros I. rewrite Forall_forall in GB. apply GB in I. destruct I as [?|[?|[?|?]]]; lia. }
    destruct E as [E|E]; apply LEN in E; try exact RB; try (rewrite LB in E; discriminate); repeat (constructor; [lia|]); constructor.
Qed.
