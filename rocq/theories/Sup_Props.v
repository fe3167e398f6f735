(** Vendor configurations: C159 to C163. *)
From Verif Require Import Prelude Text_Model Tree_Model Descr_Model Descr_Spec Cfg_Model Cfg_Spec Sup_Model Sup_Spec Sup_Proofs.
Import String.StringSyntax.

(** an environment to try things with: data starting with 90 is the rest, expanded; containers are numbered *)
Definition d_lower (s : list Z) : list Z := map (fun c => if (65 <=? c) && (c <=? 90) then c + 32 else c) s.
Definition d_doc (s : String.string) : node := Nd ([0xEF; 0xBB; 0xBF] ++ bs s) None.
Arguments d_doc s%string.
Definition d_meta (name version : String.string) : node :=
  Nd ([0xEF; 0xBB; 0xBF] ++ bs "{2,{0},2,{00000000-0000-0000-0000-000000000000,1},{9CD510CD-abfc-11d4-9434-004095e12fc7,{1,{37,{0,{3,0,""" ++ bs name ++
      bs """}},2,3,4,5,6,7,8,9,10,11,12,13,""Vendor"",""" ++ bs version ++ bs """}}}}") None.
Arguments d_meta (name version)%string.
Definition d_new (name version : String.string) : list (list Z * node) :=
  [(bs "version", d_doc "{{216,0}}"); (bs "root", d_doc "{2,Abc}"); (bs "abc", d_meta name version)].
Arguments d_new (name version)%string.
Definition d_old (name version : String.string) : list (list Z * node) :=
  [(bs "version", d_doc "{{80,0}}"); (bs "metadata", Nd [] (Some [(bs "root", d_doc "{2,abc}"); (bs "abc", d_meta name version)]))].
Arguments d_old (name version)%string.
Definition d_env : senv :=
  SE d_lower (fun d => match d with 90 :: t => Some t | _ => None end)
     (fun d => match d with [1] => d_new "Trade" "1.2" | [2] => d_old "Trade" "1.2" | [3] => d_new "Salary" "7" | [4] => [(bs "version", d_doc "{{216,0}}"); (bs "root", d_doc "{2}")] | _ => [] end).
Definition d_g := bs "9cd510cd-abfc-11d4-9434-004095e12fc7".
Definition d_name (c : Z) : list Z := d_g ++ [46; c] ++ skipn 1 d_g.
Definition d_file (c k : Z) : list Z * vfile := (d_name c, VF (d_name c) [90; 90; k]).

(** C159: a vendor configuration is listed under the name, the supplier and the version its metadata give *)
Theorem C159_info :
  forall e f v, readable e f v -> build e f = Ok v.
Proof. exact build_readable. Qed.
Print Assumptions C159_info.
(** ... which covers every file named after two GUIDs: these are kept compressed *)
Theorem C159_names :
  forall lower n, ascii_lowers lower -> two_guids n -> n <> [] /\ ~ not_compressed lower n.
Proof. exact guids_compressed. Qed.
Print Assumptions C159_names.
(** ... and without a section "General" the texts are empty *)
Theorem C159_unnamed :
  forall e f c mt n, stored e f c -> meta (s_lower e) c mt n -> (forall j, Z.of_nat j < n -> not_general (s_lower e) mt j) -> build e f = Ok (VC f [] [] []).
Proof. exact build_unnamed. Qed.
Print Assumptions C159_unnamed.
Lemma d_lowers : ascii_lowers d_lower. Proof. intros s _. reflexivity. Qed.
Lemma d_guids c : guid_char c -> two_guids (d_name c).
Proof.
  intros G. exists d_g, (c :: skipn 1 d_g). split; [reflexivity|]. split; [reflexivity|]. split; [reflexivity|].
  assert (H : forallb (fun c => ((48 <=? c) && (c <=? 57)) || ((97 <=? c) && (c <=? 102)) || ((65 <=? c) && (c <=? 70)) || (c =? 45)) d_g = true) by (vm_compute; reflexivity).
  assert (F : Forall guid_char d_g).
  { rewrite forallb_forall in H. rewrite Forall_forall. intros x I. apply H in I. unfold guid_char. lia. }
  split; [exact F|]. constructor; [exact G|]. change d_g with (57 :: skipn 1 d_g) in F. now inversion F.
Qed.
Ltac at_it := do 2 eexists; apply follow_ok; vm_compute; reflexivity.
Ltac num_it ds := split; [lia|exists ds; split; [discriminate|]; split; [repeat (constructor; [lia|]); constructor|]; left; split; reflexivity].
Ltac elem_it := split; [vm_compute; tauto|intros m I; vm_compute in I; vm_compute; repeat (destruct I as [I|I]; [congruence|]); destruct I].
Lemma d_readable_new : readable d_env (snd (d_file 97 1)) (VC (snd (d_file 97 1)) (bs "Trade") (bs "Vendor") (bs "1.2")).
Proof.
  split; [reflexivity|]. exists (d_new "Trade" "1.2"). split.
  { destruct (guids_compressed d_lower (d_name 97) d_lowers) as [A B]; [apply d_guids; unfold guid_char; lia|]. split; [exact A|]. split; [exact B|].
    exists [90; 1], [1]. repeat split. }
  assert (P : exists mt, parse_text (skipn 3 (nd_data (d_meta "Trade" "1.2"))) = Ok mt) by (eexists; vm_compute; reflexivity). destruct P as (mt & P).
  assert (Q : get_tree (nd_data (d_meta "Trade" "1.2")) = Ok mt) by (vm_compute; vm_compute in P; exact P).
  exists mt, 2, 1%nat, (bs "9CD510CD-abfc-11d4-9434-004095e12fc7"), (bs "37"), 37. split; [|split; [lia|]].
  { exists (d_new "Trade" "1.2"), (d_doc "{2,Abc}"). eexists. exists (bs "Abc"), (d_meta "Trade" "1.2"), (bs "2"). split; [|split; [elem_it|]].
    - exists (d_doc "{{216,0}}"). eexists. exists (bs "216"), 216. split; [elem_it|]. split; [left; eexists; split; [reflexivity|vm_compute; reflexivity]|]. split; [at_it|]. split; [num_it [2; 1; 6]|]. left. split; [lia|reflexivity].
    - split; [left; eexists; split; [reflexivity|vm_compute; reflexivity]|]. split; [at_it|]. split; [elem_it|].
      split; [left; eexists; split; [reflexivity|exact P]|]. vm_compute in P. injection P as <-. split; [at_it|num_it [2]]. }
  vm_compute in P. injection P as <-. split; [|split; [at_it|]].
  { intros j J. assert (j = 0%nat) as -> by lia. exists (bs "00000000-0000-0000-0000-000000000000"). split; [at_it|vm_compute; discriminate]. }
  split; [vm_compute; reflexivity|]. split; [at_it|]. split; [num_it [3; 7]|]. repeat split; at_it.
Qed.
Example C159_ex_readable : exists f v, readable d_env f v /\ v_name v = bs "Trade".
Proof. exists (snd (d_file 97 1)). eexists. split; [exact d_readable_new|reflexivity]. Qed.
Example C159_ex : build d_env (snd (d_file 97 1)) = Ok (VC (snd (d_file 97 1)) (bs "Trade") (bs "Vendor") (bs "1.2")) /\
  build d_env (snd (d_file 98 2)) = Ok (VC (snd (d_file 98 2)) (bs "Trade") (bs "Vendor") (bs "1.2")).
Proof. split; vm_compute; reflexivity. Qed.

(** C160 is false: a text with fewer values than expected is not reported; the program goes on with a reference
    to a node that is not there *)
Theorem C160_short_refuted :
  forall e f c, stored e f c -> cut_short (s_lower e) c -> build e f = UB.
Proof. exact build_cut. Qed.
Print Assumptions C160_short_refuted.
Example C160_ex_short : build d_env (snd (d_file 97 4)) = UB.
Proof. vm_compute. reflexivity. Qed.
Example C160_ex_cut : cut_short d_lower (s_cat d_env [4]).
Proof.
  apply (cut_root _ _ (s_cat d_env [4]) (d_doc "{2}") (Node [] nd_list [Node [] nd_list [Node [50] nd_number []]])).
  - exists (d_doc "{{216,0}}"). eexists. exists (bs "216"), 216. split; [elem_it|]. split; [left; eexists; split; [reflexivity|vm_compute; reflexivity]|]. split; [at_it|]. split; [num_it [2; 1; 6]|]. left. split; [lia|reflexivity].
  - elem_it.
  - left. eexists. split; [reflexivity|vm_compute; reflexivity].
  - intros r R. apply follow_ok in R. discriminate.
Qed.
(** C160: data that cannot be expanded and elements that are not there are reported *)
Theorem C160_reported_partial :
  forall e f, vf_name f <> [] -> ~ not_compressed (s_lower e) (vf_name f) -> reported e f -> build e f = Throw.
Proof. exact build_reported. Qed.
Print Assumptions C160_reported_partial.
Example C160_ex : reported d_env (VF (d_name 97) [1; 2]) /\ build d_env (VF (d_name 97) [1; 2]) = Throw /\ build d_env (snd (d_file 97 9)) = Throw.
Proof. split; [now apply rep_outer|]. split; vm_compute; reflexivity. Qed.

(** C161: when all are readable, each vendor configuration is listed once, those of the saved configuration first,
    and a second call gives the same list *)
Theorem C161_listed_partial :
  forall e cs c vs, Forall2 (readable e) (vendor_files cs c) vs ->
    supplier_configs e cs c (DS [] false) = (DS vs true, Ok vs) /\ supplier_configs e cs c (DS vs true) = (DS vs true, Ok vs).
Proof. exact listed. Qed.
Print Assumptions C161_listed_partial.
Example C161_ex :
  (do l <- snd (supplier_configs d_env [d_file 97 3; (bs "root", VF [] [])] [d_file 98 1] (DS [] false)); Ok (map (fun v => (v_name v, v_version v)) l)) =
  Ok [(bs "Salary", bs "7"); (bs "Trade", bs "1.2")] /\
  exists vs, Forall2 (readable d_env) (vendor_files [(bs "root", VF [] [])] [d_file 97 1]) vs /\ length vs = 1%nat.
Proof. split; [vm_compute; reflexivity|]. eexists. split; [constructor; [exact d_readable_new|constructor]|reflexivity]. Qed.
(** C161 is false otherwise: one that cannot be read keeps all others from being listed, now and in later calls *)
Theorem C161_one_bad_refuted :
  forall e cs c a f b l, vendor_files cs c = a ++ f :: b -> Forall (fun f => exists v, readable e f v) a ->
    vf_name f <> [] -> ~ not_compressed (s_lower e) (vf_name f) -> reported e f ->
    exists l', supplier_configs e cs c (DS l false) = (DS l' false, Throw).
Proof. exact one_bad. Qed.
Print Assumptions C161_one_bad_refuted.
Example C161_ex_bad : snd (supplier_configs d_env [d_file 97 3] [d_file 98 9; d_file 99 1] (DS [] false)) = Throw.
Proof. vm_compute. reflexivity. Qed.

(** C162: vendor configurations with different names and versions are each saved, expanded, to a file of their own,
    and nothing else in the directory changes *)
Theorem C162_saved_partial :
  forall e can part cs c vs d, Forall2 (readable e) (vendor_files cs c) vs -> NoDup (map target vs) -> (forall v, In v vs -> can (target v) = true) ->
    exists d', save_vendors e can part cs c (DS [] false) d = Ok (map (fun v => (target v, true)) vs, d') /\
    (forall v, In v vs -> exists x, unpacked e (v_file v) x /\ d' (target v) = Some x) /\
    (forall n, ~ In n (map target vs) -> d' n = d n).
Proof. exact saved_apart. Qed.
Print Assumptions C162_saved_partial.
(** C162 is false otherwise: of those with the same name and version only the last is kept *)
Theorem C162_same_refuted :
  forall e can part cs c vs d a v b w r x, Forall2 (readable e) (vendor_files cs c) vs ->
    vs = a ++ v :: b ++ w :: r -> target v = target w -> ~ In (target w) (map target r) -> can (target w) = true -> unpacked e (v_file w) x ->
    exists d', save_vendors e can part cs c (DS [] false) d = Ok (map (fun v => (target v, true)) vs, d') /\ d' (target v) = Some x.
Proof.
  intros e can part cs c vs d a v b w r x H E T N C U. destruct (saved_vendors e can part cs c vs d H) as (d' & S & _ & P & _).
  exists d'. split; [exact S|]. rewrite T. apply (P (a ++ v :: b) w r x); auto. rewrite E. now rewrite <- app_assoc.
Qed.
Print Assumptions C162_same_refuted.
Example C162_ex :
  (do r <- save_vendors d_env (fun _ => true) (fun d => d) [d_file 97 3] [d_file 98 1; d_file 99 2] (DS [] false) (fun _ => None);
   Ok (map fst (fst r), snd r (bs "Salary 7.cf"), snd r (bs "Trade 1.2.cf"))) =
  Ok ([bs "Salary 7.cf"; bs "Trade 1.2.cf"; bs "Trade 1.2.cf"], Some [3], Some [2]).
Proof. vm_compute. reflexivity. Qed.

(** C163 is false: a file that cannot be created is said to have been saved *)
Theorem C163_uncreated_refuted :
  forall e can part cs c vs d, Forall2 (readable e) (vendor_files cs c) vs ->
    exists d', save_vendors e can part cs c (DS [] false) d = Ok (map (fun v => (target v, true)) vs, d') /\
    forall n, can n = false -> d' n = d n.
Proof. intros e can part cs c vs d H. destruct (saved_vendors e can part cs c vs d H) as (d' & S & _ & _ & P). eauto. Qed.
Print Assumptions C163_uncreated_refuted.
Example C163_ex :
  (do r <- save_vendors d_env (fun _ => false) (fun d => d) [d_file 97 3] [] (DS [] false) (fun _ => None); Ok (fst r, snd r (bs "Salary 7.cf"))) =
  Ok ([(bs "Salary 7.cf", true)], None).
Proof. vm_compute. reflexivity. Qed.
(** C163: what is said to have been saved and could be created is there, expanded *)
Theorem C163_created_partial :
  forall e can part cs c vs d v, Forall2 (readable e) (vendor_files cs c) vs -> NoDup (map target vs) -> In v vs -> can (target v) = true ->
    exists d' x, save_vendors e can part cs c (DS [] false) d = Ok (map (fun v => (target v, true)) vs, d') /\ unpacked e (v_file v) x /\ d' (target v) = Some x.
Proof.
  intros e can part cs c vs d v H N I C. destruct (saved_vendors e can part cs c vs d H) as (d' & S & _ & P & _).
  assert (R : exists f, readable e f v) by (clear - H I; induction H as [|f w fs ws R H IH]; [destruct I|]; destruct I as [-> | I]; eauto).
  destruct R as (f & R). destruct (readable_content e f v R) as (dd & x & _ & _ & U). pose proof R as (<- & _). exists d', x. split; [exact S|]. split; [exact U|].
  apply in_split in I. destruct I as (a & b & ->). apply (P a v b x eq_refl); [|exact C|exact U].
  rewrite map_app in N. cbn [map] in N. apply NoDup_remove_2 in N. intros Q. apply N. apply in_or_app. now right.
Qed.
Print Assumptions C163_created_partial.
