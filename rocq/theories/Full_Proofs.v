(** Proofs for Full_Props: pages, objects, places of fields. *)
From Verif Require Import Prelude Lists Text_Model Text_Spec Text_Proofs Tree_Model Tree_Spec Field_Model Field_Spec Field_Proofs Obj_Model Obj_Spec Obj_Proofs Obj_More Obj_Facts
  Blob_Model Blob_Spec Blob_Proofs Blob_Read Blob_Obj Leaf_Model Leaf_Spec Leaf_Walk Rec_Model Xml_Model Xml_Spec Xml_Proofs Descr_Model Descr_Spec Descr_Proofs Full_Model Full_Spec.
From Coq Require String.
Import String.StringSyntax.
Ltac Zify.zify_post_hook ::= idtac.

(** ** Pages *)
Lemma concat_sub {A} (ps : nat) : forall (st : list (list A)) i, Forall (fun p => length p = ps) st -> (i < length st)%nat -> sub (concat st) (i * ps) ps = nth i st [].
Proof.
  induction st as [|p st IH]; intros i H Hi; [cbn [length] in Hi; lia|]. inversion H as [|x y Hp Hst]; subst x y. cbn [concat]. destruct i as [|i].
  - unfold sub. change (0 * ps)%nat with 0%nat. rewrite skipn_O, firstn_app, Hp, Nat.sub_diag, firstn_O, app_nil_r. cbn [nth]. rewrite <- Hp. apply firstn_all.
  - cbn [nth length] in *. rewrite <- (IH i Hst) by lia. unfold sub. rewrite skipn_app, skipn_all2 by lia. cbn [app]. do 2 f_equal. lia.
Qed.
Lemma concat_len {A} (ps : nat) (st : list (list A)) : Forall (fun p => length p = ps) st -> length (concat st) = (length st * ps)%nat.
Proof. induction 1 as [|p st Hp H IH]; [reflexivity|]. cbn [concat length]. rewrite app_length, IH. lia. Qed.
Lemma map_nth_seq {A} (d : A) (l : list A) : map (fun i => nth i l d) (seq 0 (length l)) = l.
Proof. induction l as [|x l IH]; [reflexivity|]. cbn [length seq map nth]. f_equal. rewrite <- seq_shift, map_map. exact IH. Qed.
Lemma pages_ok ps n file st : pages_are file (Z.to_nat ps) st -> 0 < ps -> zlen file = n * ps -> pages_of_file ps n file = st.
Proof.
  intros (E & H) Hp Hl. unfold pages_of_file. pose proof (concat_len _ _ H) as L. rewrite E in L. unfold zlen in Hl.
  assert (En : Z.to_nat n = length st) by nia. rewrite En. rewrite <- (map_nth_seq [] st) at 2. apply map_ext_in. intros i Hi. apply in_seq in Hi. rewrite <- E. apply concat_sub; [exact H|lia].
Qed.

(** ** Objects *)
Definition is_obj (ps : nat) (st : store) (o : obj) (c : list Z) : Prop :=
  faithful (obj_get (Z.of_nat ps)) obj_size (st, o) c /\ obj_len o = zlen c /\ bytes_ok c.
Lemma object_open ps v st n c : object ps v st n c -> exists o, obj_open (Z.of_nat ps) v st n = Ok o /\ is_obj ps st o c.
Proof.
  intros (f & len & tabs & dp & Hf & <- & Hs & <-). destruct (open_ok _ _ _ _ _ _ _ Hs) as (o & E & Ho). exists o. split; [exact E|].
  pose proof (obj_faithful _ _ _ _ _ _ _ _ Hs Hf Ho) as F. split; [exact F|]. split; [exact (proj1 F)|]. eapply content_ok. exact Hs.
Qed.
Lemma object_whole ps st n c junk : object ps false st n c -> c <> [] -> zlen c <= one_table ->
  exists o o', obj_open (Z.of_nat ps) false st n = Ok o /\ get_all (Z.of_nat ps) st o junk = Ok (o', Some c).
Proof.
  intros (f & len & tabs & dp & Hf & Hv & Hs & <-) Hne Hl. pose proof (content_len _ _ _ _ _ _ _ Hs) as Lc.
  assert (H0 : (0 < len)%nat) by (destruct len; [exfalso; apply Hne; reflexivity|lia]).
  destruct f; try discriminate; [|congruence]. unfold zlen in Hl. rewrite Lc in Hl.
  assert (P : Z.of_nat ps = 4096) by (destruct Hs as (_ & _ & _ & _ & _ & _ & _ & h & _ & P & _); exact P).
  destruct (whole_facts ps F80 st n len tabs dp junk Hs H0) as (o & o' & A & B); [|exists o, o'; split; [exact A|exact B]].
  intros (k & Hk & Hk2). unfold one_table in Hl. assert (Z.of_nat per80 = 1023) by reflexivity. nia.
Qed.
Lemma page_one ps v st : free_list ps v st -> Forall (fun p => length p = ps) st -> (32 <= ps)%nat -> exists o, obj_open (Z.of_nat ps) v st 1 = Ok o.
Proof.
  destruct v; cbn [free_list].
  - intros (p & l & Hp & Hs & Ha & Hl) Hst H32. pose proof (page_len _ _ _ _ Hst Hp) as Lp. unfold obj_open. rewrite (get_page_ok _ _ _ Hp). cbn [rbind Z.eqb Pos.eqb].
    rewrite rdn_ok by (unfold zlen; lia). change (Z.to_nat 0) with 0%nat. change (Z.to_nat 2) with 2%nat. rewrite Hs. cbn [rbind]. change (bytes_eqb [28; 255] [28; 255]) with true. cbn [negb].
    unfold u32at at 1. rewrite rdn_ok by (unfold zlen; lia). cbn [rbind]. change 8 with (Z.of_nat 8). rewrite (until_zero_ok p 8 l); [|exact Ha|exact Hl|].
    + eexists. reflexivity.
    + rewrite Nat2Z.id. pose proof (Ha (length l) 0) as Q. rewrite nth_error_app2, Nat.sub_diag in Q by lia. specialize (Q eq_refl). apply num_len in Q. lia.
  - intros (len & tabs & dp & Hs) _ _. destruct (open_ok _ _ _ _ _ _ _ Hs) as (o & E & _). exists o. exact E.
Qed.

(** ** Places of fields *)
Lemma width_size k l : type_size k l = width k l.
Proof. apply type_width. Qed.
Definition tot (w : bool) (fs : list field) : Z := fold_right Z.add 0 (map field_size (filter (fun f => Bool.eqb (is_version (f_kind f)) w) fs)).
Lemma place_seq w : forall fs lo, Field_Model.place (length fs) w fs lo =
  (map (fun x => if Bool.eqb (is_version (f_kind (snd x))) w then set_off (snd x) (lo + tot w (firstn (fst x) fs)) else snd x) (combine (seq 0 (length fs)) fs), lo + tot w fs).
Proof.
  induction fs as [|f fs IH]; intros lo; [cbn; f_equal; lia|]. cbn [length Field_Model.place seq combine map fst snd]. change (tot w (firstn 0 (f :: fs))) with 0.
  assert (T : forall l, tot w (f :: l) = (if Bool.eqb (is_version (f_kind f)) w then field_size f else 0) + tot w l).
  { intros l. unfold tot. cbn [filter]. destruct (Bool.eqb _ w); cbn [map fold_right]; lia. }
  assert (M : forall lo', lo' = lo + (if Bool.eqb (is_version (f_kind f)) w then field_size f else 0) ->
    map (fun x => if Bool.eqb (is_version (f_kind (snd x))) w then set_off (snd x) (lo' + tot w (firstn (fst x) fs)) else snd x) (combine (seq 0 (length fs)) fs) =
    map (fun x => if Bool.eqb (is_version (f_kind (snd x))) w then set_off (snd x) (lo + tot w (firstn (fst x) (f :: fs))) else snd x) (combine (seq 1 (length fs)) fs)).
  { intros lo' Hlo. rewrite <- seq_shift. clear IH. set (s := seq 0 (length fs)). clearbody s. generalize fs at 2 4. intros gs. revert gs. induction s as [|i s IHs]; intros [|g gs]; try reflexivity.
    cbn [map combine fst snd firstn]. rewrite (IHs gs). f_equal. rewrite T. destruct (Bool.eqb (is_version (f_kind g)) w); [|reflexivity]. f_equal. lia. }
  rewrite T. destruct (Bool.eqb (is_version (f_kind f)) w) eqn:Ew; rewrite IH; f_equal; try lia.
  - f_equal; [f_equal; lia|]. apply M. reflexivity.
  - f_equal. apply M. lia.
Qed.
Lemma plain_tot w fs : tot w (map plain_field fs) = sizes w fs.
Proof.
  unfold tot, sizes. induction fs as [|f fs IH]; [reflexivity|]. cbn [map filter]. change (is_version (f_kind (plain_field f))) with (is_ver (fd_kind f)).
  destruct (Bool.eqb _ w); cbn [map fold_right]; [|exact IH]. rewrite IH. f_equal. unfold field_size, size_of. cbn [plain_field f_null f_kind f_len]. now rewrite width_size.
Qed.
Lemma combine_map_r {A B C} (g : B -> C) : forall (a : list A) (b : list B), combine a (map g b) = map (fun x => (fst x, g (snd x))) (combine a b).
Proof. induction a as [|x a IH]; intros [|y b]; try reflexivity. cbn [map combine]. rewrite IH. reflexivity. Qed.
Lemma seq_combine_map {A B} (g : nat * A -> B) : forall (l : list A) k, length (map g (combine (seq k (length l)) l)) = length l.
Proof. intros l k. rewrite List.map_length, List.combine_length, List.seq_length. apply Nat.min_id. Qed.
Lemma combine_map_seq {A B} (g : nat * A -> B) : forall (l : list A) k, combine (seq k (length l)) (map g (combine (seq k (length l)) l)) = map (fun x => (fst x, g x)) (combine (seq k (length l)) l).
Proof. induction l as [|x l IH]; intros k; [reflexivity|]. cbn [length seq combine map fst]. rewrite IH. reflexivity. Qed.
Lemma tot_same w : forall (a b : list field), Forall2 (fun x y => f_kind x = f_kind y /\ f_null x = f_null y /\ f_len x = f_len y) a b -> tot w a = tot w b.
Proof.
  intros a b H. unfold tot. induction H as [|x y a b (A & B & C) H IH]; [reflexivity|]. cbn [filter]. rewrite <- A.
  destruct (Bool.eqb _ w); cbn [map fold_right]; [|exact IH]. rewrite IH. f_equal. unfold field_size. now rewrite A, B, C.
Qed.
Lemma Forall2_firstn' {A B} (R : A -> B -> Prop) : forall a b n, Forall2 R a b -> Forall2 R (firstn n a) (firstn n b).
Proof. intros a b n H. revert n. induction H as [|x y a b Hx H IH]; intros [|n]; cbn [firstn]; constructor; auto. Qed.
Lemma fields_placed fs lock : (lock = true -> exists f, In f fs /\ fd_kind f = KVersion) ->
  table_fields (map plain_field fs) lock = (map x_f (the_fields fs), record_size fs).
Proof.
  intros Hl. unfold table_fields.
  assert (E : (if lock && negb (existsb (fun f => match f_kind f with KVersion => true | _ => false end) (map plain_field fs)) then map plain_field fs ++ [FD KVersion8 false 0 0] else map plain_field fs) = map plain_field fs).
  { destruct lock; [|reflexivity]. destruct (Hl eq_refl) as (f & Hi & Hk).
    assert (X : existsb (fun f => match f_kind f with KVersion => true | _ => false end) (map plain_field fs) = true).
    { apply existsb_exists. exists (plain_field f). split; [now apply in_map|]. cbn [plain_field f_kind]. rewrite Hk. reflexivity. }
    rewrite X. reflexivity. }
  rewrite E. unfold layout. rewrite place_seq, plain_tot.
  set (F1 := map _ (combine _ _)). assert (LF : length F1 = length (map plain_field fs)) by (unfold F1; apply seq_combine_map). rewrite <- LF, place_seq.
  assert (K : Forall2 (fun x y => f_kind x = f_kind y /\ f_null x = f_null y /\ f_len x = f_len y) F1 (map plain_field fs)).
  { unfold F1. set (h := fun x : nat * field => _). assert (Hh : forall i f, f_kind (h (i, f)) = f_kind f /\ f_null (h (i, f)) = f_null f /\ f_len (h (i, f)) = f_len f).
    { intros i f. unfold h. cbn [fst snd]. destruct (Bool.eqb _ true); cbn [set_off f_kind f_null f_len]; auto. }
    clearbody h. clear - Hh. generalize (map plain_field fs) 0%nat. induction l as [|f l IH]; intros k; [constructor|]. cbn [length seq combine map]. constructor; [apply Hh|apply IH]. }
  rewrite (tot_same _ _ _ K), plain_tot. f_equal.
  - rewrite LF. unfold F1 at 2. rewrite combine_map_seq, map_map. unfold the_fields. rewrite map_length, combine_map_r, !map_map. apply map_ext. intros (i & f). cbn [fst snd the_field x_f].
    change (f_kind (plain_field f)) with (fd_kind f). change is_ver with is_version. unfold offset. change is_ver with is_version. rewrite (tot_same _ _ _ (Forall2_firstn' _ _ _ i K)), !firstn_map, !plain_tot.
    destruct (is_version (fd_kind f)) eqn:Ev; cbn [Bool.eqb]; cbn [set_off f_kind f_null f_len plain_field]; rewrite Ev; cbn [Bool.eqb]; unfold set_off, plain_field; cbn [f_kind f_null f_len]; f_equal. lia.
  - unfold record_size. destruct (Z.ltb_spec (1 + sizes true fs + sizes false fs) 5); lia.
Qed.

(** ** Names *)
Lemma ascii_utf8 s : Forall (fun c => 0 < c < 128) s -> utf8_of s = s /\ Forall scalar s /\ before_nul s = s.
Proof.
  induction 1 as [|c s Hc H (A & B & C)]; [split; [reflexivity|split; [constructor|reflexivity]]|]. split; [|split].
  - unfold utf8_of in *. cbn [flat_map]. rewrite A. unfold enc8. destruct (Z.ltb_spec c 128); [reflexivity|lia].
  - constructor; [unfold scalar; lia|exact B].
  - unfold before_nul in *. cbn [cstr]. destruct (Z.eqb_spec c 0); [lia|]. now rewrite C.
Qed.
Lemma low_lower s : Forall (fun c => 0 < c < 128) s -> map to_lower s = map low s.
Proof. intros H. apply map_ext_in. intros c Hc. rewrite Forall_forall in H. specialize (H c Hc). unfold to_lower, low. destruct ((65 <=? c) && (c <=? 90)); [lia|]. destruct (Z.eqb_spec c 1025); [lia|]. destruct ((1040 <=? c) && (c <=? 1071)) eqn:E; [lia|reflexivity]. Qed.
Lemma low_ascii s : Forall (fun c => 0 < c < 128) s -> Forall (fun c => 0 < c < 128) (map low s).
Proof. intros H. apply Forall_map. eapply Forall_impl; [|exact H]. intros c Hc. cbv beta in Hc |- *. unfold low. destruct ((65 <=? c) && (c <=? 90)) eqn:E; lia. Qed.
Lemma ascii_lower_case a : Forall (fun c => 0 < c < 128) a -> lower_case a = Ok (map low a).
Proof.
  intros Ha. destruct (ascii_utf8 a Ha) as (A1 & A2 & A3). pose proof (lower_of a A2) as E. rewrite A1, A3, low_lower in E by assumption. rewrite E. f_equal. exact (proj1 (ascii_utf8 _ (low_ascii a Ha))).
Qed.
Lemma ascii_equal a b : Forall (fun c => 0 < c < 128) a -> Forall (fun c => 0 < c < 128) b -> equal_ic a b = Ok (if list_eq_dec Z.eq_dec (map low a) (map low b) then true else false).
Proof.
  intros Ha Hb. unfold equal_ic, compare_ic. rewrite (ascii_lower_case a Ha), (ascii_lower_case b Hb). cbn [rbind]. f_equal.
  destruct (list_eq_dec Z.eq_dec (map low a) (map low b)) as [e|ne].
  - apply Z.eqb_eq. now apply str_compare_0.
  - apply Z.eqb_neq. intros Q. apply ne. now apply str_compare_0.
Qed.
Lemma ends_ascii s w : Forall (fun c => 0 < c < 128) s -> Forall (fun c => 0 < c < 128) w -> w <> [] -> ends_with_ic s w = Ok (has_end (map low w) s).
Proof.
  intros Hs Hw Hne. unfold ends_with_ic. destruct w as [|x w]; [congruence|]. set (v := x :: w) in *. unfold has_end. rewrite map_length.
  destruct (Nat.ltb_spec (length s) (length v)) as [L|L].
  - f_equal. destruct (list_eq_dec _ _ _) as [e|]; [|reflexivity]. exfalso. apply (f_equal (@length Z)) in e. rewrite !map_length, skipn_length in e. lia.
  - apply ascii_equal; [now apply Forall_skipn'|exact Hw].
Qed.
Lemma guid_ok fs : Forall (fun f => Forall (fun c => 0 < c < 128) (fd_name f)) fs ->
  exists gs, guid_marks fs = Ok gs /\ length gs = length fs /\ forall i f g, nth_error fs i = Some f -> nth_error gs i = Some g -> guid_type f g = for_ids f.
Proof.
  induction 1 as [|f fs Hf H IH]; [exists []; split; [reflexivity|]; split; [reflexivity|]; intros [|i]; discriminate|].
  destruct IH as (gs & E & L & P). exists ((has_end [114; 101; 102] (fd_name f) || has_end [105; 100] (fd_name f)) :: gs).
  assert (R : can_be_guid (fd_name f) = Ok (has_end [114; 101; 102] (fd_name f) || has_end [105; 100] (fd_name f))).
  { unfold can_be_guid. rewrite ends_ascii; [|exact Hf|repeat constructor; vm_compute; reflexivity|discriminate]. cbn [rbind]. change (map low (bs "REF"%string)) with [114; 101; 102].
    destruct (has_end [114; 101; 102] (fd_name f)); [reflexivity|]. cbn [orb]. rewrite ends_ascii; [reflexivity|exact Hf|repeat constructor; vm_compute; reflexivity|discriminate]. }
  split; [cbn [guid_marks]; rewrite R; cbn [rbind]; rewrite E; reflexivity|]. split; [cbn [length]; lia|].
  intros [|i] f' g Hi Hg; cbn [nth_error] in Hi, Hg; [|exact (P i f' g Hi Hg)]. injection Hi as <-. injection Hg as <-. unfold guid_type, for_ids. destruct (fd_kind f); try reflexivity. apply andb_comm.
Qed.
Lemma names_aux all : forall fs gs s, length s = length fs -> length gs = length fs -> (forall i f g, nth_error fs i = Some f -> nth_error gs i = Some g -> guid_type f g = for_ids f) ->
  with_names fs gs (map (fun x => x_f (the_field all x)) (combine s fs)) = map (the_field all) (combine s fs).
Proof.
  induction fs as [|f fs IH]; intros [|g gs] [|k s] Ls Lg P; try discriminate; [reflexivity|]. cbn [combine map with_names]. f_equal.
  - unfold the_field. cbn [fst snd x_f]. f_equal. exact (P 0%nat f g eq_refl eq_refl).
  - apply IH; [cbn [length] in Ls; lia|cbn [length] in Lg; lia|]. intros i f' g' Hi Hg. exact (P (S i) f' g' Hi Hg).
Qed.
Lemma names_ok fs gs : length gs = length fs -> (forall i f g, nth_error fs i = Some f -> nth_error gs i = Some g -> guid_type f g = for_ids f) ->
  with_names fs gs (map x_f (the_fields fs)) = the_fields fs.
Proof. intros L P. unfold the_fields. rewrite map_map. apply names_aux; [apply List.seq_length|exact L|exact P]. Qed.
