(** Proofs for Full_Props: the documents. *)
From Verif Require Import Prelude Lists Text_Model Text_Spec Text_Proofs Tree_Model Tree_Spec Field_Model Field_Spec Field_Proofs Obj_Model Obj_Spec Obj_Proofs Obj_More Obj_Facts
  Blob_Model Blob_Spec Blob_Proofs Blob_Read Blob_Obj Leaf_Model Leaf_Spec Leaf_Walk Rec_Model Xml_Model Xml_Spec Xml_Proofs Xml_Values Xml_Rows Descr_Model Descr_Spec Descr_Proofs Full_Model Full_Spec Full_Proofs Full_Open.
Ltac Zify.zify_post_hook ::= idtac.

(** ** Records *)
Lemma rec_get ps v st x t n rec : table_view ps v st x t -> 0 <= n -> nth_error (c_recs x) (Z.to_nat n) = Some rec -> record_at (Z.of_nat ps) st t n = Ok rec.
Proof.
  intros (_ & _ & Er & _ & ((_ & Fg) & _) & C32 & Hr & _) Hn E. unfold record_at. rewrite Er. set (L := record_size _) in *. assert (L5 : 5 <= L) by (unfold L, record_size; lia).
  assert (Hi : (Z.to_nat n < length (c_recs x))%nat) by (apply nth_error_Some; congruence). pose proof (recs_len L _ Hr) as Lc. unfold zlen in Lc at 2.
  assert (Hm : (n + 1) * L <= zlen (concat (c_recs x))) by nia. assert (U : u32 (n * L) = n * L) by (unfold u32; apply Z.mod_small; nia). rewrite U. rewrite Fg by nia. f_equal.
  replace (Z.to_nat (n * L)) with (Z.to_nat n * Z.to_nat L)%nat by nia. rewrite concat_sub; [now apply nth_error_nth|eapply Forall_impl; [|exact Hr]; cbv beta; intros r Q; unfold zlen in Q; lia|exact Hi].
Qed.
Lemma found_seq get : forall l k, (forall i r, nth_error l i = Some r -> get (Z.of_nat (k + i)) = Ok r) -> Forall (fun r => r <> []) l ->
  found get (length l) (Z.of_nat k) = Ok (map (fun x => Z.of_nat (fst x)) (filter (fun x => match snd x with 0 :: _ => true | _ => false end) (combine (seq k (length l)) l))).
Proof.
  induction l as [|r l IH]; intros k G N; [reflexivity|]. cbn [length found seq combine filter snd map fst]. inversion N as [|? ? N1 N2]; subst.
  pose proof (G 0%nat r eq_refl) as G0. rewrite Nat.add_0_r in G0. rewrite G0. cbn [rbind]. destruct r as [|b r]; [congruence|]. unfold is_removed. change (rd (b :: r) 0) with (@Ok Z b). cbn [rbind].
  replace (Z.of_nat k + 1) with (Z.of_nat (S k)) by lia. rewrite (IH (S k)); [|intros i r' Hi; replace (S k + i)%nat with (k + S i)%nat by lia; now apply G|exact N2].
  cbn [rbind]. destruct b as [|p|p]; reflexivity.
Qed.
Lemma found_ok ps v st x t : table_view ps v st x t -> found (record_at (Z.of_nat ps) st t) (Z.to_nat (ot_phys t)) 0 = Ok (live_numbers (c_recs x)).
Proof.
  intros H. pose proof H as (_ & _ & _ & Ep & _ & _ & Hr & _). rewrite Ep. unfold zlen. rewrite Nat2Z.id. change 0 with (Z.of_nat 0). rewrite found_seq; [reflexivity| |].
  - intros i r Hi. cbn [Nat.add]. eapply rec_get; [exact H|lia|]. now rewrite Nat2Z.id.
  - eapply Forall_impl; [|exact Hr]. cbv beta. intros r Q ->. unfold record_size, zlen in Q. cbn [length] in Q. lia.
Qed.

(** ** Blobs *)
Lemma blob_get ps v st x t s n d : table_view ps v st x t -> blob_in (c_blob x) s n d -> table_blob (Z.of_nat ps) st (ot_blob t) s n = Ok d.
Proof.
  intros (_ & _ & _ & _ & _ & _ & _ & HB & _) (c & bl & Ec & Bl & <- & Hk). rewrite Ec in HB. destruct HB as (o & -> & (F & Fl & Fb) & Hd & H32).
  unfold table_blob. pose proof Bl as (ds & L & Ed). pose proof (linked_start _ _ _ _ L) as S0.
  destruct (Z.eqb_spec s 0) as [-> |Hs].
  - assert (bl = []) by (destruct bl as [|b bl]; [reflexivity|]; destruct ds as [|x0 ds]; cbn [linked] in L; [contradiction|]; destruct L as (<- & nxt & (Q & _) & _); lia). subst bl.
    destruct ds; cbn [linked] in L; [|contradiction]. cbn [concat] in Ed. subst d. cbn [zlen length Z.of_nat Z.eqb negb andb]. unfold read_blob_table. cbn [Z.eqb andb negb]. pose proof (proj1 F) as Hs. rewrite Hs.
    assert (E1 : u32 (zlen c) = zlen c) by (apply Z.mod_small; pose proof (zlen_nonneg c); lia). rewrite E1. destruct Hd as (q & Hq). rewrite Hq, Z.div_mul by lia. rewrite <- Hq, E1, Z.eqb_refl. cbn [negb]. rewrite loop_0. reflexivity.
  - cbn [andb]. rewrite (table_short (obj_get (Z.of_nat ps)) obj_size (st, o) c _ s (zlen d) bl d F Fb H32); [reflexivity|apply Z.mod_divide; [lia|exact Hd]|exact Bl|lia| |lia].
    rewrite Fl. unfold zlen. rewrite Nat2Z.id. lia.
Qed.

(** ** Index trees *)
Lemma stored_get g1 g2 ps len mul : (forall o p, g1 o ps = Ok p -> g2 o ps = Ok p) -> forall t, Leaf_Spec.stored g1 ps len mul t -> Leaf_Spec.stored g2 ps len mul t.
Proof.
  intros G. assert (PA : forall o p, page_at g1 ps o p -> page_at g2 ps o p) by (intros o p (A & B); split; [now apply G|exact B]).
  fix IH 1. intros [o recs|o kids].
  - cbn [Leaf_Spec.stored]. intros (p & A & B). exists p. split; [now apply PA|exact B].
  - cbn [Leaf_Spec.stored]. intros (p & A & B & C & D & E & F & K). exists p. split; [now apply PA|]. repeat (split; [assumption|]).
    clear - IH K. revert K. induction kids as [|k kids IHk]; [trivial|]. intros (K1 & K2). split; [apply IH; exact K1|]. apply IHk. exact K2.
Qed.
Lemma chained_get g1 g2 ps mul : (forall o p, g1 o ps = Ok p -> g2 o ps = Ok p) -> forall l, chained g1 ps mul l -> chained g2 ps mul l.
Proof.
  intros G. induction l as [|a l IH]; [trivial|]. cbn [chained]. intros ((p & (A & A') & B) & C). split; [|now apply IH]. exists p. split; [split; [now apply G|exact A']|exact B].
Qed.
Lemma walk_index ps v st o c s order room : is_obj ps st o c -> (32 <= ps)%nat -> index_at (Z.of_nat ps) v c s order -> zlen order <= room ->
  create_recordsindex (obj_get (Z.of_nat ps) (st, o)) (S (Z.to_nat (obj_len o))) s (Z.of_nat ps) v room = Ok order.
Proof.
  intros ((_ & Fg) & Fl & Fb) P32 (h & t & len & Hlen & Hs & Hc & Hh & Hr & Hl & Hht & Hlv & ->) Hroom.
  assert (G : forall n, 0 < n -> forall o' p, in_file c o' n = Ok p -> obj_get (Z.of_nat ps) (st, o) o' n = Ok p).
  { intros n Hn o' p. unfold in_file. destruct (Z.leb_spec 0 o'); cbn [andb]; [|discriminate]. destruct (Z.leb_spec (o' + n) (zlen c)); [|discriminate]. intros E. rewrite <- E. apply Fg; lia. }
  apply (walk_ok (obj_get (Z.of_nat ps) (st, o)) _ s (Z.of_nat ps) v room len t h Hlen); [lia|..].
  - eapply stored_get; [|exact Hs]. apply G. lia.
  - eapply chained_get; [|exact Hc]. apply G. lia.
  - apply G; [lia|exact Hh].
  - exact Hr.
  - exact Hl.
  - rewrite Fl. unfold zlen. rewrite Nat2Z.id. lia.
  - rewrite Fl. unfold zlen. rewrite Nat2Z.id. lia.
  - unfold zlen in *. rewrite map_length in Hroom. exact Hroom.
Qed.

(** ** Views of the indexes *)
Definition col_view (fs : list xfield) (i : idecl) (rs : list Z) : xindex :=
  XI (id_primary i) (map (fun c => nth (fst c) fs (XF [] (FD KBin false 0 0) 0 false)) (id_cols i)) rs.
Lemma views_none walk seen fs : forall is ss, length ss = length is -> (seen = true \/ Forall (fun i => id_primary i = false) is) -> views walk seen fs is ss = Ok (map (fun i => col_view fs i []) is).
Proof.
  revert seen. assert (H1 : forall is ss seen, length ss = length is -> (seen = true \/ Forall (fun i => id_primary i = false) is) -> views walk seen fs is ss = Ok (map (fun i => col_view fs i []) is)).
  { induction is as [|i is IH]; intros [|s ss] seen L H; try discriminate; [reflexivity|]. cbn [views map].
    assert (E : id_primary i && negb seen = false). { destruct H as [-> |H]; [apply andb_false_r|]. inversion H as [|? ? Q]; subst. now rewrite Q. }
    rewrite E. cbn [rbind]. rewrite IH; [reflexivity|cbn [length] in L; lia|]. destruct H as [-> |H]; [left; reflexivity|]. inversion H as [|? ? Q Q2]; subst. right. exact Q2. }
  intros seen is ss. apply H1.
Qed.
Lemma views_one walk fs s order : s <> 0 -> walk s = Ok order -> forall a i b ss, length ss = length (a ++ i :: b) -> Forall (fun j => id_primary j = false) a -> id_primary i = true -> nth_error ss (length a) = Some s ->
  views walk false fs (a ++ i :: b) ss = Ok (map (fun j => col_view fs j []) a ++ col_view fs i order :: map (fun j => col_view fs j []) b).
Proof.
  intros Hs Hw. induction a as [|j a IH]; intros i b [|s' ss] L Ha Hi E; try discriminate.
  - cbn [app views map length nth_error] in *. injection E as ->. rewrite Hi. cbn [andb negb orb]. destruct (Z.eqb_spec s 0); [congruence|]. rewrite Hw. cbn [rbind]. rewrite (views_none walk true); [unfold col_view; rewrite Hi; reflexivity|lia|left; reflexivity].
  - cbn [app views map length nth_error] in *. inversion Ha as [|? ? Q Q2]; subst. rewrite Q. cbn [andb orb rbind]. rewrite (IH i b ss); [unfold col_view at 4; rewrite Q; reflexivity|lia|exact Q2|exact Hi|exact E].
Qed.

(** ** The table as the export sees it *)
Definition cols_inside (d : tdecl) : Prop := Forall (fun i => Forall (fun c => (fst c < length (td_fields d))%nat) (id_cols i)) (td_indexes d).
Definition small_numbers (d : tdecl) : Prop := Forall (fun f => -2 ^ 31 <= fd_len f < 2 ^ 31 /\ -2 ^ 31 <= fd_prec f < 2 ^ 31) (td_fields d).
Lemma described_facts same ps v st root d b : described same ps v st root d b -> cols_inside d /\ small_numbers d.
Proof.
  intros (t & _ & (x & fs & w & is & a & b' & c & _ & _ & HF & _ & HI & _) & _). split.
  - unfold cols_inside. clear HF. revert is HI. generalize (td_indexes d). induction l as [|i l IH]; intros is H; [constructor|]. inversion H as [|? y ? is' (cols & _ & _ & Hc) H2]; subst. constructor; [|exact (IH is' H2)].
    clear - Hc. revert cols Hc. generalize (id_cols i). induction l as [|c l IH]; intros cols H; [constructor|]. inversion H as [|? y ? cols' (nm & ln & _ & (f & Hf & _) & _) H2]; subst. constructor; [|exact (IH cols' H2)]. apply nth_error_Some. congruence.
  - unfold small_numbers. clear HI. revert HF. generalize fs. generalize (td_fields d). induction l as [|f l IH]; intros ts H; [constructor|]. inversion H as [|? y ? ts' (code & ln & pr & _ & _ & (v1 & _ & N1 & _) & (v2 & _ & N2 & _)) H2]; subst. constructor; [split; assumption|exact (IH ts' H2)].
Qed.
Definition rows_of (x : cont) (ord : list Z) (rows : list (list (list Z * list Z))) : Prop :=
  Forall2 (fun n r => exists rec, 0 <= n /\ nth_error (c_recs x) (Z.to_nat n) = Some rec /\ Forall2 (fun f c => cell_is (c_blob x) f rec c) (the_fields (td_fields (c_decl x))) r) ord rows.
Lemma Forall2_impl' {A B} (R Q : A -> B -> Prop) a b : (forall x y, R x y -> Q x y) -> Forall2 R a b -> Forall2 Q a b.
Proof. induction 2; constructor; auto. Qed.
Lemma Forall_imp {A} (P Q : A -> Prop) l : (forall x, In x l -> P x -> Q x) -> Forall P l -> Forall Q l.
Proof. intros H F. rewrite Forall_forall in *. auto. Qed.
Lemma fields_len fs : length (the_fields fs) = length fs.
Proof. unfold the_fields. rewrite map_length, combine_length, List.seq_length. apply Nat.min_id. Qed.
Lemma fields_forall (P : fdecl -> Prop) (Q : xfield -> Prop) fs : (forall f i, P f -> Q (the_field fs (i, f))) -> Forall P fs -> Forall Q (the_fields fs).
Proof.
  intros H F. unfold the_fields. apply Forall_map. apply Forall_forall. intros (i & f) Hi. apply in_combine_r in Hi. rewrite Forall_forall in F. apply H, F, Hi.
Qed.
Lemma cell_doc_ok ps v st x t f rec c : table_view ps v st x t -> cell_is (c_blob x) f rec c -> cell_doc (table_blob (Z.of_nat ps) st (ot_blob t)) (x_name f) (x_f f) (x_prec f) (x_ref f) rec c.
Proof.
  intros V (A & B & C & D & E). unfold cell_doc. repeat (split; [assumption|]). destruct (is_missing (x_f f) rec); [exact E|]. cbv zeta in *. destruct E as (d & E1 & E2). exists d. split; [|exact E2].
  destruct (f_kind (x_f f)); try exact Logic.I; eapply blob_get; eassumption.
Qed.

Section Export.
Variables (ps : nat) (v : bool) (st : store) (x : cont) (t : otab) (e : xenv) (b : db).
Hypothesis V : table_view ps v st x t.
Hypothesis P32 : (32 <= ps)%nat.
Hypothesis Bp : db_ps b = Z.of_nat ps.
Hypothesis Bv : db_838 b = v.
Hypothesis Bs : db_st b = st.
Hypothesis CI : cols_inside (c_decl x).
Hypothesis SN : small_numbers (c_decl x).
Let d := c_decl x.
Let e' := set_blob e (table_blob (Z.of_nat ps) st (ot_blob t)).
Let get := record_at (Z.of_nat ps) st t.

(** the indexes as the export sees them *)
Definition index_views (is : list xindex) : Prop :=
  (no_primary_index d /\ is = map (fun i => col_view (the_fields (td_fields d)) i []) (td_indexes d)) \/
  (exists a i c, td_indexes d = a ++ i :: c /\ Forall (fun j => id_primary j = false) a /\ id_primary i = true /\
     is = map (fun j => col_view (the_fields (td_fields d)) j []) a ++ col_view (the_fields (td_fields d)) i (c_order x) :: map (fun j => col_view (the_fields (td_fields d)) j []) c).
Lemma export_shape fill : exists is, index_views is /\
  export_table e b t fill false = export_to_xml e' (XT (td_name d) (the_fields (td_fields d)) is (if fill then live_numbers (c_recs x) else []) get) false.
Proof.
  unfold export_table. rewrite Bp, Bv, Bs. fold get. fold e'.
  assert (E1 : (if fill then found get (Z.to_nat (ot_phys t)) 0 else Ok []) = Ok (if fill then live_numbers (c_recs x) else [])).
  { destruct fill; [|reflexivity]. unfold get. now apply (found_ok ps v st x t). }
  rewrite E1. cbn [rbind]. pose proof V as (Vd & Vf & Vr & Vp & Vo & V32 & Vrec & _ & VI). rewrite Vd, Vf. fold d.
  set (walk := fun s : Z => _). assert (E2 : exists is, index_views is /\ views walk false (the_fields (td_fields d)) (td_indexes d) (ot_starts t) = Ok is).
  { destruct VI as [(I1 & I2 & I3 & _)|(o & c & I1 & I2 & Io & IL & [(N & _)|(s & (a & i & c' & Ea & Hi & Ha & Hn) & Hs & Hx & Hz)])]; fold d in I1.
    - exists []. rewrite I1, I3. split; [|reflexivity]. left. unfold no_primary_index. rewrite I1. split; [constructor|reflexivity].
    - fold d in N, IL. eexists. split; [left; split; [exact N|reflexivity]|]. apply views_none; [exact IL|right; exact N].
    - fold d in Ea, IL. eexists. split; [right; exists a, i, c'; repeat (split; [assumption|]); reflexivity|]. rewrite Ea. rewrite Ea in IL. apply (views_one walk (the_fields (td_fields d)) s (c_order x)); [lia| |exact IL|exact Ha|exact Hi|exact Hn].
      unfold walk. rewrite I2. apply (walk_index ps v st o c s (c_order x)); [exact Io|exact P32|exact Hx|]. destruct Vo as (_ & -> & _). rewrite (recs_len _ _ Vrec), Vr, Z.div_mul; [exact Hz|]. unfold record_size. lia. }
  destruct E2 as (is & H1 & H2). exists is. split; [exact H1|]. rewrite H2. reflexivity.
Qed.
(** what is shown *)
Lemma shown_of is ns ord : index_views is -> (no_primary_index d -> ord = ns) -> (~ no_primary_index d -> ord = c_order x) ->
  shown (XT (td_name d) (the_fields (td_fields d)) is ns get) ord.
Proof.
  assert (NP : forall l, Forall (fun i => id_primary i = false) l -> Forall (fun j => i_primary j = false) (map (fun i => col_view (the_fields (td_fields d)) i []) l)) by (intros l H; apply Forall_map; exact H).
  intros [(N & ->)|(a & i & c & Ea & Ha & Hi & ->)] H1 H2.
  - right. split; [unfold no_primary; cbn [t_indexes]; now apply NP|]. cbn [t_found]. now apply H1.
  - left. exists (col_view (the_fields (td_fields d)) i (c_order x)). split; [|cbn [col_view i_recs]; apply H2].
    + do 2 eexists. split; [cbn [t_indexes]; reflexivity|]. split; [exact Hi|now apply NP].
    + intros N. unfold no_primary_index in N. rewrite Ea in N. apply Forall_app in N. destruct N as (_ & N). inversion N as [|? ? Q]; subst. congruence.
Qed.
Lemma named_of is ns cols : index_views is -> keys_of d cols -> named_by (XT (td_name d) (the_fields (td_fields d)) is ns get) (map (fun c => nth (fst c) (the_fields (td_fields d)) (XF [] (FD KBin false 0 0) 0 false)) cols).
Proof.
  assert (NP : forall l, Forall (fun i => id_primary i = false) l -> Forall (fun j => i_primary j = false) (map (fun i => col_view (the_fields (td_fields d)) i []) l)) by (intros l H; apply Forall_map; exact H).
  intros HV HK. destruct HV as [(N & ->)|(a & i & c & Ea & Ha & Hi & ->)].
  - destruct HK as [(a & i & c & Ea & Hi & _)|(_ & ->)].
    + exfalso. unfold no_primary_index in N. rewrite Ea in N. apply Forall_app in N. destruct N as (_ & N). inversion N as [|? ? Q]; subst. congruence.
    + right. split; [unfold no_primary; cbn [t_indexes]; now apply NP|]. cbn [t_indexes]. destruct (td_indexes d); reflexivity.
  - destruct HK as [(a' & i' & c' & Ea' & Hi' & Ha' & ->)|(N & _)].
    + assert (i' = i).
      { rewrite Ea in Ea'. clear - Ea' Ha Ha' Hi Hi'. revert a' Ha' Ea'. induction a as [|j a IH]; intros [|j' a'] Ha' E; cbn [app] in E.
        - congruence.
        - inversion Ha' as [|? ? Q]; subst. assert (i = j') by congruence. congruence.
        - inversion Ha as [|? ? Q]; subst. assert (j = i') by congruence. congruence.
        - inversion Ha as [|? ? Q Q2]; subst. inversion Ha' as [|? ? R R2]; subst. apply (IH Q2 a' R2). congruence. }
      subst i'. left. exists (col_view (the_fields (td_fields d)) i (c_order x)). split; [|reflexivity]. do 2 eexists. split; [cbn [t_indexes]; reflexivity|]. split; [exact Hi|now apply NP].
    + exfalso. unfold no_primary_index in N. rewrite Ea in N. apply Forall_app in N. destruct N as (_ & N). inversion N as [|? ? Q]; subst. congruence.
Qed.
Lemma keys_exist : exists cols, keys_of d cols /\ Forall (fun c => (fst c < length (td_fields d))%nat) cols.
Proof.
  assert (CI' : Forall (fun i => Forall (fun c => (fst c < length (td_fields d))%nat) (id_cols i)) (td_indexes d)) by exact CI.
  assert (D : (exists a i c, td_indexes d = a ++ i :: c /\ id_primary i = true /\ Forall (fun j => id_primary j = false) a) \/ no_primary_index d).
  { unfold no_primary_index. clear. generalize (td_indexes d). induction l as [|j l IH]; [right; constructor|]. destruct (id_primary j) eqn:E; [left; exists [], j, l; auto|].
    destruct IH as [(a & i & c & -> & Hi & Ha)|N]; [left; exists (j :: a), i, c; auto|right; now constructor]. }
  destruct D as [(a & i & c & Ea & Hi & Ha)|N].
  - exists (id_cols i). split; [left; exists a, i, c; auto|]. rewrite Ea in CI'. apply Forall_app in CI'. destruct CI' as (_ & Q). inversion Q; subst. assumption.
  - eexists. split; [right; split; [exact N|reflexivity]|]. destruct (td_indexes d) as [|i l]; [constructor|]. inversion CI'; subst. assumption.
Qed.

Lemma export_rows (fill : bool) (ord : list Z) (doc : tdoc) : (no_primary_index d -> ord = if fill then live_numbers (c_recs x) else []) -> (~ no_primary_index d -> ord = c_order x) ->
  heads d doc -> rows_of x ord (td_rows doc) -> good_names d ->
  (e_junk e = 0 /\ no_pictures d) \/ (forall cols c n rec f, keys_of d cols -> In c cols -> In n ord -> nth_error (c_recs x) (Z.to_nat n) = Some rec ->
    nth_error (the_fields (td_fields d)) (fst c) = Some f -> is_missing (x_f f) rec = false) ->
  exists o : list Z, export_table e b t fill false = Ok (o, []) /\ read_xml o = Some (doc_events doc).
Proof.
  intros H1 H2 (Hn & Hf) Hr (Gn & Gf) HP. destruct (export_shape fill) as (is & HV & ->). pose proof (shown_of is _ ord HV H1 H2) as Sh.
  apply export_reads.
  - split; [exact Hn|]. cbn [t_fields]. split; [exact Hf|]. exists ord. split; [exact Sh|]. cbn [t_get]. eapply Forall2_impl'; [|exact Hr]. cbv beta. intros n r (rec & Hn0 & Hrec & Hc). exists rec. split; [apply (rec_get ps v st x t n rec V Hn0 Hrec)|].
    unfold row_doc. eapply Forall2_impl'; [|exact Hc]. cbv beta. intros f c Q. unfold e'. cbn [set_blob e_blob]. now apply (cell_doc_ok ps v st x t f rec c V).
  - split; [exact Gn|]. cbn [t_fields]. apply (fields_forall (fun f => xml_name (fd_name f) /\ -2 ^ 31 <= fd_len f < 2 ^ 31 /\ -2 ^ 31 <= fd_prec f < 2 ^ 31)).
    + intros f i (A & B & C). unfold the_field. cbn [fst snd x_name x_f f_len x_prec]. split; [exact A|]. lia.
    + pose proof SN as SN'. unfold small_numbers in SN'. fold d in SN'. rewrite Forall_forall in *. intros f Hi. split; [now apply Gf|]. now apply SN'.
  - destruct HP as [(J & NPic)|K]; [left|right].
    + split; [exact J|]. cbn [t_fields]. apply (fields_forall (fun f => fd_kind f <> KImage)); [|exact NPic]. intros f i Q. exact Q.
    + intros ns n rec Hs Hi Hg. cbn [t_get] in Hg. assert (ns = ord) by (rewrite <- (shown_numbers _ _ Hs); now apply shown_numbers). subst ns.
      destruct keys_exist as (cols & HK & HC). eexists. split; [apply (named_of is _ cols HV HK)|]. cbn [t_fields]. apply Forall_map. rewrite Forall_forall in *. intros c Hc. specialize (HC c Hc).
      assert (Hnr : exists rec', 0 <= n /\ nth_error (c_recs x) (Z.to_nat n) = Some rec').
      { clear - Hr Hi. unfold rows_of in Hr. induction Hr as [|n' r ord rows (rec' & A & B & _) H IH]; [contradiction|]. destruct Hi as [-> |Hi]; [exists rec'; auto|now apply IH]. }
      destruct Hnr as (rec' & Hn0 & Hrec). assert (rec' = rec) by (pose proof (rec_get ps v st x t n rec' V Hn0 Hrec) as Q; unfold get in Hg; congruence). subst rec'.
      destruct (nth_error (the_fields (td_fields d)) (fst c)) as [f|] eqn:En; [|apply nth_error_None in En; rewrite fields_len in En; lia].
      rewrite (nth_error_nth _ _ _ En). split; [eapply nth_error_In; exact En|]. exact (K cols c n rec f HK Hc Hi Hrec En).
Qed.
End Export.

(** ** A database and its tables *)
Lemma order_none ps v st x t : table_view ps v st x t -> no_primary_index (c_decl x) -> c_order x = live_numbers (c_recs x).
Proof.
  intros V N. destruct V as (_ & _ & _ & _ & _ & _ & _ & _ & [(_ & _ & _ & E)|(o & c & _ & _ & _ & _ & [(_ & E)|(s & (a & i & b & E & P & _) & _)])]); [exact E|exact E|].
  exfalso. unfold no_primary_index in N. rewrite E in N. rewrite Forall_forall in N. specialize (N i). rewrite P in N. assert (Q : true = false) by (apply N, in_elt). discriminate.
Qed.
Lemma base_facts same file mono h st ds : base same file mono h st ds -> Forall (fun d => cols_inside d /\ small_numbers d) ds.
Proof.
  intros (_ & _ & _ & _ & _ & (root & lang & pad & blocks & rest & _ & _ & _ & _ & H)). clear - H. induction H as [|d b ds bs0 Hd H IH]; constructor; [exact (described_facts _ _ _ _ _ _ _ Hd)|exact IH].
Qed.
(** what one table gives *)
Lemma export_one (e : xenv) b ps v st x t fill doc : (32 <= ps)%nat -> db_ps b = Z.of_nat ps -> db_838 b = v -> db_st b = st -> table_view ps v st x t -> cols_inside (c_decl x) -> small_numbers (c_decl x) ->
  good_names (c_decl x) -> ready e x -> heads (c_decl x) doc -> (if fill || negb (forallb (fun i => negb (id_primary i)) (td_indexes (c_decl x))) then document x doc else td_rows doc = []) ->
  exists o, export_table e b t fill false = Ok (o, []) /\ read_xml o = Some (doc_events doc).
Proof.
  intros P32 B1 B2 B3 V CI SN G R Hh Hd.
  assert (NP : forallb (fun i => negb (id_primary i)) (td_indexes (c_decl x)) = true <-> no_primary_index (c_decl x)).
  { unfold no_primary_index. rewrite forallb_forall, Forall_forall. split; intros H i Hi; specialize (H i Hi); now destruct (id_primary i). }
  assert (OE : (fill || negb (forallb (fun i => negb (id_primary i)) (td_indexes (c_decl x))))%bool = true \/ (fill = false /\ no_primary_index (c_decl x))).
  { destruct fill; [now left|]. cbn [orb]. destruct (forallb _ _) eqn:E; [right; split; [reflexivity|now apply NP]|now left]. }
  destruct OE as [E|(-> & N)].
  - rewrite E in Hd. apply (export_rows ps v st x t e b V P32 B1 B2 B3 CI SN fill (c_order x) doc); [ |trivial|exact Hh|exact (proj2 Hd)|exact G|exact R].
    intros N. rewrite (order_none ps v st x t V N). apply NP in N. rewrite N in E. destruct fill; [reflexivity|discriminate].
  - rewrite (proj2 NP N) in Hd. cbn [orb negb] in Hd. apply (export_rows ps v st x t e b V P32 B1 B2 B3 CI SN false [] doc); [reflexivity|intros Q; exfalso; exact (Q N)|exact Hh|rewrite Hd; constructor|exact G|].
    destruct R as [R|R]; [left; exact R|right; intros cols c n rec f _ _ []].
Qed.
Lemma nth_F2 {A B} (R : A -> B -> Prop) : forall l m k x, Forall2 R l m -> nth_error l k = Some x -> exists y, nth_error m k = Some y /\ R x y.
Proof. intros l m k x H. revert k. induction H as [|a b l m Hab H IH]; intros [|k] Hk; try discriminate; [injection Hk as <-; exists b; auto|exact (IH k Hk)]. Qed.
Lemma named_ok same hjunk junk file mono h st xs : database same file mono h st xs ->
  exists b, open_db same hjunk junk file mono = Ok b /\ map ot_decl (db_tables b) = map c_decl xs /\
    forall e k x doc, nth_error xs k = Some x -> document x doc -> good_names (c_decl x) -> ready e x ->
      exists t o, nth_error (db_tables b) k = Some t /\ export_named e b t false = Ok (o, []) /\ read_xml o = Some (doc_events doc).
Proof.
  intros D. destruct (open_db_ok same hjunk junk _ _ _ _ _ D) as (b & E & B1 & B2 & B3 & P32 & V). exists b. split; [exact E|]. split; [exact (views_decls _ _ _ _ _ V)|].
  intros e k x doc Hk Hd G R. destruct (nth_F2 _ _ _ _ _ V Hk) as (t & Ht & Vt). pose proof (base_facts _ _ _ _ _ _ (proj1 D)) as F. rewrite Forall_forall in F.
  destruct (F (c_decl x)) as (CI & SN); [apply in_map; eapply nth_error_In; exact Hk|].
  destruct (export_one e b (Z.to_nat (h_page h)) (v838_of (h_ver h)) st x t true doc) as (o & Eo & Ro); try assumption; [lia|exact (proj1 Hd)|]. exists t, o. auto.
Qed.
Lemma listed_of x doc : listed x doc ->
  if forallb (fun i => negb (id_primary i)) (td_indexes (c_decl x)) && negb (match td_indexes (c_decl x) with [] => true | _ => false end)
  then heads (c_decl x) doc /\ td_rows doc = [] else document x doc.
Proof.
  intros (Hh & H1 & H2). assert (NP : forallb (fun i => negb (id_primary i)) (td_indexes (c_decl x)) = true <-> no_primary_index (c_decl x)).
  { unfold no_primary_index. rewrite forallb_forall, Forall_forall. split; intros H i Hi; specialize (H i Hi); now destruct (id_primary i). }
  destruct (td_indexes (c_decl x)) as [|i is] eqn:Ei; [cbn [forallb negb andb]; apply H2; now left|]. cbn [negb]. rewrite andb_true_r.
  destruct (forallb _ (i :: is)) eqn:Ef; [split; [exact Hh|]; apply H1; split; [discriminate|now apply NP]|]. apply H2. right. intros N. apply NP in N. discriminate.
Qed.
Lemma all_ok same hjunk junk file mono h st xs : database same file mono h st xs ->
  exists b, open_db same hjunk junk file mono = Ok b /\
    forall e docs, Forall2 listed xs docs -> Forall (fun x => good_names (c_decl x) /\ ready e x) xs ->
      exists outs, export_all e b (db_tables b) false = Ok outs /\ map fst outs = map (fun x => td_name (c_decl x)) xs /\ Forall2 (fun o doc => read_xml (snd o) = Some (doc_events doc)) outs docs.
Proof.
  intros D. destruct (open_db_ok same hjunk junk _ _ _ _ _ D) as (b & E & B1 & B2 & B3 & P32 & V). exists b. split; [exact E|].
  intros e docs Hd HG. pose proof (base_facts _ _ _ _ _ _ (proj1 D)) as F. assert (Pz : db_ps b = Z.of_nat (Z.to_nat (h_page h))) by lia. clear D E B1. revert docs Hd HG F.
  generalize dependent (db_tables b). induction xs as [|x xs IH]; intros ts V docs Hd HG F; inversion V as [|? t ? ts' Vt V']; subst; inversion Hd as [|? doc ? docs' Hx Hd']; subst; [exists []; split; [reflexivity|split; [reflexivity|constructor]]|].
  inversion HG as [|? ? (G & R) HG']; subst. cbn [map] in F. inversion F as [|? ? (CI & SN) F']; subst. destruct (IH ts' V' docs' Hd' HG' F') as (outs & Eo & En & Er).
  destruct (export_one e b (Z.to_nat (h_page h)) (db_838 b) (db_st b) x t (match td_indexes (c_decl x) with [] => true | _ => false end) doc) as (o & E1 & R1); try assumption; try reflexivity.
  - rewrite B2. exact Vt.
  - exact (proj1 Hx).
  - apply listed_of in Hx. destruct (td_indexes (c_decl x)) as [|i is]; [cbn [forallb negb andb orb] in *; exact Hx|]. cbn [negb orb] in *. rewrite andb_true_r in Hx. destruct (forallb _ (i :: is)); cbn [negb] in *; [apply Hx|exact Hx].
  - exists ((td_name (c_decl x), o) :: outs). cbn [export_all]. unfold export_one_of_all. rewrite (proj1 Vt), E1. cbn [rbind]. rewrite Eo. cbn [rbind fst]. split; [reflexivity|]. split; [cbn [map fst]; now rewrite En|]. constructor; assumption.
Qed.
Lemma all_with_primary same hjunk junk file mono h st xs : database same file mono h st xs -> Forall (fun x => td_indexes (c_decl x) = [] \/ ~ no_primary_index (c_decl x)) xs ->
  exists b, open_db same hjunk junk file mono = Ok b /\
    forall e docs, Forall2 document xs docs -> Forall (fun x => good_names (c_decl x) /\ ready e x) xs ->
      exists outs, export_all e b (db_tables b) false = Ok outs /\ map fst outs = map (fun x => td_name (c_decl x)) xs /\ Forall2 (fun o doc => read_xml (snd o) = Some (doc_events doc)) outs docs.
Proof.
  intros D HP. destruct (all_ok same hjunk junk _ _ _ _ _ D) as (b & E & K). exists b. split; [exact E|]. intros e docs Hd. apply K. clear - HP Hd.
  induction Hd as [|x doc xs docs Hx H IH]; constructor; inversion HP as [|? ? P HP']; subst; [|now apply IH]. split; [exact (proj1 Hx)|]. split; [|intros _; exact Hx]. intros (N1 & N2). destruct P; contradiction.
Qed.
