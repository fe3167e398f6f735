(** Proofs for Rep_Props: values, rows and tables of a depot. *)
From Coq Require Import Sorted.
From Verif Require Import Prelude Lists Codec_Spec Codec_Model Codec_Proofs Text_Model Text_Spec Text_Proofs Tree_Model Field_Model Field_Spec Field_Proofs Obj_Model Obj_Proofs Blob_Model Leaf_Model Rec_Model
  Bcd_Model Bcd_Spec Bcd_Proofs Xml_Model Xml_Spec Xml_Values Descr_Model Descr_Proofs Full_Model Full_Spec Full_Proofs Full_Open Full_Export Conf_Model Conf_Spec Conf_Proofs Conf_Files
  Depot_Model Depot_Spec Depot_Proofs Snap_Model Out_Model Out_Spec Out_Proofs Save_Spec Save_Model Rep_Model Rep_Spec.
Import String.StringSyntax.
Ltac Zify.zify_post_hook ::= idtac.

(** ** Values *)
Lemma field_found same t fs name f : ot_fields t = fs -> first_field same fs name f -> field_named same t name = Ok f.
Proof.
  intros E (a & c & -> & H & Ha). unfold field_named. rewrite E. clear E. induction Ha as [|y a Hy _ IH]; cbn [app find]; [now rewrite H|]. rewrite Hy. exact IH.
Qed.
Lemma guid_get f rec g : guid_in f rec g -> get_guid f rec = Ok g /\ length g = 16%nat.
Proof.
  intros (K & L & R & M & <-). destruct (reaches_facts f rec 0 R) as (P1 & P2 & P3); [lia|]. unfold get_guid. rewrite (null_of f rec 0 R), M by lia. cbn [rbind]. unfold value_of in *. rewrite K in *. cbn [width] in *. rewrite L in *.
  rewrite vpos_value, rdn_part by lia. split; [reflexivity|]. pose proof (part_length rec (value_at (x_f f)) 16 P1 ltac:(lia) P3) as Q. unfold zlen in Q. lia.
Qed.
Lemma guid_bytes f rec g : bytes_ok rec -> guid_in f rec g -> is_guid g.
Proof. intros B H. split; [apply (guid_get f rec g H)|]. destruct H as (_ & _ & _ & _ & <-). unfold value_of. now apply part_bytes. Qed.
Lemma rd_part rec p y : 0 <= p -> p + 1 <= zlen rec -> part rec p 1 = [y] -> rd rec p = Ok y.
Proof.
  intros P Q E. apply rd_ok; [exact P|]. unfold part in E. rewrite <- (firstn_skipn (Z.to_nat p) rec). rewrite nth_error_app2; rewrite firstn_length_le; try (unfold zlen in Q; lia). rewrite Nat.sub_diag. change (Z.to_nat 1) with 1%nat in E.
  destruct (skipn (Z.to_nat p) rec); [discriminate|]. cbn in E |- *. congruence.
Qed.
Lemma flag_get f rec b : flag_in f rec b -> get_bool f rec = Ok b.
Proof.
  intros (K & R & H). destruct (reaches_facts f rec 0 R) as (P1 & P2 & P3); [lia|]. unfold get_bool. rewrite (null_of f rec 0 R) by lia. cbn [rbind]. destruct (is_missing (x_f f) rec); [congruence|]. unfold value_of in H. rewrite K in *. cbn [width] in *.
  rewrite vpos_value, (rd_part rec _ _ P1 P3 H). cbn [rbind]. destruct b; reflexivity.
Qed.
Lemma number_text g f rec n : number_in f rec n -> exists t, get_string g f rec = Ok t /\ (forall d, to_int_def t d = Ok n) /\ stoi t = Ok n.
Proof.
  intros (K & R & M & Hn & t & E & I1). unfold get_string. rewrite (null_of f rec 0 R) by lia. rewrite M. cbn [rbind]. unfold show. rewrite K. destruct (reaches_facts f rec 0 R) as (P1 & P2 & P3); [lia|].
  rewrite vpos_value, (after_part rec (value_at (x_f f)) (width (f_kind (x_f f)) (f_len (x_f f)))) by lia.
  destruct (num_show _ _ _ (after rec (value_at (x_f f) + width (f_kind (x_f f)) (f_len (x_f f)))) _ _ E) as (Q & _). unfold value_of in Q. exists t. split; [exact Q|].
  assert (D : forall d, to_int_def t d = Ok n).
  { intros d. destruct I1 as (ds & D1 & D2 & D3 & [(-> & ->)|(-> & -> & D4)]).
    - unfold chars. rewrite to_int_def_digits; [|exact D2|exact D1]. change (digits_value ds) with (dval ds). destruct (Z.leb_spec (dval ds) 2147483647); [reflexivity|lia].
    - exfalso. assert (N0 : hd 0 ds <> 0) by (intros H; apply D4; auto). pose proof (dval_low ds D1 D2 N0). assert (0 < 10 ^ (zlen ds - 1)) by (apply Z.pow_pos_nonneg; [lia|destruct ds; [congruence|rewrite zlen_cons; pose proof (zlen_nonneg ds); lia]]). lia. }
  split; [exact D|]. pose proof (D 0) as D0. pose proof (D 1) as D1. unfold to_int_def in D0, D1. unfold stoi. destruct (strtol10 t); [exact D0|]. assert (0 = n) by congruence. assert (1 = n) by congruence. lia.
Qed.
Lemma int_get g f rec n d : number_in f rec n -> get_int g d f rec = Ok n.
Proof. intros H. destruct (number_text g f rec n H) as (t & E & D & _). unfold get_int. rewrite E. apply D. Qed.
Lemma data_get b pn v st x t f rec o : db_ps b = Z.of_nat pn -> db_st b = st -> table_view pn v st x t -> data_in (c_blob x) f rec o -> get_data b t f rec = Ok o.
Proof.
  intros B1 B2 V H. unfold get_data. destruct o as [d|]; cbn [data_in] in H.
  - destruct H as (s & A & N & B). rewrite (address_get _ _ _ _ A). cbn [rbind fst snd]. replace ((s =? 0) && (zlen d =? 0)) with false.
    + rewrite B1, B2, (blob_get pn v st x t s _ d V B). reflexivity.
    + symmetry. destruct (Z.eqb_spec s 0); [|reflexivity]. destruct N as [N|N]; [contradiction|]. cbn [andb]. destruct d; [contradiction|]. rewrite zlen_cons. pose proof (zlen_nonneg d). lia.
  - destruct H as (K & R & [M|A]).
    + unfold get_blob. rewrite (null_of f rec 0 R), M by lia. reflexivity.
    + rewrite (address_get _ _ _ _ A). reflexivity.
Qed.
Lemma hex_back2 c : byte_ok c -> Z.lor (Z.shiftl (from_hex_digit (hex_char (Z.shiftr c 4))) 4) (from_hex_digit (hex_char (Z.land c 15))) mod 256 = c.
Proof.
  intros H. apply Z.eqb_eq. apply (sweep1 256 (fun c => Z.lor (Z.shiftl (from_hex_digit (hex_char (Z.shiftr c 4))) 4) (from_hex_digit (hex_char (Z.land c 15))) mod 256 =? c)); [vm_compute; reflexivity|]. unfold byte_ok in H. lia.
Qed.
Lemma hash_back v : forall n r, bytes_ok v -> length v = n -> binary_hash n (flat_map (fun b => [hex_char (Z.shiftr b 4); hex_char (Z.land b 15)]) v ++ r) = Ok v.
Proof.
  induction v as [|c v IH]; intros n r B <-; [reflexivity|]. inversion B as [|? ? B1 B2]; subst. cbn [flat_map app length binary_hash]. rewrite (IH _ r B2 eq_refl). cbn [rbind]. now rewrite hex_back2.
Qed.
Lemma not_ref fs f : In f (the_fields fs) -> f_len (x_f f) <> 16 -> x_ref f = false.
Proof.
  intros H N. unfold the_fields in H. apply in_map_iff in H. destruct H as ((i & d) & <- & _). cbn [the_field x_ref x_f f_len snd] in *. unfold for_ids. destruct (fd_kind d); try reflexivity. destruct (Z.eqb_spec (fd_len d) 16); [contradiction|reflexivity].
Qed.
Lemma first_in same fs name f : first_field same fs name f -> In f fs.
Proof. intros (a & c & -> & _). apply in_elt. Qed.
Lemma bin_show g fs f rec : In f (the_fields fs) -> f_kind (x_f f) = KBin -> f_len (x_f f) <> 16 -> reaches f rec 0 -> show g f rec = Ok (text_of_bin (value_of f rec)).
Proof.
  intros I1 K N R. destruct (reaches_facts f rec 0 R) as (P1 & P2 & P3); [lia|]. unfold show, value_of. rewrite K in *. cbn [width] in *. rewrite vpos_value, rdn_part by lia. cbn [rbind]. rewrite (not_ref fs f I1 N). destruct (Z.eqb_spec (f_len (x_f f)) 16); [contradiction|]. reflexivity.
Qed.
Lemma hash_get g fs f rec h : bytes_ok rec -> In f (the_fields fs) -> hash_in f rec h -> get_hash g (Some f) rec = Ok h.
Proof.
  intros B I1 (K & L & R & H). unfold get_hash. rewrite (null_of f rec 0 R) by lia. cbn [rbind]. destruct (is_missing (x_f f) rec); [congruence|]. rewrite (bin_show g fs f rec I1 K); [|lia|exact R]. cbn [rbind]. rewrite H. unfold text_of_bin. apply hash_back.
  - rewrite <- H. unfold value_of. now apply part_bytes.
  - rewrite <- H. destruct (reaches_facts f rec 0 R) as (P1 & P2 & P3); [lia|]. unfold value_of. rewrite K in *. cbn [width] in *. rewrite L in *. pose proof (part_length rec (value_at (x_f f)) 20 P1 ltac:(lia) P3) as Q. unfold zlen in Q. lia.
Qed.

(** ** Rows *)
Section Rows.
Variables (same : list Z -> list Z -> bool) (g : gset) (b : db) (pn : nat) (v : bool) (st : store) (x : cont) (t : otab).
Hypotheses (B1 : db_ps b = Z.of_nat pn) (B2 : db_st b = st) (B3 : db_838 b = v) (P32 : (32 <= pn)%nat) (V : table_view pn v st x t).
Lemma ot_fields_of : ot_fields t = fields_of x. Proof. apply V. Qed.
Lemma hash_part_get v6 rec h : bytes_ok rec -> hash_part same v6 (fields_of x) rec h ->
  (do fh <- (if v6 then do f <- field_named same t (bs "DATAHASH"); Ok (Some f) else Ok None); get_hash g fh rec) = Ok h.
Proof.
  intros B H. unfold hash_part in H. destruct v6.
  - destruct H as (f & F & H). rewrite (field_found same t _ _ f ot_fields_of F). cbn [rbind]. apply (hash_get g (td_fields (c_decl x))); [exact B| |exact H]. exact (first_in _ _ _ _ F).
  - subst h. reflexivity.
Qed.
Lemma history_row_ok v6 rec r : bytes_ok rec -> is_history same v6 (c_blob x) (fields_of x) rec r -> history_row same g b v6 t rec = Ok r.
Proof.
  intros B ((f1 & F1 & H1) & (f2 & F2 & H2) & (f3 & F3 & H3) & (f4 & F4 & H4) & (f5 & F5 & H5) & (f6 & F6 & H6) & H7). unfold history_row.
  rewrite (field_found same t _ _ f1 ot_fields_of F1), (field_found same t _ _ f2 ot_fields_of F2), (field_found same t _ _ f3 ot_fields_of F3), (field_found same t _ _ f4 ot_fields_of F4), (field_found same t _ _ f5 ot_fields_of F5), (field_found same t _ _ f6 ot_fields_of F6). cbn [rbind].
  pose proof (hash_part_get v6 rec _ B H7) as E7. destruct (if v6 then _ else _) as [fh| | |]; try discriminate. cbn [rbind] in E7 |- *.
  rewrite (proj1 (guid_get _ _ _ H1)), (int_get g _ _ _ _ H2), (proj1 (guid_get _ _ _ H3)), (flag_get _ _ _ H4), (flag_get _ _ _ H5), (data_get b pn v st x t _ _ _ B1 B2 V H6). cbn [rbind]. rewrite E7. cbn [rbind]. destruct r as [[] i]. reflexivity.
Qed.
Lemma external_row_ok v6 rec r : bytes_ok rec -> is_external same v6 (c_blob x) (fields_of x) rec r -> external_row same g b v6 t rec = Ok r.
Proof.
  intros B ((f1 & F1 & H1) & (f2 & F2 & H2) & (f3 & F3 & cps & H3 & E3) & (f4 & F4 & H4) & (f5 & F5 & H5) & (f6 & F6 & H6) & H7). unfold external_row.
  rewrite (field_found same t _ _ f1 ot_fields_of F1), (field_found same t _ _ f2 ot_fields_of F2), (field_found same t _ _ f3 ot_fields_of F3), (field_found same t _ _ f4 ot_fields_of F4), (field_found same t _ _ f5 ot_fields_of F5), (field_found same t _ _ f6 ot_fields_of F6). cbn [rbind].
  pose proof (hash_part_get v6 rec _ B H7) as E7. destruct (if v6 then _ else _) as [fh| | |]; try discriminate. cbn [rbind] in E7 |- *.
  rewrite (proj1 (guid_get _ _ _ H1)), (int_get g _ _ _ _ H2), (text_get g _ _ _ H3), (proj1 (guid_get _ _ _ H4)), (flag_get _ _ _ H5), (data_get b pn v st x t _ _ _ B1 B2 V H6). cbn [rbind]. rewrite E7. cbn [rbind]. destruct r as [[] i]. cbn [x_row Depot_Model.e_name] in E3. rewrite E3. reflexivity.
Qed.

(** ** Tables *)
Lemma recs_bytes : Forall bytes_ok (c_recs x).
Proof. pose proof V as (_ & _ & _ & _ & (_ & _ & Vb) & _). exact (concat_bytes _ Vb). Qed.
Lemma rec_bytes k rec : nth_error (c_recs x) k = Some rec -> bytes_ok rec.
Proof. intros H. apply nth_error_In in H. pose proof recs_bytes as Q. rewrite Forall_forall in Q. auto. Qed.
Lemma record_get n rec : 0 <= n -> nth_error (c_recs x) (Z.to_nat n) = Some rec -> record_at (db_ps b) (db_st b) t n = Ok rec.
Proof. rewrite B1, B2. apply (rec_get pn v st x t n rec V). Qed.
Lemma first_primary {A} (p q : A -> bool) : forall a i c a' i' c', a ++ i :: c = a' ++ i' :: c' -> p i = true -> Forall (fun j => p j = false) a -> p i' = true -> Forall (fun j => p j = false) a' -> a = a'.
Proof.
  induction a as [|y a IH]; intros i c [|y' a'] i' c' E Hi Ha Hi' Ha'; [reflexivity|..]; cbn [app] in E.
  - injection E as E1 _. inversion Ha'; subst. congruence.
  - injection E as E1 _. inversion Ha; subst. congruence.
  - injection E as -> E. inversion Ha; inversion Ha'; subst. f_equal. exact (IH i c a' i' c' E Hi H2 Hi' H6).
Qed.
Lemma start_found name : forall a i c ss s, same (id_name i) name = true -> Forall (fun j => same (id_name j) name = false) a -> nth_error ss (length a) = Some s -> index_start same name (a ++ i :: c) ss = Ok s.
Proof.
  induction a as [|j a IH]; intros i c [|s' ss] s Hi Ha E; try discriminate; cbn [app index_start length nth_error] in *.
  - rewrite Hi. congruence.
  - inversion Ha as [|? ? H1 H2]; subst. rewrite H1. now apply IH.
Qed.
Lemma numbers_ok : keyed_by_pk same (c_decl x) -> index_numbers same b t (bs "PK") = Ok (c_order x) /\ zlen (c_order x) <= zlen (c_recs x).
Proof.
  intros (a & i & c & Ei & Hs & Hp & Ha). pose proof V as (Vd & Vf & Vr & Vp & Vo & V32 & Vrec & _ & VI).
  assert (Ha1 : Forall (fun j => same (id_name j) (bs "PK") = false) a) by (eapply Forall_impl; [|exact Ha]; intros j (A & _); exact A).
  assert (Ha2 : Forall (fun j => id_primary j = false) a) by (eapply Forall_impl; [|exact Ha]; intros j (_ & A); exact A).
  destruct VI as [(I1 & _)|(o & cc & I1 & I2 & Io & IL & [(N & _)|(s & (a' & i' & c' & Ea & Hi & Ha' & Hn) & Hs0 & Hx & Hz)])].
  - exfalso. rewrite I1 in Ei. destruct a; discriminate.
  - exfalso. unfold no_primary_index in N. rewrite Ei in N. rewrite Forall_forall in N. specialize (N i ltac:(apply in_elt)). congruence.
  - split; [|exact Hz]. unfold index_numbers. rewrite Vd. rewrite Ei. assert (Eaa : a = a') by (rewrite Ei in Ea; exact (first_primary id_primary id_primary a i c a' i' c' Ea Hp Ha2 Hi Ha')). subst a'.
    rewrite (start_found (bs "PK") a i c (ot_starts t) s Hs Ha1 Hn). cbn [rbind]. destruct (Z.eqb_spec s 0); [lia|]. rewrite I2, B1, B2, B3. apply (walk_index pn v st o cc s (c_order x)); [exact Io|exact P32|exact Hx|].
    destruct Vo as (_ & -> & _). rewrite (Full_Open.recs_len _ _ Vrec), Vr, Z.div_mul; [exact Hz|]. unfold record_size. lia.
Qed.
Lemma rows_read {A} (P : list Z -> A -> Prop) (row : list Z -> res A) : (forall rec r, bytes_ok rec -> P rec r -> row rec = Ok r) -> forall l, in_order x P l ->
  rmap (fun n => do rec <- record_at (db_ps b) (db_st b) t n; row rec) (c_order x) = Ok l.
Proof.
  intros HP l H. unfold in_order in H. induction H as [|n r ns l (rec & Hn & E & _ & Hr) H IH]; [reflexivity|]. cbn [rmap]. rewrite (record_get n rec Hn E). cbn [rbind]. rewrite (HP rec r (rec_bytes _ _ E) Hr). cbn [rbind]. rewrite IH. reflexivity.
Qed.
Lemma indexed_ok {A} (P : list Z -> A -> Prop) (row : list Z -> res A) : (forall rec r, bytes_ok rec -> P rec r -> row rec = Ok r) -> forall ns l, live_in_order x P ns l ->
  exists recs, indexed (record_at (db_ps b) (db_st b) t) (ot_phys t) ns = Ok recs /\ rmap row recs = Ok l.
Proof.
  intros HP ns l H. assert (Ep : ot_phys t = zlen (c_recs x)) by apply V.
  induction H as [|n rec r ns l Hn E (q & Eq) Hr H IH|n c q ns l Hn E Hc H IH]; [exists []; split; reflexivity| |]; destruct IH as (recs & I1 & I2).
  - exists (rec :: recs). cbn [indexed]. assert (Hi : (Z.to_nat n < length (c_recs x))%nat) by (apply nth_error_Some; congruence).
    destruct (Z.leb_spec (ot_phys t) n) as [Q|Q]; [rewrite Ep in Q; unfold zlen in Q; lia|]. rewrite (record_get n rec Hn E). cbn [rbind]. assert (ER : is_removed rec = Ok false) by (rewrite Eq; reflexivity). rewrite ER. cbn [rbind]. rewrite I1. cbn [rbind]. split; [reflexivity|].
    cbn [rmap]. rewrite (HP rec r (rec_bytes _ _ E) Hr). cbn [rbind]. now rewrite I2.
  - exists recs. cbn [indexed]. assert (Hi : (Z.to_nat n < length (c_recs x))%nat) by (apply nth_error_Some; congruence).
    destruct (Z.leb_spec (ot_phys t) n) as [Q|Q]; [rewrite Ep in Q; unfold zlen in Q; lia|]. rewrite (record_get n (c :: q) Hn E). cbn [rbind].
    assert (ER : is_removed (c :: q) = Ok true) by (unfold is_removed, rd; cbn; destruct (Z.eqb_spec c 0); [contradiction|reflexivity]). rewrite ER. cbn [rbind]. rewrite I1. cbn [rbind]. split; [reflexivity|exact I2].
Qed.
Definition liveb (r : list Z) : bool := match r with 0 :: _ => true | _ => false end.
Lemma live_seq : forall l k, (forall i r, nth_error l i = Some r -> record_at (db_ps b) (db_st b) t (Z.of_nat (k + i)) = Ok r) ->
  rmap (record_at (db_ps b) (db_st b) t) (map (fun x => Z.of_nat (fst x)) (filter (fun x => match snd x with 0 :: _ => true | _ => false end) (combine (seq k (length l)) l))) = Ok (filter liveb l).
Proof.
  induction l as [|r l IH]; intros k G; [reflexivity|]. cbn [length seq combine filter snd]. fold (liveb r).
  assert (IH' : rmap (record_at (db_ps b) (db_st b) t) (map (fun x => Z.of_nat (fst x)) (filter (fun x => match snd x with 0 :: _ => true | _ => false end) (combine (seq (S k) (length l)) l))) = Ok (filter liveb l)) by (apply IH; intros i q Hi; specialize (G (S i) q Hi); now rewrite <- plus_n_Sm in G).
  destruct (liveb r) eqn:EL; unfold liveb in EL.
  - cbn [map fst rmap]. pose proof (G 0%nat r eq_refl) as G0. rewrite Nat.add_0_r in G0. rewrite G0. cbn [rbind]. rewrite IH'. reflexivity.
  - exact IH'.
Qed.
Lemma live_ok : live_records b t = Ok (filter liveb (c_recs x)).
Proof.
  unfold live_records. rewrite B1, B2, (found_ok pn v st x t V). cbn [rbind]. unfold live_numbers. rewrite <- B1, <- B2. apply live_seq. intros i r Hi. apply record_get; [lia|]. cbn [Nat.add]. now rewrite Nat2Z.id.
Qed.
Lemma live_number k rec : nth_error (c_recs x) k = Some rec -> liveb rec = true -> In (Z.of_nat k) (live_numbers (c_recs x)).
Proof.
  intros H L. unfold live_numbers. apply in_map_iff. exists (k, rec). split; [reflexivity|]. apply filter_In. split; [|exact L]. assert (Hk : (k < length (c_recs x))%nat) by (apply nth_error_Some; congruence).
  apply (nth_error_In _ k). clear L. revert H Hk. generalize (c_recs x). intros l. assert (G : forall l j k rec, nth_error l k = Some rec -> nth_error (combine (seq j (length l)) l) k = Some ((j + k)%nat, rec : list Z)).
  { clear. induction l as [|y l IH]; intros j k rec H; [destruct k; discriminate|]. destruct k; cbn [nth_error length seq combine] in *; [rewrite Nat.add_0_r; congruence|]. rewrite (IH (S j) k rec H). now rewrite <- plus_n_Sm. }
  intros H _. rewrite (G l 0%nat k rec H). reflexivity.
Qed.

(** ** Versions *)
Variables (v5 : bool) (vers : list version).
Hypotheses (HO : in_order x (fun rec n => is_version same (fields_of x) rec v5 n) vers) (HL : forall n, In n (live_numbers (c_recs x)) <-> In n (c_order x)) (HInc : increasing (map n_num vers)).
Lemma order_version n : In n (c_order x) -> exists rec m, 0 <= n /\ nth_error (c_recs x) (Z.to_nat n) = Some rec /\ live_rec rec /\ In m vers /\ is_version same (fields_of x) rec v5 m.
Proof.
  intros H. unfold in_order in HO. clear HL HInc. induction HO as [|k m ks ms0 (rec & A & B & C & D) F IH]; [destruct H|]. destruct H as [<- |H]; [exists rec, m; cbn; auto 6|]. destruct (IH F H) as (r & m' & A' & B' & C' & I' & D'). exists r, m'. cbn. auto 6.
Qed.
Lemma version_order m : In m vers -> exists n rec, In n (c_order x) /\ 0 <= n /\ nth_error (c_recs x) (Z.to_nat n) = Some rec /\ live_rec rec /\ is_version same (fields_of x) rec v5 m.
Proof.
  intros H. unfold in_order in HO. clear HL HInc. induction HO as [|k m' ks ms0 (rec & A & B & C & D) F IH]; [destruct H|]. destruct H as [<- |H]; [exists k, rec; cbn; auto 6|]. destruct (IH F H) as (n & r & I' & A' & B' & C' & D'). exists n, r. cbn. auto 6.
Qed.
Lemma increasing_lt l : forall a, increasing (a :: l) -> Forall (fun y => a < y) l.
Proof. induction l as [|c l IH]; intros a H; constructor; [apply H|]. destruct H as (H1 & H2). specialize (IH c H2). eapply Forall_impl; [|exact IH]. cbv beta. lia. Qed.
Lemma same_num : forall l : list version, increasing (map n_num l) -> forall m n, In m l -> In n l -> n_num m = n_num n -> m = n.
Proof.
  induction l as [|a l IH]; intros HI m n Hm Hn E; [destruct Hm|]. cbn [map] in HI. pose proof (increasing_lt _ _ HI) as F. rewrite Forall_forall in F.
  assert (HI' : increasing (map n_num l)) by (destruct l; [exact Logic.I|apply HI]). assert (Q : forall y, In y l -> n_num a < n_num y) by (intros y Hy; apply F, in_map, Hy).
  destruct Hm as [<- |Hm], Hn as [<- |Hn]; [reflexivity|specialize (Q n Hn); lia|specialize (Q m Hm); lia|now apply IH].
Qed.
Lemma record_of_version fv n : first_field same (fields_of x) (bs "VERNUM") fv -> In n vers ->
  exists vrec, version_record g fv (n_num n) (filter liveb (c_recs x)) = Ok vrec /\ bytes_ok vrec /\ is_version same (fields_of x) vrec v5 n.
Proof.
  intros F Hn.
  assert (U : forall rec m, is_version same (fields_of x) rec v5 m -> number_in fv rec (n_num m)).
  { intros rec m ((f & F' & H) & _). assert (f = fv); [|now subst].  assert (E : field_named same t (bs "VERNUM") = Ok f) by exact (field_found same t _ _ f ot_fields_of F'). assert (E2 : field_named same t (bs "VERNUM") = Ok fv) by exact (field_found same t _ _ fv ot_fields_of F). congruence. }
  assert (G : forall l, (forall rec, In rec l -> bytes_ok rec /\ exists m, In m vers /\ is_version same (fields_of x) rec v5 m) -> (exists rec, In rec l /\ is_version same (fields_of x) rec v5 n) ->
    exists vrec, version_record g fv (n_num n) l = Ok vrec /\ bytes_ok vrec /\ is_version same (fields_of x) vrec v5 n).
  { induction l as [|rec l IH]; intros H1 (r0 & I0 & W); [destruct I0|]. cbn [version_record]. destruct (H1 rec (or_introl eq_refl)) as (Br & m & Hm & Wm). rewrite (int_get g _ _ _ _ (U _ _ Wm)). cbn [rbind]. destruct (Z.eqb_spec (n_num m) (n_num n)) as [E|E].
    - exists rec. split; [reflexivity|]. split; [exact Br|]. now rewrite <- (same_num vers HInc m n Hm Hn E).
    - apply IH; [intros q Hq; apply H1; now right|]. destruct I0 as [<- |I0]; [|exists r0; auto]. exfalso. apply E.
      destruct (number_text g _ _ _ (U _ _ Wm)) as (t1 & E1 & D1 & _). destruct (number_text g _ _ _ (U _ _ W)) as (t2 & E2 & D2 & _). assert (t1 = t2) by congruence. subst t2. specialize (D1 0). specialize (D2 0). congruence. }
  apply G.
  - intros rec H. apply filter_In in H. destruct H as (H & L). destruct (In_nth_error _ _ H) as (k & Hk). split; [exact (rec_bytes k rec Hk)|]. destruct (order_version (Z.of_nat k)) as (rec' & m & _ & E & _ & I1 & W); [apply HL; exact (live_number k rec Hk L)|].
    rewrite Nat2Z.id in E. assert (rec' = rec) by congruence. subst. exists m. auto.
  - destruct (version_order n Hn) as (k & rec & _ & _ & E & (q & ->) & W). eexists. split; [|exact W]. apply filter_In. split; [exact (nth_error_In _ _ E)|reflexivity].
Qed.
Lemma filter_less w : forall l u, u < w -> In w l -> zlen (filter (fun y => w <? y) l) < zlen (filter (fun y => u <? y) l).
Proof.
  intros l u L. assert (M : forall l, zlen (filter (fun y => w <? y) l) <= zlen (filter (fun y => u <? y) l)).
  { clear l. induction l as [|y l IH]; [reflexivity|]. cbn [filter]. destruct (Z.ltb_spec w y), (Z.ltb_spec u y); rewrite ?zlen_cons; lia. }
  induction l as [|y l IH]; intros H; [destruct H|]. cbn [filter]. destruct H as [-> |H].
  - rewrite Z.ltb_irrefl. destruct (Z.ltb_spec u w); [|lia]. rewrite zlen_cons. specialize (M l). lia.
  - specialize (IH H). destruct (Z.ltb_spec w y), (Z.ltb_spec u y); rewrite ?zlen_cons; lia.
Qed.
Lemma newest_one l k u w : nth_newest l k u -> nth_newest l k w -> u = w.
Proof.
  intros (A & B) (C & D). destruct (Z.lt_trichotomy u w) as [L|[L|L]]; [|exact L|].
  - pose proof (filter_less w l u L C). lia.
  - pose proof (filter_less u l w L A). lia.
Qed.
Lemma newest_less l k u : nth_newest l k u -> k < zlen l.
Proof.
  intros (A & <-). assert (M : forall l, zlen (filter (fun y => u <? y) l) <= zlen l).
  { clear. induction l as [|y l IH]; [reflexivity|]. cbn [filter]. destruct (u <? y); rewrite !zlen_cons; lia. }
  induction l as [|y l IH]; [destruct A|]. cbn [filter]. destruct A as [-> |A].
  - rewrite Z.ltb_irrefl, zlen_cons. specialize (M l). lia.
  - specialize (IH A). destruct (u <? y); rewrite ?zlen_cons; lia.
Qed.
Lemma asked_ok ver n : keyed_by_pk same (c_decl x) -> -2 ^ 31 < ver < 2 ^ 31 -> asked vers ver n -> version_asked same g b t ver = Ok (n_num n).
Proof.
  intros HK Hv (Hn & HA). unfold version_asked. destruct (Z.ltb_spec 0 ver) as [L|L]; [congruence|]. destruct (numbers_ok HK) as (E & Lz). rewrite E. cbn [rbind].
  destruct (version_order n Hn) as (_ & rec0 & _ & _ & _ & _ & ((fv & F & _) & _)). rewrite (field_found same t _ _ fv ot_fields_of F). cbn [rbind].
  assert (U : forall rec m, is_version same (fields_of x) rec v5 m -> number_in fv rec (n_num m)).
  { intros rec m ((f & F' & H) & _). assert (f = fv); [|now subst]. assert (E1 : field_named same t (bs "VERNUM") = Ok f) by exact (field_found same t _ _ f ot_fields_of F'). assert (E2 : field_named same t (bs "VERNUM") = Ok fv) by exact (field_found same t _ _ fv ot_fields_of F). congruence. }
  assert (ER : rmap (fun n => do rec <- record_at (db_ps b) (db_st b) t n; do s <- get_string g fv rec; stoi s) (c_order x) = Ok (map n_num vers)).
  { clear - HO U V B1 B2. unfold in_order in HO. induction HO as [|k m ks ms0 (rec & A & B & C & D) FF IH]; [reflexivity|]. cbn [rmap map]. rewrite (record_get k rec A B). cbn [rbind]. destruct (number_text g fv rec _ (U _ _ D)) as (s & Es & _ & Est). rewrite Es. cbn [rbind]. rewrite Est. cbn [rbind]. rewrite (IH FF). reflexivity. }
  rewrite ER. cbn [rbind].
  assert (NR : Forall (fun v => -2 ^ 31 <= v < 2 ^ 31) (map n_num vers)).
  { apply Forall_map, Forall_forall. intros m Hm. destruct (version_order m Hm) as (_ & rec & _ & _ & _ & _ & W). destruct (U _ _ W) as (_ & _ & _ & Q & _). lia. }
  pose proof V as (_ & _ & _ & _ & _ & V32 & Vrec & _). rewrite (Full_Open.recs_len _ _ Vrec) in V32.
  assert (Ls : zlen (map n_num vers) < 2 ^ 32).
  { unfold zlen. rewrite map_length. unfold in_order in HO. rewrite <- (Full_Open.Forall2_len _ _ _ HO). unfold zlen in Lz, V32. assert (5 <= record_size (td_fields (c_decl x))) by (unfold record_size; lia). nia. }
  destruct (resolve_ok _ ver HInc Ls NR ltac:(lia)) as (R1 & _). destruct (R1 (newest_less _ _ _ HA)) as (w & -> & W). f_equal. exact (newest_one _ _ _ _ W HA).
Qed.
End Rows.
