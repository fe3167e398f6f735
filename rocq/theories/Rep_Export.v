(** Proofs for Rep_Props: from the file of a depot to the container. *)
From Verif Require Import Prelude Lists Codec_Spec Codec_Model Codec_Proofs Text_Model Text_Spec Text_Proofs Tree_Model Field_Model Field_Spec Field_Proofs Obj_Model Obj_Proofs Blob_Model Leaf_Model Rec_Model
  Xml_Model Xml_Spec Xml_Values Cf_Model Descr_Spec Descr_Model Descr_Proofs Full_Model Full_Spec Full_Proofs Full_Open Full_Export Conf_Model Conf_Spec Conf_Proofs Conf_Files
  Depot_Model Depot_Spec Snap_Model Out_Model Out_Spec Out_Proofs Old_Model Old_Spec Old_Proofs Save_Spec Save_Model Rep_Model Rep_Spec Rep_Proofs.
Import String.StringSyntax.
Ltac Zify.zify_post_hook ::= idtac.

Lemma header_ok same hjunk file mono h st ds : base same file mono h st ds -> open_header hjunk file mono = Ok h.
Proof.
  intros (Hb & H24 & Hop & Hpg & Hfl & (root & lang & pad & blocks & rest & _ & _ & _ & (Robj & _) & _)).
  destruct (object_ps _ _ _ _ _ Robj) as (Pl & P32 & _).
  assert (NP : ~ no_page_size file).
  { intros (N1 & N2). destruct Hop as (_ & Hin & Hpage & _). rewrite N1 in Hin. unfold versions in Hin. cbn [In] in Hin. repeat (destruct Hin as [Q|Hin]; [try discriminate Q|]); [|contradiction].
    assert (Q2 : Descr_Model.h_ver h = V8380) by congruence. rewrite Q2 in Hpage. lia. }
  exact (proj2 (proj1 (open_exact hjunk file mono h Hb H24 NP)) Hop).
Qed.
Lemma table_named_ok same pn v st xs b x name : Forall2 (table_view pn v st) xs (db_tables b) -> table_of same xs name x -> exists t, table_named same b name = Ok t /\ table_view pn v st x t.
Proof.
  intros V (a & c & -> & Hs & Hn). unfold table_named. destruct (Forall2_app_inv_l _ _ V) as (ta & tc & Va & Vc & ->). inversion Vc as [|? t ? tc' Vt Vc']; subst. exists t. split; [|exact Vt]. rewrite fold_left_app. cbn [fold_left].
  assert (E : ot_decl t = c_decl x) by apply Vt. rewrite E, Hs.
  assert (Q : fold_left (fun r t => if same (td_name (ot_decl t)) name then Some t else r) tc' (Some t) = Some t); [|now rewrite Q].
  clear - Vc' Hn. revert Hn. induction Vc' as [|y u c tc (Ey & _) _ IH]; intros Hn; [reflexivity|]. inversion Hn as [|? ? H1 H2]; subst. cbn [fold_left]. rewrite Ey, H1. now apply IH.
Qed.
Lemma depot_version_ok same dv : up_to_nul same -> In dv [3; 5; 6; 7] -> depot_version same (text_of_bin [dv; 0; 0; 0; 0; 0; 0; 0]) = Ok dv.
Proof.
  intros U H.
  assert (A : forall d, In d [3; 5; 6; 7] -> exists w, text_of_bin [d; 0; 0; 0; 0; 0; 0; 0] = w ++ [0; 0] /\ Forall (fun c => 0 < c < 128) w /\ map low w = [48; 48 + d; 48; 48; 48; 48; 48; 48; 48; 48; 48; 48; 48; 48; 48; 48]).
  { intros d Hd. exists [48; 48 + d; 48; 48; 48; 48; 48; 48; 48; 48; 48; 48; 48; 48; 48; 48]. destruct Hd as [<- |[<- |[<- |[<- |[]]]]]; (split; [reflexivity|split; [repeat (constructor; [lia|]); constructor|reflexivity]]). }
  assert (B : forall d, In d [3; 5; 6; 7] -> same (text_of_bin [dv; 0; 0; 0; 0; 0; 0; 0]) [48; 48 + d; 48; 48; 48; 48; 48; 48; 48; 48; 48; 48; 48; 48; 48; 48] = (dv =? d)).
  { intros d Hd. destruct (A dv H) as (w & -> & W & L).
    assert (F : Forall (fun c => 0 < c < 128) [48; 48 + d; 48; 48; 48; 48; 48; 48; 48; 48; 48; 48; 48; 48; 48; 48]) by (cbn [In] in Hd; repeat (constructor; [lia|]); constructor).
    pose proof (U w _ W F) as Q. rewrite L in Q.
    assert (E : map low [48; 48 + d; 48; 48; 48; 48; 48; 48; 48; 48; 48; 48; 48; 48; 48; 48] = [48; 48 + d; 48; 48; 48; 48; 48; 48; 48; 48; 48; 48; 48; 48; 48; 48]) by (destruct Hd as [<- |[<- |[<- |[<- |[]]]]]; reflexivity). rewrite E in Q.
    destruct (Z.eqb_spec dv d) as [-> |N]; [now apply Q|]. destruct (same _ _); [|reflexivity]. exfalso. apply N. destruct Q as (Q & _). specialize (Q eq_refl). apply (f_equal (fun l => nth 1 l 0)) in Q. cbn [nth] in Q. clear - Q. lia. }
  unfold depot_version. change (bs "0300000000000000") with [48; 48 + 3; 48; 48; 48; 48; 48; 48; 48; 48; 48; 48; 48; 48; 48; 48]. change (bs "0500000000000000") with [48; 48 + 5; 48; 48; 48; 48; 48; 48; 48; 48; 48; 48; 48; 48; 48; 48].
  change (bs "0600000000000000") with [48; 48 + 6; 48; 48; 48; 48; 48; 48; 48; 48; 48; 48; 48; 48; 48; 48]. change (bs "0700000000000000") with [48; 48 + 7; 48; 48; 48; 48; 48; 48; 48; 48; 48; 48; 48; 48; 48; 48].
  rewrite !B by (cbn [In]; auto). destruct H as [<- |[<- |[<- |[<- |[]]]]]; reflexivity.
Qed.
Lemma first_live (a : list (list Z)) rec c : live_rec rec -> Forall (fun q => ~ live_rec q) a -> filter liveb (a ++ rec :: c) = rec :: filter liveb c.
Proof.
  intros (r & ->) H. rewrite filter_app. replace (filter liveb a) with (@nil (list Z)); [reflexivity|]. symmetry. induction H as [|q a Hq _ IH]; [reflexivity|]. cbn [filter]. destruct (liveb q) eqn:E; [|exact IH].
  exfalso. apply Hq. unfold liveb in E. destruct q as [|z q]; [discriminate|]. destruct z; try discriminate. exists q. reflexivity.
Qed.
Lemma empty_maker n : guid_empty (repeat 0 n) = true.
Proof. induction n as [|n IH]; [reflexivity|]. exact IH. Qed.
Lemma rd_at (rec w : list Z) p k y : 0 <= p -> 0 <= k -> part rec p 4 = w -> nth_error w (Z.to_nat k) = Some y -> rd (skipn (Z.to_nat p) rec) k = Ok y.
Proof.
  intros P K E N. apply rd_ok; [exact K|]. unfold part in E. subst w. assert (L : (Z.to_nat k < 4)%nat) by (assert (Q : (Z.to_nat k < length (firstn (Z.to_nat 4) (skipn (Z.to_nat p) rec)))%nat) by (apply nth_error_Some; congruence); rewrite firstn_length in Q; change (Z.to_nat 4) with 4%nat in Q; lia).
  rewrite <- (firstn_skipn (Z.to_nat 4) (skipn (Z.to_nat p) rec)). rewrite nth_error_app1; [exact N|]. apply nth_error_Some. congruence.
Qed.

Lemma live_length {A} x (P : list Z -> A -> Prop) ns l : live_in_order x P ns l -> zlen l <= zlen ns.
Proof. unfold zlen. induction 1; cbn [length]; lia. Qed.
Section Exported.
Variables (lower : list Z -> list Z) (same : list Z -> list Z -> bool) (g : gset) (fuel : nat) (after : list Z) (now now' : nat -> Z) (uuid : nat -> list Z) (deflate unpack : list Z -> list Z)
  (store : list Z -> option (list Z)) (snapshot : list Z -> list Z -> Z -> list Z -> option (list Z)) (hjunk junk file : list Z) (mono : bool) (h : header) (st : list (list Z)) (xs : list cont) (r : repo) (ver : Z) (n : version) (major minor : Z).
Hypotheses (HU : up_to_nul same) (D : database same file mono h st xs) (HR : repository same xs r) (HI : increasing (map n_num (r_vers r))) (Hver : -2 ^ 31 < ver < 2 ^ 31) (HA : asked (r_vers r) ver n)
  (HV : structure_version (r_dv r) (Descr_Model.h_ver h) n major minor) (HS : n_maker n = repeat 0 16 \/ forall rec, snapshot (n_maker n) rec (n_num n) (r_root r) = None).
Lemma export_step :
  export_of_file lower same g fuel after now now' uuid deflate unpack store snapshot hjunk junk file mono ver =
  (if major <? 100 then save_old lower same fuel after now now' uuid deflate unpack (packs (r_dv r) store) (n_num n) major minor (r_root r) (r_rows r) (r_exts r)
   else save_version lower same fuel after now uuid deflate (packs (r_dv r) store) (n_num n) major minor (r_root r) (r_rows r) (r_exts r)) /\
  is_guid (r_root r) /\ (0 <= major < 2 ^ 16 /\ 0 <= minor < 2 ^ 16) /\ zlen (r_rows r) + zlen (r_exts r) < 2 ^ 62.
Proof.
  pose proof D as (HB & _). destruct (open_db_ok same hjunk junk _ _ _ _ _ D) as (b & E & B1 & B2 & B3 & P32 & V). unfold export_of_file. rewrite (header_ok same hjunk _ _ _ _ _ HB). cbn [rbind]. rewrite E. cbn [rbind].
  set (pn := Z.to_nat (h_page h)) in *. set (v := v838_of (Descr_Model.h_ver h)) in *. assert (Ep : db_ps b = Z.of_nat pn) by (rewrite B1; unfold pn in *; lia).
  destruct HR as (N5 & N10 & xd & xv & xh & xe & Td & Tv & Th & Te & Idv & (a & drec & c & Ed & Ld & La & (fd & Fd & Kd & Lenfd & Rd & Md & Vd) & (fr & Fr & Gr)) & Kv & Ov & Lv & Kh & Oh & Ke & Oe).
  assert (K : db_what b = Depot).
  { pose proof (open_db_kind _ _ _ _ _ _ E) as K. assert (K2 : db_kind (fun n => existsb (fun t => same (td_name (ot_decl t)) n) (db_tables b)) = Ok Depot); [|congruence]. apply kind_exact. split.
    - intros w Hw. apply not_true_is_false. intros Q. apply (has_ok same xs) in Q; [|exact (views_decls _ _ _ _ _ V)]. destruct Q as (y & Hy & Q). rewrite (N5 w Hw y Hy) in Q. discriminate.
    - intros w Hw. apply (has_ok same xs); [exact (views_decls _ _ _ _ _ V)|]. now apply N10. }
  destruct (table_named_ok same pn v st xs b xd _ V Td) as (td & Etd & Vtd). destruct (table_named_ok same pn v st xs b xv _ V Tv) as (tv & Etv & Vtv). destruct (table_named_ok same pn v st xs b xh _ V Th) as (th & Eth & Vth). destruct (table_named_ok same pn v st xs b xe _ V Te) as (te & Ete & Vte).
  unfold save_repo. rewrite K, Etd, Etv, Eth, Ete. cbn [rbind].
  assert (Fod : ot_fields td = fields_of xd) by apply Vtd. assert (Fov : ot_fields tv = fields_of xv) by apply Vtv.
  assert (Bd : bytes_ok drec). { destruct (In_nth_error (c_recs xd) drec) as (k & Hk); [rewrite Ed; apply in_elt|]. exact (rec_bytes pn v st xd td Vtd k drec Hk). }
  rewrite (field_found same td _ _ fr Fod Fr). cbn [rbind].
  assert (El : live_records b td = Ok (filter liveb (c_recs xd))) by (eapply live_ok; eassumption). rewrite El, Ed, (first_live a drec c Ld La). cbn [rbind].
  rewrite (field_found same td _ _ fd Fod Fd). cbn [rbind].
  assert (Es : get_string g fd drec = Ok (text_of_bin [r_dv r; 0; 0; 0; 0; 0; 0; 0])).
  { unfold get_string. rewrite (null_of fd drec 0 Rd), Md by lia. cbn [rbind]. rewrite <- Vd. apply (bin_show g (td_fields (c_decl xd))); [exact (first_in _ _ _ _ Fd)|exact Kd|lia|exact Rd]. }
  rewrite Es. cbn [rbind]. rewrite (depot_version_ok same (r_dv r) HU Idv). cbn [rbind]. rewrite (proj1 (guid_get _ _ _ Gr)). cbn [rbind].
  assert (Ea : version_asked same g b tv ver = Ok (n_num n)) by exact (asked_ok same g b pn v st xv tv Ep B3 B2 P32 Vtv (5 <=? r_dv r) (r_vers r) Ov Lv HI ver n Kv Hver HA). rewrite Ea. cbn [rbind]. destruct HA as (Hn & _).
  assert (VO : exists k rec, In k (c_order xv) /\ 0 <= k /\ nth_error (c_recs xv) (Z.to_nat k) = Some rec /\ live_rec rec /\ is_version same (fields_of xv) rec (5 <=? r_dv r) n) by exact (version_order same xv (5 <=? r_dv r) (r_vers r) Ov n Hn).
  destruct VO as (k0 & rec0 & _ & _ & _ & _ & ((fv & Fv & _) & _)). rewrite (field_found same tv _ _ fv Fov Fv). cbn [rbind].
  assert (El2 : live_records b tv = Ok (filter liveb (c_recs xv))) by (eapply live_ok; eassumption). rewrite El2. cbn [rbind].
  assert (RV : exists vrec, version_record g fv (n_num n) (filter liveb (c_recs xv)) = Ok vrec /\ bytes_ok vrec /\ is_version same (fields_of xv) vrec (5 <=? r_dv r) n) by exact (record_of_version same g b pn v st xv tv B3 B2 P32 Vtv (5 <=? r_dv r) (r_vers r) Ov Lv HI fv n Fv Hn).
  destruct RV as (vrec & Erv & Bv & (_ & (fm & Fm & Gm) & CV)). rewrite Erv. cbn [rbind]. rewrite (field_found same tv _ _ fm Fov Fm). cbn [rbind]. rewrite (proj1 (guid_get _ _ _ Gm)). cbn [rbind].
  replace (if guid_empty (n_maker n) then None else snapshot (n_maker n) vrec (n_num n) (r_root r)) with (@None (list Z)); [|destruct HS as [-> |Q]; [now rewrite empty_maker|rewrite Q; now destruct (guid_empty (n_maker n))]].
  assert (MM : (if 5 <=? r_dv r then do f <- field_named same tv (bs "CVERSION"); config_version true (skipn (Z.to_nat (f_off (x_f f))) vrec) (Descr_Model.h_ver h) else config_version false [] (Descr_Model.h_ver h)) = Ok (major, minor) /\ (0 <= major < 2 ^ 16 /\ 0 <= minor < 2 ^ 16)).
  { unfold structure_version in HV. destruct (5 <=? r_dv r).
    - destruct HV as (-> & ->). destruct (CV eq_refl) as (Q1 & Q2 & fc & Fc & Kc & Nc & Lc & Rc & Vc). split; [|split; assumption]. rewrite (field_found same tv _ _ fc Fov Fc). cbn [rbind]. destruct Rc as (Rc & _ & _).
      unfold value_of in Vc. rewrite Kc in Vc. cbn [width] in Vc. rewrite Lc in Vc. unfold value_at in Vc. rewrite Nc, Z.add_0_r in Vc. unfold config_version.
      assert (N0 : rd (skipn (Z.to_nat (f_off (x_f fc))) vrec) 0 = Ok (n_major n / 256)) by (eapply rd_at; [lia|lia|exact Vc|reflexivity]). assert (N1 : rd (skipn (Z.to_nat (f_off (x_f fc))) vrec) 1 = Ok (n_major n mod 256)) by (eapply rd_at; [lia|lia|exact Vc|reflexivity]).
      assert (N2 : rd (skipn (Z.to_nat (f_off (x_f fc))) vrec) 2 = Ok (n_minor n / 256)) by (eapply rd_at; [lia|lia|exact Vc|reflexivity]). assert (N3 : rd (skipn (Z.to_nat (f_off (x_f fc))) vrec) 3 = Ok (n_minor n mod 256)) by (eapply rd_at; [lia|lia|exact Vc|reflexivity]).
      rewrite N0, N1, N2, N3. cbn [rbind]. rewrite <- !Z_div_mod_eq_full. reflexivity.
    - destruct HV as (-> & ->). split; [reflexivity|]. destruct (Descr_Model.h_ver h); lia. }
  destruct MM as (MM & Mb). rewrite MM. cbn [rbind fst snd].
  destruct (numbers_ok same b pn v st xh th Ep B3 B2 P32 Vth Kh) as (Eh & Lh). destruct (numbers_ok same b pn v st xe te Ep B3 B2 P32 Vte Ke) as (Ee & Le).
  unfold history_rows, external_rows. rewrite Eh. cbn [rbind].
  rewrite (rows_read b pn v st xh th Ep B3 Vth _ (history_row same g b (6 <=? r_dv r) th) (history_row_ok same g b pn v st xh th Ep B3 Vth (6 <=? r_dv r)) (r_rows r) Oh). cbn [rbind]. rewrite Ee. cbn [rbind].
  destruct (indexed_ok same b pn v st xe te Ep B3 P32 Vte _ (external_row same g b (6 <=? r_dv r) te) (external_row_ok same g b pn v st xe te Ep B3 Vte (6 <=? r_dv r)) _ (r_exts r) Oe) as (recs & Er1 & Er2). rewrite Er1. cbn [rbind]. rewrite Er2. cbn [rbind].
  split; [|split; [exact (guid_bytes _ _ _ Bd Gr)|split; [exact Mb|]]].
  - unfold packs. destruct (6 <=? r_dv r); reflexivity.
  - assert (Q : forall x t, table_view pn v st x t -> zlen (c_recs x) < 2 ^ 32).
    { intros x t Vx. pose proof Vx as (_ & _ & _ & _ & _ & V32 & Vrec & _). rewrite (Full_Open.recs_len _ _ Vrec) in V32. assert (5 <= record_size (td_fields (c_decl x))) by (unfold record_size; lia). pose proof (zlen_nonneg (c_recs x)). nia. }
    pose proof (Q _ _ Vth). pose proof (Q _ _ Vte). unfold in_order in Oh. pose proof (Full_Open.Forall2_len _ _ _ Oh). pose proof (live_length _ _ _ _ Oe) as Oel. unfold zlen in *. lia.
Qed.
End Exported.

Lemma exported_from_file lower same g fuel after now now' uuid deflate inflate unpack store snapshot hjunk junk file mono h st xs r ver n major minor :
  NoDup (map lower [s_root; s_version; s_versions]) -> In 0 after -> (forall i, 0 <= now i < 2 ^ 64) -> (forall i, is_guid (uuid i)) ->
  (forall x, inflate (deflate x) = Some x) -> (forall x, x <> [] -> deflate x <> []) -> up_to_nul same ->
  database same file mono h st xs -> repository same xs r -> increasing (map n_num (r_vers r)) -> -2 ^ 31 < ver < 2 ^ 31 -> asked (r_vers r) ver n ->
  structure_version (r_dv r) (Descr_Model.h_ver h) n major minor -> 100 <= major -> (n_maker n = repeat 0 16 \/ forall rec, snapshot (n_maker n) rec (n_num n) (r_root r) = None) ->
  depot_sound same (r_rows r) (r_exts r) -> complete same (packs (r_dv r) store) (n_num n) (map v_row (r_rows r)) (map x_row (r_exts r)) -> names_clear lower same (packs (r_dv r) store) (n_num n) (r_rows r) (r_exts r) ->
  exists es, configuration lower same (packs (r_dv r) store) (n_num n) (r_rows r) (r_exts r) inflate major minor (r_root r) es /\
    (room es < 2147483647 -> room es <= Z.of_nat fuel ->
     exists d ys, export_of_file lower same g fuel after now now' uuid deflate unpack store snapshot hjunk junk file mono ver = Ok d /\
       (forall junk, length junk = 31%nat -> is_catalog junk d = Ok true) /\ open_files fuel after d = Ok ys /\ Forall2 (shows fuel after d) ys es).
Proof.
  intros H1 H2 H3 H4 H5 H6 HU D HR HI Hver HA HV HM HS DS C NC.
  destruct (export_step lower same g fuel after now now' uuid deflate unpack store snapshot hjunk junk file mono h st xs r ver n major minor HU D HR HI Hver HA HV HS) as (E & G & Mb & Lb).
  rewrite E. destruct (Z.ltb_spec major 100); [lia|]. apply version_saved; assumption.
Qed.

Lemma old_from_file lower same g fuel after now now' uuid deflate inflate unpack store snapshot hjunk junk file mono h st xs r ver n major minor :
  NoDup (map lower [s_metadata; s_version; s_versions]) -> In 0 after -> (forall i, 0 <= now i < 2 ^ 64) -> (forall i, 0 <= now' i < 2 ^ 64) -> (forall i, is_guid (uuid i)) ->
  (forall x, inflate (deflate x) = Some x) -> (forall x, x <> [] -> deflate x <> []) -> (forall p d, inflate p = Some d -> unpack p = d) -> up_to_nul same ->
  database same file mono h st xs -> repository same xs r -> increasing (map n_num (r_vers r)) -> -2 ^ 31 < ver < 2 ^ 31 -> asked (r_vers r) ver n ->
  structure_version (r_dv r) (Descr_Model.h_ver h) n major minor -> major < 100 -> (n_maker n = repeat 0 16 \/ forall rec, snapshot (n_maker n) rec (n_num n) (r_root r) = None) ->
  depot_sound same (r_rows r) (r_exts r) -> in_rows inflate (n_num n) (r_rows r) -> externals_stored same (packs (r_dv r) store) (n_num n) (r_rows r) (r_exts r) ->
  objects_clear lower (n_num n) (r_rows r) (holds_object (packs (r_dv r) store) inflate (n_num n) (r_rows r)) -> externals_clear lower same (packs (r_dv r) store) (n_num n) (r_rows r) (r_exts r) ->
  exists ns, inner_configuration lower (n_num n) (r_rows r) (r_root r) (holds_object (packs (r_dv r) store) inflate (n_num n) (r_rows r)) ns /\
    (room ns < 2147483647 -> room ns <= Z.of_nat fuel ->
     exists inner es, container fuel after inner ns /\ outer_configuration lower same (packs (r_dv r) store) inflate (n_num n) (r_rows r) (r_exts r) major minor inner es /\
       (room es < 2147483647 -> room es <= Z.of_nat fuel ->
        exists d, export_of_file lower same g fuel after now now' uuid deflate unpack store snapshot hjunk junk file mono ver = Ok d /\ container fuel after d es)).
Proof.
  intros H1 H2 H3 H3' H4 H5 H6 H7 HU D HR HI Hver HA HV HM HS DS IR XS OC XC.
  destruct (export_step lower same g fuel after now now' uuid deflate unpack store snapshot hjunk junk file mono h st xs r ver n major minor HU D HR HI Hver HA HV HS) as (E & G & Mb & Lb).
  rewrite E. destruct (Z.ltb_spec major 100); [|lia]. apply old_rows; assumption.
Qed.
