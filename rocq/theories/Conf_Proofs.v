(** Proofs for Conf_Props: the records of the table of files. *)
From Coq Require Import Sorted.
From Verif Require Import Prelude Lists Bcd_Model Bcd_Spec Bcd_Proofs Text_Model Text_Spec Text_Proofs Tree_Model Field_Model Field_Spec Field_Proofs Obj_Model Obj_Proofs Rec_Model Xml_Model Xml_Spec Xml_Values
  Cfg_Model Cfg_Spec Save_Model Save_Spec Chk_Model Chk_Spec Chk_More Descr_Model Descr_Proofs Full_Model Full_Spec Full_Proofs Full_Open Full_Export Conf_Model Conf_Spec.
Ltac Zify.zify_post_hook ::= idtac.

Lemma vpos_value f : vpos f = value_at f. Proof. reflexivity. Qed.
Lemma width_pos k L : 0 <= L -> 0 <= width k L.
Proof. intros H. destruct k; cbn [width]; try lia; apply Z.div_pos; lia. Qed.
Lemma reaches_facts f rec m : reaches f rec m -> 0 <= m -> 0 <= value_at (x_f f) /\ 0 <= width (f_kind (x_f f)) (f_len (x_f f)) /\ value_at (x_f f) + width (f_kind (x_f f)) (f_len (x_f f)) <= zlen rec.
Proof. intros (A & B & C) M. pose proof (width_pos (f_kind (x_f f)) _ B). unfold value_at in *. destruct (f_null (x_f f)); lia. Qed.
Lemma null_of f rec m : reaches f rec m -> 0 <= m -> is_null (x_f f) rec = Ok (is_missing (x_f f) rec).
Proof.
  intros (A & B & C) M. pose proof (width_pos (f_kind (x_f f)) _ B). unfold is_null, is_missing. unfold value_at in C. destruct (f_null (x_f f)) eqn:EN; [|reflexivity].
  rewrite (rd_ok _ _ (nth (Z.to_nat (f_off (x_f f))) rec 0)); [reflexivity|lia|]. apply nth_error_nth'. unfold zlen in C. lia.
Qed.
Lemma text_get g f rec cps : text_in f rec cps -> get_string g f rec = Ok (utf8_of cps).
Proof.
  intros (K & R & M & S1 & S2 & pad & E). unfold get_string. rewrite (null_of f rec 0 R) by lia. rewrite M. cbn [rbind]. unfold show. rewrite K. destruct (reaches_facts f rec 0 R) as (P1 & P2 & P3); [lia|].
  unfold value_of in E. rewrite K in E, P2, P3. cbn [width] in E, P2, P3. destruct R as (_ & R & _). rewrite vpos_value. rewrite (varchar_show rec (value_at (x_f f)) (f_len (x_f f)) cps pad P1 R P3 S2 E). cbn [rbind]. apply text_show. exact S1.
Qed.
Lemma number_get g f rec n : number_in f rec n -> (do t <- get_string g f rec; to_int_def t 0) = Ok n.
Proof.
  intros (K & R & M & Hn & t & E & I1). unfold get_string. rewrite (null_of f rec 0 R) by lia. rewrite M. cbn [rbind]. unfold show. rewrite K. destruct (reaches_facts f rec 0 R) as (P1 & P2 & P3); [lia|].
  rewrite vpos_value, (after_part rec (value_at (x_f f)) (width (f_kind (x_f f)) (f_len (x_f f)))) by lia.
  destruct (num_show _ _ _ (after rec (value_at (x_f f) + width (f_kind (x_f f)) (f_len (x_f f)))) _ _ E) as (Q & _). unfold value_of in Q. rewrite Q. cbn [rbind].
  destruct I1 as (ds & D1 & D2 & D3 & [(-> & ->)|(-> & -> & D4)]).
  - unfold chars. rewrite to_int_def_digits; [|exact D2|exact D1]. change (digits_value ds) with (dval ds). destruct (Z.leb_spec (dval ds) 2147483647); [reflexivity|lia].
  - exfalso. assert (N0 : hd 0 ds <> 0) by (intros H; apply D4; auto). pose proof (dval_low ds D1 D2 N0). assert (0 < 10 ^ (zlen ds - 1)) by (apply Z.pow_pos_nonneg; [lia|destruct ds; [congruence|rewrite zlen_cons; pose proof (zlen_nonneg ds); lia]]). lia.
Qed.
Lemma date_get f rec d : date_in f rec d -> get_date f rec = Ok d /\ length d = 7%nat.
Proof.
  intros (K & R & <-). destruct (reaches_facts f rec 3 R) as (P1 & P2 & P3); [lia|]. destruct R as (_ & _ & R). unfold value_of. rewrite K in *. cbn [width] in *.
  assert (L : length (part rec (value_at (x_f f)) 7) = 7%nat) by (pose proof (part_length rec (value_at (x_f f)) 7 P1 ltac:(lia) P3) as Q; unfold zlen in Q; lia).
  split; [|exact L]. unfold get_date. rewrite vpos_value. rewrite (after_part rec (value_at (x_f f)) 7) by lia.
  destruct (date_of_raw_ok (part rec (value_at (x_f f)) 7) (after rec (value_at (x_f f) + 7)) L) as (t & ->).
  { unfold after. rewrite skipn_length. unfold zlen in R. lia. }
  cbn [rbind]. apply rdn_part; lia.
Qed.
Lemma address_get f rec s n : address_in f rec s n -> get_blob f rec = Ok (s, n).
Proof.
  intros (K & R & M & <- & <-). unfold get_blob. rewrite (null_of f rec 0 R) by lia. rewrite M. cbn [rbind]. destruct (reaches_facts f rec 0 R) as (P1 & P2 & P3); [lia|]. unfold value_of. rewrite K in *. cbn [width] in *.
  unfold blob_ref. rewrite vpos_value, rdn_part by lia. cbn [rbind]. rewrite sub_0_firstn. unfold sub. rewrite (firstn_all2 (skipn 4 _)); [reflexivity|]. rewrite skipn_length.
  pose proof (part_length rec (value_at (x_f f)) 8 P1 ltac:(lia) P3) as Q. unfold zlen in Q. change (4 + 4) with 8. lia.
Qed.
(** ** One record *)
Definition row_for (bf : option (list Z)) (o : option piece) (r : frow) : Prop :=
  match o with
  | Some p => exists s, s <> 0 /\ blob_in bf s (zlen (p_data p)) (p_data p) /\ p_name p <> [] /\ Forall scalar (p_name p) /\ 0 <= p_part p /\ p_data p <> [] /\ length (p_made p) = 7%nat /\ length (p_changed p) = 7%nat /\
      bytes_ok (p_made p ++ p_changed p) /\ r = FR false (utf8_of (p_name p)) s (zlen (p_data p)) (p_part p) (le_val (p_made p ++ p_changed p))
  | None => taken r = false
  end.
Lemma utf8_ne cps : cps <> [] -> utf8_of cps <> [].
Proof. destruct cps as [|c cps]; [congruence|]. intros _. unfold utf8_of. cbn [flat_map]. intros H. apply app_eq_nil in H. now apply (enc8_nonempty c). Qed.
Lemma part_bytes rec p n : bytes_ok rec -> bytes_ok (part rec p n).
Proof. intros H. unfold part. apply Forall_firstn'. now apply Forall_skipn'. Qed.
Lemma row_ok g bf fs rec o : (length fs = 6 \/ length fs = 7)%nat -> bytes_ok rec ->
  match o with Some p => holds bf fs rec p | None => holds_nothing fs rec end -> exists r, row_of g fs rec = Ok r /\ row_for bf o r.
Proof.
  intros Hl Hb. destruct o as [p|].
  - intros ((r0 & E0) & Nn & Nd & name & made & changed & attr & size & data & more & -> & T & D1 & D2 & (s & S0 & A & B) & Pn). unfold row_of.
    assert (ER : is_removed rec = Ok false) by (rewrite E0; reflexivity). rewrite ER. cbn [rbind]. unfold fld. cbn [nth]. rewrite (address_get _ _ _ _ A). cbn [rbind fst snd].
    assert (Z0 : zlen (p_data p) <> 0) by (destruct (p_data p); [congruence|rewrite zlen_cons; pose proof (zlen_nonneg l); lia]).
    destruct (Z.eqb_spec s 0); [congruence|]. destruct (Z.eqb_spec (zlen (p_data p)) 0); [congruence|]. cbn [orb]. rewrite (text_get g _ _ _ T). cbn [rbind].
    destruct (utf8_of (p_name p)) as [|u us] eqn:EU; [now apply utf8_ne in Nn|]. rewrite <- EU.
    assert (EP : (if 6 <? zlen (name :: made :: changed :: attr :: size :: data :: more) then do t <- get_string g (nth 0 more (XF [] (FD KBin false 0 0) 0 false)) rec; to_int_def t 0 else Ok 0) = Ok (p_part p) /\ 0 <= p_part p).
    { destruct more as [|part more]; [cbn; split; [now rewrite Pn|lia]|]. assert (more = []) by (destruct more; [reflexivity|cbn in Hl; lia]). subst more. cbn [nth]. rewrite (number_get g _ _ _ Pn). destruct Pn as (_ & _ & _ & Pn & _). split; [reflexivity|lia]. }
    destruct EP as (EP & P0). rewrite EP. cbn [rbind]. destruct (date_get _ _ _ D1) as (-> & L1). destruct (date_get _ _ _ D2) as (-> & L2). cbn [rbind]. eexists. split; [reflexivity|]. cbn [row_for]. exists s. destruct T as (_ & _ & _ & T & _).
    assert (BO : bytes_ok (p_made p ++ p_changed p)). { apply Forall_app. destruct D1 as (_ & _ & <-), D2 as (_ & _ & <-). split; now apply part_bytes. }
    tauto.
  - unfold row_of. intros [(m & r0 & -> & M)|((r0 & E0) & name & made & changed & attr & size & data & more & -> & H)].
    + change (is_removed (m :: r0)) with (Ok (negb (m =? 0))). destruct (Z.eqb_spec m 0); [congruence|]. cbn [negb rbind]. eexists. split; reflexivity.
    + assert (ER : is_removed rec = Ok false) by (rewrite E0; reflexivity). rewrite ER. cbn [rbind]. unfold fld. cbn [nth]. destruct H as [(R & M)|(s & n & A & H)].
      * unfold get_blob. rewrite (null_of _ _ 0 R) by lia. rewrite M. cbn [rbind fst snd Z.eqb orb]. eexists. split; reflexivity.
      * rewrite (address_get _ _ _ _ A). cbn [rbind fst snd]. destruct (Z.eqb_spec s 0) as [-> |S0]; [eexists; split; reflexivity|]. destruct (Z.eqb_spec n 0) as [-> |N0]; [cbn [orb]; eexists; split; [reflexivity|]; unfold row_for, taken; cbn; destruct (s =? 0); reflexivity|]. cbn [orb].
        destruct H as [H|[H|H]]; [congruence|congruence|]. rewrite (text_get g _ _ _ H). cbn [rbind utf8_of flat_map]. eexists. split; [reflexivity|]. cbn [row_for]. unfold taken. cbn [Cfg_Model.r_name]. now rewrite andb_false_r.
Qed.

(** ** All records *)
Lemma rows_ok g bf fs get : forall recs ps i, (length fs = 6 \/ length fs = 7)%nat -> Forall bytes_ok recs -> (forall k rec, nth_error recs k = Some rec -> get (i + Z.of_nat k) = Ok rec) ->
  Forall2 (fun rec o => match o with Some p => holds bf fs rec p | None => holds_nothing fs rec end) recs ps ->
  exists rows, table_rows g fs get (length recs) i = Ok rows /\ Forall2 (row_for bf) ps rows.
Proof.
  induction recs as [|rec recs IH]; intros ps i Hl Hb Hg H; inversion H as [|? o ? ps' H1 H2]; subst; [exists []; split; [reflexivity|constructor]|]. inversion Hb as [|? ? B1 B2]; subst.
  destruct (row_ok g bf fs rec o Hl B1 H1) as (r & E & R). destruct (IH ps' (i + 1) Hl B2) as (rows & E2 & R2).
  { intros k rec0 Hk. replace (i + 1 + Z.of_nat k) with (i + Z.of_nat (S k)) by lia. now apply Hg. }
  { exact H2. }
  exists (r :: rows). split; [|constructor; assumption]. cbn [length table_rows]. specialize (Hg O rec eq_refl). cbn [Z.of_nat] in Hg. rewrite Z.add_0_r in Hg. rewrite Hg. cbn [rbind]. rewrite E. cbn [rbind]. rewrite E2. reflexivity.
Qed.
Lemma fields_named fs : map x_name (the_fields fs) = map fd_name fs.
Proof.
  unfold the_fields. rewrite map_map. cbn [the_field x_name]. transitivity (map fd_name (map snd (combine (seq 0 (length fs)) fs))); [now rewrite map_map|]. f_equal.
  generalize 0%nat. induction fs as [|f fs IH]; intros k; [reflexivity|]. cbn [length seq combine map snd]. now rewrite IH.
Qed.
Lemma test_ok fs : file_fields (map x_name fs) -> test_table fs = Ok tt /\ (length fs = 6 \/ length fs = 7)%nat.
Proof.
  intros (six & F & H). assert (L : length six = 6%nat) by (rewrite (Forall2_len _ _ _ F); reflexivity). unfold test_table.
  assert (G : named seven (map x_name fs) = Ok tt /\ (length (map x_name fs) = 6 \/ length (map x_name fs) = 7)%nat).
  { destruct H as [-> |(p & -> & P)].
    - split; [|auto]. exact (Chk_More.named_ok _ _ F [[80;65;82;84;78;79]]).
    - split; [|rewrite app_length, L; right; reflexivity]. replace seven with (seven ++ []) by (now rewrite app_nil_r). apply Chk_More.named_ok. apply (Forall2_app F). constructor; [exact P|constructor]. }
  destruct G as (G & L2). rewrite map_length in L2. split; [|exact L2]. unfold zlen. destruct L2 as [L2|L2]; rewrite L2; cbn; exact G.
Qed.
Lemma concat_bytes (l : list (list Z)) : bytes_ok (concat l) -> Forall bytes_ok l.
Proof. induction l as [|a l IH]; intros H; constructor; cbn [concat] in H; apply Forall_app in H; [apply H|apply IH, H]. Qed.
Lemma files_rows lower g b pn v st x t ps : db_ps b = Z.of_nat pn -> db_st b = st -> table_view pn v st x t -> table_holds x ps ->
  exists rows, files_of lower g b t = table_files lower rows /\ Forall2 (row_for (c_blob x)) ps rows.
Proof.
  intros B1 B2 V (N & H). pose proof V as (_ & V2 & _ & V4 & (_ & _ & Vb) & _). unfold files_of. rewrite V2. destruct (test_ok (the_fields (td_fields (c_decl x)))) as (-> & Hl); [rewrite fields_named; exact N|]. cbn [rbind].
  destruct (rows_ok g (c_blob x) (the_fields (td_fields (c_decl x))) (record_at (db_ps b) (db_st b) t) (c_recs x) ps 0 Hl (concat_bytes _ Vb)) as (rows & E & R).
  { intros k rec Hk. rewrite B1, B2. apply (rec_get pn v st x t _ rec V); [lia|]. now replace (Z.to_nat (0 + Z.of_nat k)) with k by lia. }
  { exact H. }
  exists rows. split; [|exact R]. rewrite V4. unfold zlen. rewrite Nat2Z.id, E. reflexivity.
Qed.
