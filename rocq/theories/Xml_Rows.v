(** Proofs about the export as XML: one value, the records, the whole file. *)
From Coq Require String Ascii.
From Verif Require Import Prelude Lists Bcd_Model Codec_Model Text_Model Field_Model Rec_Model Bcd_Spec Codec_Spec Text_Spec Field_Spec
  Bcd_Proofs Codec_Proofs Text_Proofs Field_Proofs Xml_Model Xml_Spec Xml_Proofs Xml_Values.
Import String.StringSyntax.
Ltac Zify.zify_post_hook ::= idtac.

Lemma rd_nth (l : list Z) i : 0 <= i < zlen l -> rd l i = Ok (nth (Z.to_nat i) l 0).
Proof. intros H. apply rd_ok; [lia|]. apply nth_error_nth'. unfold zlen in H. lia. Qed.
Lemma null_missing f rec : 0 <= f_off f -> f_off f + (if f_null f then 1 else 0) <= zlen rec -> is_null f rec = Ok (is_missing f rec).
Proof.
  intros H0 H. unfold is_null, is_missing. destruct (f_null f); [|reflexivity]. rewrite rd_nth by lia. reflexivity.
Qed.
Lemma width_pos k L : 0 <= L -> 0 <= width k L.
Proof. intros H. destruct k; cbn [width]; try lia; apply Z.div_pos; lia. Qed.
Lemma ref_parts rec p : 0 <= p -> p + 8 <= zlen rec ->
  blob_ref rec p = Ok (le_val (firstn 4 (part rec p 8)), le_val (skipn 4 (part rec p 8))).
Proof.
  intros. unfold blob_ref. rewrite rdn_part by lia. cbn [rbind]. rewrite sub_0_firstn. do 3 f_equal. unfold sub.
  apply firstn_all2. rewrite skipn_length. pose proof (part_length rec p 8 ltac:(lia) ltac:(lia) ltac:(lia)) as Q. unfold zlen in Q. lia.
Qed.
(** a value has a text, for names and for the document *)
Lemma value_show blob nl g f rec c : cell_doc blob (x_name f) (x_f f) (x_prec f) (x_ref f) rec c -> is_missing (x_f f) rec = false ->
  exists s w, show g f rec = Ok s /\ xml_value blob nl g f rec = Ok w /\ good w (snd c) /\
    match f_kind (x_f f) with KDate | KString | KText | KImage => True | _ => s = snd c end.
Proof.
  intros (_ & O0 & L0 & Z0 & D) M. rewrite M in D. destruct D as (d & B & D).
  set (p := value_at (x_f f)) in *. assert (P0 : 0 <= p) by (unfold p, value_at; destruct (f_null (x_f f)); lia).
  set (k := f_kind (x_f f)) in *. set (L := f_len (x_f f)) in *. pose proof (width_pos k L L0) as W0.
  assert (EV : vpos (x_f f) = p) by reflexivity. remember (snd c) as t eqn:Et. clear Et.
  unfold xml_value, show. rewrite EV. fold k L. destruct k eqn:K; cbn [width] in *; rewrite ?Z.add_0_r in Z0; unfold means in D.
  - destruct D as (Er & EL & G & ->). rewrite Er, rdn_part by lia. cbn [rbind]. destruct (guid_show _ G) as [-> MG].
    do 2 eexists. split; [reflexivity|]. split; [reflexivity|]. split; [now apply mild_good|first [exact Logic.I|reflexivity]].
  - destruct D as (b & Ev & ->). assert (Rb : rd rec p = Ok b).
    { rewrite rd_nth by lia. f_equal. unfold part in Ev. change (Z.to_nat 1) with 1%nat in Ev.
      rewrite <- (firstn_skipn (Z.to_nat p) rec) at 1. rewrite app_nth2; rewrite firstn_length; [|lia].
      replace (Z.to_nat p - Nat.min (Z.to_nat p) (length rec))%nat with 0%nat by (unfold zlen in Z0; lia).
      destruct (skipn (Z.to_nat p) rec) as [|x r]; [discriminate|]. cbn in Ev. now inversion Ev. }
    rewrite Rb. cbn [rbind]. do 2 eexists. split; [reflexivity|]. split; [reflexivity|].
    change (str "false") with [102; 97; 108; 115; 101]. change (str "true") with [116; 114; 117; 101].
    unfold text_of_bool. (destruct (b =? 0); (split; [|reflexivity])); apply mild_good; repeat (constructor; [unfold mild; repeat split; lia|]); constructor.
  - assert (MN : means KNum L (x_prec f) false (part rec p ((1 + L + 1) / 2)) d t) by exact D.
    rewrite (after_part rec p ((1 + L + 1) / 2)) by lia.
    destruct (num_show _ _ _ (after rec (p + (1 + L + 1) / 2)) _ _ MN) as [-> MG]. do 2 eexists. split; [reflexivity|]. split; [reflexivity|]. split; [now apply mild_good|first [exact Logic.I|reflexivity]].
  - destruct D as (PL & cps & S & Ev & ->). unfold char_bytes. replace (L * 2) with (2 * L) by lia. rewrite rdn_part by lia. rewrite Ev. cbn [rbind].
    rewrite text_show by assumption. destruct (plain_xml _ PL) as (w & Ew & G). do 2 eexists. split; [reflexivity|]. cbn [rbind]. split; [exact Ew|split; [exact G|first [exact Logic.I|reflexivity]]].
  - destruct D as (PL & cps & pad & S & N & Ev & ->). rewrite (varchar_show rec p L cps pad) by (assumption || lia). cbn [rbind].
    rewrite text_show by assumption. destruct (plain_xml _ PL) as (w & Ew & G). do 2 eexists. split; [reflexivity|]. cbn [rbind]. split; [exact Ew|split; [exact G|first [exact Logic.I|reflexivity]]].
  - destruct D as (ns & N & T). change (8 + 8) with 16 in *. rewrite rdn_part by lia. cbn [rbind]. destruct (numbers_show _ _ _ T) as [E MG]. rewrite N in E. rewrite E.
    destruct (mild_xml _ MG) as (w & Ew & G). do 2 eexists. split; [reflexivity|]. split; [exact Ew|split; [exact G|first [exact Logic.I|reflexivity]]].
  - destruct D as (PL & cps & S & -> & ->). change (4 + 4) with 8 in *. rewrite ref_parts by lia. cbn [rbind fst snd]. rewrite B. cbn [rbind].
    rewrite text_show by assumption. destruct (plain_xml _ PL) as (w & Ew & G). do 2 eexists. split; [reflexivity|]. cbn [rbind]. split; [exact Ew|split; [exact G|first [exact Logic.I|reflexivity]]].
  - destruct D as (PL & ->). change (4 + 4) with 8 in *. rewrite ref_parts by lia. cbn [rbind fst snd]. rewrite B. cbn [rbind].
    destruct (plain_xml _ PL) as (w & Ew & G). do 2 eexists. split; [reflexivity|]. split; [exact Ew|split; [exact G|first [exact Logic.I|reflexivity]]].
  - destruct D as (Db & D54 & ->). change (4 + 4) with 8 in *. rewrite ref_parts by lia. cbn [rbind fst snd]. rewrite B. cbn [rbind].
    destruct (b64_line nl (length d) d 0) as [E MG]; [lia|assumption|lia|lia|]. do 2 eexists. split; [reflexivity|]. split; [reflexivity|].
    unfold base64_encode. rewrite E. split; [now apply mild_good|first [exact Logic.I|reflexivity]].
  - destruct D as (Dd & Y & ->). rewrite (after_part rec p 7) by lia.
    destruct (date_show_iso (part rec p 7) (after rec (p + 7)) d (iso (nibs (part rec p 7)))) as (n & E & Ex & MG).
    + exact (conj Dd (conj Y eq_refl)).
    + unfold after. rewrite skipn_length. unfold zlen in Z0. lia.
    + rewrite E. cbn [rbind]. rewrite Ex. do 2 eexists. split; [reflexivity|]. split; [reflexivity|]. split; [now apply mild_good|first [exact Logic.I|reflexivity]].
  - destruct D as (ns & N & T). rewrite rdn_part by lia. cbn [rbind]. destruct (numbers_show _ _ _ T) as [E MG]. rewrite N in E. rewrite E.
    destruct (mild_xml _ MG) as (w & Ew & G). do 2 eexists. split; [reflexivity|]. split; [exact Ew|split; [exact G|first [exact Logic.I|reflexivity]]].
  - destruct D.
Qed.

(** ** Records *)
Definition open3 : list (list Z) := [str "Record"; str "Records"; str "Table"].
Lemma cell_read e t f rec s c : cell_doc (e_blob e) (x_name f) (x_f f) (x_prec f) (x_ref f) rec c -> xml_name (x_name f) ->
  exists v, cell e t false f rec s = Ok (v, s) /\ part_ok open3 (cell_text f v) (cell_events c).
Proof.
  intros D N. pose proof D as (En & O0 & L0 & Z0 & D'). pose proof (width_pos (f_kind (x_f f)) (f_len (x_f f)) L0) as W0.
  assert (E0 : c = (x_name f, snd c)) by (destruct c; cbn in En |- *; congruence).
  unfold cell. cbn [andb]. rewrite null_missing; [|exact O0|unfold value_at in Z0; destruct (f_kind (x_f f)); lia]. cbn [rbind].
  destruct (is_missing (x_f f) rec) eqn:M.
  - exists None. split; [reflexivity|]. rewrite E0, D'. unfold cell_text.
    change ([9; 9; 9; 60] ++ x_name f ++ [47; 62] ++ eol) with (repeat 9 3 ++ [60] ++ x_name f ++ [47; 62] ++ eol).
    apply (part_app _ _ [] _ (cell_events (x_name f, []))); [apply part_tabs|].
    replace ([60] ++ x_name f ++ [47; 62] ++ eol) with (([60] ++ x_name f ++ [47; 62]) ++ eol) by (now rewrite <- !app_assoc).
    rewrite <- (app_nil_r (cell_events (x_name f, []))). apply part_app; [|apply part_eol]. now apply part_null.
  - destruct (value_show (e_blob e) (e_nl e) (e_g e) f rec c D M) as (_ & w & _ & -> & G & _). cbn [rbind].
    exists (Some w). split; [reflexivity|]. rewrite E0. unfold cell_text.
    match goal with |- part_ok _ ?x _ => replace x with (repeat 9 3 ++ (([60] ++ x_name f ++ [62] ++ w ++ [60; 47] ++ x_name f ++ [62]) ++ eol)) end.
    2:{ cbn [repeat]. repeat (progress (repeat rewrite <- app_assoc; cbn [app])). reflexivity. }
    apply (part_app _ _ [] _ (cell_events (x_name f, snd c))); [apply part_tabs|].
    rewrite <- (app_nil_r (cell_events (x_name f, snd c))). apply part_app; [|apply part_eol]. now apply part_cell.
Qed.
Lemma cells_read e t rec : forall fs r s, row_doc (e_blob e) fs rec r -> Forall (fun f => xml_name (x_name f)) fs ->
  exists o, cells e t false fs rec s = Ok (o, s) /\ part_ok open3 o (flat_map cell_events r).
Proof.
  induction fs as [|f fs IH]; intros r s D N; inversion D; subst; [exists []; split; [reflexivity|apply part_nil]|].
  inversion N; subst. destruct (cell_read e t f rec s y H1 H2) as (v & E & P). destruct (IH l' s H3 H4) as (o & E' & P').
  exists (cell_text f v ++ o). cbn [cells]. rewrite E. cbn [rbind]. rewrite E'. cbn [rbind]. split; [reflexivity|]. cbn [flat_map]. now apply part_app.
Qed.
(** the name of the file can be made *)
Lemma keys_show e fs rec r : row_doc (e_blob e) fs rec r ->
  forall ks s, Forall (fun k => In k fs /\ is_missing (x_f k) rec = false) ks -> exists n, join_keys (e_g e) ks rec s = Ok n.
Proof.
  intros D. induction ks as [|k ks IH]; intros s H; [now exists s|]. inversion H as [|? ? [I M] H']; subst.
  assert (exists c, cell_doc (e_blob e) (x_name k) (x_f k) (x_prec k) (x_ref k) rec c) as [c C].
  { clear - D I. induction D as [|f c fs r Hc D IH]; [destruct I|]. destruct I as [-> | I]; [now exists c|now apply IH]. }
  pose proof C as (_ & O0 & L0 & Z0 & _). pose proof (width_pos (f_kind (x_f k)) (f_len (x_f k)) L0) as W0.
  cbn [join_keys]. rewrite null_missing; [|exact O0|unfold value_at in Z0; destruct (f_kind (x_f k)); lia]. rewrite M. cbn [rbind].
  destruct (value_show (e_blob e) (e_nl e) (e_g e) k rec c C M) as (sh & _ & -> & _). cbn [rbind]. now apply IH.
Qed.
Definition keys (t : xtable) : list xfield :=
  match t_indexes t with
  | [] => []
  | i0 :: _ => match find i_primary (t_indexes t) with Some i => i_fields i | None => i_fields i0 end
  end.
Lemma file_name_ok e t rec r : row_doc (e_blob e) (t_fields t) rec r ->
  Forall (fun k => In k (t_fields t) /\ is_missing (x_f k) rec = false) (keys t) -> exists n, file_name (e_g e) t rec = Ok n.
Proof.
  intros D H. unfold file_name, keys in *. destruct (t_indexes t) as [|i0 is]; [now exists []|].
  destruct (find i_primary (i0 :: is)) as [i|]; now apply (keys_show e _ _ _ D).
Qed.
Lemma rows_read e t : Forall (fun f => xml_name (x_name f)) (t_fields t) -> forall ns rs s,
  Forall2 (fun n r => exists rec, t_get t n = Ok rec /\ row_doc (e_blob e) (t_fields t) rec r /\
    (images e t = 0 \/ Forall (fun k => In k (t_fields t) /\ is_missing (x_f k) rec = false) (keys t))) ns rs ->
  exists o s', rows e t false ns s = Ok (o, s') /\ s_files s' = s_files s /\ part_ok [str "Records"; str "Table"] o (flat_map row_events rs).
Proof.
  intros N. induction ns as [|n ns IH]; intros rs s H; inversion H; subst; [exists [], s; repeat split; apply part_nil|].
  destruct H2 as (rec & G & D & K). cbn [rows]. rewrite G. cbn [rbind].
  assert (exists s1, (if images e t =? 0 then Ok s
               else do fn <- file_name (e_g e) t rec;
                    Ok (if e_same e fn (s_name s) then XS (s_name s) (s_rep s + 1) (s_path s) (s_files s)
                        else XS fn 0 (s_path s) (s_files s))) = Ok s1 /\ s_files s1 = s_files s) as (s1 & -> & F1).
  { destruct (Z.eqb_spec (images e t) 0) as [I|I]; [now exists s|]. destruct K as [K|K]; [contradiction|]. destruct (file_name_ok e t rec y D K) as [fn ->]. cbn [rbind]. eexists. split; [reflexivity|].
    now destruct (e_same e fn (s_name s)). }
  cbn [rbind]. destruct (cells_read e t rec (t_fields t) y s1 D N) as (o & -> & P). cbn [rbind].
  destruct (IH l' s1 H4) as (o' & s' & -> & F & P'). cbn [rbind]. do 2 eexists. split; [reflexivity|]. split; [congruence|].
  match goal with |- part_ok _ ?x _ => replace x with (([9; 9] ++ lit "<Record>" ++ eol ++ o ++ [9; 9] ++ lit "</Record>" ++ eol) ++ o') end.
  2:{ repeat (progress (repeat rewrite <- app_assoc; cbn [app])). reflexivity. }
  cbn [flat_map]. apply part_app; [|exact P']. clear P'.
  assert (NR : xml_name (str "Record")) by (unlit; name_tac).
  match goal with |- part_ok _ ?x _ => replace x with (repeat 9 2 ++ ([60] ++ str "Record" ++ [62] ++ (eol ++ o ++ repeat 9 2) ++ [60; 47] ++ str "Record" ++ [62]) ++ eol) end.
  2:{ unlit. cbn [repeat]. repeat (progress (repeat rewrite <- app_assoc; cbn [app eol])). reflexivity. }
  replace (row_events y) with ([] ++ (Start (str "Record") [] :: ([] ++ flat_map cell_events y ++ []) ++ [Stop (str "Record")]) ++ []).
  2:{ unfold row_events. rewrite !app_nil_r. reflexivity. }
  apply part_app; [apply part_tabs|]. apply part_app; [|apply part_eol].
  apply part_elem; [cbn; lia|now apply opens_name|apply name_ok, NR|exact NR|].
  apply part_app; [apply part_eol|]. apply part_app; [exact P|apply part_tabs].
Qed.

(** ** The whole file *)
Lemma find_first (is : list xindex) :
  match find i_primary is with
  | Some i => exists a b, is = a ++ i :: b /\ i_primary i = true /\ Forall (fun j => i_primary j = false) a
  | None => Forall (fun j => i_primary j = false) is
  end.
Proof.
  induction is as [|i is IH]; [constructor|]. cbn [find]. destruct (i_primary i) eqn:P.
  - exists [], is. repeat split; [assumption|constructor].
  - destruct (find i_primary is) as [j|].
    + destruct IH as (a & b & -> & Pj & F). exists (i :: a), b. repeat split; [assumption|now constructor].
    + now constructor.
Qed.
Lemma first_unique (is : list xindex) i j a b a' b' : is = a ++ i :: b -> is = a' ++ j :: b' -> i_primary i = true -> i_primary j = true ->
  Forall (fun j => i_primary j = false) a -> Forall (fun j => i_primary j = false) a' -> i = j.
Proof.
  revert is a'. induction a as [|x a IH]; intros is a' E E' Pi Pj F F'; destruct a' as [|y a']; cbn [app] in *; rewrite E in E'; inversion E'; subst; auto.
  - inversion F'; congruence.
  - inversion F; congruence.
  - inversion F; inversion F'; subst. now apply (IH (a ++ i :: b) a').
Qed.
Lemma primary_find t : (exists i, primary_of t i /\ find i_primary (t_indexes t) = Some i) \/ (no_primary t /\ find i_primary (t_indexes t) = None).
Proof. pose proof (find_first (t_indexes t)) as F. destruct (find i_primary (t_indexes t)) as [i|]; [left; now exists i|now right]. Qed.
Lemma primary_no t i : primary_of t i -> no_primary t -> False.
Proof. intros (a & b & E & P & _) N. unfold no_primary in N. rewrite E in N. apply Forall_app in N. destruct N as [_ N]. inversion N. congruence. Qed.
Lemma primary_same t i j : primary_of t i -> primary_of t j -> i = j.
Proof. intros (a & b & E & P & F) (a' & b' & E' & P' & F'). exact (first_unique _ _ _ _ _ _ _ E E' P P' F F'). Qed.
Lemma shown_numbers t ns : shown t ns -> numbers t = ns.
Proof.
  unfold numbers. destruct (primary_find t) as [(i & P & ->) | (N & ->)]; intros [(j & Q & ->) | (M & ->)]; auto.
  - now rewrite (primary_same t i j).
  - destruct (primary_no t i P M).
  - destruct (primary_no t j Q N).
Qed.
Lemma named_keys t ks : named_by t ks -> keys t = ks.
Proof.
  unfold keys. destruct (primary_find t) as [(i & P & ->) | (N & ->)]; intros [(j & Q & ->) | (M & ->)].
  - rewrite (primary_same t j i) by assumption. destruct (t_indexes t) eqn:E; [|reflexivity]. destruct P as (a & b & E' & _). rewrite E in E'. destruct a; discriminate.
  - destruct (primary_no t i P M).
  - destruct (primary_no t j Q N).
  - now destruct (t_indexes t).
Qed.
Lemma int_ok t v : is_int t v -> - 10 ^ 10 < v < 10 ^ 10 -> t = to_str v /\ attr_ok t /\ Forall (fun c => xml_char c = true /\ c <> 13) t.
Proof.
  intros I B. split; [symmetry; now apply to_str_int|]. apply mild_int in I. split.
  - eapply Forall_impl; [|exact I]. unfold mild. cbn. tauto.
  - eapply Forall_impl; [|exact I]. unfold mild. cbn. tauto.
Qed.
Lemma field_fdoc f fd : field_doc (x_name f) (x_f f) (x_prec f) fd ->
  xml_name (x_name f) /\ - 10 ^ 10 < f_len (x_f f) < 10 ^ 10 /\ - 10 ^ 10 < x_prec f < 10 ^ 10 -> fdoc_ok f fd.
Proof.
  intros (N & T & L & P & R) (X & BL & BP). destruct (int_ok _ _ L BL) as (EL & AL & CL). destruct (int_ok _ _ P BP) as (EP & AP & CP).
  unfold fdoc_ok. split; [assumption|]. split; [assumption|]. split; [rewrite T; now destruct (f_kind (x_f f))|]. tauto.
Qed.
Theorem export_reads e t d : table_doc (e_blob e) t d -> writable t ->
  (e_junk e = 0 /\ Forall (fun f => f_kind (x_f f) <> KImage) (t_fields t)) \/ all_named t ->
  exists o, export_to_xml e t false = Ok (o, []) /\ read_xml o = Some (doc_events d).
Proof.
  intros (En & F & ns & S & R) [WN WF] K.
  assert (R' : Forall2 (fun n r => exists rec, t_get t n = Ok rec /\ row_doc (e_blob e) (t_fields t) rec r /\
    (images e t = 0 \/ Forall (fun k => In k (t_fields t) /\ is_missing (x_f k) rec = false) (keys t))) ns (td_rows d)).
  { assert (K' : images e t = 0 \/ forall n rec, In n ns -> t_get t n = Ok rec -> Forall (fun k => In k (t_fields t) /\ is_missing (x_f k) rec = false) (keys t)).
    { destruct K as [[J I]|A].
      - left. unfold images. rewrite J. assert (filter is_image (t_fields t) = []) as ->; [|reflexivity].
        clear - I. induction I as [|f fs H _ IH]; [reflexivity|]. cbn [filter]. unfold is_image at 1. destruct (f_kind (x_f f)); congruence.
      - right. intros n rec I G. destruct (A ns n rec S I G) as (ks & NB & FK). now rewrite (named_keys t ks NB). }
    clear - R K'. induction R as [|n r ns rs (rec & G & D) R IH]; constructor.
    - exists rec. repeat split; try assumption. destruct K' as [K'|K']; [now left|right]. apply (K' n); [now left|assumption].
    - apply IH. destruct K' as [K'|K']; [now left|right]. intros m rec' I. apply K'. now right. }
  destruct (rows_read e t) with (ns := ns) (rs := td_rows d) (s := XS [] 0 [] []) as (o & s' & E & FS & P); [|exact R'|].
  { eapply Forall_impl; [|exact WF]. cbn. tauto. }
  unfold export_to_xml. rewrite (shown_numbers t ns S), E. cbn [rbind]. rewrite FS. cbn [s_files]. eexists. split; [reflexivity|].
  assert (FD : Forall2 fdoc_ok (t_fields t) (td_fields d)).
  { clear - F WF. induction F as [|f fd fs fds H F IH]; constructor; inversion WF; subst; [now apply field_fdoc|now apply IH]. }
  apply read_part. unfold doc_events. rewrite En. apply (part_whole (t_name t) (t_fields t) (td_fields d) o _ WN FD P).
Qed.
