(** Proofs about the export as XML: what goes wrong, and the files of pictures. *)
From Coq Require String Ascii.
From Verif Require Import Prelude Lists Bcd_Model Codec_Model Text_Model Field_Model Rec_Model Bcd_Spec Codec_Spec Text_Spec Field_Spec
  Bcd_Proofs Codec_Proofs Text_Proofs Field_Proofs Xml_Model Xml_Spec Xml_Proofs Xml_Values Xml_Rows.
Import String.StringSyntax.
Ltac Zify.zify_post_hook ::= idtac.

Lemma ok_pair {A B} (a c : A) (b d : B) : Ok (a, b) = Ok (c, d) -> c = a /\ d = b.
Proof. intros E. injection E. auto. Qed.
(** ** Every character of a value is in the file *)
Lemma cell_state e t f rec s v s' : cell e t false f rec s = Ok (v, s') -> s' = s.
Proof.
  unfold cell. cbn [andb]. destruct (is_null (x_f f) rec) as [z| | |]; try discriminate. cbn [rbind]. destruct z; [intros E; now inversion E|].
  destruct (xml_value _ _ _ _ _) as [w| | |]; try discriminate. cbn [rbind]. intros E; now inversion E.
Qed.
Lemma cells_in e t rec f w c : is_null (x_f f) rec = Ok false -> xml_value (e_blob e) (e_nl e) (e_g e) f rec = Ok w -> In c w ->
  forall fs s o s', In f fs -> cells e t false fs rec s = Ok (o, s') -> In c o.
Proof.
  intros Z V C. induction fs as [|g fs IH]; intros s o s' I E; [destruct I|]. cbn [cells] in E.
  destruct (cell e t false g rec s) as [[v s1]| | |] eqn:E1; try discriminate. cbn [rbind] in E.
  destruct (cells e t false fs rec s1) as [[o2 s2]| | |] eqn:E2; try discriminate. cbn [rbind] in E. apply ok_pair in E. destruct E as [-> ->]. apply in_or_app.
  destruct I as [-> | I]; [left|right; now apply (IH s1 o2 s2)].
  unfold cell in E1. cbn [andb] in E1. rewrite Z, V in E1. cbn [rbind] in E1. apply ok_pair in E1. destruct E1 as [-> ->]. unfold cell_text.
  apply in_or_app. right. apply in_or_app. right. apply in_or_app. left. apply in_or_app. right. apply in_or_app. now left.
Qed.
Lemma rows_in e t f rec w c n : In f (t_fields t) -> t_get t n = Ok rec -> is_null (x_f f) rec = Ok false ->
  xml_value (e_blob e) (e_nl e) (e_g e) f rec = Ok w -> In c w ->
  forall ns s o s', In n ns -> rows e t false ns s = Ok (o, s') -> In c o.
Proof.
  intros I G Z V C. induction ns as [|m ns IH]; intros s o s' In' E; [destruct In'|]. cbn [rows] in E.
  destruct (t_get t m) as [rec'| | |] eqn:G'; try discriminate. cbn [rbind] in E.
  match type of E with context [if images e t =? 0 then ?a else ?b] => destruct (if images e t =? 0 then a else b) as [s1| | |]; try discriminate end.
  cbn [rbind] in E. destruct (cells e t false (t_fields t) rec' s1) as [[o1 s2]| | |] eqn:E1; try discriminate. cbn [rbind] in E.
  destruct (rows e t false ns s2) as [[o2 s3]| | |] eqn:E2; try discriminate. cbn [rbind] in E. apply ok_pair in E. destruct E as [-> ->].
  destruct In' as [-> | In'].
  - rewrite G in G'. inversion G'; subst. pose proof (cells_in e t rec' f w c Z V C _ _ _ _ I E1) as Q.
    apply in_or_app. right. apply in_or_app. right. apply in_or_app. right. apply in_or_app. now left.
  - pose proof (IH _ _ _ In' E2) as Q. do 7 (apply in_or_app; right). exact Q.
Qed.
Lemma bad_char e t f rec w n c o fs ns : shown t ns -> In n ns -> In f (t_fields t) -> t_get t n = Ok rec -> is_null (x_f f) rec = Ok false ->
  xml_value (e_blob e) (e_nl e) (e_g e) f rec = Ok w -> In c w -> xml_char c = false -> export_to_xml e t false = Ok (o, fs) -> read_xml o = None.
Proof.
  intros S N I G Z V C B E. unfold export_to_xml in E. rewrite (shown_numbers t ns S) in E. destruct (rows e t false ns (XS [] 0 [] [])) as [[r s]| | |] eqn:R; try discriminate.
  cbn [rbind] in E. pose proof (rows_in e t f rec w c n I G Z V C _ _ _ _ N R) as Q. apply ok_pair in E. destruct E as [-> ->].
  match goal with |- read_xml ([239; 187; 191] ++ ?x) = _ => assert (X : In c x) end.
  { do 20 (apply in_or_app; right). apply in_or_app. now left. }
  cbn [app read_xml]. match goal with |- (if forallb xml_char ?x then _ else _) = _ => destruct (forallb xml_char x) eqn:F end; [|reflexivity].
  rewrite forallb_forall in F. rewrite (F c X) in B. discriminate.
Qed.
(** a binary value is followed by two NUL characters *)
Lemma bin_unreadable e t ns n f rec o fs : shown t ns -> In n ns -> In f (t_fields t) -> t_get t n = Ok rec ->
  f_kind (x_f f) = KBin -> x_ref f = false -> (f_len (x_f f) <> 16 \/ g_show (e_g e) = false) ->
  0 <= f_off (x_f f) -> 0 <= f_len (x_f f) -> value_at (x_f f) + f_len (x_f f) <= zlen rec -> is_missing (x_f f) rec = false ->
  export_to_xml e t false = Ok (o, fs) -> read_xml o = None.
Proof.
  intros S N I G K R H O0 L0 Z0 M E.
  assert (P0 : 0 <= value_at (x_f f)) by (unfold value_at; destruct (f_null (x_f f)); lia).
  apply (bad_char e t f rec (text_of_bin (part rec (value_at (x_f f)) (f_len (x_f f)))) n 0 o fs ns S N I G); try assumption; try reflexivity.
  - rewrite null_missing; [now rewrite M|assumption|unfold value_at in Z0; lia].
  - unfold xml_value, show. rewrite K, R. change (vpos (x_f f)) with (value_at (x_f f)). rewrite rdn_part by lia. cbn [rbind].
    destruct (Z.eqb_spec (f_len (x_f f)) 16); destruct (g_show (e_g e)); cbn [andb]; try reflexivity. destruct H; [contradiction|discriminate].
  - unfold text_of_bin. apply in_or_app. right. now left.
Qed.
(** a picture of more than 54 bytes, where the line break contains NUL *)
Lemma b64_break nl c : In c nl -> forall k d bo, (length d <= k)%nat -> 0 <= bo <= 18 -> 54 < 3 * bo + zlen d -> In c (b64_enc nl 72 d bo).
Proof.
  intros C. induction k as [|k IH]; intros d bo Hk H0 Hn; [destruct d; [change (zlen (@nil Z)) with 0 in Hn; lia|cbn in Hk; lia]|].
  destruct d as [|x [|y [|z r]]]; cbn [b64_enc]; unfold need_nl; change (Z.quot 72 4) with 18; change (negb (72 =? 0)) with true; rewrite ?andb_true_r.
  - change (zlen (@nil Z)) with 0 in Hn. lia.
  - rewrite !zlen_cons in Hn. change (zlen []) with 0 in Hn. destruct (Z.leb_spec 18 bo); [apply in_or_app; now left|lia].
  - rewrite !zlen_cons in Hn. change (zlen []) with 0 in Hn. destruct (Z.leb_spec 18 bo); [apply in_or_app; now left|lia].
  - rewrite !zlen_cons in Hn. pose proof (zlen_nonneg r). destruct (Z.leb_spec 18 bo); [apply in_or_app; now left|].
    apply in_or_app. right. apply IH; [cbn in Hk; lia|lia|lia].
Qed.
Lemma image_unreadable e t ns n f rec d o fs : shown t ns -> In n ns -> In f (t_fields t) -> t_get t n = Ok rec ->
  f_kind (x_f f) = KImage -> 0 <= f_off (x_f f) -> value_at (x_f f) + 8 <= zlen rec -> is_missing (x_f f) rec = false ->
  (let v := part rec (value_at (x_f f)) 8 in e_blob e (le_val (firstn 4 v)) (le_val (skipn 4 v)) = Ok d) -> 54 < zlen d -> In 0 (e_nl e) ->
  export_to_xml e t false = Ok (o, fs) -> read_xml o = None.
Proof.
  intros S N I G K O0 Z0 M B D NL E.
  assert (P0 : 0 <= value_at (x_f f)) by (unfold value_at; destruct (f_null (x_f f)); lia).
  apply (bad_char e t f rec (base64_encode (e_nl e) 72 d) n 0 o fs ns S N I G); try assumption; try reflexivity.
  - rewrite null_missing; [now rewrite M|assumption|unfold value_at in Z0; lia].
  - unfold xml_value. rewrite K. change (vpos (x_f f)) with (value_at (x_f f)). rewrite ref_parts by lia. cbn [rbind fst snd]. cbv zeta in B. now rewrite B.
  - unfold base64_encode. apply (b64_break _ _ NL (length d)); lia.
Qed.
(** ** Dates *)
Lemma udec_len k v : 0 <= v < 1000 -> (3 <= k)%nat -> (length (udec k v) <= 3)%nat.
Proof.
  intros H Hk. do 3 (destruct k as [|k]; [lia|]). cbn [udec]. destruct (Z.ltb_spec v 10); [cbn; lia|]. rewrite app_length. cbn [length].
  destruct (Z.ltb_spec (v / 10) 10); [cbn; lia|]. rewrite app_length. cbn [length].
  assert (v / 10 / 10 < 10) by (apply Z.div_lt_upper_bound; [lia|]; apply Z.div_lt_upper_bound; lia).
  destruct (Z.ltb_spec (v / 10 / 10) 10); [cbn; lia|lia].
Qed.
Lemma date_early blob nl g f rec w : f_kind (x_f f) = KDate -> 0 <= f_off (x_f f) -> value_at (x_f f) + 10 <= zlen rec ->
  date_ok (part rec (value_at (x_f f)) 7) -> hd 0 (nibs (part rec (value_at (x_f f)) 7)) = 0 ->
  xml_value blob nl g f rec = Ok w -> (length w < 19)%nat.
Proof.
  intros K O0 Z0 D Y E. assert (P0 : 0 <= value_at (x_f f)) by (unfold value_at; destruct (f_null (x_f f)); lia).
  unfold xml_value in E. rewrite K in E. change (vpos (x_f f)) with (value_at (x_f f)) in E. rewrite (after_part rec _ 7) in E by lia.
  set (v := part rec (value_at (x_f f)) 7) in *. pose proof D as (_ & Hl & _).
  destruct (date_of_raw_ok v (after rec (value_at (x_f f) + 7)) Hl) as [tail E'].
  { unfold after. rewrite skipn_length. unfold zlen in Z0. lia. }
  change (nibbles v) with (nibs v) in E'.
  destruct (nibs7 v D) as (y1 & y2 & y3 & y4 & m1 & m2 & d1 & d2 & h1 & h2 & n1 & n2 & s1 & s2 & EN & DG). rewrite EN in *.
  rewrite E' in E. cbn [rbind] in E. inversion E as [Ew]. clear E Ew. cbn [hd] in Y. subst y1.
  repeat match goal with H : Forall digit (_ :: _) |- _ => inversion H; clear H; subst end.
  unfold date_xml, two. cbn [b_data app nth]. rewrite !two_digits by assumption.
  assert ((length (to_str (0 * 1000 + y2 * 100 + y3 * 10 + y4)) <= 3)%nat).
  { unfold digit in *. unfold to_str. destruct (Z.ltb_spec (0 * 1000 + y2 * 100 + y3 * 10 + y4) 0); [lia|]. apply udec_len; lia. }
  rewrite app_length. cbn [length app]. lia.
Qed.
(** ** Keys *)
Lemma null_key_stops e t ns n rec k ks to_file : shown t (n :: ns) -> t_get t n = Ok rec -> named_by t (k :: ks) ->
  0 <= f_off (x_f k) -> f_off (x_f k) + 1 <= zlen rec -> is_missing (x_f k) rec = true ->
  e_junk e + zlen (filter (fun f => match f_kind (x_f f) with KImage => true | _ => false end) (t_fields t)) <> 0 ->
  export_to_xml e t to_file = Throw.
Proof.
  intros S G K O0 Z0 M J. unfold export_to_xml. rewrite (shown_numbers t _ S). cbn [rows]. rewrite G. cbn [rbind].
  destruct (Z.eqb_spec (images e t) 0) as [I|_]; [destruct (J I)|].
  assert (file_name (e_g e) t rec = Throw) as ->; [|reflexivity].
  pose proof (named_keys t _ K) as EK. unfold file_name, keys in *. destruct (t_indexes t) as [|i0 is] eqn:EI; [discriminate|].
  assert (Q : i_fields match find i_primary (i0 :: is) with Some i => i | None => i0 end = k :: ks) by (destruct (find i_primary (i0 :: is)); exact EK).
  rewrite Q. cbn [join_keys]. rewrite null_missing; [now rewrite M|assumption|]. destruct (f_null (x_f k)); lia.
Qed.
(** ** Files of pictures *)
Lemma save_paths e f rec s b s' : save_blob e f rec s = Ok (b, s') -> s_path s' = s_path s /\
  (s_files s' = s_files s \/ exists d, e_can e (s_path s) = true /\ s_files s' = s_files s ++ [(s_path s, d)]).
Proof.
  unfold save_blob. destruct (is_null (x_f f) rec) as [z| | |]; try discriminate. cbn [rbind]. destruct z; [intros E; apply ok_pair in E; destruct E as [-> ->]; auto|].
  destruct (blob_ref rec (vpos (x_f f))) as [[st ln]| | |]; try discriminate. cbn [rbind fst snd].
  destruct ((st =? 0) || (ln =? 0)); [intros E; apply ok_pair in E; destruct E as [-> ->]; auto|].
  destruct (e_blob e st ln) as [d| | |]; try discriminate. cbn [rbind]. intros E; apply ok_pair in E; destruct E as [-> ->]. cbn [s_path s_files]. split; [reflexivity|].
  destruct (e_can e (s_path s)) eqn:C; [right; now exists d|now left].
Qed.
(** the path only grows: all files written lie on one path *)
Definition on_path (e : xenv) (s : xst) : Prop := Forall (fun p => e_can e (fst p) = true /\ exists r, s_path s = fst p ++ r) (s_files s).
Lemma append_ext p v : exists r, append p v = p ++ r.
Proof. destruct v; [exists []; now rewrite app_nil_r|now eexists]. Qed.
Lemma cell_path e t tf f rec s v s' : cell e t tf f rec s = Ok (v, s') -> on_path e s -> on_path e s'.
Proof.
  intros E P. unfold cell in E. destruct (tf && is_image f).
  - destruct (e_dir e); [|apply ok_pair in E; destruct E as [-> ->]; exact P].
    cbv zeta in E. destruct (save_blob e f rec _) as [[b s1]| | |] eqn:ES; try discriminate. cbn [rbind fst snd] in E. apply ok_pair in E. destruct E as [-> ->].
    apply save_paths in ES. cbn [s_path s_files] in ES. destruct ES as [EP EF]. destruct (append_ext (s_path s) (blob_name e t s f)) as [r Er].
    assert (P' : Forall (fun p => e_can e (fst p) = true /\ exists r, s_path s1 = fst p ++ r) (s_files s)).
    { eapply Forall_impl; [|exact P]. intros p [C [q Eq]]. split; [exact C|]. exists (q ++ r). rewrite EP, Er, Eq. now rewrite <- app_assoc. }
    unfold on_path. destruct EF as [-> | (d & C & ->)]; [exact P'|]. apply Forall_app. split; [exact P'|]. constructor; [|constructor]. cbn [fst]. split; [exact C|]. exists []. now rewrite app_nil_r.
  - destruct (is_null (x_f f) rec) as [z| | |]; try discriminate. cbn [rbind] in E. destruct z; [apply ok_pair in E; destruct E as [-> ->]; exact P|].
    destruct (xml_value _ _ _ _ _); try discriminate. cbn [rbind] in E. apply ok_pair in E. destruct E as [-> ->]; exact P.
Qed.
Lemma cells_path e t tf rec : forall fs s o s', cells e t tf fs rec s = Ok (o, s') -> on_path e s -> on_path e s'.
Proof.
  induction fs as [|f fs IH]; intros s o s' E P; cbn [cells] in E; [apply ok_pair in E; destruct E as [-> ->]; exact P|].
  destruct (cell e t tf f rec s) as [[v s1]| | |] eqn:E1; try discriminate. cbn [rbind] in E.
  destruct (cells e t tf fs rec s1) as [[o2 s2]| | |] eqn:E2; try discriminate. cbn [rbind] in E. apply ok_pair in E. destruct E as [-> ->].
  apply (IH _ _ _ E2). now apply (cell_path e t tf f rec s v).
Qed.
Lemma rows_path e t tf : forall ns s o s', rows e t tf ns s = Ok (o, s') -> on_path e s -> on_path e s'.
Proof.
  induction ns as [|n ns IH]; intros s o s' E P; cbn [rows] in E; [apply ok_pair in E; destruct E as [-> ->]; exact P|].
  destruct (t_get t n) as [rec| | |]; try discriminate. cbn [rbind] in E.
  match type of E with context [if images e t =? 0 then ?a else ?b] => destruct (if images e t =? 0 then a else b) as [s1| | |] eqn:E1; try discriminate end.
  cbn [rbind] in E. destruct (cells e t tf (t_fields t) rec s1) as [[o1 s2]| | |] eqn:E2; try discriminate. cbn [rbind] in E.
  destruct (rows e t tf ns s2) as [[o2 s3]| | |] eqn:E3; try discriminate. cbn [rbind] in E. apply ok_pair in E. destruct E as [-> ->].
  apply (IH _ _ _ E3). apply (cells_path e t tf rec _ _ _ _ E2). clear E2 E3.
  destruct (images e t =? 0); [now inversion E1; subst|]. destruct (file_name (e_g e) t rec); try discriminate. cbn [rbind] in E1. inversion E1; subst. now destruct (e_same _ _ _).
Qed.
Lemma one_path e t o fs : (forall p, e_can e p = true -> length p = 1%nat) -> export_to_xml e t true = Ok (o, fs) ->
  forall p q, In p fs -> In q fs -> fst p = fst q.
Proof.
  intros C E p q Hp Hq. unfold export_to_xml in E. destruct (rows e t true (numbers t) (XS [] 0 [] [])) as [[r s]| | |] eqn:R; try discriminate.
  cbn [rbind] in E. apply ok_pair in E. destruct E as [_ ->]. pose proof (rows_path e t true _ _ _ _ R ltac:(constructor)) as P. unfold on_path in P.
  rewrite Forall_forall in P. destruct (P p Hp) as [Cp [rp Ep]]. destruct (P q Hq) as [Cq [rq Eq]]. apply C in Cp. apply C in Cq. rewrite Ep in Eq.
  destruct (fst p) as [|a [|? ?]]; try discriminate. destruct (fst q) as [|b [|? ?]]; try discriminate. cbn in Eq. now inversion Eq.
Qed.
(** one picture field and one record *)
Definition not_image (f : xfield) : Prop := f_kind (x_f f) <> KImage.
Lemma plain_cells e t rec : forall fs r s, row_doc (e_blob e) fs rec r -> Forall not_image fs -> Forall (fun f => xml_name (x_name f)) fs ->
  exists o, cells e t true fs rec s = Ok (o, s).
Proof.
  intros fs r s D I N. destruct (cells_read e t rec fs r s D N) as (o & E & _). exists o. rewrite <- E. clear E D N r o.
  revert s. induction I as [|f fs H _ IH]; intros s; [reflexivity|]. cbn [cells]. unfold cell at 1. assert (is_image f = false) as Q by (unfold not_image in H; unfold is_image; destruct (f_kind (x_f f)); congruence).
  rewrite Q. cbn [andb]. unfold cell at 1. cbn [andb].
  destruct (is_null (x_f f) rec) as [z| | |]; try reflexivity. cbn [rbind]. destruct z; cbn [rbind]; [now rewrite IH|].
  destruct (xml_value (e_blob e) (e_nl e) (e_g e) f rec); try reflexivity. cbn [rbind]. now rewrite IH.
Qed.
Lemma cells_app e t tf rec : forall a b s, cells e t tf (a ++ b) rec s =
  (do q <- cells e t tf a rec s; let (o, s) := q in do q <- cells e t tf b rec s; let (o', s) := q in Ok (o ++ o', s)).
Proof.
  induction a as [|f a IH]; intros b s; cbn [app cells].
  - cbn [rbind]. destruct (cells e t tf b rec s) as [[? ?]| | |]; reflexivity.
  - destruct (cell e t tf f rec s) as [[v s1]| | |]; try reflexivity. cbn [rbind]. rewrite IH.
    destruct (cells e t tf a rec s1) as [[o2 s2]| | |]; try reflexivity. cbn [rbind].
    destruct (cells e t tf b rec s2) as [[o3 s3]| | |]; try reflexivity. cbn [rbind]. now rewrite app_assoc.
Qed.
Definition texts (k : kind) : Prop := match k with KDate | KString | KText | KImage => False | _ => True end.
(** the record named by several fields: their texts with _ between them *)
Definition key_text (blob : Z -> Z -> res (list Z)) (rec : list Z) (k : xfield) (kn : list Z) : Prop :=
  texts (f_kind (x_f k)) /\ cell_doc blob (x_name k) (x_f k) (x_prec k) (x_ref k) rec (x_name k, kn) /\ is_missing (x_f k) rec = false.
Lemma keys_joined e rec : forall ks kns, Forall2 (key_text (e_blob e) rec) ks kns -> forall s, s <> [] ->
  join_keys (e_g e) ks rec s = Ok (s ++ flat_map (fun x => 95 :: x) kns).
Proof.
  induction 1 as [|k kn ks kns (TK & CK & MK) _ IH]; intros s S0; cbn [join_keys flat_map]; [now rewrite app_nil_r|].
  pose proof CK as (_ & Ok0 & Lk & Zk & _). pose proof (width_pos (f_kind (x_f k)) (f_len (x_f k)) Lk).
  rewrite null_missing; [|assumption|unfold value_at in Zk; destruct (f_kind (x_f k)); lia]. rewrite MK. cbn [rbind].
  destruct (value_show (e_blob e) (e_nl e) (e_g e) k rec _ CK MK) as (v & w & -> & _ & _ & T). cbn [rbind snd] in *.
  assert (v = kn) as -> by (unfold texts in TK; destruct (f_kind (x_f k)); try contradiction; exact T).
  destruct s as [|c s]; [congruence|]. rewrite IH by discriminate. f_equal. now rewrite <- !app_assoc.
Qed.
Theorem one_file e t n rec a f b ra rb k ks kn kns name d : shown t [n] -> t_get t n = Ok rec -> t_fields t = a ++ f :: b ->
  f_kind (x_f f) = KImage -> Forall not_image a -> Forall not_image b -> e_junk e = 0 -> e_dir e = true ->
  Forall (fun f => xml_name (x_name f)) (t_fields t) -> row_doc (e_blob e) a rec ra -> row_doc (e_blob e) b rec rb ->
  named_by t (k :: ks) -> Forall2 (key_text (e_blob e) rec) (k :: ks) (kn :: kns) -> kn <> [] -> name = kn ++ flat_map (fun x => 95 :: x) kns ->
  e_same e name [] = false -> e_can e [name] = true ->
  0 <= f_off (x_f f) -> value_at (x_f f) + 8 <= zlen rec -> is_missing (x_f f) rec = false ->
  (let v := part rec (value_at (x_f f)) 8 in le_val (firstn 4 v) <> 0 /\ le_val (skipn 4 v) <> 0 /\ e_blob e (le_val (firstn 4 v)) (le_val (skipn 4 v)) = Ok d) ->
  exists o, export_to_xml e t true = Ok (o, [([name], d)]).
Proof.
  intros S G EF KF IA IB J ED XN DA DB NK KT KN0 EN SM CAN O0 Z0 MF (B1 & B2 & B3).
  unfold export_to_xml. rewrite (shown_numbers t _ S). cbn [rows]. rewrite G. cbn [rbind].
  assert (NI : forall l, Forall not_image l -> filter is_image l = []).
  { clear. intros l H. induction H as [|x l H _ IH]; [reflexivity|]. cbn [filter]. unfold not_image in H. unfold is_image at 1. destruct (f_kind (x_f x)); congruence. }
  assert (IM : images e t = 1).
  { unfold images. rewrite J, EF, filter_app. cbn [filter]. unfold is_image at 2. rewrite KF, (NI a IA), (NI b IB). reflexivity. }
  rewrite IM. change (1 =? 0) with false. cbv iota.
  assert (file_name (e_g e) t rec = Ok name) as ->.
  { pose proof (named_keys t _ NK) as EK. unfold file_name, keys in *. destruct (t_indexes t) as [|i0 is] eqn:EI; [discriminate|].
    assert (Q : i_fields match find i_primary (i0 :: is) with Some i => i | None => i0 end = k :: ks) by (destruct (find i_primary (i0 :: is)); exact EK).
    rewrite Q. inversion KT as [|? ? ? ? (TK & CK & MK) KT']; subst. cbn [join_keys]. pose proof CK as (_ & Ok0 & Lk & Zk & _). pose proof (width_pos (f_kind (x_f k)) (f_len (x_f k)) Lk).
    rewrite null_missing; [|assumption|unfold value_at in Zk; destruct (f_kind (x_f k)); lia]. rewrite MK. cbn [rbind].
    destruct (value_show (e_blob e) (e_nl e) (e_g e) k rec _ CK MK) as (s & w & -> & _ & _ & T). cbn [rbind snd] in *.
    assert (s = kn) as -> by (unfold texts in TK; destruct (f_kind (x_f k)); try contradiction; exact T). now apply keys_joined. }
  assert (N0 : name <> []) by (rewrite EN; destruct kn; [congruence|discriminate]). clear EN KT KN0.
  cbn [rbind s_name]. rewrite SM. cbn [s_rep s_path s_files]. rewrite EF, cells_app. rewrite EF in XN. apply Forall_app in XN. destruct XN as [XA XB]. inversion XB; subst.
  destruct (plain_cells e t rec a ra (XS name 0 [] []) DA IA XA) as (oa & ->). cbn [rbind cells].
  unfold cell at 1. unfold is_image at 1. rewrite KF, ED. cbn [andb]. cbv zeta. unfold blob_name. cbn [s_name s_rep s_path]. rewrite IM. change (1 <? 1) with false. change (0 =? 0) with true. cbv iota.
  assert (append [] name = [name]) as -> by (destruct name; [congruence|reflexivity]).
  unfold save_blob. cbn [s_name s_rep s_path s_files].
  assert (P0 : 0 <= value_at (x_f f)) by (unfold value_at; destruct (f_null (x_f f)); lia).
  rewrite null_missing; [|assumption|unfold value_at in Z0; lia]. rewrite MF. cbn [rbind]. change (vpos (x_f f)) with (value_at (x_f f)). rewrite ref_parts by lia. cbn [rbind fst snd].
  destruct (Z.eqb_spec (le_val (firstn 4 (part rec (value_at (x_f f)) 8))) 0); [contradiction|].
  destruct (Z.eqb_spec (le_val (skipn 4 (part rec (value_at (x_f f)) 8))) 0); [contradiction|]. cbn [orb]. rewrite B3. cbn [rbind fst snd]. rewrite CAN. cbn [app].
  destruct (plain_cells e t rec b rb (XS name 0 [name] [([name], d)]) DB IB ltac:(assumption)) as (ob & ->). cbn [rbind]. eexists. reflexivity.
Qed.
(** a record without a picture *)
Lemma skipn_skipn4 {A} (l : list A) m n : skipn m (skipn n l) = skipn (m + n) l.
Proof. revert n. induction l as [|x l IH]; intros n; [now rewrite !skipn_nil|]. destruct n; [now rewrite Nat.add_0_r|]. rewrite Nat.add_succ_r. cbn [skipn]. apply IH. Qed.
Lemma cell_absent e t f rec s : f_kind (x_f f) = KImage -> e_dir e = true -> 0 <= f_off (x_f f) -> value_at (x_f f) + 8 <= zlen rec ->
  (is_missing (x_f f) rec = true \/ le_val (part rec (value_at (x_f f)) 4) = 0 \/ le_val (part rec (value_at (x_f f) + 4) 4) = 0) ->
  exists s', cell e t true f rec s = Ok (None, s') /\ s_files s' = s_files s /\ s_name s' = s_name s /\ s_rep s' = s_rep s.
Proof.
  intros KF ED O0 Z0 H. unfold cell, is_image. rewrite KF, ED. cbn [andb]. cbv zeta. unfold save_blob. cbn [s_name s_rep s_path s_files].
  assert (P0 : 0 <= value_at (x_f f)) by (unfold value_at; destruct (f_null (x_f f)); lia).
  rewrite null_missing; [|assumption|unfold value_at in Z0; lia]. destruct (is_missing (x_f f) rec) eqn:MF; cbn [rbind].
  - eexists. split; [reflexivity|]. now split.
  - destruct H as [H|H]; [discriminate|]. change (vpos (x_f f)) with (value_at (x_f f)). rewrite ref_parts by lia. cbn [rbind fst snd].
    assert (E1 : firstn 4 (part rec (value_at (x_f f)) 8) = part rec (value_at (x_f f)) 4) by (unfold part; rewrite firstn_firstn; f_equal).
    assert (E2 : skipn 4 (part rec (value_at (x_f f)) 8) = part rec (value_at (x_f f) + 4) 4). { unfold part. rewrite skipn_firstn_comm, skipn_skipn4. f_equal. f_equal. lia. }
    rewrite E1, E2. destruct (Z.eqb_spec (le_val (part rec (value_at (x_f f)) 4)) 0); [cbn [orb rbind fst snd]; eexists; split; [reflexivity|]; now split|]. destruct (Z.eqb_spec (le_val (part rec (value_at (x_f f) + 4) 4)) 0); [cbn [orb rbind fst snd]; eexists; split; [reflexivity|]; now split|]. tauto.
Qed.
(** ** NULL and the empty text *)
Lemma null_as_empty e nm f rec0 rec1 : e_junk e = 0 -> f_kind (x_f f) = KVarchar -> f_null (x_f f) = true -> 0 <= f_off (x_f f) -> 0 <= f_len (x_f f) < 10 ^ 10 ->
  - 10 ^ 10 < x_prec f < 10 ^ 10 -> (exists tl tp, is_int tl (f_len (x_f f)) /\ is_int tp (x_prec f)) ->
  xml_name (x_name f) -> Forall (fun c => name_char c = true) nm ->
  value_at (x_f f) + (2 + 2 * f_len (x_f f)) <= zlen rec0 -> value_at (x_f f) + (2 + 2 * f_len (x_f f)) <= zlen rec1 ->
  is_missing (x_f f) rec0 = true -> is_missing (x_f f) rec1 = false -> part rec1 (value_at (x_f f)) 2 = [0; 0] ->
  exists o0 o1 es, export_to_xml e (XT nm [f] [] [0] (fun _ => Ok rec0)) false = Ok (o0, []) /\ read_xml o0 = Some es /\
    export_to_xml e (XT nm [f] [] [0] (fun _ => Ok rec1)) false = Ok (o1, []) /\ read_xml o1 = Some es.
Proof.
  intros J K N O0 L0 P0 (tl & tp & Il & Ip) XN NM Z0 Z1 M0 M1 E1.
  set (d := TDoc nm [FDoc (x_name f) (kind_name KVarchar) tl tp false] [[(x_name f, [])]]).
  assert (G : forall rec, row_doc (e_blob e) [f] rec [(x_name f, [])] ->
    exists o, export_to_xml e (XT nm [f] [] [0] (fun _ => Ok rec)) false = Ok (o, []) /\ read_xml o = Some (doc_events d)).
  { intros rec D. apply export_reads.
    - split; [reflexivity|]. split.
      + constructor; [|constructor]. repeat split; cbn [fd_type fd_len fd_prec fd_req]; try assumption; [now rewrite K|now rewrite N].
      + exists [0]. split; [right; split; [constructor|reflexivity]|]. constructor; [|constructor]. exists rec. split; [reflexivity|exact D].
    - split; [exact NM|]. constructor; [|constructor]. cbn [t_fields]. repeat split; try tauto; try lia; apply XN.
    - left. split; [exact J|]. constructor; [congruence|constructor]. }
  destruct (G rec0) as (o0 & E & R).
  { constructor; [|constructor]. split; [reflexivity|]. split; [exact O0|]. split; [lia|]. rewrite K, M0. split; [cbn [width]; lia|reflexivity]. }
  destruct (G rec1) as (o1 & E' & R').
  { constructor; [|constructor]. split; [reflexivity|]. split; [exact O0|]. split; [lia|]. rewrite K, M1. split; [cbn [width]; lia|].
    exists []. split; [exact Logic.I|]. cbn [snd width means]. split; [split; [constructor|intros; cbn; lia]|].
    exists [], (part rec1 (value_at (x_f f) + 2) (2 * f_len (x_f f))). split; [constructor|]. split; [reflexivity|]. split; [|reflexivity].
    change (le_bytes 2 (zlen (utf16_of [])) ++ le16 (utf16_of [])) with [0; 0]. cbn [app]. 
    assert (V0 : 0 <= value_at (x_f f)) by (unfold value_at; destruct (f_null (x_f f)); lia).
    transitivity ([0; 0] ++ part rec1 (value_at (x_f f) + 2) (2 * f_len (x_f f))); [|reflexivity]. rewrite <- E1. unfold part.
    rewrite (Z2Nat.inj_add (value_at (x_f f)) 2) by lia. rewrite <- skipn_plus. set (l := skipn (Z.to_nat (value_at (x_f f))) rec1).
    rewrite Z2Nat.inj_add by lia. rewrite <- (firstn_skipn (Z.to_nat 2) l) at 1. rewrite firstn_app, firstn_firstn. f_equal; [f_equal; lia|].
    rewrite firstn_length. f_equal. unfold zlen in *. unfold l. rewrite skipn_length. lia. }
  exists o0, o1, (doc_events d). repeat split; assumption.
Qed.
Lemma date_exact blob nl g f rec t : f_kind (x_f f) = KDate ->
  cell_doc blob (x_name f) (x_f f) (x_prec f) (x_ref f) rec (x_name f, t) -> is_missing (x_f f) rec = false ->
  xml_value blob nl g f rec = Ok t /\ t = iso (nibs (part rec (value_at (x_f f)) 7)).
Proof.
  intros K (_ & O0 & L0 & Z0 & D) M. rewrite M, K in D. rewrite K in Z0. cbn [width] in Z0. destruct D as (d & _ & Dd & Y & E). cbn [snd width] in E. change (width KDate (f_len (x_f f))) with 7 in *.
  split; [|exact E]. assert (P0 : 0 <= value_at (x_f f)) by (unfold value_at; destruct (f_null (x_f f)); lia).
  unfold xml_value. rewrite K. change (vpos (x_f f)) with (value_at (x_f f)). rewrite (after_part rec _ 7) by lia.
  destruct (date_show_iso (part rec (value_at (x_f f)) 7) (after rec (value_at (x_f f) + 7)) d (iso (nibs (part rec (value_at (x_f f)) 7)))) as (n & En & Ex & _).
  - exact (conj Dd (conj Y eq_refl)).
  - unfold after. rewrite skipn_length. unfold zlen in Z0. lia.
  - rewrite En. cbn [rbind]. now rewrite Ex, E.
Qed.
Lemma image_exact nl d : bytes_ok d -> zlen d <= 54 -> base64_encode nl 72 d = b64 d.
Proof. intros B H. apply (b64_line nl (length d) d 0); [lia|assumption|lia|lia]. Qed.
Lemma export_succeeds e t d : table_doc (e_blob e) t d -> writable t ->
  (e_junk e = 0 /\ Forall (fun f => f_kind (x_f f) <> KImage) (t_fields t)) \/ all_named t ->
  exists o, export_to_xml e t false = Ok (o, []).
Proof. intros D W H. destruct (export_reads e t d D W H) as (o & E & _). now exists o. Qed.
