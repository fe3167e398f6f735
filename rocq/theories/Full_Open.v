(** Proofs for Full_Props: opening the tables and the database. *)
From Verif Require Import Prelude Lists Text_Model Text_Spec Text_Proofs Tree_Model Tree_Spec Field_Model Field_Spec Field_Proofs Obj_Model Obj_Spec Obj_Proofs Obj_More Obj_Facts
  Blob_Model Blob_Spec Blob_Proofs Blob_Read Blob_Obj Leaf_Model Leaf_Spec Leaf_Walk Rec_Model Xml_Model Xml_Spec Xml_Proofs Descr_Model Descr_Spec Descr_Proofs Full_Model Full_Spec Full_Proofs.
From Coq Require String.
Import String.StringSyntax.
Ltac Zify.zify_post_hook ::= idtac.

Lemma object_ps ps v st n c : object ps v st n c -> Forall (fun p => length p = ps) st /\ (32 <= ps)%nat /\ (v = false -> Z.of_nat ps = 4096).
Proof.
  intros (f & len & tabs & dp & Hf & Hv & Hs & _). destruct Hs as (A & _ & B & _ & _ & _ & _ & h & _ & C). split; [exact A|]. split; [exact B|]. intros ->. destruct f; try discriminate; apply C.
Qed.
(** ** A table that has been opened *)
Definition index_view (ps : nat) (v : bool) (st : store) (x : cont) (t : otab) : Prop :=
  (td_indexes (c_decl x) = [] /\ ot_index t = None /\ ot_starts t = [] /\ c_order x = live_numbers (c_recs x)) \/
  (exists o c, td_indexes (c_decl x) <> [] /\ ot_index t = Some o /\ is_obj ps st o c /\ length (ot_starts t) = length (td_indexes (c_decl x)) /\
    ((no_primary_index (c_decl x) /\ c_order x = live_numbers (c_recs x)) \/
     (exists s, primary_index (c_decl x) (ot_starts t) s /\ 0 < s /\ index_at (Z.of_nat ps) v c s (c_order x) /\ zlen (c_order x) <= zlen (c_recs x)))).
Definition table_view (ps : nat) (v : bool) (st : store) (x : cont) (t : otab) : Prop :=
  ot_decl t = c_decl x /\ ot_fields t = the_fields (td_fields (c_decl x)) /\ ot_reclen t = record_size (td_fields (c_decl x)) /\ ot_phys t = zlen (c_recs x) /\
  is_obj ps st (ot_data t) (concat (c_recs x)) /\ zlen (concat (c_recs x)) < 2 ^ 32 /\ Forall (fun r => zlen r = record_size (td_fields (c_decl x))) (c_recs x) /\
  (match c_blob x with
   | None => ot_blob t = None
   | Some c => exists o, ot_blob t = Some o /\ is_obj ps st o c /\ (256 | zlen c) /\ zlen c < 2 ^ 32
   end) /\
  index_view ps v st x t.

Lemma recs_len L recs : Forall (fun r : list Z => zlen r = L) recs -> zlen (concat recs) = zlen recs * L.
Proof. induction 1 as [|r recs Hr H IH]; [reflexivity|]. cbn [concat]. rewrite zlen_app, IH, Hr. unfold zlen. cbn [length]. nia. Qed.
Lemma heads_ok get : forall ss, Forall (fun s => s <> 0 -> exists h, get s 8 = Ok h) ss -> index_heads get ss = Ok tt.
Proof.
  induction 1 as [|s ss Hs H IH]; [reflexivity|]. cbn [index_heads]. destruct (Z.eqb_spec s 0); [exact IH|]. destruct (Hs n) as (h & ->). cbn [rbind]. exact IH.
Qed.
Lemma Forall2_len {A B} (R : A -> B -> Prop) a b : Forall2 R a b -> length a = length b.
Proof. induction 1; cbn [length]; congruence. Qed.
Lemma Forall2_r {A B} (R : A -> B -> Prop) (P : B -> Prop) a b : Forall2 R a b -> (forall x y, In x a -> R x y -> P y) -> Forall P b.
Proof. induction 1 as [|x y a b Hx H IH]; intros K; constructor; [apply (K x y); [left; reflexivity|exact Hx]|]. apply IH. intros z w Hz. apply K. now right. Qed.

Lemma open_table_ok ps v st x : has_files ps v st x -> openable (c_decl x) -> exists t, open_table (Z.of_nat ps) v st (c_decl x) = Ok t /\ table_view ps v st x t.
Proof.
  intros (D0 & Dobj & Drec & D32 & DB & DI) (Nm & Lk). set (d := c_decl x) in *.
  destruct (guid_ok (td_fields d) Nm) as (gs & Eg & Lg & Pg). unfold open_table. rewrite Eg. cbn [rbind]. rewrite (fields_placed (td_fields d) (td_lock d) Lk).
  destruct (object_open _ _ _ _ _ Dobj) as (o & Eo & Io). unfold open_file at 1. destruct (Z.eqb_spec (td_data d) 0); [congruence|]. rewrite Eo. cbn [rbind].
  assert (HB : exists ob, open_file (Z.of_nat ps) v st (td_blob d) = Ok ob /\ match c_blob x with None => ob = None | Some c => exists o, ob = Some o /\ is_obj ps st o c /\ (256 | zlen c) /\ zlen c < 2 ^ 32 end).
  { unfold open_file. destruct (c_blob x) as [c|].
    - destruct DB as (B0 & Bo & Bd & B32). destruct (Z.eqb_spec (td_blob d) 0); [congruence|]. destruct (object_open _ _ _ _ _ Bo) as (ob & Eb & Ib). rewrite Eb. cbn [rbind]. eexists. split; [reflexivity|]. exists ob. auto.
    - rewrite DB. cbn [Z.eqb]. eexists. split; reflexivity. }
  destruct HB as (ob & Eob & Hob). rewrite Eob. cbn [rbind]. clear Eob DB.
  assert (R5 : 5 <= record_size (td_fields d)) by (unfold record_size; lia).
  assert (Dlen : obj_len o = zlen (c_recs x) * record_size (td_fields d)) by (destruct Io as (_ & -> & _); now apply recs_len).
  assert (Ed : open_data (Some (obj_len o)) (record_size (td_fields d)) = Ok (zlen (c_recs x))).
  { apply (data_exact (obj_len o) (record_size (td_fields d)) (zlen (c_recs x))); [lia| |exact Dlen]. destruct Io as (_ & -> & _). split; [apply zlen_nonneg|exact D32]. }
  rewrite (names_ok (td_fields d) gs Lg Pg).
  destruct DI as [(I1 & I2 & I3)|(I1 & I2 & free & places & rest & starts & Iobj & Lp & W & C32 & Cdiv & Cfree & Cst & Cord)].
  - fold d in I1, I2. unfold open_file. rewrite I2. cbn [Z.eqb rbind option_map]. rewrite I1. cbn [length open_indexes rbind]. rewrite Ed. cbn [rbind]. eexists. split; [reflexivity|].
    unfold table_view. cbn [ot_decl ot_fields ot_reclen ot_phys ot_data ot_blob ot_index ot_starts]. fold d. repeat (split; [first [reflexivity|assumption]|]). left. cbn [ot_index ot_starts]. fold d. auto.
  - fold d in I1, I2, Lp, Iobj, Cord. set (c := index_file free places rest) in *.
    destruct (object_ps _ _ _ _ _ Iobj) as (_ & P32 & P4). destruct (object_open _ _ _ _ _ Iobj) as (ix & Eix & Iix). unfold open_file. destruct (Z.eqb_spec (td_index d) 0); [congruence|]. rewrite Eix. cbn [rbind option_map].
    pose proof Iix as ((Fs & Fg) & Fl & Fb). change obj_size with (fun s : store * obj => obj_len (snd s)) in Fs. cbn [snd] in Fs.
    assert (Wp : places <> []) by (intros ->; apply I1; destruct (td_indexes d); [reflexivity|discriminate]).
    pose proof (index_head_len free places) as Lh.
    assert (Ec : c = (le_bytes 4 free ++ concat (map (le_bytes 4) places)) ++ rest) by (unfold c, index_file; now rewrite app_assoc).
    assert (Hget : obj_get (Z.of_nat ps) (st, ix) 0 (Z.of_nat (length (td_indexes d)) * 4 + 4) = Ok (index_file free places [])).
    { rewrite <- Lp. assert (Lc : (4 * length places + 4 <= length c)%nat) by (rewrite Ec, app_length, Lh; lia). rewrite Fg by (unfold zlen; lia). change (Z.to_nat 0) with 0%nat. rewrite sub_0_firstn. f_equal.
      rewrite Ec. unfold index_file. rewrite app_nil_r. apply firstn_pre. lia. }
    assert (Eix2 : open_indexes v (Z.of_nat ps) (Some (obj_len ix, obj_get (Z.of_nat ps) (st, ix))) (length (td_indexes d)) = Ok starts).
    { rewrite (indexes_open v (Z.of_nat ps) (obj_len ix) (obj_get (Z.of_nat ps) (st, ix)) (length (td_indexes d)) free places Lp); [|destruct (td_indexes d); [congruence|discriminate]|exact W|exact Hget].
      rewrite Fl. pose proof (zlen_nonneg c) as C0. pose proof (small_mul (zlen c) (Z.of_nat ps) ltac:(lia) ltac:(lia)) as SM. rewrite (proj2 SM Cdiv). cbn [negb].
      inversion W as [|? ? Wf Wb]; subst. assert (U : u32 (free * Z.of_nat ps) = free * Z.of_nat ps) by (unfold u32; apply Z.mod_small; nia). rewrite U.
      destruct (Z.leb_spec (zlen c) (free * Z.of_nat ps)); [lia|]. apply (starts_exact v (Z.of_nat ps) (zlen c) places Wb). exact Cst. }
    match goal with |- context [open_indexes ?a ?b ?c ?e] => change (open_indexes a b c e) with (open_indexes v (Z.of_nat ps) (Some (obj_len ix, obj_get (Z.of_nat ps) (st, ix))) (length (td_indexes d))) end. rewrite Eix2. cbn [rbind]. rewrite Ed. cbn [rbind]. rewrite heads_ok.
    + cbn [rbind]. eexists. split; [reflexivity|]. unfold table_view. cbn [ot_decl ot_fields ot_reclen ot_phys ot_data ot_blob ot_index ot_starts]. fold d. repeat (split; [first [reflexivity|assumption]|]).
      right. cbn [ot_index ot_starts]. fold d. exists ix, c. split; [exact I1|]. split; [reflexivity|]. split; [exact Iix|]. split; [rewrite <- (Forall2_len _ _ _ Cst); exact Lp|exact Cord].
    + eapply Forall2_r; [exact Cst|]. cbv beta. intros b s Hb (S1 & S2) S0. exists (sub c (Z.to_nat s) (Z.to_nat 8)). inversion W as [|? ? Wf Wb]; subst. rewrite Forall_forall in Wb. specialize (Wb b Hb). destruct Cdiv as (k & Hk).
      apply Fg; [|lia|]; destruct v.
      * rewrite S2. nia.
      * destruct S2 as (-> & _). lia.
      * rewrite S2 in *. assert (b < k) by nia. nia.
      * destruct S2 as (-> & (j & ->)). specialize (P4 eq_refl). assert (j < k) by nia. nia.
Qed.

(** ** The tables *)
Lemma descr_ok ps v st same root c junk d b : is_obj ps st root c -> (v = true -> (256 | zlen c) /\ zlen c < 2 ^ 32) -> described same ps v st c d b ->
  exists t, descr_text (Z.of_nat ps) v st root junk b = Ok t /\ table_of_text same t = Ok (Some d).
Proof.
  intros (F & Fl & Fb) Hv (t & Pt & Dt & H). exists (outtext t []). split; [|now apply text_complete]. unfold descr_text. destruct v.
  - destruct H as (bl & Hb & HB & H32 & Hk). destruct (Hv eq_refl) as (Hd & Hc). apply (object_complete (obj_get (Z.of_nat ps)) obj_size (st, root) c _ b (2 ^ 32 - 1) bl (outtext t []) F Fb Hc); [apply Z.mod_divide; [lia|exact Hd]|exact HB| |].
    + rewrite Fl. unfold zlen. rewrite Nat2Z.id. lia.
    + right. split; [reflexivity|]. lia.
  - destruct H as (cps & Hb & Hs & Eo & Hobj & Hl). assert (Ei : i32 b = b) by (unfold i32; rewrite Z.mod_small; lia). rewrite Ei.
    destruct (text_store_show cps Hs) as (_ & Et). assert (Hne : le16 (utf16_of cps) <> []).
    { intros Q. rewrite Q in Et. change (ucs2_to_utf8 []) with (@Ok (list Z) []) in Et. assert (Q2 : utf8_of cps = []) by congruence. rewrite Q2 in Eo.
      pose proof (text_complete same t d Pt Dt) as T. rewrite Eo in T. discriminate. }
    destruct (object_whole ps st b _ junk Hobj Hne Hl) as (o & o' & Eopen & Eall). rewrite Eopen. cbn [rbind]. rewrite Eall. cbn [rbind snd]. rewrite Et. now rewrite <- Eo.
Qed.
Lemma tables_ok ps v st same root c junk : is_obj ps st root c -> (v = true -> (256 | zlen c) /\ zlen c < 2 ^ 32) -> forall xs blocks,
  Forall2 (fun d b => described same ps v st c d b) (map c_decl xs) blocks -> Forall (fun x => has_files ps v st x /\ openable (c_decl x)) xs ->
  exists ts, open_tables (Z.of_nat ps) v st same root junk blocks = Ok ts /\ Forall2 (table_view ps v st) xs ts.
Proof.
  intros Io Hv. induction xs as [|x xs IH]; intros blocks H HF; cbn [map] in H; inversion H as [|? b ? blocks' Hx H']; subst; [exists []; split; [reflexivity|constructor]|]. inversion HF as [|? ? (F1 & F2) F3]; subst.
  destruct (IH blocks' H' F3) as (ts & E & V). destruct (descr_ok _ _ _ _ _ _ junk _ _ Io Hv Hx) as (tx & E1 & E2). destruct (open_table_ok _ _ _ _ F1 F2) as (t & E3 & V3). exists (t :: ts). split; [|constructor; assumption].
  cbn [open_tables]. rewrite E1. cbn [rbind]. rewrite E2. cbn [rbind]. rewrite E3. cbn [rbind]. rewrite E. reflexivity.
Qed.
Lemma views_decls ps v st xs ts : Forall2 (table_view ps v st) xs ts -> map ot_decl ts = map c_decl xs.
Proof. induction 1 as [|x t xs ts (H & _) _ IH]; [reflexivity|]. cbn [map]. now rewrite H, IH. Qed.

(** ** The database *)
Lemma kind_ok (has : list Z -> bool) : consistent (fun n => has n = true) -> exists k, db_kind has = Ok k.
Proof.
  intros H. destruct (kind_exact has) as (A & B & C & _). destruct H as [H|(H0 & [H|H])].
  - exists Infobase. apply A. exact H.
  - exists Depot. apply B. split; [|exact H]. intros n Hn. specialize (H0 n Hn). now destruct (has n).
  - exists Other. apply C. intros n Hn. apply in_app_or in Hn. destruct Hn as [Hn|Hn]; [specialize (H0 n Hn)|specialize (H n Hn)]; now destruct (has n).
Qed.
Lemma has_ok (same : list Z -> list Z -> bool) xs (ts : list otab) n : map ot_decl ts = map c_decl xs -> existsb (fun t => same (td_name (ot_decl t)) n) ts = true <-> exists x, In x xs /\ same (td_name (c_decl x)) n = true.
Proof.
  revert xs. induction ts as [|t ts IH]; intros [|x xs] H; try discriminate; [split; [discriminate|intros (y & [] & _)]|].
  cbn [map] in H. assert (H1 : ot_decl t = c_decl x) by congruence. assert (H2 : map ot_decl ts = map c_decl xs) by congruence. cbn [existsb]. rewrite orb_true_iff, (IH xs H2), H1. split.
  - intros [Q|(y & Hy & Q)]; [exists x|exists y]; split; auto; [now left|now right].
  - intros (y & [-> |Hy] & Q); [left; exact Q|right; exists y; auto].
Qed.
Lemma open_db_pre same hjunk junk file mono h st ds : base same file mono h st ds -> let ps := Z.to_nat (h_page h) in let v := v838_of (h_ver h) in
  exists ro root blocks, (32 <= ps)%nat /\ Z.of_nat ps = h_page h /\ is_obj ps st ro root /\ (v = true -> (256 | zlen root) /\ zlen root < 2 ^ 32) /\ Forall2 (fun d b => described same ps v st root d b) ds blocks /\
    open_db same hjunk junk file mono =
      (do ts <- open_tables (Z.of_nat ps) v st same ro junk blocks; do k <- db_kind (fun n => existsb (fun t => same (td_name (ot_decl t)) n) ts); Ok (DBase (Z.of_nat ps) v st ts k)).
Proof.
  intros (Hb & H24 & Hop & Hpg & Hfl & (root & lang & pad & blocks & rest & Hlang & Hpad & Hnb & Hroot & Htab)) ps0 v0. subst ps0 v0.
  set (ps := Z.to_nat (h_page h)) in *. set (v := v838_of (h_ver h)) in *. destruct Hroot as (Robj & Hroot).
  destruct (object_ps _ _ _ _ _ Robj) as (Pl & P32 & _). assert (Pz : Z.of_nat ps = h_page h) by (unfold ps; lia).
  assert (NP : ~ no_page_size file).
  { intros (N1 & N2). destruct Hop as (_ & Hin & Hpage & _). rewrite N1 in Hin. unfold versions in Hin. cbn [In] in Hin. repeat (destruct Hin as [Q|Hin]; [try discriminate Q|]); [|contradiction].
    assert (Q2 : h_ver h = V8380) by congruence. rewrite Q2 in Hpage. lia. }
  unfold open_db. rewrite (proj2 (proj1 (open_exact hjunk file mono h Hb H24 NP)) Hop). cbn [rbind].
  assert (Est : pages_of_file (h_page h) (h_pages h) file = st) by (apply pages_ok; [exact Hpg|lia|]; apply Hop). rewrite Est. change (is_838 (h_ver h)) with v. rewrite <- Pz.
  destruct (page_one ps v st Hfl Pl P32) as (o1 & E1). rewrite E1. cbn [rbind]. destruct (object_open _ _ _ _ _ Robj) as (ro & Ero & Iro). rewrite Ero. cbn [rbind].
  set (data := root_data _ _ _ _ _ _) in *. pose proof Iro as (Fro & Flo & Fbo).
  assert (Ed : (if v then read_blob_object (obj_get (Z.of_nat ps)) obj_size (S (Z.to_nat (obj_len ro))) (st, ro) 1 (2 ^ 32 - 1)
              else do r <- get_all (Z.of_nat ps) st ro junk; match snd r with None => UB | Some d => Ok d end) = Ok data).
  { clearbody v. destruct v.
    - destruct Hroot as (Rd & R32 & D32 & bl & HB & Hbl). apply (object_complete (obj_get (Z.of_nat ps)) obj_size (st, ro) root _ 1 (2 ^ 32 - 1) bl data Fro Fbo R32); [apply Z.mod_divide; [lia|exact Rd]|exact HB| |].
      + rewrite Flo. unfold zlen. rewrite Nat2Z.id. lia.
      + right. lia.
    - destruct Hroot as (Er & Rl). subst root. assert (Hne : data <> []) by (unfold data, root_data; destruct lang; discriminate).
      destruct (object_whole ps st 2 data junk Robj Hne Rl) as (o & o' & Eo & Ea). assert (o = ro) by congruence. subst o. rewrite Ea. reflexivity. }
  match goal with |- context [if v then ?a else ?b] => replace (if v then a else b) with (@Ok (list Z) data) by (symmetry; exact Ed) end. cbn [rbind].
  assert (Wb : Forall (fun b => 0 <= b < 2 ^ 32) blocks).
  { eapply Forall2_r; [exact Htab|]. cbv beta. intros x b _ (t & _ & _ & Q). clearbody v. destruct v; [destruct Q as (bl & Q & _)|destruct Q as (cps & Q & _)]; lia. }
  assert (Eo : old_ver (h_ver h) = old_of (h_ver h)) by (destruct (h_ver h); reflexivity).
  assert (Er : root_tables (old_ver (h_ver h)) data = Ok (lang, blocks)) by (rewrite Eo; unfold data; apply root_ok; assumption). rewrite Er. cbn [rbind snd].
  exists ro, root, blocks. split; [exact P32|]. split; [reflexivity|]. split; [exact Iro|]. split; [intros Ev; rewrite Ev in Hroot; destruct Hroot as (A & B & _); auto|]. split; [exact Htab|reflexivity].
Qed.
Lemma open_db_ok same hjunk junk file mono h st xs : database same file mono h st xs ->
  exists b, open_db same hjunk junk file mono = Ok b /\ db_ps b = h_page h /\ db_838 b = v838_of (h_ver h) /\ db_st b = st /\ (32 <= Z.to_nat (h_page h))%nat /\
    Forall2 (table_view (Z.to_nat (h_page h)) (v838_of (h_ver h)) st) xs (db_tables b).
Proof.
  intros (HB & HF & Hk). destruct (open_db_pre same hjunk junk _ _ _ _ _ HB) as (ro & root & blocks & P32 & Pz & Iro & Hv & Htab & ->). unfold whole_table in HF.
  set (ps := Z.to_nat (h_page h)) in *. set (v := v838_of (h_ver h)) in *.
  destruct (tables_ok ps v st same ro root junk Iro Hv xs blocks Htab HF) as (ts & Ets & V).
  rewrite Ets. cbn [rbind]. pose proof (views_decls _ _ _ _ _ V) as Em.
  destruct (kind_ok (fun n => existsb (fun t => same (td_name (ot_decl t)) n) ts)) as (k & Ek).
  { assert (Q : forall n, existsb (fun t => same (td_name (ot_decl t)) n) ts = true <-> exists x, In x xs /\ same (td_name (c_decl x)) n = true) by (intros n; now apply has_ok).
    destruct Hk as [H|(H0 & [H|H])]; [left|right; split; [|left]|right; split; [|right]]; intros n Hn; try (apply Q, H, Hn); intros Q2; apply Q in Q2; [apply (H0 n Hn Q2)|apply (H0 n Hn Q2)|apply (H n Hn Q2)]. }
  rewrite Ek. cbn [rbind]. eexists. split; [reflexivity|]. cbn [db_ps db_838 db_st db_tables]. repeat (split; [first [exact Pz|reflexivity|exact P32]|]). exact V.
Qed.
(** a name that cannot be cut *)
Lemma cut_guid name : cut_inside name -> can_be_guid name = Throw.
Proof.
  intros (cps & Hc & -> & H3 & Hn). unfold can_be_guid. change (bs "REF"%string) with (utf8_of [82; 69; 70]).
  destruct (ends_with_ic_char cps [82; 69; 70] Hc) as [(L & _)|[(p & q & E & L & _)|(_ & E)]]; [repeat constructor; unfold scalar; lia|discriminate| | |].
  - change (length (utf8_of [82; 69; 70])) with 3%nat in L. lia.
  - exfalso. apply Hn. exists p, q. split; [exact E|exact L].
  - rewrite E. reflexivity.
Qed.
Lemma cut_marks a f r : Forall (fun g => exists b, can_be_guid (fd_name g) = Ok b) a -> cut_inside (fd_name f) -> guid_marks (a ++ f :: r) = Throw.
Proof.
  intros Ha Hf. induction Ha as [|g a (b & Hg) Ha IH]; cbn [app guid_marks]; [rewrite (cut_guid _ Hf); reflexivity|]. rewrite Hg. cbn [rbind]. rewrite IH. reflexivity.
Qed.
Lemma cut_tables ps v st same root c junk : is_obj ps st root c -> (v = true -> (256 | zlen c) /\ zlen c < 2 ^ 32) -> forall xs d r blocks,
  Forall2 (fun d b => described same ps v st c d b) (map c_decl xs ++ d :: r) blocks -> Forall (fun x => has_files ps v st x /\ openable (c_decl x)) xs ->
  guid_marks (td_fields d) = Throw -> open_tables (Z.of_nat ps) v st same root junk blocks = Throw.
Proof.
  intros Io Hv. induction xs as [|x xs IH]; intros d r blocks H HF Hm; cbn [map app] in H; inversion H as [|? b ? blocks' Hx H']; subst; destruct (descr_ok _ _ _ _ _ _ junk _ _ Io Hv Hx) as (tx & E1 & E2);
  cbn [open_tables]; rewrite E1; cbn [rbind]; rewrite E2; cbn [rbind].
  - unfold open_table. rewrite Hm. reflexivity.
  - inversion HF as [|? ? (F1 & F2) F3]; subst. destruct (open_table_ok _ _ _ _ F1 F2) as (t & E3 & _). rewrite E3. cbn [rbind]. rewrite (IH d r blocks' H' F3 Hm). reflexivity.
Qed.
Lemma ascii_guid name : Forall (fun c => 0 < c < 128) name -> exists b, can_be_guid name = Ok b.
Proof.
  intros H. destruct (guid_ok [FDc name KBin false 0 0 false]) as (gs & E & _); [constructor; [exact H|constructor]|]. cbn [guid_marks fd_name] in E. destruct (can_be_guid name); [eexists; reflexivity|discriminate..].
Qed.
(** one such name and the database is not opened *)
Lemma cut_db same hjunk junk file mono h st xs d r a f z : base same file mono h st (map c_decl xs ++ d :: r) -> Forall (whole_table h st) xs ->
  td_fields d = a ++ f :: z -> Forall (fun g => Forall (fun c => 0 < c < 128) (fd_name g)) a -> cut_inside (fd_name f) -> open_db same hjunk junk file mono = Throw.
Proof.
  intros HB HF Hd Ha Hf. destruct (open_db_pre same hjunk junk _ _ _ _ _ HB) as (ro & root & blocks & P32 & Pz & Iro & Hv & Htab & ->). unfold whole_table in HF.
  rewrite (cut_tables _ _ _ _ _ _ junk Iro Hv xs d r blocks Htab HF); [reflexivity|]. rewrite Hd. apply cut_marks; [|exact Hf]. eapply Forall_impl; [|exact Ha]. intros g Hg. now apply ascii_guid.
Qed.
Lemma two_letters p a b : Forall scalar p -> 128 <= a < 2048 -> 128 <= b < 2048 -> cut_inside (utf8_of (p ++ [a; b])).
Proof.
  intros Hp Ha Hb. assert (L : forall c, 128 <= c < 2048 -> length (enc8 c) = 2%nat) by (intros c Hc; unfold enc8; destruct (Z.ltb_spec c 128); [lia|]; destruct (Z.ltb_spec c 2048); [reflexivity|lia]).
  assert (A : forall x y, utf8_of (x ++ y) = utf8_of x ++ utf8_of y) by (intros x y; unfold utf8_of; apply flat_map_app).
  assert (L2 : length (utf8_of [a; b]) = 4%nat) by (unfold utf8_of; cbn [flat_map]; rewrite !app_length, !L by assumption; reflexivity).
  exists (p ++ [a; b]). split; [apply Forall_app; split; [exact Hp|]; repeat constructor; unfold scalar; lia|]. split; [reflexivity|]. split; [rewrite A, app_length; lia|].
  intros (x & q & E & Lq). destruct q as [|q0 qs] eqn:Eq; [discriminate Lq|]. destruct (exists_last (l := q)) as (q' & c & Eq'); [congruence|]. rewrite <- Eq, Eq' in *. clear Eq Eq' q0 qs.
  rewrite app_assoc in E. replace (p ++ [a; b]) with ((p ++ [a]) ++ [b]) in E by now rewrite <- app_assoc. apply app_inj_tail in E. destruct E as (E & <-).
  rewrite A, app_length in Lq. assert (Lb : length (utf8_of [b]) = 2%nat) by (unfold utf8_of; cbn [flat_map]; rewrite app_nil_r; now apply L).
  destruct q' as [|q0 qs] eqn:Eq; [change (length (utf8_of [])) with 0%nat in Lq; lia|]. destruct (exists_last (l := q')) as (q2 & c2 & Eq'); [congruence|]. rewrite <- Eq, Eq' in *. clear Eq Eq' q0 qs.
  rewrite app_assoc in E. apply app_inj_tail in E. destruct E as (_ & <-). rewrite A, app_length in Lq.
  assert (La : length (utf8_of [a]) = 2%nat) by (unfold utf8_of; cbn [flat_map]; rewrite app_nil_r; now apply L). lia.
Qed.
