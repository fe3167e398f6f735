(** Exporting and importing: what the export holds, and the import into files of the same length. *)
From Verif Require Import Prelude Lists Obj_Model Obj_Spec Obj_Proofs Obj_Write Obj_More Obj_Hist Alloc_Model Alloc_Spec Alloc_Proofs Alloc_More Alloc_Len Alloc_Put Alloc_Whole Alloc_Bad Alloc_New Obj_Make Port_Model Port_Spec.
Ltac Zify.zify_post_hook ::= idtac.

Local Opaque le_bytes.

(** ** saving an object that was read whole before *)
Lemma save_mem_loop ps st o buf c total : o_data o = Some c -> total = length c -> Z.of_nat total < 2^63 -> (0 < ps)%nat -> Z.of_nat ps < 2^17 -> forall fuel off, (total - off < fuel)%nat ->
  save_loop fuel (Z.of_nat ps) st o buf (Z.of_nat total) (Z.of_nat off) (u64 (Z.of_nat total - Z.of_nat off)) = Ok (sub c off (total - off)).
Proof.
  intros Hd -> H63 Hp H17. set (total := length c) in *. induction fuel as [|fuel IH]; intros off Hf; [lia|]. cbn [save_loop].
  destruct (Z.leb_spec (Z.of_nat total) (Z.of_nat off)) as [Hle|Hgt].
  - replace (total - off)%nat with 0%nat by lia. now rewrite sub_nil.
  - unfold u64 at 1. rewrite (Z.mod_small (Z.of_nat total - Z.of_nat off)) by lia.
    set (k := Nat.min (total - off) ps). assert (Hk : u32 (Z.min (Z.of_nat total - Z.of_nat off) (Z.of_nat ps)) = Z.of_nat k) by (unfold u32; rewrite Z.mod_small by lia; lia).
    rewrite Hk. unfold get_range. rewrite Hd. rewrite rdn_ok by (unfold zlen; lia). cbn [rbind]. rewrite !Nat2Z.id.
    unfold u64 at 1. rewrite Z.mod_small by lia. replace (Z.of_nat off + Z.of_nat ps) with (Z.of_nat (off + ps)) by lia.
    unfold u64 at 2. unfold u64 at 1. rewrite Zminus_mod_idemp_l. replace (Z.of_nat total - Z.of_nat off - Z.of_nat ps) with (Z.of_nat total - Z.of_nat (off + ps)) by lia.
    fold (u64 (Z.of_nat total - Z.of_nat (off + ps))). rewrite IH by lia. cbn [rbind]. f_equal.
    destruct (Nat.le_gt_cases total (off + ps)) as [Hc|Hc].
    + replace (total - (off + ps))%nat with 0%nat by lia. rewrite sub_nil, app_nil_r. f_equal. lia.
    + replace (total - off)%nat with (k + (total - (off + ps)))%nat by lia. rewrite <- sub_app_split. f_equal. f_equal. lia.
Qed.
Lemma save_slot ps st o t buf : is_file ps st o t -> save_file (Z.of_nat ps) st o buf = Ok (bytes_of st t).
Proof.
  intros (Hs & Hnf & Hop & [Hd|Hd]).
  - eapply save_ok; [exact Hs|]. now apply opened_none.
  - pose proof (content_len _ _ _ _ _ _ _ Hs) as Hcl. destruct (opened_len _ _ _ _ _ _ _ _ Hs Hop) as [El H63].
    assert (El' : obj_len o = Z.of_nat (t_len t)) by exact El. unfold save_file. rewrite El', Nat2Z.id.
    assert (H32 : (32 <= ps)%nat) by apply Hs. assert (H17 : Z.of_nat ps < 2^17) by apply Hs.
    pose proof (save_mem_loop ps st o buf _ (t_len t) Hd (eq_sym Hcl) H63 ltac:(lia) H17 (S (t_len t)) 0 ltac:(lia)) as E. change (Z.of_nat 0) with 0 in E. rewrite Z.sub_0_r in E. unfold u64 in E. rewrite Z.mod_small in E by lia.
    rewrite E. f_equal. rewrite Nat.sub_0_r. unfold bytes_of. rewrite <- Hcl at 2. apply sub_all.
Qed.

(** ** export *)
Lemma export_files_any ps can buf st : forall fs ts i d, slots_ok ps st fs ts ->
  exists d', export_files can (Z.of_nat ps) buf st i fs d = Ok d' /\
    (forall j t, nth_error ts j = Some (Some t) -> can (i + j)%nat = true -> d' (i + j)%nat = Some (bytes_of st t)) /\
    (forall k, (forall j t, nth_error ts j = Some (Some t) -> k = (i + j)%nat -> can k = false) -> d' k = d k).
Proof.
  induction fs as [|s fs IH]; intros ts i d H; inversion H as [|a t b r H1 H2]; subst.
  - exists d. split; [reflexivity|]. split; [intros [|j] t Hj; discriminate|reflexivity].
  - cbn [export_files]. destruct s as [o|], t as [t|]; cbn [slot_ok] in H1; try contradiction.
    + rewrite (save_slot ps st o t buf H1). cbn [rbind]. destruct (IH r (S i) (if can i then put_in_dir d i (bytes_of st t) else d) H2) as (d' & E & A & B). exists d'. split; [exact E|]. split.
      * intros [|j] x Hj Hc; cbn [nth_error] in Hj.
        -- assert (x = t) by congruence. subst x. rewrite Nat.add_0_r in *. rewrite B by (intros j y Hy; lia). rewrite Hc. unfold put_in_dir. now rewrite Nat.eqb_refl.
        -- rewrite <- Nat.add_succ_comm in *. now apply A.
      * intros k Hk. rewrite B; [|intros j y Hy; rewrite Nat.add_succ_comm; apply (Hk (S j) y Hy)]. pose proof (Hk 0%nat t eq_refl) as H0. rewrite Nat.add_0_r in H0.
        destruct (Nat.eq_dec k i) as [->|Ne]; [now rewrite H0 by reflexivity|]. destruct (can i); [|reflexivity]. unfold put_in_dir. destruct (Nat.eqb_spec k i); [lia|reflexivity].
    + destruct (IH r (S i) d H2) as (d' & E & A & B). exists d'. split; [exact E|]. split.
      * intros [|j] x Hj; cbn [nth_error] in Hj; [discriminate|]. rewrite <- Nat.add_succ_comm. now apply A.
      * intros k Hk. apply B. intros j y Hy. rewrite Nat.add_succ_comm. apply (Hk (S j) y Hy).
Qed.

Lemma junk8 (junk : list Z) : length (firstn 8 (junk ++ repeat 0 8)) = 8%nat.
Proof. rewrite firstn_length, app_length, repeat_length. lia. Qed.
Lemma version_bytes_len f junk : length (version_bytes f junk) = 8%nat.
Proof. destruct f as [o|]; cbn [version_bytes]; [now rewrite app_length, !le_bytes_length|apply junk8]. Qed.
Lemma root_ok fs junk : length fs = 4%nat -> root_says (export_root fs junk) fs.
Proof.
  intros L. unfold export_root. destruct fs as [|a [|b [|c [|e [|? ?]]]]]; try discriminate. cbn [map concat]. rewrite app_nil_r.
  pose proof (version_bytes_len a junk) as La. pose proof (version_bytes_len b junk) as Lb. pose proof (version_bytes_len c junk) as Lc. pose proof (version_bytes_len e junk) as Le.
  split; [rewrite !app_length; cbn [length]; lia|]. split; [reflexivity|].
  assert (G : forall i f, nth i [a; b; c; e] None = f -> nth_error [flag_byte a; flag_byte b; flag_byte c; flag_byte e] i = Some (flag_byte f) ->
    sub ([flag_byte a; flag_byte b; flag_byte c; flag_byte e] ++ version_bytes a junk ++ version_bytes b junk ++ version_bytes c junk ++ version_bytes e junk) (4 + 8 * i) 8 = version_bytes f junk -> (i < 4)%nat ->
    match nth i [a; b; c; e] None with
    | Some o => nth_error ([flag_byte a; flag_byte b; flag_byte c; flag_byte e] ++ version_bytes a junk ++ version_bytes b junk ++ version_bytes c junk ++ version_bytes e junk) i = Some 1 /\
        sub ([flag_byte a; flag_byte b; flag_byte c; flag_byte e] ++ version_bytes a junk ++ version_bytes b junk ++ version_bytes c junk ++ version_bytes e junk) (4 + 8 * i) 8 = version_of o
    | None => nth_error ([flag_byte a; flag_byte b; flag_byte c; flag_byte e] ++ version_bytes a junk ++ version_bytes b junk ++ version_bytes c junk ++ version_bytes e junk) i = Some 0
    end).
  { intros i f H1 H2 H3 Hi. rewrite H1. rewrite nth_error_app1 by (cbn [length]; lia). rewrite H2. destruct f as [o|]; [|reflexivity]. split; [reflexivity|exact H3]. }
  intros [|[|[|[|i]]]] Hi; try lia; (eapply G; [reflexivity|reflexivity| |lia]).
  - rewrite sub_app_r by (cbn [length]; lia). change (4 + 8 * 0 - length [flag_byte a; flag_byte b; flag_byte c; flag_byte e])%nat with 0%nat. rewrite sub_app_l by lia. rewrite <- La. apply sub_all.
  - rewrite sub_app_r by (cbn [length]; lia). change (4 + 8 * 1 - length [flag_byte a; flag_byte b; flag_byte c; flag_byte e])%nat with 8%nat. rewrite sub_app_r by lia. rewrite La. change (8 - 8)%nat with 0%nat. rewrite sub_app_l by lia. rewrite <- Lb. apply sub_all.
  - rewrite sub_app_r by (cbn [length]; lia). change (4 + 8 * 2 - length [flag_byte a; flag_byte b; flag_byte c; flag_byte e])%nat with 16%nat. rewrite sub_app_r by lia. rewrite La. change (16 - 8)%nat with 8%nat. rewrite sub_app_r by lia. rewrite Lb. change (8 - 8)%nat with 0%nat.
    rewrite sub_app_l by lia. rewrite <- Lc. apply sub_all.
  - rewrite sub_app_r by (cbn [length]; lia). change (4 + 8 * 3 - length [flag_byte a; flag_byte b; flag_byte c; flag_byte e])%nat with 24%nat. rewrite sub_app_r by lia. rewrite La. change (24 - 8)%nat with 16%nat. rewrite sub_app_r by lia. rewrite Lb. change (16 - 8)%nat with 8%nat.
    rewrite sub_app_r by lia. rewrite Lc. change (8 - 8)%nat with 0%nat. rewrite <- Le. apply sub_all.
Qed.

Lemma export_any ps can junk buf st fs ts p : slots_ok ps st fs ts -> length fs = 4%nat -> p <> NotDir ->
  exists d, export_table true can (Z.of_nat ps) junk buf st fs p = Ok (Dir d) /\
    (can 0%nat = true -> exists root, d 0%nat = Some root /\ root_says root fs) /\ (forall i t, nth_error ts i = Some (Some t) -> can (S i) = true -> d (S i) = Some (bytes_of st t)) /\
    (forall i, can i = false -> d i = match p with Dir d0 => d0 i | _ => None end) /\
    (forall i, (forall t, nth_error ts i <> Some (Some t)) -> d (S i) = match p with Dir d0 => d0 (S i) | _ => None end).
Proof.
  intros Hs L Hp. unfold export_table. set (d0 := match p with Dir d => d | _ => fun _ => None end).
  destruct (export_files_any ps can buf st fs ts 1 (if can 0%nat then put_in_dir d0 0 (export_root fs junk) else d0) Hs) as (d & E & A & B).
  assert (D0 : forall i, match p with Dir d0 => d0 i | _ => None end = d0 i) by (intros i; unfold d0; destruct p; reflexivity).
  exists d. split; [destruct p; try congruence; cbn [negb]; fold d0; rewrite E; reflexivity|]. split; [|split; [|split]].
  - intros Hc. exists (export_root fs junk). split; [rewrite B by (intros; lia); rewrite Hc; reflexivity|now apply root_ok].
  - intros i t Hi Hc. exact (A i t Hi Hc).
  - intros i Hc. rewrite B by (intros; assumption). rewrite D0. destruct (can 0%nat) eqn:C0; [|reflexivity]. unfold put_in_dir. destruct (Nat.eqb_spec i 0); [congruence|reflexivity].
  - intros i Hi. rewrite B by (intros j t Hj E1; assert (j = i) by lia; subst j; now destruct (Hi t)). rewrite D0. destruct (can 0%nat); [|reflexivity]. unfold put_in_dir. reflexivity.
Qed.
Lemma export_ok ps can junk buf st fs ts p : (forall i, can i = true) -> slots_ok ps st fs ts -> length fs = 4%nat -> p <> NotDir ->
  exists d, export_table true can (Z.of_nat ps) junk buf st fs p = Ok (Dir d) /\ exported st fs ts d /\
    forall i, (forall t, nth_error ts i <> Some (Some t)) -> d (S i) = match p with Dir d0 => d0 (S i) | _ => None end.
Proof.
  intros Hc Hs L Hp. destruct (export_any ps can junk buf st fs ts p Hs L Hp) as (d & E & A & B & _ & D). exists d. split; [exact E|]. split; [|exact D]. split; [now apply A|]. intros i t Hi. now apply B.
Qed.

(** ** import into a file of the same length *)
Section Imp.
Variable slack : Z.
Variable cached : Z -> bool.
Variable ps : nat.
Variable v838 : bool.
Let P := Z.of_nat ps.

Lemma stored_n f st n len tabs dp : stored ps f st n len tabs dp -> 0 <= n < zlen st.
Proof. intros (_ & _ & _ & _ & _ & _ & _ & h & Hh & _). now destruct (page_of _ _ _ Hh). Qed.

Lemma one_any st fl o t b v : is_file ps st o t -> good ps st -> NoDup (pages t) -> bytes_ok b -> length b = t_len t -> (t_f t = F838_deep -> (0 < t_len t)%nat) -> ~ (t_f t = F80 /\ lone_page F80 ps (t_len t)) ->
  length v = 8%nat -> bytes_ok v ->
  exists st2 o', import_one slack cached P v838 false st fl (Some o) (Some b) v = Ok (upd st2 (t_n t) (splice (page st2 (t_n t)) 12 v), fl, o', false) /\
    is_file ps st2 o' t /\ o_data o' = None /\ good ps st2 /\ zlen st2 = zlen st /\ bytes_of st2 t = b /\ (forall m, 0 <= m -> ~ In m (pages t) -> page st2 m = page st m).
Proof.
  intros (Hs & Hnf & Hop & _) Hg Hnd Hb HL Hdeep Hlone Lv Bv.
  destruct (whole_put slack cached ps (t_f t) st fl o (t_n t) (t_len t) (t_tabs t) (t_dp t) b Hs Hg Hnd Hnf Hop Hb HL Hdeep Hlone) as (st2 & o' & E & S2 & O2 & G2 & Z2 & C2 & F2).
  exists st2, o'. unfold import_one, in_file. cbn [rbind]. fold P in E. rewrite E. cbn [rbind]. unfold put_version. assert (Hb2 : o_block o' = t_n t) by apply O2. rewrite Hb2.
  assert (Rn : 0 <= t_n t < zlen st2) by (eapply stored_n; exact S2). assert (H32 : (32 <= ps)%nat) by apply Hs.
  change 12 with (Z.of_nat 12). unfold P. rewrite (poke_ok cached ps H32 st2 (t_n t) 12 v G2 Rn ltac:(lia)). cbn [rbind].
  split; [reflexivity|]. assert (Hd : o_data o' = None) by apply O2. split.
  { split; [exact S2|]. split; [exact Hnf|]. split; [|now left]. destruct O2 as (A & B & C). split; [exact A|]. split; [reflexivity|exact C]. }
  split; [exact Hd|]. split; [exact G2|]. split; [exact Z2|]. split; [exact C2|]. intros m Hm Hi. apply F2; [exact Hm| |]; intros C; apply Hi; [left; congruence|right; apply in_or_app; now right].
Qed.

(** in the older format the version numbers of the header are at byte 12: the file is there as before *)
Lemma version80 st o t v : is_file ps st o t -> t_f t = F80 -> o_data o = None -> good ps st -> NoDup (pages t) -> length v = 8%nat -> bytes_ok v ->
  let st' := upd st (t_n t) (splice (page st (t_n t)) 12 v) in
  is_file ps st' o t /\ good ps st' /\ zlen st' = zlen st /\ bytes_of st' t = bytes_of st t /\ sub (page st' (t_n t)) 12 8 = v /\ (forall m, 0 <= m -> ~ In m (pages t) -> page st' m = page st m).
Proof.
  intros (Hs & Hnf & Hop & _) Ef Hd Hg Hnd Lv Bv st'. assert (Rn : 0 <= t_n t < zlen st) by (eapply stored_n; exact Hs). assert (H32 : (32 <= ps)%nat) by apply Hs.
  destruct (good_page ps st (t_n t) Hg Rn) as [Lh Bh]. assert (Lq : length (splice (page st (t_n t)) 12 v) = ps) by (rewrite splice_length by lia; exact Lh).
  assert (Hg' : good ps st') by (apply upd_good; [exact Hg|exact Rn|exact Lq|now apply bytes_ok_splice]).
  assert (Hz : zlen st' = zlen st) by (apply upd_len; exact Rn).
  assert (Hp : forall m, 0 <= m -> m <> t_n t -> page st' m = page st m) by (intros m Hm Hne; unfold st'; rewrite upd_page by assumption; destruct (Z.eqb_spec m (t_n t)); [lia|reflexivity]).
  assert (Hpn : page st' (t_n t) = splice (page st (t_n t)) 12 v) by (unfold st'; rewrite upd_page, Z.eqb_refl by lia; reflexivity).
  assert (Hnn : ~ In (t_n t) (t_tabs t) /\ ~ In (t_n t) (t_dp t)) by (inversion_clear Hnd as [|x l Hx Hl]; split; intros C; apply Hx, in_or_app; auto).
  pose proof Hg as (G1 & G2 & G3 & G4). pose proof Hg' as (G1' & G2' & G3' & G4').
  assert (Hrg : forall b, In b (t_dp t) -> 0 <= b < zlen st).
  { intros b Hb. destruct Hs as (_ & _ & _ & _ & _ & _ & Hpg & _). rewrite Forall_forall in Hpg. destruct (Hpg b Hb) as (p & Hx). now destruct (page_of _ _ _ Hx). }
  assert (Hs' : stored ps (t_f t) st' (t_n t) (t_len t) (t_tabs t) (t_dp t)).
  { eapply (stored_update ps (t_f t) st st' (t_n t) (t_len t) (t_tabs t) (t_dp t) (page st (t_n t)) (page st' (t_n t)) v); try assumption.
    - apply page_page; lia.
    - apply page_page; lia.
    - right. rewrite Ef. exact Hpn.
    - apply Forall_forall. intros b Hb. exists (page st' b). pose proof (Hrg b Hb). apply page_page; lia.
    - intros x Hx. assert (Rt : 0 <= x < zlen st).
      { destruct Hs as (_ & _ & _ & _ & _ & _ & _ & h & _ & Hf). rewrite Ef in Hf. destruct Hf as (_ & _ & _ & _ & _ & _ & Ht). apply (in_forall _ _ x (tables_range _ _ _ _ _ _ _ Ht Hnd) Hx). }
      rewrite !page_nth by lia. f_equal. apply Hp; [lia|]. intros ->. now apply Hnn. }
  split; [split; [exact Hs'|]; split; [exact Hnf|]; split; [exact Hop|now left]|]. split; [exact Hg'|]. split; [exact Hz|]. split.
  { unfold bytes_of, content, flat. f_equal. f_equal. apply map_ext_in. intros b Hb. apply Hp; [apply Hrg, Hb|]. intros ->. now apply Hnn. }
  split. { rewrite Hpn. rewrite <- Lv. apply sub_splice_same. lia. }
  intros m Hm Hi. apply Hp; [exact Hm|]. intros ->. apply Hi. now left.
Qed.

Lemma one80 st fl o t b v : is_file ps st o t -> t_f t = F80 -> good ps st -> NoDup (pages t) -> bytes_ok b -> length b = t_len t -> ~ lone_page F80 ps (t_len t) -> length v = 8%nat -> bytes_ok v ->
  exists st' o', import_one slack cached P v838 false st fl (Some o) (Some b) v = Ok (st', fl, o', false) /\ is_file ps st' o' t /\ good ps st' /\ zlen st' = zlen st /\
    bytes_of st' t = b /\ sub (page st' (t_n t)) 12 8 = v /\ (forall m, 0 <= m -> ~ In m (pages t) -> page st' m = page st m).
Proof.
  intros Hf E Hg Hnd Hb HL Hlone Lv Bv. destruct (one_any st fl o t b v Hf Hg Hnd Hb HL) as (st2 & o' & E2 & F2 & D2 & G2 & Z2 & C2 & P2); try assumption; [rewrite E; discriminate|tauto|].
  destruct (version80 st2 o' t v F2 E D2 G2 Hnd Lv Bv) as (A1 & A2 & A3 & A4 & A5 & A6).
  eexists _, o'. split; [exact E2|]. split; [exact A1|]. split; [exact A2|]. split; [lia|]. split; [congruence|]. split; [exact A5|]. intros m Hm Hi. rewrite A6 by assumption. now apply P2.
Qed.

End Imp.

(** a file on other pages is untouched *)
Lemma slot_frame ps st st' s t : slot_ok ps st s t -> good ps st' -> zlen st' = zlen st -> (forall m, In m (match t with Some t => pages t | None => [] end) -> 0 <= m -> page st' m = page st m) ->
  slot_ok ps st' s t /\ match t with Some t => bytes_of st' t = bytes_of st t /\ page st' (t_n t) = page st (t_n t) | None => True end.
Proof.
  intros H Hg Hz Hp. destruct s as [o|], t as [t|]; cbn [slot_ok] in *; try contradiction; [|auto]. destruct H as (Hs & Hnf & Hop & Hd). pose proof Hg as (G1 & G2 & G3 & G4).
  assert (Hn : forall m, In m (pages t) -> 0 <= m -> nth_error st' (Z.to_nat m) = nth_error st (Z.to_nat m)).
  { intros m Hm H0. destruct (Z.lt_ge_cases m (zlen st)) as [Hl|Hl].
    - rewrite !page_nth by lia. f_equal. now apply Hp.
    - unfold zlen in *. transitivity (@None (list Z)); [apply nth_error_None; lia|symmetry; apply nth_error_None; lia]. }
  destruct (other_stored ps (t_f t) st st' _ _ _ _ Hs G1 G2 Hn) as [A B].
  split; [|split; [exact B|apply Hp; [now left|apply (stored_n _ _ _ _ _ _ _ Hs)]]]. split; [exact A|]. split; [exact Hnf|]. split; [exact Hop|]. destruct Hd as [Hd|Hd]; [now left|right]. rewrite Hd. f_equal. symmetry. exact B.
Qed.
