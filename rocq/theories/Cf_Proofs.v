(** Headers of blocks; chains of pages. *)
From Verif Require Import Prelude Lists Codec_Model Cf_Model Cf_Spec.
From Coq Require Import Permutation.
Ltac Zify.zify_post_hook ::= idtac.

(** ** Headers *)
Lemma digits_length k v : length (digits k v) = k.
Proof. revert v. induction k as [|k IH]; intros v; [reflexivity|]. cbn [digits]. rewrite app_length, IH. cbn [length]. lia. Qed.
Lemma hdr_length d p n : length (hdr d p n) = 31%nat.
Proof. unfold hdr. rewrite !app_length, !digits_length. reflexivity. Qed.
Lemma digit_of v : 0 <= v < 16 -> digit v = hexdigit v.
Proof. intros H. assert (E : v = 0 \/ v = 1 \/ v = 2 \/ v = 3 \/ v = 4 \/ v = 5 \/ v = 6 \/ v = 7 \/ v = 8 \/ v = 9 \/ v = 10 \/ v = 11 \/ v = 12 \/ v = 13 \/ v = 14 \/ v = 15) by lia. repeat (destruct E as [->|E]; [reflexivity|]). subst. reflexivity. Qed.
Lemma hexval_digit v : 0 <= v < 16 -> hexval (digit v) = Some v.
Proof. intros H. assert (E : v = 0 \/ v = 1 \/ v = 2 \/ v = 3 \/ v = 4 \/ v = 5 \/ v = 6 \/ v = 7 \/ v = 8 \/ v = 9 \/ v = 10 \/ v = 11 \/ v = 12 \/ v = 13 \/ v = 14 \/ v = 15) by lia. repeat (destruct E as [->|E]; [reflexivity|]). subst. reflexivity. Qed.
Lemma digit_nz v : 0 <= v < 16 -> digit v <> 0.
Proof. intros H. assert (E : v = 0 \/ v = 1 \/ v = 2 \/ v = 3 \/ v = 4 \/ v = 5 \/ v = 6 \/ v = 7 \/ v = 8 \/ v = 9 \/ v = 10 \/ v = 11 \/ v = 12 \/ v = 13 \/ v = 14 \/ v = 15) by lia. repeat (destruct E as [->|E]; [discriminate|]). subst. discriminate. Qed.
Lemma mod16 v : 0 <= v mod 16 < 16. Proof. apply Z.mod_pos_bound. lia. Qed.
Lemma digits_map k v : digits k v = map (fun i => hexdigit (Z.land (Z.shiftr v (4 * Z.of_nat i)) 15)) (rev (seq 0 k)).
Proof.
  revert v. induction k as [|k IH]; intros v; [reflexivity|]. cbn [digits]. rewrite IH. cbn [seq]. cbn [rev]. rewrite map_app. cbn [map]. change (4 * Z.of_nat 0) with 0. rewrite Z.shiftr_0_r. f_equal.
  - rewrite <- seq_shift, <- map_rev, map_map. apply map_ext. intros i. do 2 f_equal. replace (4 * Z.of_nat (S i)) with (4 + 4 * Z.of_nat i) by lia. rewrite <- Z.shiftr_shiftr by lia. f_equal. rewrite Z.shiftr_div_pow2 by lia. reflexivity.
  - rewrite digit_of by apply mod16. do 2 f_equal. change 15 with (Z.ones 4). rewrite Z.land_ones by lia. reflexivity.
Qed.
Lemma hex8_digits v : 0 <= v < 2^32 -> hex8 v = digits 8 v.
Proof. intros H. rewrite digits_map. unfold hex8, u32. rewrite Z.mod_small by lia. reflexivity. Qed.
Lemma prefix_digits k : forall v acc r, 0 <= v < 16 ^ Z.of_nat k -> hex_prefix (digits k v ++ r) acc = hex_prefix r (acc * 16 ^ Z.of_nat k + v).
Proof.
  induction k as [|k IH]; intros v acc r H.
  - cbn [digits app]. change (16 ^ Z.of_nat 0) with 1 in *. f_equal. lia.
  - cbn [digits]. rewrite <- app_assoc. assert (HP : 16 ^ Z.of_nat (S k) = 16 * 16 ^ Z.of_nat k) by (rewrite Nat2Z.inj_succ, Z.pow_succ_r by lia; reflexivity). pose proof (Z.div_mod v 16 ltac:(lia)). pose proof (mod16 v). rewrite IH; [|split; [apply Z.div_pos; lia|apply Z.div_lt_upper_bound; lia]].
    cbn [app hex_prefix]. rewrite hexval_digit by apply mod16. f_equal. rewrite HP. nia.
Qed.
Lemma cstr_digits k : forall v r t, c_string r = Ok t -> c_string (digits k v ++ r) = Ok (digits k v ++ t).
Proof.
  induction k as [|k IH]; intros v r t H; [exact H|]. cbn [digits]. rewrite <- !app_assoc. apply IH. cbn [app c_string]. destruct (Z.eqb_spec (digit (v mod 16)) 0) as [E|E]; [exfalso; exact (digit_nz _ (mod16 v) E)|]. now rewrite H.
Qed.
Lemma cstr_after after : In 0 after -> exists t, c_string after = Ok t.
Proof. induction after as [|c r IH]; intros H; [destruct H|]. cbn [c_string]. destruct (Z.eqb_spec c 0); [eauto|]. destruct H as [H|H]; [congruence|]. destruct (IH H) as [t ->]. cbn [rbind]. eauto. Qed.
Lemma cstr_cons c r t : c <> 0 -> c_string r = Ok t -> c_string (c :: r) = Ok (c :: t).
Proof. intros H E. cbn [c_string]. destruct (Z.eqb_spec c 0); [contradiction|]. now rewrite E. Qed.
Lemma get_field after off v tail : In 0 after -> 0 <= v <= LAST -> (exists t, c_string (tail ++ after) = Ok t) -> forall h, skipn off h = digits 8 v ++ 32 :: tail -> get_hex after off h = Ok v.
Proof.
  intros HA HV [t Ht] h E. unfold get_hex. rewrite E, <- app_assoc. change ((32 :: tail) ++ after) with (32 :: tail ++ after). rewrite (cstr_digits 8 v _ (32 :: t)) by (apply cstr_cons; [discriminate|exact Ht]). cbn [rbind].
  rewrite prefix_digits by (change (16 ^ Z.of_nat 8) with (2^32); unfold LAST in *; lia). cbn [hex_prefix]. change (hexval 32) with (@None Z). cbv beta iota zeta. rewrite Z.mul_0_l, Z.add_0_l. destruct (Z.ltb_spec LAST v); [lia|reflexivity].
Qed.
Lemma skipn_app_len {A} (l r : list A) n : length l = n -> skipn n (l ++ r) = r.
Proof. intros <-. rewrite skipn_app, skipn_all, Nat.sub_diag. reflexivity. Qed.
Lemma tail_next after : In 0 after -> exists t, c_string ([13; 10] ++ after) = Ok t.
Proof. intros H. destruct (cstr_after after H) as [t E]. eexists. cbn [app]. apply cstr_cons; [discriminate|]. apply cstr_cons; [discriminate|]. exact E. Qed.
Lemma hdr_next after d p n : In 0 after -> 0 <= n <= LAST -> get_hex after o_next (hdr d p n) = Ok n.
Proof.
  intros HA HN. apply (get_field after o_next n [13; 10]); [exact HA|exact HN|now apply tail_next|]. unfold hdr, o_next. rewrite !app_assoc. rewrite <- (app_assoc _ (digits 8 n)). apply skipn_app_len. rewrite !app_length, !digits_length. reflexivity.
Qed.
Lemma tail_page after n : In 0 after -> exists t, c_string ((digits 8 n ++ [32; 13; 10]) ++ after) = Ok t.
Proof. intros H. destruct (tail_next after H) as [t E]. eexists. rewrite <- app_assoc. apply cstr_digits. cbn [app] in *. apply cstr_cons; [discriminate|]. exact E. Qed.
Lemma hdr_page after d p n : In 0 after -> 0 <= p <= LAST -> get_hex after o_page (hdr d p n) = Ok p.
Proof.
  intros HA HN. apply (get_field after o_page p (digits 8 n ++ [32; 13; 10])); [exact HA|exact HN|now apply tail_page|]. unfold hdr, o_page. rewrite !app_assoc. rewrite <- !(app_assoc _ (digits 8 p)). rewrite <- !app_assoc. rewrite (app_assoc [13;10]), (app_assoc _ [32]). apply skipn_app_len. rewrite !app_length, !digits_length. reflexivity.
Qed.
Lemma hdr_data after d p n : In 0 after -> 0 <= d <= LAST -> get_hex after o_data (hdr d p n) = Ok d.
Proof.
  intros HA HN. apply (get_field after o_data d (digits 8 p ++ [32] ++ digits 8 n ++ [32; 13; 10])); [exact HA|exact HN| |reflexivity]. destruct (tail_page after n HA) as [t E]. eexists. rewrite <- !app_assoc. apply cstr_digits. cbn [app]. apply cstr_cons; [discriminate|]. rewrite <- app_assoc in E. exact E.
Qed.
Lemma splice_mid {A} (a b c d : list A) n : length a = n -> length d = length b -> splice (a ++ b ++ c) n d = a ++ d ++ c.
Proof. intros <- E. unfold splice. rewrite firstn_app, firstn_all, Nat.sub_diag. cbn [firstn]. rewrite app_nil_r. do 2 f_equal. rewrite E, app_assoc. apply skipn_app_len. now rewrite app_length. Qed.
Lemma set_data_hdr d p n v : 0 <= v < 2^32 -> set_hex o_data (hdr d p n) v = hdr v p n.
Proof. intros H. unfold set_hex, hdr, o_data. rewrite hex8_digits by exact H. apply splice_mid; [reflexivity|now rewrite !digits_length]. Qed.
Lemma set_page_hdr d p n v : 0 <= v < 2^32 -> set_hex o_page (hdr d p n) v = hdr d v n.
Proof.
  intros H. unfold set_hex, hdr, o_page. rewrite hex8_digits by exact H. rewrite !(app_assoc [13;10]), !(app_assoc ([13; 10] ++ digits 8 d)). apply splice_mid; [rewrite !app_length, digits_length; reflexivity|now rewrite !digits_length].
Qed.
Lemma set_next_hdr d p n v : 0 <= v < 2^32 -> set_hex o_next (hdr d p n) v = hdr d p v.
Proof.
  intros H. unfold set_hex, hdr, o_next. rewrite hex8_digits by exact H. rewrite !(app_assoc [13;10]), !(app_assoc ([13; 10] ++ digits 8 d)), !(app_assoc (([13; 10] ++ digits 8 d) ++ [32])), !(app_assoc ((([13; 10] ++ digits 8 d) ++ [32]) ++ digits 8 p)). apply splice_mid; [rewrite !app_length, !digits_length; reflexivity|now rewrite !digits_length].
Qed.
Lemma create_hdr d p n : 0 <= d < 2^32 -> 0 <= p < 2^32 -> 0 <= n < 2^32 -> create d p n = hdr d p n.
Proof.
  intros H1 H2 H3. unfold create. assert (E : set_hex o_data blank d = [13; 10] ++ digits 8 d ++ [32] ++ repeat 0 8 ++ [32] ++ repeat 0 8 ++ [32; 13; 10]) by (unfold set_hex, blank, o_data; rewrite hex8_digits by exact H1; apply splice_mid; [reflexivity|now rewrite digits_length, repeat_length]).
  rewrite E. assert (E2 : set_hex o_page ([13; 10] ++ digits 8 d ++ [32] ++ repeat 0 8 ++ [32] ++ repeat 0 8 ++ [32; 13; 10]) p = [13; 10] ++ digits 8 d ++ [32] ++ digits 8 p ++ [32] ++ repeat 0 8 ++ [32; 13; 10]).
  { unfold set_hex, o_page. rewrite hex8_digits by exact H2. rewrite !(app_assoc [13;10]), !(app_assoc ([13; 10] ++ digits 8 d)). apply splice_mid; [rewrite !app_length, digits_length; reflexivity|now rewrite digits_length, repeat_length]. }
  rewrite E2. unfold set_hex, o_next, hdr. rewrite hex8_digits by exact H3. rewrite !(app_assoc [13;10]), !(app_assoc ([13; 10] ++ digits 8 d)), !(app_assoc (([13; 10] ++ digits 8 d) ++ [32])), !(app_assoc ((([13; 10] ++ digits 8 d) ++ [32]) ++ digits 8 p)). apply splice_mid; [rewrite !app_length, !digits_length; reflexivity|now rewrite digits_length, repeat_length].
Qed.
(** numbers above 2147483647 cannot be read *)
Lemma hdr_big after off v tail h : In 0 after -> LAST < v < 2^32 -> (exists t, c_string (tail ++ after) = Ok t) -> skipn off h = digits 8 v ++ 32 :: tail -> get_hex after off h = Throw.
Proof.
  intros HA HV [t Ht] E. unfold get_hex. rewrite E, <- app_assoc. change ((32 :: tail) ++ after) with (32 :: tail ++ after). rewrite (cstr_digits 8 v _ (32 :: t)) by (apply cstr_cons; [discriminate|exact Ht]). cbn [rbind].
  rewrite prefix_digits by (change (16 ^ Z.of_nat 8) with (2^32); unfold LAST in *; lia). cbn [hex_prefix]. change (hexval 32) with (@None Z). cbv beta iota zeta. rewrite Z.mul_0_l, Z.add_0_l. destruct (Z.ltb_spec LAST v); [reflexivity|lia].
Qed.

(** ** Pages *)
Definition page : Type := (Z * Z)%type.
Definition pg_ok (hi : Z) (p : page) : Prop := 16 <= fst p /\ 0 < snd p /\ fst p + 31 + snd p <= hi.
Definition disj (p q : page) : Prop := fst p + 31 + snd p <= fst q \/ fst q + 31 + snd q <= fst p.
Definition layout (hi : Z) (ps : list page) : Prop := ForallOrdPairs disj ps /\ Forall (pg_ok hi) ps.
Lemma disj_sym p q : disj p q -> disj q p. Proof. unfold disj. tauto. Qed.
Lemma fop_perm l l' : Permutation l l' -> ForallOrdPairs disj l -> ForallOrdPairs disj l'.
Proof.
  intros HP. induction HP as [|x l l' HP IH|x y l|l l2 l3 P1 IH1 P2 IH2]; intros H.
  - exact H.
  - inversion_clear H as [|? ? H1 H2]. constructor; [|now apply IH]. now rewrite <- HP.
  - inversion_clear H as [|? ? H1 H2]. inversion_clear H2 as [|? ? H3 H4]. inversion_clear H1 as [|? ? H5 H6]. constructor; [constructor; [now apply disj_sym|exact H3]|]. constructor; [exact H6|exact H4].
  - auto.
Qed.
Lemma layout_perm hi l l' : Permutation l l' -> layout hi l -> layout hi l'.
Proof. intros HP [H1 H2]. split; [now apply (fop_perm l)|now rewrite <- HP]. Qed.
Lemma layout_mono hi hi' l : hi <= hi' -> layout hi l -> layout hi' l.
Proof. intros H [H1 H2]. split; [exact H1|]. apply (Forall_impl _ (P := pg_ok hi)); [|exact H2]. intros p (A & B & C). unfold pg_ok. lia. Qed.
Lemma fop_app l r : ForallOrdPairs disj (l ++ r) <-> ForallOrdPairs disj l /\ ForallOrdPairs disj r /\ (forall p q, In p l -> In q r -> disj p q).
Proof.
  induction l as [|x l IH]; cbn [app].
  - split; [intros H; split; [constructor|split; [exact H|intros p q []]]|intros (_ & H & _); exact H].
  - split.
    + intros H. inversion_clear H as [|? ? H1 H2]. apply IH in H2. destruct H2 as (A & B & C). apply Forall_app in H1. destruct H1 as [H1 H3]. split; [now constructor|]. split; [exact B|]. intros p q [<-|Hp] Hq; [now apply (proj1 (Forall_forall _ _) H3)|now apply C].
    + intros (A & B & C). inversion_clear A as [|? ? H1 H2]. constructor; [|apply IH; split; [exact H2|split; [exact B|intros p q Hp Hq; apply C; [now right|exact Hq]]]]. apply Forall_app. split; [exact H1|]. apply Forall_forall. intros q Hq. apply C; [now left|exact Hq].
Qed.
Lemma layout_app hi l r : layout hi (l ++ r) <-> layout hi l /\ layout hi r /\ (forall p q, In p l -> In q r -> disj p q).
Proof. unfold layout. rewrite fop_app, Forall_app. tauto. Qed.
Lemma layout_cons hi p r : layout hi (p :: r) <-> pg_ok hi p /\ layout hi r /\ (forall q, In q r -> disj p q).
Proof.
  unfold layout. split.
  - intros [H1 H2]. inversion_clear H1 as [|? ? A B]. inversion_clear H2 as [|? ? C D]. split; [exact C|]. split; [split; assumption|]. now apply Forall_forall.
  - intros (A & (B & C) & D). split; constructor; try assumption. now apply Forall_forall.
Qed.

(** bytes that stay *)
Definition agree (l l' : list Z) (lo hi : Z) : Prop := forall i : nat, lo <= Z.of_nat i < hi -> nth_error l' i = nth_error l i.
Lemma agree_refl l lo hi : agree l l lo hi. Proof. intros i _. reflexivity. Qed.
Lemma agree_trans l1 l2 l3 lo hi : agree l1 l2 lo hi -> agree l2 l3 lo hi -> agree l1 l3 lo hi.
Proof. intros A B i Hi. rewrite (B i Hi). now apply A. Qed.
Lemma agree_weaken l l' lo hi lo' hi' : agree l l' lo hi -> lo <= lo' -> hi' <= hi -> agree l l' lo' hi'.
Proof. intros A H1 H2 i Hi. apply A. lia. Qed.
Lemma nth_ext_opt {A} (l l' : list A) : (forall i, nth_error l i = nth_error l' i) -> l = l'.
Proof.
  revert l'. induction l as [|x l IH]; intros [|y l'] H; [reflexivity|specialize (H 0%nat); discriminate|specialize (H 0%nat); discriminate|]. pose proof (H 0%nat) as E. injection E as ->. f_equal. apply IH. intros i. exact (H (S i)).
Qed.
Lemma nth_first {A} (l : list A) n i : nth_error (firstn n l) i = if (i <? n)%nat then nth_error l i else None.
Proof.
  revert n i. induction l as [|x l IH]; intros [|n] [|i]; try reflexivity; cbn [firstn nth_error].
  - destruct (S i <? S n)%nat; reflexivity.
  - rewrite IH. change (S i <? S n)%nat with (i <? n)%nat. reflexivity.
Qed.
Lemma nth_skip {A} (l : list A) n i : nth_error (skipn n l) i = nth_error l (n + i).
Proof. revert n. induction l as [|x l IH]; intros [|n]; try reflexivity; [destruct i; reflexivity|]. cbn [skipn Nat.add nth_error]. apply IH. Qed.
Lemma nth_sub {A} (l : list A) o n i : nth_error (sub l o n) i = if (i <? n)%nat then nth_error l (o + i) else None.
Proof. unfold sub. rewrite nth_first, nth_skip. reflexivity. Qed.
Lemma agree_sub l l' lo hi o n : agree l l' lo hi -> lo <= Z.of_nat o -> Z.of_nat (o + n) <= hi -> sub l' o n = sub l o n.
Proof. intros A H1 H2. apply nth_ext_opt. intros i. rewrite !nth_sub. destruct (Nat.ltb_spec i n); [|reflexivity]. apply A. lia. Qed.

(** writing over bytes *)
Lemma over_length data pos d : 0 <= pos <= zlen data -> zlen (over data pos d) = Z.max (zlen data) (pos + zlen d).
Proof. intros H. unfold over, zlen in *. rewrite !app_length, firstn_length, skipn_length. lia. Qed.
Lemma over_before data pos d : 0 <= pos <= zlen data -> agree data (over data pos d) 0 pos.
Proof.
  intros H i Hi. unfold over. rewrite nth_error_app1 by (rewrite firstn_length; unfold zlen in *; lia). rewrite nth_first. destruct (Nat.ltb_spec i (Z.to_nat pos)); [reflexivity|lia].
Qed.
Lemma over_after data pos d hi : 0 <= pos <= zlen data -> agree data (over data pos d) (pos + zlen d) hi.
Proof.
  intros H i Hi. unfold over, zlen in *. rewrite nth_error_app2 by (rewrite firstn_length; lia). rewrite firstn_length, Nat.min_l by lia. rewrite nth_error_app2 by lia. rewrite nth_skip. f_equal. lia.
Qed.
Lemma over_in data pos d o n : 0 <= pos <= zlen data -> (o + n <= length d)%nat -> sub (over data pos d) (Z.to_nat pos + o) n = sub d o n.
Proof.
  intros H Hn. apply nth_ext_opt. intros i. rewrite !nth_sub. destruct (Nat.ltb_spec i n); [|reflexivity]. unfold over, zlen in *. rewrite nth_error_app2 by (rewrite firstn_length; lia). rewrite firstn_length, Nat.min_l by lia. rewrite nth_error_app1 by lia. f_equal. lia.
Qed.
Lemma read_hdr data a h : 0 <= a -> a + 31 <= zlen data -> length h = 31%nat -> read_header data a h = Ok (sub data (Z.to_nat a) 31).
Proof.
  intros H1 H2 H3. unfold read_header. destruct (Z.ltb_spec (zlen data) a); [lia|]. destruct (Z.ltb_spec a 0); [lia|]. fold (sub data (Z.to_nat a) 31). cbv zeta. assert (L : length (sub data (Z.to_nat a) 31) = 31%nat) by (rewrite sub_length; unfold zlen in *; lia). rewrite L, skipn_all2 by lia. now rewrite app_nil_r.
Qed.

(** ** Chains *)
Definition head (ps : list page) : Z := match ps with [] => LAST | p :: _ => fst p end.
Definition at_hdr (data : list Z) (p : page) (d n : Z) : Prop := sub data (Z.to_nat (fst p)) 31 = hdr d (snd p) n.
Fixpoint linked (data : list Z) (ps : list page) : Prop :=
  match ps with [] => True | p :: r => (exists d, 0 <= d <= LAST /\ at_hdr data p d (head r)) /\ linked data r end.
Fixpoint holds (data : list Z) (ps : list page) (d : list Z) : Prop :=
  match ps with
  | [] => False
  | [p] => zlen d <= snd p /\ sub data (Z.to_nat (fst p) + 31) (length d) = d
  | p :: r => snd p < zlen d /\ sub data (Z.to_nat (fst p) + 31) (Z.to_nat (snd p)) = firstn (Z.to_nat (snd p)) d /\ holds data r (skipn (Z.to_nat (snd p)) d)
  end.
Definition same (l l' : list Z) (p : page) : Prop := agree l l' (fst p) (fst p + 31 + snd p).
Definition file_in (data : list Z) (ps : list page) (d : list Z) : Prop :=
  linked data ps /\ holds data ps d /\ match ps with [] => False | p :: r => at_hdr data p (zlen d) (head r) /\ zlen d <= LAST end.
Lemma at_frame l l' p d n : 0 <= fst p -> 0 <= snd p -> same l l' p -> at_hdr l p d n -> at_hdr l' p d n.
Proof. intros H1 H2 HS H. unfold at_hdr in *. rewrite <- H. apply (agree_sub _ _ _ _ _ _ HS); lia. Qed.
Lemma linked_frame l l' hi ps : Forall (pg_ok hi) ps -> Forall (same l l') ps -> linked l ps -> linked l' ps.
Proof.
  induction ps as [|p r IH]; intros HO HS H; [exact I|]. inversion_clear HO as [|? ? (O1 & O2 & O3) O4]. inversion_clear HS as [|? ? S1 S2]. destruct H as [(d & D1 & D2) H]. split; [|now apply IH]. exists d. split; [exact D1|]. apply (at_frame l l'); try assumption; lia.
Qed.
Lemma holds_frame l l' hi ps : forall d, Forall (pg_ok hi) ps -> Forall (same l l') ps -> holds l ps d -> holds l' ps d.
Proof.
  induction ps as [|p r IH]; intros d HO HS H; [exact H|]. inversion_clear HO as [|? ? (O1 & O2 & O3) O4]. inversion_clear HS as [|? ? S1 S2]. destruct r as [|q r].
  - destruct H as [H1 H2]. split; [exact H1|]. rewrite <- H2 at 2. apply (agree_sub _ _ _ _ _ _ S1); unfold zlen in *; lia.
  - destruct H as (H1 & H2 & H3). split; [exact H1|]. split; [rewrite <- H2; apply (agree_sub _ _ _ _ _ _ S1); lia|]. now apply IH.
Qed.
Lemma file_frame l l' hi ps d : Forall (pg_ok hi) ps -> Forall (same l l') ps -> file_in l ps d -> file_in l' ps d.
Proof.
  intros HO HS (H1 & H2 & H3). split; [now apply (linked_frame l l' hi)|]. split; [now apply (holds_frame l l' hi)|]. destruct ps as [|p r]; [exact H3|]. inversion_clear HO as [|? ? (O1 & O2 & O3) O4]. inversion_clear HS as [|? ? S1 S2]. destruct H3 as [H3 H4]. split; [|exact H4]. apply (at_frame l l'); try assumption; lia.
Qed.
Lemma holds_cons data p r d : r <> [] -> holds data (p :: r) d = (snd p < zlen d /\ sub data (Z.to_nat (fst p) + 31) (Z.to_nat (snd p)) = firstn (Z.to_nat (snd p)) d /\ holds data r (skipn (Z.to_nat (snd p)) d)).
Proof. destruct r; [congruence|reflexivity]. Qed.

(** ** Reading *)
Lemma copied_some src pos n : 0 < n -> 0 <= pos -> pos + n <= zlen src -> copied src pos n = (sub src (Z.to_nat pos) (Z.to_nat n), pos + n).
Proof.
  intros H1 H2 H3. unfold copied. destruct (Z.eqb_spec n 0); [lia|]. destruct (Z.ltb_spec n 0); [lia|]. cbv zeta. fold (sub src (Z.to_nat pos) (Z.to_nat n)). assert (L : length (sub src (Z.to_nat pos) (Z.to_nat n)) = Z.to_nat n) by (rewrite sub_length; unfold zlen in *; lia).
  destruct (sub src (Z.to_nat pos) (Z.to_nat n)) as [|x t] eqn:E; [cbn [length] in L; lia|]. f_equal. unfold zlen. rewrite L. lia.
Qed.
Lemma rb_ok after hi : In 0 after -> forall ps fuel data d len pos h out, layout hi ps -> hi <= zlen data -> hi < LAST -> linked data ps -> (ps = [] /\ d = [] \/ holds data ps d /\ d <> []) -> (length ps < fuel)%nat -> len - pos = zlen d -> length h = 31%nat ->
  rb_loop fuel after data (head ps) len pos h out = Ok (out ++ d).
Proof.
  intros HA. induction ps as [|p r IH]; intros fuel data d len pos h out HL Hhi HB HK HH HF HP Hh.
  - destruct fuel as [|fuel]; [lia|]. cbn [rb_loop head]. rewrite Z.eqb_refl. destruct HH as [[_ ->]|[HH _]]; [now rewrite app_nil_r|destruct HH].
  - destruct fuel as [|fuel]; [cbn [length] in HF; lia|]. apply layout_cons in HL. destruct HL as ((O1 & O2 & O3) & HL & HD). destruct HK as [(x & X1 & X2) HK]. destruct HH as [[HH _]|[HH Hne]]; [discriminate|]. cbn [rb_loop head]. destruct (Z.eqb_spec (fst p) LAST); [lia|].
    rewrite read_hdr by (try assumption; lia). cbn [rbind]. unfold at_hdr in X2. rewrite X2. assert (HN : 0 <= head r <= LAST). { destruct r as [|q r]; cbn [head]; [unfold LAST; lia|]. apply layout_cons in HL. destruct HL as ((Q1 & Q2 & Q3) & _). lia. }
    rewrite hdr_page by (try assumption; lia). cbn [rbind]. rewrite hdr_next by assumption. cbn [rbind]. assert (Hz : 0 < zlen d) by (destruct d; [congruence|rewrite zlen_cons; pose proof (zlen_nonneg d); lia]). rewrite Z.min_l with (n := fst p + 31) by lia.
    rewrite copied_some by lia. cbn [fst]. replace (Z.to_nat (fst p + 31)) with (Z.to_nat (fst p) + 31)%nat by lia. destruct r as [|q r].
    + destruct HH as [H1 H2]. rewrite Z.min_l by lia. rewrite (IH fuel data [] len (pos + (len - pos)) _ _ HL Hhi HB HK); [|left; split; reflexivity|cbn [length] in *; lia|change (zlen (@nil Z)) with 0; lia|apply hdr_length]. rewrite app_nil_r. f_equal. f_equal. rewrite HP. unfold zlen. rewrite Nat2Z.id. exact H2.
    + rewrite holds_cons in HH by discriminate. destruct HH as (H1 & H2 & H3). rewrite Z.min_r by lia. rewrite H2. rewrite (IH fuel data (skipn (Z.to_nat (snd p)) d) len (pos + snd p) _ _ HL Hhi HB HK); [rewrite <- app_assoc, firstn_skipn; reflexivity| |cbn [length] in *; lia|unfold zlen in *; rewrite skipn_length; lia|apply hdr_length].
      right. split; [exact H3|]. intros E. apply (f_equal (@length Z)) in E. rewrite skipn_length in E. cbn [length] in E. unfold zlen in *. lia.
Qed.
Lemma read_ok after fuel data hi ps d : In 0 after -> layout hi ps -> hi <= zlen data -> hi < LAST -> file_in data ps d -> (length ps <= fuel)%nat -> read_block fuel after data (head ps) = Ok d.
Proof.
  intros HA HL Hhi HB (HK & HH & H1) HF. destruct ps as [|p r]; [destruct H1|]. destruct H1 as [H1 HD]. assert (HL0 := HL). apply layout_cons in HL. destruct HL as ((O1 & O2 & O3) & HL & HDJ). unfold read_block. cbn [head]. destruct (Z.ltb_spec (fst p) 0); [lia|]. destruct (Z.eqb_spec (fst p) LAST); [lia|]. destruct (Z.ltb_spec (zlen data) (fst p)); [lia|]. cbn [orb].
  rewrite read_hdr by (try reflexivity; lia). cbn [rbind]. unfold at_hdr in H1. rewrite H1. pose proof (zlen_nonneg d) as Z0. rewrite hdr_data by (try assumption; lia). cbn [rbind]. destruct (Z.eqb_spec (zlen d) 0) as [E|E].
  - destruct d; [reflexivity|rewrite zlen_cons in E; pose proof (zlen_nonneg d); lia].
  - assert (HN : 0 <= head r <= LAST). { destruct r as [|q r]; cbn [head]; [unfold LAST; lia|]. apply layout_cons in HL. destruct HL as ((Q1 & Q2 & Q3) & _). lia. }
    rewrite hdr_page by (try assumption; lia). cbn [rbind]. rewrite hdr_next by assumption. cbn [rbind]. destruct HK as [_ HK]. rewrite Z.min_l with (n := fst p + 31) by lia. rewrite copied_some by lia. cbn [fst]. replace (Z.to_nat (fst p + 31)) with (Z.to_nat (fst p) + 31)%nat by lia. destruct r as [|q r].
    + destruct HH as [H2 H3]. rewrite Z.min_l by lia. rewrite (rb_ok after hi HA [] fuel data [] _ _ _ _ HL Hhi HB HK); [rewrite app_nil_r; unfold zlen; rewrite Nat2Z.id; now rewrite H3|left; split; reflexivity|cbn [length] in *; lia|change (zlen (@nil Z)) with 0; lia|apply hdr_length].
    + rewrite holds_cons in HH by discriminate. destruct HH as (H2 & H3 & H4). rewrite Z.min_r by lia. rewrite H3. rewrite (rb_ok after hi HA (q :: r) fuel data (skipn (Z.to_nat (snd p)) d) _ _ _ _ HL Hhi HB HK); [now rewrite firstn_skipn| |cbn [length] in *; lia|unfold zlen in *; rewrite skipn_length; lia|apply hdr_length].
      right. split; [exact H4|]. intros E2. apply (f_equal (@length Z)) in E2. rewrite skipn_length in E2. cbn [length] in E2. unfold zlen in *. lia.
Qed.
