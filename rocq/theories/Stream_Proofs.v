(** Proofs about streams. *)
From Verif Require Import Prelude Lists Stream_Model Stream_Spec.
Ltac Zify.zify_post_hook ::= idtac.

(** ** Writing *)
Lemma nth_splice {A} (l d : list A) off i x : (off + length d <= length l)%nat ->
  nth i (splice l off d) x = if ((off <=? i) && (i <? off + length d))%nat then nth (i - off) d x else nth i l x.
Proof.
  intros H. 
  assert (E : forall (k : list A) j, nth j k x = match nth_error k j with Some y => y | None => x end).
  { induction k as [|a k IH]; intros [|j]; simpl; auto. }
  rewrite !E, nth_error_splice by exact H. destruct ((off <=? i) && (i <? off + length d))%nat; reflexivity.
Qed.
Lemma nth_pad (l : list Z) n i : nth i (l ++ repeat 0 n) 0 = nth i l 0.
Proof.
  destruct (Nat.lt_ge_cases i (length l)) as [H|H].
  - now rewrite app_nth1.
  - rewrite app_nth2 by exact H. rewrite (nth_overflow l) by exact H.
    destruct (Nat.lt_ge_cases (i - length l) n) as [K|K]; [|apply nth_overflow; rewrite repeat_length; lia].
    apply (repeat_spec n 0). apply nth_In. rewrite repeat_length. exact K.
Qed.
Lemma overlay_len l p d : length (overlay l p d) = Nat.max (length l) (p + length d).
Proof. unfold overlay. now rewrite map_length, seq_length. Qed.
Lemma overlay_splice l p d : splice (l ++ repeat 0 (p + length d - length l)) p d = overlay l p d.
Proof.
  assert (HL : length (l ++ repeat 0 (p + length d - length l)) = Nat.max (length l) (p + length d)) by (rewrite app_length, repeat_length; lia).
  apply (nth_ext _ _ 0 (byte_at l p d 0)).
  - rewrite overlay_len, splice_length by lia. exact HL.
  - intros i Hi. rewrite splice_length in Hi by lia. unfold overlay. rewrite map_nth, seq_nth by lia. rewrite Nat.add_0_l.
    rewrite nth_splice by lia. unfold byte_at. destruct ((p <=? i) && (i <? p + length d))%nat; [reflexivity|]. apply nth_pad.
Qed.
Lemma overlay_in l p d : (p + length d <= length l)%nat -> splice l p d = overlay l p d.
Proof. intros H. rewrite <- overlay_splice. replace (p + length d - length l)%nat with 0%nat by lia. simpl. now rewrite app_nil_r. Qed.

Lemma put_ok buf : forall data p, (p + length buf <= length data)%nat -> ms_put data (Z.of_nat p) buf = Ok (splice data p buf, Z.of_nat (p + length buf)).
Proof.
  induction buf as [|b r IH]; intros data p H; simpl ms_put; cbn [length] in *.
  - rewrite splice_nil. do 2 f_equal. lia.
  - unfold wrn. change (zlen [b]) with 1. unfold zlen. destruct (Z.ltb_spec (Z.of_nat p) 0); [lia|].
    destruct (Z.ltb_spec (Z.of_nat (length data)) (Z.of_nat p + 1)); [lia|]. cbn [rbind orb]. rewrite Nat2Z.id.
    replace (Z.of_nat p + 1) with (Z.of_nat (S p)) by lia. rewrite IH by (rewrite splice_length; cbn [length]; lia).
    change (splice data p (b :: r)) with (splice data p ([b] ++ r)). rewrite splice_app by (cbn [length]; lia). cbn [length]. rewrite Nat.add_1_r. do 2 f_equal. lia.
Qed.
Lemma u64_small x : 0 <= x < 2^64 -> u64 x = x.
Proof. intros H. unfold u64. apply Z.mod_small. exact H. Qed.
Lemma i64_small x : -2^63 <= x < 2^63 -> i64 x = x.
Proof. intros H. unfold i64. rewrite Z.mod_small by lia. lia. Qed.
Lemma fits_true x : -2^63 <= x < 2^63 -> i64_fits x = true.
Proof. intros H. unfold i64_fits. apply andb_true_iff. split; [apply Z.leb_le|apply Z.ltb_lt]; lia. Qed.

Lemma write_ok l p d : zlen l < 2^62 -> Z.of_nat p < 2^62 -> zlen d < 2^62 ->
  ms_write (MS l (Z.of_nat p)) d = Ok (MS (overlay l p d) (Z.of_nat (p + length d)), zlen d).
Proof.
  intros Hl Hp Hd. unfold ms_write. cbn [ms_pos ms_data]. unfold zlen in *. rewrite fits_true by lia. cbn [negb].
  rewrite u64_small by lia. unfold ms_ensure, zlen. rewrite <- overlay_splice.
  destruct (Z.ltb_spec (Z.of_nat (length l)) (Z.of_nat p + Z.of_nat (length d))) as [H|H].
  - destruct (Z.ltb_spec (2^63 - 1) (Z.of_nat p + Z.of_nat (length d))); [lia|]. cbn [rbind].
    replace (Z.to_nat (Z.of_nat p + Z.of_nat (length d) - Z.of_nat (length l))) with (p + length d - length l)%nat by lia.
    rewrite put_ok by (rewrite app_length, repeat_length; lia). reflexivity.
  - cbn [rbind]. replace (p + length d - length l)%nat with 0%nat by lia. simpl repeat. rewrite app_nil_r. rewrite put_ok by lia. reflexivity.
Qed.

(** ** Reading *)
Lemma sub_min {A} (l : list A) p n : (length l <= p + n)%nat -> sub l p (length l - p) = firstn n (skipn p l).
Proof. intros H. unfold sub. rewrite !firstn_all2; auto; rewrite skipn_length; lia. Qed.
Lemma read_ok l p cap n : zlen l < 2^62 -> Z.of_nat p < 2^62 -> Z.of_nat n < 2^62 -> (n <= cap)%nat ->
  ms_read (MS l (Z.of_nat p)) (Z.of_nat cap) (Z.of_nat n) = Ok (MS l (Z.of_nat (p + length (firstn n (skipn p l)))), firstn n (skipn p l)).
Proof.
  intros Hl Hp Hn Hc. unfold ms_read. cbn [ms_pos ms_data]. unfold zlen in *. rewrite fits_true by lia. cbn [negb]. rewrite u64_small by lia.
  assert (HF : length (firstn n (skipn p l)) = Nat.min n (length l - p)) by now rewrite firstn_length, skipn_length.
  destruct (Z.leb_spec (Z.of_nat (length l)) (Z.of_nat p + Z.of_nat n)) as [H|H].
  - rewrite i64_small by lia. destruct (Z.ltb_spec 0 (Z.of_nat (length l) - Z.of_nat p)) as [K|K].
    + destruct (Z.ltb_spec (Z.of_nat cap) (Z.of_nat (length l) - Z.of_nat p)); [lia|].
      rewrite rdn_ok by (unfold zlen; lia). cbn [rbind]. replace (Z.to_nat (Z.of_nat (length l) - Z.of_nat p)) with (length l - p)%nat by lia.
      rewrite Nat2Z.id, (sub_min l p n) by lia. do 3 f_equal. rewrite HF. lia.
    + assert (E : firstn n (skipn p l) = []) by (apply length_zero_iff_nil; lia). rewrite E. cbn [length]. rewrite Nat.add_0_r. reflexivity.
  - destruct (Z.ltb_spec 0 (Z.of_nat n)) as [K|K].
    + destruct (Z.ltb_spec (Z.of_nat cap) (Z.of_nat n)); [lia|].
      rewrite rdn_ok by (unfold zlen; lia). cbn [rbind]. rewrite !Nat2Z.id. unfold sub. do 3 f_equal. rewrite HF. lia.
    + assert (E : firstn n (skipn p l) = []) by (apply length_zero_iff_nil; lia). rewrite E. cbn [length]. rewrite Nat.add_0_r. reflexivity.
Qed.

(** ** Histories on a stream in memory *)
Definition of_ideal (s : list Z * nat) : mstream := MS (fst s) (Z.of_nat (snd s)).
Lemma mexec_ok l p x : zlen l < 2^62 -> Z.of_nat p < 2^62 -> op_fits x ->
  match x with SSeek o Beg => 0 <= o | SSeek o End_ => 0 <= o <= zlen l | _ => True end ->
  mexec (of_ideal (l, p)) x = Ok (of_ideal (fst (ideal (l, p) x)), snd (ideal (l, p) x)).
Proof.
  intros Hl Hp HF HS. unfold of_ideal at 1. cbn [fst snd]. destruct x as [d|n|o w|n|q]; cbn [mexec op_fits ideal] in *.
  - rewrite write_ok by lia. reflexivity.
  - rewrite read_ok by lia. reflexivity.
  - unfold ms_seek. cbn [ms_data ms_pos]. unfold zlen in *. destruct w; cbn [target]; unfold inside.
    + destruct (Z.ltb_spec (Z.of_nat (length l)) o); cbn [rbind snd fst].
      * destruct (Z.leb_spec 0 o); [|lia]. destruct (Z.leb_spec o (Z.of_nat (length l))); [lia|]. reflexivity.
      * destruct (Z.leb_spec 0 o); [|lia]. destruct (Z.leb_spec o (Z.of_nat (length l))); [|lia]. cbn [andb fst snd]. unfold of_ideal. cbn [fst snd]. rewrite Z2Nat.id by lia. reflexivity.
    + rewrite fits_true by lia. cbn [negb]. destruct (Z.ltb_spec (Z.of_nat p + o) 0); destruct (Z.ltb_spec (Z.of_nat (length l)) (Z.of_nat p + o));
      destruct (Z.leb_spec 0 (Z.of_nat p + o)); destruct (Z.leb_spec (Z.of_nat p + o) (Z.of_nat (length l))); try lia; cbn [orb andb rbind fst snd]; try reflexivity.
      unfold of_ideal. cbn [fst snd]. rewrite Z2Nat.id by lia. reflexivity.
    + rewrite fits_true by lia. cbn [negb]. destruct (Z.ltb_spec (Z.of_nat (length l)) o); [lia|].
      destruct (Z.leb_spec 0 (Z.of_nat (length l) - o)); [|lia]. destruct (Z.leb_spec (Z.of_nat (length l) - o) (Z.of_nat (length l))); [|lia].
      cbn [andb rbind fst snd]. unfold of_ideal. cbn [fst snd]. rewrite Z2Nat.id by lia. reflexivity.
  - unfold ms_set_size. cbn [ms_data ms_pos]. destruct (Z.ltb_spec (Z.of_nat n) 0); [lia|]. destruct (Z.ltb_spec (2^63-1) (Z.of_nat n)); [lia|].
    cbn [orb rbind fst snd]. unfold of_ideal, zlen. cbn [fst snd]. rewrite Nat2Z.id.
    replace (Z.to_nat (Z.of_nat n - Z.of_nat (length l))) with (n - length l)%nat by lia. do 3 f_equal.
    destruct (Z.ltb_spec (Z.of_nat n) (Z.of_nat p)); f_equal; lia.
  - reflexivity.
Qed.
Lemma mexecs_ok xs : forall s, run_fits s xs -> seeks_ok s xs -> mexecs (of_ideal s) xs = Ok (of_ideal (fst (ideals s xs)), snd (ideals s xs)).
Proof.
  induction xs as [|x r IH]; intros [l p] (H1 & H2 & H3) H4; [reflexivity|].
  destruct H3 as [H3 H5]. destruct H4 as [H4 H6]. cbn [mexecs]. cbn [fst snd] in *.
  rewrite mexec_ok by auto. cbn [rbind fst snd]. rewrite IH by auto. cbn [rbind fst snd ideals].
  destruct (ideal (l, p) x) as [s1 o]. cbn [fst snd]. destruct (ideals s1 r) as [s2 os]. reflexivity.
Qed.

(** ** Seeks that are not rejected as they should be *)
Lemma seek_negative l p o n : o < 0 -> -2^61 < o -> zlen l < 2^62 -> 0 <= n < 2^61 ->
  ms_seek (MS l p) o Beg = Ok (MS l o, Ok o) /\ ms_read (MS l o) n n = UB.
Proof.
  intros H1 H2 Hl Hn. pose proof (zlen_nonneg l) as Hz. split.
  - unfold ms_seek. cbn [ms_data ms_pos]. destruct (Z.ltb_spec (zlen l) o); [lia|]. reflexivity.
  - unfold ms_read. cbn [ms_data ms_pos]. rewrite fits_true by lia. cbn [negb].
    assert (HR : forall k, rdn l o k = UB) by (intros k; unfold rdn; destruct (Z.ltb_spec o 0); [reflexivity|lia]).
    destruct (Z.ltb_spec (o + n) 0) as [H|H].
    + assert (E : u64 (o + n) = o + n + 2^64) by (unfold u64; symmetry; apply (Z.mod_unique _ _ (-1)); lia).
      rewrite E. destruct (Z.leb_spec (zlen l) (o + n + 2^64)); [|lia]. rewrite i64_small by lia.
      destruct (Z.ltb_spec 0 (zlen l - o)); [|lia]. destruct (Z.ltb_spec n (zlen l - o)); [reflexivity|]. rewrite HR. reflexivity.
    + rewrite u64_small by lia. destruct (Z.leb_spec (zlen l) (o + n)).
      * rewrite i64_small by lia. destruct (Z.ltb_spec 0 (zlen l - o)); [|lia]. destruct (Z.ltb_spec n (zlen l - o)); [reflexivity|]. rewrite HR. reflexivity.
      * destruct (Z.ltb_spec 0 n); [|lia]. destruct (Z.ltb_spec n n); [reflexivity|]. rewrite HR. reflexivity.
Qed.
Lemma seek_end_moves l p o : zlen l < o < 2^61 -> ms_seek (MS l p) o End_ = Ok (MS l (zlen l - o), Throw) /\ zlen l - o < 0.
Proof.
  intros H. pose proof (zlen_nonneg l). unfold ms_seek. cbn [ms_data ms_pos]. rewrite fits_true by lia. cbn [negb].
  destruct (Z.ltb_spec (zlen l) o); [|lia]. split; [reflexivity|lia].
Qed.
Lemma seek_end_beyond l p o : -2^61 < o < 0 -> zlen l < 2^62 -> ms_seek (MS l p) o End_ = Ok (MS l (zlen l - o), Ok (zlen l - o)) /\ zlen l < zlen l - o.
Proof.
  intros H Hl. pose proof (zlen_nonneg l). unfold ms_seek. cbn [ms_data ms_pos]. rewrite fits_true by lia. cbn [negb].
  destruct (Z.ltb_spec (zlen l) o); [lia|]. split; [reflexivity|lia].
Qed.

(** ** Copying *)
Lemma read_vec_ok l p n : zlen l < 2^62 -> Z.of_nat p < 2^62 -> Z.of_nat n < 2^62 -> (0 < n)%nat ->
  ms_read_vec (MS l (Z.of_nat p)) (Z.of_nat n) =
  let d := firstn n (skipn p l) in Ok (MS l (Z.of_nat (p + length d)), d ++ repeat 0 (n - length d), zlen d).
Proof.
  intros. unfold ms_read_vec. destruct (Z.leb_spec (Z.of_nat n) 0); [lia|]. rewrite read_ok by lia. cbn [rbind fst snd]. unfold zlen.
  replace (Z.to_nat (Z.of_nat n - Z.of_nat (length (firstn n (skipn p l))))) with (n - length (firstn n (skipn p l)))%nat by lia. reflexivity.
Qed.
Lemma write_vec_front s d r : d <> [] -> ms_write_vec s (d ++ r) (zlen d) = ms_write s d.
Proof.
  intros H. unfold ms_write_vec, zlen. destruct (Z.eqb_spec (Z.of_nat (length d)) 0) as [E|E]; [destruct d; [congruence|cbn [length] in E; lia]|].
  rewrite rdn_ok by (unfold zlen; rewrite ?app_length; lia). cbn [rbind]. rewrite Nat2Z.id. unfold sub. simpl skipn. rewrite firstn_app, firstn_all, Nat.sub_diag.
  simpl firstn. now rewrite app_nil_r.
Qed.
Lemma copy_some_ok dl dp sl sp n : zlen dl < 2^62 -> Z.of_nat dp < 2^62 -> zlen sl < 2^62 -> Z.of_nat sp < 2^62 -> Z.of_nat n < 2^62 -> (0 < n)%nat -> (sp < length sl)%nat ->
  copy_some (of_ideal (dl, dp)) (of_ideal (sl, sp)) (Z.of_nat n) =
  let d := firstn n (skipn sp sl) in Ok (of_ideal (overlay dl dp d, dp + length d), of_ideal (sl, sp + length d), zlen d)%nat.
Proof.
  intros Hd Hdp Hs Hsp Hn Hn0 Hex. unfold copy_some, of_ideal. cbn [fst snd]. rewrite read_vec_ok by auto. cbn [rbind].
  assert (HF : length (firstn n (skipn sp sl)) = Nat.min n (length sl - sp)) by now rewrite firstn_length, skipn_length.
  rewrite write_vec_front by (intros E; rewrite E in HF; cbn [length] in HF; lia).
  rewrite write_ok by (unfold zlen in *; lia). reflexivity.
Qed.
Lemma copy_n_ok dl dp sl sp n : zlen dl < 2^62 -> Z.of_nat dp < 2^62 -> zlen sl < 2^62 -> Z.of_nat sp < 2^62 -> Z.of_nat n < 2^62 -> (0 < n)%nat -> (sp < length sl)%nat ->
  copy_from (of_ideal (dl, dp)) (of_ideal (sl, sp)) (Z.of_nat n) =
  let d := firstn n (skipn sp sl) in Ok (of_ideal (overlay dl dp d, dp + length d), of_ideal (sl, sp + length d), zlen d)%nat.
Proof. intros. unfold copy_from. destruct (Z.eqb_spec (Z.of_nat n) 0); [lia|]. now apply copy_some_ok. Qed.
Lemma copy_all_ok dl dp sl sp : zlen dl < 2^62 -> Z.of_nat dp < 2^62 -> zlen sl < 2^62 -> (sl = [] -> (dp <= length dl)%nat) ->
  copy_from (of_ideal (dl, dp)) (of_ideal (sl, sp)) 0 = Ok (of_ideal (overlay dl dp sl, dp + length sl), of_ideal (sl, length sl), zlen sl)%nat.
Proof.
  intros Hd Hdp Hs He. unfold copy_from. cbn [Z.eqb]. unfold ms_seek. cbn [of_ideal ms_data fst snd]. pose proof (zlen_nonneg sl) as Hz.
  destruct (Z.ltb_spec (zlen sl) 0); [lia|]. cbn [rbind fst ms_data]. destruct (Z.eqb_spec (zlen sl) 0) as [E|E].
  - assert (sl = []) by (apply length_zero_iff_nil; unfold zlen in E; lia). subst sl. rewrite <- overlay_in by (cbn [length]; specialize (He eq_refl); lia).
    rewrite splice_nil. cbn [length]. rewrite Nat.add_0_r. reflexivity.
  - change (MS sl 0) with (of_ideal (sl, 0%nat)). unfold zlen in *. rewrite (copy_some_ok dl dp sl 0 (length sl)) by (unfold zlen; lia). cbv zeta. simpl skipn. rewrite firstn_all. reflexivity.
Qed.
Lemma copy_at_end dl dp sl sp n : zlen dl < 2^62 -> Z.of_nat dp < 2^62 -> zlen sl < 2^62 -> Z.of_nat sp < 2^62 -> Z.of_nat n < 2^62 -> (0 < n)%nat -> (length sl <= sp)%nat ->
  copy_from (of_ideal (dl, dp)) (of_ideal (sl, sp)) (Z.of_nat n) =
  Ok (of_ideal (overlay dl dp (repeat 0%Z n), dp + n), of_ideal (sl, sp), Z.of_nat n)%nat.
Proof.
  intros Hd Hdp Hs Hsp Hn Hn0 Hex. unfold copy_from. destruct (Z.eqb_spec (Z.of_nat n) 0); [lia|].
  unfold copy_some, of_ideal. cbn [fst snd]. rewrite read_vec_ok by auto. cbn [rbind].
  assert (E : firstn n (skipn sp sl) = []) by (apply length_zero_iff_nil; rewrite firstn_length, skipn_length; lia). rewrite E. cbn [app length].
  rewrite Nat.add_0_r, Nat.sub_0_r. unfold ms_write_vec. rewrite zlen_nil. cbn [Z.eqb].
  assert (EL : zlen (repeat 0 n) = Z.of_nat n) by (unfold zlen; now rewrite repeat_length). rewrite EL.
  destruct (Z.eqb_spec (Z.of_nat n) 0); [lia|]. rewrite write_ok by lia. cbn [rbind fst snd]. rewrite EL, repeat_length. reflexivity.
Qed.

(** ** Streams over files *)
Definition of_file (s : list Z * nat) (f : bool) : fstream := FS (fst s) (Z.of_nat (snd s)) (zlen (fst s)) f.
Lemma fs_write_ok l p d : (p <= length l)%nat -> fs_write (of_file (l, p) false) d = (of_file (overlay l p d, p + length d)%nat false, zlen d).
Proof.
  intros H. unfold fs_write, of_file. cbn [fs_fail fs_pos fs_data fs_size fst snd]. destruct (Z.ltb_spec (Z.of_nat p) 0); [lia|]. cbn [orb]. rewrite Nat2Z.id.
  assert (E : match d with [] => l | _ :: _ => splice (l ++ repeat 0 (p + length d - length l)) p d end = overlay l p d).
  { destruct d as [|a d]; [|apply overlay_splice]. rewrite <- overlay_in by (cbn [length]; lia). now rewrite splice_nil. }
  rewrite E. unfold zlen. rewrite overlay_len. do 2 f_equal; lia.
Qed.
Lemma fs_read_ok l p f n : (p <= length l)%nat ->
  fs_read (of_file (l, p) f) (Z.of_nat n) = (of_file (l, p + length (firstn n (skipn p l)))%nat (length (skipn p l) <? n)%nat, firstn n (skipn p l)).
Proof.
  intros Hp. unfold fs_read, of_file. cbn [fs_fail fs_pos fs_data fs_size fst snd]. destruct (Z.ltb_spec (Z.of_nat p) 0); [lia|]. rewrite !Nat2Z.id.
  assert (HL : length (firstn n (skipn p l)) = Nat.min n (length l - p)) by now rewrite firstn_length, skipn_length.
  unfold zlen. do 2 f_equal; [lia|]. rewrite skipn_length. destruct (Nat.ltb_spec (length l - p) n); destruct (Z.ltb_spec (Z.of_nat (length (firstn n (skipn p l)))) (Z.of_nat n)); lia || reflexivity.
Qed.
Lemma fexec_ok l p short x : (p <= length l)%nat -> file_ok short (l, p) [x] -> seeks_ok (l, p) [x] ->
  fexec (of_file (l, p) short) x = (of_file (fst (ideal (l, p) x)) (match x with SRead n => (length (skipn p l) <? n)%nat | _ => short end), snd (ideal (l, p) x)) /\
  (snd (fst (ideal (l, p) x)) <= length (fst (fst (ideal (l, p) x))))%nat.
Proof.
  intros Hp HF [HS _]. destruct x as [d|n|o w|n|q]; cbn [file_ok] in HF.
  - destruct HF as [-> _]. cbn [fexec ideal fst snd]. rewrite fs_write_ok by exact Hp. split; [reflexivity|]. rewrite overlay_len. lia.
  - cbn [fexec ideal fst snd]. rewrite fs_read_ok by exact Hp. split; [reflexivity|]. rewrite firstn_length, skipn_length. lia.
  - cbn [fexec ideal fst snd] in *. unfold fs_seek, inside, of_file. cbn [fs_fail fs_pos fs_data fs_size fst snd]. unfold zlen in *. destruct w; cbn [target].
    + destruct (Z.ltb_spec (Z.of_nat (length l)) o); destruct (Z.leb_spec 0 o); destruct (Z.leb_spec o (Z.of_nat (length l))); try lia; cbn [andb fst snd];
      (split; [|lia]); [reflexivity|]. now rewrite Z2Nat.id by lia.
    + destruct (Z.ltb_spec (Z.of_nat p + o) 0); destruct (Z.ltb_spec (Z.of_nat (length l)) (Z.of_nat p + o));
      destruct (Z.leb_spec 0 (Z.of_nat p + o)); destruct (Z.leb_spec (Z.of_nat p + o) (Z.of_nat (length l))); try lia; cbn [orb andb fst snd]; (split; [|lia]); try reflexivity.
      now rewrite Z2Nat.id by lia.
    + destruct (Z.ltb_spec (Z.of_nat (length l)) o); [lia|]. destruct (Z.leb_spec 0 (Z.of_nat (length l) - o)); [|lia]. destruct (Z.leb_spec (Z.of_nat (length l) - o) (Z.of_nat (length l))); [|lia].
      cbn [andb fst snd]. split; [|lia]. now rewrite Z2Nat.id by lia.
  - contradiction.
  - split; [reflexivity|]. cbn [ideal fst snd]. apply HF.
Qed.
Lemma fexecs_ok xs : forall l p short, (p <= length l)%nat -> file_ok short (l, p) xs -> seeks_ok (l, p) xs ->
  exists short', fexecs (of_file (l, p) short) xs = (of_file (fst (ideals (l, p) xs)) short', snd (ideals (l, p) xs)).
Proof.
  induction xs as [|x r IH]; intros l p short Hp HF HSS.
  - exists short. reflexivity.
  - destruct HSS as [HS HS2]. cbn [fexecs].
    assert (H1 : file_ok short (l, p) [x]) by (destruct x; cbn [file_ok] in *; tauto).
    destruct (fexec_ok l p short x Hp H1 (conj HS I)) as [E HB]. rewrite E.
    set (sh2 := match x with SRead n => (length (skipn p l) <? n)%nat | _ => short end).
    assert (H2 : file_ok sh2 (fst (ideal (l, p) x)) r).
    { unfold sh2. destruct x; cbn [file_ok fst snd] in HF; try tauto. destruct HF as [-> HF]. exact HF. }
    cbn [ideals]. destruct (ideal (l, p) x) as [[l2 p2] o]. cbn [fst snd] in *.
    destruct (IH l2 p2 sh2 HB H2 HS2) as [s' E2]. rewrite E2. exists s'. destruct (ideals (l2, p2) r). reflexivity.
Qed.
(** after a read that meets the end, what is written is lost though the call reports success *)
Lemma write_lost l p n d : (p <= length l)%nat -> (length l - p < n)%nat ->
  let s1 := fst (fs_read (of_file (l, p) false) (Z.of_nat n)) in
  fs_data (fst (fs_write s1 d)) = l /\ snd (fs_write s1 d) = zlen d /\ fs_size (fst (fs_write s1 d)) = zlen l + zlen d.
Proof.
  intros Hp Hn. unfold fs_read, of_file. cbn [fs_fail fs_pos fs_data fs_size fst snd]. destruct (Z.ltb_spec (Z.of_nat p) 0); [lia|]. cbn [fst]. rewrite !Nat2Z.id.
  set (dd := firstn n (skipn p l)). assert (HL : length dd = (length l - p)%nat) by (unfold dd; rewrite firstn_length, skipn_length; lia).
  unfold fs_write. cbn [fs_fail fs_pos fs_data fs_size fst snd]. unfold zlen. destruct (Z.ltb_spec (Z.of_nat (length dd)) (Z.of_nat n)); [|lia]. cbn [orb].
  repeat split. lia.
Qed.

(** ** Compressing *)
Lemma CHUNK_pos : 0 < CHUNK. Proof. reflexivity. Qed.
Definition cn : nat := Z.to_nat CHUNK.
Lemma cn_pos : (0 < cn)%nat. Proof. unfold cn. pose proof CHUNK_pos. lia. Qed.
Lemma cn_Z : Z.of_nat cn = CHUNK. Proof. unfold cn. rewrite Z2Nat.id by (pose proof CHUNK_pos; lia). reflexivity. Qed.
Opaque cn CHUNK.
Lemma drain_ok fuel : forall o, (length o < fuel)%nat -> drain fuel o = o.
Proof.
  pose proof cn_pos. induction fuel as [|k IH]; intros o Ho; [lia|]. cbn [drain]. change (Z.to_nat CHUNK) with cn.
  destruct (Z.eqb_spec (zlen (firstn cn o)) CHUNK) as [E|E].
  - unfold zlen in E. rewrite firstn_length in E. pose proof cn_Z. rewrite IH by (rewrite skipn_length; lia). apply firstn_skipn.
  - unfold zlen in E. rewrite firstn_length in E. pose proof cn_Z. rewrite app_nil_r. apply firstn_all2. lia.
Qed.
Lemma drained_ok o : drained o = o. Proof. apply drain_ok. lia. Qed.

Lemma deflate_true c fuel : forall st src z, deflate_loop c fuel st src = (z, true) -> exists bufs last, z = def_run c st bufs last /\ concat bufs ++ last = src.
Proof.
  induction fuel as [|k IH]; intros st src z; cbn [deflate_loop]; [discriminate|]. change (Z.to_nat CHUNK) with cn.
  destruct (Z.eqb_spec (zlen (firstn cn src)) 0); [discriminate|]. unfold zlen. rewrite firstn_length.
  destruct (d_step c st (firstn cn src) _) as [st' o] eqn:ED. rewrite drained_ok. pose proof cn_Z.
  destruct (Z.ltb_spec (Z.of_nat (Nat.min cn (length src))) CHUNK) as [E|E].
  - intros [= <-]. exists [], src. cbn [def_run]. rewrite firstn_all2 in ED by lia. rewrite ED. split; reflexivity.
  - destruct (deflate_loop c k st' (skipn cn src)) as [r ok] eqn:EL. intros [= <- ->]. destruct (IH _ _ _ EL) as (bufs & last & -> & E2).
    exists (firstn cn src :: bufs), last. cbn [def_run]. rewrite ED. split; [reflexivity|]. cbn [concat]. rewrite <- app_assoc, E2. apply firstn_skipn.
Qed.
Lemma deflate_result c fuel : forall st src, (length src < fuel)%nat -> snd (deflate_loop c fuel st src) = negb (zlen src mod CHUNK =? 0).
Proof.
  pose proof cn_pos. pose proof cn_Z as HZ. pose proof CHUNK_pos as HP. induction fuel as [|k IH]; intros st src Hf; [lia|]. cbn [deflate_loop]. change (Z.to_nat CHUNK) with cn.
  assert (HL : zlen (firstn cn src) = Z.of_nat (Nat.min cn (length src))) by (unfold zlen; now rewrite firstn_length). rewrite !HL. destruct (Z.eqb_spec (Z.of_nat (Nat.min cn (length src))) 0) as [E|E].
  - assert (length src = 0)%nat by lia. cbn [snd]. unfold zlen. rewrite H0. rewrite Z.mod_0_l by lia. reflexivity.
  - destruct (d_step c st (firstn cn src) _) as [st' o].
    destruct (Z.ltb_spec (Z.of_nat (Nat.min cn (length src))) CHUNK) as [K|K].
    + cbn [snd]. unfold zlen. rewrite Z.mod_small by lia. destruct (Z.eqb_spec (Z.of_nat (length src)) 0); [lia|reflexivity].
    + specialize (IH st' (skipn cn src) ltac:(rewrite skipn_length; lia)). destruct (deflate_loop c k st' (skipn cn src)) as [r ok]. cbn [snd] in *. rewrite IH.
      unfold zlen. rewrite skipn_length. replace (Z.of_nat (length src)) with (Z.of_nat (length src - cn) + 1 * CHUNK) by lia. rewrite Z.mod_add by lia. reflexivity.
Qed.
Fixpoint chop (fuel : nat) (l : list Z) : list (list Z) :=
  match fuel with O => [] | S k => match l with [] => [] | _ => firstn cn l :: chop k (skipn cn l) end end.
Lemma chop_ok fuel : forall l, (length l < fuel)%nat -> concat (chop fuel l) = l /\ Forall (fun p => p <> []) (chop fuel l).
Proof.
  pose proof cn_pos. induction fuel as [|k IH]; intros l Hl; [lia|]. cbn [chop]. destruct l as [|a l]; [split; [reflexivity|constructor]|].
  destruct (IH (skipn cn (a :: l))) as [E1 E2]. { rewrite skipn_length. cbn [length] in *. lia. }
  split; [cbn [concat]; rewrite E1; apply firstn_skipn|]. constructor; [|exact E2]. intros E. apply (f_equal (@length Z)) in E. rewrite firstn_length in E. cbn [length] in E. lia.
Qed.
Lemma inflate_chop c fuel : forall st z x, (length z < fuel)%nat -> inf_run c st (chop fuel z) = Some x -> inflate_loop c fuel st z = (x, false).
Proof.
  pose proof cn_pos. induction fuel as [|k IH]; intros st z x Hz; [lia|]. cbn [chop inflate_loop]. change (Z.to_nat CHUNK) with cn. destruct z as [|a z]; [discriminate|].
  set (w := a :: z) in *. assert (HW : (0 < length w)%nat) by (unfold w; cbn [length]; lia). clearbody w.
  destruct (Z.eqb_spec (zlen (firstn cn w)) 0) as [E|E]. { unfold zlen in E. rewrite firstn_length in E. lia. }
  cbn [inf_run]. destruct (i_step c st (firstn cn w)) as [[st' o] ret]. rewrite drained_ok. destruct ret.
  - destruct (chop k (skipn cn w)) as [|q qs] eqn:EC; [discriminate|]. rewrite <- EC. destruct (inf_run c st' (chop k (skipn cn w))) as [y|] eqn:ER; [|discriminate].
    intros [= <-]. rewrite (IH st' (skipn cn w) y); [reflexivity| |exact ER]. rewrite skipn_length. lia.
  - destruct (chop k (skipn cn w)); [intros [= <-]; reflexivity|discriminate].
  - destruct (chop k (skipn cn w)); discriminate.
Qed.
Lemma round_trip c src z : lossless c -> deflate_stream c src = (z, true) -> inflate_stream c z = (src, false) /\ inflate_or_copy c z = src.
Proof.
  intros HL HD. destruct (deflate_true _ _ _ _ _ HD) as (bufs & last & Ez & Es). destruct (chop_ok (S (length z)) z ltac:(lia)) as [E1 E2].
  assert (E : inflate_stream c z = (src, false)).
  { apply inflate_chop; [lia|]. rewrite <- Es. apply HL; [exact E2|]. now rewrite E1. }
  split; [exact E|]. unfold inflate_or_copy. now rewrite E.
Qed.
Lemma deflate_fails c src : snd (deflate_stream c src) = negb (zlen src mod CHUNK =? 0).
Proof. apply deflate_result. lia. Qed.

(** A codec that meets [lossless]: each buffer is passed on with a mark 0 before every byte, the end is
    marked with 1. *)
Definition toy_out (l : list Z) : list Z := flat_map (fun b => [0; b]) l.
(** state of the reader: None = expects a mark, Some tt = expects a byte *)
Fixpoint toy_in (st : bool) (l : list Z) : bool * list Z * status :=
  match l with
  | [] => (st, [], More)
  | x :: r => if st then let '(s, o, e) := toy_in false r in (s, x :: o, e)
              else if x =? 0 then toy_in true r
              else if x =? 1 then (false, [], Done) else (false, [], Bad)
  end.
Definition toy : codec := Codec unit tt (fun s b f => (s, toy_out b ++ if f then [1] else [])) bool false toy_in.

Lemma toy_def bufs last : forall st, def_run toy st bufs last = toy_out (concat bufs ++ last) ++ [1].
Proof.
  induction bufs as [|b r IH]; intros st; simpl; [reflexivity|]. change (d_step toy) with (fun (s : unit) (b : list Z) (f : bool) => (s, toy_out b ++ if f then [1] else [])) in IH.
  rewrite IH, app_nil_r. unfold toy_out. rewrite <- (app_assoc b), (flat_map_app _ b), <- app_assoc. reflexivity.
Qed.
(** what is left to read in state [st] *)
Definition toy_rest (st : bool) (l : list Z) : list Z :=
  if st then match l with [] => [] | b :: r => b :: toy_out r ++ [1] end else toy_out l ++ [1].
Lemma toy_split p : forall st q l, (st = true -> l <> []) -> q <> [] -> p ++ q = toy_rest st l ->
  exists o l2 st2, toy_in st p = (st2, o, More) /\ l = o ++ l2 /\ q = toy_rest st2 l2 /\ (st2 = true -> l2 <> []).
Proof.
  induction p as [|x p IH]; intros st q l Hst Hq E.
  - exists [], l, st. repeat split; auto.
  - cbn [toy_in]. destruct st.
    + destruct l as [|b l]; [exfalso; now apply Hst|]. cbn [toy_rest app] in E. injection E as -> E.
      destruct (IH false q l ltac:(discriminate) Hq E) as (o & l2 & st2 & H1 & H2 & H3 & H4). rewrite H1. exists (b :: o), l2, st2. rewrite H2. repeat split; auto.
    + destruct l as [|b l].
      * cbn in E. injection E as -> E. destruct p; [|discriminate]. cbn in E. congruence.
      * cbn in E. injection E as -> E. cbn [Z.eqb]. apply (IH true q (b :: l)); auto. discriminate.
Qed.
Lemma toy_last p : forall st l, (st = true -> l <> []) -> p = toy_rest st l -> exists st2, toy_in st p = (st2, l, Done).
Proof.
  induction p as [|x p IH]; intros st l Hst E.
  - exfalso. destruct st; [destruct l; [now apply Hst|discriminate]|]. destruct l; discriminate.
  - cbn [toy_in]. destruct st.
    + destruct l as [|b l]; [exfalso; now apply Hst|]. cbn [toy_rest] in E. injection E as -> E. destruct (IH false l ltac:(discriminate) E) as [s H]. rewrite H. now exists s.
    + destruct l as [|b l]; cbn in E.
      * injection E as -> E. cbn. now exists false.
      * injection E as -> E. cbn [Z.eqb]. apply IH; [discriminate|exact E].
Qed.
Lemma toy_inf pieces : forall st l, (st = true -> l <> []) -> Forall (fun p => p <> []) pieces -> concat pieces = toy_rest st l -> inf_run toy st pieces = Some l.
Proof.
  induction pieces as [|p r IH]; intros st l Hst HF E.
  - exfalso. cbn in E. destruct st; [destruct l; [now apply Hst|discriminate]|]. destruct l; discriminate.
  - inversion HF as [|? ? Hp Hr]; subst. cbn [concat] in E. cbn [inf_run]. change (i_step toy) with toy_in. destruct r as [|p2 r].
    + cbn [concat] in E. rewrite app_nil_r in E. destruct (toy_last _ _ _ Hst E) as [s H]. rewrite H. reflexivity.
    + assert (Hq : concat (p2 :: r) <> []). { inversion Hr; subst. cbn [concat]. destruct p2; [contradiction|discriminate]. }
      destruct (toy_split _ _ _ _ Hst Hq E) as (o & l2 & st2 & H1 & H2 & H3 & H4). rewrite H1. rewrite (IH st2 l2) by auto. now rewrite H2.
Qed.
Lemma toy_lossless : lossless toy.
Proof.
  intros bufs last pieces HF E. apply (toy_inf pieces false); auto; [discriminate|]. rewrite E. apply toy_def.
Qed.

(** truncated input *)
Lemma inflate_empty c : inflate_stream c [] = ([], false).
Proof. reflexivity. Qed.
Lemma inflate_more c st z st' o : (0 < length z <= cn)%nat -> i_step c st z = (st', o, More) -> inflate_loop c (S (length z)) st z = (o, false).
Proof.
  intros Hz E. cbn [inflate_loop]. change (Z.to_nat CHUNK) with cn. rewrite firstn_all2, skipn_all2 by lia. unfold zlen at 1.
  destruct (Z.eqb_spec (Z.of_nat (length z)) 0); [lia|]. rewrite E, drained_ok. destruct (length z); [lia|]. cbn [inflate_loop]. change (Z.to_nat CHUNK) with cn. rewrite firstn_nil. cbn. now rewrite app_nil_r.
Qed.
(** every codec that can say More for an unfinished input is silent about it *)
Lemma truncated_silent c z st' o : (0 < length z <= cn)%nat -> i_step c (i_init c) z = (st', o, More) -> inflate_stream c z = (o, false).
Proof. intros Hz E. unfold inflate_stream. now apply (inflate_more c (i_init c) z st' o). Qed.
Lemma partial_then_copy c a b st' o o2 st2 : length a = cn -> b <> [] -> (length b <= cn)%nat -> i_step c (i_init c) a = (st', o, More) -> i_step c st' b = (st2, o2, Bad) -> zlen o2 < CHUNK ->
  inflate_or_copy c (a ++ b) = o ++ a ++ b.
Proof.
  intros Ha Hb Hb2 E1 E2 E3. pose proof cn_pos. unfold inflate_or_copy, inflate_stream. cbn [inflate_loop]. change (Z.to_nat CHUNK) with cn.
  rewrite firstn_app, firstn_all2, Ha, Nat.sub_diag by lia. cbn [firstn]. rewrite app_nil_r. rewrite skipn_app, skipn_all2, Ha, Nat.sub_diag by lia. cbn [skipn app].
  unfold zlen at 1. rewrite Ha. destruct (Z.eqb_spec (Z.of_nat cn) 0); [lia|]. rewrite E1, drained_ok.
  rewrite app_length, Ha. destruct cn as [|cn'] eqn:EC; [lia|]. cbn [Nat.add inflate_loop]. change (Z.to_nat CHUNK) with cn. rewrite EC. rewrite (firstn_all2 b) by lia.
  unfold zlen at 1. destruct (Z.eqb_spec (Z.of_nat (length b)) 0) as [E|E]. { destruct b; [contradiction|cbn [length] in E; lia]. }
  rewrite E2. rewrite (Z.div_small (zlen o2)) by (pose proof (zlen_nonneg o2); lia). rewrite Z.mul_0_r. cbn [Z.to_nat firstn]. rewrite app_nil_r. reflexivity.
Qed.

(** the beginning of a compressed stream: no error, and only the beginning of the data *)
Lemma inflate_prefix c fuel : forall st a b x, (length a < fuel)%nat -> inf_run c st (chop fuel a ++ [b]) = Some x ->
  exists o o2, inflate_loop c fuel st a = (o, false) /\ x = o ++ o2.
Proof.
  pose proof cn_pos. induction fuel as [|k IH]; intros st a b x Ha; [lia|]. cbn [chop inflate_loop]. change (Z.to_nat CHUNK) with cn. destruct a as [|a0 a].
  - intros _. rewrite firstn_nil. exists [], x. split; reflexivity.
  - set (w := a0 :: a) in *. assert (HW : (0 < length w)%nat) by (unfold w; cbn [length]; lia). clearbody w.
    destruct (Z.eqb_spec (zlen (firstn cn w)) 0) as [E|E]. { unfold zlen in E. rewrite firstn_length in E. lia. }
    cbn [inf_run app]. destruct (i_step c st (firstn cn w)) as [[st' o] ret]. rewrite drained_ok. destruct ret.
    + destruct (chop k (skipn cn w) ++ [b]) as [|q qs] eqn:EC; [discriminate|]. rewrite <- EC.
      destruct (inf_run c st' (chop k (skipn cn w) ++ [b])) as [y|] eqn:ER; [|discriminate]. intros [= <-].
      destruct (IH st' (skipn cn w) b y) as (o1 & o2 & E1 & ->); [rewrite skipn_length; lia|exact ER|]. rewrite E1. exists (o ++ o1), o2. split; [reflexivity|]. now rewrite app_assoc.
    + destruct (chop k (skipn cn w) ++ [b]) eqn:EC; [destruct (chop k (skipn cn w)); discriminate|discriminate].
    + destruct (chop k (skipn cn w) ++ [b]); discriminate.
Qed.
Lemma truncated c src a b : lossless c -> deflate_stream c src = (a ++ b, true) -> b <> [] -> exists o o2, inflate_stream c a = (o, false) /\ src = o ++ o2.
Proof.
  intros HL HD Hb. destruct (deflate_true _ _ _ _ _ HD) as (bufs & last & Ez & Es). destruct (chop_ok (S (length a)) a ltac:(lia)) as [E1 E2].
  apply (inflate_prefix c (S (length a)) (i_init c) a b src); [lia|]. rewrite <- Es. apply HL.
  - apply Forall_app. split; [exact E2|]. constructor; [exact Hb|constructor].
  - rewrite concat_app, E1. cbn [concat]. now rewrite app_nil_r.
Qed.
Lemma bad_first c z st' o : z <> [] -> i_step c (i_init c) (firstn (Z.to_nat CHUNK) z) = (st', o, Bad) -> zlen o < CHUNK -> inflate_or_copy c z = z.
Proof.
  intros Hz E Ho. pose proof cn_pos. unfold inflate_or_copy, inflate_stream. cbn [inflate_loop].
  destruct (Z.eqb_spec (zlen (firstn (Z.to_nat CHUNK) z)) 0) as [K|K].
  { unfold zlen in K. rewrite firstn_length in K. change (Z.to_nat CHUNK) with cn in K. destruct z; [contradiction|cbn [length] in K; lia]. }
  rewrite E. rewrite (Z.div_small (zlen o)) by (pose proof (zlen_nonneg o); lia). rewrite Z.mul_0_r. reflexivity.
Qed.
