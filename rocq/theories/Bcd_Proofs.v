From Verif Require Import Prelude Bcd_Model Bcd_Spec.

Definition nibbles (bs : list Z) : list Z := flat_map (fun b => [b / 16; b mod 16]) bs.

Lemma nibbles_length bs : length (nibbles bs) = (2 * length bs)%nat.
Proof.
  induction bs as [|b bs IH]; [reflexivity|].
  cbn [nibbles flat_map app length]. fold (nibbles bs). rewrite IH. lia.
Qed.

(** finite fact about joining two half bytes *)
Lemma lor_nibbles h l : 0 <= h < 16 -> 0 <= l < 16 ->
  (Z.lor ((h * 16) mod 256) l) mod 256 = 16 * h + l.
Proof.
  intros Hh Hl.
  assert (H : forallb (fun x => forallb (fun y =>
     (Z.lor ((Z.of_nat x * 16) mod 256) (Z.of_nat y)) mod 256 =? 16 * Z.of_nat x + Z.of_nat y)
     (seq 0 16)) (seq 0 16) = true) by (vm_compute; reflexivity).
  rewrite forallb_forall in H. specialize (H (Z.to_nat h)).
  rewrite in_seq in H. specialize (H ltac:(lia)).
  rewrite forallb_forall in H. specialize (H (Z.to_nat l)).
  rewrite in_seq in H. specialize (H ltac:(lia)).
  rewrite !Z2Nat.id in H by lia. lia.
Qed.

Lemma lor_sign s h : 0 <= h < 16 ->
  (Z.lor (if s =? -1 then 0 else 16) h) mod 256 = (if s =? -1 then 0 else 16) + h.
Proof.
  intros Hh. destruct (s =? -1).
  - simpl. rewrite Z.mod_small; lia.
  - assert (H : forallb (fun x => (Z.lor 16 (Z.of_nat x)) mod 256 =? 16 + Z.of_nat x) (seq 0 16) = true)
      by (vm_compute; reflexivity).
    rewrite forallb_forall in H. specialize (H (Z.to_nat h)).
    rewrite in_seq in H. specialize (H ltac:(lia)). rewrite Z2Nat.id in H by lia. lia.
Qed.

Lemma rd_at {A} (l : list A) p : 0 <= p < zlen l ->
  exists x, rd l p = Ok x /\ skipn (Z.to_nat p) l = x :: skipn (Z.to_nat (p + 1)) l.
Proof.
  intros H. unfold rd. destruct (Z.ltb_spec p 0); [lia|].
  destruct (nth_error l (Z.to_nat p)) as [x|] eqn:E.
  - exists x. split; [reflexivity|].
    replace (Z.to_nat (p + 1)) with (S (Z.to_nat p)) by lia.
    clear -E. revert E. generalize (Z.to_nat p) as n. intros n. revert l.
    induction n as [|n IH]; intros [|y l] E; simpl in *; try discriminate; [congruence|].
    now apply IH.
  - apply nth_error_None in E. unfold zlen in H. lia.
Qed.

(** What the byte loop computes. *)
Lemma raw_loop_ok fuel buf len : forall i p acc,
  0 <= p -> i <= len -> (len - i + 1) / 2 <= zlen buf - p ->
  (Z.to_nat (len - i) < fuel)%nat ->
  raw_loop fuel buf len i p acc =
  Ok (acc ++ firstn (Z.to_nat (len - i)) (nibbles (skipn (Z.to_nat p) buf))).
Proof.
  induction fuel as [|fuel IH]; intros i p acc Hp Hi Hb Hf; [lia|].
  cbn [raw_loop]. destruct (Z.ltb_spec i len) as [Hlt|Hge].
  - destruct (rd_at buf p ltac:(lia)) as [x [-> Hx]]. cbn [rbind]. rewrite Hx.
    cbn [nibbles flat_map]. fold (nibbles (skipn (Z.to_nat (p+1)) buf)).
    destruct (Z.ltb_spec (i + 1) len) as [H1|H1].
    + rewrite IH by lia. rewrite <- app_assoc.
      replace (Z.to_nat (len - i)) with (S (S (Z.to_nat (len - (i + 2))))) by lia. reflexivity.
    + rewrite IH by lia. replace (Z.to_nat (len - i)) with 1%nat by lia.
      replace (Z.to_nat (len - (i + 1))) with 0%nat by lia. simpl. now rewrite app_nil_r.
  - replace (Z.to_nat (len - i)) with 0%nat by lia. simpl. now rewrite app_nil_r.
Qed.

(** digits decoded from a field *)
Definition digits_of (flag : bool) (len : Z) (bs : list Z) : list Z :=
  if flag then firstn (Z.to_nat len) (skipn 1 (nibbles bs))
  else firstn (S (Z.to_nat len)) (nibbles bs).
Definition sign_of (flag : bool) (bs : list Z) : Z :=
  if flag then (if hd 0 bs / 16 =? 0 then -1 else 1) else 1.

Lemma nibbles_app a b : nibbles (a ++ b) = nibbles a ++ nibbles b.
Proof. unfold nibbles. apply flat_map_app. Qed.

Lemma bdn_of_raw_ok bs rest len prec flag :
  1 <= len -> zlen bs = (len + 2) / 2 ->
  bdn_of_raw (bs ++ rest) len prec flag =
  Ok (mkbdn flag prec (digits_of flag len bs) (sign_of flag bs)).
Proof.
  intros Hl Hz. destruct bs as [|b bs].
  { unfold zlen in Hz; simpl in Hz; lia. }
  unfold bdn_of_raw. change (rd ((b :: bs) ++ rest) 0) with (@Ok Z b). cbn [rbind].
  rewrite zlen_cons in Hz.
  rewrite raw_loop_ok; [| lia | lia | | lia].
  2:{ rewrite zlen_app, zlen_cons. pose proof (zlen_nonneg rest). lia. }
  cbn [rbind]. change (skipn (Z.to_nat 1) ((b :: bs) ++ rest)) with (bs ++ rest).
  assert (E : firstn (Z.to_nat (len - 1)) (nibbles (bs ++ rest)) = firstn (Z.to_nat (len - 1)) (nibbles bs)).
  { rewrite nibbles_app, firstn_app.
    replace (Z.to_nat (len - 1) - length (nibbles bs))%nat with 0%nat.
    - simpl. now rewrite app_nil_r.
    - rewrite nibbles_length. unfold zlen in Hz. lia. }
  rewrite E. do 2 f_equal.
  unfold digits_of. destruct flag; cbn [nibbles flat_map]; fold (nibbles bs); cbn [app skipn].
  - replace (Z.to_nat len) with (S (Z.to_nat (len - 1))) by lia. reflexivity.
  - replace (Z.to_nat len) with (S (Z.to_nat (len - 1))) by lia. reflexivity.
Qed.

Lemma pack_pairs_nibbles tb : forall m,
  bytes_ok tb ->
  (m = 2 * length tb)%nat \/ (S m = (2 * length tb)%nat /\ last tb 0 mod 16 = 0) ->
  pack_pairs (firstn m (nibbles tb)) = tb.
Proof.
  induction tb as [|b tb IH]; intros m Hok Hm.
  - simpl. now rewrite firstn_nil.
  - inversion Hok as [|? ? Hb Hok']; subst. unfold byte_ok in Hb. cbn [length] in Hm.
    cbn [nibbles flat_map app]. fold (nibbles tb).
    destruct m as [|[|m]]; [lia| |].
    + destruct Hm as [Hm|[Hm Hlast]]; [lia|].
      destruct tb as [|c tb]; [|simpl in Hm; lia]. simpl in *. f_equal. lia.
    + cbn [firstn pack_pairs]. rewrite lor_nibbles by lia. f_equal; [lia|].
      apply IH; [assumption|]. destruct Hm as [Hm|[Hm Hlast]]; [left; lia|].
      destruct tb as [|c tb]; [simpl in Hm; lia|]. right. split; [lia| exact Hlast].
Qed.

Lemma bcd_read_write flag len prec bs rest :
  1 <= len -> wf_packed flag len bs ->
  exists n, bdn_of_raw (bs ++ rest) len prec flag = Ok n /\ bdn_write n = Ok bs.
Proof.
  intros Hl (Hok & Hz & Hs & Hp).
  eexists. split; [apply bdn_of_raw_ok; assumption|].
  unfold bdn_write. cbn [b_flag b_data b_sign].
  destruct bs as [|b bs]; [unfold zlen in Hz; simpl in Hz; lia|].
  inversion Hok as [|? ? Hb Hok']; subst. unfold byte_ok in Hb. cbn [hd] in Hs.
  rewrite zlen_cons in Hz. unfold zlen in Hz.
  destruct flag; unfold digits_of, sign_of; cbn [nibbles flat_map hd app skipn]; fold (nibbles bs).
  - specialize (Hs eq_refl).
    replace (Z.to_nat len) with (S (Z.to_nat (len - 1))) by lia. cbn [firstn].
    assert (E : pack_pairs (firstn (Z.to_nat (len - 1)) (nibbles bs)) = bs).
    { apply pack_pairs_nibbles; [assumption|].
      destruct (Z.eq_dec (len mod 2) 0) as [E|E].
      - right. split; [lia|]. specialize (Hp E). destruct bs as [|c bs]; [simpl in Hz; lia|exact Hp].
      - left. lia. }
    rewrite E. do 2 f_equal.
    rewrite lor_sign by lia. destruct (Z.eqb_spec (b / 16) 0) as [E0|E0]; [change (-1 =? -1) with true|change (1 =? -1) with false]; cbv iota; lia.
  - cbn [firstn].
    assert (E : pack_pairs (firstn (S (Z.to_nat len)) (nibbles (b :: bs))) = b :: bs).
    { apply pack_pairs_nibbles; [assumption|]. cbn [length].
      destruct (Z.eq_dec (len mod 2) 0) as [E|E].
      - right. split; [lia|]. exact (Hp E).
      - left. lia. }
    cbn [nibbles flat_map app firstn] in E. fold (nibbles bs) in E. cbn [firstn] in E. now rewrite E.
Qed.

(** ** writing then reading *)
Lemma pack_pairs_length d : length (pack_pairs d) = ((length d + 1) / 2)%nat.
Proof.
  assert (H : forall n d, (length d <= n)%nat -> length (pack_pairs d) = ((length d + 1) / 2)%nat).
  { induction n as [|n IH]; intros e He.
    - destruct e; simpl in *; [reflexivity|lia].
    - destruct e as [|h [|l e]]; cbn [pack_pairs length]; [reflexivity..|].
      rewrite IH by (simpl in He; lia).
      replace (S (S (length e)) + 1)%nat with (length e + 1 + 1 * 2)%nat by lia.
      rewrite Nat.div_add by lia. lia. }
  apply (H (length d)). lia.
Qed.

Lemma pack_pairs_ok d : bytes_ok (pack_pairs d).
Proof.
  assert (H : forall n d, (length d <= n)%nat -> bytes_ok (pack_pairs d)).
  { induction n as [|n IH]; intros e He.
    - destruct e; simpl in *; [constructor|lia].
    - destruct e as [|h [|l e]]; cbn [pack_pairs].
      + constructor.
      + constructor; [unfold byte_ok; lia|constructor].
      + constructor; [unfold byte_ok; lia|]. apply IH. simpl in He; lia. }
  apply (H (length d)). lia.
Qed.

Lemma nibbles_pack_pairs d : Forall (fun x => 0 <= x < 16) d ->
  nibbles (pack_pairs d) = d ++ (if Nat.even (length d) then [] else [0]).
Proof.
  assert (H : forall n d, (length d <= n)%nat -> Forall (fun x => 0 <= x < 16) d ->
     nibbles (pack_pairs d) = d ++ (if Nat.even (length d) then [] else [0])).
  { induction n as [|n IH]; intros e He Hd.
    - destruct e; simpl in *; [reflexivity|lia].
    - destruct e as [|h [|l e]]; [reflexivity| |].
      + inversion Hd; subst. cbn [pack_pairs nibbles flat_map app length Nat.even].
        rewrite Z.mod_small by lia. f_equal; [lia|]. f_equal. lia.
      + inversion Hd as [|? ? Hh Hd']; subst. inversion Hd' as [|? ? Hl Hd'']; subst.
        cbn [pack_pairs nibbles flat_map app length Nat.even]. rewrite lor_nibbles by lia.
        f_equal; [lia|]. f_equal; [lia|].
        apply IH; [simpl in He; lia| assumption]. }
  intros Hd. apply (H (length d)); [lia|assumption].
Qed.

Lemma bcd_write_read n len prec bs rest :
  1 <= len -> b_flag n = true -> (b_sign n = 1 \/ b_sign n = -1) -> b_prec n = prec ->
  Forall (fun x => 0 <= x < 16) (b_data n) -> zlen (b_data n) = len ->
  bdn_write n = Ok bs ->
  bytes_ok bs /\ zlen bs = numeric_size len /\ bdn_of_raw (bs ++ rest) len prec true = Ok n.
Proof.
  intros Hl Hf Hs Hp Hd Hz Hw. destruct n as [fl pr d s]; cbn [b_flag b_sign b_prec b_data] in *. subst fl pr.
  unfold bdn_write in Hw. cbn [b_flag b_data b_sign] in Hw.
  destruct d as [|h t]; [discriminate|]. injection Hw as <-.
  inversion Hd as [|? ? Hh Ht]; subst x l. rewrite zlen_cons in Hz.
  assert (Hlt : Z.of_nat (length t) = len - 1) by (unfold zlen in Hz; lia). clear Hz.
  rewrite lor_sign by lia.
  assert (Hzb : zlen (((if s =? -1 then 0 else 16) + h) :: pack_pairs t) = numeric_size len).
  { unfold zlen, numeric_size. cbn [length]. rewrite pack_pairs_length. lia. }
  split; [|split].
  - constructor; [unfold byte_ok; destruct (s =? -1); lia| apply pack_pairs_ok].
  - exact Hzb.
  - rewrite bdn_of_raw_ok; [|lia|exact Hzb].
    f_equal. f_equal.
    + unfold digits_of. cbn [nibbles flat_map app skipn]. fold (nibbles (pack_pairs t)).
      rewrite nibbles_pack_pairs by assumption.
      replace (Z.to_nat len) with (S (length t)) by lia.
      cbn [firstn]. f_equal.
      * destruct (s =? -1); lia.
      * rewrite firstn_app, Nat.sub_diag. simpl. rewrite app_nil_r. apply firstn_all.
    + unfold sign_of. cbn [hd].
      destruct Hs as [-> | ->].
      * change (1 =? -1) with false. cbv iota. destruct (Z.eqb_spec ((16 + h) / 16) 0); lia.
      * change (-1 =? -1) with true. cbv iota. destruct (Z.eqb_spec ((0 + h) / 16) 0); lia.
Qed.

(** ** texts *)
Lemma split_digits0 ds t ip fp : Forall digit ds ->
  split_parts (chars ds ++ t) 0 ip fp = split_parts t 0 (ip ++ ds) fp.
Proof.
  intros H. revert ip. induction H as [|d ds Hd Hds IH]; intros ip; simpl.
  - now rewrite app_nil_r.
  - unfold digit in Hd. destruct (Z.eqb_spec (d + 48) 46); [lia|].
    rewrite IH. replace (d + 48 - 48) with d by lia. now rewrite <- app_assoc.
Qed.

Lemma split_digits1 ds ip fp : Forall digit ds ->
  split_parts (chars ds) 1 ip fp = Ok (ip, fp ++ ds).
Proof.
  intros H. revert fp. induction H as [|d ds Hd Hds IH]; intros fp; simpl.
  - now rewrite app_nil_r.
  - unfold digit in Hd. destruct (Z.eqb_spec (d + 48) 46); [lia|].
    rewrite IH. replace (d + 48 - 48) with d by lia. now rewrite <- app_assoc.
Qed.

Lemma split_decimal t ip fp : is_decimal t ip fp -> split_parts t 0 [] [] = Ok (ip, fp).
Proof.
  intros (Hi & Hf & [-> | [-> ->]]).
  - rewrite split_digits0 by assumption. cbn [split_parts]. simpl.
    now rewrite split_digits1 by assumption.
  - rewrite <- (app_nil_r (chars ip)). rewrite split_digits0 by assumption. reflexivity.
Qed.

(** fraction digits brought to exactly [p] digits *)
Definition fit (fp : list Z) (p : nat) : list Z := firstn p fp ++ repeat 0 (p - length fp).

Lemma fit_length fp p : length (fit fp p) = p.
Proof. unfold fit. rewrite app_length, firstn_length, repeat_length. lia. Qed.

Lemma Forall_repeat {A} (P : A -> Prop) x n : P x -> Forall P (repeat x n).
Proof. intros H. induction n; simpl; constructor; auto. Qed.

Lemma fit_digits fp p : Forall digit fp -> Forall digit (fit fp p).
Proof.
  intros H. unfold fit. apply Forall_app. split; [now apply Forall_firstn'|].
  apply Forall_repeat. unfold digit; lia.
Qed.

Lemma of_text_fits t ip fp len prec :
  is_decimal t ip fp -> 0 <= prec -> (prec = 0 -> fp = []) -> 1 <= len -> zlen ip + prec <= len ->
  bdn_of_text t true len prec =
  Ok (mkbdn true prec (repeat 0 (Z.to_nat (len - zlen ip - prec)) ++ ip ++ fit fp (Z.to_nat prec)) 1).
Proof.
  intros Hd Hp Hp0 Hl Hfit. unfold bdn_of_text. rewrite (split_decimal _ _ _ Hd). cbn [rbind].
  assert (E : (if prec =? 0 then Ok fp else vresize fp prec 0) = Ok (fit fp (Z.to_nat prec))).
  { destruct (Z.eqb_spec prec 0) as [->|Hne].
    - rewrite Hp0 by reflexivity. reflexivity.
    - unfold vresize. destruct (Z.ltb_spec prec 0); [lia|]. reflexivity. }
  rewrite E. cbn [rbind]. destruct (Z.eqb_spec len 0); [lia|].
  assert (Ez : zlen (fit fp (Z.to_nat prec)) = prec) by (unfold zlen; rewrite fit_length; lia).
  rewrite Ez. destruct (Z.ltb_spec (len - zlen ip - prec) 0); [lia|]. reflexivity.
Qed.

Lemma of_text_overflow t ip fp len prec :
  is_decimal t ip fp -> 0 <= prec <= len -> (prec = 0 -> fp = []) -> 1 <= len -> len < zlen ip + prec ->
  bdn_of_text t true len prec =
  Ok (mkbdn true prec (repeat 9 (Z.to_nat (len - prec)) ++ fit fp (Z.to_nat prec)) 1).
Proof.
  intros Hd Hp Hp0 Hl Hfit. unfold bdn_of_text. rewrite (split_decimal _ _ _ Hd). cbn [rbind].
  assert (E : (if prec =? 0 then Ok fp else vresize fp prec 0) = Ok (fit fp (Z.to_nat prec))).
  { destruct (Z.eqb_spec prec 0) as [->|Hne].
    - rewrite Hp0 by reflexivity. reflexivity.
    - unfold vresize. destruct (Z.ltb_spec prec 0); [lia|]. reflexivity. }
  rewrite E. cbn [rbind]. destruct (Z.eqb_spec len 0); [lia|].
  assert (Ez : zlen (fit fp (Z.to_nat prec)) = prec) by (unfold zlen; rewrite fit_length; lia).
  rewrite Ez. destruct (Z.ltb_spec (len - zlen ip - prec) 0); [|lia].
  unfold vresize. destruct (Z.ltb_spec (len - prec) 0); [lia|]. cbn [rbind].
  rewrite firstn_nil, Nat.sub_0_r. reflexivity.
Qed.

(** ** values *)
Lemma dval_acc l a : fold_left (fun a d => 10 * a + d) l a = a * 10 ^ zlen l + dval l.
Proof.
  unfold dval. revert a. induction l as [|x l IH]; intros a.
  - cbn. unfold zlen. simpl. lia.
  - cbn [fold_left]. rewrite IH. rewrite (IH (10 * 0 + x)). rewrite zlen_cons.
    rewrite Z.pow_add_r by (pose proof (zlen_nonneg l); lia). lia.
Qed.

Lemma dval_app a b : dval (a ++ b) = dval a * 10 ^ zlen b + dval b.
Proof. unfold dval at 1. rewrite fold_left_app. apply dval_acc. Qed.

Lemma dval_cons x l : dval (x :: l) = x * 10 ^ zlen l + dval l.
Proof. unfold dval at 1. cbn [fold_left]. rewrite dval_acc. lia. Qed.

Lemma dval_repeat0 n : dval (repeat 0 n) = 0.
Proof. induction n as [|n IH]; [reflexivity|]. simpl repeat. rewrite dval_cons, IH. lia. Qed.

Lemma dval_bound l : Forall digit l -> 0 <= dval l < 10 ^ zlen l.
Proof.
  induction 1 as [|d l Hd Hl IH].
  - unfold zlen; simpl. unfold dval; simpl. lia.
  - rewrite dval_cons, zlen_cons, Z.pow_add_r by (pose proof (zlen_nonneg l); lia).
    unfold digit in Hd. nia.
Qed.

Lemma zlen_repeat {A} (x : A) n : zlen (repeat x n) = Z.of_nat n.
Proof. unfold zlen. now rewrite repeat_length. Qed.

Lemma dval_fit ip fp p : Forall digit fp -> 0 <= p ->
  dval (ip ++ fit fp (Z.to_nat p)) = floor_at ip fp p.
Proof.
  intros Hf Hp. unfold floor_at. set (m := zlen fp). pose proof (zlen_nonneg fp) as Hm. fold m in Hm.
  assert (H10 : 0 < 10 ^ m) by (apply Z.pow_pos_nonneg; lia).
  destruct (Z.le_gt_cases m p) as [Hle|Hgt].
  - unfold fit. rewrite firstn_all2 by (unfold m, zlen in *; lia).
    rewrite app_assoc. rewrite dval_app, dval_repeat0, zlen_repeat, Z.add_0_r.
    replace (Z.of_nat (Z.to_nat p - length fp)) with (p - m) by (unfold m, zlen in *; lia).
    rewrite <- (Z.div_mul (dval (ip ++ fp) * 10 ^ (p - m)) (10 ^ m)) by lia.
    f_equal. rewrite <- Z.mul_assoc. f_equal. rewrite <- Z.pow_add_r by lia. f_equal. lia.
  - unfold fit. replace (Z.to_nat p - length fp)%nat with 0%nat by (unfold m, zlen in *; lia).
    simpl. rewrite app_nil_r.
    set (hi := firstn (Z.to_nat p) fp). set (lo := skipn (Z.to_nat p) fp).
    assert (E : ip ++ fp = (ip ++ hi) ++ lo).
    { rewrite <- app_assoc. unfold hi, lo. now rewrite firstn_skipn. }
    rewrite E, (dval_app (ip ++ hi) lo).
    assert (Hlo : zlen lo = m - p) by (unfold lo, m, zlen in *; rewrite skipn_length; lia).
    pose proof (dval_bound lo ltac:(unfold lo; now apply Forall_skipn')) as Hb.
    rewrite Hlo in *.
    replace (10 ^ m) with (10 ^ (m - p) * 10 ^ p) by (rewrite <- Z.pow_add_r by lia; f_equal; lia).
    assert (0 < 10 ^ p) by (apply Z.pow_pos_nonneg; lia).
    rewrite Z.div_mul_cancel_r by lia.
    rewrite Z.div_add_l by lia. rewrite Z.div_small by lia. lia.
Qed.

Lemma drop_zeros_spec l : exists n, l = repeat 0 n ++ drop_zeros l /\
   (drop_zeros l = [] \/ hd 0 (drop_zeros l) <> 0).
Proof.
  induction l as [|x l IH]; [exists 0%nat; simpl; auto|].
  destruct (Z.eq_dec x 0) as [->|Hne].
  - destruct IH as [n [E H]]. exists (S n). simpl. split; [f_equal; exact E|exact H].
  - exists 0%nat. assert (E : drop_zeros (x :: l) = x :: l) by (destruct x; [lia|reflexivity|reflexivity]).
    rewrite E. simpl. auto.
Qed.

Lemma drop_zeros_repeat n l : drop_zeros (repeat 0 n ++ l) = drop_zeros l.
Proof. induction n; simpl; auto. Qed.

Lemma drop_zeros_id l : (l = [] \/ hd 0 l <> 0) -> drop_zeros l = l.
Proof. intros [->|H]; [reflexivity|]. destruct l as [|x l]; [reflexivity|]. simpl in *. destruct x; [lia|reflexivity..]. Qed.

Lemma Forall_rev' {A} (P : A -> Prop) l : Forall P l -> Forall P (rev l).
Proof. intros H. rewrite Forall_forall in *. intros x Hx. apply H. now apply in_rev. Qed.

Lemma Forall_app_r {A} (P : A -> Prop) a b : Forall P (a ++ b) -> Forall P b.
Proof. intros H. apply Forall_app in H. tauto. Qed.

Lemma rev_repeat {A} (x : A) n : rev (repeat x n) = repeat x n.
Proof.
  induction n as [|n IH]; [reflexivity|]. simpl. rewrite IH.
  clear IH. induction n as [|n IH]; [reflexivity|]. simpl. now rewrite IH.
Qed.

(** what is shown for a positive number *)
Lemma bdn_show_pos d prec : Forall digit d -> 0 <= prec <= zlen d ->
  exists ip' fp',
    bdn_show (mkbdn true prec d 1) = Ok (normal_text ip' fp') /\ normal ip' fp' /\ zlen fp' <= prec /\
    dval (ip' ++ fp') * 10 ^ (prec - zlen fp') = dval d /\
    (forall i0 f0 k m, normal i0 f0 -> d = repeat 0 k ++ i0 ++ f0 ++ repeat 0 m ->
        zlen f0 + Z.of_nat m = prec -> ip' = i0 /\ fp' = f0).
Proof.
  intros Hd Hp. unfold bdn_show. cbn [b_data b_prec b_flag b_sign].
  destruct (Z.ltb_spec prec 0); [lia|]. destruct (Z.ltb_spec (zlen d) prec); [lia|]. cbn [orb].
  replace (true && (1 =? -1)) with false by reflexivity.
  set (k := Z.to_nat (zlen d - prec)).
  set (A := firstn k d). set (B := skipn k d).
  assert (HAB : d = A ++ B) by (unfold A, B; now rewrite firstn_skipn).
  assert (HB : zlen B = prec) by (unfold B, zlen in *; rewrite skipn_length; unfold k, zlen; lia).
  assert (HA : Forall digit A) by (unfold A; now apply Forall_firstn').
  assert (HBd : Forall digit B) by (unfold B; now apply Forall_skipn').
  destruct (drop_zeros_spec A) as [na [EA HzA]].
  destruct (drop_zeros_spec (rev B)) as [nb [EB HzB]].
  set (I := drop_zeros A) in *. set (Fr := rev (drop_zeros (rev B))) in *.
  assert (EB' : B = Fr ++ repeat 0 nb).
  { rewrite <- (rev_involutive B), EB. rewrite rev_app_distr, rev_repeat. reflexivity. }
  assert (HFd : Forall digit Fr) by (assert (HB2 : Forall digit (Fr ++ repeat 0 nb)) by (now rewrite <- EB'); apply Forall_app in HB2; tauto).
  assert (HId : Forall digit I) by (assert (HA2 : Forall digit (repeat 0 na ++ I)) by (now rewrite <- EA); apply Forall_app in HA2; tauto).
  assert (HlF : Fr = [] \/ last Fr 0 <> 0).
  { unfold Fr. destruct HzB as [->|H1]; [left; reflexivity|right].
    destruct (drop_zeros (rev B)) as [|x l]; [simpl in H1; lia|].
    simpl in *. rewrite last_last. exact H1. }
  set (I' := match I with [] => [0] | _ => I end).
  exists I', Fr. split; [|split; [|split; [|split]]].
  - f_equal. cbn [app]. unfold normal_text. f_equal.
    + unfold I'. destruct I; reflexivity.
    + destruct (Z.eqb_spec prec 0) as [E0|E0].
      * assert (B = []) by (destruct B; [reflexivity|unfold zlen in HB; simpl in HB; lia]).
        assert (E : Fr = []) by (unfold Fr; rewrite H1; reflexivity). rewrite E. reflexivity.
      * destruct (existsb (fun d0 => negb (d0 =? 0)) Fr) eqn:Ex.
        -- destruct Fr; [discriminate|reflexivity].
        -- destruct Fr as [|f Fr'] eqn:EF; [reflexivity|exfalso].
           destruct HlF as [HlF|HlF]; [discriminate|].
           assert (Hin : In (last (f :: Fr') 0) (f :: Fr')).
           { destruct (exists_last (l:=f::Fr')) as [l' [y Ey]]; [discriminate|].
             rewrite Ey, last_last. apply in_or_app. right. now left. }
           assert (existsb (fun d0 => negb (d0 =? 0)) (f :: Fr') = true).
           { apply existsb_exists. exists (last (f :: Fr') 0). split; [assumption|]. lia. }
           congruence.
  - split; [|split; [|split]].
    + unfold I'. destruct I; [repeat constructor; unfold digit; lia|assumption].
    + assumption.
    + unfold I'. destruct HzA as [->|H1]; [left; reflexivity|].
      destruct I as [|x I0]; [left; reflexivity|]. right. split; [discriminate|exact H1].
    + assumption.
  - assert (HB2 : zlen (Fr ++ repeat 0 nb) = prec) by (now rewrite <- EB').
    rewrite zlen_app, zlen_repeat in HB2. lia.
  - assert (Ed : dval d = dval (I ++ Fr) * 10 ^ Z.of_nat nb).
    { rewrite HAB. transitivity (dval ((repeat 0 na ++ I) ++ (Fr ++ repeat 0 nb))).
      - now rewrite <- EA, <- EB'.
      - rewrite <- app_assoc, (app_assoc I). rewrite dval_app, dval_repeat0.
        rewrite (dval_app (I ++ Fr)), dval_repeat0, zlen_repeat. lia. }
    rewrite Ed. assert (HB2 : zlen (Fr ++ repeat 0 nb) = prec) by (now rewrite <- EB').
    rewrite zlen_app, zlen_repeat in HB2.
    replace (prec - zlen Fr) with (Z.of_nat nb) by lia.
    assert (E : dval (I' ++ Fr) = dval (I ++ Fr)).
    { unfold I'. destruct I; [|reflexivity]. simpl app. rewrite dval_cons. lia. }
    rewrite E. lia.
  - intros i0 f0 k0 m (Hi0 & Hf0 & Hni & Hnf) Ed Hpm.
    assert (EA0 : A = repeat 0 k0 ++ i0 /\ B = f0 ++ repeat 0 m).
    { assert (Hl : length A = length (repeat 0 k0 ++ i0)).
      { assert (length d = length (repeat 0 k0 ++ i0 ++ f0 ++ repeat 0 m)) by (now rewrite Ed at 1).
        unfold A. rewrite firstn_length. rewrite !app_length, !repeat_length in *.
        unfold k, zlen in *. lia. }
      assert (Hs : A ++ B = (repeat 0 k0 ++ i0) ++ (f0 ++ repeat 0 m)).
      { rewrite <- HAB, Ed, <- app_assoc. reflexivity. }
      clear -Hl Hs. revert Hl Hs. generalize (repeat 0 k0 ++ i0) as X. generalize (f0 ++ repeat 0 m) as Y.
      intros Y X. revert X. induction A as [|a A IH]; intros [|x X] Hl Hs; simpl in *; try discriminate.
      - auto.
      - injection Hs as -> Hs. destruct (IH X) as [-> ->]; auto. }
    destruct EA0 as [EA0 EB0]. split.
    + unfold I', I. rewrite EA0, drop_zeros_repeat. destruct Hni as [->|[Hne Hh]]; [reflexivity|].
      rewrite drop_zeros_id by auto. destruct i0; [congruence|reflexivity].
    + unfold Fr. rewrite EB0, rev_app_distr, rev_repeat, drop_zeros_repeat.
      rewrite drop_zeros_id; [apply rev_involutive|].
      destruct Hnf as [->|Hnf]; [left; reflexivity|].
      right. destruct (exists_last (l:=f0)) as [l' [y Ey]]; [intros ->; simpl in Hnf; lia|].
      rewrite Ey in *. rewrite last_last in Hnf. rewrite rev_app_distr. simpl. exact Hnf.
Qed.

Lemma digit16 l : Forall digit l -> Forall (fun x => 0 <= x < 16) l.
Proof. apply Forall_impl. unfold digit. intros; lia. Qed.

Lemma numeric_store_unfold t len prec n : t <> [] -> bdn_of_text t true len prec = Ok n ->
  numeric_store t len prec = bdn_write n.
Proof. intros Ht H. destruct t; [congruence|]. cbn [numeric_store]. rewrite H. reflexivity. Qed.

Lemma write_flag_ok prec d s : d <> [] ->
  exists bs, bdn_write (mkbdn true prec d s) = Ok bs.
Proof. destruct d; [congruence|]. unfold bdn_write. simpl. eauto. Qed.

Lemma store_digits_roundtrip t len prec d :
  1 <= len -> t <> [] -> Forall digit d -> zlen d = len ->
  bdn_of_text t true len prec = Ok (mkbdn true prec d 1) ->
  exists bs, numeric_store t len prec = Ok bs /\ bytes_ok bs /\ zlen bs = numeric_size len /\
    forall rest, bdn_of_raw (bs ++ rest) len prec true = Ok (mkbdn true prec d 1).
Proof.
  intros Hl Ht Hd Hz Hof.
  destruct (write_flag_ok prec d 1) as [bs Hbs].
  { intros ->. unfold zlen in Hz; simpl in Hz; lia. }
  exists bs. rewrite (numeric_store_unfold _ _ _ _ Ht Hof). split; [exact Hbs|].
  assert (H := fun rest => bcd_write_read (mkbdn true prec d 1) len prec bs rest Hl eq_refl
                 (or_introl eq_refl) eq_refl (digit16 _ Hd) Hz Hbs).
  split; [|split]; [apply (H []).. |].
  intros rest. apply (H rest).
Qed.

Lemma text_roundtrip t ip fp len prec :
  is_decimal t ip fp -> t <> [] -> 0 <= prec -> (prec = 0 -> fp = []) -> 1 <= len ->
  zlen ip + prec <= len ->
  exists bs ip' fp',
    numeric_store t len prec = Ok bs /\ zlen bs = numeric_size len /\
    (forall rest, numeric_show (bs ++ rest) len prec = Ok (normal_text ip' fp')) /\
    normal ip' fp' /\ zlen fp' <= prec /\
    dval (ip' ++ fp') * 10 ^ (prec - zlen fp') = floor_at ip fp prec /\
    (normal ip fp -> zlen fp <= prec -> ip' = ip /\ fp' = fp).
Proof.
  intros Hd Ht Hp Hp0 Hl Hfit.
  pose proof (of_text_fits _ _ _ _ _ Hd Hp Hp0 Hl Hfit) as Hof.
  destruct Hd as (Hi & Hf & Htext).
  set (d := repeat 0 (Z.to_nat (len - zlen ip - prec)) ++ ip ++ fit fp (Z.to_nat prec)) in *.
  assert (Hdd : Forall digit d).
  { unfold d. apply Forall_app. split; [apply Forall_repeat; unfold digit; lia|].
    apply Forall_app. split; [assumption|now apply fit_digits]. }
  assert (Hdz : zlen d = len).
  { assert (Hfz : zlen (fit fp (Z.to_nat prec)) = prec) by (unfold zlen; rewrite fit_length; lia).
    unfold d. rewrite !zlen_app, zlen_repeat, Hfz. lia. }
  destruct (store_digits_roundtrip t len prec d Hl Ht Hdd Hdz Hof) as (bs & Hst & Hbok & Hbz & Hrd).
  destruct (bdn_show_pos d prec Hdd ltac:(pose proof (zlen_nonneg ip); lia)) as (ip' & fp' & Hsh & Hn & Hfz & Hv & Huniq).
  exists bs, ip', fp'. split; [exact Hst|]. split; [exact Hbz|]. split; [|split; [exact Hn|split; [exact Hfz|split]]].
  - intros rest. unfold numeric_show. rewrite Hrd. cbn [rbind]. exact Hsh.
  - rewrite Hv. unfold d. rewrite dval_app, dval_repeat0, dval_fit by assumption. lia.
  - intros Hnorm Hle. apply (Huniq ip fp (Z.to_nat (len - zlen ip - prec)) (Z.to_nat prec - length fp)%nat Hnorm).
    + unfold d, fit. rewrite firstn_all2 by (unfold zlen in Hle; lia). reflexivity.
    + unfold zlen in *. lia.
Qed.

Lemma text_overflow t ip fp len prec :
  is_decimal t ip fp -> t <> [] -> 0 <= prec <= len -> (prec = 0 -> fp = []) -> 1 <= len ->
  len < zlen ip + prec ->
  exists bs fp',
    numeric_store t len prec = Ok bs /\ zlen bs = numeric_size len /\ zlen fp' = prec /\
    dval fp' = floor_at [] fp prec /\
    (forall rest, bdn_of_raw (bs ++ rest) len prec true =
       Ok (mkbdn true prec (repeat 9 (Z.to_nat (len - prec)) ++ fp') 1)).
Proof.
  intros Hd Ht Hp Hp0 Hl Hov.
  pose proof (of_text_overflow _ _ _ _ _ Hd Hp Hp0 Hl Hov) as Hof.
  destruct Hd as (Hi & Hf & Htext).
  set (d := repeat 9 (Z.to_nat (len - prec)) ++ fit fp (Z.to_nat prec)) in *.
  assert (Hdd : Forall digit d).
  { unfold d. apply Forall_app. split; [apply Forall_repeat; unfold digit; lia|now apply fit_digits]. }
  assert (Hfz : zlen (fit fp (Z.to_nat prec)) = prec) by (unfold zlen; rewrite fit_length; lia).
  assert (Hdz : zlen d = len) by (unfold d; rewrite !zlen_app, zlen_repeat, Hfz; lia).
  destruct (store_digits_roundtrip t len prec d Hl Ht Hdd Hdz Hof) as (bs & Hst & Hbok & Hbz & Hrd).
  exists bs, (fit fp (Z.to_nat prec)).
  split; [exact Hst|]. split; [exact Hbz|]. split; [exact Hfz|]. split; [|exact Hrd].
  rewrite <- (dval_fit [] fp prec) by (assumption || lia). reflexivity.
Qed.

(** ** the sign of a stored text *)
Lemma lor16_bit h : ((Z.lor 16 h) mod 256 / 16) mod 2 = 1.
Proof.
  assert (H : Z.testbit ((Z.lor 16 h) mod 256) 4 = true).
  { change 256 with (2 ^ 8). rewrite Z.mod_pow2_bits_low by lia.
    rewrite Z.lor_spec. reflexivity. }
  rewrite Z.testbit_true in H by lia. exact H.
Qed.

Lemma of_text_flag_sign t flag len prec n :
  bdn_of_text t flag len prec = Ok n -> b_flag n = flag /\ b_sign n = 1.
Proof.
  unfold bdn_of_text. intros H.
  destruct (split_parts t 0 [] []) as [[ip fp]| | |]; try discriminate. cbn [rbind] in H.
  destruct (if prec =? 0 then Ok fp else vresize fp prec 0) as [f| | |]; try discriminate. cbn [rbind] in H.
  destruct (if len =? 0 then _ else _) as [[add i]| | |]; try discriminate. cbn [rbind] in H.
  injection H as <-. auto.
Qed.

Lemma never_negative t len prec b bs :
  numeric_store t len prec = Ok (b :: bs) -> (b / 16) mod 2 = 1.
Proof.
  destruct t as [|c t]; [discriminate|]. cbn [numeric_store].
  destruct (bdn_of_text (c :: t) true len prec) as [n| | |] eqn:E; try discriminate. cbn [rbind].
  destruct (of_text_flag_sign _ _ _ _ _ E) as [Hf Hs].
  unfold bdn_write. rewrite Hf, Hs. simpl.
  destruct (b_data n) as [|h d]; [discriminate|]. intros H.
  assert (E1 : b = (Z.lor 16 h) mod 256).
  { change (@Ok (list Z) ((Z.lor 16 h) mod 256 :: pack_pairs d) = Ok (b :: bs)) in H. congruence. }
  rewrite E1. apply lor16_bit.
Qed.

Lemma stored_sign_positive t len prec bs rest n :
  numeric_store t len prec = Ok bs -> bs <> [] ->
  bdn_of_raw (bs ++ rest) len prec true = Ok n -> b_sign n = 1.
Proof.
  intros Hst Hne Hrd.
  destruct bs as [|b bs]; [congruence|]. pose proof (never_negative _ _ _ _ _ Hst) as Hb.
  unfold bdn_of_raw in Hrd. change (rd ((b :: bs) ++ rest) 0) with (@Ok Z b) in Hrd. cbn [rbind] in Hrd.
  destruct (raw_loop (S (Z.to_nat len)) ((b :: bs) ++ rest) len 1 1 [b mod 16]) as [d| | |]; try discriminate.
  cbn [rbind] in Hrd. injection Hrd as <-. cbn [b_sign].
  destruct (Z.eqb_spec (b / 16) 0) as [E|E]; [rewrite E in Hb; discriminate|reflexivity].
Qed.

(** ** dates *)
Lemma date_of_raw_ok bs rest : length bs = 7%nat -> (3 <= length rest)%nat ->
  exists tail, date_of_raw (bs ++ rest) = Ok (mkbdn false 0 (nibbles bs ++ tail) 1).
Proof.
  intros Hb Hr.
  destruct rest as [|r1 [|r2 [|r3 rest]]]; simpl in Hr; try lia.
  unfold date_of_raw.
  replace (bs ++ r1 :: r2 :: r3 :: rest) with ((bs ++ [r1; r2; r3]) ++ rest) by (now rewrite <- app_assoc).
  rewrite bdn_of_raw_ok; [|lia|unfold zlen; rewrite app_length, Hb; reflexivity].
  unfold digits_of, sign_of. exists (nibbles [r1; r2; r3]). repeat f_equal.
  rewrite <- nibbles_app. apply firstn_all2. rewrite nibbles_length, app_length, Hb. simpl. lia.
Qed.

Lemma date_raw_short bs : length bs = 7%nat -> date_of_raw bs = UB.
Proof.
  intros H. do 7 (destruct bs as [|? bs]; [discriminate|]). destruct bs; [|discriminate].
  reflexivity.
Qed.

Lemma get_part_prefix d tail s c prec flag sg :
  (s + c <= length d)%nat ->
  get_part (mkbdn flag prec (d ++ tail) sg) (Z.of_nat s) (Z.of_nat c) = chars (sub d s c).
Proof.
  intros H. unfold get_part, chars. cbn [b_data]. rewrite !Nat2Z.id. f_equal. unfold sub.
  rewrite skipn_app, firstn_app. rewrite skipn_length.
  replace (c - (length d - s))%nat with 0%nat by lia. simpl. now rewrite app_nil_r.
Qed.

(** The text of a date made of the 14 digits y y y y M M d d h h m m s s. *)
Definition date_text (y1 y2 y3 y4 m1 m2 d1 d2 h1 h2 n1 n2 s1 s2 : Z) : list Z :=
  [d1+48; d2+48; 46; m1+48; m2+48; 46; y1+48; y2+48; y3+48; y4+48; 32;
   h1+48; h2+48; 58; n1+48; n2+48; 58; s1+48; s2+48].

Lemma date_roundtrip y1 y2 y3 y4 m1 m2 d1 d2 h1 h2 n1 n2 s1 s2 :
  Forall digit [y1;y2;y3;y4;m1;m2;d1;d2;h1;h2;n1;n2;s1;s2] ->
  let t := date_text y1 y2 y3 y4 m1 m2 d1 d2 h1 h2 n1 n2 s1 s2 in
  exists bs, datetime_store t = Ok bs /\ length bs = 7%nat /\ bytes_ok bs /\
    forall rest, (3 <= length rest)%nat -> date_to_string (bs ++ rest) = Ok t.
Proof.
  intros H t.
  set (ds := [y1;y2;y3;y4;m1;m2;d1;d2;h1;h2;n1;n2;s1;s2]) in *.
  assert (Ed : date_of_text t fmt_show = mkbdn false 0 ds 1).
  { unfold date_of_text, t, date_text.
    replace (concat (map (fun c => positions c fmt_show 0) [121; 77; 100; 104; 109; 115]))
      with [6;7;8;9;3;4;0;1;11;12;14;15;17;18]%nat by reflexivity.
    cbn [map nth_error]. unfold ds. repeat f_equal; lia. }
  assert (Es : datetime_store t = Ok (pack_pairs ds)).
  { unfold datetime_store. replace (zlen t <? 19) with false by reflexivity.
    unfold string_to_date. rewrite Ed. reflexivity. }
  exists (pack_pairs ds). split; [exact Es|]. split; [reflexivity|]. split; [apply pack_pairs_ok|].
  intros rest Hr.
  destruct (date_of_raw_ok (pack_pairs ds) rest eq_refl Hr) as [tail Hd].
  unfold date_to_string. rewrite Hd. cbn [rbind]. f_equal.
  rewrite nibbles_pack_pairs by (now apply digit16). simpl app.
  reflexivity.
Qed.

Lemma date_roundtrip_1c y1 y2 y3 y4 m1 m2 d1 d2 h1 h2 n1 n2 s1 s2 :
  let ds := [y1;y2;y3;y4;m1;m2;d1;d2;h1;h2;n1;n2;s1;s2] in
  Forall digit ds ->
  exists bs, string1C_to_date (chars ds) = Ok bs /\ length bs = 7%nat /\
    forall rest, (3 <= length rest)%nat -> date_to_string1C (bs ++ rest) = Ok (chars ds).
Proof.
  intros ds H.
  assert (Ed : date_of_text (chars ds) fmt_1c = mkbdn false 0 ds 1).
  { unfold date_of_text.
    replace (concat (map (fun c => positions c fmt_1c 0) [121; 77; 100; 104; 109; 115]))
      with [0;1;2;3;4;5;6;7;8;9;10;11;12;13]%nat by reflexivity.
    cbn [map nth_error chars ds]. unfold ds. repeat f_equal; lia. }
  exists (pack_pairs ds). split; [unfold string1C_to_date; rewrite Ed; reflexivity|]. split; [reflexivity|].
  intros rest Hr.
  destruct (date_of_raw_ok (pack_pairs ds) rest eq_refl Hr) as [tail Hd].
  unfold date_to_string1C. rewrite Hd. cbn [rbind]. f_equal.
  rewrite nibbles_pack_pairs by (now apply digit16). simpl app. reflexivity.
Qed.

Lemma date_needs_10 bs : length bs = 7%nat -> date_to_string bs = UB.
Proof. intros H. unfold date_to_string. rewrite date_raw_short by assumption. reflexivity. Qed.

Lemma date_ignores_rest bs r1 r2 : length bs = 7%nat -> (3 <= length r1)%nat -> (3 <= length r2)%nat ->
  exists s, date_to_string (bs ++ r1) = Ok s /\ date_to_string (bs ++ r2) = Ok s.
Proof.
  intros Hb H1 H2. destruct (date_of_raw_ok bs r1 Hb H1) as [t1 E1].
  destruct (date_of_raw_ok bs r2 Hb H2) as [t2 E2].
  unfold date_to_string. rewrite E1, E2. cbn [rbind]. eexists. split; [reflexivity|].
  f_equal. do 7 (destruct bs as [|? bs]; [discriminate|]). destruct bs; [|discriminate]. reflexivity.
Qed.
