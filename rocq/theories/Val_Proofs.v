(** Proofs about packed blob values. *)
From Verif Require Import Prelude Lists Stream_Model Stream_Spec Stream_Proofs Val_Model Val_Spec.
Ltac Zify.zify_post_hook ::= idtac.

(** ** Users *)
Lemma rd_mid {A} (a b : list A) x i : i = zlen a -> rd (a ++ x :: b) i = Ok x.
Proof. intros ->. apply rd_ok; [apply zlen_nonneg|]. unfold zlen. rewrite Nat2Z.id, nth_error_app2, Nat.sub_diag by lia. reflexivity. Qed.
Lemma wr_mid {A} (a b : list A) x y i : i = zlen a -> wrn (a ++ x :: b) i [y] = Ok (a ++ y :: b).
Proof.
  intros ->. unfold wrn. pose proof (zlen_nonneg a). destruct (Z.ltb_spec (zlen a) 0); [lia|].
  assert (HL : zlen (a ++ x :: b) = zlen a + 1 + zlen b) by (rewrite zlen_app, zlen_cons; lia). pose proof (zlen_nonneg b).
  destruct (Z.ltb_spec (zlen (a ++ x :: b)) (zlen a + zlen [y])) as [H2|H2]; [rewrite HL in H2; change (zlen [y]) with 1 in H2; lia|]. cbn [orb].
  unfold splice, zlen. rewrite Nat2Z.id. rewrite firstn_app, firstn_all, Nat.sub_diag. cbn [firstn length]. rewrite app_nil_r. f_equal. f_equal. cbn [app]. f_equal.
  rewrite skipn_app, skipn_all2 by lia. replace (length a + 1 - length a)%nat with 1%nat by lia. reflexivity.
Qed.

Fixpoint xored (key : list Z) (i : nat) (d : list Z) : list Z :=
  match d with [] => [] | x :: t => Z.lxor x (nth (i mod length key) key 0) :: xored key (S i) t end.
Lemma xored_length key d : forall i, length (xored key i d) = length d.
Proof. induction d as [|x d IH]; intros i; [reflexivity|]. cbn [xored length]. rewrite IH. reflexivity. Qed.
Lemma xored_spec key d : forall i, xored key i d = map (fun '(i, x) => Z.lxor x (nth (i mod length key) key 0)) (combine (seq i (length d)) d).
Proof. induction d as [|x d IH]; intros i; [reflexivity|]. cbn [xored length seq combine map]. rewrite IH. reflexivity. Qed.
Lemma xored_twice key d : forall i, xored key i (xored key i d) = d.
Proof. induction d as [|x d IH]; intros i; [reflexivity|]. cbn [xored]. rewrite IH. f_equal. rewrite Z.lxor_assoc, Z.lxor_nilpotent, Z.lxor_0_r. reflexivity. Qed.

Lemma xor_loop_ok key b0 : key <> [] -> forall todo done_ k, (if zlen key <=? k then 0 else k) = Z.of_nat (length done_ mod length key) ->
  xor_loop (length todo) (b0 :: key ++ done_ ++ todo) (zlen key) (zlen done_) k = Ok (b0 :: key ++ done_ ++ xored key (length done_) todo).
Proof.
  intros HK. assert (KP : (0 < length key)%nat) by (destruct key; [congruence|cbn [length]; lia]).
  induction todo as [|x todo IH]; intros done_ k HM; [reflexivity|]. cbn [length xor_loop]. rewrite HM. unfold xor_at.
  pose proof (Nat.mod_upper_bound (length done_) (length key) ltac:(lia)) as HB. set (m := (length done_ mod length key)%nat) in *.
  assert (E1 : b0 :: key ++ done_ ++ x :: todo = (b0 :: key ++ done_) ++ x :: todo) by (cbn [app]; rewrite app_assoc; reflexivity).
  rewrite E1. rewrite rd_mid by (rewrite zlen_cons, zlen_app; lia). cbn [rbind].
  assert (E2 : rd ((b0 :: key ++ done_) ++ x :: todo) (1 + Z.of_nat m) = Ok (nth m key 0)).
  { apply rd_ok; [lia|]. replace (Z.to_nat (1 + Z.of_nat m)) with (S m) by lia. cbn [app nth_error]. rewrite <- app_assoc. rewrite nth_error_app1 by exact HB. apply nth_error_nth'. exact HB. }
  rewrite E2. cbn [rbind]. rewrite wr_mid by (rewrite zlen_cons, zlen_app; lia). cbn [rbind].
  assert (E3 : (b0 :: key ++ done_) ++ Z.lxor x (nth m key 0) :: todo = b0 :: key ++ (done_ ++ [Z.lxor x (nth m key 0)]) ++ todo) by (cbn [app]; rewrite <- !app_assoc; reflexivity).
  rewrite E3. replace (zlen done_ + 1) with (zlen (done_ ++ [Z.lxor x (nth m key 0)])) by (rewrite zlen_app; reflexivity).
  rewrite IH.
  - cbn [xored]. fold m. rewrite app_length. cbn [length]. rewrite Nat.add_1_r. do 3 f_equal. rewrite <- app_assoc. reflexivity.
  - rewrite app_length. cbn [length]. unfold zlen. rewrite Nat.add_1_r.
    pose proof (Nat.div_mod (length done_) (length key) ltac:(lia)) as HD. fold m in HD.
    destruct (Z.leb_spec (Z.of_nat (length key)) (Z.of_nat m + 1)) as [L|L].
    + assert (EM : (S (length done_) = length key * S (length done_ / length key) + 0)%nat) by lia. rewrite EM. rewrite Nat.add_0_r, Nat.mul_comm, Nat.mod_mul by lia. reflexivity.
    + assert (EM : (S (length done_) mod length key = S m)%nat).
      { symmetry. apply (Nat.mod_unique _ _ (length done_ / length key)); lia. }
      rewrite EM. lia.
Qed.

Lemma decode_exact key rest : (1 <= length key <= 127)%nat -> decode_users (Z.of_nat (length key) :: key ++ rest) = Ok (xored key 0 rest).
Proof.
  intros HK. unfold decode_users. change (rd (Z.of_nat (length key) :: key ++ rest) 0) with (Ok (Z.of_nat (length key))). cbn [rbind].
  destruct (Z.leb_spec 128 (Z.of_nat (length key))); [lia|].
  assert (EN : zlen (Z.of_nat (length key) :: key ++ rest) - Z.of_nat (length key) - 1 = zlen rest) by (rewrite zlen_cons, zlen_app; unfold zlen; lia). rewrite EN.
  pose proof (zlen_nonneg rest). destruct (Z.ltb_spec (zlen rest) 0); [lia|].
  pose proof (xor_loop_ok key (Z.of_nat (length key)) ltac:(intros ->; cbn [length] in HK; lia) rest [] 0) as HX.
  cbn [app length] in HX. change (zlen (@nil Z)) with 0 in HX. replace (Z.to_nat (zlen rest)) with (length rest) by (unfold zlen; lia). unfold zlen in HX at 2. rewrite HX.
  - cbn [rbind]. rewrite rdn_ok; [|unfold zlen; lia|lia|rewrite zlen_cons, zlen_app; unfold zlen; rewrite xored_length; lia]. f_equal.
    unfold sub. replace (Z.to_nat (1 + Z.of_nat (length key))) with (S (length key)) by lia. rewrite skipn_cons, skipn_app, skipn_all, Nat.sub_diag. cbn [app skipn].
    apply firstn_all2. rewrite xored_length. unfold zlen. lia.
  - rewrite Nat.mod_0_l by lia. destruct (Z.leb_spec (zlen key) 0); reflexivity.
Qed.
Lemma users_ok key d : (1 <= length key <= 127)%nat -> decode_users (users_encode key d) = Ok d.
Proof. intros HK. unfold users_encode. rewrite <- xored_spec, decode_exact by exact HK. rewrite xored_twice. reflexivity. Qed.
(** With an empty mask the loop xors with the first byte of the text itself. *)
Lemma xor_loop_zero : forall todo done_ k, 0 <= k -> xor_loop (length todo) (0 :: 0 :: done_ ++ todo) 0 (1 + zlen done_) k = Ok (0 :: 0 :: done_ ++ todo).
Proof.
  induction todo as [|x todo IH]; intros done_ k HK; [reflexivity|]. cbn [length xor_loop]. unfold xor_at. destruct (Z.leb_spec 0 k); [|lia].
  assert (E1 : 0 :: 0 :: done_ ++ x :: todo = (0 :: 0 :: done_) ++ x :: todo) by reflexivity. rewrite E1.
  rewrite rd_mid by (rewrite !zlen_cons; lia). cbn [rbind].
  change (rd ((0 :: 0 :: done_) ++ x :: todo) (1 + 0)) with (Ok 0). cbn [rbind]. rewrite Z.lxor_0_r. rewrite wr_mid by (rewrite !zlen_cons; lia). cbn [rbind].
  assert (E2 : (0 :: 0 :: done_) ++ x :: todo = 0 :: 0 :: (done_ ++ [x]) ++ todo) by (cbn [app]; rewrite <- app_assoc; reflexivity). rewrite E2.
  replace (1 + zlen done_ + 1) with (1 + zlen (done_ ++ [x])) by (rewrite zlen_app; change (zlen [x]) with 1; lia). apply IH. lia.
Qed.
Lemma decode_empty_mask x t : decode_users (0 :: x :: t) = Ok (0 :: t).
Proof.
  unfold decode_users. change (rd (0 :: x :: t) 0) with (Ok 0). cbn [rbind]. change (128 <=? 0) with false. cbn iota.
  rewrite !zlen_cons. replace (1 + (1 + zlen t) - 0 - 1) with (1 + zlen t) by lia. pose proof (zlen_nonneg t). destruct (Z.ltb_spec (1 + zlen t) 0); [lia|].
  replace (Z.to_nat (1 + zlen t)) with (S (length t)) by (unfold zlen; lia). cbn [xor_loop]. change (0 <=? 0) with true. cbn iota. unfold xor_at.
  change (rd (0 :: x :: t) (1 + 0 + 0)) with (Ok x). change (rd (0 :: x :: t) (1 + 0)) with (Ok x). cbn [rbind]. rewrite Z.lxor_nilpotent.
  change (1 + 0 + 0) with (zlen [0]). change (0 :: x :: t) with ([0] ++ x :: t). rewrite wr_mid by reflexivity. cbn [rbind app].
  pose proof (xor_loop_zero t [] (0 + 1) ltac:(lia)) as HX. change (1 + zlen []) with (0 + 1) in HX. cbn [app] in HX. rewrite HX. cbn [rbind].
  rewrite rdn_ok; [|lia|lia|rewrite !zlen_cons; lia]. f_equal. unfold sub. change (Z.to_nat (1 + 0)) with 1%nat. cbn [skipn]. apply firstn_all2. unfold zlen. cbn [length]. lia.
Qed.
Lemma users_outside bb : bytes_ok bb -> (decode_users bb = UB <-> match bb with [] => True | b :: t => 128 <= b \/ zlen t < b end).
Proof.
  intros HB. destruct bb as [|b t]; [split; [trivial|reflexivity]|]. inversion HB as [|x y B1 B2]. subst. unfold byte_ok in B1. split.
  - intros H. destruct (Z.leb_spec 128 b) as [L|L]; [left; exact L|]. destruct (Z.ltb_spec (zlen t) b) as [L2|L2]; [right; exact L2|]. exfalso.
    destruct (Z.eq_dec b 0) as [->|N0].
    + destruct t as [|x t]; [discriminate H|]. rewrite decode_empty_mask in H. discriminate H.
    + assert (EB : b :: t = Z.of_nat (length (firstn (Z.to_nat b) t)) :: firstn (Z.to_nat b) t ++ skipn (Z.to_nat b) t).
      { rewrite firstn_skipn, firstn_length. f_equal. unfold zlen in L2. lia. }
      rewrite EB in H. rewrite decode_exact in H; [discriminate|]. rewrite firstn_length. unfold zlen in L2. lia.
  - intros H. unfold decode_users. change (rd (b :: t) 0) with (Ok b). cbn [rbind]. destruct (Z.leb_spec 128 b); [reflexivity|]. rewrite zlen_cons.
    destruct (Z.ltb_spec (1 + zlen t - b - 1) 0); [reflexivity|lia].
Qed.

(** ** Values *)
Lemma overlay_new d : overlay [] 0 d = d.
Proof. rewrite <- overlay_splice. cbn [length app]. rewrite Nat.add_0_l, Nat.sub_0_r. unfold splice. cbn [firstn app]. rewrite skipn_all2 by (rewrite repeat_length; lia). apply app_nil_r. Qed.
Lemma num8_val n : 0 <= n < 2^63 -> forall r, le64 (num8 n ++ r) = n.
Proof.
  intros H r. unfold le64. assert (E : num8 n = le_bytes 8 n).
  { unfold num8. cbn [seq map le_bytes]. rewrite !Z.div_div by lia. repeat f_equal; try reflexivity. change (256 ^ Z.of_nat 0) with 1. now rewrite Z.div_1_r. }
  rewrite E. rewrite firstn_app, le_bytes_length, Nat.sub_diag, firstn_O. rewrite app_nil_r, firstn_all2 by (rewrite le_bytes_length; lia).
  rewrite le_val_bytes_small by lia. apply i64_small. lia.
Qed.
Lemma num8_len n : length (num8 n) = 8%nat. Proof. reflexivity. Qed.
Lemma seek_beg l p o : 0 <= o <= zlen l -> ms_seek (MS l p) o Beg = Ok (MS l o, Ok o).
Proof. intros H. unfold ms_seek. cbn [ms_data]. destruct (Z.ltb_spec (zlen l) o); [lia|reflexivity]. Qed.
Lemma clear_ok l p : 0 <= p -> ms_set_size (MS l p) 0 = Ok (MS [] 0).
Proof. intros H. unfold ms_set_size. cbn [orb ms_data ms_pos Z.to_nat firstn]. change ((0 <? 0) || (2 ^ 63 - 1 <? 0)) with false. cbn iota. change (Z.to_nat 0) with 0%nat. cbn [firstn app].
  replace (Z.to_nat (0 - zlen l)) with 0%nat by (pose proof (zlen_nonneg l); lia). cbn [repeat]. destruct (Z.ltb_spec 0 p); [reflexivity|]. do 2 f_equal. lia. Qed.
Lemma copy_rest l p n : zlen l < 2^62 -> (p < length l)%nat -> (0 < n)%nat -> Z.of_nat n < 2^62 ->
  copy_from (MS [] 0) (MS l (Z.of_nat p)) (Z.of_nat n) = Ok (MS (firstn n (skipn p l)) (zlen (firstn n (skipn p l))), MS l (Z.of_nat (p + length (firstn n (skipn p l)))), zlen (firstn n (skipn p l))).
Proof.
  intros H1 H2 H3 H4. pose proof (copy_n_ok [] 0 l p n) as HC. unfold of_ideal in HC. cbn [fst snd] in HC. change (Z.of_nat 0) with 0 in HC. rewrite HC; try (unfold zlen in *; cbn [length]; lia).
  cbv zeta. rewrite overlay_new. reflexivity.
Qed.
Lemma read_small l p n : zlen l < 2^62 -> (p <= length l)%nat -> (n <= 16)%nat -> ms_read (MS l (Z.of_nat p)) 16 (Z.of_nat n) = Ok (MS l (Z.of_nat (p + length (firstn n (skipn p l)))), firstn n (skipn p l)).
Proof. intros H1 H2 H3. change 16 with (Z.of_nat 16). apply read_ok; unfold zlen in *; lia. Qed.

Definition inner_result (rest : list Z) (L : Z) : list Z :=
  if L <? zlen rest then
    let t := skipn (Z.to_nat L) rest in
    if zlen t <? 12 then rest
    else let M := le64 (skipn 4 t) in
         if M <=? zlen t - 12 then (if M =? 0 then t else firstn (Z.to_nat M) (skipn 12 t)) else rest
  else rest.
Lemma le64_firstn l n : (8 <= n)%nat -> le64 (firstn n l) = le64 l.
Proof. intros H. unfold le64. rewrite firstn_firstn. replace (Nat.min 8 n) with 8%nat by lia. reflexivity. Qed.
Lemma inner_ok s D p : 0 <= ms_pos s -> zlen D < 2^62 -> 8 < zlen D -> 0 <= le64 D ->
  (le64 D < zlen D - 8 -> 0 <= le64 (skipn 4 (skipn (Z.to_nat (le64 D)) (skipn 8 D)))) ->
  exists s', unpack_inner s (MS D p) = Ok s' /\ ms_data s' = inner_result (skipn 8 D) (le64 D).
Proof.
  intros HS HD H8 HL HM. destruct s as [sd sp]. cbn [ms_pos] in HS. unfold unpack_inner. rewrite seek_beg by (unfold zlen; lia). cbn [rbind fst].
  assert (R1 : ms_read (MS D 0) 16 8 = Ok (MS D 8, firstn 8 D)).
  { pose proof (read_small D 0 8 HD ltac:(lia) ltac:(lia)) as E. change (Z.of_nat 0) with 0 in E. change (Z.of_nat 8) with 8 in E. cbn [skipn] in E. rewrite E. do 3 f_equal. rewrite firstn_length. unfold zlen in *. lia. }
  rewrite R1. cbn [rbind fst snd]. assert (Z1 : zlen (firstn 8 D) = 8) by (unfold zlen in *; rewrite firstn_length; lia). rewrite Z1. change (8 <? 8) with false. cbn iota.
  rewrite clear_ok by exact HS. cbn [rbind ms_data]. set (rest := skipn 8 D) in *. assert (ZR : zlen rest = zlen D - 8) by (unfold rest, zlen in *; rewrite skipn_length; lia).
  assert (C1 : copy_from (MS [] 0) (MS D 8) (zlen D - 8) = Ok (MS rest (zlen rest), MS D (zlen D), zlen rest)).
  { pose proof (copy_rest D 8 (length rest) HD) as E. change (Z.of_nat 8) with 8 in E. change (skipn 8 D) with rest in E. rewrite firstn_all in E. fold (zlen rest) in E. rewrite <- ZR.
    rewrite E; [do 4 f_equal; unfold rest, zlen in *; rewrite skipn_length; lia|unfold zlen in *; lia|unfold zlen in *; lia|unfold zlen in *; lia]. }
  rewrite C1. cbn [rbind fst snd ms_data]. rewrite le64_firstn by lia. unfold inner_result. destruct (Z.ltb_spec (le64 D) (zlen rest)) as [LL|LL]; [|eexists; split; reflexivity].
  rewrite seek_beg by lia. cbn [rbind fst]. rewrite clear_ok by (apply zlen_nonneg). cbn [rbind ms_data]. set (L := le64 D) in *. set (t := skipn (Z.to_nat L) rest) in *.
  assert (ZT : zlen t = zlen rest - L) by (unfold t, zlen in *; rewrite skipn_length; lia).
  assert (C2 : copy_from (MS [] 0) (MS rest L) (zlen rest - L) = Ok (MS t (zlen t), MS rest (zlen rest), zlen t)).
  { pose proof (copy_rest rest (Z.to_nat L) (length t)) as E. fold t in E. rewrite firstn_all in E. fold (zlen t) in E. rewrite Z2Nat.id in E by lia. rewrite <- ZT.
    rewrite E; [do 4 f_equal; unfold zlen in *; lia|lia|unfold zlen in *; lia|unfold zlen in *; lia|unfold zlen in *; lia]. }
  rewrite C2. cbn [rbind fst snd ms_data]. rewrite seek_beg by (pose proof (zlen_nonneg t); lia). cbn [rbind fst].
  assert (R2 : ms_read (MS t 0) 16 12 = Ok (MS t (zlen (firstn 12 t)), firstn 12 t)).
  { pose proof (read_small t 0 12 ltac:(lia) ltac:(lia) ltac:(lia)) as E. change (Z.of_nat 0) with 0 in E. change (Z.of_nat 12) with 12 in E. cbn [skipn] in E. rewrite E. reflexivity. }
  rewrite R2. cbn [rbind fst snd ms_data].
  assert (ZB : zlen (firstn 12 t) = Z.min 12 (zlen t)) by (unfold zlen; rewrite firstn_length; lia).
  destruct (Z.ltb_spec (zlen (firstn 12 t)) 12) as [S|S]; (destruct (Z.ltb_spec (zlen t) 12) as [S'|S']; [|try lia]); [eexists; split; reflexivity|lia|].
  assert (EM : le64 (skipn 4 (firstn 12 t)) = le64 (skipn 4 t)) by (rewrite skipn_firstn_comm; apply le64_firstn; lia). rewrite EM. cbv zeta. specialize (HM ltac:(lia)).
  set (M := le64 (skipn 4 t)) in *. destruct (Z.leb_spec M (zlen t - 12)) as [LM|LM]; [|eexists; split; reflexivity].
  rewrite clear_ok by apply zlen_nonneg. cbn [rbind]. replace (zlen (firstn 12 t)) with 12 by lia. destruct (Z.eqb_spec M 0) as [E0|N0].
  - rewrite E0. pose proof (copy_all_ok [] 0 t 12) as E. unfold of_ideal in E. cbn [fst snd] in E. change (Z.of_nat 0) with 0 in E. change (Z.of_nat 12) with 12 in E. rewrite E; [|unfold zlen in *; cbn [length]; lia|lia|lia|intros _; cbn [length]; lia].
    cbn [rbind]. eexists. split; [reflexivity|]. cbn [ms_data]. apply overlay_new.
  - pose proof (copy_rest t 12 (Z.to_nat M)) as E. change (Z.of_nat 12) with 12 in E. rewrite Z2Nat.id in E by lia. rewrite E; [|lia|unfold zlen in *; lia|lia|lia].
    cbn [rbind]. eexists. split; reflexivity.
Qed.
Lemma whole_copy blob : zlen blob < 2^62 -> exists src n, copy_from ms_new (MS blob (zlen blob)) 0 = Ok (MS blob (zlen blob), src, n).
Proof.
  intros H. pose proof (copy_all_ok [] 0 blob (length blob)) as E. unfold of_ideal in E. cbn [fst snd] in E. change (Z.of_nat 0) with 0 in E. fold (zlen blob) in E. unfold ms_new.
  rewrite E; [|unfold zlen in *; cbn [length]; lia|lia|exact H|intros _; cbn [length]; lia]. rewrite overlay_new. cbn [plus]. eexists. eexists. reflexivity.
Qed.
Lemma read_two blob : zlen blob < 2^62 -> exists s, ms_read (MS blob 0) 16 2 = Ok (s, firstn 2 blob).
Proof. intros H. pose proof (read_small blob 0 2 H ltac:(lia) ltac:(lia)) as E. change (Z.of_nat 0) with 0 in E. change (Z.of_nat 2) with 2 in E. cbn [skipn] in E. rewrite E. eexists. reflexivity. Qed.
Lemma unpack_plain inflate body : zlen body + 2 < 2^62 -> 8 < zlen body -> 0 <= le64 body ->
  (le64 body < zlen body - 8 -> 0 <= le64 (skipn 4 (skipn (Z.to_nat (le64 body)) (skipn 8 body)))) ->
  unpack_value inflate ([1;1] ++ body) = Ok (inner_result (skipn 8 body) (le64 body)).
Proof.
  intros HB H8 HL HM. unfold unpack_value. set (blob := [1;1] ++ body). assert (ZB : zlen blob = zlen body + 2) by (unfold blob; rewrite zlen_app; change (zlen [1;1]) with 2; lia).
  destruct (whole_copy blob) as (src & n & E); [lia|]. rewrite E. cbn [rbind]. destruct (read_two blob) as (s & E2); [lia|]. rewrite E2. cbn [rbind snd].
  change (firstn 2 blob) with [1;1]. change (zlen [1;1] <? 2) with false. cbn iota. change (rd [1;1] 0) with (Ok 1). change (rd [1;1] 1) with (Ok 1). cbn [rbind]. change (((1 =? 1) || (1 =? 2)) && (1 =? 1)) with true. cbn iota.
  unfold unpack_outer. change (1 =? 1) with true. cbn iota.
  pose proof (copy_rest blob 2 (length body)) as C. change (Z.of_nat 2) with 2 in C. change (skipn 2 blob) with body in C. rewrite firstn_all in C. fold (zlen body) in C. replace (zlen blob - 2) with (zlen body) by lia.
  unfold ms_new. rewrite C; [|lia|unfold zlen in *; lia|unfold zlen in *; lia|lia]. cbn [rbind].
  destruct (inner_ok (MS blob (zlen blob)) body (zlen body)) as (s' & E3 & E4); [cbn [ms_pos]; apply zlen_nonneg|lia|exact H8|exact HL|exact HM|]. rewrite E3. cbn [rbind]. rewrite E4. reflexivity.
Qed.
Lemma unpack_zip inflate z body : zlen z + 18 < 2^62 -> inflate z = Some body -> zlen body < 2^62 -> 8 < zlen body -> 0 <= le64 body ->
  (le64 body < zlen body - 8 -> 0 <= le64 (skipn 4 (skipn (Z.to_nat (le64 body)) (skipn 8 body)))) ->
  unpack_value inflate ([2;1] ++ SIG_ZIP ++ z) = Ok (inner_result (skipn 8 body) (le64 body)).
Proof.
  intros HZ HI HB H8 HL HM. unfold unpack_value. set (blob := [2;1] ++ SIG_ZIP ++ z). assert (ZB : zlen blob = zlen z + 18) by (unfold blob; rewrite !zlen_app; change (zlen [2;1]) with 2; change (zlen SIG_ZIP) with 16; lia).
  destruct (whole_copy blob) as (src & n & E); [lia|]. rewrite E. cbn [rbind]. destruct (read_two blob) as (s & E2); [lia|]. rewrite E2. cbn [rbind snd].
  change (firstn 2 blob) with [2;1]. change (zlen [2;1] <? 2) with false. cbn iota. change (rd [2;1] 0) with (Ok 2). change (rd [2;1] 1) with (Ok 1). cbn [rbind]. change (((2 =? 1) || (2 =? 2)) && (1 =? 1)) with true. cbn iota.
  unfold unpack_outer. change (2 =? 1) with false. cbn iota.
  pose proof (read_small blob 2 16) as R. change (Z.of_nat 2) with 2 in R. change (Z.of_nat 16) with 16 in R. change (firstn 16 (skipn 2 blob)) with SIG_ZIP in R. rewrite R; [|lia|unfold zlen in *; lia|lia]. cbn [rbind fst snd ms_pos].
  change (zlen SIG_ZIP <? 16) with false. cbn iota. destruct (list_eq_dec Z.eq_dec SIG_ZIP SIG_ZIP) as [_|N]; [|congruence]. cbn [negb].
  change (Z.to_nat (Z.of_nat (2 + length SIG_ZIP))) with 18%nat. change (skipn 18 blob) with z. rewrite HI. cbn [rbind].
  destruct (inner_ok (MS blob (zlen blob)) body (zlen body)) as (s' & E3 & E4); [cbn [ms_pos]; apply zlen_nonneg|lia|exact H8|exact HL|exact HM|]. rewrite E3. cbn [rbind]. rewrite E4. reflexivity.
Qed.
(** anything that does not begin with 1 1 or 2 1 is handed out as it is *)
Lemma unpack_other inflate blob : zlen blob < 2^62 -> (forall r, blob <> [1;1] ++ r) -> (forall r, blob <> [2;1] ++ r) -> unpack_value inflate blob = Ok blob.
Proof.
  intros H N1 N2. unfold unpack_value. destruct (whole_copy blob H) as (src & n & E). rewrite E. cbn [rbind]. destruct (read_two blob H) as (s & E2). rewrite E2. cbn [rbind snd ms_data].
  destruct blob as [|a [|b r]]; [reflexivity|reflexivity|]. cbn [firstn]. change (zlen [a;b] <? 2) with false. cbn iota. change (rd [a;b] 0) with (Ok a). change (rd [a;b] 1) with (Ok b). cbn [rbind].
  destruct (Z.eqb_spec a 1) as [->|A1]; [destruct (Z.eqb_spec b 1) as [->|B]; [exfalso; apply (N1 r); reflexivity|reflexivity]|].
  destruct (Z.eqb_spec a 2) as [->|A2]; [destruct (Z.eqb_spec b 1) as [->|B]; [exfalso; apply (N2 r); reflexivity|reflexivity]|]. reflexivity.
Qed.
Lemma unpack_bad inflate sig z : length sig = 16%nat -> zlen z + 18 < 2^62 -> sig <> SIG_ZIP \/ inflate z = None -> unpack_value inflate ([2;1] ++ sig ++ z) = Ok ([2;1] ++ sig ++ z).
Proof.
  intros HS HZ HI. unfold unpack_value. set (blob := [2;1] ++ sig ++ z). assert (ZB : zlen blob = zlen z + 18) by (unfold blob; rewrite !zlen_app; change (zlen [2;1]) with 2; unfold zlen; lia).
  destruct (whole_copy blob) as (src & n & E); [lia|]. rewrite E. cbn [rbind]. destruct (read_two blob) as (s & E2); [lia|]. rewrite E2. cbn [rbind snd].
  change (firstn 2 blob) with [2;1]. change (zlen [2;1] <? 2) with false. cbn iota. change (rd [2;1] 0) with (Ok 2). change (rd [2;1] 1) with (Ok 1). cbn [rbind]. change (((2 =? 1) || (2 =? 2)) && (1 =? 1)) with true. cbn iota.
  unfold unpack_outer. change (2 =? 1) with false. cbn iota.
  assert (ES : firstn 16 (skipn 2 blob) = sig) by (change (skipn 2 blob) with (sig ++ z); rewrite firstn_app, <- HS, firstn_all, Nat.sub_diag, firstn_O, app_nil_r; reflexivity).
  pose proof (read_small blob 2 16) as R. change (Z.of_nat 2) with 2 in R. change (Z.of_nat 16) with 16 in R. rewrite ES in R. rewrite R; [|lia|unfold zlen in *; lia|lia]. cbn [rbind fst snd ms_pos].
  replace (zlen sig <? 16) with false by (unfold zlen; rewrite HS; reflexivity). destruct (list_eq_dec Z.eq_dec sig SIG_ZIP) as [EQ|NE]; cbn [negb]; [|reflexivity].
  destruct HI as [HI|HI]; [congruence|]. rewrite HS. change (Z.to_nat (Z.of_nat (2 + 16))) with 18%nat.
  assert (EZ : skipn 18 blob = z) by (change (skipn 18 blob) with (skipn 16 (sig ++ z)); rewrite skipn_app, <- HS, skipn_all, Nat.sub_diag; reflexivity). rewrite EZ, HI. reflexivity.
Qed.

(** the bodies of the specification *)
Lemma body1_result descr : descr <> [] -> zlen descr < 2^61 -> le64 (body1 descr) = zlen descr /\ inner_result (skipn 8 (body1 descr)) (le64 (body1 descr)) = descr /\ 8 < zlen (body1 descr) /\ zlen (body1 descr) = zlen descr + 8.
Proof.
  intros HN HL. assert (E : le64 (body1 descr) = zlen descr) by (unfold body1; apply num8_val; unfold zlen in *; lia). rewrite E.
  assert (Z8 : zlen (body1 descr) = zlen descr + 8) by (unfold body1; rewrite zlen_app; change (zlen (num8 (Z.of_nat (length descr)))) with 8; lia).
  assert (0 < zlen descr) by (destruct descr; [congruence|rewrite zlen_cons; pose proof (zlen_nonneg descr); lia]).
  repeat apply conj; [reflexivity| |lia|exact Z8]. change (skipn 8 (body1 descr)) with descr. unfold inner_result. rewrite Z.ltb_irrefl. reflexivity.
Qed.
Lemma body2_result descr mid data more : length mid = 4%nat -> zlen descr + zlen data + zlen more < 2^61 ->
  let b := body2 descr mid data more in
  0 <= le64 b /\ 8 < zlen b /\ zlen b = zlen descr + zlen data + zlen more + 20 /\ (le64 b < zlen b - 8 -> 0 <= le64 (skipn 4 (skipn (Z.to_nat (le64 b)) (skipn 8 b)))) /\
  inner_result (skipn 8 b) (le64 b) = match data with [] => mid ++ num8 0 ++ more | _ => data end.
Proof.
  intros HM HL b. pose proof (zlen_nonneg descr). pose proof (zlen_nonneg data). pose proof (zlen_nonneg more).
  set (t := mid ++ num8 (Z.of_nat (length data)) ++ data ++ more). assert (EB : b = num8 (Z.of_nat (length descr)) ++ descr ++ t) by (unfold b, body2, body1, t; rewrite <- app_assoc; reflexivity).
  assert (E : le64 b = zlen descr) by (rewrite EB; apply num8_val; unfold zlen in *; lia).
  assert (ZT : zlen t = 12 + zlen data + zlen more) by (unfold t; rewrite !zlen_app; change (zlen (num8 (Z.of_nat (length data)))) with 8; unfold zlen; lia).
  assert (Z8 : zlen b = zlen descr + zlen data + zlen more + 20) by (rewrite EB, !zlen_app, ZT; change (zlen (num8 (Z.of_nat (length descr)))) with 8; lia).
  assert (ER : skipn 8 b = descr ++ t) by (rewrite EB; reflexivity).
  assert (ET : skipn (Z.to_nat (zlen descr)) (descr ++ t) = t) by (unfold zlen; rewrite Nat2Z.id, skipn_app, skipn_all, Nat.sub_diag; reflexivity).
  assert (E4 : skipn 4 t = num8 (Z.of_nat (length data)) ++ data ++ more) by (unfold t; rewrite skipn_app, <- HM, skipn_all, Nat.sub_diag; reflexivity).
  assert (EM : le64 (skipn 4 t) = zlen data) by (rewrite E4; apply num8_val; unfold zlen in *; lia).
  rewrite E, ER, ET, EM. repeat apply conj; [lia|lia|exact Z8|lia|]. unfold inner_result. rewrite ET, EM.
  assert (zlen (descr ++ t) = zlen descr + zlen t) by apply zlen_app. destruct (Z.ltb_spec (zlen descr) (zlen (descr ++ t))); [|lia]. cbv zeta.
  destruct (Z.ltb_spec (zlen t) 12); [lia|]. destruct (Z.leb_spec (zlen data) (zlen t - 12)); [|lia]. destruct (Z.eqb_spec (zlen data) 0) as [E0|N0].
  - assert (data = []) by (apply length_zero_iff_nil; unfold zlen in E0; lia). unfold t. subst data. reflexivity.
  - assert (E12 : skipn 12 t = data ++ more) by (change 12%nat with (4 + 8)%nat; rewrite <- skipn_plus, E4; reflexivity). rewrite E12.
    unfold zlen. rewrite Nat2Z.id, firstn_app, firstn_all, Nat.sub_diag, firstn_O, app_nil_r. destruct data; [exfalso; apply N0; reflexivity|reflexivity].
Qed.
Lemma no_descr inflate : unpack_value inflate ([1;1] ++ body1 []) = Ok (repeat 0 8).
Proof. vm_compute. reflexivity. Qed.
