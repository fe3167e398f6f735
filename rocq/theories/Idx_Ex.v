(** A test for [index_ok], for examples. *)
From Verif Require Import Prelude Lists Leaf_Model Leaf_Spec Leaf_Proofs Leaf_Walk Idx_Model Idx_Spec Idx_Order Idx_Proofs Idx_Tree.
Ltac Zify.zify_post_hook ::= idtac.

Definition bytesb (p : list Z) : bool := forallb (fun b => (0 <=? b) && (b <? 256)) p.
Definition eqb (a b : list Z) : bool := if list_eq_dec Z.eq_dec a b then true else false.
Definition recsb (a b : list (Z * list Z)) : bool := eqb (map fst a) (map fst b) && (if list_eq_dec (list_eq_dec Z.eq_dec) (map snd a) (map snd b) then true else false).
Definition pageb (f : list Z) (ps o : Z) (g : list Z -> bool) : bool := match get f o ps with Ok p => (zlen p =? ps) && bytesb p && g p | _ => false end.
Section test.
Variables (f : list Z) (ps len mul : Z).
Fixpoint storedb (t : tree) : bool :=
  match t with
  | Leaf o recs => pageb f ps o (fun p => match unpack_leafpage len ps p with Ok r => recsb r recs | _ => false end && (zlen recs =? hd_field p 2 2) && (zlen recs <? 2^15) && (hd_field p 28 2 <? 2^15) && (30 + hd_field p 28 2 * zlen recs <=? ps))
  | Node o kids => pageb f ps o (fun p => (Z.land (nth 0 p 0) 2 =? 0) && (0 <? hd_field p 2 2) && (hd_field p 2 2 <? 2^15) && (hd_field p 2 2 =? zlen kids) && (12 + (len + 8) * zlen kids <=? ps) &&
      forallb (fun i => match nth_error kids i with Some t => le_val (rev (sub p (Z.to_nat (12 + (len + 8) * Z.of_nat i + len + 4)) 4)) * mul =? t_off t | None => true end) (seq 0 (length kids))) && (fix all l := match l with [] => true | t :: r => storedb t && all r end) kids
  end.
Fixpoint chainedb (l : list Z) : bool :=
  match l with
  | [] => true
  | a :: r => pageb f ps a (fun p => match r with [] => hd_field p 8 4 =? 2^32 - 1 | b :: _ => negb (hd_field p 8 4 =? 2^32 - 1) && (hd_field p 8 4 * mul =? b) end) && chainedb r
  end.
Fixpoint keyedb (t : tree) : bool :=
  match t with
  | Leaf _ _ => true
  | Node o kids => forallb (fun i => match nth_error kids i with
       | Some t => match last (map Some (t_recs t)) None, get f (o + 12 + (len + 8) * Z.of_nat i) len, get f (o + 12 + (len + 8) * Z.of_nat i + len) 4 with Some (num, key), Ok a, Ok b => eqb a key && eqb b (rev (le_bytes 4 num)) | _, _, _ => false end
       | None => true end) (seq 0 (length kids)) && (fix all l := match l with [] => true | t :: r => keyedb t && all r end) kids
  end.
End test.
Definition recb (len : Z) (r : Z * list Z) : bool := (0 <=? fst r) && (fst r <? 2^32) && (zlen (snd r) =? len) && bytesb (snd r).
Fixpoint sortedb (l : list (list Z)) : bool := match l with a :: (b :: _) as r => key_ltb a b && sortedb r | _ => true end.
Definition idx_chk (x : ix) (f : list Z) (t : tree) : bool :=
  (0 <? x_len x) && (x_len x <? 2^15) && (30 <? x_ps x) && (x_ps x <=? 2^16) && bytesb f && storedb f (x_ps x) (x_len x) (x_mul x) t && chainedb f (x_ps x) (x_mul x) (map fst (t_leaves t)) && keyedb f (x_len x) t &&
  eqb (nodup Z.eq_dec (t_pages t)) (t_pages t) && forallb (fun o => (0 <? o) && (o mod x_ps x =? 0) && (o + x_ps x <=? zlen f) && ((x_start x + 8 <=? o) || (o + x_ps x <=? x_start x))) (t_pages t) &&
  sortedb (map snd (t_recs t)) && forallb (recb (x_len x)) (t_recs t) && (x_root x =? t_off t) &&
  match get f (x_start x) 8 with Ok h => (le_val (sub h 0 4) * x_mul x =? t_off t) && (le_val (sub h 4 2) =? x_len x) | _ => false end.

Lemma bytesb_ok p : bytesb p = true -> bytes_ok p.
Proof. unfold bytesb. rewrite forallb_forall. intros H. apply Forall_forall. intros b Hb. specialize (H b Hb). unfold byte_ok. apply andb_prop in H. destruct H. lia. Qed.
Lemma eqb_ok a b : eqb a b = true -> a = b.
Proof. unfold eqb. destruct (list_eq_dec Z.eq_dec a b); [auto|discriminate]. Qed.
Lemma recsb_ok a : forall b, recsb a b = true -> a = b.
Proof.
  unfold recsb. intros b H. apply andb_prop in H. destruct H as [H1 H2]. apply eqb_ok in H1. destruct (list_eq_dec _ (map snd a) (map snd b)) as [H3|]; [|discriminate]. clear H2. revert b H1 H3.
  induction a as [|[n k] a IH]; intros [|[m j] b] H1 H3; cbn [map fst snd] in *; try discriminate; [reflexivity|]. injection H1 as -> H1. injection H3 as -> H3. f_equal. now apply IH.
Qed.
Lemma pageb_ok f ps o g : pageb f ps o g = true -> exists p, page_at (get f) ps o p /\ g p = true.
Proof.
  unfold pageb. destruct (get f o ps) as [p| | |] eqn:E; try discriminate. intros H. apply andb_prop in H. destruct H as [H H3]. apply andb_prop in H. destruct H as [H1 H2]. exists p. split; [|exact H3]. split; [exact E|]. split; [lia|now apply bytesb_ok].
Qed.
Lemma seq_all {A} (l : list A) (g : nat -> bool) : forallb g (seq 0 (length l)) = true -> forall i t, nth_error l i = Some t -> g i = true.
Proof. rewrite forallb_forall. intros H i t Hi. apply H. apply in_seq. assert (nth_error l i <> None) as HN by congruence. apply nth_error_Some in HN. lia. Qed.
Lemma storedb_ok f ps len mul t : storedb f ps len mul t = true -> stored (get f) ps len mul t.
Proof.
  induction t as [o r|o kids IH] using tree_nested; cbn [storedb stored]; intros H.
  - apply pageb_ok in H. destruct H as (p & HP & H). exists p. split; [exact HP|]. repeat (apply andb_prop in H; destruct H as [H ?]). destruct (unpack_leafpage len ps p) as [q| | |] eqn:E; try discriminate. apply recsb_ok in H. subst q.
    split; [reflexivity|]. repeat split; lia.
  - apply andb_prop in H. destruct H as [H HK]. apply pageb_ok in H. destruct H as (p & HP & H). exists p. split; [exact HP|]. apply andb_prop in H. destruct H as [H HE]. repeat (apply andb_prop in H; destruct H as [H ?]).
    split; [lia|]. split; [lia|]. split; [lia|]. split; [lia|]. split.
    + intros i t Hi. pose proof (seq_all kids _ HE i t Hi) as HT. cbn beta in HT. rewrite Hi in HT. lia.
    + clear - IH HK. induction kids as [|t kids IHk]; [exact I|]. apply andb_prop in HK. destruct HK as [K1 K2]. split; [exact (Forall_inv IH K1)|exact (IHk (Forall_inv_tail IH) K2)].
Qed.
Lemma chainedb_ok f ps mul l : chainedb f ps mul l = true -> chained (get f) ps mul l.
Proof.
  induction l as [|a l IH]; cbn [chainedb chained]; intros H; [exact I|]. apply andb_prop in H. destruct H as [H1 H2]. split; [|now apply IH]. apply pageb_ok in H1. destruct H1 as (p & HP & H). exists p. split; [exact HP|]. destruct l; [lia|]. apply andb_prop in H. lia.
Qed.
Lemma keyedb_ok f len t : keyedb f len t = true -> keyed f len t.
Proof.
  induction t as [o r|o kids IH] using tree_nested; cbn [keyedb keyed]; intros H; [exact I|]. apply andb_prop in H. destruct H as [H HK]. split.
  - intros i t Hi. pose proof (seq_all kids _ H i t Hi) as HT. cbn beta in HT. rewrite Hi in HT. destruct (last (map Some (t_recs t)) None) as [[num key]|]; [|discriminate]. exists num, key. split; [reflexivity|].
    destruct (get f (o + 12 + (len + 8) * Z.of_nat i) len) as [a| | |]; try discriminate. destruct (get f (o + 12 + (len + 8) * Z.of_nat i + len) 4) as [b| | |]; try discriminate. apply andb_prop in HT. destruct HT as [T1 T2]. apply eqb_ok in T1, T2. now subst.
  - clear - IH HK. induction kids as [|t kids IHk]; [exact I|]. apply andb_prop in HK. destruct HK as [K1 K2]. split; [exact (Forall_inv IH K1)|exact (IHk (Forall_inv_tail IH) K2)].
Qed.
Lemma sortedb_ok l : sortedb l = true -> sorted l.
Proof. induction l as [|a [|b l] IH]; cbn [sortedb sorted]; intros H; try exact I. apply andb_prop in H. destruct H as [H1 H2]. split; [now apply ltb_lt|now apply IH]. Qed.
Lemma idx_chk_ok x f t : idx_chk x f t = true -> index_ok x f t.
Proof.
  unfold idx_chk. intros H. apply andb_prop in H. destruct H as [H Hh]. apply andb_prop in H. destruct H as [H Hr]. apply andb_prop in H. destruct H as [H Hrc]. apply andb_prop in H. destruct H as [H Hso]. apply andb_prop in H. destruct H as [H Hpl].
  apply andb_prop in H. destruct H as [H Hnd]. apply andb_prop in H. destruct H as [H Hk]. apply andb_prop in H. destruct H as [H Hc]. apply andb_prop in H. destruct H as [H Hst]. apply andb_prop in H. destruct H as [H Hb]. repeat (apply andb_prop in H; destruct H as [H ?]).
  constructor.
  - lia.
  - lia.
  - now apply bytesb_ok.
  - now apply storedb_ok.
  - now apply chainedb_ok.
  - now apply keyedb_ok.
  - split; [apply eqb_ok in Hnd; rewrite <- Hnd; apply NoDup_nodup|]. intros o Ho. rewrite forallb_forall in Hpl. specialize (Hpl o Ho). repeat (apply andb_prop in Hpl; destruct Hpl as [Hpl ?]). repeat split; lia.
  - now apply sortedb_ok.
  - apply Forall_forall. intros r Hin. rewrite forallb_forall in Hrc. specialize (Hrc r Hin). unfold recb in Hrc. repeat (apply andb_prop in Hrc; destruct Hrc as [Hrc ?]). split; [lia|]. split; [lia|now apply bytesb_ok].
  - lia.
  - destruct (get f (x_start x) 8) as [h| | |]; try discriminate. exists h. apply andb_prop in Hh. split; [reflexivity|]. lia.
Qed.

(** ** Small files *)
Definition lf (len ps prev next : Z) (recs : list (Z * list Z)) : list Z :=
  match pack_leafpage true len ps (flat recs) (length recs) (le_bytes 4 0 ++ le_bytes 4 prev ++ le_bytes 4 next ++ repeat 0 (Z.to_nat (ps - 12))) with Ok (p, true) => p | _ => [] end.
Definition br (ps : Z) (es : list (list Z * Z * Z)) : list Z :=
  let e := concat (map (fun e => fst (fst e) ++ rev (le_bytes 4 (snd (fst e))) ++ rev (le_bytes 4 (snd e))) es) in
  le_bytes 2 0 ++ le_bytes 2 (zlen es) ++ repeat 255 8 ++ e ++ repeat 0 (Z.to_nat (ps - 12 - zlen e)).
(** page 0: no free pages; the description of the index at 16 *)
Definition p0 (ps len root : Z) : list Z := repeat 0 16 ++ le_bytes 4 root ++ le_bytes 4 len ++ repeat 0 (Z.to_nat (ps - 24)).
