(** Theorems about elements of a container and the streams over them. *)
From Verif Require Import Prelude Lists Stream_Model Elem_Model Elem_Spec Elem_Proofs.
Ltac Zify.zify_post_hook ::= idtac.

(** ** C149: streams over an element share its bytes and have cursors of their own *)
Theorem C149_streams_partial : forall l q xs, zlen l < 2^31 -> all_covered (IE l []) xs ->
  exists q', el_steps (OE (MS l q) []) xs =
  Ok (OE (MS (ie_bytes (fst (ideal_steps (IE l []) xs))) q') (map Z.of_nat (ie_cur (fst (ideal_steps (IE l []) xs)))), snd (ideal_steps (IE l []) xs)).
Proof. intros l q xs Hl C. exact (steps_ok xs (IE l []) q (conj Hl (Forall_nil _)) C). Qed.
Print Assumptions C149_streams_partial.
Definition ex_ops : list eop :=
  [ENew; ENew; ERead 0 2; EWrite 1 [9; 9; 9]; ERead 0 5; ESeek 0 (-3) Cur; EWrite 0 [7; 7; 7; 7; 7]; ESeek 1 100 Beg; ESize 1; ESeek 1 (-2) Cur; ERead 1 9; EAll [4; 5; 6; 7; 8; 9; 10; 11]; ERead 1 4;
   ESeek 0 0 End_; EWrite 0 [1]; ENew; ERead 2 3; EAllFrom [1; 2; 3; 4; 5; 6; 7; 8; 9; 10] 4; ESize 0].
Example C149_nonvacuous : all_covered (IE [1; 2; 3; 4] []) ex_ops /\
  snd (ideal_steps (IE [1; 2; 3; 4] []) ex_ops) = [ENum 0; ENum 0; EBytes [1; 2]; ENum 3; EBytes [9; 4]; ENum 1; ENum 5; ENum 6; ENum 6; ENum 4; EBytes [7; 7]; ENum 8; EBytes [10; 11]; ENum 8; ENum 1; ENum 0;
    EBytes [4; 5; 6]; ENum 10; ENum 10] /\
  ie_cur (fst (ideal_steps (IE [1; 2; 3; 4] []) ex_ops)) = [9; 8; 3]%nat /\ ie_bytes (fst (ideal_steps (IE [1; 2; 3; 4] []) ex_ops)) = [1; 2; 3; 4; 5; 6; 7; 8; 9; 10].
Proof.
  split; [|split; [|split]; vm_compute; reflexivity].
  vm_compute. repeat match goal with |- _ /\ _ => split | |- True => exact Logic.I | |- Forall _ [] => constructor | |- Forall _ (_ :: _) => constructor | |- (_ <= _)%nat => lia | |- _ = _ => reflexivity | |- _ => intros; (discriminate || reflexivity) end.
Qed.
(** from 2 GiB on *)
Theorem C149_large_refuted : forall l q p n, zlen l < 2^62 -> 2^31 <= p < 2^32 -> 0 <= n < 2^31 -> el_read (MS l q) p n = UB.
Proof. exact big_read. Qed.
Print Assumptions C149_large_refuted.
(** a cursor left behind the end when the contents are replaced by shorter ones *)
Theorem C149_shorter_refuted : forall l q d c n, zlen l < 2^31 -> zlen d < c < 2^31 -> exists m, el_step (OE (MS l q) [c]) (EAll d) = Ok (OE m [c], ENum (zlen d)) /\
  el_step (OE m [c]) (ERead 0 n) = Throw /\ (forall e, el_step (OE m [c]) (EWrite 0 e) = Throw).
Proof.
  intros l q d c n Hl Hd. exists (MS d (zlen d)). cbn [el_step oe_m oe_pos nth_error]. rewrite all_in by lia. split; [reflexivity|]. destruct (behind d (zlen d) c (Z.of_nat n) Hd) as [-> HW]. split; [reflexivity|].
  intros e. rewrite HW. reflexivity.
Qed.
Print Assumptions C149_shorter_refuted.
Example C149_refuted_nonvacuous : el_steps (OE (MS [1; 2; 3] 0) []) [ENew; ESeek 0 3 Beg; EAll [5]; ERead 0 1] = Throw /\ el_read (MS [1; 2; 3] 0) 3000000000 1 = UB.
Proof. split; vm_compute; reflexivity. Qed.

(** ** C150: a seek from the end goes back from the end; no seek goes before the start *)
Theorem C150_end_refuted : forall l q c o n, zlen l < 2^31 -> -2^31 < o < 0 -> zlen l - o < 2^31 -> exists s,
  el_step (OE (MS l q) [c]) (ESeek 0 o End_) = Ok (s, ENum (zlen l - o)) /\ el_step s (ERead 0 n) = Throw.
Proof.
  intros l q c o n Hl Ho Hs. pose proof (zlen_nonneg l). exists (OE (MS l q) [zlen l - o]). cbn [el_step oe_m oe_pos nth_error ms_data]. rewrite from_end by lia. split; [reflexivity|].
  destruct (behind l q (zlen l - o) (Z.of_nat n) ltac:(lia)) as [-> _]. reflexivity.
Qed.
Print Assumptions C150_end_refuted.
Theorem C150_start_refuted : forall l q c o n, zlen l < 2^31 -> 0 <= c < 2^31 -> -2^31 <= c + o < 0 -> Z.of_nat n < 2^31 -> exists s,
  el_step (OE (MS l q) [c]) (ESeek 0 o Cur) = Ok (s, ENum (c + o)) /\ el_step s (ERead 0 n) = UB.
Proof.
  intros l q c o n Hl Hc Ho Hn. pose proof (zlen_nonneg l). exists (OE (MS l q) [c + o]). cbn [el_step oe_m oe_pos nth_error ms_data]. rewrite before by lia. split; [reflexivity|].
  rewrite before_read by lia. reflexivity.
Qed.
Print Assumptions C150_start_refuted.
Example C150_nonvacuous : el_steps (OE (MS [1; 2; 3; 4] 0) [0]) [ESeek 0 (-1) End_] = Ok (OE (MS [1; 2; 3; 4] 0) [5], [ENum 5]) /\
  el_steps (OE (MS [1; 2; 3; 4] 0) [1]) [ESeek 0 (-2) Cur] = Ok (OE (MS [1; 2; 3; 4] 0) [-1], [ENum (-1)]) /\ el_steps (OE (MS [1; 2; 3; 4] 0) [1]) [ESeek 0 (-2) Cur; ERead 0 2] = UB.
Proof. split; [vm_compute; reflexivity|]. split; vm_compute; reflexivity. Qed.

(** ** C151: the contents of an element can be replaced as a whole, and a part be taken from another stream *)
Theorem C151_whole : forall l q d, zlen l < 2^31 -> zlen d < 2^31 -> el_write_all (MS l q) d = Ok (MS d (zlen d), zlen d).
Proof. exact all_in. Qed.
Print Assumptions C151_whole.
Theorem C151_from_stream : forall l q d p, zlen l < 2^31 -> zlen d < 2^31 -> el_put_all (MS l q) (MS d (Z.of_nat p)) = Ok (MS d (zlen d), MS d (zlen d), zlen d).
Proof. exact all_from. Qed.
Print Assumptions C151_from_stream.
Theorem C151_part : forall l q sl sp p n, zlen l < 2^31 -> zlen sl < 2^31 -> (p <= length l)%nat -> (0 < n)%nat -> Z.of_nat n < 2^31 -> (sp < length sl)%nat ->
  el_put (MS l q) (MS sl (Z.of_nat sp)) (Z.of_nat p) (Z.of_nat n) =
  let d := firstn n (skipn sp sl) in Ok (MS (written l p d) (Z.of_nat (p + length d)), MS sl (Z.of_nat (sp + length d)), zlen d).
Proof. exact put_part. Qed.
Print Assumptions C151_part.
Example C151_nonvacuous : el_write_all (MS [1; 2; 3; 4] 2) [7; 8] = Ok (MS [7; 8] 2, 2) /\ el_write_all (MS [1; 2] 1) [] = Ok (MS [] 0, 0) /\ el_write_all (MS [1] 1) [5; 6; 7] = Ok (MS [5; 6; 7] 3, 3) /\
  el_put_all (MS [1; 2; 3; 4] 2) (MS [7; 8] 1) = Ok (MS [7; 8] 2, MS [7; 8] 2, 2) /\ el_put (MS [1; 2; 3; 4] 0) (MS [7; 8; 9] 1) 1 9 = Ok (MS [1; 8; 9; 4] 3, MS [7; 8; 9] 3, 2).
Proof. repeat apply conj; vm_compute; reflexivity. Qed.

(** ** C152: reading into a vector fills the vector *)
Theorem C152_vector_refuted : forall l q p n caller, zlen l < 2^31 -> (p <= length l)%nat -> (0 < n)%nat -> Z.of_nat n < 2^31 ->
  el_read_vec (MS l q) caller (Z.of_nat p) (Z.of_nat n) = Ok (MS l (Z.of_nat (p + length (firstn n (skipn p l)))), caller, zlen (firstn n (skipn p l))).
Proof. exact vec_lost. Qed.
Print Assumptions C152_vector_refuted.
Example C152_nonvacuous : el_read_vec (MS [1; 2; 3; 4] 0) [0; 0; 0] 1 3 = Ok (MS [1; 2; 3; 4] 4, [0; 0; 0], 3).
Proof. vm_compute. reflexivity. Qed.
