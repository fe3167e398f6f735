(** Theorems about the answer whether an element of a container is a container, and about making one inside another. *)
From Verif Require Import Prelude Lists Stream_Model Cf_Model Elem_Model Kind_Model Kind_Spec Kind_Proofs.
Ltac Zify.zify_post_hook ::= idtac.

(** ** C205: whether an element is a container is answered about its present contents *)
(** the element is stored (compressed in a compressed container), or new and empty; missing: writing between a question and the
    next closing, contents without an answer *)
Theorem C205_present_partial : forall deflate inflate zipped selfz junk st l xs, (forall d, inflate (deflate d) = d) -> (selfz = true -> zipped = true) -> length junk = 31%nat ->
  st = Some (if zipped then deflate l else l) \/ st = None /\ l = [] -> zlen l < 2^31 -> Forall byte_ok l -> all_fit (Some l) xs -> closed_first false xs ->
  exists f os, ksteps deflate inflate zipped selfz junk (VF true st None KUnknown false) xs = Ok (f, os) /\ all_told (Some l) xs os.
Proof.
  intros deflate inflate zipped selfz junk st l xs HD HZ HJ B HL HB F A. destruct (from_start deflate inflate zipped selfz junk HD HZ HJ st l xs B HL HB F A) as (f & os & E & T & _). exists f, os. split; [exact E|exact T].
Qed.
Print Assumptions C205_present_partial.
Definition ex205_empty : list Z := [255; 255; 255; 127; 0; 2; 0; 0; 0; 0; 0; 0; 0; 0; 0; 0].
Definition ex205_block : list Z := [13; 10] ++ repeat 48 8 ++ [32] ++ repeat 49 8 ++ [32] ++ repeat 55 8 ++ [32; 13; 10].
(** a container with a free block at 47 *)
Definition ex205_cont : list Z := [47; 0; 0; 0] ++ repeat 0 12 ++ ex205_block ++ ex205_block ++ [0].
Definition ex205_ops : list kop :=
  [KAsk; KGet; KClose; KAll ex205_cont; KAsk; KAsk; KClose; KPart 16 [14]; KAsk; KReplace ex205_empty; KAsk; KClose; KFrom [1; 2; 3] 2; KGet; KAsk; KRemove; KAll ex205_empty; KAsk; KGet].
Example C205_nonvacuous : all_fit (Some [7; 8]) ex205_ops /\ closed_first false ex205_ops /\ looks ex205_cont /\ ~ looks [7; 8] /\
  match ksteps (map (Z.add 1)) (map (fun x => x - 1)) true true (repeat 9 31) (VF true (Some [8; 9]) None KUnknown false) ex205_ops with
  | Ok (_, os) => os = [OBool false; OBytes [7; 8]; ODone; ODone; OBool true; OBool true; ODone; ODone; OBool false; ODone; OBool true; ODone; ODone; OBytes [1; 2; 3]; OBool false; ODone; ODone; OBool false; OBytes []]
  | _ => False end.
Proof.
  assert (B : forall l, forallb (fun z => (0 <=? z) && (z <? 256)) l = true -> Forall byte_ok l).
  { intros l H. apply Forall_forall. intros z Hz. rewrite forallb_forall in H. specialize (H z Hz). unfold byte_ok. lia. }
  split; [|split; [|split; [|split]]].
  - unfold ex205_ops. cbn [all_fit fits now_holds].
    repeat match goal with |- _ /\ _ => split | |- True => exact Logic.I | |- Forall byte_ok _ => apply B; vm_compute; reflexivity | |- answerable _ => first [left; vm_compute; reflexivity | right; left; vm_compute; reflexivity | right; right; vm_compute; discriminate] | |- (_ <= _)%nat => apply Nat.leb_le; vm_compute; reflexivity | |- _ < _ => vm_compute; reflexivity end.
  - vm_compute. repeat split.
  - right. split; [|right; split].
    + exists (firstn 16 ex205_cont), (repeat 48 8), (repeat 49 8), (repeat 55 8), (ex205_block ++ [0]). vm_compute. repeat split.
    + exists (firstn 47 ex205_cont), (repeat 48 8), (repeat 49 8), (repeat 55 8), [0]. vm_compute. repeat split.
    + vm_compute. reflexivity.
  - intros [L|[L _]]; [discriminate|]. apply block_fits in L. cbn in L. lia.
  - vm_compute. reflexivity.
Qed.
(** contents replaced after a question: the answer is the old one, whatever the old and the new contents are *)
Theorem C205_stale_refuted : forall deflate inflate zipped selfz junk d1 d2, (forall d, inflate (deflate d) = d) -> (selfz = true -> zipped = true) -> length junk = 31%nat ->
  zlen d1 < 2^31 -> Forall byte_ok d1 -> answerable d1 -> zlen d2 < 2^31 -> Forall byte_ok d2 -> (looks d1 <-> ~ looks d2) ->
  exists f b, ksteps deflate inflate zipped selfz junk (VF true (Some (if zipped then deflate d1 else d1)) None KUnknown false) [KAsk; KAll d2; KAsk; KGet] = Ok (f, [OBool b; ODone; OBool b; OBytes d2]) /\
    (b = true <-> looks d1) /\ ~ (b = true <-> looks d2).
Proof.
  intros deflate inflate zipped selfz junk d1 d2 HD HZ HJ HL HB A HL2 HB2 N. destruct (stale deflate inflate zipped selfz junk HD HZ HJ _ d1 d2 (or_introl eq_refl) HL HB A HL2 HB2) as (f & b & E & L). exists f, b.
  split; [exact E|]. split; [exact L|]. tauto.
Qed.
Print Assumptions C205_stale_refuted.
Example C205_stale_nonvacuous : (looks [7; 8] <-> ~ looks ex205_empty) /\ (looks ex205_empty <-> ~ looks [7; 8]) /\ answerable ex205_empty /\ answerable [7; 8].
Proof.
  assert (N : ~ looks [7; 8]) by (intros [L|[L _]]; [discriminate|]; apply block_fits in L; cbn in L; lia).
  assert (Y : looks ex205_empty) by (left; reflexivity). split; [tauto|]. split; [tauto|]. split; [left; reflexivity|right; left; vm_compute; reflexivity].
Qed.
(** contents whose first number is close to 2^32: an exception instead of the answer no *)
Theorem C205_no_answer_refuted : forall deflate inflate zipped selfz junk l, (forall d, inflate (deflate d) = d) -> (selfz = true -> zipped = true) -> length junk = 31%nat ->
  zlen l < 2^31 -> Forall byte_ok l -> length l <> 16%nat -> 2^32 <= first_word l + 31 < 2^32 + zlen l ->
  ksteps deflate inflate zipped selfz junk (VF true (Some (if zipped then deflate l else l)) None KUnknown false) [KAsk] = Throw /\ ~ looks l.
Proof.
  intros deflate inflate zipped selfz junk l HD HZ HJ HL HB H16 HW. apply no_answer; auto; [left; reflexivity|]. unfold answerable. lia.
Qed.
Print Assumptions C205_no_answer_refuted.
Example C205_no_answer_nonvacuous : 2^32 <= first_word ([255; 255; 255; 255] ++ repeat 65 40) + 31 < 2^32 + zlen ([255; 255; 255; 255] ++ repeat 65 40) /\ 2^32 <= first_word [225] + 31 < 2^32 + zlen [225].
Proof. unfold first_word. split; vm_compute; split; (discriminate || reflexivity). Qed.

(** ** C206: a container made under a name is there *)
(** [l] = what the element holds at last; a container is given back exactly if it was empty or held a container; an empty one holds
    an empty container then, others are as they were.  Missing: elements asked about since they were opened *)
Theorem C206_made_partial : forall deflate inflate zipped selfz junk st l0 xs l d, (forall d, inflate (deflate d) = d) -> (selfz = true -> zipped = true) -> length junk = 31%nat ->
  st = Some (if zipped then deflate l0 else l0) \/ st = None /\ l0 = [] -> zlen l0 < 2^31 -> Forall byte_ok l0 -> all_fit (Some l0) xs ->
  closed_first false (xs ++ [KAll d]) -> finally (Some l0) xs = Some l -> answerable l ->
  exists f os f' b f'', ksteps deflate inflate zipped selfz junk (VF true st None KUnknown false) xs = Ok (f, os) /\ create_catalog inflate zipped junk (Some f) = Ok (f', b) /\
    (b = true <-> l = [] \/ looks l) /\ kstep deflate inflate zipped selfz junk f' KGet = Ok (f'', OBytes (if zlen l =? 0 then [255; 255; 255; 127; 0; 2; 0; 0; 0; 0; 0; 0; 0; 0; 0; 0] else l)).
Proof.
  intros deflate inflate zipped selfz junk st l0 xs l d HD HZ HJ B HL HB F A N AN. assert (NN : finally (Some l0) xs <> None) by (rewrite N; discriminate). destruct (not_asked d xs false (Some l0) A NN) as [NA CF].
  destruct (from_start deflate inflate zipped selfz junk HD HZ HJ st l0 xs B HL HB F CF) as (f & os & E & _ & H & K). rewrite N in H, K. rewrite NA in K.
  destruct (create_ok deflate inflate zipped selfz junk HD HZ HJ f l H K AN) as (f' & b & C & L & G). exists f, os, f', b. eexists. split; [exact E|]. split; [exact C|]. split; [exact L|].
  unfold kstep. rewrite G. reflexivity.
Qed.
Print Assumptions C206_made_partial.
Theorem C206_new : forall inflate zipped junk deflate selfz, (forall d, inflate (deflate d) = d) -> (selfz = true -> zipped = true) -> length junk = 31%nat ->
  exists f f', create_catalog inflate zipped junk None = Ok (f, true) /\ kstep deflate inflate zipped selfz junk f KGet = Ok (f', OBytes [255; 255; 255; 127; 0; 2; 0; 0; 0; 0; 0; 0; 0; 0; 0; 0]).
Proof.
  intros inflate zipped junk deflate selfz HD HZ HJ. destruct (create_new deflate inflate zipped selfz junk HD HZ HJ) as (f & C & G). exists f. eexists. split; [exact C|]. unfold kstep. rewrite G. reflexivity.
Qed.
Print Assumptions C206_new.
Example C206_nonvacuous : closed_first false ([KAsk; KClose; KAll []] ++ [KAll []]) /\ finally (Some [7; 8]) [KAsk; KClose; KAll []] = Some [] /\ answerable [] /\
  match ksteps (fun d => d) (fun d => d) false false (repeat 9 31) (VF true (Some [7; 8]) None KUnknown false) [KAsk; KClose; KAll []] with
  | Ok (f, _) => match create_catalog (fun d => d) false (repeat 9 31) (Some f) with Ok (g, b) => b = true /\ snd (contents (fun d => d) false g) = ex205_empty | _ => False end
  | _ => False end.
Proof. split; [vm_compute; repeat split|]. split; [reflexivity|]. split; [right; right; vm_compute; discriminate|]. vm_compute. split; reflexivity. Qed.
(** an empty element about which the question was asked before: it becomes an empty container, but none is given back *)
Theorem C206_asked_refuted : forall deflate inflate zipped selfz junk st l xs, (forall d, inflate (deflate d) = d) -> (selfz = true -> zipped = true) -> length junk = 31%nat ->
  st = Some (if zipped then deflate l else l) \/ st = None /\ l = [] -> zlen l < 2^31 -> Forall byte_ok l -> all_fit (Some l) xs -> closed_first false xs -> finally (Some l) xs = Some [] ->
  exists f os f' f'', ksteps deflate inflate zipped selfz junk (VF true st None KUnknown false) (xs ++ [KAsk]) = Ok (f, os ++ [OBool false]) /\ create_catalog inflate zipped junk (Some f) = Ok (f', false) /\
    kstep deflate inflate zipped selfz junk f' KGet = Ok (f'', OBytes [255; 255; 255; 127; 0; 2; 0; 0; 0; 0; 0; 0; 0; 0; 0; 0]).
Proof.
  intros deflate inflate zipped selfz junk st l xs HD HZ HJ B HL HB F A N. destruct (asked_then_created deflate inflate zipped selfz junk HD HZ HJ st l xs B HL HB F A N) as (f & os & f' & E & C & G).
  exists f, os, f'. eexists. split; [exact E|]. split; [exact C|]. unfold kstep. rewrite G. reflexivity.
Qed.
Print Assumptions C206_asked_refuted.
Example C206_asked_nonvacuous : all_fit (Some [1]) [KReplace []] /\ closed_first false [KReplace []] /\ finally (Some [1]) [KReplace []] = Some [].
Proof. split; [|split; [exact Logic.I|reflexivity]]. cbn. split; [split; [reflexivity|constructor]|exact Logic.I]. Qed.
