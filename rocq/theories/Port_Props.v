(** Exporting a table to a directory and importing it back (C140 to C142). *)
From Verif Require Import Prelude Lists Obj_Model Obj_Spec Obj_Proofs Obj_Make Alloc_Model Alloc_Spec Alloc_Proofs Alloc_New Alloc_Facts Port_Model Port_Spec Port_Proofs Port_Import Port_More Port_Facts.
Ltac Zify.zify_post_hook ::= idtac.

(** ** C140: the export of a table is exact *)
Theorem C140_export : forall ps can junk buf st fs ts p, (forall i, can i = true) -> slots_ok ps st fs ts -> length fs = 4%nat -> p <> NotDir ->
  exists d, export_table true can (Z.of_nat ps) junk buf st fs p = Ok (Dir d) /\ exported st fs ts d /\
    forall i, (forall t, nth_error ts i <> Some (Some t)) -> d (S i) = match p with Dir d0 => d0 (S i) | _ => None end.
Proof. exact export_ok. Qed.
Print Assumptions C140_export.
(** a table of the newer format with data and a description, opened and exported *)
Definition ex_new : thing := mkt F838_flat 2 60 [] [3].
Definition ex_root : list Z := [1; 0; 0; 1] ++ repeat 0 32.
Lemma ex_file : exists o, obj_open 64 true ex838 2 = Ok o /\ is_file 64 ex838 o ex_new /\ o_v2 o = 0.
Proof.
  destruct (obj_open 64 true ex838 2) as [o| | |] eqn:E; vm_compute in E; try discriminate. injection E as <-. eexists. split; [reflexivity|]. split; [|reflexivity].
  split; [apply ex838_stored|]. split; [discriminate|]. split; [|left; reflexivity]. vm_compute. auto 10.
Qed.
Example C140_case : exists o, slots_ok 64 ex838 [Some o; None; None; Some o] [Some ex_new; None; None; Some ex_new] /\
  match export_table true (fun _ => true) 64 [] (repeat 0 64) ex838 [Some o; None; None; Some o] Absent with
  | Ok (Dir d) => d 0%nat = Some ex_root /\ d 1%nat = Some (repeat 7 60) /\ d 2%nat = None /\ d 4%nat = Some (repeat 7 60)
  | _ => False
  end.
Proof.
  destruct ex_file as (o & E & F & _). exists o. split; [constructor; [exact F|]; constructor; [exact Logic.I|]; constructor; [exact Logic.I|]; constructor; [exact F|constructor]|]. vm_compute in E. injection E as <-. vm_compute. auto.
Qed.

(** ** C141: importing an exported table gives it back *)
(** older format, each file as long as the exported one *)
Theorem C141_round_trip_partial : forall slack cached psA psB v838 can junk buf junk2 stA stB fs ts p fl slots us descr, (forall i, can i = true) -> slots_ok psA stA fs ts -> length fs = 4%nat -> p <> NotDir ->
  slots_ok psB stB slots us -> length slots = 3%nat -> NoDup (all_pages us) -> good psB stB -> Forall older us -> (forall j t u, nth_error ts j = Some t -> nth_error us j = Some u -> fits psB (option_map (bytes_of stA) t) u) ->
  exists d st' slots', export_table true can (Z.of_nat psA) junk buf stA fs p = Ok (Dir d) /\
    import_table slack cached (Z.of_nat psB) v838 false junk2 stB fl slots descr (Dir d) = Ok (st', fl, slots', descr) /\ length slots' = 3%nat /\
    (forall j o s t u, nth_error slots' j = Some o -> nth_error fs j = Some s -> nth_error ts j = Some t -> nth_error us j = Some u -> restored psB stB st' o (there stA s t) u) /\
    good psB st' /\ zlen st' = zlen stB /\ (forall m, 0 <= m -> ~ In m (all_pages us) -> page st' m = page stB m).
Proof. intros. now apply round_trip. Qed.
Print Assumptions C141_round_trip_partial.
(** newer format: the length of each imported file is the second version number *)
Theorem C141_newer_refuted : forall slack cached psA psB v838 can junk buf junk2 stA stB fs ts p fl slots us descr, (forall i, can i = true) -> slots_ok psA stA fs ts -> length fs = 4%nat -> p <> NotDir ->
  slots_ok psB stB slots us -> length slots = 3%nat -> NoDup (all_pages us) -> good psB stB -> (forall j t u, nth_error ts j = Some t -> nth_error us j = Some u -> same_size (option_map (bytes_of stA) t) u) ->
  exists d st' slots', export_table true can (Z.of_nat psA) junk buf stA fs p = Ok (Dir d) /\
    import_table slack cached (Z.of_nat psB) v838 false junk2 stB fl slots descr (Dir d) = Ok (st', fl, slots', descr) /\
    (forall j o t u o', nth_error fs j = Some (Some o) -> nth_error ts j = Some (Some t) -> nth_error us j = Some (Some u) -> (t_f u = F838_flat \/ t_f u = F838_deep) -> t_n u <> 1 -> Z.of_nat (t_len u) < 2^64 ->
      obj_open (Z.of_nat psB) true st' (t_n u) = Ok o' -> o_len o' = u32 (o_v2 o) + 2^32 * (Z.of_nat (t_len u) / 2^32)).
Proof. intros. now apply newer_bad. Qed.
Print Assumptions C141_newer_refuted.
(** a file with one table file of [len] bytes *)
Lemma ex_older m len : Z.of_nat m < 1018 -> 0 < Z.of_nat len < 2^29 -> exists st fl fb o t, is_file p4096 st o t /\ good p4096 st /\ free_list p4096 st fl fb [] /\ apart st fb [] (pages t) /\ t_f t = F80 /\ t_len t = len /\ t_n t = Z.of_nat m + 2 /\ zlen st + 1 < 2^32.
Proof.
  intros Hm Hl. destruct (made_4096 m len Hm Hl) as (st & fl & fb & n & tabs & dp & o & A1 & A2 & A3 & A4 & A5 & A6 & A7 & A8 & _). exists st, fl, fb, (set_cached o None), (mkt F80 n len tabs dp).
  split; [split; [exact A1|]; split; [discriminate|]; split; [exact A5|left; reflexivity]|]. split; [exact A2|]. split; [exact A3|]. split; [exact A4|]. split; [reflexivity|]. split; [reflexivity|]. split; [exact A7|lia].
Qed.
Lemma slots3 ps st o t : is_file ps st o t -> slots_ok ps st [Some o; None; None] [Some t; None; None].
Proof. intros H. constructor; [exact H|]. constructor; [exact Logic.I|]. constructor; [exact Logic.I|constructor]. Qed.
Lemma slots4 ps st o t : is_file ps st o t -> slots_ok ps st [Some o; None; None; Some o] [Some t; None; None; Some t].
Proof. intros H. constructor; [exact H|]. constructor; [exact Logic.I|]. constructor; [exact Logic.I|]. constructor; [exact H|constructor]. Qed.
Lemma pages3 t : all_pages [Some t; None; None] = pages t.
Proof. unfold all_pages. cbn [map concat]. now rewrite !app_nil_r. Qed.
(** two older files of 4500 bytes, at different places *)
Example C141_partial_case : exists stA oA tA stB oB tB, slots_ok p4096 stA [Some oA; None; None; Some oA] [Some tA; None; None; Some tA] /\ slots_ok p4096 stB [Some oB; None; None] [Some tB; None; None] /\
  NoDup (all_pages [Some tB; None; None]) /\ good p4096 stB /\ Forall older [Some tB; None; None] /\ t_n tA <> t_n tB /\
  (forall j t u, nth_error [Some tA; None; None; Some tA] j = Some t -> nth_error [Some tB; None; None] j = Some u -> fits p4096 (option_map (bytes_of stA) t) u).
Proof.
  destruct (ex_older 1 4500 ltac:(lia) ltac:(lia)) as (stA & flA & fbA & oA & tA & A1 & A2 & A3 & A4 & A5 & A6 & A7 & _). destruct (ex_older 2 4500 ltac:(lia) ltac:(lia)) as (stB & fl & fb & oB & tB & B1 & B2 & B3 & B4 & B5 & B6 & B7 & _).
  exists stA, oA, tA, stB, oB, tB. split; [now apply slots4|]. split; [now apply slots3|]. split; [rewrite pages3; destruct B4 as [B4 _]; now destruct (nodup_parts _ _ B4) as (_ & B4' & _)|]. split; [exact B2|].
  split; [constructor; [exact B5|repeat constructor]|]. split; [lia|]. intros [|[|[|j]]] t u Ht Hu; cbn in Ht, Hu; [|injection Ht as <-; exact Logic.I|injection Ht as <-; exact Logic.I|destruct j; discriminate]. injection Ht as <-. injection Hu as <-. cbn [fits option_map].
  split; [unfold bytes_of; destruct A1 as (A1 & _); rewrite (content_len _ _ _ _ _ _ _ A1); lia|]. intros (k & H1 & H2 & _). rewrite B6 in H2. pose proof p4096_Z. pose proof per80_Z. nia.
Qed.
(** the newer format: 60 bytes before, none after *)
Example C141_newer_case : exists o, obj_open 64 true ex838 2 = Ok o /\ slots_ok 64 ex838 [Some o; None; None; Some o] [Some ex_new; None; None; Some ex_new] /\ slots_ok 64 ex838 [Some o; None; None] [Some ex_new; None; None] /\
  NoDup (all_pages [Some ex_new; None; None]) /\ good 64 ex838 /\ same_size (Some (bytes_of ex838 ex_new)) (Some ex_new) /\ obj_len o = 60 /\
  (do fl <- obj_open 64 true ex838 1; do p <- export_table true (fun _ => true) 64 [] (repeat 0 64) ex838 [Some o; None; None; Some o] Absent;
   do r <- import_table 0 (fun _ => true) 64 true false [] ex838 fl [Some o; None; None] (Some o) p; let '(st', _, _, _) := r in do o' <- obj_open 64 true st' 2; Ok (obj_len o')) = Ok 0.
Proof.
  destruct ex_file as (o & E & F & _). exists o. split; [exact E|]. split; [now apply slots4|]. split; [now apply slots3|]. split; [repeat constructor; cbn; intuition lia|]. split; [apply ex838_stored|].
  split; [split; [reflexivity|discriminate]|]. vm_compute in E. injection E as <-. split; vm_compute; reflexivity.
Qed.

(** ** C142: files of another length are replaced and missing ones are created *)
Theorem C142_other_size_refuted : forall cached psA psB can junk buf junk2 stA stB fs ts p fl slots us descr fb stk, (forall i, can i = true) -> slots_ok psA stA fs ts -> length fs = 4%nat -> p <> NotDir ->
  slots_ok psB stB slots us -> length slots = 3%nat -> NoDup (all_pages us) -> good psB stB -> Forall older us -> free_list psB stB fl fb stk -> apart stB fb stk (all_pages us) -> zlen stB + 1 < 2^32 ->
  (forall j t, nth_error ts j = Some (Some t) -> (j < 3)%nat -> Z.of_nat (t_len t) < 2^32 /\ (0 < t_len t)%nat) ->
  (exists j t u, nth_error ts j = Some (Some t) /\ nth_error us j = Some u /\ match u with Some u => t_len u <> t_len t | None => True end) ->
  exists d, export_table true can (Z.of_nat psA) junk buf stA fs p = Ok (Dir d) /\
    forall r, import_table 0 cached (Z.of_nat psB) false false junk2 stB fl slots descr (Dir d) <> Ok r.
Proof. exact misfit_bad. Qed.
Print Assumptions C142_other_size_refuted.
(** an exported file of 4500 bytes; the importing table has one of 4501 bytes, or none *)
Example C142_case : exists stA oA tA, slots_ok p4096 stA [Some oA; None; None; Some oA] [Some tA; None; None; Some tA] /\ t_len tA = 4500%nat /\
  (exists stB fl fb oB tB, slots_ok p4096 stB [Some oB; None; None] [Some tB; None; None] /\ NoDup (all_pages [Some tB; None; None]) /\ good p4096 stB /\ Forall older [Some tB; None; None] /\ free_list p4096 stB fl fb [] /\
     apart stB fb [] (all_pages [Some tB; None; None]) /\ zlen stB + 1 < 2^32 /\ t_len tB = 4501%nat) /\
  (good p4096 (base p4096 1) /\ free_list p4096 (base p4096 1) (base_free 1) (zseq 2 1) [] /\ apart (base p4096 1) (zseq 2 1) [] (all_pages [None; None; None]) /\ slots_ok p4096 (base p4096 1) [None; None; None] [None; None; None]).
Proof.
  destruct (ex_older 1 4500 ltac:(lia) ltac:(lia)) as (stA & flA & fbA & oA & tA & A1 & A2 & A3 & A4 & A5 & A6 & A7 & _). destruct (ex_older 2 4501 ltac:(lia) ltac:(lia)) as (stB & fl & fb & oB & tB & B1 & B2 & B3 & B4 & B5 & B6 & B7 & B8).
  exists stA, oA, tA. split; [now apply slots4|]. split; [exact A6|]. split.
  - exists stB, fl, fb, oB, tB. split; [now apply slots3|]. rewrite pages3. split; [destruct B4 as [B4 _]; now destruct (nodup_parts _ _ B4) as (_ & B4' & _)|]. split; [exact B2|].
    split; [constructor; [exact B5|repeat constructor]|]. split; [exact B3|]. split; [exact B4|]. split; [exact B8|exact B6].
  - destruct (base_ok p4096 1 p4096_Z ltac:(lia)) as (G & F & A & _). split; [exact G|]. split; [exact F|]. split; [exact A|]. constructor; [exact Logic.I|]. constructor; [exact Logic.I|]. constructor; [exact Logic.I|constructor].
Qed.

(** ** C157: an export that cannot write a file says so *)
Theorem C157_lost_refuted : forall ps can junk buf st fs ts p, slots_ok ps st fs ts -> length fs = 4%nat -> p <> NotDir ->
  exists d, export_table true can (Z.of_nat ps) junk buf st fs p = Ok (Dir d) /\
    (can 0%nat = true -> exists root, d 0%nat = Some root /\ root_says root fs) /\ (forall i t, nth_error ts i = Some (Some t) -> can (S i) = true -> d (S i) = Some (bytes_of st t)) /\
    (forall i, can i = false -> d i = match p with Dir d0 => d0 i | _ => None end) /\
    (forall i, (forall t, nth_error ts i <> Some (Some t)) -> d (S i) = match p with Dir d0 => d0 (S i) | _ => None end).
Proof. exact export_any. Qed.
Print Assumptions C157_lost_refuted.
(** the data cannot be written: the export ends well, says that there is data, and leaves an older export of it *)
Example C157_case : exists o, slots_ok 64 ex838 [Some o; None; None; Some o] [Some ex_new; None; None; Some ex_new] /\
  match export_table true (fun i => negb (Nat.eqb i 1)) 64 [] (repeat 0 64) ex838 [Some o; None; None; Some o] (Dir (fun i => if Nat.eqb i 1 then Some [9] else None)) with
  | Ok (Dir d) => d 0%nat = Some ex_root /\ d 1%nat = Some [9] /\ d 4%nat = Some (repeat 7 60)
  | _ => False
  end.
Proof. destruct ex_file as (o & E & F & _). exists o. split; [now apply slots4|]. vm_compute in E. injection E as <-. vm_compute. auto. Qed.

(** ** C158: a table is not imported from a directory in which a file is missing *)
Theorem C158_missing_refuted : forall slack cached ps v838 ro junk st fl slots descr d,
  import_table slack cached ps v838 ro junk st fl slots descr (Dir d) = import_table slack cached ps v838 ro junk st fl slots descr (Dir (fun i => Some (match d i with Some b => b | None => [] end))).
Proof. exact import_filled. Qed.
Print Assumptions C158_missing_refuted.
(** the directory says that there is data, but the file is missing: the import ends well, and a table without data gets
    an empty file for it; a table with data of the newer format is led into undefined behaviour *)
Definition ex_lone : files := fun i => if Nat.eqb i 0 then Some ([1; 0; 0; 0] ++ repeat 0 32) else None.
Example C158_case :
  (do f <- obj_open 64 true ex838 1; do r <- import_table 0 (fun _ => true) 64 true false [] ex838 f [None; None; None] None (Dir ex_lone); let '(_, _, s, _) := r in Ok (map (option_map obj_len) s)) = Ok [Some 0; None; None] /\
  (do f <- obj_open 64 true ex838 1; do o <- obj_open 64 true ex838 2; do r <- import_table 0 (fun _ => true) 64 true false [] ex838 f [Some o; None; None] (Some o) (Dir ex_lone); let '(_, _, s, _) := r in Ok (map (option_map obj_len) s)) = UB.
Proof. split; vm_compute; reflexivity. Qed.
