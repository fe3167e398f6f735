(** Proofs about writing values of system tables. *)
From Coq Require Import String Ascii.
From Verif Require Import Prelude App_Spec Codec_Model Cf_Model Cf_Proofs Cfg_Model Cf_Spec Val_Model Val_Spec Val_Proofs Life_Model Life_Proofs Life_Props Save_Model Save_Spec Save_Proofs Sys_Model Sys_Spec.
Ltac Zify.zify_post_hook ::= idtac.

Lemma le4 a b c d : le_val [a; b; c; d] = a + 256 * b + 65536 * c + 16777216 * d.
Proof. cbn [le_val]. lia. Qed.
Lemma start_of b : b <> [] -> (if zlen b <? 4 then le_val (b ++ skipn (List.length b) [255; 255; 255; 255]) else le_val (firstn 4 b)) = le_val (firstn 4 (b ++ [255; 255; 255])).
Proof.
  intros H. destruct b as [|a [|b [|c [|d t]]]]; [congruence|reflexivity..|]. destruct (zlen (a :: b :: c :: d :: t) <? 4) eqn:E; [|reflexivity]. unfold zlen in E. cbn [List.length] in E. lia.
Qed.
Lemma start_four b : bytes_ok b -> b <> [] -> exists p q r s, firstn 4 (b ++ [255; 255; 255]) = [p; q; r; s] /\ 0 <= p < 256 /\ 0 <= q < 256 /\ 0 <= r < 256 /\ 0 <= s < 256.
Proof.
  intros H N. unfold bytes_ok in H. destruct b as [|a [|b [|c [|d t]]]]; [congruence|..]; cbn [app firstn]; do 4 eexists; (split; [reflexivity|]);
  repeat match goal with H : Forall _ (_ :: _) |- _ => apply Forall_cons_iff in H; destruct H end; unfold byte_ok in *; repeat split; lia.
Qed.
Lemma no_catalog junk b : bytes_ok b -> b <> [] -> no_container b -> ~ far_start b -> is_catalog junk b = Ok false.
Proof.
  intros HB HN [H1 H2] H3. unfold is_catalog. destruct (zlen b =? 16) eqn:E16.
  { destruct (list_eq_dec Z.eq_dec b template) as [E|E]; [exfalso; exact (H2 E)|reflexivity]. }
  cbv zeta. rewrite (start_of b HN). destruct (start_four b HB HN) as (p & q & r & s & E & ? & ? & ? & ?). rewrite E, le4. set (e := p + 256 * q + 65536 * r + 16777216 * s).
  assert (R : forall h, read_header b 16 junk = Ok h -> ~ (zlen b < 47) -> marks_ok h = false).
  { intros h Eh L. unfold read_header in Eh. destruct (zlen b <? 16); [discriminate|]. change (16 <? 0) with false in Eh. cbv iota zeta in Eh. assert (Hh := f_equal (fun r => match r with Ok x => nth 0 x 0 | _ => 0 end) Eh). cbn beta iota in Hh.
    assert (N16 : nth 0 h 0 = nth 16 b 0). { rewrite <- Hh. unfold zlen in L. change (Z.to_nat 16) with 16%nat. assert (S16 : exists x t, skipn 16 b = x :: t /\ nth 16 b 0 = x). { clear - L. destruct (skipn 16 b) as [|x t] eqn:E; [apply (f_equal (@List.length Z)) in E; rewrite skipn_length in E; cbn [List.length] in E; lia|]. exists x, t. split; [reflexivity|]. rewrite <- (firstn_skipn 16 b), E. rewrite app_nth2; rewrite firstn_length_le by lia; [reflexivity|lia]. }
      destruct S16 as (x & t & E1 & E2). rewrite E1, E2. reflexivity. }
    unfold marks_ok. rewrite N16. destruct H1 as [H1|H1]; [unfold zlen in L; lia|]. assert (nth 16 b 0 =? 13 = false) as -> by lia. reflexivity. }
  assert (M : (if negb true then Ok false else if zlen b <? 47 then Ok false else do h <- read_header b 16 junk; Ok (marks_ok h)) = Ok false).
  { cbn [negb]. destruct (zlen b <? 47) eqn:E47; [reflexivity|]. destruct (read_header b 16 junk) as [h| | |] eqn:Eh.
    - cbn [rbind]. now rewrite (R h eq_refl ltac:(lia)).
    - unfold read_header in Eh. destruct (zlen b <? 16) eqn:?; [lia|]. change (16 <? 0) with false in Eh. discriminate.
    - unfold read_header in Eh. destruct (zlen b <? 16) eqn:?; [lia|]. change (16 <? 0) with false in Eh. discriminate.
    - unfold read_header in Eh. destruct (zlen b <? 16) eqn:?; [lia|]. change (16 <? 0) with false in Eh. discriminate. }
  destruct (e =? LAST); [exact M|]. destruct (zlen b <=? u32 (e + 31)) eqn:EU; [reflexivity|].
  assert (FS : e < zlen b).
  { destruct (Z.lt_ge_cases (e + 31) (2 ^ 32)) as [Hs|Hs].
    - unfold u32 in EU. rewrite Z.mod_small in EU by (subst e; lia). lia.
    - exfalso. apply H3. assert (q = 255 /\ r = 255 /\ s = 255 /\ 225 <= p) as (-> & -> & -> & Hp) by (subst e; lia). exists p. split; [lia|]. split; [exact E|]. split; [|unfold zlen in E16; lia].
      assert (U : u32 (e + 31) = p - 225). { unfold u32. subst e. replace (p + 256 * 255 + 65536 * 255 + 16777216 * 255 + 31) with (p - 225 + 1 * 2 ^ 32) by lia. rewrite Z.mod_add by lia. apply Z.mod_small. lia. } unfold zlen in EU. lia. }
  unfold read_header at 1. destruct (zlen b <? e) eqn:?; [lia|]. destruct (e <? 0) eqn:?; [subst e; lia|]. cbv iota zeta. cbn [rbind]. destruct (marks_ok _); [exact M|reflexivity].
Qed.
Lemma far_throws junk b : b <> [] -> zlen b < 2 ^ 32 - 31 -> far_start b -> is_catalog junk b = Throw.
Proof.
  intros HN HL (e & He & E & H1 & H2). unfold is_catalog. destruct (zlen b =? 16) eqn:E16; [unfold zlen in E16; lia|]. cbv zeta. rewrite (start_of b HN), E, le4. set (a := e + 256 * 255 + 65536 * 255 + 16777216 * 255).
  assert (a =? LAST = false) as -> by (unfold a, LAST; lia).
  assert (U : u32 (a + 31) = e - 225). { unfold u32, a. replace (e + 256 * 255 + 65536 * 255 + 16777216 * 255 + 31) with (e - 225 + 1 * 2 ^ 32) by lia. rewrite Z.mod_add by lia. apply Z.mod_small. lia. }
  rewrite U. fold (zlen b) in H1. destruct (zlen b <=? e - 225) eqn:?; [lia|]. unfold read_header at 1. destruct (zlen b <? a) eqn:?; [reflexivity|unfold a in *; lia].
Qed.

Section S.
Variable inflate : list Z -> option (list Z).
Variable same : list Z -> list Z -> bool.
Variables (fuel : nat) (after junk : list Z).
Notation system := (save_system inflate same fuel after junk).

Lemma users_true name key : users_table same name key -> is_users same name key = true.
Proof. unfold users_table, is_users. change (codes "PARAMS") with s_params. change (codes "users.usr") with s_users. change (codes "V8USERS") with s_v8users. destruct (same name s_params); intuition congruence. Qed.
Lemma users_false name key : ~ users_table same name key -> is_users same name key = false.
Proof. unfold users_table, is_users. change (codes "PARAMS") with s_params. change (codes "users.usr") with s_users. change (codes "V8USERS") with s_v8users. destruct (same name s_params), (same key s_users), (same name s_v8users); intuition congruence. Qed.
Lemma twice_eq name key b : (b = false <-> once_table same name key) -> maybe_twice same name key = b.
Proof.
  unfold once_table, maybe_twice. change (codes "CONFIG") with s_config. change (codes "CONFIGSAVE") with s_configsave. fold (zlen key). intros H. destruct (same name s_config), (same name s_configsave); cbn [orb]; destruct (72 <? zlen key) eqn:E; destruct b; try reflexivity; exfalso;
  first [assert (true = false) by (apply H; split; [tauto|lia]); discriminate|destruct (proj1 H eq_refl) as [[?|?] ?]; try discriminate; lia].
Qed.
Lemma expand_eq twice d x zc : expanded inflate twice d x zc -> expand inflate twice d = (x, zc).
Proof. unfold expand. intros [H|y H [-> |H2]|y z H -> H2]; rewrite H; try rewrite H2; try reflexivity. destruct twice; reflexivity. Qed.
Lemma system_not name key b d x zc : d <> [] -> ~ users_table same name key -> (b = false <-> once_table same name key) -> expanded inflate b d x zc ->
  system name key d = do xs <- elements fuel after junk x; match xs with [] => Ok (File (filled x)) | _ => do l <- save_dir inflate fuel after junk fuel zc (filled x) []; Ok (Dirs l) end.
Proof. intros HN HU HB HX. unfold save_system. rewrite (users_false _ _ HU), (twice_eq _ _ _ HB), (expand_eq _ _ _ _ HX). destruct d; [congruence|reflexivity]. Qed.
Theorem system_users name key k x : users_table same name key -> (1 <= List.length k <= 127)%nat -> system name key (users_encode k x) = Ok (File x).
Proof.
  intros HU HK. pose proof (users_ok k x HK) as P. unfold save_system. rewrite (users_true _ _ HU), P. unfold users_encode. reflexivity.
Qed.
Theorem value_ok name key b d x zc : d <> [] -> ~ users_table same name key -> (b = false <-> once_table same name key) -> expanded inflate b d x zc ->
  bytes_ok x -> x <> [] -> no_container x -> ~ far_start x -> system name key d = Ok (File x).
Proof.
  intros H1 H2 H3 H4 H5 H6 H7 H8. rewrite (system_not _ _ _ _ _ _ H1 H2 H3 H4). unfold elements. assert (F : filled x = x) by (destruct x; [congruence|reflexivity]). rewrite F, (no_catalog junk x H5 H6 H7 H8). reflexivity.
Qed.
Theorem far_fails name key b d x zc : d <> [] -> ~ users_table same name key -> (b = false <-> once_table same name key) -> expanded inflate b d x zc ->
  x <> [] -> zlen x < 2 ^ 32 - 31 -> far_start x -> system name key d = Throw.
Proof.
  intros H1 H2 H3 H4 H6 H7 H8. rewrite (system_not _ _ _ _ _ _ H1 H2 H3 H4). unfold elements. assert (F : filled x = x) by (destruct x; [congruence|reflexivity]). rewrite F, (far_throws junk x H6 H7 H8). reflexivity.
Qed.
Theorem empty_written name key b d zc : d <> [] -> ~ users_table same name key -> (b = false <-> once_table same name key) -> expanded inflate b d [] zc ->
  system name key d = Ok (File [255; 255; 255; 127; 0; 2; 0; 0; 0; 0; 0; 0; 0; 0; 0; 0]).
Proof. intros H1 H2 H3 H4. rewrite (system_not _ _ _ _ _ _ H1 H2 H3 H4). reflexivity. Qed.

Lemma list_ok sub zc d dir xs : forall r, save_list inflate fuel after junk sub zc d dir xs = Ok r ->
  Forall (fun x => exists b z, read_data fuel after d (snd x) = Ok b /\ (if zc then inflate b = Some z else z = b) /\ is_catalog junk z = Ok true) xs.
Proof.
  induction xs as [|[[[name t] m] start] xs IH]; intros r E; [constructor|]. cbn [save_list] in E. destruct (read_data fuel after d start) as [b| | |] eqn:E1; cbn [rbind] in E; try discriminate.
  destruct (if zc then match inflate b with Some x => Ok x | None => Throw end else Ok b) as [z| | |] eqn:E2; cbn [rbind] in E; try discriminate. destruct (is_catalog junk z) as [c| | |] eqn:E3; cbn [rbind] in E; try discriminate.
  destruct c; [|rewrite C108_save_refuted in E; discriminate]. constructor.
  - exists b, z. cbn [snd]. split; [exact E1|]. split; [|exact E3]. destruct zc; [destruct (inflate b)|]; congruence.
  - destruct (sub z (dir ++ [name])); cbn [rbind] in E; try discriminate. destruct (save_list inflate fuel after junk sub zc d dir xs) as [l| | |] eqn:E4; try discriminate. exact (IH l eq_refl).
Qed.
Theorem container_never lower blob times m es name key b d c zc : In 0 after -> List.length junk = 31%nat -> built lower m -> Forall2 (stands blob times) m es -> room es < LAST -> room es <= Z.of_nat fuel ->
  save_catalog lower fuel after blob times m = Ok c -> d <> [] -> ~ users_table same name key -> (b = false <-> once_table same name key) -> expanded inflate b d c zc ->
  Exists (fun e => forall z, (if zc then inflate (e_bytes e) = Some z else z = e_bytes e) -> bytes_ok z /\ z <> [] /\ no_container z /\ ~ far_start z) es ->
  forall r, system name key d <> Ok r.
Proof.
  intros HA HJ HB HS HR HF EC HN HU HT HX HE r E. destruct (saved_ok lower fuel after blob times m es HA (built_named lower m HB) HS HR HF) as (c' & xs & F1 & F2 & F3 & F4 & _).
  assert (c' = c) by congruence. subst c'. rewrite (system_not _ _ _ _ _ _ HN HU HT HX) in E. unfold elements in E.
  assert (CN : filled c = c). { destruct c; [|reflexivity]. specialize (F2 junk HJ). unfold is_catalog in F2. discriminate. }
  rewrite CN, (F2 junk HJ) in E. cbn [rbind] in E. rewrite F3 in E. cbn [rbind] in E. destruct xs as [|x0 xs0] eqn:EX; [inversion F4; subst; inversion HE|]. rewrite <- EX in *. assert (E' : exists l, save_dir inflate fuel after junk fuel zc c [] = Ok l).
  { destruct (save_dir inflate fuel after junk fuel zc c []) as [l| | |]; try discriminate. now exists l. }
  destruct E' as (l & E1). assert (EF : exists n, fuel = S n). { assert (0 < room es); [|exists (pred fuel); lia]. clear. unfold room. match goal with |- 0 < 559 + ?f + ?g => assert (0 <= f) by (induction es as [|e es IH]; cbn [fold_right]; [lia|unfold block in *; lia]); assert (0 <= g) by (unfold block; lia) end. lia. } destruct EF as (n & EF). rewrite EF in E1 at 2. cbn [save_dir] in E1. unfold elements in E1. rewrite CN, (F2 junk HJ) in E1. cbn [rbind] in E1. rewrite F3 in E1. cbn [rbind] in E1.
  destruct (save_list _ _ _ _ _ _ _ _ xs) as [q| | |] eqn:E2; try discriminate. apply list_ok in E2. clear - E2 F4 HE HJ. induction F4 as [|x e xs es H _ IH]; [inversion HE|]. apply Forall_cons_iff in E2. destruct E2 as [(b & z & B1 & B2 & B3) E2]. inversion HE as [? ? G|? ? G]; subst; [|exact (IH G E2)].
  destruct x as [[[n0 t0] m0] s0]. destruct H as (_ & _ & H). cbn [snd] in B1. assert (b = e_bytes e) by congruence. subst b. destruct (G z B2) as (G1 & G2 & G3 & G4). rewrite (no_catalog junk z G1 G2 G3 G4) in B3. discriminate.
Qed.
End S.
