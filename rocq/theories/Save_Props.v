(** Property theorems about saving configurations (C174, C175). *)
From Coq Require Import String Ascii.
From Verif Require Import Prelude Text_Spec Text_Model App_Model App_Spec Cf_Model Cfg_Model Cfg_Spec Run_Model Run_Spec Run_Proofs Run_Paths Save_Model Save_Spec Save_Proofs Save_Disk.

(** C174: a saved configuration is a container that shows the files of the configuration, in their order, with their
    bytes as they are stored *)
Theorem C174_saved_partial lower fuel after blob times m es : In 0%Z after -> built lower m -> Forall2 (stands blob times) m es ->
  (room es < 2147483647)%Z -> (room es <= Z.of_nat fuel)%Z ->
  exists d xs, save_catalog lower fuel after blob times m = Ok d /\ (forall junk, List.length junk = 31%nat -> is_catalog junk d = Ok true) /\
    open_files fuel after d = Ok xs /\ Forall2 (shows fuel after d) xs es.
Proof.
  intros HA HB HS HR HF. destruct (saved_ok lower fuel after blob times m es HA (built_named lower m HB) HS HR HF) as (d & xs & E1 & E2 & E3 & E4 & _). exists d, xs. auto.
Qed.
Print Assumptions C174_saved_partial.
(** C174: the modification times are lost when the container is read *)
Theorem C174_modified_refuted lower fuel after blob times m es : In 0%Z after -> built lower m -> Forall2 (stands blob times) m es ->
  (room es < 2147483647)%Z -> (room es <= Z.of_nat fuel)%Z -> Exists (fun e => e_modify e <> e_create e + 8)%Z es ->
  exists d xs, save_catalog lower fuel after blob times m = Ok d /\ open_files fuel after d = Ok xs /\ ~ Forall2 (fun x e => snd (fst x) = e_modify e) xs es.
Proof.
  intros HA HB HS HR HF HX. destruct (saved_ok lower fuel after blob times m es HA (built_named lower m HB) HS HR HF) as (d & xs & E1 & E2 & E3 & E4 & E5). exists d, xs. split; [exact E1|]. split; [exact E3|]. intros H. clear - E5 H HX. revert HX. induction E5 as [|x e xs es H1 _ IH]; intros HX; [inversion HX|]. inversion H; subst. inversion HX; subst; [congruence|]. apply IH; assumption.
Qed.
Print Assumptions C174_modified_refuted.

(** two files in a table, one of two parts *)
Definition e_files : smap tfile := [(codes "root", TF (codes "Root") [(1, 2); (2, 3)]%Z 7); (codes "version", TF (codes "version") [(5, 1)]%Z 9)].
Definition e_blob (s n : Z) : list Z := repeat (s + 60)%Z (Z.to_nat n).
Definition e_times (t : Z) : Z * Z := (t, t + 1)%Z.
Definition e_saved : smap cfile := [(codes "root", CF (TF (codes "Root") [(1, 2); (2, 3)]%Z 7) (codes "Root") (-1)); (codes "version", CF (TF (codes "version") [(5, 1)]%Z 9) (codes "version") (-1))].
Definition e_entries : list entry := [EN (codes "Root") 7 8 [61; 61; 62; 62; 62]; EN (codes "version") 9 10 [65]].
Example C174_nonvacuous : built ascii_lower e_saved /\ Forall2 (stands e_blob e_times) e_saved e_entries /\ room e_entries = 3274%Z /\
  (do d <- save_catalog ascii_lower 700 [0] e_blob e_times e_saved; do xs <- open_files 700 [0] d; Ok (map (fun x => fst (fst (fst x))) xs)) = Ok [codes "Root" ++ [0; 0]; codes "version" ++ [0; 0]]%list.
Proof.
  split; [left; exists [], e_files; vm_compute; reflexivity|]. split; [|split; vm_compute; reflexivity].
  constructor; [|constructor; [|constructor]].
  - split; [reflexivity|]. split; [repeat constructor; unfold scalar; vm_compute; intuition congruence|]. split; [reflexivity|]. split; [cbn; lia|]. split; [|discriminate].
    change (joined e_blob [(1, 2); (2, 3)] (e_blob 1 2 ++ e_blob 2 3 ++ []))%Z. constructor; [discriminate|]. constructor; [discriminate|]. constructor.
  - split; [reflexivity|]. split; [repeat constructor; unfold scalar; vm_compute; intuition congruence|]. split; [reflexivity|]. split; [cbn; lia|]. split; [|discriminate].
    change (joined e_blob [(5, 1)] (e_blob 5 1 ++ []))%Z. constructor; [discriminate|]. constructor.
Qed.

(** C175: saving makes or replaces the file meant and changes nothing else *)
Theorem C175_only_partial cwd d name s q bytes : disk_ok d -> tree d -> s <> [] -> In name [codes "dbcf.cf"; codes "cf.cf"] -> target cwd d s name q -> q <> [] ->
  In (removelast q, None) d -> ~ In (q, None) d ->
  exists d', save_command true true cwd d name s bytes = (d', true) /\ forall p x, In (p, x) d' <-> (p = q /\ x = Some bytes) \/ (p <> q /\ In (p, x) d).
Proof. exact (command_ok cwd d name s q bytes). Qed.
Print Assumptions C175_only_partial.
Theorem C175_nothing_partial infobase ready cwd d name s bytes : infobase = false \/ ready = false -> save_command infobase ready cwd d name s bytes = (d, false).
Proof. exact (command_not infobase ready cwd d name s bytes). Qed.
Print Assumptions C175_nothing_partial.
Definition v_disk : fs := [([], None); ([codes "d"], None); ([codes "d"; codes "a"], Some [1%Z]); ([codes "d"; codes "out.cf"], None); ([codes "d"; codes "out.cf"; codes "work"], Some [2%Z])].
Example C175_nonvacuous : disk_ok v_disk /\ tree v_disk /\ target [] v_disk (codes "d") (codes "cf.cf") [codes "d"; codes "cf.cf"] /\
  save_command true true [] v_disk (codes "cf.cf") (codes "d") [9%Z] = (([codes "d"; codes "cf.cf"], Some [9%Z]) :: v_disk, true).
Proof.
  split; [repeat constructor; vm_compute; intuition congruence|]. split.
  - intros a n x H. cbn [v_disk In] in H. destruct H as [H|[H|[H|[H|[H|[]]]]]]; injection H as H _.
    + destruct a; discriminate.
    + left. destruct a as [|a0 [|]]; [reflexivity|discriminate..].
    + right. assert (a = [codes "d"]) by (change [codes "d"; codes "a"] with ([codes "d"] ++ [codes "a"])%list in H; now apply app_inj_tail in H). subst a. right. now left.
    + right. assert (a = [codes "d"]) by (change [codes "d"; codes "out.cf"] with ([codes "d"] ++ [codes "out.cf"])%list in H; now apply app_inj_tail in H). subst a. right. now left.
    + right. assert (a = [codes "d"; codes "out.cf"]) by (change [codes "d"; codes "out.cf"; codes "work"] with ([codes "d"; codes "out.cf"] ++ [codes "work"])%list in H; now apply app_inj_tail in H). subst a. do 3 right. now left.
  - split; [|vm_compute; reflexivity]. exists [codes "d"]. split; [now apply place_full|]. right. split; [intros H; apply is_cf_spec in H; vm_compute in H; discriminate|]. split; [right; now left|reflexivity].
Qed.
(** C175: a directory in the place of the file is deleted with all it contains, and success is reported *)
Theorem C175_folder_refuted cwd d name s q bytes : disk_ok d -> s <> [] -> In name [codes "dbcf.cf"; codes "cf.cf"] -> target cwd d s name q -> q <> [] ->
  In (removelast q, None) d -> In (q, None) d ->
  exists d', save_command true true cwd d name s bytes = (d', true) /\ forall p x, In (p, x) d' <-> (p = q /\ x = Some bytes) \/ (~ within q p /\ In (p, x) d).
Proof. exact (command_folder cwd d name s q bytes). Qed.
Print Assumptions C175_folder_refuted.
Example C175_folder_nonvacuous : target [] v_disk (codes "d/out.cf") (codes "cf.cf") [codes "d"; codes "out.cf"] /\ In ([codes "d"; codes "out.cf"; codes "work"], Some [2%Z]) v_disk /\
  save_command true true [] v_disk (codes "cf.cf") (codes "d/out.cf") [9%Z] = ([([codes "d"; codes "out.cf"], Some [9%Z]); ([], None); ([codes "d"], None); ([codes "d"; codes "a"], Some [1%Z])], true).
Proof.
  split; [|split; [do 4 right; now left|vm_compute; reflexivity]]. exists [codes "d"; codes "out.cf"]. split; [now apply place_full|]. left. split; [now apply is_cf_spec|reflexivity].
Qed.
