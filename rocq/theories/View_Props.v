(** C202, C203: a database opened for viewing. *)
From Verif Require Import Prelude Port_Model Descr_Model Cache_Model Cache_Spec Cache_Proofs View_Model View_Spec View_Proofs.

(** C202, what holds: whatever the commands and whatever editing would do, the file of a database opened for viewing is at the
    end what it was, unless an import into a table that lacks the first file of the export was followed by an import that
    reported no error.  In particular every session with one import leaves the file alone. *)
Theorem C202_viewing_partial edit describe junk file m h k fr tabs ks file' outs :
  for_viewing file m -> open_view true true junk file m = Ok h -> sound (h_page h) k file fr -> Forall rooted ks -> Z.of_nat (k + 2 * length ks) < 2^32 ->
  program edit describe junk file m fr tabs ks = Ok (file', outs) ->
  file' = file \/ exists i j, (i < j)%nat /\ lacking_import tabs ks i /\ good_import ks outs j.
Proof. exact (viewing edit describe junk file m h k fr tabs ks file' outs). Qed.
Print Assumptions C202_viewing_partial.

(** C202 is false: in every database with a free page, the two imports take the page from the list of free pages, in the file:
    it becomes the page of a file with no contents, which belongs to no table *)
Theorem C202_free_page_lost_refuted edit describe junk file m h k fr tabs b ta pa ra ja ea sa tb pb rb jb eb sb :
  for_viewing file m -> open_view true true junk file m = Ok h -> sound (h_page h) k file fr -> Z.of_nat k + 2 < 2^32 ->
  carries pa ra -> carries pb rb -> nth_error tabs ta = Some sa -> nth_error tabs tb = Some sb -> length sa = 3%nat -> length sb = 3%nat ->
  first_lacking ra sa -> (forall i, (i < 3)%nat -> nth_error rb i = Some 0) ->
  0 < fr_len fr -> free_count (Z.to_nat (h_page h)) file = fr_len fr -> nth_error (fr_pages fr) (Z.to_nat ((fr_len fr - 1) / 1024)) = Some b ->
  0 <= number_at (Z.to_nat (h_page h)) file (Z.to_nat b) (Z.to_nat ((fr_len fr - 1) mod 1024)) < Z.of_nat k ->
  number_at (Z.to_nat (h_page h)) file (Z.to_nat b) (Z.to_nat ((fr_len fr - 1) mod 1024)) <> 1 ->
  exists file', program edit describe junk file m fr tabs [Import ta pa ja ea; Import tb pb jb eb] = Ok (file', [true; false]) /\
    free_count (Z.to_nat (h_page h)) file' = free_count (Z.to_nat (h_page h)) file - 1 /\ file' <> file /\ length file' = length file /\
    sub file' (Z.to_nat (number_at (Z.to_nat (h_page h)) file (Z.to_nat b) (Z.to_nat ((fr_len fr - 1) mod 1024))) * Z.to_nat (h_page h)) (Z.to_nat (h_page h)) =
      page_of_empty (h_ver h) (Z.to_nat (h_page h)).
Proof.
  intros V O S Hm Ca Cb Ta Tb La Lb Fl RB L0 Fc Eb Hp Hp1.
  destruct (free_page_lost edit describe junk file m h k fr tabs b ta pa ra ja ea sa tb pb rb jb eb sb V O S Hm Ca Cb Ta Tb La Lb Fl RB L0 Eb Hp Hp1) as (file' & E & F & R).
  exists file'. split; [exact E|]. split; [congruence|]. split; [|exact R]. clear R. intros ->. rewrite Fc in F. clear - F. lia.
Qed.
Print Assumptions C202_free_page_lost_refuted.

(** ... and with no free page the file becomes one page longer: that of a file with no contents, which belongs to no table *)
Theorem C202_file_grows_refuted edit describe junk file m h k fr tabs ta pa ra ja ea sa tb pb rb jb eb sb :
  for_viewing file m -> open_view true true junk file m = Ok h -> sound (h_page h) k file fr -> Z.of_nat k + 3 < 2^32 ->
  carries pa ra -> carries pb rb -> nth_error tabs ta = Some sa -> nth_error tabs tb = Some sb -> length sa = 3%nat -> length sb = 3%nat ->
  first_lacking ra sa -> (forall i, (i < 3)%nat -> nth_error rb i = Some 0) -> fr_len fr = 0 ->
  exists file', program edit describe junk file m fr tabs [Import ta pa ja ea; Import tb pb jb eb] = Ok (file', [true; false]) /\
    file' = grown (h_ver h) (Z.to_nat (h_page h)) k file.
Proof. exact (file_grown edit describe junk file m h k fr tabs ta pa ra ja ea sa tb pb rb jb eb sb). Qed.
Print Assumptions C202_file_grows_refuted.

(** Five pages: the header, the list of free pages (one number, in page 3: page 4), the root object.  Table 0 has data only, table 1 has
    no files; the export for table 0 has a blob, that for table 1 has none of the three *)
Definition ex_ver (a b c d : Z) := [49; 67; 68; 66; 77; 83; 86; 56; a; b; c; d].
Definition ex_page (l : list Z) : list Z := l ++ repeat 0 (Z.to_nat 4096 - length l).
Definition ex_file (ver : list Z) (n : Z) : list Z :=
  ex_page (ver ++ [5; 0; 0; 0]) ++ ex_page ([49; 67; 68; 66; 79; 66; 86; 56; n; 0; 0; 0] ++ repeat 0 12 ++ [3]) ++ ex_page [49; 67; 68; 66; 79; 66; 86; 56] ++ ex_page [4] ++ ex_page [].
Definition ex_dir (root : list Z) : place_of := Dir (fun i => match i with O => Some root | _ => None end).
Definition ex_root (a b c : Z) : list Z := [a; b; c] ++ repeat 0 33.
Definition ex_tabs : list (list (option Z)) := [[Some 2; None; None]; [None; None; None]].
Definition ex_env (i : nat) : Z * list Z := (Z.of_nat i, []).
Definition ex_edit (c : base) (fr : free) (p : Z) : res (base * free) := Ok (c, fr).
Definition ex_describe (c : base) (fr : free) : res (base * free) := Ok (c, fr).
Definition ex_a := Import 0 (ex_dir (ex_root 0 1 0)) [] ex_env.
Definition ex_b := Import 1 (ex_dir (ex_root 0 0 0)) [] ex_env.
Definition ex_d := Import 0 (ex_dir (ex_root 1 1 0)) [] ex_env.
Definition ex_run (n : Z) (m : bool) (ks : list command) :=
  do x <- program ex_edit ex_describe [] (ex_file (ex_ver 8 2 14 0) n) m (FREE n [3]) ex_tabs ks;
  let (f, outs) := x in Ok (if teq f (ex_file (ex_ver 8 2 14 0) n) then true else false, zlen f, free_count (Z.to_nat 4096) f, outs).

Lemma ex_good ver n : length ver = 12%nat -> good_file (Z.to_nat 4096) 5 (ex_file ver n).
Proof.
  intros L. do 12 (destruct ver as [|? ver]; [discriminate|]). destruct ver; [|discriminate].
  unfold good_file. split; [apply Nat.leb_le; vm_compute; reflexivity|]. split; [lia|]. split; [reflexivity|]. split; [apply Nat.eqb_eq; vm_compute; reflexivity|reflexivity].
Qed.
Lemma ex_sound n : 0 <= n < 1024 -> sound 4096 5 (ex_file (ex_ver 8 2 14 0) n) (FREE n [3]).
Proof.
  intros H. split; [reflexivity|]. split; [lia|]. split; [apply ex_good; reflexivity|]. cbn [fr_pages fr_len]. split; [|lia]. constructor; [lia|constructor].
Qed.
Lemma ex_carries root : length root = 36%nat -> carries (ex_dir root) root.
Proof. intros L. exists (fun i => match i with O => Some root | _ => None end), []. rewrite app_nil_r. auto. Qed.
Example C202_hypotheses : open_view true true [] (ex_file (ex_ver 8 2 14 0) 1) false = Ok (HD V82140 4096 5 true) /\ sound 4096 5 (ex_file (ex_ver 8 2 14 0) 1) (FREE 1 [3]) /\
  Forall rooted [ex_a; ex_b; ex_d] /\ first_lacking (ex_root 0 1 0) [Some 2; None; None] /\ ~ first_lacking (ex_root 1 1 0) [Some 2; None; None] /\
  free_count (Z.to_nat 4096) (ex_file (ex_ver 8 2 14 0) 1) = 1 /\ number_at (Z.to_nat 4096) (ex_file (ex_ver 8 2 14 0) 1) 3 0 = 4.
Proof.
  split; [vm_compute; reflexivity|]. split; [apply ex_sound; lia|].
  split; [apply Forall_cons; [exists (ex_root 0 1 0); apply ex_carries; reflexivity|apply Forall_cons; [exists (ex_root 0 0 0); apply ex_carries; reflexivity|apply Forall_cons; [exists (ex_root 1 1 0); apply ex_carries; reflexivity|constructor]]]|].
  split; [exists 1%nat; split; [reflexivity|]; split; [reflexivity|]; intros [|j] Hj; [reflexivity|lia]|].
  split; [intros (i & A & B & C); destruct i as [|i]; [discriminate|]; specialize (C 0%nat ltac:(lia)); discriminate|].
  split; vm_compute; reflexivity.
Qed.
(** one import that fails, an import of files the table has, and exports: the file stays; two imports: it does not.  In the other order it stays *)
Example C202_runs :
  ex_run 1 false [Export [GPage 2 0 []; GPage 9 0 []]; ex_d; ex_b; Export [GPage 1 5 []; GClean true 9]] = Ok (true, 20480, 1, [true; true; false; false]) /\
  ex_run 1 false [ex_b; ex_a] = Ok (true, 20480, 1, [false; true]) /\
  ex_run 1 false [ex_a; ex_b] = Ok (false, 20480, 0, [true; false]) /\
  ex_run 0 false [ex_a; ex_b] = Ok (false, 24576, 0, [true; false]) /\
  ex_run 1 true [ex_a; ex_b] = Ok (false, 20480, 0, [false; false]).
Proof. repeat (split; [vm_compute; reflexivity|]). vm_compute; reflexivity. Qed.
(** a database of a format that is never changed, opened without -ne *)
Example C202_old_format : for_viewing (ex_file (ex_ver 8 0 5 0) 1) true /\ open_view true true [] (ex_file (ex_ver 8 0 5 0) 1) true = Ok (HD V8050 4096 5 true).
Proof. split; [right; split; [apply Nat.leb_le; vm_compute; reflexivity|right; vm_compute; reflexivity]|vm_compute; reflexivity]. Qed.

(** C203 is false: whoever may read the file but not write it cannot open the database, with any options *)
Theorem C203_needs_writing_refuted junk file m : firstn 8 junk <> [49; 67; 68; 66; 77; 83; 86; 56] -> open_view true false junk file m = Throw.
Proof. exact (not_writable junk file m). Qed.
Print Assumptions C203_needs_writing_refuted.
(** C203, what holds: with both rights the option decides nothing about being opened: the same databases open, with the same
    pages and version, for viewing and for editing *)
Theorem C203_same_databases_partial junk file h :
  open_view true true junk file true = Ok h ->
  exists r, open_view true true junk file false = Ok (HD (h_ver h) (h_page h) (h_pages h) r).
Proof. exact (same_databases junk file h). Qed.
Print Assumptions C203_same_databases_partial.
Example C203_case : open_view true false [] (ex_file (ex_ver 8 2 14 0) 1) false = Throw /\
  open_view true true [] (ex_file (ex_ver 8 2 14 0) 1) true = Ok (HD V82140 4096 5 false).
Proof. split; vm_compute; reflexivity. Qed.
