(** Properties C168-C173: a run of the program. *)
From Coq Require Import String Ascii.
From Verif Require Import Prelude Lists Text_Spec App_Model App_Spec Obj_Model Run_Model Run_Spec Run_Proofs Run_Steps Run_Tools Run_Paths.

(** a disk with a database and a folder; the database counts what was done to it *)
Definition e_base : list Z := codes "1CDBMSV8" ++ [1; 2; 3].
Definition e_disk : fs := [([], None); ([codes "d"], None); ([codes "d"; codes "b.1CD"], Some e_base); ([codes "d"; codes "out.cf"], None); ([codes "d"; codes "out.cf"; codes "keep"], Some [7])].
Definition e_rest (mono : bool) (b : list Z) : res (option (list Z)) := Ok (Some []).
Definition e_act (o : opts) (c : command) (w : list Z) : list Z * list (list Z) * ending :=
  (w ++ [c_cmd c], [codes "begun"], if Z.eqb (c_cmd c) 8 then Exc (codes "failed") else if Z.eqb (c_cmd c) 9 then ExcOther else Fin).
Definition e_voice : voice := VO (fun _ => codes "note") (codes "no file") (codes "absent") (codes "opened") (codes "closed") (codes "unknown").
Lemma e_ok : disk_ok e_disk.
Proof. unfold disk_ok. cbn [map fst e_disk]. repeat (constructor; [cbn [In]; intros Q; repeat (destruct Q as [Q | Q]; [discriminate|]); exact Q|]). constructor. Qed.
Lemma e_in : In ([codes "d"; codes "b.1CD"], Some e_base) e_disk.
Proof. right. right. now left. Qed.
Definition e_cmds : list command := [CM 8 [120] [] []; CM 5 (codes "yes") [48] []; CM 9 [120] [] []; CM 3 [] [] []; CM 7 [120] [] []].
Lemma e_known : known e_cmds.
Proof. repeat (constructor; [cbn; lia|]). constructor. Qed.
Lemma e_answers : answers_ok e_cmds.
Proof.
  repeat (constructor; [cbn [c_cmd]; intros [Q | Q]; try discriminate|]); [|constructor]. exists (codes "yes"). split; [reflexivity|]. split; [repeat (constructor; [unfold scalar; cbn; lia|]); constructor|cbn; lia].
Qed.
Lemma e_no k : forallb (fun c => negb (Z.eqb (c_cmd c) k)) e_cmds = true -> ~ has e_cmds k.
Proof. intros H (c & I & E). rewrite forallb_forall in H. specialize (H c I). rewrite E, Z.eqb_refl in H. discriminate. Qed.
Lemma e_opens : opens e_rest e_cmds e_base [].
Proof. split; [reflexivity|]. intros sh _. reflexivity. Qed.
Lemma e_place : place [] (codes "d/b.1CD") [codes "d"; codes "b.1CD"].
Proof. now apply place_full. Qed.

(** C168: once the database has been opened the exit status is 0, whatever became of the commands *)
Theorem C168_commands_refuted {W} (act : opts -> command -> W -> W * list (list Z) * ending) rest v fuel cwd args d code m w :
  main act rest v fuel cwd args d = Ok (code, m, Some w) -> code = 0%Z.
Proof. exact (status_zero act rest v fuel cwd args d code m w). Qed.
Print Assumptions C168_commands_refuted.
Example C168_commands_nonvacuous : (do r <- main e_act e_rest e_voice 9 [] [codes "d/b.1CD"; codes "-dc"; codes "x"; codes "-nosuch"] e_disk; let '(code, m, _) := r in Ok (code, m_con m)) =
  Ok (0%Z, [codes "note"; codes "opened"; codes "begun"; codes "failed"]).
Proof. vm_compute. reflexivity. Qed.

(** C168: a file that is not a database ends the program by an exception nobody catches: no status, no message *)
Theorem C168_not_a_base_refuted {W} (act : opts -> command -> W -> W * list (list Z) * ending) rest v fuel cwd args d p pf x :
  parse_args fuel args = Ok p -> p_cmds p <> [] -> ~ has (p_cmds p) 0 -> ~ has (p_cmds p) 14 -> answers_ok (p_cmds p) -> disk_ok d ->
  p_file p <> [] -> place cwd (p_file p) pf -> In (pf, x) d -> (forall b, x = Some b -> firstn 8 b <> codes "1CDBMSV8") -> main act rest v fuel cwd args d = Throw.
Proof. exact (not_a_base act rest v fuel cwd args d p pf x). Qed.
Print Assumptions C168_not_a_base_refuted.
Example C168_not_a_base_nonvacuous : main e_act e_rest e_voice 9 [] [codes "d/out.cf/keep"; codes "-dc"; codes "x"] e_disk = Throw /\ In ([codes "d"; codes "out.cf"; codes "keep"], Some [7%Z]) e_disk.
Proof. split; [vm_compute; reflexivity|]. do 4 right. now left. Qed.

(** C168: without a file name, and with one that does not exist, there is a status and a message; nothing changes *)
Theorem C168_file_partial {W} (act : opts -> command -> W -> W * list (list Z) * ending) rest v fuel cwd args d p :
  parse_args fuel args = Ok p -> p_cmds p <> [] -> ~ has (p_cmds p) 0 -> ~ has (p_cmds p) 14 -> answers_ok (p_cmds p) -> disk_ok d ->
  (p_file p = [] -> exists m, main act rest v fuel cwd args d = Ok ((-71)%Z, m, None) /\ m_con m = (map (v_note v) (p_notes p) ++ [v_nofile v])%list /\ m_fs m = d) /\
  (forall pf, p_file p <> [] -> place cwd (p_file p) pf -> absent d pf ->
     exists m, main act rest v fuel cwd args d = Ok ((-81)%Z, m, None) /\ m_con m = (map (v_note v) (p_notes p) ++ [v_absent v])%list /\ m_fs m = d).
Proof. exact (status_file act rest v fuel cwd args d p). Qed.
Print Assumptions C168_file_partial.
Example C168_file_nonvacuous : (do r <- main e_act e_rest e_voice 9 [] [codes "-dc"; codes "x"; codes "d/c.1CD"] e_disk; let '(code, m, _) := r in Ok (code, m_con m)) = Ok ((-81)%Z, [codes "absent"]) /\
  (do r <- main e_act e_rest e_voice 9 [] [codes "-dc"; codes "x"] e_disk; let '(code, m, _) := r in Ok (code, m_con m)) = Ok ((-71)%Z, [codes "no file"]) /\ absent e_disk [codes "d"; codes "c.1CD"].
Proof. split; [vm_compute; reflexivity|]. split; [vm_compute; reflexivity|]. now apply look_none. Qed.

(** C169: every command is carried out, in the order given and once, with the options of the whole command line; one
    that fails is reported and does not keep the later ones from their work *)
Theorem C169_commands {W} (act : opts -> command -> W -> W * list (list Z) * ending) rest v cwd cs file m pf b w :
  cs <> [] -> ~ has cs 0 -> ~ has cs 14 -> answers_ok cs -> known cs -> disk_ok (m_fs m) -> m_log m = None -> file <> [] -> place cwd file pf -> In (pf, Some b) (m_fs m) -> opens rest cs b w ->
  exists o ms m' w', run act rest v cwd cs file m = Ok (0%Z, m', Some w') /\ settings cs o /\ carried act (v_error v) o (actions cs) w ms w' /\
    m_con m' = (m_con m ++ v_opened v :: ms)%list /\ m_fs m' = m_fs m.
Proof. exact (run_console act rest v cwd cs file m pf b w). Qed.
Print Assumptions C169_commands.
Example C169_nonvacuous : e_cmds <> [] /\ ~ has e_cmds 0 /\ ~ has e_cmds 14 /\ answers_ok e_cmds /\ known e_cmds /\ disk_ok e_disk /\ place [] (codes "d/b.1CD") [codes "d"; codes "b.1CD"] /\
  In ([codes "d"; codes "b.1CD"], Some e_base) e_disk /\ opens e_rest e_cmds e_base [] /\
  (do r <- run e_act e_rest e_voice [] e_cmds (codes "d/b.1CD") (mess0 e_disk); let '(code, m, w) := r in Ok (code, m_con m, w)) =
    Ok (0%Z, [codes "opened"; codes "begun"; codes "failed"; codes "begun"; codes "unknown"; codes "begun"], Some [8; 9; 7]%Z).
Proof.
  split; [discriminate|]. split; [now apply e_no|]. split; [now apply e_no|]. split; [exact e_answers|]. split; [exact e_known|]. split; [exact e_ok|]. split; [exact e_place|]. split; [exact e_in|]. split; [exact e_opens|].
  vm_compute. reflexivity.
Qed.

(** C170: with a log that is not a directory, and whose directory is there, all messages of the run are in the log, in
    their order, and nothing else is; no other file is touched *)
Theorem C170_log_partial {W} (act : opts -> command -> W -> W * list (list Z) * ending) rest v cwd a c r file m q n pf b w : let cs := (a ++ c :: r)%list in let p := (q ++ [n])%list in
  c_cmd c = 14%Z -> ~ has a 14 -> ~ has r 14 -> ~ has cs 0 -> answers_ok cs -> known cs -> disk_ok (m_fs m) ->
  place cwd (c_p1 c) p -> In (q, None) (m_fs m) -> (forall t, t <> [] -> absent (m_fs m) (p ++ t)%list) -> ~ In (p, None) (m_fs m) ->
  file <> [] -> place cwd file pf -> pf <> p -> In (pf, Some b) (m_fs m) -> opens rest cs b w ->
  exists o ms m' w', run act rest v cwd cs file m = Ok (0%Z, m', Some w') /\ settings cs o /\ carried act (v_error v) o (actions cs) w ms w' /\
    m_con m' = m_con m /\ In (p, Some (concat (v_opened v :: ms))) (m_fs m') /\ (forall s x, s <> p -> (In (s, x) (m_fs m') <-> In (s, x) (m_fs m))).
Proof. exact (run_log act rest v cwd a c r file m q n pf b w). Qed.
Print Assumptions C170_log_partial.
Example C170_log_nonvacuous : place [codes "d"] (codes "./log") [codes "d"; codes "log"] /\ absent e_disk [codes "d"; codes "log"] /\
  (do r <- run e_act e_rest e_voice [codes "d"] (e_cmds ++ CM 14 (codes "./log") [] [] :: [])%list (codes "/d/b.1CD") (mess0 e_disk); let '(code, m, w) := r in Ok (code, m_con m, look (m_fs m) [codes "d"; codes "log"], w)) =
    Ok (0%Z, [], Some (Some (codes "openedbegunfailedbegununknownbegun")), Some [8; 9; 7]%Z).
Proof. split; [now apply place_full|]. split; [now apply look_none|]. vm_compute. reflexivity. Qed.

(** C170: when the log named is a directory, everything in it is deleted *)
Theorem C170_directory_refuted {W} (act : opts -> command -> W -> W * list (list Z) * ending) rest v cwd a c r file m p x code m' w : let cs := (a ++ c :: r)%list in
  c_cmd c = 14%Z -> ~ has a 14 -> ~ has r 14 -> ~ has cs 0 -> answers_ok cs -> disk_ok (m_fs m) -> place cwd (c_p1 c) p -> In (p, x) (m_fs m) ->
  run act rest v cwd cs file m = Ok (code, m', w) -> forall q, within p q -> q <> p -> absent (m_fs m') q.
Proof. exact (log_directory act rest v cwd a c r file m p x code m' w). Qed.
Print Assumptions C170_directory_refuted.
Example C170_directory_nonvacuous : In ([codes "d"; codes "out.cf"], None) e_disk /\ In ([codes "d"; codes "out.cf"; codes "keep"], Some [7%Z]) e_disk /\
  (do r <- run e_act e_rest e_voice [codes "d"] (CM 14 (codes "out.cf") [] [] :: e_cmds)%list (codes "/d/b.1CD") (mess0 e_disk); let '(code, m, w) := r in Ok (code, look (m_fs m) [codes "d"; codes "out.cf"; codes "keep"])) = Ok (0%Z, None).
Proof. split; [do 3 right; now left|]. split; [do 4 right; now left|]. vm_compute. reflexivity. Qed.

(** C170: the key of the log at the end of the command line, without a name: everything in the current directory is
    deleted, the database too when its name is relative *)
Theorem C170_missing_refuted {W} (act : opts -> command -> W -> W * list (list Z) * ending) rest v fuel cwd file d :
  disk_ok d -> In (cwd, None) d -> file <> [] -> ~ In (hd 0%Z file) [45; 47]%Z -> last file 0%Z <> 34%Z ->
  exists m, main act rest v (S fuel) cwd [file; codes "-l"] d = Ok ((-81)%Z, m, None) /\ forall q, within cwd q -> q <> cwd -> absent (m_fs m) q.
Proof. exact (log_missing act rest v fuel cwd file d). Qed.
Print Assumptions C170_missing_refuted.
Example C170_missing_nonvacuous : In ([codes "d"], None) e_disk /\
  (do r <- main e_act e_rest e_voice 9 [codes "d"] [codes "b.1CD"; codes "-l"] e_disk; let '(code, m, _) := r in Ok (code, map fst (m_fs m))) = Ok ((-81)%Z, [[codes "d"]; []]).
Proof. split; [right; now left|]. vm_compute. reflexivity. Qed.

(** C171: a configuration goes to the path given when that ends in .cf, to a file of the usual name in the directory
    given otherwise; all configurations go to the directory given *)
Theorem C171_place_partial cwd d s p name : disk_ok d -> s <> [] -> place cwd s p -> In name [codes "dbcf.cf"; codes "cf.cf"] ->
  (cf_name s -> config_path true cwd d name s = Some s) /\
  (~ cf_name s -> In (p, None) d -> exists t, config_path true cwd d name s = Some t /\ place cwd t (p ++ [name])%list) /\
  (~ cf_name s -> ~ In (p, None) d -> config_path true cwd d name s = None) /\ config_path false cwd d name s = None.
Proof. exact (path_rules cwd d s p name). Qed.
Print Assumptions C171_place_partial.
Theorem C171_all_partial cwd d s p : disk_ok d -> s <> [] -> place cwd s p ->
  (In (p, None) d -> exists a b, all_paths true cwd d s = [a; b] /\ place cwd a (p ++ [codes "dbcf.cf"])%list /\ place cwd b (p ++ [codes "cf.cf"])%list) /\
  (~ In (p, None) d -> all_paths true cwd d s = []) /\ all_paths false cwd d s = [].
Proof. exact (all_rules cwd d s p). Qed.
Print Assumptions C171_all_partial.
Example C171_nonvacuous : config_path true [] e_disk (codes "cf.cf") (codes "d/x.Cf") = Some (codes "d/x.Cf") /\ config_path true [] e_disk (codes "cf.cf") (codes "d/") = Some (codes "d/cf.cf") /\
  config_path true [] e_disk (codes "cf.cf") (codes "d") = Some (codes "d/cf.cf") /\ config_path true [] e_disk (codes "cf.cf") (codes "e") = None /\
  all_paths true [] e_disk (codes "d/out.cf") = [codes "d/out.cf/dbcf.cf"; codes "d/out.cf/cf.cf"].
Proof. vm_compute. auto 10. Qed.

(** C171: a directory whose name ends in .cf is taken for the file to write *)
Theorem C171_folder_refuted cwd d s p name : disk_ok d -> s <> [] -> place cwd s p -> In name [codes "dbcf.cf"; codes "cf.cf"] -> cf_name s -> In (p, None) d ->
  exists t, config_path true cwd d name s = Some t /\ place cwd t p.
Proof. intros OK NE P N C _. exists s. split; [exact (proj1 (path_rules cwd d s p name OK NE P N) C)|exact P]. Qed.
Print Assumptions C171_folder_refuted.
Example C171_folder_nonvacuous : In ([codes "d"; codes "out.cf"], None) e_disk /\ cf_name (codes "d/out.cf") /\ config_path true [] e_disk (codes "cf.cf") (codes "d/out.cf") = Some (codes "d/out.cf").
Proof. split; [do 3 right; now left|]. split; [now apply is_cf_spec|]. vm_compute. reflexivity. Qed.

(** C172: the report of table sizes is exact while no object has 2 GiB *)
Theorem C172_report_partial ts : Forall small ts ->
  exists r, size_report ts = ([239; 187; 191]%Z ++ codes "table_name|records_count|data_size|blob_size|index_size" ++ [13; 10]%Z ++ r)%list /\ size_lines ts r.
Proof. exact (report_ok ts). Qed.
Print Assumptions C172_report_partial.
Example C172_report_nonvacuous : small (TS (codes "CONFIG") 3 (Some 120%Z) None (Some 4096%Z)) /\ size_line (TS (codes "CONFIG") 3 (Some 120%Z) None (Some 4096%Z)) = (codes "CONFIG|3|120|0|4096" ++ [13; 10]%Z)%list.
Proof. split; [|vm_compute; reflexivity]. split; [cbn; lia|]. cbn [z_data z_blob z_index]. split; [|split]; intros n E; try discriminate; assert (n = 120%Z \/ n = 4096%Z) by (injection E as <-; auto); lia. Qed.

(** C172: from 2 GiB on the number is another one *)
Theorem C172_large_refuted t ts n : (0 <= z_recs t < 2 ^ 32)%Z -> z_data t = Some n -> (2 ^ 31 <= n)%Z ->
  ~ exists r, size_report (t :: ts) = ([239; 187; 191]%Z ++ codes "table_name|records_count|data_size|blob_size|index_size" ++ [13; 10]%Z ++ r)%list /\ size_lines (t :: ts) r.
Proof. exact (report_large t ts n). Qed.
Print Assumptions C172_large_refuted.
Example C172_large_nonvacuous : size_line (TS (codes "T") 3 (Some 3000000000%Z) None None) = (codes "T|3|-1294967296|0|0" ++ [13; 10]%Z)%list.
Proof. vm_compute. reflexivity. Qed.

(** C173: a command over tables deals with each selected table once, in order, and says so *)
Theorem C173_tables_partial {T W} (sel : T -> bool) (deal : T -> W -> res (W * bool)) ok ts w w' : dealt deal (filter sel ts) w w' -> each_table sel deal ok ts w = (w', map ok (filter sel ts), true).
Proof. exact (tables_all sel deal ok ts w w'). Qed.
Print Assumptions C173_tables_partial.
Example C173_tables_nonvacuous : dealt (fun t w => Ok ((w ++ [t])%list, true)) (filter Z.even [1; 2; 4]%Z) [] [2; 4]%Z /\
  each_table Z.even (fun t w => Ok ((w ++ [t])%list, true)) (fun t => [t]) [1; 2; 4]%Z [] = ([2; 4]%Z, [[2]; [4]]%Z, true).
Proof. split; [|reflexivity]. cbn. eapply d_cons; [reflexivity|]. eapply d_cons; [reflexivity|]. constructor. Qed.

(** C173: it says so as well when the work could not be done *)
Theorem C173_reported_refuted {T W} (sel : T -> bool) (deal : T -> W -> res (W * bool)) ok ts w :
  (forall t w, deal t w = Ok (w, false)) -> each_table sel deal ok ts w = (w, map ok (filter sel ts), true).
Proof. intros H. apply tables_all. induction (filter sel ts) as [|t r IH]; [constructor|]. eapply d_cons; [apply H|exact IH]. Qed.
Print Assumptions C173_reported_refuted.
(** C173: a table that raises an exception keeps the ones behind it from being dealt with *)
Theorem C173_stop_refuted {T W} (sel : T -> bool) (deal : T -> W -> res (W * bool)) ok a t r w w1 :
  dealt deal (filter sel a) w w1 -> sel t = true -> deal t w1 = Throw -> each_table sel deal ok (a ++ t :: r)%list w = (w1, map ok (filter sel a), false).
Proof. exact (tables_stop sel deal ok a t r w w1). Qed.
Print Assumptions C173_stop_refuted.
Example C173_stop_nonvacuous : each_table Z.even (fun t w => if Z.eqb t 4 then Throw else Ok ((w ++ [t])%list, true)) (fun t => [t]) [1; 2; 4; 6]%Z [] = ([2]%Z, [[2]]%Z, false) /\
  each_table Z.even (fun t (w : list Z) => Ok (w, false)) (fun t => [t]) [1; 2; 4]%Z [9]%Z = ([9]%Z, [[2]; [4]]%Z, true).
Proof. auto. Qed.
