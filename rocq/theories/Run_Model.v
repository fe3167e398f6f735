(** A run of the command-line program: its messages, its exit status, the options, the files named on the command line.
    Sources: /repo/src/ctool1cd/cTool_1CD_Main.cpp, App.cpp:34-63, 72-95, 100-158, 215-314, 325-345, 389-408, 516-680,
    /repo/src/tool1cd/Messenger.cpp, Common.cpp:172-188, SystemClasses/System.IOUtils.cpp:34-42, 57-61. *)
From Verif Require Import Prelude Codec_Model App_Model Obj_Model Port_Model.

(** ** Files: names from the root down; Some bytes = a file, None = a directory *)
Definition path := list (list Z).
Definition fs := list (path * option (list Z)).
Fixpoint beqs (a b : path) : bool :=
  match a, b with [], [] => true | x :: a, y :: b => bytes_eqb x y && beqs a b | _, _ => false end.
Fixpoint starts (a b : path) : bool :=
  match a, b with [], _ => true | x :: a, y :: b => bytes_eqb x y && starts a b | _, _ => false end.
Definition look (d : fs) (p : path) : option (option (list Z)) := option_map snd (find (fun e => beqs (fst e) p) d).
(** the names in a text; empty ones and single dots do not count (".." is not treated apart, links do not exist here) *)
Fixpoint names (s cur : list Z) : path :=
  match s with
  | [] => [cur]
  | c :: t => if c =? 47 then cur :: names t [] else names t (cur ++ [c])
  end.
Definition comps (s : list Z) : path := filter (fun n => negb (bytes_eqb n []) && negb (bytes_eqb n [46])) (names s []).
(** TPath::GetFullPath, System.IOUtils.cpp:57-61: boost::filesystem::absolute; a text that does not begin with a
    separator, also the empty one, is taken from the current directory *)
Definition full_path (cwd : path) (s : list Z) : path := match s with 47 :: _ => comps s | _ => cwd ++ comps s end.
(** FileExists, DeleteFile, System.IOUtils.cpp:34-42: exists and remove_all (errors of the system left out) *)
Definition file_exists (d : fs) (p : path) : bool := match look d p with Some _ => true | None => false end.
Definition remove_all (d : fs) (p : path) : fs := filter (fun e => negb (starts p (fst e))) d.

(** ** Messenger.cpp *)
Record mess := MS { m_fs : fs; m_con : list (list Z); m_log : option path; m_noverb : bool; m_error : bool }.
(** 29-35, what there is at the start of the program; [has_error] is set here only *)
Definition mess0 (d : fs) : mess := MS d [] None false false.
(** an ofstream opened for appending: a directory, or a file in a directory that is not there, cannot be opened and
    what is written is lost *)
Definition append (d : fs) (p : path) (t : list Z) : fs :=
  match look d p with
  | Some None => d
  | Some (Some _) => map (fun e => if beqs (fst e) p then (fst e, option_map (fun b => b ++ t) (snd e)) else e) d
  | None => match look d (removelast p) with Some None => (p, Some t) :: d | _ => d end
  end.
(** AddDetailedMessage, 45-63, minimal_state = Empty; [t] = the lines of the message, each with its line feed *)
Definition say (m : mess) (t : list Z) : mess :=
  match m_log m with
  | None => MS (m_fs m) (m_con m ++ [t]) (m_log m) (m_noverb m) (m_error m)
  | Some p => MS (append (m_fs m) p t) (m_con m) (m_log m) (m_noverb m) (m_error m)
  end.
Definition says (m : mess) (ts : list (list Z)) : mess := fold_left say ts m.
(** setlogfile, 66-70 *)
Definition set_logfile (cwd : path) (m : mess) (s : list Z) : mess :=
  let p := full_path cwd s in
  MS (if file_exists (m_fs m) p then remove_all (m_fs m) p else m_fs m) (m_con m) (Some p) (m_noverb m) (m_error m).

(** ** App::Run, App.cpp:546-670 *)
(** ActionOpenBaseNotMonopolyChecked, ActionXMLSaveBLOBToFileChecked, ActionXMLUnpackBLOBChecked; App.h:49-51 *)
Record opts := OP { o_shared : bool; o_blob : bool; o_unpack : bool }.
Definition opts0 := OP false false true.
(** the first loop, 558-582; true = help was asked for and the program is done *)
Fixpoint first_pass (cwd : path) (cs : list command) (m : mess) (o : opts) : res (mess * opts * bool) :=
  match cs with
  | [] => Ok (m, o, false)
  | c :: r =>
      if c_cmd c =? 0 then Ok (m, o, true)
      else if c_cmd c =? 1 then first_pass cwd r (MS (m_fs m) (m_con m) (m_log m) true (m_error m)) o
      else if c_cmd c =? 14 then first_pass cwd r (set_logfile cwd m (c_p1 c)) o
      else if c_cmd c =? 3 then first_pass cwd r m (OP true (o_blob o) (o_unpack o))
      else if c_cmd c =? 5 then do b <- is_true_string (c_p1 c); first_pass cwd r m (OP (o_shared o) b (o_unpack o))
      else if c_cmd c =? 6 then do b <- is_true_string (c_p1 c); first_pass cwd r m (OP (o_shared o) (o_blob o) b)
      else first_pass cwd r m o
  end.
(** the commands of the second loop, 610-660 *)
Definition is_action (c : command) : bool :=
  existsb (Z.eqb (c_cmd c)) [4; 11; 7; 8; 9; 10; 12; 13; 15; 16; 17; 18].
(** how an action ends; the exceptions of 661-672 with their text *)
Inductive ending := Fin | Exc (t : list Z) | ExcOther.
(** what a run says by itself *)
Record voice := VO { v_note : note -> list Z; v_nofile : list Z; v_absent : list Z; v_opened : list Z; v_closed : list Z; v_error : list Z }.

(** T_1CD::open, Class_1CD.cpp:261-267: the mark at the start of the file; what follows is [rest].  Exceptions are not
    caught around the constructor (App.cpp:597) *)
Definition SIG_CON : list Z := [49; 67; 68; 66; 77; 83; 86; 56].
Definition open_base {W} (rest : bool -> list Z -> res (option W)) (mono : bool) (x : option (list Z)) : res (option W) :=
  match x with
  | None => Throw
  | Some b => if bytes_eqb (firstn 8 b) SIG_CON then rest mono b else Throw
  end.

Section run.
  Context {W : Type}.
  (** an action: what it makes of the opened database and of the rest of the world, its messages, how it ends; its
      messages are delivered when it is over *)
  Variable act : opts -> command -> W -> W * list (list Z) * ending.
  Variable rest : bool -> list Z -> res (option W).
  Variable v : voice.

  Definition step (o : opts) (c : command) (s : W * mess) : W * mess :=
    if is_action c then
      let '(w, ts, e) := act o c (fst s) in
      let m := says (snd s) ts in
      (w, match e with Fin => m | Exc t => say m t | ExcOther => say m (v_error v) end)
    else s.
  (** exit status, messenger, the database when it was opened.  The license text and the help go to the console and
      are left out *)
  Definition run (cwd : path) (cs : list command) (file : list Z) (m : mess) : res (Z * mess * option W) :=
    match cs with
    | [] => Ok (0, m, None)
    | _ =>
        do x <- first_pass cwd cs m opts0;
        let '(m, o, help) := x in
        if help then Ok (0, m, None)
        else
          match file with
          | [] => Ok (-71, say m (v_nofile v), None)
          | _ =>
              match look (m_fs m) (full_path cwd file) with
              | None => Ok (-81, say m (v_absent v), None)
              | Some x =>
                  do b <- open_base rest (negb (o_shared o)) x;
                  match b with
                  | None => Ok (-82, say m (v_closed v), None)
                  | Some w =>
                      let '(w, m) := fold_left (fun s c => step o c s) cs (w, say m (v_opened v)) in
                      Ok (0, m, Some w)
                  end
              end
          end
    end.
  (** main, cTool_1CD_Main.cpp:33-56; the command line is read with the messenger already in place *)
  Definition main (fuel : nat) (cwd : path) (args : list (list Z)) (d : fs) : res (Z * mess * option W) :=
    do p <- parse_args fuel args;
    let m := says (mess0 d) (map (v_note v) (p_notes p)) in
    do r <- run cwd (p_cmds p) (p_file p) m;
    let '(code, m, w) := r in
    Ok (if negb (code =? 0) then code else if m_error m then -50 else 0, m, w).
End run.

(** ** The tables a command deals with, App.cpp:80-95, 134-156, 190-211, 263-288: [sel] = the table is selected, [deal]
    = export_to_xml, export_table or import_table and whether the work was done (nothing asks for it: export_to_xml has
    a result that is dropped, the others give none and register a message); the message of success follows.  The loop
    is left when an exception is thrown *)
Fixpoint each_table {T W} (sel : T -> bool) (deal : T -> W -> res (W * bool)) (ok : T -> list Z) (ts : list T) (w : W) : W * list (list Z) * bool :=
  match ts with
  | [] => (w, [], true)
  | t :: r =>
      if sel t then
        match deal t w with
        | Ok (w, _) => let '(w, ms, e) := each_table sel deal ok r w in (w, ok t :: ms, e)
        | _ => (w, [], false)
        end
      else each_table sel deal ok r w
  end.

(** ** Where configurations go *)
(** path::extension of the last name (boost: from its last dot; "." and ".." have none) *)
Fixpoint last_dot (s cur : list Z) : list Z :=
  match s with [] => cur | c :: t => last_dot t (if c =? 46 then c :: t else cur) end.
Definition extension (s : list Z) : list Z :=
  let n := last (names s []) [] in
  if bytes_eqb n [46] || bytes_eqb n [46; 46] then [] else last_dot n [].
(** boost::iequals(.., ".cf"), in the classic locale *)
Definition lower1 (c : Z) : Z := if (65 <=? c) && (c <=? 90) then c + 32 else c.
Definition is_cf (s : list Z) : bool := bytes_eqb (map lower1 (extension s)) [46; 99; 102].
(** path / name: a separator goes between unless the path is empty or ends in one *)
Definition slash (p n : list Z) : list Z := match p with [] => n | _ => if last p 0 =? 47 then p ++ n else p ++ 47 :: n end.
Definition s_dbcf := [100; 98; 99; 102; 46; 99; 102].
Definition s_cf := [99; 102; 46; 99; 102].
(** directory_exists, Common.cpp:172-188 without creating; an empty path does not exist *)
Definition is_dir (cwd : path) (d : fs) (s : list Z) : bool :=
  match s with [] => false | _ => match look d (full_path cwd s) with Some None => true | _ => false end end.
(** save_config, save_configsave, App.cpp:291-314, 325-345 up to the call that saves: the path, if the command goes on;
    [name] is the name inside a directory *)
Definition config_path (infobase : bool) (cwd : path) (d : fs) (name s : list Z) : option (list Z) :=
  if infobase then
    if is_cf s then Some s else if is_dir cwd d s then Some (slash s name) else None
  else None.
(** save_all_configs, 389-408: the first two paths *)
Definition all_paths (infobase : bool) (cwd : path) (d : fs) (s : list Z) : list (list Z) :=
  if is_dir cwd d s && infobase then
    match config_path infobase cwd d s_dbcf (slash s s_dbcf), config_path infobase cwd d s_cf (slash s s_cf) with
    | Some a, Some b => [a; b] | Some a, None => [a] | None, Some b => [b] | None, None => []
    end
  else [].

(** ** save_tables_sizes, App.cpp:516-538 *)
(** a table: its name, Table::get_phys_numrecords (uint32), the lengths of its three objects (V8Object::get_len,
    uint64; None = there is no object) *)
Record tsize := TS { z_name : list Z; z_recs : Z; z_data : option Z; z_blob : option Z; z_index : option Z }.
(** object_size, 49-55: the result is an int *)
Definition object_size (x : option Z) : Z := match x with None => 0 | Some n => i32 n end.
(** std::to_string *)
Definition to_string (n : Z) : list Z := if n <? 0 then 45 :: decimal 20 (- n) else decimal 20 n.
Definition size_line (t : tsize) : list Z :=
  z_name t ++ [124] ++ to_string (z_recs t) ++ [124] ++ to_string (object_size (z_data t)) ++ [124] ++
  to_string (object_size (z_blob t)) ++ [124] ++ to_string (object_size (z_index t)) ++ [13; 10].
Definition size_header : list Z :=
  [116;97;98;108;101;95;110;97;109;101;124;114;101;99;111;114;100;115;95;99;111;117;110;116;124;100;97;116;97;95;115;105;122;101;124;98;108;111;98;95;115;105;122;101;124;105;110;100;101;120;95;115;105;122;101;13;10].
Definition size_report (ts : list tsize) : list Z := [239; 187; 191] ++ size_header ++ flat_map size_line ts.
