(** Model of the command line front end (src/ctool1cd) and of the time conversions
    (src/tool1cd/SystemClasses/System.cpp, src/tool1cd/cfapi/V8Time.cpp). *)
From Verif Require Import Prelude Text_Model Codec_Model.

(** ** dequote, ctool1cd/ParseCommandLine.cpp:159-172 *)
Definition QUOTE : Z := 34.
(** string::back(): undefined for an empty string *)
Definition back (s : list Z) : res Z := match rev s with [] => UB | c :: _ => Ok c end.
(** the loop at 168-170; the new length is taken from the original text ([n] = str.size()) *)
Fixpoint dequote_loop (fuel : nat) (n : nat) (r : list Z) : res (list Z) :=
  match fuel with
  | O => Hang
  | S k => do c <- back r; if c =? QUOTE then dequote_loop k n (firstn (n - 1) r) else Ok r
  end.
Definition dequote (fuel : nat) (s : list Z) : res (list Z) :=
  if (length s <? 2)%nat then Ok s
  else
    do c <- back s;
    let r := if (nth 0 s 0 =? QUOTE) && (c =? QUOTE) then firstn (length s - 2) (skipn 1 s) else s in
    dequote_loop fuel (length s) r.

(** ** CommandParse, ctool1cd/ParseCommandLine.cpp:176-268 *)
(** definitions, ParseCommandLine.cpp:37-78: key, command (position in the enumeration of
    ParseCommandLine.h:30-51), num_add_par, predefine_par *)
Record cdef := CD { d_key : list Z; d_cmd : Z; d_num : nat; d_pre : list Z }.
Definition definitions : list cdef :=
  [ CD [104] 0 0 []; CD [104;101;108;112] 0 0 []; CD [63] 0 0 [];
    CD [110;118] 1 0 []; CD [110;111;118;101;114;98;111;115;101] 1 0 [];
    CD [113] 2 0 []; CD [113;117;105;116] 2 0 [];
    CD [101;97;120] 4 1 []; CD [101;120;112;111;114;116;97;108;108;116;111;120;109;108] 4 1 [];
    CD [98;102] 5 1 [48]; CD [98;108;111;98;116;111;102;105;108;101] 5 1 [48];
    CD [112;98] 6 1 [49]; CD [112;97;114;115;101;98;108;111;98] 6 1 [49];
    CD [101;120] 11 2 []; CD [101;120;112;111;114;116;116;111;120;109;108] 11 2 [];
    CD [110;101] 3 0 []; CD [110;111;116;101;120;99;108;117;115;105;118;101;108;121] 3 0 [];
    CD [100;100;99] 7 1 []; CD [100;117;109;112;100;98;99;111;110;102;105;103] 7 1 [];
    CD [100;99] 8 1 []; CD [100;117;109;112;99;111;110;102;105;103] 8 1 [];
    CD [100;118;99] 9 1 []; CD [100;117;109;112;118;101;110;100;111;114;115;99;111;110;102;105;103;115] 9 1 [];
    CD [100;97;99] 10 1 []; CD [100;117;109;112;97;108;108;99;111;110;102;105;103;115] 10 1 [];
    CD [100;114;99] 12 2 []; CD [100;117;109;112;100;101;112;111;116;99;111;110;102;105;103] 12 2 [];
    CD [100;112;99] 13 2 []; CD [100;117;109;112;112;97;114;116;100;101;112;111;116;99;111;110;102;105;103] 13 2 [];
    CD [108] 14 1 []; CD [108;111;103;102;105;108;101] 14 1 [];
    CD [101;98] 15 2 []; CD [101;120;112;111;114;116;116;111;98;105;110;97;114;121] 15 2 [];
    CD [105;98] 16 2 []; CD [105;109;112;111;114;116;102;114;111;109;98;105;110;97;114;121] 16 2 [];
    CD [115;108;111] 17 1 []; CD [115;97;118;101;108;111;115;116;111;98;106;101;99;116;115] 17 1 [];
    CD [115;116;115] 18 1 []; CD [115;97;118;101;116;97;98;108;101;115;115;105;122;101] 18 1 [] ].

(** the search at 187-192: the first definition whose key equals the text *)
Fixpoint find_def (p : list Z) (ds : list cdef) : option cdef :=
  match ds with [] => None | d :: t => if str_compare p (d_key d) =? 0 then Some d else find_def p t end.

(** ParsedCommand with its three parameters; the messages registered, with the key or name *)
Record command := CM { c_cmd : Z; c_p1 : list Z; c_p2 : list Z; c_p3 : list Z }.
Inductive note := MissingParam (key : list Z) | UnknownKey (key : list Z) | SecondFile (name : list Z).

(** assignment to parameter number [l], 208-222 and 233-246 *)
Definition set_param (l : nat) (v : list Z) (c : command) : command :=
  match l with
  | 0%nat => CM (c_cmd c) v (c_p2 c) (c_p3 c)
  | 1%nat => CM (c_cmd c) (c_p1 c) v (c_p3 c)
  | 2%nat => CM (c_cmd c) (c_p1 c) (c_p2 c) v
  | _ => c
  end.
(** the loop at 204-231 from parameter [l] on with [k] rounds left; [rest] = the arguments that
    follow; gives the command, the arguments left and the messages *)
Fixpoint take_params (fuel : nat) (key : list Z) (k l : nat) (rest : list (list Z)) (c : command) : res (command * list (list Z) * list note) :=
  match k with
  | O => Ok (c, rest, [])
  | S k' =>
      match rest with
      | a :: t => do v <- dequote fuel a; take_params fuel key k' (S l) t (set_param l v c)
      | [] => do x <- take_params fuel key k' (S l) [] c; let '(c', r, m) := x in Ok (c', r, MissingParam key :: m)
      end
  end.
(** state: commands, file name, messages *)
Record parsed := PD { p_cmds : list command; p_file : list Z; p_notes : list note }.
(** one round per argument that is not a parameter, 181-266; the rounds are bounded by the number
    of arguments ([n]) *)
Fixpoint parse_loop (fuel n : nat) (args : list (list Z)) (s : parsed) : res parsed :=
  match n with
  | O => Ok s
  | S n' =>
      match args with
      | [] => Ok s
      | a :: rest =>
          match a with
          | [] => UB
          | c :: k =>
              if c =? 45 then
                do p <- lower_case k;
                match find_def p definitions with
                | Some d =>
                    do x <- take_params fuel p (d_num d) 0 rest (CM (d_cmd d) [] [] []);
                    let '(cm, rest', m) := x in
                    let cm' := match d_pre d with [] => cm | v => set_param (d_num d) v cm end in
                    parse_loop fuel n' rest' (PD (p_cmds s ++ [cm']) (p_file s) (p_notes s ++ m))
                | None => parse_loop fuel n' rest (PD (p_cmds s) (p_file s) (p_notes s ++ [UnknownKey p]))
                end
              else
                match p_file s with
                | [] => do f <- dequote fuel a; parse_loop fuel n' rest (PD (p_cmds s) f (p_notes s))
                | _ => parse_loop fuel n' rest (PD (p_cmds s) (p_file s) (p_notes s ++ [SecondFile a]))
                end
          end
      end
  end.
Definition parse_args (fuel : nat) (args : list (list Z)) : res parsed := parse_loop fuel (length args) args (PD [] [] []).

(** App::IsTrueString, ctool1cd/App.cpp:65-70 (the last two are U+0434 and U+0434 U+0430) *)
Definition is_true_string (s : list Z) : res bool :=
  do l <- lower_case s;
  Ok ((str_compare l [49] =? 0) || (str_compare l [121] =? 0) || (str_compare l [121;101;115] =? 0) ||
      (str_compare l [208;180] =? 0) || (str_compare l [208;180;208;176] =? 0)).

(** ** Table filters, ctool1cd/App.cpp:103-150 (the same text in 164-200 and 225-260) *)
(** TStringList::SetText, SystemClasses/String.cpp:75-83: getline until the end; the piece after
    the last line feed counts only when it is not empty *)
Fixpoint get_lines (s : list Z) (cur : list Z) : list (list Z) :=
  match s with
  | [] => match cur with [] => [] | _ => [cur] end
  | c :: t => if c =? 10 then cur :: get_lines t [] else get_lines t (cur ++ [c])
  end.
Definition filter_text (f : list Z) : res (list Z) :=
  do a <- string_replace f [42] [46;42] true;
  do b <- string_replace a [63] [46] true;
  do c <- string_replace b [32] [10] true;
  do d <- string_replace c [9] [10] true;
  do e <- string_replace d [44] [10] true;
  string_replace e [59] [10] true.
Fixpoint anchored (ls : list (list Z)) : res (list (list Z)) :=
  match ls with
  | [] => Ok []
  | l :: t =>
      do r <- anchored t;
      match l with [] => Ok r | _ => do low <- lower_case l; Ok ((94 :: low ++ [36]) :: r) end
  end.
(** boost::regex restricted to the constructs that can arise from letters, digits and the
    characters between: anchors, characters, '.', and '.' followed by '*'.  Everything else is
    left to [other], which stands for boost on the texts outside that set *)
Inductive atom := Bol | Eol | Any | AnyStar | Lit (c : Z).
Definition special (c : Z) : bool :=
  existsb (Z.eqb c) [46; 91; 93; 123; 125; 40; 41; 92; 42; 43; 63; 124; 94; 36].
Fixpoint atoms (s : list Z) : option (list atom) :=
  match s with
  | [] => Some []
  | c :: t =>
      if c =? 46 then
        match t with
        | 42 :: u => option_map (cons AnyStar) (atoms u)
        | _ => option_map (cons Any) (atoms t)
        end
      else if c =? 94 then option_map (cons Bol) (atoms t)
      else if c =? 36 then option_map (cons Eol) (atoms t)
      else if special c then None else option_map (cons (Lit c)) (atoms t)
  end.
(** regex_match: the whole text must match; [b] = at the start of the text *)
Fixpoint re_match (r : list atom) (b : bool) (s : list Z) : bool :=
  match r with
  | [] => match s with [] => true | _ => false end
  | Bol :: r' => b && re_match r' b s
  | Eol :: r' => match s with [] => re_match r' b s | _ => false end
  | Any :: r' => match s with [] => false | _ :: t => re_match r' false t end
  | Lit c :: r' => match s with [] => false | x :: t => (x =? c) && re_match r' false t end
  | AnyStar :: r' =>
      (fix star (b : bool) (s : list Z) : bool :=
         re_match r' b s || match s with [] => false | _ :: t => star false t end) b s
  end.
Definition boost_match (other : list Z -> list Z -> res bool) (re name : list Z) : res bool :=
  match atoms re with Some r => Ok (re_match r true name) | None => other re name end.
Fixpoint any_match (other : list Z -> list Z -> res bool) (res : list (list Z)) (name : list Z) : Prelude.res bool :=
  match res with
  | [] => Ok false
  | r :: t => do b <- boost_match other r name; if b then Ok true else any_match other t name
  end.
(** whether the table called [name] is selected by the list [f]; Throw = the message that the list
    is empty (130-133) *)
Definition selected (other : list Z -> list Z -> res bool) (f name : list Z) : res bool :=
  do ft <- filter_text f;
  do res <- anchored (get_lines ft []);
  match res with
  | [] => Throw
  | _ => do n <- lower_case name; any_match other res n
  end.

(** ** Version range of save_depot_config_part, ctool1cd/App.cpp:458-475 *)
(** substr(0, splitter - 1): for splitter = 0 the count is the largest unsigned number *)
Definition parse_range (s : list Z) : res (Z * Z) :=
  match sfind s [58] with
  | Some p =>
      do e <- to_int_def (skipn (p + 1) s) 0;
      do b <- to_int_def (match p with O => s | S q => firstn q s end) 0;
      Ok (b, e)
  | None => do v <- to_int_def s 0; Ok (v, v)
  end.

(** ** Time conversions *)
Definition i64 (x : Z) : Z := (x + 2^63) mod 2^64 - 2^63.
(** LARGE_INTEGER, System.hpp:61-71: HighPart is a long.  [wide] = long has 8 bytes, so HighPart lies
    behind QuadPart and the upper half of QuadPart is what the memory held ([junk]) *)
Definition quad_part (wide : bool) (junk ft : Z) : Z := if wide then i64 (ft mod 2^32 + 2^32 * junk) else i64 ft.
(** FileTime_to_POSIX, System.cpp:41-56, as the time_t its callers make of it *)
Definition filetime_to_posix (wide : bool) (junk ft : Z) : Z := Z.quot (quad_part wide junk ft - 11644473600 * 10000) 10000000.
(** UnixTimeToFileTime, System.cpp:60-68, UInt32x32To64 (34-37): the time is cut to 32 bits *)
Definition unix_to_filetime (t : Z) : Z := ((t mod 2^32) * 10000000 + 11644473600) mod 2^64.
(** FileTimeToLocalFileTime, System.cpp:103-113: mktime(localtime(t)) = t *)
Definition filetime_to_local (wide : bool) (junk ft : Z) : Z := unix_to_filetime (filetime_to_posix wide junk ft).
(** LocalFileTimeToFileTime, System.cpp:90-101: mktime(gmtime(t)) = t - [zone] *)
Definition local_to_filetime (wide : bool) (junk zone ft : Z) : Z := unix_to_filetime (filetime_to_posix wide junk ft - zone).
Definition EPOCH_START_WIN : Z := 504911232000000.
(** V8Time::inner_from_file_time, V8Time.cpp:70-79 *)
Definition v8_from_filetime (wide : bool) (junk ft : Z) : Z := Z.quot (i64 (filetime_to_local wide junk ft)) 1000 + EPOCH_START_WIN.
(** V8Time::to_file_time, V8Time.cpp:54-64 *)
Definition v8_to_filetime (wide : bool) (junk zone data : Z) : Z := local_to_filetime wide junk zone (i64 ((data - EPOCH_START_WIN) * 1000)).
(** V8Time::current_time, V8Time.cpp:28-38, at the moment [t] (seconds since 1970), when mktime gives
    back the fields of localtime *)
Definition v8_current (wide : bool) (junk t : Z) : Z := v8_from_filetime wide junk (unix_to_filetime t).
