(** Property theorems about the command line, table filters, version ranges and times (C51-C53, C101, C102, C131). *)
From Coq Require Import String Ascii.
From Verif Require Import Prelude Text_Model Text_Spec App_Model App_Spec App_Proofs App_Filter.

(** ** C51: arguments are unquoted and dispatched *)
(** parsing never ends when the first argument ends in two quotes *)
Theorem C51_quotes_refuted : forall t, (2 <= length t)%nat -> last t 0 = 34 -> hd 0 t <> 45 -> forall fuel rest, parse_args fuel ((t ++ [34]) :: rest) = Hang.
Proof. exact parse_hang. Qed.
Print Assumptions C51_quotes_refuted.
Example C51_hang : parse_args 9 [codes "a"""""; codes "-q"] = Hang.
Proof. reflexivity. Qed.
(** an empty argument, and an argument of two quotes, are undefined *)
Theorem C51_empty_refuted : forall fuel rest, parse_args fuel ([] :: rest) = UB /\ parse_args (S fuel) ([34; 34] :: rest) = UB.
Proof. intros fuel rest. split; reflexivity. Qed.
Print Assumptions C51_empty_refuted.
(** what unquoting gives, for every text *)
Theorem C51_unquote_partial : forall fuel s, (2 <= fuel)%nat ->
  match s with
  | [] => dequote fuel s = Ok []
  | [c] => dequote fuel s = Ok [c]
  | _ => last s 0 <> 34 /\ dequote fuel s = Ok s \/
         exists c t, s = c :: t ++ [34] /\
           (c = 34 /\ t = [] /\ dequote fuel s = UB \/
            c = 34 /\ t <> [] /\ last t 0 <> 34 /\ dequote fuel s = Ok t \/
            c <> 34 /\ last (c :: t) 0 <> 34 /\ dequote fuel s = Ok (c :: t) \/
            (t <> [] /\ last t 0 = 34) /\ forall k, dequote k s = Hang)
  end.
Proof. exact dequote_cases. Qed.
Print Assumptions C51_unquote_partial.
(** every list of arguments made of keys with their parameters, unknown keys and file names *)
Theorem C51_dispatch_partial : forall fuel args cs fs us, args_of args cs fs us ->
  exists p, parse_args (S fuel) args = Ok p /\
    Forall2 (fun c e => c_cmd c = fst e /\ [c_p1 c; c_p2 c; c_p3 c] = firstn 3 (snd e ++ added (fst e) ++ repeat [] 3)) (p_cmds p) cs /\
    p_file p = hd [] fs /\ length (filter (fun x => match x with UnknownKey _ => true | _ => false end) (p_notes p)) = length us.
Proof. exact parse_args_ok. Qed.
Print Assumptions C51_dispatch_partial.
Example C51_nonvacuous : let args := map codes ["-EX"; """my dir"""; "CONFIG*"; "base.1cd"; "-zz"; "-drc"; "3"]%string in
  args_of args [(11, map codes ["my dir"; "CONFIG*"]%string); (12, [codes "3"; []])] [codes "base.1cd"] [codes "zz"] /\
  exists p, parse_args 5 args = Ok p /\ p_cmds p = [CM 11 (codes "my dir") (codes "CONFIG*") []; CM 12 (codes "3") [] []] /\ p_file p = codes "base.1cd" /\
    p_notes p = [UnknownKey (codes "zz"); MissingParam (codes "drc")].
Proof.
  cbv zeta. split.
  - apply (a_key (codes "EX") 11 2 (map codes ["""my dir"""; "CONFIG*"]%string) (map codes ["my dir"; "CONFIG*"]%string)).
    + exists (codes "EX"), ["ex"; "exporttoxml"]%string, "ex"%string. repeat split; [repeat constructor; vm_compute; intuition discriminate|vm_compute; tauto|left; reflexivity|].
      repeat (constructor; [right; left; left; vm_compute; intuition discriminate|]). constructor.
    + reflexivity.
    + constructor; [apply (sp_quoted (codes "my dir")); [discriminate|vm_compute; discriminate]|]. constructor; [apply sp_plain; [discriminate|vm_compute; discriminate]|constructor].
    + apply a_file; [discriminate|vm_compute; discriminate|apply sp_plain; [discriminate|vm_compute; discriminate]|].
      apply (a_unknown (codes "zz")); [repeat constructor; vm_compute; intuition discriminate|vm_compute; intuition discriminate| |].
      * intros cmd n H. apply key_found in H. destruct H as (p & d & E1 & E2 & _). vm_compute in E1. injection E1 as <-. vm_compute in E2. discriminate.
      * apply (a_missing (codes "drc") 12 2 [codes "3"] [codes "3"]); [|cbn; lia|constructor; [apply sp_short|constructor]].
        exists (codes "drc"), ["drc"; "dumpdepotconfig"]%string, "drc"%string. repeat split; [repeat constructor; vm_compute; intuition discriminate|vm_compute; tauto|left; reflexivity|].
        repeat (constructor; [left; reflexivity|]). constructor.
  - eexists. split; [vm_compute; reflexivity|]. repeat apply conj; vm_compute; reflexivity.
Qed.

(** ** C53: wildcards *)
Theorem C53_dot_refuted : forall other x, 1 <= x < 128 -> selected other (codes "a.b") [97; x; 98] = Ok true.
Proof. intros other x. exact (dot_any other x). Qed.
Print Assumptions C53_dot_refuted.
Theorem C53_question_refuted : forall other c, scalar c -> 128 <= c -> selected other (codes "?") (utf8_of [c]) = Ok false.
Proof. intros other c. exact (question_bytes other c). Qed.
Print Assumptions C53_question_refuted.
Theorem C53_wildcards_partial : forall other f name, Forall filter_char f -> Forall (fun c => 1 <= c < 128) name ->
  ((forall w, ~ word_of f w) -> selected other f name = Throw) /\
  ((exists w, word_of f w) -> exists b, selected other f name = Ok b /\ (b = true <-> exists w, word_of f w /\ wild w name)).
Proof. exact selected_ok. Qed.
Print Assumptions C53_wildcards_partial.
Example C53_nonvacuous : let f := codes "config*, _r??x;;" in Forall filter_char f /\ word_of f (codes "_r??x") /\ wild (codes "_r??x") (codes "_R1?X") /\
  (forall other, selected other f (codes "_R1?X") = Ok true /\ selected other f (codes "CONFIGSAVE") = Ok true /\ selected other f (codes "_R12") = Ok false /\ selected other (codes " ,;") (codes "A") = Throw).
Proof.
  cbv zeta. split; [|split; [|split]].
  - repeat (constructor; [split; [vm_compute; intuition discriminate|vm_compute; intuition discriminate]|]). constructor.
  - exists (codes "config*, "), (codes ";;"). split; [reflexivity|]. split; [discriminate|]. split; [repeat (constructor; [vm_compute; intuition discriminate|]); constructor|].
    split; [right; exists (codes "config*,"), 32; split; [reflexivity|left; reflexivity]|right; exists 59, [59]; split; [reflexivity|right; right; right; left; reflexivity]].
  - apply w_char; [discriminate|discriminate|left; reflexivity|]. apply w_char; [discriminate|discriminate|right; right; left; vm_compute; intuition discriminate|]. apply w_one, w_one.
    apply w_char; [discriminate|discriminate|right; right; left; vm_compute; intuition discriminate|]. apply w_nil.
  - intros other. vm_compute. repeat apply conj; reflexivity.
Qed.

(** ** C101: a range of versions *)
Theorem C101_range_refuted : forall a d b, Forall (fun d => 0 <= d <= 9) (a ++ [d]) -> b <> [] -> Forall (fun d => 0 <= d <= 9) b -> digits_value (a ++ [d]) <= 2147483647 -> digits_value b <= 2147483647 ->
  parse_range (map (fun d => d + 48) (a ++ [d]) ++ 58 :: map (fun d => d + 48) b) = Ok (digits_value a, digits_value b).
Proof. exact range_ok. Qed.
Print Assumptions C101_range_refuted.
Theorem C101_single_partial : forall ds, ds <> [] -> Forall (fun d => 0 <= d <= 9) ds -> digits_value ds <= 2147483647 -> parse_range (map (fun d => d + 48) ds) = Ok (digits_value ds, digits_value ds).
Proof. exact range_single. Qed.
Print Assumptions C101_single_partial.
Example C101_nonvacuous : parse_range (codes "12:15") = Ok (1, 15) /\ parse_range (codes "3:5") = Ok (0, 5) /\ parse_range (codes "12") = Ok (12, 12).
Proof. repeat apply conj; reflexivity. Qed.

(** ** C52: times convert back and forth *)
(** with a 4-byte long: about 135 days are lost, for every time *)
Theorem C52_loss_refuted : forall junk t, 0 <= t < 2^32 -> filetime_to_posix false junk (unix_to_filetime t) = if t <? 11643310 then t - 11643309 else t - 11643310.
Proof. exact posix_back. Qed.
Print Assumptions C52_loss_refuted.
(** with an 8-byte long: whatever the time, the result is a few minutes of August 1969 when the
    memory held zeros, and depends on that memory *)
Theorem C52_wide_refuted : forall ft, 0 <= ft -> - 11644473 <= filetime_to_posix true 0 ft <= - 11644044.
Proof. exact posix_wide. Qed.
Print Assumptions C52_wide_refuted.
Example C52_nonvacuous : filetime_to_posix false 0 (unix_to_filetime 1600000000) = 1588356690 /\ filetime_to_posix true 0 (unix_to_filetime 1600000000) = -11644469 /\ filetime_to_posix true 7 (unix_to_filetime 1600000000) = -11641462.
Proof. repeat apply conj; reflexivity. Qed.

(** ** C102: the time stored with a written file is the current one *)
Theorem C102_current_refuted : forall junk t, 11643310 <= t < 2^32 -> v8_current false junk t = v8_time t - 116561157455527.
Proof. exact current_off. Qed.
Print Assumptions C102_current_refuted.
Example C102_nonvacuous : v8_current false 0 1600000000 = 520794810544473 /\ v8_time 1600000000 = 637355968000000.
Proof. split; reflexivity. Qed.

(** ** C131: an answer to a yes-or-no key *)
Theorem C131_yes : forall cps, Forall scalar cps -> ~ In 0 cps -> exists b, is_true_string (utf8_of cps) = Ok b /\ (b = true <-> exists w, In w yes_words /\ Forall2 same_letter cps w).
Proof. exact true_string. Qed.
Print Assumptions C131_yes.
Example C131_nonvacuous : is_true_string (codes "Yes") = Ok true /\ is_true_string (codes "yess") = Ok false /\ is_true_string (codes "0") = Ok false /\
  is_true_string (utf8_of [1044; 1040]) = Ok true /\ is_true_string [] = Ok false /\ Forall scalar [1044; 1040].
Proof. repeat apply conj; try reflexivity. repeat constructor; unfold scalar; lia. Qed.
