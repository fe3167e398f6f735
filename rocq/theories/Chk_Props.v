(** Theorems about the test of the format of a configuration. *)
From Verif Require Import Prelude Text_Model Text_Spec Text_Proofs Tree_Model Descr_Spec Chk_Model Chk_Spec Chk_Proofs Chk_More.

(** ** An example: values that begin with x are packed, contents that begin with c are containers *)
Definition ex_zip (v : list Z) : option (list Z) := match v with 120 :: t => Some t | _ => None end.
Definition ex_mark : list Z := [239;187;191].
Definition ex_text : list Z := ex_mark ++ [123;49;125].
Definition ex_cat (p : bool) (s : list Z) : res (list elem) :=
  match s with
  | 99 :: t => Ok [EData [97] (120 :: ex_text); ECat [98] [EData [109;111;100;117;108;101] t; EData [97] ex_text]]
  | _ => Ok []
  end.
Definition ex_env : cenv := CE ex_zip ex_cat.
Definition ex_six : list (list Z) := [[70;73;76;69;78;65;77;69]; [67;82;69;65;84;73;79;78]; [77;79;68;73;70;73;69;68]; [65;84;84;82;73;66;85;84;69;83]; [68;65;84;65;83;73;90;69]; [66;73;78;65;82;89;68;65;84;65]].
Definition ex_config : list Z := [67;79;78;70;73;71].
Definition ex_rows : list trow := [TR false [114] [56] (Ok (120 :: 120 :: ex_text)); TR true [115] [49] Throw; TR false [117] [50] (Ok [120;99])].
Definition ex_rows1 : list trow := [TR false [114] [55] (Ok (120 :: ex_text)); TR true [115] [49] Throw; TR false [117] [50] (Ok [120;99])].
Definition ex_base (rows : list trow) : tbase :=
  TB (Some (TT ex_config ex_six rows)) (Some (TT [115] ex_six [])) (Some (TT [112] (ex_six ++ [[112;97;114;116;110;111]]) [])) (Some (TT [102] ex_six []))
     (Some (TT [100] [[83;69;82;73;65;76;73;90;69;68;68;65;84;65]] [TR true [] [] Throw; TR false [] [] (Ok ex_text)])).

(** C195: what passes can be read. Full statement: if the test passes, the size of every value is right and every text in it can be read,
    at any depth. Missing: see the refutations. *)
Theorem C195_passes_partial e k b r : test_format e k b = Ok r ->
  (forall t x, looked_at b t -> In x (tt_rows t) -> r_removed x = false -> exists v, r_value x = Ok v /\ (forall n, size_right (r_size x) n -> n = zlen v) /\
     ~ unopened e (tt_name t ++ 47 :: r_name x) v (72 <? zlen (r_name x)) /\
     forall s, inside e (tt_name t ++ 47 :: r_name x) v (72 <? zlen (r_name x)) s -> exists u, text_of s u /\ readable u) /\
  (forall t x, tb_schema b = Some t -> In x (tt_rows t) -> r_removed x = false -> exists v, r_value x = Ok v /\ ~ unopened e (tt_name t) v false /\
     forall s, inside e (tt_name t) v false s -> exists u, text_of s u /\ readable u).
Proof. exact (format_passes e k b r). Qed.
Print Assumptions C195_passes_partial.
Example C195_passes_hyp : test_format ex_env 5 (ex_base ex_rows1) = Ok true /\
  inside ex_env (ex_config ++ 47 :: [117]) [120;99] false ex_text.
Proof.
  split; [vm_compute; reflexivity|].
  assert (N : forall n p, ~ skipped (ex_config ++ 47 :: n) (p :: ex_text)) by (intros n p [H|H]; discriminate H).
  apply (i_deep _ _ _ _ [99] false [EData [97] (120 :: ex_text); ECat [98] [EData [109;111;100;117;108;101] []; EData [97] ex_text]]
     (ex_config ++ 47 :: [117] ++ 47 :: [97]) (120 :: ex_text)).
  - intros [H|H]; discriminate H.
  - now apply c_once.
  - discriminate.
  - reflexivity.
  - discriminate.
  - apply (at_data (ex_config ++ 47 :: [117]) _ [97]); [left; reflexivity|discriminate|discriminate].
  - apply (i_here _ _ _ _ ex_text false); [intros [H|H]; discriminate H|now apply c_once|discriminate|reflexivity].
Qed.
(** ... and the tables have their fields *)
Theorem C195_fields_partial e k b r : test_format e k b = Ok r -> exists c s p f d, b = TB (Some c) (Some s) (Some p) (Some f) (Some d) /\
  Forall (fun t => (6 <= length (tt_fields t) <= 7)%nat /\
     fields_found [[70;73;76;69;78;65;77;69]; [67;82;69;65;84;73;79;78]; [77;79;68;73;70;73;69;68]; [65;84;84;82;73;66;85;84;69;83]; [68;65;84;65;83;73;90;69];
       [66;73;78;65;82;89;68;65;84;65]; [80;65;82;84;78;79]] (tt_fields t)) [c; s; p; f] /\
  length (tt_fields d) = 1%nat /\ fields_found [[83;69;82;73;65;76;73;90;69;68;68;65;84;65]] (tt_fields d).
Proof. exact (format_fields e k b r). Qed.
Print Assumptions C195_fields_partial.
Example C195_fields_hyp : Forall text_name (ex_six ++ [[112;97;114;116;110;111]]).
Proof. repeat (apply Forall_cons; [apply ascii_name; reflexivity|]). constructor. Qed.
(** a container that cannot be opened *)
Example C195_unopened_hyp : unopened (CE ex_zip (fun _ _ => Ok [ECat [97] [EBad [98]]])) [97] [120;99] false /\
  check_value (CE ex_zip (fun _ _ => Ok [ECat [97] [EBad [98]]])) 5 [97] [120;99] false = Throw.
Proof.
  split; [|reflexivity]. eapply (u_bad _ _ _ _ [99] false); [intros [H|H]; discriminate H|now apply c_once|discriminate|reflexivity|].
  eapply hb_deep; [left; reflexivity|]. eapply hb_here. left. reflexivity.
Qed.
(** a value of the wrong size, a text that cannot be read: not passed *)
Example C195_wrong : test_format ex_env 5 (ex_base [TR false [114] [57] (Ok (120 :: ex_text))]) = Throw /\
  test_format ex_env 5 (ex_base [TR false [114] [54] (Ok (ex_mark ++ [123;49;44]))]) = Throw.
Proof. split; vm_compute; reflexivity. Qed.

(** REFUTED: elements named module and text pass whatever they hold *)
Theorem C195_code_refuted e p v tw s c l : content e tw v s c -> s <> [] -> cat e c s = Ok l -> l <> [] ->
  Forall (fun x => exists n d, x = EData n d /\ (n = [109;111;100;117;108;101] \/ n = [116;101;120;116])) l ->
  forall k, check_value e (S k) p v tw = Ok true.
Proof. exact (code_passes e p v tw s c l). Qed.
Print Assumptions C195_code_refuted.
Example C195_code_hyp : exists e v l, content e false v [99] false /\ cat e false [99] = Ok l /\ l <> [] /\
  Forall (fun x => exists n d, x = EData n d /\ (n = [109;111;100;117;108;101] \/ n = [116;101;120;116])) l /\
  parse_text [123;49;44] = Throw /\ In (EData [116;101;120;116] (ex_mark ++ [123;49;44])) l.
Proof.
  exists (CE ex_zip (fun _ _ => Ok [EData [116;101;120;116] (ex_mark ++ [123;49;44])])), [120;99], [EData [116;101;120;116] (ex_mark ++ [123;49;44])].
  split; [now apply c_once|]. split; [reflexivity|]. split; [discriminate|]. split; [|split; [vm_compute; reflexivity|left; reflexivity]].
  constructor; [|constructor]. do 2 eexists. split; [reflexivity|right; reflexivity].
Qed.
(** REFUTED: the values of FILES are not looked at *)
Theorem C195_files_refuted e k c s p f f' d : tt_fields f' = tt_fields f ->
  test_format e k (TB c s p (Some f) d) = test_format e k (TB c s p (Some f') d).
Proof. exact (files_ignored e k c s p f f' d). Qed.
Print Assumptions C195_files_refuted.
Example C195_files_hyp : let b := ex_base ex_rows1 in
  test_format ex_env 5 (TB (tb_config b) (tb_configsave b) (tb_params b) (Some (TT [102] ex_six [TR false [114] [57] (Ok (ex_mark ++ [123;49;44]))])) (tb_schema b)) = Ok true.
Proof. vm_compute. reflexivity. Qed.

(** C196: what is in order passes. Full statement: a configuration that can be read passes. Missing: see the refutations. *)
Theorem C196_sound_partial e b : good_base e b -> exists k, forall j, (k <= j)%nat -> test_format e j b = Ok true.
Proof. exact (base_passes e b). Qed.
Print Assumptions C196_sound_partial.
Lemma ex_ascii (a b : list Z) : Forall scalar a -> Forall scalar b -> ~ In 0 a -> ~ In 0 b -> Forall2 same_letter a b -> utf8_of a = a -> utf8_of b = b -> same_name a b.
Proof. intros H1 H2 H3 H4 H5 <- <-. exists a, b. repeat (split; [first [reflexivity | assumption]|]). assumption. Qed.
Ltac ex_all := repeat (first [apply Forall_cons|apply Forall_nil|apply Forall2_cons|apply Forall2_nil]); unfold scalar, same_letter, case_pair; try lia.
Ltac ex_nz := let H := fresh in intros H; cbn in H; repeat (destruct H as [H|H]; [discriminate H|]); exact H.
Lemma ex_six_ok : file_fields ex_six.
Proof.
  exists ex_six. split; [|left; reflexivity]. unfold ex_six.
  repeat (apply Forall2_cons; [apply ex_ascii; [ex_all|ex_all|ex_nz|ex_nz|ex_all|reflexivity|reflexivity]|]). constructor.
Qed.
Lemma ex_seven_ok : file_fields (ex_six ++ [[112;97;114;116;110;111]]).
Proof.
  destruct ex_six_ok as (six & F & [E|(p & E & P)]).
  - exists six. split; [exact F|]. right. exists [112;97;114;116;110;111]. rewrite E. split; [reflexivity|].
    apply ex_ascii; [ex_all|ex_all|ex_nz|ex_nz|ex_all|reflexivity|reflexivity].
  - exfalso. apply (f_equal (@length (list Z))) in E. rewrite app_length, (same_len _ _ _ F) in E. unfold ex_six in E. cbn in E. discriminate E.
Qed.
Lemma ex_text_ok : text_of ex_text [123;49;125] /\ readable [123;49;125] /\ cut_between [123;49;125].
Proof.
  split; [|split].
  - exists ex_text. split; [right; right; split; [reflexivity|left; vm_compute; reflexivity]|left; reflexivity].
  - intros r _. eexists. vm_compute. reflexivity.
  - intros r ([|w0 w] & E & W).
    + injection E as <-. exists [123;49;125]. split; [ex_all|reflexivity].
    + exfalso. injection E as <- E. inversion W as [|? ? W1 _]; subst. unfold white in W1. lia.
Qed.
Example C196_sound_hyp : good_base ex_env (ex_base ex_rows1).
Proof.
  unfold ex_base. do 5 eexists. split; [reflexivity|]. cbn [tt_fields tt_name tt_rows].
  split; [apply Forall_cons; [exact ex_six_ok|]; apply Forall_cons; [exact ex_six_ok|]; apply Forall_cons; [exact ex_seven_ok|]; apply Forall_cons; [exact ex_six_ok|]; constructor|].
  destruct ex_text_ok as (T & R & U).
  split; [unfold schema_fields; apply Forall2_cons; [apply ex_ascii; [ex_all|ex_all|ex_nz|ex_nz|ex_all|reflexivity|reflexivity]|constructor]|].
  split; [|split; [|cbn; lia]].
  - apply Forall_cons; [|apply Forall_cons; [constructor|apply Forall_cons; [constructor|constructor]]]. unfold ex_rows1.
    apply Forall_cons; [|apply Forall_cons; [left; reflexivity|apply Forall_cons; [|constructor]]].
    + right. exists (120 :: ex_text). split; [reflexivity|]. split.
      * split; [vm_compute; split; [discriminate|reflexivity]|]. exists [7]. split; [discriminate|]. split; [ex_all|]. left. split; reflexivity.
      * apply (s_text _ _ _ _ ex_text false [123;49;125]); [now apply c_once|discriminate|reflexivity|assumption..].
    + right. exists [120;99]. split; [reflexivity|]. split.
      * split; [vm_compute; split; [discriminate|reflexivity]|]. exists [2]. split; [discriminate|]. split; [ex_all|]. left. split; reflexivity.
      * eapply (s_cat _ _ _ _ [99] false); [now apply c_once|discriminate|reflexivity|discriminate|].
        apply Forall_cons; [|apply Forall_cons; [|constructor]].
        -- apply se_data. apply (s_text _ _ _ _ ex_text false [123;49;125]); [now apply c_once|discriminate|reflexivity|assumption..].
        -- apply se_cat. apply Forall_cons; [apply se_code; left; reflexivity|]. apply Forall_cons; [|constructor].
           apply se_data. apply (s_text _ _ _ _ ex_text false [123;49;125]); [now apply c_plain|discriminate|reflexivity|assumption..].
  - apply Forall_cons; [left; reflexivity|]. apply Forall_cons; [|constructor]. right. exists ex_text. split; [reflexivity|].
    apply (s_text _ _ _ _ ex_text false [123;49;125]); [now apply c_plain|discriminate|reflexivity|assumption..].
Qed.

(** REFUTED: content without the mark of an encoding *)
Theorem C196_no_mark_refuted e p v tw s c : ~ skipped p v -> content e tw v s c -> s <> [] -> cat e c s = Ok [] -> header_off s s ->
  (forall t, s <> [239;187;191] ++ t) -> (forall t, s <> [255;254] ++ t) -> forall k, check_value e (S k) p v tw = Throw.
Proof. exact (no_mark_throws e p v tw s c). Qed.
Print Assumptions C196_no_mark_refuted.
Example C196_no_mark_hyp : exists tr, parse_text [123;49;125] = Ok tr /\ ~ skipped [97] [123;49;125] /\ content ex_env false [123;49;125] [123;49;125] false /\
  cat ex_env false [123;49;125] = Ok [] /\ header_off [123;49;125] [123;49;125].
Proof.
  eexists. split; [vm_compute; reflexivity|]. split; [intros [H|H]; discriminate H|]. split; [now apply c_plain|]. split; [reflexivity|].
  right; right. split; [reflexivity|left; vm_compute; reflexivity].
Qed.
(** REFUTED: an empty value that was packed *)
Theorem C196_packed_empty_refuted e p v tw c : ~ skipped p v -> content e tw v [] c -> cat e c [255;255;255;127;0;2;0;0;0;0;0;0;0;0;0;0] = Ok [] ->
  forall k, check_value e (S k) p v tw = Throw.
Proof. exact (packed_empty_throws e p v tw c). Qed.
Print Assumptions C196_packed_empty_refuted.
Example C196_packed_empty_hyp : ~ skipped [97] [120] /\ content ex_env false [120] [] false /\ cat ex_env false [255;255;255;127;0;2;0;0;0;0;0;0;0;0;0;0] = Ok [] /\
  check_value ex_env 1 [97] [] false = Ok true.
Proof. split; [intros [H|H]; discriminate H|]. split; [now apply c_once|]. split; reflexivity. Qed.
(** REFUTED: a text whose fifteenth byte is inside a character *)
Theorem C196_cut_refuted e p v tw s c t : ~ skipped p v -> content e tw v s c -> s <> [] -> cat e c s = Ok [] -> text_of s t -> cut_in_letter t ->
  forall k, check_value e (S k) p v tw = Throw.
Proof. exact (cut_value_throws e p v tw s c t). Qed.
Print Assumptions C196_cut_refuted.
(** {"ЖЖЖЖЖЖЖ"}: the parser reads it *)
Example C196_cut_hyp : let t := [123;34] ++ concat (repeat [208;150] 7) ++ [34;125] in
  (exists tr, parse_text t = Ok tr) /\ cut_in_letter t /\ text_of (ex_mark ++ t) t.
Proof.
  cbv zeta. split; [eexists; vm_compute; reflexivity|]. split.
  - exists (34 :: concat (repeat [208;150] 7) ++ [34;125]), ([123;34] ++ repeat 1046 7 ++ [34;125]). split; [exists []; split; [reflexivity|constructor]|].
    split; [reflexivity|]. split; [cbn [repeat app]; ex_all|]. split; [vm_compute; lia|].
    intros p q E. cbn [repeat app] in E.
    do 11 (destruct p as [|? p]; [cbn; lia|]; injection E as <- E). 
    all: try (destruct p as [|? p]; [|discriminate]); vm_compute; discriminate.
  - eexists. split; [|left; reflexivity]. right; right. split; [reflexivity|]. right. split; discriminate.
Qed.
(** REFUTED: fewer than two records in DBSCHEMA *)
Theorem C196_schema_refuted e k b d r : tb_schema b = Some d -> (length (tt_rows d) < 2)%nat -> test_format e k b <> Ok r.
Proof. exact (schema_short e k b d r). Qed.
Print Assumptions C196_schema_refuted.
Example C196_schema_hyp : let b := ex_base ex_rows1 in let d := TT [100] [[83;69;82;73;65;76;73;90;69;68;68;65;84;65]] [TR false [] [] (Ok ex_text)] in
  (length (tt_rows d) < 2)%nat /\ test_format ex_env 5 (TB (tb_config b) (tb_configsave b) (tb_params b) (tb_files b) (Some d)) = Throw.
Proof. split; [cbn; lia|vm_compute; reflexivity]. Qed.
(** the exemption of texts that begin with {ХАРАКТЕРИСТИКИ never applies *)
Theorem C196_exempt_refuted t b : check_text t = Ok b -> forall r, braces t r -> exists tr, parse_text t = Ok tr.
Proof. exact (text_passes t b). Qed.
Print Assumptions C196_exempt_refuted.
Example C196_exempt_hyp : check_text (features ++ [44]) = Throw /\ braces (features ++ [44]) (tl features ++ [44]).
Proof. split; [vm_compute; reflexivity|]. exists []. split; [reflexivity|constructor]. Qed.

(** C197: REFUTED: the answer is never no *)
Theorem C197_never_no_refuted e k b r : test_format e k b = Ok r -> r = true.
Proof. exact (format_true e k b r). Qed.
Print Assumptions C197_never_no_refuted.
Example C197_hyp : test_format ex_env 5 (ex_base ex_rows1) = Ok true /\ test_format ex_env 5 (ex_base ex_rows) = Throw.
Proof. split; vm_compute; reflexivity. Qed.
