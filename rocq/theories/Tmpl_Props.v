(** Property theorems: recognising the data pages of a table (C55, C117). *)
From Verif Require Import Prelude Field_Model Field_Spec Tmpl_Model Tmpl_Spec Tmpl_Proofs.

(** C55: the test always gives a verdict, and a page it takes for page [num] of the data has a free first slot and legal bytes in all others,
    whatever the memory around held *)
Theorem C55_accepted_conforms :
  forall fs reclen junk page num len, 5 <= reclen -> placed fs reclen -> bytes_ok page -> zlen page = 4096 -> zlen junk = 4096 -> (0 <= len <= 4096 /\ (num = 0 -> 5 <= len)) -> 0 <= num < 2 ^ 20 ->
  exists tm verdict, record_template fs reclen = Ok tm /\ test_page junk page tm num reclen len = Ok verdict /\
    (verdict = true ->
      (num = 0 -> firstn 5 page = [1; 0; 0; 0; 0]) /\
      forall slot p v, 0 <= slot -> 0 <= p < reclen -> (num = 0 -> 1 <= slot) -> num * 4096 <= slot * reclen + p < num * 4096 + len ->
        nth_error page (Z.to_nat (slot * reclen + p - num * 4096)) = Some v -> record_byte fs p v).
Proof.
  intros fs n junk page num len A B C D E F G. destruct (template_ok fs n ltac:(lia) B) as (tm & T & _).
  assert (S : setup fs n junk page tm num len) by (exact (conj A (conj B (conj T (conj C (conj D (conj E (conj F G)))))))).
  destruct (page_total _ _ _ _ _ _ _ S) as [V|V]; exists tm; eexists; (split; [exact T|]); (split; [exact V|]).
  - intros _. exact (accepted_conforms _ _ _ _ _ _ _ S V).
  - discriminate.
Qed.
Print Assumptions C55_accepted_conforms.
(** a date that must be there, one character, and a number that can be NULL, in records of 14 bytes *)
Example C55_nonvacuous :
  let fs := [(FD KDate false 7 1, true); (FD KChar false 1 8, false); (FD KNum true 5 10, false)] in
  let rec := [0; 32; 37; 17; 22; 16; 5; 9; 65; 0; 1; 18; 52; 80] in
  let page r := [1] ++ repeat 0 13 ++ concat (repeat r 291) ++ firstn 8 rec in
  placed fs 14 /\
  (do tm <- record_template fs 14; test_page (repeat 7 4096) (page rec) tm 0 14 4096) = Ok true /\
  (do tm <- record_template fs 14; test_page (repeat 7 4096) (page ([0; 32; 37; 19] ++ skipn 4 rec)) tm 0 14 4096) = Ok false /\
  (do tm <- record_template fs 14; test_page (repeat 7 4096) (page ([0; 32; 37; 0] ++ skipn 4 rec)) tm 0 14 4096) = Ok false /\
  (do tm <- record_template fs 14; test_page (repeat 7 4096) (concat (repeat rec 292) ++ firstn 8 rec) tm 7 14 4096) = Ok true.
Proof.
  cbv zeta. split; [|split; [vm_compute; reflexivity|]; split; [vm_compute; reflexivity|]; split; vm_compute; reflexivity].
  split.
  - intros f q [H|[H|[H|[]]]]; injection H as <- <-; cbn; lia.
  - intros [|[|[|[|i]]]] [|[|[|[|j]]]] f g a b Hij Hi Hj; cbn in Hi, Hj; try discriminate; try (destruct i; discriminate); try (destruct j; discriminate); try (exfalso; apply Hij; reflexivity);
      injection Hi as <- <-; injection Hj as <- <-; cbn; lia.
Qed.

(** C117: a whole page of records in use is recognised *)
Theorem C117_full_page_partial :
  forall fs reclen junk page tm num, setup fs reclen junk page tm num 4096 ->
  (num = 0 -> firstn 5 page = [1; 0; 0; 0; 0]) ->
  (forall slot p v, 0 <= slot -> 0 <= p < reclen -> (num = 0 -> 1 <= slot) -> num * 4096 <= slot * reclen + p < num * 4096 + 4096 ->
    nth_error page (Z.to_nat (slot * reclen + p - num * 4096)) = Some v -> record_byte fs p v) ->
  test_page junk page tm num reclen 4096 = Ok true.
Proof. intros fs n junk page tm num S H1 H2. apply (conforming_accepted fs n junk page tm num 4096 S H1 H2). apply full_page. now destruct S as (_ & _ & _ & _ & _ & J & _). Qed.
Print Assumptions C117_full_page_partial.
(** ... but the verdict on a last page that is not full depends on what the memory held *)
Theorem C117_last_page_refuted :
  forall fs reclen junk page tm num len, setup fs reclen junk page tm num len ->
  (num = 0 -> firstn 5 page = [1; 0; 0; 0; 0]) ->
  (forall slot p v, 0 <= slot -> 0 <= p < reclen -> (num = 0 -> 1 <= slot) -> num * 4096 <= slot * reclen + p < num * 4096 + len ->
    nth_error page (Z.to_nat (slot * reclen + p - num * 4096)) = Some v -> record_byte fs p v) ->
  (test_page junk page tm num reclen len = Ok true <-> Forall (fun x => x = 0) (skipn (Z.to_nat len) junk)).
Proof. exact conforming_accepted. Qed.
Print Assumptions C117_last_page_refuted.
(** ... a page with a removed record is not recognised *)
Theorem C117_removed_record_refuted :
  forall fs reclen junk page tm num len slot v, setup fs reclen junk page tm num len ->
  0 <= slot -> (num = 0 -> 1 <= slot) -> num * 4096 <= slot * reclen < num * 4096 + len ->
  nth_error page (Z.to_nat (slot * reclen - num * 4096)) = Some v -> v <> 0 -> test_page junk page tm num reclen len = Ok false.
Proof. exact removed_rejected. Qed.
Print Assumptions C117_removed_record_refuted.
(** ... nor the first page of a table that has one *)
Theorem C117_first_page_refuted :
  forall fs reclen junk page tm len, setup fs reclen junk page tm 0 len ->
  firstn 5 page <> [1; 0; 0; 0; 0] -> test_page junk page tm 0 reclen len = Ok false.
Proof. exact link_rejected. Qed.
Print Assumptions C117_first_page_refuted.
(** ... nor any page of a table whose records are longer than their fields *)
Theorem C117_short_fields_refuted :
  forall fs reclen junk page tm num len slot p, setup fs reclen junk page tm num len ->
  1 <= p < reclen -> (forall f q, In (f, q) fs -> ~ inside f p) -> 0 <= slot -> (num = 0 -> 1 <= slot) -> num * 4096 <= slot * reclen + p < num * 4096 + len ->
  test_page junk page tm num reclen len = Ok false.
Proof. exact spare_rejected. Qed.
Print Assumptions C117_short_fields_refuted.
Example C117_nonvacuous :
  let fs := [(FD KBin false 4 1, false)] in
  let page x := [1; 0; 0; 0; 0; 0; 65; 66; 67; 68; x; 70; 71; 72; 73] ++ repeat 0 4081 in
  (do tm <- record_template fs 5; test_page (repeat 0 4096) (page 0) tm 0 5 15) = Ok true /\
  (do tm <- record_template fs 5; test_page (repeat 1 4096) (page 0) tm 0 5 15) = Ok false /\
  (do tm <- record_template fs 5; test_page (repeat 0 4096) (page 1) tm 0 5 15) = Ok false /\
  (do tm <- record_template [(FD KBool false 1 1, false)] 5; test_page (repeat 0 4096) ([1; 0; 0; 0; 0; 0; 1; 0; 0; 0] ++ repeat 0 4086) tm 0 5 10) = Ok false.
Proof. cbv zeta. split; [vm_compute; reflexivity|]; split; [vm_compute; reflexivity|]; split; vm_compute; reflexivity. Qed.
