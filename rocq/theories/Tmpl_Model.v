(** Recognising the data pages of a table.
    Source: /repo/src/tool1cd/Table.cpp:2188-2299, Class_1CD.cpp:2136-2180, Constants.h:37-149. *)
From Verif Require Import Prelude Field_Model.

(** ** The tables of allowed bytes, Constants.h:37-149: sixteen rows of sixteen *)
Definition row_of (n : nat) : list Z := repeat 1 n ++ repeat 0 (16 - n).
Definition rows_of (l : list nat) : list Z := concat (map row_of (l ++ repeat 0%nat (16 - length l))).
Definition NUM_TEST := rows_of [10;10;10;10;10;10;10;10;10;10]%nat.
Definition DATE1_TEST := rows_of [10;10;10;10]%nat.
Definition DATE3_TEST := rows_of [10;3]%nat.
Definition DATE4_TEST := rows_of [10;10;10;2]%nat.
Definition DATE5_TEST := rows_of [10;10;4]%nat.
Definition DATE67_TEST := rows_of [10;10;10;10;10;10]%nat.

(** ** Table::get_record_template_test, Table.cpp:2190-2299: 256 elements for every byte of a record *)
Definition memset1 (t : list Z) (p n : Z) : res (list Z) := wrn t p (repeat 1 (Z.to_nat n)).
Fixpoint num_rows (n : nat) (t : list Z) (p : Z) : res (list Z) :=
  match n with O => Ok t | S k => do t <- wrn t p NUM_TEST; num_rows k t (p + 256) end.
(** [if(required) curp[0] = 0] *)
Definition no_zero (req : bool) (r : list Z) : list Z := if req then 0 :: skipn 1 r else r.
(** the length bytes, 2237-2244 and 2284-2289 *)
Definition len_rows (t : list Z) (p l : Z) : res (list Z) :=
  do t <- memset1 t p (if 255 <? l then 256 else l + 1);
  memset1 t (p + 256) (Z.shiftr l 8 + 1).
(** the switch, 2220-2293.  Lengths are not negative and small enough for int32_t *)
Definition tmpl_value (k : kind) (l : Z) (req : bool) (t : list Z) (p : Z) : res (list Z) :=
  match k with
  | KBin => memset1 t p (256 * l)
  | KBool => wrn t p [1; 1]
  | KNum => num_rows (Z.to_nat (Z.quot (l + 2) 2)) t p
  | KChar => memset1 t p (256 * 2 * l)
  | KVarchar => do t <- len_rows t p l; memset1 t (p + 512) (256 * 2 * l)
  | KVersion => memset1 t p (256 * 16)
  | KString | KText | KImage | KVersion8 => memset1 t p (256 * 8)
  | KDate =>
      do t <- wrn t p DATE1_TEST;
      do t <- wrn t (p + 256) NUM_TEST;
      do t <- wrn t (p + 512) (no_zero req DATE3_TEST);
      do t <- wrn t (p + 768) (no_zero req DATE4_TEST);
      do t <- wrn t (p + 1024) DATE5_TEST;
      do t <- wrn t (p + 1280) DATE67_TEST;
      wrn t (p + 1536) DATE67_TEST
  | KVarbin => do t <- len_rows t p l; memset1 t (p + 512) (256 * l)
  end.
(** one round of the loop, 2206-2294; the flag tells that the name is _DATE_TIME or _NUMBERPREFIX *)
Definition tmpl_field (f : field) (req : bool) (t : list Z) : res (list Z) :=
  let p := 256 * f_off f in
  if f_null f then do t <- wrn t p [1; 1]; tmpl_value (f_kind f) (f_len f) req t (p + 256)
  else tmpl_value (f_kind f) (f_len f) req t p.
Fixpoint tmpl_loop (fs : list (field * bool)) (t : list Z) : res (list Z) :=
  match fs with [] => Ok t | (f, req) :: r => do t <- tmpl_field f req t; tmpl_loop r t end.
Definition record_template (fs : list (field * bool)) (reclen : Z) : res (list Z) :=
  do t <- tmpl_loop fs (repeat 0 (Z.to_nat (256 * reclen)));
  wrn t 0 [1].

(** ** T_1CD::test_block_by_template, Class_1CD.cpp:2138-2180.  [page] = the 4096 bytes of the page, of
    which [len] are read; [junk] = what the rest of the array holds, 4096 bytes *)
Fixpoint test_loop (b : list Z) (tt : list Z) (j rlen : Z) : res bool :=
  match b with
  | [] => Ok true
  | x :: r => do a <- rd tt (j * 256 + x); if a =? 0 then Ok false else test_loop r tt (if rlen <=? j + 1 then 0 else j + 1) rlen
  end.
Definition test_page (junk page tt : list Z) (num rlen len : Z) : res bool :=
  let b := firstn (Z.to_nat len) page ++ skipn (Z.to_nat len) junk in
  let tail := forallb (fun x => x =? 0) (skipn (Z.to_nat len) b) in
  let read := firstn (Z.to_nat len) b in
  if num =? 0 then
    if negb (nth 0 b 0 =? 1) then Ok false
    else if negb (forallb (fun x => x =? 0) (firstn 4 (skipn 1 b))) then Ok false
    else do ok <- test_loop (skipn (Z.to_nat rlen) read) tt 0 rlen; Ok (ok && tail)
  else
    do ok <- test_loop read tt (u32 (num * 4096) mod rlen) rlen; Ok (ok && tail).
