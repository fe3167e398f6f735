(** Packed decimal numbers and dates.
    Source: /repo/src/tool1cd/BinaryDecimalNumber.{h,cpp}, Common.cpp,
    FieldType.cpp (NumericFieldType, DatetimeFieldType).
    Text is a list of character codes; digits are [int]s, i.e. [Z]. *)
From Verif Require Import Prelude.

(** BinaryDecimalNumber.h:43-46 *)
Record bdn := mkbdn {
  b_flag : bool;      (* has_sing_flag *)
  b_prec : Z;         (* precision *)
  b_data : list Z;    (* data *)
  b_sign : Z          (* sign *)
}.

(** BinaryDecimalNumber.cpp:66-76, the loop over the bytes after the first.
    [i] is the C++ counter, [p] the position of [byte_data]; [acc] is [data].
    Fuel stands for the number of iterations. *)
Fixpoint raw_loop (fuel : nat) (buf : list Z) (len i p : Z) (acc : list Z) : res (list Z) :=
  match fuel with
  | O => Hang
  | S k =>
      if i <? len then
        do b <- rd buf p;
        if i + 1 <? len
        then raw_loop k buf len (i + 2) (p + 1) (acc ++ [b / 16; b mod 16])
        else raw_loop k buf len (i + 1) (p + 1) (acc ++ [b / 16])
      else Ok acc
  end.

(** BinaryDecimalNumber.cpp:47-77.  [buf] is the memory starting at [raw_data]. *)
Definition bdn_of_raw (buf : list Z) (len prec : Z) (flag : bool) : res bdn :=
  do first <- rd buf 0;
  let sign := if flag then (if first / 16 =? 0 then -1 else 1) else 1 in
  let acc := if flag then [first mod 16] else [first / 16; first mod 16] in
  do d <- raw_loop (S (Z.to_nat len)) buf len 1 1 acc;
  Ok (mkbdn flag prec d sign).

(** BinaryDecimalNumber.cpp:87-93: split at '.', digit = c - '0'.  A second '.'
    indexes parts[2] (out of bounds) as soon as another character follows. *)
Fixpoint split_parts (t : list Z) (part : nat) (ip fp : list Z) : res (list Z * list Z) :=
  match t with
  | [] => Ok (ip, fp)
  | c :: t' =>
      if c =? 46 then split_parts t' (S part) ip fp
      else match part with
           | O => split_parts t' part (ip ++ [c - 48]) fp
           | S O => split_parts t' part ip (fp ++ [c - 48])
           | _ => UB
           end
  end.

(** std::vector<int>::resize(n, fill) *)
Definition vresize (l : list Z) (n : Z) (fill : Z) : res (list Z) :=
  if n <? 0 then Throw   (* converted to size_t: length_error *)
  else Ok (firstn (Z.to_nat n) l ++ repeat fill (Z.to_nat n - length l)).

(** BinaryDecimalNumber.cpp:79-116.  The [while (add_length--)] loop (107-109)
    runs add_length times because add_length is never negative there. *)
Definition bdn_of_text (t : list Z) (flag : bool) (len prec : Z) : res bdn :=
  do ps <- split_parts t 0 [] [];
  let (ip, fp0) := ps in
  do fp <- (if prec =? 0 then Ok fp0 else vresize fp0 prec 0);
  do za <- (if len =? 0 then Ok (0, ip)
            else
              let add := len - zlen ip - zlen fp in
              if add <? 0
              then do nines <- vresize [] (len - prec) 9; Ok (0, nines)
              else Ok (add, ip));
  let (add, ip') := za in
  Ok (mkbdn flag prec (repeat 0 (Z.to_nat add) ++ ip' ++ fp) 1).

(** BinaryDecimalNumber.cpp:195-203: pairs of digits, a trailing single digit in
    the high half.  [uint8_t x = d << 4] keeps the low 8 bits; for a negative
    digit [d << 4] is taken as the arithmetic product, which is what compilers do. *)
Fixpoint pack_pairs (d : list Z) : list Z :=
  match d with
  | [] => []
  | [h] => [(h * 16) mod 256]
  | h :: l :: t => (Z.lor ((h * 16) mod 256) l) mod 256 :: pack_pairs t
  end.

(** BinaryDecimalNumber.cpp:186-204: the bytes written from [raw_data] on.
    Dereferencing begin() of an empty vector is undefined (191). *)
Definition bdn_write (n : bdn) : res (list Z) :=
  if b_flag n then
    match b_data n with
    | [] => UB
    | h :: t => Ok ((Z.lor (if b_sign n =? -1 then 0 else 16) h) mod 256 :: pack_pairs t)
    end
  else Ok (pack_pairs (b_data n)).

(** BinaryDecimalNumber.cpp:118-125 *)
Definition get_part (n : bdn) (start count : Z) : list Z :=
  map (fun d => d + 48) (sub (b_data n) (Z.to_nat start) (Z.to_nat count)).

(** 138-140: skip leading zeros *)
Fixpoint drop_zeros (l : list Z) : list Z :=
  match l with
  | 0 :: t => drop_zeros t
  | _ => l
  end.

(** BinaryDecimalNumber.cpp:127-172.  [int_size] can be negative or exceed the
    number of digits if precision is out of range; reading data[int_size] then is
    undefined, so the model requires 0 <= precision <= size. *)
Definition bdn_show (n : bdn) : res (list Z) :=
  let sz := zlen (b_data n) in
  if (b_prec n <? 0) || (sz <? b_prec n) then UB
  else
    let isz := Z.to_nat (sz - b_prec n) in
    let sgn := if b_flag n && (b_sign n =? -1) then [45] else [] in
    let ip := drop_zeros (firstn isz (b_data n)) in
    let ips := match ip with [] => [48] | _ => map (fun d => d + 48) ip end in
    let fr := rev (drop_zeros (rev (skipn isz (b_data n)))) in
    let frs := if b_prec n =? 0 then []
               else if existsb (fun d => negb (d =? 0)) fr
                    then 46 :: map (fun d => d + 48) fr else [] in
    Ok (sgn ++ ips ++ frs).

(** NumericFieldType::get_binary_value, FieldType.cpp:447-458: bytes written into
    the field; an empty text writes nothing. *)
Definition numeric_store (t : list Z) (len prec : Z) : res (list Z) :=
  match t with
  | [] => Ok []
  | _ => do n <- bdn_of_text t true len prec; bdn_write n
  end.

(** NumericFieldType::get_presentation, FieldType.cpp:460-464 *)
Definition numeric_show (buf : list Z) (len prec : Z) : res (list Z) :=
  do n <- bdn_of_raw buf len prec true; bdn_show n.

(** NumericFieldType: get_size, FieldType.cpp:138-158 *)
Definition numeric_size (len : Z) : Z := (len + 2) / 2.

(** ** Dates *)

(** BinaryDecimalDate(raw), BinaryDecimalNumber.cpp:212-214 *)
Definition date_of_raw (buf : list Z) : res bdn := bdn_of_raw buf 19 0 false.

(** positions of character [c] in [fmt] (216-224) *)
Fixpoint positions (c : Z) (fmt : list Z) (i : nat) : list nat :=
  match fmt with
  | [] => []
  | f :: t => if f =? c then i :: positions c t (S i) else positions c t (S i)
  end.

(** BinaryDecimalDate(text, format), BinaryDecimalNumber.cpp:216-234 *)
Definition date_of_text (t fmt : list Z) : bdn :=
  let pick i := match nth_error t i with Some c => c - 48 | None => 0 end in
  mkbdn false 0
    (map pick (concat (map (fun c => positions c fmt 0) [121; 77; 100; 104; 109; 115])))
    1.

(** "dd.MM.yyyy hh:mm:ss" (BinaryDecimalNumber.h:52) *)
Definition fmt_show : list Z :=
  [100;100;46;77;77;46;121;121;121;121;32;104;104;58;109;109;58;115;115].
(** "yyyyMMddhhmmss" (Common.cpp:92) *)
Definition fmt_1c : list Z :=
  [121;121;121;121;77;77;100;100;104;104;109;109;115;115].

(** BinaryDecimalDate::get_presentation, 236-251 *)
Definition date_show (n : bdn) : list Z :=
  get_part n 6 2 ++ [46] ++ get_part n 4 2 ++ [46] ++ get_part n 0 4 ++ [32] ++
  get_part n 8 2 ++ [58] ++ get_part n 10 2 ++ [58] ++ get_part n 12 2.

(** string_to_date / string1C_to_date, Common.cpp:90-104 *)
Definition string_to_date (t : list Z) : res (list Z) := bdn_write (date_of_text t fmt_show).
Definition string1C_to_date (t : list Z) : res (list Z) := bdn_write (date_of_text t fmt_1c).
(** date_to_string / date_to_string1C, Common.cpp:107-120 *)
Definition date_to_string (buf : list Z) : res (list Z) :=
  do n <- date_of_raw buf; Ok (date_show n).
Definition date_to_string1C (buf : list Z) : res (list Z) :=
  do n <- date_of_raw buf; Ok (get_part n 0 14).

(** DatetimeFieldType::get_binary_value, FieldType.cpp:540-555, for a 7-byte field *)
Definition datetime_store (t : list Z) : res (list Z) :=
  if zlen t <? 19 then Ok [0; 1; 1; 1; 0; 0; 0]
  else string_to_date t.
