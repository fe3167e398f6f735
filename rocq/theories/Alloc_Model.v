(** Taking and releasing pages, changing the length of an object, replacing its contents,
    deleting it.  Sources: /repo/src/tool1cd/V8Object.cpp:279-294, 756-946, 1053-1340 and
    Class_1CD.cpp:554-563, 1760-1795.
    [fl] is the object of page 1 (T_1CD::free_blocks).  Pointers into cached pages that the
    code keeps are page numbers here; the field write through such a pointer is [poke].
    The code copies 4 n numbers into a vector of n numbers.  [slack] is the number of
    numbers past the end of a vector that can be overwritten without harm: none by the
    C++ standard, so that the code as written is the case [slack = 0]; the loops around
    these copies are studied with [slack] large enough. *)
From Verif Require Import Prelude Obj_Model.

Section Alloc.
Variable slack : Z.
Variable cached : Z -> bool.
Variable ps : Z.

(** *(base->get_block_for_write(n, true) + off) = d *)
Definition poke (st : store) (n off : Z) (d : list Z) : res store := write_page cached ps st n true off d.
Definition poke32 (st : store) (n off v : Z) : res store := poke st n off (le_bytes 4 (u32 v)).
(** base->get_block_for_write(n, false) *)
Definition touch (st : store) (n : Z) : res store := write_page cached ps st n false 0 [].

Definition set_len_field (o : obj) (l num : Z) : obj :=
  mko (o_ty o) (o_fat o) l num (o_real o) (o_blocks o) (o_block o) (o_data o) (o_v1 o) (o_v2 o) (o_newver o).
Definition set_blocks (o : obj) (real : Z) (bl : list Z) : obj :=
  mko (o_ty o) (o_fat o) (o_len o) (o_num o) real bl (o_block o) (o_data o) (o_v1 o) (o_v2 o) (o_newver o).

(** std::copy(begin(p->blocks), begin(p->blocks) + n * 4, blocks.begin()) where the vector
    holds the elements [v]: 4 n elements are read and written (n * 4 counts bytes).
    Writing past the end of the vector is undefined behaviour.
    V8Object.cpp:1131-1135, 1264-1268, 1303-1305 *)
Definition copy_blocks (p : list Z) (off n : Z) (v : list Z) : res (list Z) :=
  do src <- entries p off (Z.to_nat (4 * n));
  if zlen v + slack <? 4 * n then UB else Ok (firstn (length v) src ++ skipn (Z.to_nat (4 * n)) v).

(** ** The list of free pages *)

(** V8Object::set_block_as_free, V8Object.cpp:1275-1308 *)
Definition push_free (st : store) (fl : obj) (bn : Z) : res (store * obj) :=
  if negb (o_block fl =? 1) then Throw
  else
    let j := o_len fl / 1024 in
    let i := o_len fl mod 1024 in
    if j <? o_real fl then
      let l := u32 (o_len fl + 1) in
      do st1 <- poke32 st 1 8 l;
      do b <- rd (o_blocks fl) j;
      do st2 <- poke32 st1 b (4 * i) bn;
      Ok (st2, set_len_field fl l (if o_num fl <=? j then j + 1 else o_num fl))
    else
      do st1 <- poke32 st 1 (24 + 4 * o_real fl) bn;
      do h <- get_page st1 1;
      do bl <- copy_blocks h 24 (o_real fl + 1) (repeat 0 (Z.to_nat (o_real fl + 1)));
      Ok (st1, set_blocks fl (o_real fl + 1) bl).

(** V8Object::get_free_block, V8Object.cpp:1311-1340; the page count of the memory block
    manager is the number of pages (C19) *)
Definition pop_free (st : store) (fl : obj) : res (store * obj * Z) :=
  if negb (o_block fl =? 1) then Throw
  else if negb (o_len fl =? 0) then
    let l := o_len fl - 1 in
    do b <- rd (o_blocks fl) (l / 1024);
    do p <- get_page st b;
    do k <- entry p 0 (l mod 1024);
    do st1 <- poke32 st b (4 * (l mod 1024)) 0;
    do st2 <- poke32 st1 1 8 l;
    Ok (st2, set_len_field fl l (o_num fl), k)
  else
    do st1 <- touch st (zlen st);
    Ok (st1, fl, zlen st).

(** ** V8Object::V8Object(base), V8Object.cpp:279-294 *)
Definition new_obj (v838 : bool) (st : store) (fl : obj) : res (store * obj * obj) :=
  do r <- pop_free st fl;
  let '(st1, fl1, n) := r in
  let sg := if v838 then [28; 253] else sig_obj in
  do st2 <- write_page cached ps st1 n false 0 (sg ++ repeat 0 (Z.to_nat ps - length sg));
  do o <- obj_open ps v838 st2 n;
  Ok (st2, fl1, o).

(** ** V8Object::set_len, V8Object.cpp:1053-1272 *)

(** for(; cur < num; cur++) of data80: [k] = num - cur iterations; [tb] = page of ot, if set *)
Fixpoint grow80 (k : nat) (hd cur num : Z) (tb : option Z) (st : store) (fl : obj) : res (store * obj * Z) :=
  match k with
  | O => Ok (st, fl, num)
  | S k' =>
      let i := cur mod 1023 in
      do a <- (if i =? 0 then
                 do r <- pop_free st fl;
                 let '(st1, fl1, bl) := r in
                 do st2 <- poke32 st1 hd (24 + 4 * num) bl;
                 do st3 <- write_page cached ps st2 bl false 0 (le_bytes 4 0);
                 Ok (st3, fl1, num + 1, Some bl)
               else Ok (st, fl, num, tb));
      let '(st1, fl1, num1, tb1) := a in
      do r <- pop_free st1 fl1;
      let '(st2, fl2, bl) := r in
      do st3 <- touch st2 bl;
      match tb1 with
      | None => UB
      | Some t =>
          do st4 <- poke32 st3 t (4 + 4 * i) bl;
          do st5 <- poke32 st4 t 0 (i + 1);
          grow80 k' hd (cur + 1) num1 tb1 st5 fl2
      end
  end.

(** for(cur--; cur >= num; cur--) of data80, 32-bit unsigned; [cur] already decremented *)
Fixpoint shrink80 (fuel : nat) (hd cur dst num tb : Z) (st : store) (fl : obj) : res (store * obj * Z) :=
  if cur <? dst then Ok (st, fl, num)
  else match fuel with
  | O => Hang
  | S k =>
      let i := cur mod 1023 in
      do t <- get_page st tb;
      do b <- entry t 4 i;
      do r <- push_free st fl b;
      let (st1, fl1) := r in
      do st2 <- poke32 st1 tb (4 + 4 * i) 0;
      do st3 <- poke32 st2 tb 0 i;
      if i =? 0 then
        let num1 := u64 (num - 1) in
        do h <- get_page st3 hd;
        do tn <- entry h 24 num1;
        do r2 <- push_free st3 fl1 tn;
        let (st4, fl2) := r2 in
        do st5 <- poke32 st4 hd (24 + 4 * num1) 0;
        if num1 =? 0 then shrink80 k hd (u32 (cur - 1)) dst num1 tb st5 fl2
        else
          do h5 <- get_page st5 hd;
          do tb' <- entry h5 24 (num1 - 1);
          shrink80 k hd (u32 (cur - 1)) dst num1 tb' st5 fl2
      else shrink80 k hd (u32 (cur - 1)) dst num tb st3 fl1
  end.

(** for(; cur < num; cur++) of data838 with two levels *)
Fixpoint grow838 (k : nat) (hd cur num tb : Z) (st : store) (fl : obj) : res (store * obj * Z) :=
  match k with
  | O => Ok (st, fl, num)
  | S k' =>
      let i := cur mod (ps / 4) in
      do a <- (if i =? 0 then
                 do r <- pop_free st fl;
                 let '(st1, fl1, bl) := r in
                 do st2 <- poke32 st1 hd (24 + 4 * num) bl;
                 do st3 <- touch st2 bl;
                 Ok (st3, fl1, num + 1, bl)
               else Ok (st, fl, num, tb));
      let '(st1, fl1, num1, tb1) := a in
      do r <- pop_free st1 fl1;
      let '(st2, fl2, bl) := r in
      do st3 <- touch st2 bl;
      do st4 <- poke32 st3 tb1 (4 * i) bl;
      grow838 k' hd (cur + 1) num1 tb1 st4 fl2
  end.
(** ... and with one level; numblocks is not changed *)
Fixpoint grow_flat (k : nat) (hd cur : Z) (st : store) (fl : obj) : res (store * obj) :=
  match k with
  | O => Ok (st, fl)
  | S k' =>
      do r <- pop_free st fl;
      let '(st1, fl1, bl) := r in
      do st2 <- touch st1 bl;
      do st3 <- poke32 st2 hd (24 + 4 * cur) bl;
      grow_flat k' hd (cur + 1) st3 fl1
  end.
(** for(cur--; cur >= num; cur--) of data838 with one level *)
Fixpoint shrink_flat (fuel : nat) (hd cur dst : Z) (st : store) (fl : obj) : res (store * obj) :=
  if cur <? dst then Ok (st, fl)
  else match fuel with
  | O => Hang
  | S k =>
      do h <- get_page st hd;
      do b <- entry h 24 cur;
      do r <- push_free st fl b;
      let (st1, fl1) := r in
      do st2 <- poke32 st1 hd (24 + 4 * cur) 0;
      shrink_flat k hd (u32 (cur - 1)) dst st2 fl1
  end.

Definition set_shape (o : obj) (fat len num : Z) (bl : list Z) : obj :=
  mko (o_ty o) fat len num (o_real o) bl (o_block o) None (o_v1 o) (o_v2 o) (o_newver o).

(** blocks.clear(); blocks.resize(n) if the number changes *)
Definition resized (o : obj) (n : Z) : list Z := if o_num o =? n then o_blocks o else repeat 0 (Z.to_nat n).

(** the end of set_len: len = _len; copy; write_new_version *)
Definition finish_len (st : store) (fl : obj) (o : obj) (fat len num : Z) (v : list Z) : res (store * obj * obj) :=
  do h <- get_page st (o_block o);
  do bl <- (if 0 <? num then copy_blocks h 24 num v else Ok v);
  do r <- write_version cached ps st (set_shape o fat len num bl);
  Ok (fst r, fl, snd r).

Definition set_len (st : store) (fl : obj) (o : obj) (nlen : Z) : res (store * obj * obj) :=
  if o_len o =? nlen then Ok (st, fl, o)
  else match o_ty o with
  | Free80 | Free838 => Throw
  | Data80 =>
      let hd := o_block o in
      do st0 <- poke32 st hd 8 nlen;
      let ndb := u32 (u64 (nlen + 4095) / 4096) in
      let nb := u32 (ndb + 1022) / 1023 in
      let cdb := u32 (u64 (o_len o + 4095) / 4096) in
      let v := resized o nb in
      if cdb <? ndb then
        do tb <- (if o_num o =? 0 then Ok None
                  else do h <- get_page st0 hd; do t <- entry h 24 (o_num o - 1); do _ <- get_page st0 t; Ok (Some t));
        do r <- grow80 (Z.to_nat (ndb - cdb)) hd cdb (o_num o) tb st0 fl;
        let '(st1, fl1, num) := r in
        finish_len st1 fl1 o (o_fat o) nlen num v
      else if ndb <? cdb then
        do h <- get_page st0 hd;
        do tb <- entry h 24 (u64 (o_num o - 1));
        do r <- shrink80 (Z.to_nat cdb + 5) hd (cdb - 1) ndb (o_num o) tb st0 fl;
        let '(st1, fl1, num) := r in
        finish_len st1 fl1 o (o_fat o) nlen num v
      else finish_len st0 fl o (o_fat o) nlen (o_num o) v
  | Data838 =>
      let hd := o_block o in
      let per := ps / 4 in
      if u32 (u32 (ps * per) * u32 (per - 6)) <? nlen then Throw
      else
        do st0 <- poke st hd 16 (le_bytes 8 nlen);
        let ndb := u32 (u64 (nlen + ps - 1) / ps) in
        let deep := u32 (per - 6) <? ndb in
        let nb := if deep then u32 (ndb + per - 1) / per else ndb in
        let cdb := u32 (u64 (o_len o + ps - 1) / ps) in
        let v := resized o nb in
        if cdb <? ndb then
          if (o_fat o =? 0) && deep then
            do r <- pop_free st0 fl;
            let '(st1, fl1, bl) := r in
            do h <- get_page st1 hd;
            do old <- rdn h 24 (4 * o_num o);
            do st2 <- write_page cached ps st1 bl false 0 old;
            do st3 <- poke st2 hd 2 [1; 0];
            do st4 <- poke32 st3 hd 24 bl;
            do r <- grow838 (Z.to_nat (ndb - cdb)) hd cdb 1 bl st4 fl1;
            let '(st5, fl5, num) := r in
            finish_len st5 fl5 o 1 nlen num v
          else
            do h <- get_page st0 hd;
            do tb <- entry h 24 (u64 (o_num o - 1));
            do _ <- get_page st0 tb;
            if o_fat o =? 0 then
              do r <- grow_flat (Z.to_nat (ndb - cdb)) hd cdb st0 fl;
              let (st1, fl1) := r in
              finish_len st1 fl1 o 0 nlen (o_num o) v
            else
              do r <- grow838 (Z.to_nat (ndb - cdb)) hd cdb (o_num o) tb st0 fl;
              let '(st1, fl1, num) := r in
              finish_len st1 fl1 o (o_fat o) nlen num v
        else if ndb <? cdb then
          if o_fat o =? 0 then
            do r <- shrink_flat (Z.to_nat cdb + 1) hd (cdb - 1) ndb st0 fl;
            let (st1, fl1) := r in
            finish_len st1 fl1 o 0 nlen ndb v
          else UB (* b->blocks through the uninitialised pointer b, line 1225 *)
        else finish_len st0 fl o (o_fat o) nlen (o_num o) v
  end.

(** ** Replacing the whole contents: V8Object::set_data(buf, length), V8Object.cpp:756-850,
    and set_data(stream), 853-946 (same loops, ReadBuffer instead of memcpy) *)
(** data80: for(j...) over one table *)
Fixpoint put_in (n : nat) (tb j : Z) (st : store) (d : list Z) (l curlen : Z) : res (store * list Z * Z * Z) :=
  match n with
  | O => Ok (st, d, l, curlen)
  | S k =>
      let cl := Z.min 4096 l in
      do t <- get_page st tb;
      do b <- entry t 4 j;
      do c <- rdn d 0 cl;
      do st1 <- write_page cached 4096 st b false 0 c;
      if l <=? cl then Ok (st1, d, l, cl)
      else put_in k tb (j + 1) st1 (skipn (Z.to_nat 4096) d) (l - cl) cl
  end.
Fixpoint put_out (n : nat) (blocks : list Z) (i : Z) (st : store) (d : list Z) (l curlen : Z) : res store :=
  match n with
  | O => Ok st
  | S k =>
      do tb <- rd blocks i;
      do t <- get_page st tb;
      do c <- u32at t 0;
      do r <- put_in (Z.to_nat (i32 c)) tb 0 st d l curlen;
      let '(st1, d1, l1, cl1) := r in
      if l1 <=? cl1 then Ok st1 else put_out k blocks (i + 1) st1 d1 l1 cl1
  end.
(** data838 *)
Fixpoint put1 (fuel : nat) (st : store) (blocks : list Z) (cur : Z) (d : list Z) : res store :=
  match d with
  | [] => Ok st
  | _ =>
      match fuel with
      | O => Hang
      | S k =>
          let curlen := Z.min ps (zlen d) in
          do b <- rd blocks cur;
          do st' <- write_page cached ps st b false 0 (firstn (Z.to_nat curlen) d);
          put1 k st' blocks (cur + 1) (skipn (Z.to_nat curlen) d)
      end
  end.
Fixpoint put2 (fuel : nat) (st : store) (per : Z) (blocks : list Z) (tb co e : Z) (d : list Z) : res store :=
  match d with
  | [] => Ok st
  | _ =>
      match fuel with
      | O => Hang
      | S k =>
          let curlen := Z.min ps (zlen d) in
          do t <- get_page st tb;
          do b <- entry t 0 e;
          do st' <- write_page cached ps st b false 0 (firstn (Z.to_nat curlen) d);
          let d' := skipn (Z.to_nat curlen) d in
          if (0 <? zlen d') && (per <=? e + 1) then
            do tb' <- rd blocks co;
            do _ <- get_page st' tb';
            put2 k st' per blocks tb' (co + 1) 0 d'
          else put2 k st' per blocks tb co (e + 1) d'
      end
  end.
Definition put_all (ro : bool) (st : store) (fl o : obj) (d : list Z) : res (store * obj * obj) :=
  if ro then Throw
  else match o_ty o with
  | Free80 | Free838 => Throw
  | _ =>
      do r <- set_len st fl (set_cached o None) (zlen d);
      let '(st1, fl1, o1) := r in
      do st2 <- match o_ty o1 with
                | Data80 => put_out (Z.to_nat (o_num o1)) (o_blocks o1) 0 st1 d (zlen d) 0
                | _ => if o_fat o1 =? 0 then put1 (S (length d)) st1 (o_blocks o1) 0 d
                       else do tb <- rd (o_blocks o1) 0; do _ <- get_page st1 tb;
                            put2 (S (length d)) st1 (ps / 4) (o_blocks o1) tb 1 0 d
                end;
      do r2 <- write_version cached ps st2 o1;
      Ok (fst r2, fl1, snd r2)
  end.

(** ** T_1CD::delete_object, Class_1CD.cpp:1760-1795 *)
Fixpoint push_all (st : store) (fl : obj) (bs : list Z) : res (store * obj) :=
  match bs with
  | [] => Ok (st, fl)
  | b :: r => do x <- push_free st fl b; push_all (fst x) (snd x) r
  end.
(** the loops over table pages: each table is looked up while pages are being pushed, and
    its numblocks compared as unsigned (int32_t against uint32_t) *)
Fixpoint del_in (n : nat) (tb j : Z) (st : store) (fl : obj) : res (store * obj) :=
  match n with
  | O => Ok (st, fl)
  | S k =>
      do t <- get_page st tb;
      do b <- entry t 4 j;
      do x <- push_free st fl b;
      del_in k tb (j + 1) (fst x) (snd x)
  end.
Fixpoint del_out (n : nat) (o : obj) (i : Z) (st : store) (fl : obj) : res (store * obj) :=
  match n with
  | O => Ok (st, fl)
  | S k =>
      do tb <- rd (o_blocks o) i;
      do t <- get_page st tb;
      do c <- u32at t 0;
      do x <- del_in (Z.to_nat c) tb 0 st fl;
      del_out k o (i + 1) (fst x) (snd x)
  end.
Definition delete_object (st : store) (fl o : obj) : res (store * obj) :=
  if (o_block o =? 1) || (o_block o =? 2) then Throw
  else
    let n := Z.to_nat (o_num o) in
    do x <- del_out n o 0 st fl;
    do tabs <- rdn (o_blocks o) 0 (o_num o);
    do y <- push_all (fst x) (snd x) tabs;
    push_all (fst y) (snd y) (repeat (o_block o) n).

End Alloc.
