(** What an export from a configuration depot should give. *)
From Coq Require Import Sorted.
From Verif Require Import Prelude Codec_Spec Depot_Model.

(** ** Versions: [v] is the version that has exactly k newer ones *)
Definition nth_newest (vs : list Z) (k : Z) (v : Z) : Prop := In v vs /\ zlen (filter (fun x => v <? x) vs) = k.
Fixpoint increasing (l : list Z) : Prop := match l with a :: (b :: _) as t => a < b /\ increasing t | _ => True end.

(** ** Packs: the files that hold a list of items (hash, data).  The pack file begins with [head]; each
    item is its length in eight bytes and its data *)
Definition num (w : nat) (n : Z) : list Z := map (fun i => n / 256 ^ Z.of_nat i mod 256) (seq 0 w).
Definition item_bytes (d : list Z) : list Z := num 8 (zlen d) ++ d.
Definition pack_file (head : list Z) (items : list (list Z * list Z)) : list Z := head ++ concat (map (fun '(_, d) => item_bytes d) items).
Fixpoint offsets (at_ : Z) (items : list (list Z * list Z)) : list (list Z * Z) :=
  match items with [] => [] | (h, d) :: t => (h, at_) :: offsets (at_ + 8 + zlen d) t end.
Definition index_file (head8 head : list Z) (items : list (list Z * list Z)) : list Z :=
  head8 ++ num 4 (zlen items) ++ concat (map (fun '(h, o) => h ++ num 8 o) (offsets (zlen head) items)).
(** the last item stored under a hash *)
Fixpoint assoc (h : list Z) (items : list (list Z * list Z)) : option (list Z) :=
  match items with [] => None | (k, d) :: t => match assoc h t with Some x => Some x | None => if list_eq_dec Z.eq_dec h k then Some d else None end end.
(** the first pack that has the hash; the loose files after all of them *)
Fixpoint first_pack (h : list Z) (packs : list (list (list Z * list Z))) (loose : option (list Z)) : option (list Z) :=
  match packs with [] => loose | p :: t => match assoc h p with Some d => Some d | None => first_pack h t loose end end.
Record pack_ok (head8 head : list Z) (items : list (list Z * list Z)) : Prop := {
  po_head : length head8 = 8%nat;
  po_hash : Forall (fun '(h, _) => length h = 20%nat /\ bytes_ok h) items;
  po_count : zlen items < 2^32;
  po_size : zlen (pack_file head items) < 2^62
}.

(** ** The order of the rows: by object, then by version *)
Definition hist_lt (a b : hrow) : Prop := be_val (h_obj a) < be_val (h_obj b) \/ h_obj a = h_obj b /\ h_ver a < h_ver b.
Definition ext_lt (same : list Z -> list Z -> bool) (a b : erow) : Prop :=
  be_val (e_obj a) < be_val (e_obj b) \/ e_obj a = e_obj b /\ (e_ver a < e_ver b \/ e_ver a = e_ver b /\ same (e_name a) (e_name b) = false).
Definition equiv (same : list Z -> list Z -> bool) : Prop :=
  (forall a, same a a = true) /\ (forall a b, same a b = true -> same b a = true) /\ (forall a b c, same a b = true -> same b c = true -> same a c = true).
Record depot_ok (same : list Z -> list Z -> bool) (rows : list hrow) (exts : list erow) : Prop := {
  do_same : equiv same;
  do_hguid : Forall (fun r => is_guid (h_obj r)) rows;
  do_eguid : Forall (fun e => is_guid (e_obj e)) exts;
  do_hist : StronglySorted hist_lt rows;
  do_ext : StronglySorted (ext_lt same) exts
}.

(** ** One version *)
(** a row that says what the object is: it is removed, or its data is kept *)
Definition decisive (v : Z) (r : hrow) : Prop := h_ver r <= v /\ (h_removed r = true \/ h_packed r = true).
(** the object of [r] exists at version [v] and [r] is its state *)
Definition shown (v : Z) (rows : list hrow) (r : hrow) : Prop :=
  In r rows /\ decisive v r /\ h_removed r = false /\ forall r', In r' rows -> h_obj r' = h_obj r -> decisive v r' -> h_ver r' <= h_ver r.
(** [e] holds the newest data of an external file that the state [r] has *)
Definition attached (same : list Z -> list Z -> bool) (v : Z) (exts : list erow) (r : hrow) (e : erow) : Prop :=
  In e exts /\ e_obj e = h_obj r /\ e_ver e <= v /\ e_packed e = true /\
  (forall e', In e' exts -> e_obj e' = h_obj r -> e_ver e' <= v -> e_packed e' = true -> same (e_name e') (e_name e) = true -> e_ver e' <= e_ver e) /\
  exists e', In e' exts /\ e_obj e' = h_obj r /\ e_ver e' = h_ver r /\ same (e_name e') (e_name e) = true.
(** data in the row, or else under its hash *)
Definition stored (pack : option (list Z -> option (list Z))) (data : option (list Z)) (hash : list Z) (d : list Z) : Prop :=
  data = Some d \/ data = None /\ exists p, pack = Some p /\ p hash = Some d.
Definition exported same (oname : list Z -> list Z) pack v rows exts (k d : list Z) : Prop :=
  (exists r, shown v rows r /\ k = oname (h_obj r) /\ stored pack (h_data r) (h_hash r) d) \/
  (exists r e, shown v rows r /\ attached same v exts r e /\ k = e_name e /\ stored pack (e_data e) (e_hash e) d).
(** all the data that is needed is there *)
Definition complete same pack v rows exts : Prop :=
  forall r, shown v rows r -> (exists d, stored pack (h_data r) (h_hash r) d) /\ forall e, attached same v exts r e -> exists d, stored pack (e_data e) (e_hash e) d.

(** ** A range of versions *)
(** the last row of an object within the range *)
Definition last_in (b e : Z) (rows : list hrow) (r : hrow) : Prop :=
  In r rows /\ b <= h_ver r <= e /\ forall r', In r' rows -> h_obj r' = h_obj r -> b <= h_ver r' <= e -> h_ver r' <= h_ver r.
Definition known_before (b : Z) (rows : list hrow) (o : list Z) : Prop := exists q, In q rows /\ h_obj q = o /\ h_ver q < b.
(** the last row of an object before the range *)
Definition last_before (b : Z) (rows : list hrow) (q : hrow) : Prop :=
  In q rows /\ h_ver q < b /\ forall r', In r' rows -> h_obj r' = h_obj q -> h_ver r' < b -> h_ver r' <= h_ver q.
