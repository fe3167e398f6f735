(** Property theorems about exporting from a configuration depot (C44-C46, C50, C104-C106). *)
From Coq Require Import Sorted.
From Verif Require Import Prelude Codec_Model Codec_Spec Stream_Model Depot_Model Depot_Spec Depot_Proofs Depot_Export Depot_Part.

(** ** C44: a version number resolves to that version *)
Theorem C44_version_resolves : forall vs ver, increasing vs -> zlen vs < 2^32 -> Forall (fun v => -2^31 <= v < 2^31) vs -> -2^31 < ver < 2^31 ->
  (0 < ver -> resolve vs ver = Ok ver) /\
  (ver <= 0 -> - ver < zlen vs -> exists v, resolve vs ver = Ok v /\ nth_newest vs (- ver) v) /\
  (ver <= 0 -> zlen vs <= - ver -> resolve vs ver = Throw).
Proof.
  intros vs ver HI HL HR HV. split; [|split].
  - intros H. unfold resolve. destruct (Z.ltb_spec 0 ver); [reflexivity|lia].
  - intros H. apply resolve_ok; try assumption. lia.
  - intros H. apply resolve_ok; try assumption. lia.
Qed.
Print Assumptions C44_version_resolves.
(** the version asked for is exported if it is there and refused otherwise *)
Theorem C44_version_found : forall rows ver, (In ver rows -> find_version rows ver = Ok ver) /\ (~ In ver rows -> find_version rows ver = Throw).
Proof. exact find_version_ok. Qed.
Print Assumptions C44_version_found.
Example C44_nonvacuous : increasing [1; 4; 5; 9] /\ resolve [1; 4; 5; 9] 0 = Ok 9 /\ resolve [1; 4; 5; 9] (-2) = Ok 4 /\ resolve [1; 4; 5; 9] (-4) = Throw /\ resolve [1; 4; 5; 9] 7 = Ok 7 /\
  nth_newest [1; 4; 5; 9] 2 4 /\ find_version [1; 4; 5; 9] 7 = Throw.
Proof. repeat split; try reflexivity; right; left; reflexivity. Qed.

(** ** C104: every number is resolved or refused *)
(** the smallest 32-bit number is neither *)
Theorem C104_smallest_refuted : forall vs, resolve vs (-2^31) = UB.
Proof. intros vs. reflexivity. Qed.
Print Assumptions C104_smallest_refuted.
Theorem C104_total_partial : forall vs ver, zlen vs < 2^32 -> -2^31 < ver < 2^31 -> resolve vs ver <> UB /\ resolve vs ver <> Hang.
Proof.
  intros vs ver HL HV. unfold resolve. destruct (Z.ltb_spec 0 ver); [split; discriminate|]. destruct (Z.ltb_spec (- ver) (2^31)); [|lia]. cbn [negb].
  pose proof (zlen_nonneg vs). assert (EN : u32 (zlen vs) = zlen vs) by (apply Z.mod_small; lia). assert (EV : u32 (- ver) = - ver) by (apply Z.mod_small; lia). rewrite EN, EV.
  destruct (Z.leb_spec (zlen vs) (- ver)); [split; discriminate|]. assert (E1 : u32 (zlen vs + ver - 1) = zlen vs + ver - 1) by (apply Z.mod_small; lia). rewrite E1.
  destruct (nth_error vs (Z.to_nat (zlen vs + ver - 1))) as [v|] eqn:E; [|apply nth_error_None in E; unfold zlen in *; lia]. rewrite (rd_ok vs _ v) by (assumption || lia). cbn [rbind]. destruct ((-2^31 <=? v) && (v <? 2^31)); split; discriminate.
Qed.
Print Assumptions C104_total_partial.
Example C104_nonvacuous : resolve [1; 2^31] 0 = Throw /\ resolve [] 0 = Throw.
Proof. split; reflexivity. Qed.

(** ** C45: a version is exported with each object's state at that version *)
Theorem C45_export_exact : forall same oname pack v rows exts, depot_ok same rows exts -> rows <> [] ->
  (complete same pack v rows exts -> exists log, export same oname pack v rows exts = Ok log /\
     forall k d, (forall d', exported same oname pack v rows exts k d' -> d' = d) -> (map_get log k = Some d <-> exported same oname pack v rows exts k d)) /\
  (~ complete same pack v rows exts -> export same oname pack v rows exts = Throw).
Proof. exact export_ok. Qed.
Print Assumptions C45_export_exact.
Definition g16 (n : Z) : list Z := repeat 0 15 ++ [n].
Definition rows45 : list hrow :=
  [HR (g16 3) 1 false true (Some [30]) []; HR (g16 3) 4 false true None [9]; HR (g16 3) 6 false true (Some [31]) [];
   HR (g16 5) 2 false true (Some [50]) []; HR (g16 5) 3 true false None [];
   HR (g16 7) 2 false true (Some [70]) []; HR (g16 7) 5 false false None []].
Definition exts45 : list erow := [ER (g16 3) 1 [65] true (Some [33]) []; ER (g16 3) 4 [65] false None []; ER (g16 3) 4 [66] true (Some [34]) []; ER (g16 7) 1 [67] true (Some [35]) []].
Definition same45 (a b : list Z) : bool := if list_eq_dec Z.eq_dec a b then true else false.
Example C45_nonvacuous : depot_ok same45 rows45 exts45 /\ export same45 (fun o => o) (Some (fun h => if list_eq_dec Z.eq_dec h [9] then Some [32] else None)) 5 rows45 exts45 =
  Ok [(g16 3, [32]); ([65], [33]); ([66], [34]); (g16 7, [70])].
Proof.
  split; [|reflexivity]. constructor.
  - unfold same45. repeat split; intros.
    + destruct (list_eq_dec Z.eq_dec a a); congruence.
    + destruct (list_eq_dec Z.eq_dec a b), (list_eq_dec Z.eq_dec b a); congruence.
    + destruct (list_eq_dec Z.eq_dec a b), (list_eq_dec Z.eq_dec b c), (list_eq_dec Z.eq_dec a c); congruence.
  - repeat constructor; vm_compute; discriminate.
  - repeat constructor; vm_compute; discriminate.
  - repeat (apply SSorted_cons || apply Forall_cons || apply SSorted_nil || apply Forall_nil); ((left; reflexivity) || (right; split; reflexivity)).
  - repeat (apply SSorted_cons || apply Forall_cons || apply SSorted_nil || apply Forall_nil); ((left; reflexivity) || (right; split; [reflexivity|]; left; reflexivity) || (right; split; [reflexivity|]; right; split; reflexivity)).
Qed.

(** ** C105: exporting from a depot without history *)
(** both exports use a record that was never read *)
Theorem C105_no_history_refuted : forall same oname pack v exts v6 p inflate b e, export same oname pack v [] exts = UB /\ export_part v6 p inflate b e [] = UB.
Proof. intros same oname pack v exts v6 p inflate b e. split; [reflexivity|]. unfold export_part. destruct (e <? b); reflexivity. Qed.
Print Assumptions C105_no_history_refuted.
(** with history the export ends with its files or an exception *)
Theorem C105_history_partial : forall same oname pack v rows exts, depot_ok same rows exts -> rows <> [] ->
  export same oname pack v rows exts = Throw \/ exists log, export same oname pack v rows exts = Ok log.
Proof. exact export_defined. Qed.
Print Assumptions C105_history_partial.
Example C105_nonvacuous : exists log, export same45 (fun o => o) None 3 rows45 exts45 = Ok log /\ map_get log [65] = Some [33].
Proof. eexists. split; reflexivity. Qed.

(** ** C46: exporting a range writes the changed objects *)
(** an object stored with data before the range and changed in it: undefined before depot version 6 *)
Theorem C46_old_depot_refuted : forall pack inflate b e o q r d, h_obj q = o -> h_obj r = o -> is_guid o -> o <> repeat 0 16 ->
  h_ver q < b <= h_ver r -> h_ver r <= e -> h_packed q = true -> h_data q = Some d -> h_removed r = false -> h_packed r = true ->
  export_part false pack inflate b e [q; r] = UB.
Proof. exact part_old. Qed.
Print Assumptions C46_old_depot_refuted.
(** from version 6 on: the object written before is written again in its place *)
Theorem C46_stale_refuted : forall pack inflate b e o' a q r da dq dr x,
  h_obj a = o' -> is_guid o' -> o' <> repeat 0 16 -> is_guid (h_obj q) -> h_obj q = h_obj r -> o' <> h_obj q -> h_obj q <> repeat 0 16 ->
  b <= h_ver a <= e -> h_removed a = false -> h_packed a = true -> h_data a = Some da -> inflate da = Some x ->
  h_ver q < b <= h_ver r -> h_ver r <= e -> h_packed q = true -> h_data q = Some dq -> h_removed r = false -> h_packed r = true -> h_data r = Some dr ->
  dr <> da -> h_hash r <> h_hash q ->
  export_part true pack inflate b e [a; q; r] = Ok ([(o', x); (h_obj r, x)], []).
Proof. exact part_stale. Qed.
Print Assumptions C46_stale_refuted.
(** nothing is written when the other object had the same data or the hash is unchanged *)
Theorem C46_skipped_refuted : forall pack inflate b e o' a q r da dq x,
  h_obj a = o' -> is_guid o' -> o' <> repeat 0 16 -> is_guid (h_obj q) -> h_obj q = h_obj r -> o' <> h_obj q -> h_obj q <> repeat 0 16 ->
  b <= h_ver a <= e -> h_removed a = false -> h_packed a = true -> h_data a = Some da -> inflate da = Some x ->
  h_ver q < b <= h_ver r -> h_ver r <= e -> h_packed q = true -> h_data q = Some dq -> h_removed r = false -> h_packed r = true -> h_data r = Some da ->
  export_part true pack inflate b e [a; q; r] = Ok ([(o', x)], []).
Proof. exact part_skipped. Qed.
Print Assumptions C46_skipped_refuted.
(** data stored in the range is left out when a later row of the range keeps none *)
Theorem C46_unpacked_refuted : forall v6 pack inflate b e a r, is_guid (h_obj a) -> h_obj a <> repeat 0 16 -> h_obj r = h_obj a -> b <= h_ver a < h_ver r -> h_ver r <= e ->
  h_packed a = true -> h_removed r = false -> h_packed r = false -> export_part v6 pack inflate b e [a; r] = Ok ([], []).
Proof. exact part_unpacked. Qed.
Print Assumptions C46_unpacked_refuted.
(** with no such object the files are exactly the changed objects with their last data, and the list of deleted objects is exact *)
Theorem C46_range_partial : forall (v6 : bool) pack inflate b e rows, b <= e -> Forall (fun r => is_guid (h_obj r)) rows -> StronglySorted hist_lt rows -> rows <> [] ->
  let kept r := last_in b e rows r /\ h_removed r = false /\ h_packed r = true in
  let data r x := exists d, stored (if v6 then Some pack else None) (h_data r) (h_hash r) d /\ inflate d = Some x in
  (forall r q, kept r -> last_before b rows q -> h_obj q = h_obj r -> h_packed q = false \/ h_data q = None) ->
  ((forall r, kept r -> exists x, data r x) -> exists files deleted, export_part v6 pack inflate b e rows = Ok (files, deleted) /\
     (forall k x, In (k, x) files <-> exists r, kept r /\ k = h_obj r /\ data r x) /\
     (forall o, In o deleted <-> exists r, last_in b e rows r /\ h_obj r = o /\ h_removed r = true /\ known_before b rows o)) /\
  (~ (forall r, kept r -> exists x, data r x) -> export_part v6 pack inflate b e rows = Throw).
Proof. exact part_exact. Qed.
Print Assumptions C46_range_partial.
(** the ends of the range may be given in either order *)
Theorem C46_order_partial : forall v6 pack inflate b e rows, export_part v6 pack inflate b e rows = export_part v6 pack inflate e b rows.
Proof. exact part_sym. Qed.
Print Assumptions C46_order_partial.
Example C46_nonvacuous :
  export_part true (fun h => if list_eq_dec Z.eq_dec h [9] then Some [32] else None) (fun d => Some (77 :: d)) 2 5 rows45 = Ok ([(g16 3, [77; 32])], []) /\
  export_part true (fun h => if list_eq_dec Z.eq_dec h [9] then Some [32] else None) (fun d => Some (77 :: d)) 4 3 rows45 = Ok ([(g16 3, [77; 32])], [g16 5]) /\
  export_part false (fun _ => None) (fun d => Some (77 :: d)) 0 2 rows45 = Ok ([(g16 3, [77; 30]); (g16 5, [77; 50]); (g16 7, [77; 70])], []) /\
  export_part true (fun _ => None) (fun d => Some (77 :: d)) 4 9 [HR (g16 1) 5 false true (Some [10]) [1]; HR (g16 3) 1 false true (Some [30]) [2]; HR (g16 3) 6 false true (Some [31]) [3]] =
    Ok ([(g16 1, [77; 10]); (g16 3, [77; 10])], []).
Proof. repeat split. Qed.

(** ** C50: data stored under a hash is found *)
Theorem C50_lookup : forall loose hash packs, Forall (fun '(h8, hd, items) => pack_ok h8 hd items) packs -> Forall (fun '(_, _, items) => Forall (fun '(_, d) => d <> []) items) packs ->
  dir_get (map (fun '(h8, hd, items) => (index_file h8 hd items, pack_file hd items)) packs) loose hash = Ok (first_pack hash (map snd packs) (loose hash)).
Proof. exact dir_nonempty. Qed.
Print Assumptions C50_lookup.
Definition h20 (n : Z) : list Z := repeat n 20.
Example C50_nonvacuous : let p1 := (repeat 0 8, [1; 2], [(h20 1, [5; 6]); (h20 2, [7])]) in let p2 := (repeat 0 8, @nil Z, [(h20 2, [8]); (h20 3, [9; 9; 9]); (h20 5, [1]); (h20 5, [2; 3])]) in
  Forall (fun '(h8, hd, items) => pack_ok h8 hd items) [p1; p2] /\
  let files := map (fun '(h8, hd, items) => (index_file h8 hd items, pack_file hd items)) [p1; p2] in
  dir_get files (fun _ => None) (h20 2) = Ok (Some [7]) /\ dir_get files (fun _ => None) (h20 3) = Ok (Some [9; 9; 9]) /\ dir_get files (fun _ => None) (h20 5) = Ok (Some [2; 3]) /\ dir_get files (fun _ => None) (h20 4) = Ok None.
Proof.
  cbv zeta. split; [|repeat split; vm_compute; reflexivity]. repeat apply Forall_cons; try apply Forall_nil; constructor; try reflexivity; repeat constructor; vm_compute; discriminate.
Qed.

(** ** C106: empty data stored under a hash is found *)
(** the whole pack file is returned instead *)
Theorem C106_empty_refuted : forall h8 hd items loose hash, pack_ok h8 hd items -> assoc hash items = Some [] ->
  dir_get [(index_file h8 hd items, pack_file hd items)] loose hash = Ok (Some (pack_file hd items)) /\ pack_file hd items <> [].
Proof. exact dir_empty. Qed.
Print Assumptions C106_empty_refuted.
(** what a lookup gives in general *)
Theorem C106_lookup_partial : forall loose hash packs, Forall (fun '(h8, hd, items) => pack_ok h8 hd items) packs ->
  dir_get (map (fun '(h8, hd, items) => (index_file h8 hd items, pack_file hd items)) packs) loose hash =
  Ok (first_pack hash (map (fun '(_, hd, items) => map (fun '(k, d) => (k, match d with [] => pack_file hd items | _ => d end)) items) packs) (loose hash)).
Proof. exact dir_any. Qed.
Print Assumptions C106_lookup_partial.
Example C106_nonvacuous : let items := [(h20 1, []); (h20 2, [7])] in
  dir_get [(index_file (repeat 0 8) [1] items, pack_file [1] items)] (fun _ => None) (h20 1) = Ok (Some [1; 0;0;0;0;0;0;0;0; 1;0;0;0;0;0;0;0; 7]).
Proof. reflexivity. Qed.
