(** Property theorems about writing values of system tables (C176). *)
From Coq Require Import String Ascii.
From Verif Require Import Prelude Text_Spec App_Model App_Spec Cf_Model Cfg_Model Cfg_Spec Val_Spec Save_Model Save_Spec Save_Props Sys_Model Sys_Spec Sys_Proofs.

(** C176: a value that holds no container is written to the file as it is after expanding *)
Theorem C176_value_partial inflate same fuel after junk name key b d x zc : d <> [] -> ~ users_table same name key -> (b = false <-> once_table same name key) ->
  expanded inflate b d x zc -> bytes_ok x -> x <> [] -> no_container x -> ~ far_start x -> save_system inflate same fuel after junk name key d = Ok (File x).
Proof. exact (value_ok inflate same fuel after junk name key b d x zc). Qed.
Print Assumptions C176_value_partial.
(** C176: the list of users is decoded with its key *)
Theorem C176_users_partial inflate same fuel after junk name key k x : users_table same name key -> (1 <= List.length k <= 127)%nat ->
  save_system inflate same fuel after junk name key (users_encode k x) = Ok (File x).
Proof. exact (system_users inflate same fuel after junk name key k x). Qed.
Print Assumptions C176_users_partial.
(** a toy compression: a compressed value begins with 120 *)
Definition t_inflate (d : list Z) : option (list Z) := match d with 120 :: t => Some t | _ => None end%Z.
Example C176_nonvacuous : ~ users_table Codec_Model.eq_list (codes "CONFIG") (codes "root") /\ once_table Codec_Model.eq_list (codes "CONFIG") (codes "root") /\
  expanded t_inflate false [120; 120; 7; 8]%Z [120; 7; 8]%Z false /\ expanded t_inflate true [120; 120; 7; 8]%Z [7; 8]%Z true /\ no_container [7; 8]%Z /\ ~ far_start [120; 7; 8]%Z /\
  save_system t_inflate Codec_Model.eq_list 9 [0%Z] (repeat 0%Z 31) (codes "CONFIG") (codes "root") [120; 120; 7; 8]%Z = Ok (File [120; 7; 8]%Z) /\
  save_system t_inflate Codec_Model.eq_list 9 [0%Z] (repeat 0%Z 31) (codes "PARAMS") (codes "root") [120; 120; 7; 8]%Z = Ok (File [7; 8]%Z) /\
  users_table Codec_Model.eq_list (codes "PARAMS") (codes "users.usr") /\
  save_system t_inflate Codec_Model.eq_list 9 [0%Z] (repeat 0%Z 31) (codes "PARAMS") (codes "users.usr") [1; 120; 127]%Z = Ok (File [7%Z]).
Proof.
  split; [vm_compute; intuition congruence|]. split; [split; [now left|vm_compute; discriminate]|]. split; [apply x_once; [reflexivity|now left]|]. split; [now apply x_twice with [120; 7; 8]%Z|].
  split; [split; [now left|discriminate]|]. split; [intros (e & H & E & _); injection E; lia|]. repeat (split; [vm_compute; intuition congruence|]). vm_compute. reflexivity.
Qed.

(** C176: a container of which one file or more is not a container is never written *)
Theorem C176_container_refuted inflate same fuel after junk lower blob times m es name key b d c zc : In 0%Z after -> List.length junk = 31%nat ->
  built lower m -> Forall2 (stands blob times) m es -> (room es < 2147483647)%Z -> (room es <= Z.of_nat fuel)%Z -> save_catalog lower fuel after blob times m = Ok c ->
  d <> [] -> ~ users_table same name key -> (b = false <-> once_table same name key) -> expanded inflate b d c zc ->
  Exists (fun e => forall z, (if zc then inflate (e_bytes e) = Some z else z = e_bytes e) -> bytes_ok z /\ z <> [] /\ no_container z /\ ~ far_start z) es ->
  forall r, save_system inflate same fuel after junk name key d <> Ok r.
Proof. exact (container_never inflate same fuel after junk lower blob times m es name key b d c zc). Qed.
Print Assumptions C176_container_refuted.
Example C176_container_nonvacuous : Exists (fun e => forall z, z = e_bytes e -> bytes_ok z /\ z <> [] /\ no_container z /\ ~ far_start z) e_entries /\
  (do c <- save_catalog ascii_lower 700 [0%Z] e_blob e_times e_saved; save_system t_inflate Codec_Model.eq_list 700 [0%Z] (repeat 0%Z 31) (codes "CONFIG") (codes "root") (120 :: c)%Z) = UB.
Proof.
  split; [|vm_compute; reflexivity]. left. intros z ->. cbn [e_bytes]. split; [repeat constructor; unfold byte_ok; lia|]. split; [discriminate|]. split; [split; [now left|discriminate]|]. intros (e & H & E & _). injection E. lia.
Qed.
(** C176: a value that expands to nothing is written as an empty container of 16 bytes *)
Theorem C176_empty_refuted inflate same fuel after junk name key b d zc : d <> [] -> ~ users_table same name key -> (b = false <-> once_table same name key) ->
  expanded inflate b d [] zc -> save_system inflate same fuel after junk name key d = Ok (File [255; 255; 255; 127; 0; 2; 0; 0; 0; 0; 0; 0; 0; 0; 0; 0]%Z).
Proof. exact (empty_written inflate same fuel after junk name key b d zc). Qed.
Print Assumptions C176_empty_refuted.
(** C176: a value that begins like an address just below 4 GB is not written; an exception is raised *)
Theorem C176_start_refuted inflate same fuel after junk name key b d x zc : d <> [] -> ~ users_table same name key -> (b = false <-> once_table same name key) ->
  expanded inflate b d x zc -> x <> [] -> (Z.of_nat (List.length x) < 2 ^ 32 - 31)%Z -> far_start x -> save_system inflate same fuel after junk name key d = Throw.
Proof. exact (far_fails inflate same fuel after junk name key b d x zc). Qed.
Print Assumptions C176_start_refuted.
Example C176_start_nonvacuous : far_start (repeat 255%Z 31) /\ far_start [225%Z] /\ ~ far_start (repeat 255%Z 30) /\
  save_system t_inflate Codec_Model.eq_list 9 [0%Z] (repeat 0%Z 31) (codes "PARAMS") (codes "root") (120 :: repeat 255 31)%Z = Throw /\
  save_system t_inflate Codec_Model.eq_list 9 [0%Z] (repeat 0%Z 31) (codes "PARAMS") (codes "root") (120 :: repeat 255 30)%Z = Ok (File (repeat 255 30)%Z) /\
  expanded t_inflate true [120%Z] [] false /\ save_system t_inflate Codec_Model.eq_list 9 [0%Z] (repeat 0%Z 31) (codes "PARAMS") (codes "root") [120%Z] = Ok (File template).
Proof.
  split; [exists 255%Z; vm_compute; intuition congruence|]. split; [exists 225%Z; vm_compute; intuition congruence|]. split; [intros (e & H & E & L & _); injection E as <-; vm_compute in L; discriminate|].
  split; [vm_compute; reflexivity|]. split; [vm_compute; reflexivity|]. split; [apply x_once; [reflexivity|now right]|vm_compute; reflexivity].
Qed.
