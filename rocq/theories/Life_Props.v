(** Property theorems about closing and discarding file streams (C107, C108). *)
From Verif Require Import Prelude Stream_Model Life_Model Life_Spec Life_Proofs.

(** ** C107: a file stream may be closed, used again and discarded *)
(** a stream that is closed and then discarded is undefined, whatever was done with it before *)
Theorem C107_closed_discard_refuted : forall (create : bool) d ops, within (if create then @nil Z else d, 0%nat) ops -> life_run (life_open create d) (ops ++ [OClose]) = UB.
Proof. intros create d ops HW. apply history; [apply within_app; exact HW|apply close_last]. Qed.
Print Assumptions C107_closed_discard_refuted.
(** exactly the histories that close an open stream and end open give the bytes of the file; all others are undefined *)
Theorem C107_histories_partial : forall (create : bool) d ops, let f := (if create then @nil Z else d, 0%nat) in within f ops ->
  (closed_once false ops -> life_run (life_open create d) ops = Ok (answers f ops, final f ops)) /\ (~ closed_once false ops -> life_run (life_open create d) ops = UB).
Proof. exact history. Qed.
Print Assumptions C107_histories_partial.
Example C107_nonvacuous : let ops := [ORead 1; OClose; OWrite [7; 8]; OClose; OSeek 0; ORead 4; OSeek 1] in
  within ([1; 2; 3; 4], 0%nat) ops /\ closed_once false ops /\ life_run (life_open false [1; 2; 3; 4]) ops = Ok ([[1]; []; []; []; []; [1; 7; 8; 4]; []], [1; 7; 8; 4]) /\
  life_run (life_open false [1; 2]) [ORead 2; OClose] = UB.
Proof. cbv zeta. split; [|split; [|split; reflexivity]]; cbn; repeat split; try discriminate; try lia; reflexivity. Qed.

(** ** C108: saving a file of a container to disk *)
(** it always ends in closing a closed stream *)
Theorem C108_save_refuted : forall old data, save_to_file old data = UB.
Proof.
  intros old data. unfold save_to_file. assert (E : match data with [] => [OClose] | _ => [OWrite data; OClose] end = match data with [] => [] | _ => [OWrite data] end ++ [OClose]) by (destruct data; reflexivity).
  rewrite E, C107_closed_discard_refuted; [reflexivity|]. destruct data; cbn [within]; tauto.
Qed.
Print Assumptions C108_save_refuted.
Example C108_nonvacuous : save_to_file [] [1; 2; 3] = UB /\ life_run (life_open true []) [OWrite [1; 2; 3]] = Ok ([[]], [1; 2; 3]).
Proof. split; reflexivity. Qed.
