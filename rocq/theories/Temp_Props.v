(** Property theorems: temporary files (C184, C185). *)
From Verif Require Import Prelude Temp_Model Temp_Spec Temp_Proofs.

(** C184: whatever order the steps of all runs come in, what was written to a temporary stream is read back, as long as no run that has used
    temporary files ends before a stream is created *)
Theorem C184_reads_back_partial :
  forall d fs tr h, sane tr -> fresh d fs tr -> calm tr -> (h < streams tr)%nat -> ~ In (Done h) tr -> reads (run d fs tr) h = written tr h.
Proof. exact reads_back. Qed.
Print Assumptions C184_reads_back_partial.
(** ... and without this condition either everything is read back or nothing *)
Theorem C184_all_or_nothing_partial :
  forall d fs tr h, sane tr -> fresh d fs tr -> reads (run d fs tr) h = written tr h \/ reads (run d fs tr) h = [].
Proof. exact all_or_nothing. Qed.
Print Assumptions C184_all_or_nothing_partial.
(** ... but when another run ends, everything written to the streams created after it is lost, until some run begins to use temporary files *)
Theorem C184_other_run_refuted :
  forall d fs a q b p n c, uses a q -> uses a p -> (forall r m, In (New r m) b -> uses a r) -> reads (run d fs (a ++ Exit q :: b ++ New p n :: c)) (streams (a ++ b)) = [].
Proof. exact lost. Qed.
Print Assumptions C184_other_run_refuted.
(** runs 1 and 2; the second one begins while the first one is at work, and ends; stream 0 is kept, stream 3 is lost *)
Example C184_nonvacuous :
  let calm_part := [New 1 10; Put 0 [1; 2]; New 2 20; Put 1 [3]; Put 0 [4]; New 1 11; Put 2 [5]] in
  let tr := calm_part ++ Exit 2 :: [] ++ [New 1 12; Put 3 [6; 7]; Put 0 [8]] in
  sane calm_part /\ fresh (Some [(9, O)]) [[99]] calm_part /\ calm calm_part /\ uses calm_part 1 /\ uses calm_part 2 /\
  map (reads (run (Some [(9, O)]) [[99]] calm_part)) [0; 1; 2]%nat = [[1; 2; 4]; [3]; [5]] /\
  map (reads (run (Some [(9, O)]) [[99]] tr)) [0; 2; 3]%nat = [[1; 2; 4; 8]; [5]; []] /\ written tr 3 = [6; 7].
Proof.
  cbv zeta. set (cp := [New 1 10; _; _; _; _; _; _]). split; [|split; [|split; [|split; [|split; [|split; [|split]]]]]].
  - intros a h b c E. unfold cp in E. do 7 (destruct a as [|? a]; [first [discriminate | injection E as <- <- <-; cbn; split; [lia|intuition discriminate]]|cbn [app] in E; injection E as <- E]). destruct a; discriminate.
  - split; [|intros e [<- |[]]; cbn; split; [lia|lia]]. cbn. repeat constructor; cbn; lia.
  - intros a q b p n c E. exfalso. assert (H : In (Exit q) cp) by (rewrite E; apply in_app_iff; right; now left). cbn in H. intuition discriminate.
  - exists 10. now left.
  - exists 20. cbn. tauto.
  - vm_compute. reflexivity.
  - vm_compute. reflexivity.
  - reflexivity.
Qed.

(** C185: at the end of a run the directory is gone *)
Theorem C185_swept_partial :
  forall d fs tr p, uses tr p -> dir (run d fs (tr ++ [Exit p])) = None.
Proof. exact swept. Qed.
Print Assumptions C185_swept_partial.
(** ... and what killed runs left behind goes away when a run creates its first temporary stream *)
Theorem C185_first_use_partial :
  forall d fs tr p n, ~ uses tr p -> exists i, dir (run d fs (tr ++ [New p n])) = Some [(n, i)].
Proof. exact first_use. Qed.
Print Assumptions C185_first_use_partial.
(** ... but until then no file goes away: a run keeps on the disk all that it ever wrote to temporary streams, also to those destroyed *)
Theorem C185_kept_refuted :
  forall d fs p tr, sane tr -> fresh d fs tr -> (forall q n, In (New q n) tr -> q = p) -> (forall q, ~ In (Exit q) tr) -> (0 < streams tr)%nat ->
  exists l, dir (run d fs tr) = Some l /\ length l = streams tr /\
    forall h, (h < streams tr)%nat -> exists n i, nth_error l h = Some (n, i) /\ nth i (files (run d fs tr)) [] = written tr h.
Proof. exact left_over. Qed.
Print Assumptions C185_kept_refuted.
Example C185_nonvacuous :
  let tr := [New 1 10; Put 0 [1; 2]; Done 0; New 1 11; Put 1 [3]; Done 1] in
  sane tr /\ fresh None [] tr /\ (forall q n, In (New q n) tr -> q = 1) /\ (forall q, ~ In (Exit q) tr) /\
  dir (run None [] tr) = Some [(10, 0%nat); (11, 1%nat)] /\ files (run None [] tr) = [[1; 2]; [3]] /\ dir (run None [] (tr ++ [Exit 1])) = None.
Proof.
  cbv zeta. set (cp := [New 1 10; _; _; _; _; _]). split; [|split; [|split; [|split; [|split; [|split]]]]].
  - intros a h b c E. unfold cp in E. do 6 (destruct a as [|? a]; [first [discriminate | injection E as <- <- <-; cbn; split; [lia|intuition discriminate]]|cbn [app] in E; injection E as <- E]). destruct a; discriminate.
  - split; [|exact Logic.I]. cbn. repeat constructor; cbn; lia.
  - intros q n H. cbn in H. intuition congruence.
  - intros q H. cbn in H. intuition discriminate.
  - vm_compute. reflexivity.
  - vm_compute. reflexivity.
  - vm_compute. reflexivity.
Qed.
