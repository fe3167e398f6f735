(** Writing to a file that was last written with no bytes: general refutation for C95. *)
From Verif Require Import Prelude Lists Cf_Model Cf_Spec Cf_Proofs Cf_Write Cf_Cycle.
Ltac Zify.zify_post_hook ::= idtac.

Theorem empty_overwrites fuel after c d start : In 0 after -> c_free c = 2147483647 -> 16 < start -> block_at (c_data c) start 0 0 2147483647 -> d <> [] ->
  start + 31 + zlen d <= zlen (c_data c) -> zlen (c_data c) + 31 + zlen d < 2147483647 ->
  exists c', write_block (S (S fuel)) after c d 0 start (-1) false = Ok (c', start) /\ sub (c_data c') (Z.to_nat start + 31) (length d) = d.
Proof.
  intros HA HF HS HB HD HL HX. pose proof (zlen_nonneg d) as N0.
  assert (N : 0 < zlen d) by (destruct d; [congruence|rewrite zlen_cons; pose proof (zlen_nonneg d); lia]).
  set (data := c_data c) in *. set (L := zlen data) in *.
  assert (NB : forall v, v <> 0 -> v <> LAST -> 0 <= v <= LAST -> next_block c v = v).
  { intros v V1 V2 V3. unfold next_block. destruct (Z.eqb_spec v 0); [congruence|]. destruct (Z.eqb_spec v LAST); [congruence|]. cbn [orb]. now apply i32_small. }
  assert (NL : next_block c LAST = L).
  { unfold next_block. rewrite Z.eqb_refl, orb_true_r, HF. change (2147483647 =? LAST) with true. cbv iota. apply i32_small. fold data L. unfold LAST. lia. }
  unfold write_block. fold data L. destruct (Z.eqb_spec L 16); [lia|]. cbn [andb rbind]. unfold wb_main. change (-1 =? -1) with true. cbv iota. rewrite NB by (unfold LAST; lia).
  cbn [wb_loop]. fold data L. rewrite HF. destruct (Z.eqb_spec start 2147483647); [lia|]. destruct (Z.eqb_spec start L); [lia|].
  rewrite (header_at _ _ _ _ _ blank ltac:(reflexivity) HB). cbn [rbind]. rewrite hdr_page by (try assumption; unfold LAST; lia). cbn [rbind]. rewrite hdr_next by (try assumption; unfold LAST; lia). cbn [rbind].
  cbv zeta. rewrite set_data_hdr by lia. rewrite Z.min_l by lia. change (2147483647 =? 0) with false. cbv iota. change (next_block c 2147483647) with (next_block c LAST). rewrite NL.
  destruct (Z.leb_spec (zlen d) 0); [lia|]. rewrite set_next_hdr by lia. destruct (Z.ltb_spec start 0); [lia|]. destruct (Z.ltb_spec L start); [lia|]. cbn [orb].
  change (copied d 0 0) with (d, zlen d). cbv iota. rewrite Z.sub_0_r. destruct (Z.ltb_spec 0 (zlen d)); [|lia]. rewrite app_nil_r.
  set (data1 := over data start (hdr (zlen d) 0 L ++ d)).
  assert (L0 : zlen (hdr (zlen d) 0 L ++ d) = 31 + zlen d) by (rewrite zlen_app; unfold zlen at 1; rewrite hdr_length; lia).
  assert (L1 : zlen data1 = L) by (unfold data1; rewrite over_length by lia; rewrite L0; fold L; lia).
  cbn [c_data c_free c_page]. rewrite L1, HF. destruct (Z.eqb_spec L 2147483647); [lia|]. rewrite Z.eqb_refl. cbn [rbind]. cbv iota zeta. rewrite Z.ltb_irrefl.
  rewrite create_hdr by lia. rewrite set_page_hdr by lia. cbv iota zeta. rewrite set_data_hdr by lia. rewrite Z.min_id, Z.leb_refl. change (0 =? 0) with true. cbv iota. rewrite set_next_hdr by (unfold LAST; lia).
  destruct (Z.ltb_spec L 0); [lia|]. rewrite Z.ltb_irrefl. cbn [orb].
  assert (C : copied d (zlen d) (zlen d) = (repeat 0 (length d), zlen d)).
  { unfold copied. destruct (Z.eqb_spec (zlen d) 0); [lia|]. destruct (Z.ltb_spec (zlen d) 0); [lia|]. cbv zeta. rewrite skipn_all2 by (unfold zlen; lia). rewrite firstn_nil. change (zlen (@nil Z)) with 0. unfold zlen. rewrite Nat2Z.id, Z.add_0_r. reflexivity. }
  rewrite C. cbv iota. rewrite Z.sub_diag. change (0 <? 0) with false. cbv iota. cbn [rbind c_data c_free]. rewrite app_nil_r.
  set (e := hdr 0 (zlen d) LAST ++ repeat 0 (length d)).
  assert (L2 : zlen e = 31 + zlen d) by (unfold e; rewrite zlen_app; unfold zlen; rewrite hdr_length, repeat_length; lia).
  rewrite over_length by lia. rewrite L1, L2. rewrite i32_small by (unfold LAST; lia). destruct (Z.ltb_spec (L + 31 + zlen d) (Z.max L (L + (31 + zlen d)))); [lia|]. cbn [andb rbind].
  eexists. split; [reflexivity|]. cbn [c_data].
  rewrite (agree_sub data1 (over data1 L e) 0 L) by (try (apply over_before; lia); unfold zlen in *; lia).
  unfold data1. rewrite over_in by (unfold zlen in *; rewrite ?app_length, ?hdr_length; lia).
  unfold sub. rewrite skipn_app_len by apply hdr_length. apply firstn_all.
Qed.
