(** Line breaks of the Base64 text on platforms with a four-byte wchar_t: general refutation for C09. Characters that are no
    digits in the text of a GUID: general refutation for C56. *)
From Verif Require Import Prelude Codec_Model Codec_Proofs.
Ltac Zify.zify_post_hook ::= idtac.

Lemma breaks_in nl ls x : In x nl -> 4 <= ls -> forall n data bo, (length data <= n)%nat -> 0 <= bo -> 3 * (ls / 4 - bo) < zlen data -> data <> [] -> In x (b64_enc nl ls data bo).
Proof.
  intros I Hl. assert (Q : Z.quot ls 4 = ls / 4) by (apply Z.quot_div_nonneg; lia).
  assert (N : forall bo, ls / 4 <= bo -> need_nl bo ls = true).
  { intros bo H. unfold need_nl. rewrite Q. destruct (Z.leb_spec (ls / 4) bo); [|lia]. destruct (Z.eqb_spec ls 0); [lia|reflexivity]. }
  induction n as [|n IH]; intros data bo L B H E; [destruct data; [congruence|cbn in L; lia]|].
  destruct data as [|a [|b [|c t]]]; [congruence| | |]; cbn [b64_enc].
  - rewrite N; [apply in_or_app; now left|]. change (zlen [a]) with 1 in H. lia.
  - destruct (Z_le_gt_dec (ls / 4) bo) as [G|G]; [rewrite N by exact G; apply in_or_app; now left|]. change (zlen [a; b]) with 2 in H. lia.
  - destruct (need_nl bo ls) eqn:G; [apply in_or_app; now left|].
    assert (~ ls / 4 <= bo) by (intros X; apply N in X; congruence).
    apply in_or_app. right. apply IH; [cbn in L; lia|lia| |].
    + rewrite !zlen_cons in H. lia.
    + intros ->. change (zlen [a; b; c]) with 3 in H. lia.
Qed.
(** every text longer than one line *)
Theorem linux_nul ls data : 4 <= ls -> 3 * (ls / 4) < zlen data -> In 0 (base64_encode [13; 0] ls data).
Proof.
  intros H L. unfold base64_encode. assert (0 < ls / 4) by (apply Z.div_str_pos; lia).
  apply (breaks_in [13; 0] ls 0) with (n := length data); [cbn; auto|exact H|lia|lia|lia|]. intros ->. change (zlen (@nil Z)) with 0 in L. lia.
Qed.

Lemma bad_digit c : ~ is_hex_char c -> from_hex_digit c = 0.
Proof.
  unfold is_hex_char, from_hex_digit. intros H.
  destruct (Z.leb_spec 48 c), (Z.leb_spec c 57), (Z.leb_spec 97 c), (Z.leb_spec c 102), (Z.leb_spec 65 c), (Z.leb_spec c 70); cbn [andb]; (reflexivity || (exfalso; apply H; lia)).
Qed.
(** what a text with other characters is taken for *)
Theorem guid_any s t : Forall2 (fun c d => c = d \/ ~ is_hex_char c /\ d = 48) s t -> guid_of_text s = guid_of_text t.
Proof.
  intros H. assert (L : zlen s = zlen t) by (unfold zlen; f_equal; induction H; cbn [length]; congruence).
  assert (C : forall i, from_hex_digit (chr s i) = from_hex_digit (chr t i)).
  { intros i. unfold chr. generalize (Z.to_nat i) as j. induction H as [|c d s' t' [-> |[X ->]] H IH]; intros [|j]; cbn [nth]; try reflexivity.
    - apply IH. unfold zlen in *. cbn [length] in L. lia.
    - now apply bad_digit.
    - apply IH. unfold zlen in *. cbn [length] in L. lia. }
  assert (G : forall i, get_subbyte s i = get_subbyte t i) by (intros i; unfold get_subbyte; now rewrite !C).
  unfold guid_of_text. rewrite L. destruct (zlen t =? 32); [f_equal; apply map_ext; intros; apply G|]. destruct (negb _); [reflexivity|]. f_equal. apply map_ext. exact G.
Qed.
