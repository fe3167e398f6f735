(** A small table for the examples of the export as XML. *)
From Coq Require String Ascii.
From Verif Require Import Prelude Codec_Model Field_Model Rec_Model Bcd_Spec Codec_Spec Text_Spec Field_Spec Xml_Model Xml_Spec Xml_Proofs Xml_Values Xml_Rows Xml_More.
Import String.StringSyntax.

(** a table with a key, a text, a date and a picture; two records in the order of the key *)
Definition d_id := XF (str "ID") (FD KNum false 4 1) 1 false.
Definition d_name := XF (str "NAME") (FD KVarchar true 3 4) 0 false.
Definition d_day := XF (str "DAY") (FD KDate false 0 13) 0 false.
Definition d_pic := XF (str "PIC") (FD KImage true 0 20) 0 false.
Definition d_rec0 : list Z := [0; 16; 18; 80; 1; 2; 0; 65; 0; 38; 0; 0; 0; 32; 22; 2; 41; 18; 0; 5; 1; 3; 0; 0; 0; 2; 0; 0; 0].
Definition d_rec1 : list Z := [0; 0; 0; 112; 0; 0; 0; 0; 0; 0; 0; 0; 0; 32; 1; 1; 1; 0; 0; 0; 0; 0; 0; 0; 0; 0; 0; 0; 0].
Definition d_blob (s n : Z) : res (list Z) := if (s =? 3) && (n =? 2) then Ok [1; 2] else Throw.
Definition d_get (n : Z) : res (list Z) := if n =? 0 then Ok d_rec0 else if n =? 1 then Ok d_rec1 else Throw.
Definition d_table := XT (str "T") [d_id; d_name; d_day; d_pic] [XI false [d_day] [0; 1]; XI true [d_id] [1; 0]] [0; 1] d_get.
Definition d_env := XE d_blob [13; 0] (GS true false) (fun a b => if list_eq_dec Z.eq_dec a b then true else false) 0 true (fun p => Nat.eqb (length p) 1).
Definition d_doc := TDoc (str "T")
  [FDoc (str "ID") (str "number") (str "4") (str "1") true; FDoc (str "NAME") (str "string") (str "3") (str "0") false;
   FDoc (str "DAY") (str "datetime") (str "0") (str "0") true; FDoc (str "PIC") (str "image") (str "0") (str "0") false]
  [[(str "ID", str "-0.7"); (str "NAME", []); (str "DAY", str "2001-01-01T00:00:00"); (str "PIC", [])];
   [(str "ID", str "12.5"); (str "NAME", str "A&"); (str "DAY", str "2016-02-29T12:00:05"); (str "PIC", str "AQI=")]].
Lemma d_is_doc : table_doc d_blob d_table d_doc.
Proof.
  Local Ltac int1 n := exists [n]; split; [repeat constructor; unfold digit; lia|]; split; [discriminate|]; split; [cbn; intros; first [reflexivity|discriminate]|]; left; split; reflexivity.
  split; [reflexivity|]. split.
  - repeat (apply Forall2_cons; [split; [reflexivity|]; split; [reflexivity|]; split; [first [int1 4|int1 3|int1 0]|]; split; [first [int1 1|int1 0]|reflexivity]|]). constructor.
  - exists [1; 0]. split; [left; exists (XI true [d_id] [1; 0]); split; [|reflexivity]; exists [XI false [d_day] [0; 1]], []; repeat split; repeat constructor|].
    apply Forall2_cons; [exists d_rec1|apply Forall2_cons; [exists d_rec0|constructor]]; (split; [reflexivity|]);
    (repeat (apply Forall2_cons; [split; [reflexivity|]; split; [cbn; lia|]; split; [cbn; lia|]; split; [vm_compute; discriminate|]|]); [..|constructor]).
    + exists []. split; [exact I|]. split; [cbn; lia|]. split; [cbn; lia|]. split; [vm_compute; repeat split; repeat constructor; try discriminate|].
      exists 3%nat, 0%nat, [], [7]. repeat split; try (now left); [right; cbn; lia].
    + reflexivity.
    + exists []. split; [exact I|]. split; [vm_compute; repeat split; repeat constructor; try discriminate|]. split; [vm_compute; discriminate|reflexivity].
    + reflexivity.
    + exists []. split; [exact I|]. split; [cbn; lia|]. split; [cbn; lia|]. split; [vm_compute; repeat split; repeat constructor; try discriminate|].
      exists 1%nat, 0%nat, [1; 2], [5]. repeat split; try (right; cbn; lia).
    + exists []. split; [exact I|]. split.
      * split; [repeat constructor; discriminate|]. unfold xml_special. intros c [-> | [-> | [-> | [-> | ->]]]]; vm_compute; lia.
      * exists [65; 38], [0; 0]. split; [repeat constructor; unfold scalar; lia|]. repeat split.
    + exists []. split; [exact I|]. split; [vm_compute; repeat split; repeat constructor; try discriminate|]. split; [vm_compute; discriminate|reflexivity].
    + exists [1; 2]. split; [reflexivity|]. split; [repeat constructor; unfold byte_ok; lia|]. split; [vm_compute; discriminate|reflexivity].
Qed.
Lemma d_writable : writable d_table.
Proof.
  split; [repeat constructor|]. repeat (apply Forall_cons; [split; [split; [discriminate|repeat constructor]|cbn; lia]|]). constructor.
Qed.
Lemma d_named : all_named d_table.
Proof.
  intros ns n rec S I G. exists [d_id]. split.
  - left. exists (XI true [d_id] [1; 0]). split; [|reflexivity]. exists [XI false [d_day] [0; 1]], []. repeat split; repeat constructor.
  - constructor; [|constructor]. split; [now left|reflexivity].
Qed.
(** other tables of one field and one record *)
Definition one (k : kind) (L : Z) (rec : list Z) : xtable := XT (str "T") [XF (str "V") (FD k true L 0) 0 false] [] [0] (fun _ => Ok rec).
Definition shows (t : xtable) : option (list event) := match export_to_xml d_env t false with Ok (o, _) => read_xml o | _ => None end.
