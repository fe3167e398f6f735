(** What a listing of vendor configurations means, apart from the code. *)

From Verif Require Import Prelude Text_Model Tree_Model Descr_Model Descr_Spec Cfg_Model Cfg_Spec Sup_Model.
Import String.StringSyntax.

(** the node reached by going to the child of each number in turn *)
Inductive reach : tree -> list nat -> tree -> Prop :=
| reach_here t : reach t [] t
| reach_down v ty l i c p r : nth_error l i = Some c -> reach c p r -> reach (Node v ty l) (i :: p) r.
Definition text_at (t : tree) (p : list nat) (v : list Z) : Prop := exists ty l, reach t p (Node v ty l).
Definition no_node (t : tree) (p : list nat) : Prop := forall r, ~ reach t p r.
(** the text of an element: UTF-8 or UTF-16 behind its mark (C11, C58), in braces (C06) *)
Definition document (d : list Z) (t : tree) : Prop :=
  (exists x, d = [0xEF; 0xBB; 0xBF] ++ x /\ parse_text x = Ok t) \/
  (exists b x, d = [0xFF; 0xFE] ++ b /\ ucs2_to_utf8 b = Ok x /\ parse_text x = Ok t).
(** the only element of that name, in capitals or not *)
Definition element (lower : list Z -> list Z) (c : list (list Z * node)) (name : list Z) (n : node) : Prop :=
  In (lower name, n) c /\ forall m, In (lower name, m) c -> m = n.
Definition no_element (lower : list Z -> list Z) (c : list (list Z * node)) (name : list Z) : Prop := forall m, ~ In (lower name, m) c.
(** the container that holds the metadata: the file itself, or its element "metadata" in version 8.0 *)
Definition holder (lower : list Z -> list Z) (c h : list (list Z * node)) : Prop :=
  exists f t vt v, element lower c (bs "version") f /\ document (nd_data f) t /\ text_at t [0; 0; 0]%nat vt /\ int_text vt v /\
    ((100 <= v /\ h = c) \/ (v < 100 /\ exists m, element lower c (bs "metadata") m /\ nd_sub m = Some h)).
(** what is stored: a container, compressed twice *)
Definition stored (e : senv) (f : vfile) (c : list (list Z * node)) : Prop :=
  vf_name f <> [] /\ ~ not_compressed (s_lower e) (vf_name f) /\
  exists d1 d2, s_inflate e (vf_raw f) = Some d1 /\ s_inflate e d1 = Some d2 /\ c = s_cat e d2.
(** the element with the description of the configuration, named in "root" *)
Definition meta (lower : list Z -> list Z) (c : list (list Z * node)) (mt : tree) (n : Z) : Prop :=
  exists h r rt mn m nt, holder lower c h /\ element lower h (bs "root") r /\ document (nd_data r) rt /\ text_at rt [0; 1]%nat mn /\
    element lower h mn m /\ document (nd_data m) mt /\ text_at mt [0; 2]%nat nt /\ int_text nt n.
Definition general := bs "9cd510cd-abfc-11d4-9434-004095e12fc7".
Definition not_general (lower : list Z -> list Z) (mt : tree) (j : nat) : Prop :=
  exists g, text_at mt [0; 3 + j; 0]%nat g /\ lower g <> lower general.
(** name, supplier and version in the first section "General" *)
Definition described (lower : list Z -> list Z) (c : list (list Z * node)) (name supplier version : list Z) : Prop :=
  exists mt n i g kt k, meta lower c mt n /\ Z.of_nat i < n /\ (forall j, (j < i)%nat -> not_general lower mt j) /\
    text_at mt [0; 3 + i; 0]%nat g /\ lower g = lower general /\
    text_at mt [0; 3 + i; 1; 1; 0]%nat kt /\ int_text kt k /\
    text_at mt [0; 3 + i; 1; 1; 1; 1; 2]%nat name /\
    text_at mt [0; 3 + i; 1; 1; if (k =? 15)%Z then 11 else 14]%nat supplier /\
    text_at mt [0; 3 + i; 1; 1; if (k =? 15)%Z then 12 else 15]%nat version.
Definition readable (e : senv) (f : vfile) (v : vendor) : Prop :=
  v_file v = f /\ exists c, stored e f c /\ described (s_lower e) c (v_name v) (v_supplier v) (v_version v).
(** the files of vendor configurations have names of 73 characters *)
Definition vendor_files (configsave config : list (list Z * vfile)) : list vfile :=
  map snd (filter (fun p => zlen (fst p) =? 73) (configsave ++ config)).
(** the file a vendor configuration is saved to, and its content *)
Definition target (v : vendor) : list Z := v_name v ++ bs " " ++ v_version v ++ bs ".cf".
Definition unpacked (e : senv) (f : vfile) (x : list Z) : Prop :=
  exists d, s_inflate e (vf_raw f) = Some d /\ s_inflate e d = Some x.
(** names made of two GUIDs *)
Definition guid_char (c : Z) : Prop := (48 <= c <= 57) \/ (97 <= c <= 102) \/ (65 <= c <= 70) \/ c = 45.
Definition two_guids (n : list Z) : Prop :=
  exists a b, n = a ++ [46] ++ b /\ length a = 36%nat /\ length b = 36%nat /\ Forall guid_char a /\ Forall guid_char b.
(** LowerCase on ASCII *)
Definition ascii_lowers (lower : list Z -> list Z) : Prop :=
  forall s, Forall (fun c => 0 < c < 128) s -> lower s = map (fun c => if (65 <=? c) && (c <=? 90) then c + 32 else c) s.

(** what is noticed: data that cannot be expanded, elements that are not there *)
Inductive reported (e : senv) (f : vfile) : Prop :=
| rep_outer : s_inflate e (vf_raw f) = None -> reported e f
| rep_inner d : s_inflate e (vf_raw f) = Some d -> s_inflate e d = None -> reported e f
| rep_version c : stored e f c -> no_element (s_lower e) c (bs "version") -> reported e f
| rep_root c h : stored e f c -> holder (s_lower e) c h -> no_element (s_lower e) h (bs "root") -> reported e f
| rep_meta c h r rt mn : stored e f c -> holder (s_lower e) c h -> element (s_lower e) h (bs "root") r -> document (nd_data r) rt ->
    text_at rt [0; 1]%nat mn -> no_element (s_lower e) h mn -> reported e f.
(** what is not: texts with fewer values than expected *)
Inductive cut_short (lower : list Z -> list Z) (c : list (list Z * node)) : Prop :=
| cut_version f t : element lower c (bs "version") f -> document (nd_data f) t -> no_node t [0; 0; 0]%nat -> cut_short lower c
| cut_root h r rt : holder lower c h -> element lower h (bs "root") r -> document (nd_data r) rt -> no_node rt [0; 1]%nat -> cut_short lower c
| cut_count h r rt mn m mt : holder lower c h -> element lower h (bs "root") r -> document (nd_data r) rt -> text_at rt [0; 1]%nat mn ->
    element lower h mn m -> document (nd_data m) mt -> no_node mt [0; 2]%nat -> cut_short lower c
| cut_nodes mt n i : meta lower c mt n -> Z.of_nat i < n -> (forall j, (j < i)%nat -> not_general lower mt j) -> no_node mt [0; 3 + i; 0]%nat -> cut_short lower c
| cut_general mt n i g : meta lower c mt n -> Z.of_nat i < n -> (forall j, (j < i)%nat -> not_general lower mt j) ->
    text_at mt [0; 3 + i; 0]%nat g -> lower g = lower general -> no_node mt [0; 3 + i; 1; 1; 0]%nat -> cut_short lower c
| cut_info mt n i g kt k p : meta lower c mt n -> Z.of_nat i < n -> (forall j, (j < i)%nat -> not_general lower mt j) ->
    text_at mt [0; 3 + i; 0]%nat g -> lower g = lower general -> text_at mt [0; 3 + i; 1; 1; 0]%nat kt -> int_text kt k ->
    In p [[1; 1; 2]; [if (k =? 15)%Z then 11 else 14]; [if (k =? 15)%Z then 12 else 15]]%nat -> no_node mt ([0; 3 + i; 1; 1] ++ p)%nat -> cut_short lower c.
