(** Properties of tables of files and configurations. *)
From Coq Require Import Sorted.
From Verif Require Import Prelude Codec_Model Codec_Spec Text_Model Tree_Model Cfg_Model Cfg_Spec Cfg_Proofs Cfg_Paths Cfg_Updates Cfg_Saved Cfg_Cas.

(** C47: whatever the order of the rows, a file is its parts in the order of their numbers, and its name is matched without regard to case; a name without rows has no file; name and time are those of part 0 *)
Theorem C47_parts :
  forall lower rows, (forall r, In r rows -> live r -> 0 <= r_part r) -> parts_distinct lower rows ->
  exists m, table_files lower rows = Ok m /\ forall name,
    match get_file lower m name with
    | None => forall r, In r rows -> live r -> lower (r_name r) <> lower name
    | Some f => (forall blob parts, parts_of lower rows name parts -> raw_file blob f = concat (map (fun r => blob (r_start r) (r_len r)) parts)) /\
                (exists r, In r rows /\ live r /\ lower (r_name r) = lower name) /\
                (forall r, In r rows -> live r -> lower (r_name r) = lower name -> r_part r = 0 -> t_name f = r_name r /\ t_time f = r_time r)
    end.
Proof. intros lower rows H1 H2. destruct (table_ok lower rows H1 H2) as (m & E & _ & H). exists m. split; [exact E|exact H]. Qed.
Print Assumptions C47_parts.
Example C47_nonvacuous :
  let rows := [FR false [65] 7 1 1 0; FR false [98] 4 2 0 5; FR true [97] 9 9 0 0; FR false [97] 3 1 0 8] in
  let blob := fun s l => repeat s (Z.to_nat l) in
  parts_of ascii_lower rows [65] [FR false [97] 3 1 0 8; FR false [65] 7 1 1 0] /\
  exists m f, table_files ascii_lower rows = Ok m /\ get_file ascii_lower m [65] = Some f /\ t_name f = [97] /\ t_time f = 8 /\ raw_file blob f = [3; 7].
Proof.
  cbv zeta. split.
  - split.
    + intros r. cbn [In]. split.
      * intros [<-|[<-|[]]]; (split; [auto|]; split; [repeat split; discriminate|reflexivity]).
      * intros [[<-|[<-|[<-|[<-|[]]]]] [(H1 & H2 & H3 & H4) H5]]; auto; discriminate.
    + repeat constructor.
  - eexists. eexists. split; [reflexivity|]. split; [reflexivity|]. repeat split.
Qed.

(** C109: a file whose part numbers are all negative makes reading the table undefined *)
Theorem C109_negative_part_refuted :
  forall lower n s l p tm, n <> [] -> s <> 0 -> l <> 0 -> p < 0 -> table_files lower [FR false n s l p tm] = UB.
Proof. intros lower n s l p tm. exact (negative_part lower n s l p tm). Qed.
Print Assumptions C109_negative_part_refuted.
(** ... and so does any negative one beside others *)
Theorem C109_negative_beside_refuted :
  forall lower n s l p s2 l2 p2 tm, n <> [] -> s <> 0 -> l <> 0 -> p < 0 -> s2 <> 0 -> l2 <> 0 -> table_files lower [FR false n s l p tm; FR false n s2 l2 p2 tm] = UB.
Proof. intros lower n s l p s2 l2 p2 tm. exact (negative_beside lower n s l p s2 l2 p2 tm). Qed.
Print Assumptions C109_negative_beside_refuted.
(** ... but no table whose numbers are distinct and not negative *)
Theorem C109_defined_partial :
  forall lower rows, (forall r, In r rows -> live r -> 0 <= r_part r) -> parts_distinct lower rows -> exists m, table_files lower rows = Ok m.
Proof. intros lower rows H1 H2. destruct (table_ok lower rows H1 H2) as (m & E & _). exists m. exact E. Qed.
Print Assumptions C109_defined_partial.
Example C109_nonvacuous : table_files ascii_lower [FR false [97] 3 1 (-1) 8] = UB /\ exists m, table_files ascii_lower [FR false [97] 3 1 3 8] = Ok m.
Proof. split; [reflexivity|eexists; reflexivity]. Qed.

(** C110: a file opened, read raw and closed in any order always shows the same bytes, when it can be expanded *)
Theorem C110_histories_partial :
  forall packed raw inflate part d ops, (packed = true -> inflate raw = Some d) ->
  c_run packed raw inflate part (CS None None false) ops = map (contents packed raw d) ops.
Proof. intros packed raw inflate part d ops H. apply c_run_ok; auto. Qed.
Print Assumptions C110_histories_partial.
(** ... but a file that cannot be expanded fails once and is then shown cut off *)
Theorem C110_failure_forgotten_refuted :
  forall raw inflate part ops, inflate raw = None -> c_run true raw inflate part (CS None None false) ops = failing raw part false ops.
Proof. intros raw inflate part ops H. apply c_run_broken; auto. Qed.
Print Assumptions C110_failure_forgotten_refuted.
Example C110_nonvacuous :
  c_run true [1] (fun _ => Some [2; 2]) [] (CS None None false) [CRaw; COpen; CRaw; CClose; COpen] = [Ok [1]; Ok [2; 2]; Ok [1]; Ok []; Ok [2; 2]] /\
  c_run true [1] (fun _ => None) [9] (CS None None false) [COpen; CRaw; COpen; CClose; COpen] = [Throw; Ok [1]; Ok [9]; Ok []; Throw].
Proof. split; reflexivity. Qed.

(** C115: which files are kept uncompressed is decided by their name alone *)
Theorem C115_compressed_names :
  forall lower name, name <> [] -> exists b, is_packed lower name = Ok b /\ (b = false <-> not_compressed lower name).
Proof. exact packed_ok. Qed.
Print Assumptions C115_compressed_names.
Example C115_nonvacuous :
  is_packed ascii_lower [97; 46; 112; 102] = Ok false /\ is_packed ascii_lower [97; 46; 48] = Ok true /\ is_packed ascii_lower [123; 97] = Ok false /\ not_compressed ascii_lower [97; 46; 112; 102].
Proof. repeat split. right. right. right. exists [112; 102]. split; [exists [97]; split; [reflexivity|intros [H|[H|[]]]; discriminate]|right; reflexivity]. Qed.

(** C48: a path is followed with every container's name cut by one character *)
Theorem C48_path_partial :
  forall lower l c, l <> [] -> Forall plain_component l -> zlen (join 47 l) < 2 ^ 64 ->
  cf_readfile lower c (join 47 l) = Ok (descend lower c (map (@removelast Z) (removelast l) ++ [last l []])).
Proof. exact readfile_cut. Qed.
Print Assumptions C48_path_partial.
(** ... so that one name is found *)
Theorem C48_top_partial :
  forall lower n c, plain_component n -> zlen n < 2 ^ 64 -> cf_readfile lower c n = Ok (descend lower c [n]).
Proof. intros lower n c H L. apply (readfile_ok lower [n] c); [discriminate|constructor; [exact H|constructor]|exact L]. Qed.
Print Assumptions C48_top_partial.
(** ... but a file in a container is not *)
Theorem C48_nested_refuted :
  forall lower a b d e, plain_component a -> plain_component b -> zlen (a ++ 47 :: b) < 2 ^ 64 -> lower (removelast a) <> lower a ->
  let c := [(lower a, Nd d (Some [(lower b, Nd e None)]))] in descend lower c [a; b] = Some e /\ cf_readfile lower c (a ++ 47 :: b) = Ok None.
Proof. exact readfile_nested. Qed.
Print Assumptions C48_nested_refuted.
(** ... nor a file asked for by a path with a leading separator *)
Theorem C48_rooted_refuted :
  forall lower n e, plain_component n -> zlen n < 2 ^ 32 -> lower (92 :: n) <> lower n ->
  let c := [(lower n, Nd e None)] in cf_readfile lower c n = Ok (Some e) /\ cf_readfile lower c (47 :: n) = Ok None.
Proof. exact readfile_root. Qed.
Print Assumptions C48_rooted_refuted.
Example C48_nonvacuous :
  let c := [([97; 98], Nd [] (Some [([99], Nd [5] None)]))] in
  descend ascii_lower c [[97; 98]; [99]] = Some [5] /\ cf_readfile ascii_lower c [97; 98; 47; 99] = Ok None /\ cf_readfile ascii_lower c [97; 98; 120; 47; 67] = Ok (Some [5]).
Proof. repeat split. Qed.

(** C49: of the files of one name without updates the one in use wins over a new version, whatever their order *)
Theorem C49_in_use_partial :
  forall lower dynup files,
  (forall key f, In (key, f) files -> key <> lower s_DynamicallyUpdated -> first_len f <> 0 -> exists base r, means lower (t_name f) base r) ->
  exists m, config_files lower dynup files = Ok m /\ forall b,
    match mget (lower b) m with
    | None => forall key f base r, In (key, f) files -> key <> lower s_DynamicallyUpdated -> first_len f <> 0 -> means lower (t_name f) base r -> lower base <> lower b
    | Some c => (exists key base, In (key, c_file c) files /\ key <> lower s_DynamicallyUpdated /\ first_len (c_file c) <> 0 /\ means lower (t_name (c_file c)) base (c_dyn c) /\ lower base = lower b) /\
                forall key f base, In (key, f) files -> key <> lower s_DynamicallyUpdated -> first_len f <> 0 -> means lower (t_name f) base (-1) -> lower base = lower b -> c_dyn c = -1
    end.
Proof. exact config_plain. Qed.
Print Assumptions C49_in_use_partial.
(** ... but a file wins over its own listed update, because the identifier is read one character early *)
Theorem C49_update_lost_refuted :
  forall lower n g t k1 k2 a1 a2 tm1 tm2 l, is_guid g -> g <> repeat 0 16 -> guid_as_1C g = Ok t -> ~ In 46 n -> ~ has s_dynupdate n -> zlen n < 2 ^ 64 -> lower [] <> lower s_new ->
  k1 <> lower s_DynamicallyUpdated -> k2 <> lower s_DynamicallyUpdated ->
  let base := TF n a1 tm1 in let upd := TF (n ++ s_dynupdate ++ t) a2 tm2 in first_len base <> 0 -> first_len upd <> 0 -> l = [(k1, base); (k2, upd)] \/ l = [(k2, upd); (k1, base)] ->
  exists m, config_files lower [g] l = Ok m /\ option_map c_file (mget (lower n) m) = Some base.
Proof. exact update_lost. Qed.
Print Assumptions C49_update_lost_refuted.
Example C49_nonvacuous :
  let g := repeat 17 16 in let t := [49;49;49;49;49;49;49;49;45;49;49;49;49;45;49;49;49;49;45;49;49;49;49;45;49;49;49;49;49;49;49;49;49;49;49;49] in
  is_guid g /\ g <> repeat 0 16 /\ guid_as_1C g = Ok t /\
  (exists m, config_files ascii_lower [g] [([97], TF [97] [(1, 1)] 0); ([97] ++ s_dynupdate ++ t, TF ([97] ++ s_dynupdate ++ t) [(2, 1)] 0)] = Ok m /\ option_map c_file (mget [97] m) = Some (TF [97] [(1, 1)] 0)) /\
  (exists m, config_files ascii_lower [] [([97; 46; 110; 101; 119], TF [97; 46; 110; 101; 119] [(1, 1)] 0); ([98], TF [65] [(2, 1)] 0)] = Ok m /\ option_map c_file (mget [97] m) = Some (TF [65] [(2, 1)] 0)).
Proof. cbv zeta. split; [split; [reflexivity|apply Forall_forall; intros x Hx; apply repeat_spec in Hx; subst; unfold byte_ok; lia]|]. split; [discriminate|]. split; [reflexivity|]. split; eexists; split; reflexivity. Qed.

(** C116: a stored file whose name ends with a dot takes the place of the file without the dot *)
Theorem C116_trailing_dot_refuted :
  forall lower dynup n, ~ In 46 n -> ~ has s_dynupdate n -> lower [] <> lower s_new -> rank_file lower dynup (n ++ [46]) = Ok (n, -1) /\ rank_file lower dynup n = Ok (n, -1).
Proof. intros lower dynup n H1 H2 H3. split; [apply dot_lost|apply rank_plain]; assumption. Qed.
Print Assumptions C116_trailing_dot_refuted.
(** ... while names with other extensions are kept whole *)
Theorem C116_names_kept_partial :
  forall lower dynup name base r, means lower name base r -> rank_file lower dynup name = Ok (base, r).
Proof. exact rank_means. Qed.
Print Assumptions C116_names_kept_partial.
Example C116_nonvacuous : rank_file ascii_lower [] [97; 46] = Ok ([97], -1) /\ rank_file ascii_lower [] [97; 46; 98] = Ok ([97; 46; 98], -1) /\ rank_file ascii_lower [] [97; 46; 78; 101; 119] = Ok ([97], -2).
Proof. repeat split. Qed.

(** C111: a saved file wins over that of the configuration and deleted ones are hidden, for names without a dot and without the mark of an update *)
Theorem C111_saved_wins_partial :
  forall lower dynup del config saved, lower [] <> lower s_new -> keyed lower config -> keyed lower saved ->
  (forall k f, In (k, f) config -> k <> lower s_DynamicallyUpdated -> first_len f <> 0 -> ~ In k del -> ~ In 46 (t_name f) /\ ~ has s_dynupdate (t_name f)) ->
  exists m, save_files lower dynup del config saved = Ok m /\ forall b,
    (forall f, In (lower b, f) saved -> lower b <> lower [100;101;108;101;116;101;100] -> first_len f <> 0 -> option_map c_file (mget (lower b) m) = Some f) /\
    ((forall f, In (lower b, f) saved -> lower b = lower [100;101;108;101;116;101;100] \/ first_len f = 0) ->
       (forall f, In (lower b, f) config -> lower b <> lower s_DynamicallyUpdated -> first_len f <> 0 -> ~ In (lower b) del -> option_map c_file (mget (lower b) m) = Some f) /\
       ((forall f, In (lower b, f) config -> lower b = lower s_DynamicallyUpdated \/ first_len f = 0 \/ In (lower b) del) -> mget (lower b) m = None)).
Proof. exact save_ok. Qed.
Print Assumptions C111_saved_wins_partial.
(** ... but a file of the configuration with an extension is found under another name only *)
Theorem C111_extension_refuted :
  forall lower dynup a e ad tm k, a <> [] -> e <> [] -> ~ In 46 e -> ~ has s_dynupdate a -> lower e <> lower s_new -> zlen (a ++ 46 :: e) < 2 ^ 63 -> k <> lower s_DynamicallyUpdated -> lower (removelast a ++ 46 :: e) <> lower (a ++ 46 :: e) ->
  let f := TF (a ++ 46 :: e) ad tm in first_len f <> 0 -> exists m, save_files lower dynup [] [(k, f)] [] = Ok m /\ mget (lower (a ++ 46 :: e)) m = None /\ option_map c_file (mget (lower (removelast a ++ 46 :: e)) m) = Some f.
Proof. exact save_dot_lost. Qed.
Print Assumptions C111_extension_refuted.
(** ... and a file waiting to become the new version of one object takes the place of another object whose name is one character shorter *)
Theorem C111_new_version_refuted :
  forall lower dynup n c a1 a2 tm1 tm2 k1 k2 l, ~ In 46 n -> ~ has s_dynupdate (n ++ [c]) -> lower [] <> lower s_new -> zlen n < 2 ^ 62 -> k1 <> lower s_DynamicallyUpdated -> k2 <> lower s_DynamicallyUpdated ->
  let f := TF n a1 tm1 in let v := TF (n ++ c :: 46 :: s_new) a2 tm2 in first_len f <> 0 -> first_len v <> 0 -> l = [(k1, f); (k2, v)] \/ l = [(k2, v); (k1, f)] ->
  exists m, save_files lower dynup [] l [] = Ok m /\ option_map c_file (mget (lower n) m) = Some v.
Proof. exact save_new. Qed.
Print Assumptions C111_new_version_refuted.
Example C111_nonvacuous :
  let f := fun n s => TF n [(s, 1)] 0 in
  (exists m, save_files ascii_lower [] [[100]] [([97], f [97] 1); ([98], f [98] 2); ([100], f [100] 3)] [([97], f [65] 4)] = Ok m /\ map (fun k => option_map (fun c => t_addr (c_file c)) (mget k m)) [[97]; [98]; [100]] = [Some [(4, 1)]; Some [(2, 1)]; None]) /\
  (exists m, save_files ascii_lower [] [] [([97; 98; 46; 48], f [97; 98; 46; 48] 1)] [] = Ok m /\ mget [97; 98; 46; 48] m = None).
Proof. split; eexists; split; reflexivity. Qed.

(** C112: every listed name is the file with its hash (the last one, if a name is listed twice), when all hashes have one length *)
Theorem C112_hashes_partial :
  forall lower tab nl line l n rest, Forall is_noise nl -> Forall (fun p => bytes_ok (snd p) /\ length (snd p) = n /\ exists f, get_file lower tab (hexstring (snd p)) = Some f) l ->
  exists m, cas_loop (length l) lower tab [] (hash_items nl line l ++ rest) [] = Ok m /\
  (forall i nm h, nth_error l i = Some (nm, h) -> (forall j n2 h2, nth_error l j = Some (n2, h2) -> lower n2 = lower nm -> (j <= i)%nat) -> mget (lower nm) m = get_file lower tab (hexstring h)) /\
  (forall k, (forall nm h, In (nm, h) l -> lower nm <> k) -> mget k m = None).
Proof. intros lower tab nl line l n rest H1 H2. exact (cas_ok lower tab nl line l H1 [] [] rest (or_intror (conj eq_refl (ex_intro _ n H2)))). Qed.
Print Assumptions C112_hashes_partial.
(** ... but a hash shorter than the one before is looked up with the end of that one *)
Theorem C112_shorter_hash_refuted :
  forall lower tab nl line n1 h1 n2 h2 f1 rest, Forall is_noise nl -> bytes_ok h1 -> bytes_ok h2 -> (length h2 < length h1)%nat -> get_file lower tab (hexstring h1) = Some f1 -> get_file lower tab (hexstring (h2 ++ skipn (length h2) h1)) = None ->
  cas_loop 2 lower tab [] (hash_items nl line [(n1, h1); (n2, h2)] ++ rest) [] = Throw.
Proof. exact cas_shorter. Qed.
Print Assumptions C112_shorter_hash_refuted.
Example C112_nonvacuous :
  let tab := [([48; 49; 48; 50], TF [97] [] 0); ([48; 51; 48; 52], TF [98] [] 0); ([48; 53], TF [99] [] 0)] in
  (exists m, cas_loop 2 ascii_lower tab [] (hash_items [13; 10] 72 [([120], [1; 2]); ([89], [3; 4])]) [] = Ok m /\ option_map t_name (mget [121] m) = Some [98]) /\
  cas_loop 2 ascii_lower tab [] (hash_items [13; 10] 72 [([120], [1; 2]); ([89], [5])]) [] = Throw.
Proof. cbv zeta. split; [eexists; split; reflexivity|reflexivity]. Qed.

(** C113: a user without files gets the list of the configuration *)
Theorem C113_no_files_partial :
  forall lower uid files, (forall k f, In (k, f) files -> lower (firstn (length uid) k) <> lower uid) -> cas_info lower uid files = Ok None.
Proof. exact cas_info_none. Qed.
Print Assumptions C113_no_files_partial.
(** ... but the list of a user who has one is never found *)
Theorem C113_own_list_refuted :
  forall lower uid k ad tm, lower (firstn (length uid) k) = lower uid -> zlen uid < 2 ^ 32 -> lower (removelast s_configinfo) <> lower s_configinfo -> cas_info lower uid [(k, TF (uid ++ s_configinfo) ad tm)] = Throw.
Proof. exact cas_info_lost. Qed.
Print Assumptions C113_own_list_refuted.
Example C113_nonvacuous : cas_info ascii_lower [49; 95; 95] [([49; 95; 95] ++ s_configinfo, TF ([49; 95; 95] ++ s_configinfo) [(1, 1)] 0)] = Throw /\ cas_info ascii_lower [50; 95; 95] [([49; 95; 95; 97], TF [49; 95; 95; 97] [(1, 1)] 0)] = Ok None.
Proof. split; reflexivity. Qed.

(** C114: the list of updates holds the announced identifiers in their order *)
Theorem C114_updates_partial :
  forall gs ts rest v w ty0 ty1 x0 kids tail n, Forall is_guid gs -> Forall2 (fun g t => guid_as_1C g = Ok t) gs ts -> to_int_def n 0 = Ok (zlen gs) ->
  dynup_of (Node v ty0 (Node w ty1 (x0 :: Node n nd_number [] :: map (fun t => Node t nd_guid kids) ts ++ rest) :: tail)) = Ok gs.
Proof. exact dynup_ok. Qed.
Print Assumptions C114_updates_partial.
(** ... but fewer than announced is undefined *)
Theorem C114_missing_refuted :
  forall l v w ty0 ty1 x0 tail n k, (forall v ty kids, In (Node v ty kids) l -> zlen v = 36) -> to_int_def n 0 = Ok k -> zlen l < k ->
  dynup_of (Node v ty0 (Node w ty1 (x0 :: Node n nd_number [] :: l) :: tail)) = UB.
Proof. exact dynup_short. Qed.
Print Assumptions C114_missing_refuted.
Example C114_nonvacuous :
  let t := repeat 48 36 in let x := Node [] nd_empty [] in
  to_int_def [50] 0 = Ok 2 /\ dynup_of (Node [] nd_list [Node [] nd_list [x; Node [50] nd_number []; Node t nd_guid []; Node t nd_guid []]]) = Ok [repeat 0 16; repeat 0 16] /\
  dynup_of (Node [] nd_list [Node [] nd_list [x; Node [50] nd_number []; Node t nd_guid []]]) = UB.
Proof. cbv zeta. repeat split. Qed.
