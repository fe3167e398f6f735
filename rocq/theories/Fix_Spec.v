(** What a repair of the list of pages should do. *)
From Verif Require Import Prelude Field_Model Tmpl_Spec Fix_Model.

Definition at_ (m : list (list Z)) (n w : Z) : Z := nth (Z.to_nat w) (nth (Z.to_nat n) m []) 0.
(** the number of pages of data in a file of [l] bytes, and the number of bytes in page [i] of it *)
Definition n_pages (l : Z) : Z := (l + 4095) / 4096.
Definition used (l i : Z) : Z := Z.min 4096 (l - 4096 * i).
(** the bytes can be page [i] of the records of a table with these fields (see C55) *)
Definition data_page (fs : list (field * bool)) (rl l i : Z) (page : list Z) : Prop :=
  (i = 0 -> firstn 5 page = [1; 0; 0; 0; 0]) /\
  forall slot p v, 0 <= slot -> 0 <= p < rl -> (i = 0 -> 1 <= slot) -> i * 4096 <= slot * rl + p < i * 4096 + used l i ->
    nth_error page (Z.to_nat (slot * rl + p - i * 4096)) = Some v -> record_byte fs p v.
(** page [r] of the file can be page [i] *)
Definition suits (fs : list (field * bool)) (rl l : Z) (s : st) (i r : Z) : Prop :=
  5 <= r < pages s /\ data_page fs rl l i (nth (Z.to_nat r) (disk s) []).
(** the table of a file with a root page in order, as far as the numbers of the pages of its allocation table go *)
Definition tab (m : list (list Z)) (block k : Z) : Z := at_ m block (6 + k).
Definition entry (m : list (list Z)) (block i : Z) : Z := at_ m (tab m block (i / 1023)) (1 + i mod 1023).
Record repairable (fs : list (field * bool)) (rl block l : Z) (s : st) : Prop := {
  rp_rl : 5 <= rl; rp_placed : placed fs rl;
  rp_mem : Forall (fun p => length p = 1024%nat /\ Forall (fun w => 0 <= w < 2 ^ 32) p) (mem s);
  rp_disk : Forall (fun p => length p = 4096%nat /\ bytes_ok p) (disk s); rp_both : length (disk s) = length (mem s);
  rp_block : 5 <= block < pages s; rp_sig : at_ (mem s) block 0 = le_val [49; 67; 68; 66] /\ at_ (mem s) block 1 = le_val [79; 66; 86; 56];
  rp_len : at_ (mem s) block 2 = l; rp_whole : l mod rl = 0; rp_room : l <= 1018 * 1023 * 4096;
  rp_tab : forall k, 0 <= k < (n_pages l + 1022) / 1023 -> 5 <= tab (mem s) block k < pages s /\ tab (mem s) block k <> block;
  rp_apart : forall k k', 0 <= k < (n_pages l + 1022) / 1023 -> 0 <= k' < (n_pages l + 1022) / 1023 -> tab (mem s) block k = tab (mem s) block k' -> k = k' }.
(** what the memory held behind the bytes read does not hide anything *)
Definition clean (junk : bool -> Z -> Z -> list Z) (l : Z) : Prop :=
  forall again r i, length (junk again r i) = 4096%nat /\ (0 <= i < n_pages l -> Forall (fun x => x = 0) (skipn (Z.to_nat (used l i)) (junk again r i))).
(** entry [i] was [d] and is [d']: kept when it suits, otherwise the only page that does, otherwise kept *)
Definition mended (fs : list (field * bool)) (rl l : Z) (s : st) (i d d' : Z) : Prop :=
  (suits fs rl l s i d /\ d' = d) \/
  (~ suits fs rl l s i d /\ suits fs rl l s i d' /\ forall r, suits fs rl l s i r -> r = d') \/
  (~ suits fs rl l s i d /\ d' = d /\ exists r r', r <> r' /\ suits fs rl l s i r /\ suits fs rl l s i r').
(** the state after: entries mended, numbers of entries right, everything else as before *)
Definition repaired (fs : list (field * bool)) (rl block l : Z) (s s' : st) : Prop :=
  disk s' = disk s /\ pages s' = pages s /\
  (forall i, 0 <= i < n_pages l -> mended fs rl l s i (entry (mem s) block i) (entry (mem s') block i)) /\
  (forall k, 0 <= k < (n_pages l + 1022) / 1023 -> at_ (mem s') (tab (mem s) block k) 0 = Z.min 1023 (n_pages l - 1023 * k)) /\
  (forall n w, 0 <= n -> 0 <= w -> (forall k, 0 <= k < (n_pages l + 1022) / 1023 -> n = tab (mem s) block k -> w <> 0) ->
     (forall i, 0 <= i < n_pages l -> n = tab (mem s) block (i / 1023) -> w <> 1 + i mod 1023) -> at_ (mem s') n w = at_ (mem s) n w).
