(** Snapshots of depot versions and their check value.
    Sources: /repo/src/tool1cd/save_depot_config.cpp, CRC32.cpp, BinaryGuid.cpp, Constants.h, SystemClasses/TFileStream.cpp,
    TStream.cpp. *)
From Verif Require Import Prelude Stream_Model.

(** ** Check value.  boost::crc_32_type, used at CRC32.cpp:29-37: the register starts as FFFFFFFF, takes the bits of
    each byte from the lowest on, and is inverted at the end; boost looks eight of these steps up in a table. *)
Definition POLY : Z := 3988292384.   (* EDB88320 *)
Definition MASK : Z := 4294967295.
Definition crc_shift (r : Z) : Z := if Z.odd r then Z.lxor (r / 2) POLY else r / 2.
Definition crc_byte (r x : Z) : Z := Nat.iter 8 crc_shift (Z.lxor r x).
Definition crc_bytes (r : Z) (d : list Z) : Z := fold_left crc_byte d r.
(** checksum() *)
Definition crc_final (r : Z) : Z := Z.lxor r MASK.

(** TFileStream: [None] is a file that could not be opened; the stream exists all the same, and its Read gets nothing,
    its Write loses everything: neither sets badbit.  Reopen tries again without success.  TFileStream.cpp:41-93,
    TStream.cpp:180-226 *)
Definition file := option fstream.
(** openmode, 44-48: always in and out, and trunc only if the whole mode word is fmCreate *)
Definition fmOpenRead : Z := 0.
Definition fmShareDenyNone : Z := 64.
Definition fmShareDenyWrite : Z := 32.
Definition fmCreate : Z := 65535.
(** [rw]: whether the system opens the file for reading and writing *)
Definition f_open (rw : bool) (d : list Z) (mode : Z) : file :=
  if rw then Some (fs_open (if mode =? fmCreate then [] else d)) else None.
Definition f_seek0 (f : file) : file := match f with Some s => Some (fst (fs_seek s 0 Beg)) | None => None end.
Definition f_size (f : file) : Z := match f with Some s => fs_size s | None => 0 end.
Definition f_read (f : file) (n : Z) : file * list Z :=
  match f with Some s => let (s, d) := fs_read s n in (Some s, d) | None => (None, []) end.
Definition f_write (f : file) (d : list Z) : file := match f with Some s => Some (fst (fs_write s d)) | None => None end.
(** what the source still gives, to the end: reading in pieces, UZLib.cpp:122-126 *)
Definition f_rest (f : file) : list Z := match f with Some s => skipn (Z.to_nat (fs_pos s)) (fs_data s) | None => [] end.

(** _crc32, CRC32.cpp:24-39: from the start, 1024 bytes at a time until nothing comes *)
Fixpoint crc_loop (fuel : nat) (f : file) (r : Z) : file * Z :=
  match fuel with
  | O => (f, r)
  | S k => let (f, d) := f_read f 1024 in
      match d with [] => (f, r) | _ => crc_loop k f (crc_bytes r d) end
  end.
(** a pass for every byte is enough *)
Definition crc_file (f : file) : Z :=
  let f := f_seek0 f in
  crc_final (snd (crc_loop (S (length (match f with Some s => fs_data s | None => [] end))) f MASK)).

(** ** try_save_snapshot, save_depot_config.cpp:480-575 *)
(** BinaryGuid::is_empty, BinaryGuid.cpp:66-75, and operator== *)
Definition guid_empty (g : list Z) : bool := forallb (fun x => x =? 0) g.
Fixpoint guid_eq (a b : list Z) : bool :=
  match a, b with [], [] => true | x :: s, y :: t => (x =? y) && guid_eq s t | _, _ => false end.
(** Constants.h:187-188: BinaryGuid(std::string) takes the text as it is stored *)
Definition SNAPSHOT_VER1 : list Z := [158;202;33;55;114;162;107;73;160;147;32;110;167;98;149;116].
Definition SNAPSHOT_VER2 : list Z := [120;223;223;111;42;6;187;70;132;2;98;20;90;229;87;100].
(** std::to_string of the version, which is not negative here *)
Fixpoint dec (fuel : nat) (n : Z) : list Z :=
  match fuel with O => [] | S k => (if n <? 10 then [] else dec k (n / 10)) ++ [48 + n mod 10] end.
(** name_snap, 489-490 *)
Definition snap_name (ver : Z) : list Z :=
  let p := [48;48;48;48;48] ++ dec 11 ver in
  [100;100;98] ++ sub p (length p - 5) 5 ++ [46;115;110;112].

(** What the call meets: the files of the directory "cache" by name, with whether each can be opened for reading and
    writing; whether the target can be created; the bytes of the target before ([None]: no such file) *)
Record disk := DK { k_cache : list Z -> option (list Z * bool); k_can : bool; k_target : option (list Z) }.
Definition with_target (k : disk) (f : file) : disk :=
  DK (k_cache k) (k_can k) (match f with Some s => Some (fs_data s) | None => k_target k end).
(** the fields of the version record *)
Record vrow := VR { v_maker : list Z; v_crc : Z }.
(** Ver1 of snap_ver, 525-533: also for any other maker *)
Definition packed (root maker : list Z) : bool :=
  if guid_eq root maker || guid_eq maker SNAPSHOT_VER1 then true
  else if guid_eq maker SNAPSHOT_VER2 then false else true.
(** out->CopyFrom(in, 0), TStream.cpp:100-113, for two files *)
Definition f_copy (out inp : file) : file :=
  let inp := f_seek0 inp in
  if f_size inp =? 0 then out
  else let (_, d) := f_read inp (f_size inp) in
       match d with [] => f_write out (repeat 0 (Z.to_nat (f_size inp))) | _ => f_write out d end.
(** the result, and the disk afterwards.  The messages are left out. *)
Definition try_snapshot (c : codec) (row : vrow) (ver : Z) (root : list Z) (k : disk) : bool * disk :=
  if guid_empty (v_maker row) then (false, k)
  else match k_cache k (snap_name ver) with
  | None => (false, k)
  | Some (d, rw) =>
      let inp := f_open rw d (Z.lor fmOpenRead fmShareDenyNone) in
      let out := f_open (k_can k) (match k_target k with Some t => t | None => [] end) (Z.lor fmCreate fmShareDenyWrite) in
      if packed root (v_maker row) then
        let (w, bad) := inflate_stream c (f_rest inp) in
        let out := f_write out w in
        if bad then (false, with_target k out) else (crc_file out =? v_crc row, with_target k out)
      else
        let out := f_copy out inp in
        (crc_file out =? v_crc row, with_target k out)
  end.

(** the export of one version, save_depot_config.cpp:159-161 and 223-226: the snapshot, or else the objects, collected
    ([collect], Depot_Model) into a file that is removed first if it is there *)
Definition export_version {A} (c : codec) (collect : option (list Z) -> A) (done : list Z -> A) (row : vrow) (ver : Z) (root : list Z) (k : disk) : A :=
  let (ok, k) := try_snapshot c row ver root k in
  if ok then done (match k_target k with Some t => t | None => [] end)
  else let k := match k_target k with Some _ => DK (k_cache k) (k_can k) None | None => k end in
       collect (k_target k).
