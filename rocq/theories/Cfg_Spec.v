(** What tables of files and configurations should hold. *)
From Coq Require Import Sorted Permutation.
From Verif Require Import Prelude Codec_Model Codec_Spec Tree_Model Cfg_Model.

(** ** Tables of files *)
(** the row holds a part of a file *)
Definition live (r : frow) : Prop := r_removed r = false /\ r_start r <> 0 /\ r_len r <> 0 /\ r_name r <> [].
(** the parts of a file, in the order of their numbers *)
Definition parts_of (lower : list Z -> list Z) (rows : list frow) (name : list Z) (parts : list frow) : Prop :=
  (forall r, In r parts <-> In r rows /\ live r /\ lower (r_name r) = lower name) /\ StronglySorted (fun a b => r_part a < r_part b) parts.
(** no two rows give the same part *)
Definition parts_distinct (lower : list Z -> list Z) (rows : list frow) : Prop :=
  forall i j a b, nth_error rows i = Some a -> nth_error rows j = Some b -> live a -> live b -> lower (r_name a) = lower (r_name b) -> r_part a = r_part b -> i = j.

(** ** Which names have a stored file that is not compressed *)
Definition has (pat s : list Z) : Prop := exists a b, s = a ++ pat ++ b.
Definition extension (s ext : list Z) : Prop := exists a, s = a ++ 46 :: ext /\ ~ In 46 ext.

(** ** Paths *)
Fixpoint join (sep : Z) (l : list (list Z)) : list Z := match l with [] => [] | [x] => x | x :: t => x ++ sep :: join sep t end.
(** following names down the containers *)
Fixpoint descend (lower : list Z -> list Z) (c : list (list Z * node)) (path : list (list Z)) : option (list Z) :=
  match path with
  | [] => None
  | n :: rest =>
      match List.find (fun p => if list_eq_dec Z.eq_dec (fst p) (lower n) then true else false) c with
      | None => None
      | Some (_, Nd d sub) => match rest with [] => Some d | _ => match sub with None => None | Some c => descend lower c rest end end
      end
  end.
Definition plain_component (s : list Z) : Prop := s <> [] /\ ~ In 47 s /\ ~ In 92 s.

(** ** Updates *)
(** the place of an identifier in a list, counted from 0 *)
Definition place (g : list Z) (l : list (list Z)) (i : Z) : Prop := 0 <= i /\ nth_error l (Z.to_nat i) = Some g /\ ~ In g (firstn (Z.to_nat i) l).

(** files kept as they are *)
Definition not_compressed (lower : list Z -> list Z) (name : list Z) : Prop :=
  (exists a, In a [s_DynamicallyUpdated; s_SprScndInfo; s_DBNamesVersion; s_siVersions] /\ lower name = lower a) \/
  (exists t, name = 123 :: t) \/ has s_fo_version (lower name) \/
  (exists e, extension name e /\ (lower e = lower s_INF \/ lower e = lower s_PF)).
(** the configuration file a stored name without the mark of an update stands for; -1 = as it is, -2 = a new version not in use yet *)
Inductive means (lower : list Z -> list Z) : list Z -> list Z -> Z -> Prop :=
| M_plain n : ~ In 46 n -> lower [] <> lower s_new -> ~ has s_dynupdate n -> means lower n n (-1)
| M_ext a e : ~ In 46 e -> e <> [] -> ~ has s_dynupdate a -> lower e <> lower s_new -> means lower (a ++ 46 :: e) (a ++ 46 :: e) (-1)
| M_new a e : ~ In 46 e -> ~ has s_dynupdate a -> lower e = lower s_new -> means lower (a ++ 46 :: e) a (-2).

(** ** Saved configurations and lists of hashes *)
(** every file is found under its name, and there is one of a name *)
Definition keyed (lower : list Z -> list Z) (m : smap tfile) : Prop := NoDup (map fst m) /\ forall k f, In (k, f) m -> k = lower (t_name f).
(** a list of names and hashes as it is written in configinfo *)
Definition hash_items (nl : list Z) (line : Z) (l : list (list Z * list Z)) : list tree := flat_map (fun '(n, h) => [Node n nd_string []; Node (base64_encode nl line h) nd_binary2 []]) l.
(** the file with the list of a user *)
Definition s_configinfo := [99;111;110;102;105;103;105;110;102;111].
(** what opening a file as it is or expanded should show *)
Definition contents (packed : bool) (raw expanded : list Z) (o : cop) : res (list Z) :=
  match o with COpen => Ok (if packed then expanded else raw) | CRaw => Ok raw | CClose => Ok [] end.
(** what a file that cannot be expanded shows: an error for the first opening after the start or a close, the
    cut data [part] for the others *)
Fixpoint failing (raw part : list Z) (tried : bool) (ops : list cop) : list (res (list Z)) :=
  match ops with
  | [] => []
  | COpen :: t => (if tried then Ok part else Throw) :: failing raw part true t
  | CRaw :: t => Ok raw :: failing raw part tried t
  | CClose :: t => Ok [] :: failing raw part false t
  end.
(** an instance for the examples: the letters of ASCII *)
Definition ascii_lower (s : list Z) : list Z := map (fun c => if (65 <=? c) && (c <=? 90) then c + 32 else c) s.
