(** What blobs are: chunks linked in a byte file. *)
From Verif Require Import Prelude Obj_Model Blob_Model.

(** chunk [b] of the file [f]: link, length, data *)
Definition chunk (f : list Z) (b nxt : Z) (d : list Z) : Prop :=
  0 < b /\ 256 * b + 256 <= zlen f /\ (length d <= 250)%nat /\ 0 <= nxt < 2^32 /\
  exists pad, length pad = (250 - length d)%nat /\ sub f (Z.to_nat (256 * b)) 256 = le_bytes 4 nxt ++ le_bytes 2 (zlen d) ++ d ++ pad.

(** the chunks [bs] linked from [s], ended by link 0, with their data *)
Fixpoint linked (f : list Z) (s : Z) (bs : list Z) (ds : list (list Z)) : Prop :=
  match bs, ds with
  | [], [] => s = 0
  | b :: bs', d :: ds' => s = b /\ exists nxt, chunk f b nxt d /\ linked f nxt bs' ds'
  | _, _ => False
  end.

(** the blob at [s] holds [d] in the chunks [bs] *)
Definition blob (f : list Z) (s : Z) (bs : list Z) (d : list Z) : Prop := exists ds, linked f s bs ds /\ concat ds = d.

(** free chunks: only the links count *)
Fixpoint free_chain (f : list Z) (s : Z) (bs : list Z) : Prop :=
  match bs with
  | [] => s = 0
  | b :: bs' => s = b /\ 0 < b /\ 256 * b + 256 <= zlen f /\ exists nxt, 0 <= nxt < 2^32 /\ sub f (Z.to_nat (256 * b)) 4 = le_bytes 4 nxt /\ free_chain f nxt bs'
  end.

(** a blob file: whole chunks; chunk 0 starts with the first free chunk; the live blobs
    [live] (start and contents) own the chunks [own]; no chunk has two uses *)
Definition blob_file (f : list Z) (live : list (Z * list Z)) (own : list (list Z)) (free : list Z) : Prop :=
  bytes_ok f /\ (exists n, (1 <= n)%nat /\ length f = (256 * n)%nat) /\
  (exists h, 0 <= h < 2^32 /\ sub f 0 4 = le_bytes 4 h /\ free_chain f h free) /\
  Forall2 (fun x bs => blob f (fst x) bs (snd x)) live own /\ NoDup (concat own ++ free).

(** an empty blob file: one cleared chunk *)
Definition blob_empty : list Z := repeat 0 256.

(** number of chunks for [n] bytes *)
Definition chunks_for (n : nat) : nat := ((n + 249) / 250)%nat.

(** chunk [b] leads back to itself through chunks without data *)
Inductive zero_path (f : list Z) : Z -> Z -> Prop :=
| zero_one b nxt : chunk f b nxt [] -> zero_path f b nxt
| zero_more b nxt c : chunk f b nxt [] -> zero_path f nxt c -> zero_path f b c.
(** [b] is reached from [s] after [n] bytes of data *)
Inductive reached (f : list Z) (s : Z) : Z -> nat -> Prop :=
| reached_0 : reached f s s 0
| reached_S b nxt d n : reached f s b n -> chunk f b nxt d -> reached f s nxt (n + length d).

(** ** histories: writing new blobs and deleting the k-th live one; blobs are named by the
    chunk number that writing returned, 0 for an empty one (which is never deleted: callers
    skip it, Table.cpp:1999) *)
Inductive bop := BWrite (d : list Z) | BDelete (k : nat).
Definition drop_nth {A} (k : nat) (l : list A) : list A := firstn k l ++ skipn (S k) l.
Definition bplain (l : list (list Z)) (x : bop) : list (list Z) := match x with BWrite d => d :: l | BDelete k => drop_nth k l end.
Definition bplains (l : list (list Z)) (xs : list bop) : list (list Z) := fold_left bplain xs l.
Definition bop_ok (x : bop) : Prop := match x with BWrite d => bytes_ok d | BDelete _ => True end.
Definition bop_chunks (x : bop) : nat := match x with BWrite d => chunks_for (length d) | BDelete _ => 0 end.
(** the writes of the history find enough free chunks: [nfree] are free, the k-th live blob
    owns [nth k sizes 0] *)
Fixpoint bfits (nfree : nat) (sizes : list nat) (xs : list bop) : Prop :=
  match xs with
  | [] => True
  | BWrite d :: r => (chunks_for (length d) <= nfree)%nat /\ bfits (nfree - chunks_for (length d)) (chunks_for (length d) :: sizes) r
  | BDelete k :: r => bfits (nfree + nth k sizes 0%nat) (drop_nth k sizes) r
  end.
Section Exec.
Context {T : Type}.
Variable get : T -> Z -> Z -> res (list Z).
Variable put : T -> Z -> list Z -> res T.
Variable size : T -> Z.
Definition bexec (s : T * list (Z * list Z)) (x : bop) : res (T * list (Z * list Z)) :=
  let (f, live) := s in
  match x with
  | BWrite d => do r <- write_blob get put size f d; Ok (fst r, (snd r, d) :: live)
  | BDelete k =>
      match nth_error live k with
      | None => Ok (f, live)
      | Some (n, _) => do f' <- (if n =? 0 then Ok f else delete_blob get put size (Z.to_nat (size f)) f n); Ok (f', drop_nth k live)
      end
  end.
Fixpoint bexecs (s : T * list (Z * list Z)) (xs : list bop) : res (T * list (Z * list Z)) :=
  match xs with [] => Ok s | x :: r => do s' <- bexec s x; bexecs s' r end.
End Exec.
