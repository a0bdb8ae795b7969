(** Which bytes of a file reading looks at: specification for C84.
    These are the bytes [Tag::read_from] asks its reader for; the buffer that [Tag::read_from_path] puts
    between the two (C58) fetches some more from the disk. *)

From Coq Require Import List NArith ZArith Bool String.
From Verif Require Import Base Types Stream TagSpec FileSpec EditSpec ChunkSpec ReadIO.
Import ListNotations.
Local Open Scope list_scope.

(** A stretch of a file: from, to (exclusive), and whether its bytes are read or passed over by a seek. *)
Record stretch := Stretch { st_read : bool; st_from : N; st_to : N }.

(** What one operation that succeeds reads or passes, [p] before and [q] behind it. *)
Definition op_stretch (o : io_op) (p q : N) : list stretch :=
  match o with
  | ORead _ | OReadVec _ => [Stretch true p q]
  | OSeekCur _ => [Stretch false p q]
  | _ => []
  end.
Fixpoint trail {A} (x : IO A) (f : bytes) (p : N) : list stretch :=
  match x with
  | Stop _ => []
  | Ask o k => match perform o f p with
               | Ok (a, q) => op_stretch o p q ++ trail (k a) f q
               | _ => []
               end
  end.
Definition looked (l : list stretch) : list stretch := filter st_read l.

(** The two byte strings are the same on the stretch. *)
Definition same_on (f g : bytes) (s : stretch) : Prop := slice g (st_from s) (st_to s - st_from s) = slice f (st_from s) (st_to s - st_from s).

(** The stretches follow each other without gap or overlap, from [p] to [q]. *)
Fixpoint row (p : N) (l : list stretch) (q : N) : Prop :=
  match l with
  | [] => p = q
  | s :: r => st_from s = p /\ p <= st_to s /\ row (st_to s) r q
  end.
Definition covers (s : stretch) (i : N) : Prop := st_from s <= i /\ i < st_to s.
Fixpoint total (l : list stretch) : N := match l with [] => 0 | s :: r => (st_to s - st_from s) + total r end.

(** What is looked at in a well-formed file at most: the file type atom (atom 0), the movie (atom [k]), and the
    heads of the atoms between them. *)
Definition head_size (a : atom) : N := if a_ext a then 16 else 8.
Definition of_interest (f : list atom) (k : nat) (i : N) : Prop :=
  (start f 0 <= i /\ i < start f 1) \/ (start f k <= i /\ i < start f (S k)) \/
  exists j a, (0 < j < k)%nat /\ nth_error f j = Some a /\ start f j <= i /\ i < start f j + head_size a.
