(** Specification of power failures while a file is written: what may be on the disk afterwards, and which bytes a write
    can reach.  Nothing is assumed about the order in which the calls reach the disk. *)

From Coq Require Import List NArith ZArith Bool String.
From Verif Require Import Base Types Utf TagSpec FileSpec FailSpec PanicSpec Write LayoutSpec WOutSpec.
Import ListNotations.

(** What [calls] made of [f] when the power fails and [old] is the length the file had at first: any part of any write, any
    of the lengths, in any order, some of them repeatedly and others not at all.  Space that is new to the file may contain
    anything. *)
Inductive settles (calls : list fop) (old : N) : bytes -> bytes -> Prop :=
| Settle_done : forall f, settles calls old f f
| Settle_write : forall f p d a n b g, In (OWrite p d) calls -> d = a ++ n ++ b -> settles calls old (patch (p + blen a) n f) g -> settles calls old f g
| Settle_length : forall f n g, In (OSetLen n) calls -> settles calls old (resize n f) g -> settles calls old f g
| Settle_noise : forall f q x g, old <= q < blen f -> settles calls old (patch q [x] f) g -> settles calls old f g.

(** The byte at [q] belongs to the size of the box [n], *)
Definition in_size (n : node) (q : N) : Prop := n_at n <= q < n_at n + 4 \/ n_head n = 16 /\ n_at n + 8 <= q < n_at n + 16.
(** or to the entries of the table [n]. *)
Definition in_entries (n : node) (q : N) : Prop := n_at n + n_head n + 8 <= q < n_at n + n_size n.
(** The bytes in front of [s] that a write at [s] is about: the sizes of the boxes around, and the tables if the media data is
    behind the movie. *)
Definition reached (ns : list node) (mo : node) (q : N) : Prop :=
  Exists (fun n => in_size n q) (around mo) \/ adjusts ns = true /\ Exists (fun t => in_entries (snd t) q) (tables_of ns).
(** [g] and [f] have the same byte at [q]. *)
Definition same_at (f g : bytes) (q : N) : Prop := slice g q 1 = slice f q 1.
(** Where the new boxes are written. *)
Definition place (mo : node) : N := match old_list mo with Some i => n_at i | None => n_at (host mo) + n_size (host mo) end.
