(** Endless reading and scanning as coming back to a place. *)

From Coq Require Import List NArith String.
From Verif Require Import Base Types FileSpec FailSpec PanicSpec LayoutSpec OutSpec WOutSpec.
Import ListNotations.
Local Open Scope list_scope.

(** The reader arrives twice at the same position in the same containers with the same counts, or does so within an
    item. *)
Definition comes_back (m : mode) (f : bytes) : Prop :=
  (exists k k' w q, (k < k')%nat /\ arrives m f k w q /\ arrives m f k' w q) \/
  (exists k n d w q id head size n' c c' v d' q',
     arrives m f k ((InIlst, n, d) :: w) q /\ d < n /\ box_at f q id head size /\ id <> id4 "free" /\ less m size head n' /\
     (c < c')%nat /\ in_item_at m f n' (q + head) c v d' q' /\ in_item_at m f n' (q + head) c' v d' q').

(** The same for the scan of the writer, whatever boxes it has found. *)
Definition bare (w : open_boxes) : OutSpec.around := map fst w.
Definition scan_comes_back (m : mode) (f : bytes) : Prop :=
  exists k k' w w' q, (k < k')%nat /\ comes m f k w q /\ comes m f k' w' q /\ bare w = bare w'.
