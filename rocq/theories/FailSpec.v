(** Specification of boxes in arbitrary byte strings, well-formed or not. *)

From Coq Require Import List NArith ZArith Bool String.
From Verif Require Import Base Types TagSpec FileSpec.
Import ListNotations.

(** Some bytes of a file look like the header of a box: the size field at [q], 64 bits if its first 32
    are 1, and the name. *)
Definition box_at (f : bytes) (q : N) (id : fourcc) (head size : N) : Prop :=
  q + head <= blen f /\ slice f (q + 4) 4 = fc_bytes id /\
  (field f q 4 = 1 /\ head = 16 /\ size = field f (q + 8) 8 \/
   field f q 4 <> 1 /\ 8 <= field f q 4 /\ head = 8 /\ size = field f q 4).

(** The byte at [p] is an entry of what looks like a chunk offset table. *)
Definition in_table (f : bytes) (p : N) : Prop :=
  exists q id head size, box_at f q id head size /\ (id = id4 "stco" \/ id = id4 "co64") /\
    q + head + 8 <= p < q + size /\ q + size <= blen f.

(** The byte at [p] belongs to the size field of what looks like a movie, user data or metadata box. *)
Definition in_size_field (f : bytes) (p : N) : Prop :=
  exists q id head size, box_at f q id head size /\ (id = id4 "moov" \/ id = id4 "udta" \/ id = id4 "meta") /\
    (q <= p < q + 4 \/ head = 16 /\ q + 8 <= p < q + 16).

(** No 64-bit size field is 2^63 or more, wherever in the file one looks. *)
Definition no_huge_box (f : bytes) : Prop :=
  forall p, field f p 4 = 1 -> p + 16 <= blen f -> field f (p + 8) 8 < 2 ^ 63.

(** The part of [f] between [start] and [stop] is replaced by [new]: an item list by a new one, or
    nothing by what was missing, placed at the end of the metadata, user data or movie box. *)
Inductive replaced (f : bytes) (items : list atom_data) (start : N) : N -> bytes -> Prop :=
| Replaced_list : forall head size h, box_at f start (id4 "ilst") head size -> head <= size -> h = [] \/ h = [new_hdlr] ->
    replaced f items start (start + size) (render_all (h ++ [new_ilst items]))
| Added_list : forall q head size h, box_at f q (id4 "meta") head size -> start = q + size -> h = [] \/ h = [new_hdlr] ->
    replaced f items start start (render_all (h ++ [new_ilst items]))
| Added_meta : forall q head size, box_at f q (id4 "udta") head size -> start = q + size ->
    replaced f items start start (render (new_meta items))
| Added_udta : forall q head size, box_at f q (id4 "moov") head size -> start = q + size ->
    replaced f items start start (render (new_udta items)).
