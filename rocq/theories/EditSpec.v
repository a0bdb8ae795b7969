(** Specification of what writing metadata may change.  Independent of [update_file] (and of the
    model): relations between the old and the new file, byte ranges, chunk offsets, crashes. *)

From Coq Require Import List NArith ZArith Bool String.
From Verif Require Import Base Utf Types TagSpec FileSpec.
Import ListNotations.
Local Open Scope list_scope.

(** * Sizes *)

(** [occupies b a]: the bytes [b] are the atom [a]; its size field is the number of bytes, its name is
    behind it, and the children fill the rest without a gap. *)
Inductive occupies : bytes -> atom -> Prop :=
| occ_short : forall size id pre kids body,
    List.length size = 4%nat -> unbe size = 8 + blen pre + blen body -> tiles body kids ->
    occupies (size ++ fc_bytes id ++ pre ++ body) (Atom false id pre kids)
| occ_long : forall one size id pre kids body,
    List.length one = 4%nat -> unbe one = 1 -> List.length size = 8%nat ->
    unbe size = 16 + blen pre + blen body -> tiles body kids ->
    occupies (one ++ fc_bytes id ++ size ++ pre ++ body) (Atom true id pre kids)
with tiles : bytes -> list atom -> Prop :=
| tiles_nil : tiles [] []
| tiles_cons : forall x a y r, occupies x a -> tiles y r -> tiles (x ++ y) (a :: r).

(** * What is kept *)

(** Same head (up to the size) and same leading bytes. *)
Definition same_box (a b : atom) : Prop := a_ext a = a_ext b /\ a_id a = a_id b /\ a_pre a = a_pre b.

(** All atoms are kept, in order; atoms called [id] may change as [R] allows. *)
Definition except (id : fourcc) (R : atom -> atom -> Prop) : list atom -> list atom -> Prop :=
  Forall2 (fun c c' => c = c' \/ (a_id c = id /\ R c c')).
Definition inside (id : fourcc) (R : atom -> atom -> Prop) (a b : atom) : Prop :=
  same_box a b /\ except id R (a_kids a) (a_kids b).

(** A table of the same size; version, flags and entry count are kept. *)
Definition table_edit (a b : atom) : Prop :=
  a_ext a = a_ext b /\ a_id a = a_id b /\ a_kids a = a_kids b /\
  blen (a_pre a) = blen (a_pre b) /\ firstn 8 (a_pre a) = firstn 8 (a_pre b).
Definition stbl_edit (a b : atom) : Prop :=
  same_box a b /\
  Forall2 (fun c c' => c = c' \/ ((a_id c = id4 "stco" \/ a_id c = id4 "co64") /\ table_edit c c')) (a_kids a) (a_kids b).
Definition trak_edit : atom -> atom -> Prop :=
  inside (id4 "mdia") (inside (id4 "minf") (inside (id4 "stbl") stbl_edit)).

(** The item list is replaced or added; if there is no handler, one may be put in front of it. *)
Definition meta_edit (a b : atom) : Prop :=
  same_box a b /\
  exists x old hdlr il y,
    a_kids a = x ++ old ++ y /\ a_kids b = x ++ hdlr ++ il :: y /\ a_id il = id4 "ilst" /\
    (old = [] \/ exists o, old = [o] /\ a_id o = id4 "ilst") /\
    (hdlr = [] \/ exists h, hdlr = [h] /\ a_id h = id4 "hdlr" /\ named_kids (id4 "hdlr") (a_kids a) = []).
(** One child called [id] is changed as [R] allows, or one is appended if there is none. *)
Definition one_child (id : fourcc) (R : atom -> atom -> Prop) (k k' : list atom) : Prop :=
  (exists x c c' y, k = x ++ c :: y /\ k' = x ++ c' :: y /\ a_id c = id /\ R c c') \/
  (named_kids id k = [] /\ exists c, k' = k ++ [c] /\ a_id c = id).
Definition udta_edit (a b : atom) : Prop := same_box a b /\ one_child (id4 "meta") meta_edit (a_kids a) (a_kids b).
Definition moov_edit (a b : atom) : Prop :=
  same_box a b /\ exists k, except (id4 "trak") trak_edit (a_kids a) k /\ one_child (id4 "udta") udta_edit k (a_kids b).
Definition file_edit (f g : list atom) : Prop :=
  exists x mv mv' y, f = x ++ mv :: y /\ g = x ++ mv' :: y /\ a_id mv = id4 "moov" /\ moov_edit mv mv'.

(** * Chunk offsets *)

(** The chunk offset tables of a file with the widths of their entries. *)
Definition stbl_tables (a : atom) : list (nat * atom) :=
  map (pair 4%nat) (named_kids (id4 "stco") (a_kids a)) ++ map (pair 8%nat) (named_kids (id4 "co64") (a_kids a)).
Definition under (id : fourcc) (g : atom -> list (nat * atom)) (a : atom) : list (nat * atom) :=
  flat_map g (named_kids id (a_kids a)).
Definition moov_tables : atom -> list (nat * atom) :=
  under (id4 "trak") (under (id4 "mdia") (under (id4 "minf") (under (id4 "stbl") stbl_tables))).
Definition file_tables (f : list atom) : list (nat * atom) := flat_map moov_tables (named_kids (id4 "moov") f).
Definition offsets (t : nat * atom) : list N := table_entries (fst t) (a_pre (snd t)).

(** The [n] bytes at offset [o] are inside a media data atom. *)
Definition in_mdat (f : list atom) (o n : N) : Prop :=
  exists x md y, f = x ++ md :: y /\ a_id md = id4 "mdat" /\
    blen (render_all x) <= o /\ o + n <= blen (render_all (x ++ [md])).

(** Entry [j] of table [i] is [o]. *)
Definition entry (f : list atom) (i j : nat) (o : N) : Prop :=
  exists t, nth_error (file_tables f) i = Some t /\ nth_error (offsets t) j = Some o.

(** Every chunk addressed in [f] has the same bytes in [g]. *)
Definition chunks_kept (f g : list atom) : Prop :=
  forall i j o n, entry f i j o -> in_mdat f o n ->
    exists o', entry g i j o' /\ slice (render_all g) o' n = slice (render_all f) o n.

(** Adding [d] to the entries does not leave the range of the table (nor 2^62). *)
Definition in_range (d : Z) (t : nat * atom) : Prop :=
  Forall (fun o => (0 <= Z.of_N o + d < 2 ^ (8 * Z.of_nat (fst t)))%Z /\ (Z.of_N o + d < 2 ^ 62)%Z) (offsets t).

(** The media data is on one side of the movie atom. *)
Definition one_sided (f : list atom) : Prop :=
  forall x mv y, f = x ++ mv :: y -> a_id mv = id4 "moov" ->
    named_kids (id4 "mdat") x = [] \/ named_kids (id4 "mdat") y = [].
(** No track follows the user data. *)
Definition tracks_first (f : list atom) : Prop :=
  forall mv x u y, In mv f -> a_id mv = id4 "moov" -> a_kids mv = x ++ u :: y -> a_id u = id4 "udta" ->
    named_kids (id4 "trak") y = [].

(** By how much the media data moves when [items] are written. *)
Definition displacement (items : list atom_data) (f : list atom) : Z :=
  (Z.of_N (blen (render_all (update_file items f))) - Z.of_N (blen (render_all f)))%Z.
Definition mdat_follows (f : list atom) : Prop :=
  exists x mv y, f = x ++ mv :: y /\ a_id mv = id4 "moov" /\ named_kids (id4 "mdat") y <> [].
(** No chunk offset leaves its range when the media data moves. *)
Definition in_reach (items : list atom_data) (f : list atom) : Prop :=
  mdat_follows f -> Forall (in_range (displacement items f)) (file_tables f).
