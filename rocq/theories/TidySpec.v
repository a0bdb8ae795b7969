(** Specification vocabulary: files whose parts have the layout their place asks for.

    Nothing here says what the parts mean: version numbers, type codes, texts, time scales and the
    presence of values are free.  Only lengths and nesting are fixed. *)

From Coq Require Import List NArith Bool String.
From Verif Require Import Base Utf Types TagSpec FileSpec.
Import ListNotations.
Local Open Scope list_scope.

(** ** Items *)

(** A value: version and type (4 bytes), locale (4 bytes), payload; UTF-16 text in whole units. *)
Definition tidy_data (a : atom) : Prop :=
  8 <= blen (a_content a) /\
  (field (a_content a) 1 3 = 2 -> N.even (blen (a_content a)) = true).
(** A `mean` or `name` atom: version and flags, text. *)
Definition tidy_text (a : atom) : Prop := 4 <= blen (a_content a).
Definition tidy_item (a : atom) : Prop :=
  a_pre a = [] /\ Forall tidy_data (named_kids (id4 "data") (a_kids a)) /\
  Forall tidy_text (named_kids (id4 "mean") (a_kids a)) /\ Forall tidy_text (named_kids (id4 "name") (a_kids a)).
Definition tidy_ilst (a : atom) : Prop :=
  a_pre a = [] /\ Forall tidy_item (filter (fun k => negb (is_named (id4 "free") k)) (a_kids a)).
Definition tidy_meta (a : atom) : Prop :=
  List.length (a_pre a) = 4%nat /\ Forall tidy_ilst (named_kids (id4 "ilst") (a_kids a)).

(** A container without leading bytes; its children called [id] are as [P] says. *)
Definition tidy_box (id : fourcc) (P : atom -> Prop) (a : atom) : Prop :=
  a_pre a = [] /\ Forall P (named_kids id (a_kids a)).
Definition tidy_udta : atom -> Prop := tidy_box (id4 "meta") tidy_meta.

(** ** Audio parameters *)

Definition tidy_ds (b : bytes) : Prop := (2 <= List.length b)%nat.
(** [n] bytes, then descriptors; at most one of them is tagged [t], it is as [P] says. *)
Definition tidy_descs (n : nat) (t : N) (P : bytes -> Prop) (b : bytes) : Prop :=
  exists h l, List.length h = n /\ b = h ++ flat_map render_desc l /\ Forall good_desc l /\
    (List.length (tagged_desc t l) <= 1)%nat /\ Forall (fun d => P (d_body d)) (tagged_desc t l).
Definition tidy_dc : bytes -> Prop := tidy_descs 13 5 tidy_ds.
Definition tidy_es : bytes -> Prop := tidy_descs 3 4 tidy_dc.
Definition tidy_esds (a : atom) : Prop :=
  exists v d rest, List.length v = 4%nat /\ good_desc d /\ a_content a = v ++ render_desc d ++ rest /\
    (b2n (d_tag d) = 3 -> tidy_es (d_body d)).
(** Sample entry: 28 bytes, then an atom. *)
Definition tidy_mp4a (a : atom) : Prop :=
  List.length (a_pre a) = 28%nat /\ exists e rest, a_kids a = e :: rest /\ (a_id e = id4 "esds" -> tidy_esds e).
Definition tidy_stsd (a : atom) : Prop :=
  List.length (a_pre a) = 8%nat /\ Forall tidy_mp4a (named_kids (id4 "mp4a") (a_kids a)).
Definition tidy_stbl : atom -> Prop := tidy_box (id4 "stsd") tidy_stsd.
Definition tidy_minf : atom -> Prop := tidy_box (id4 "stbl") tidy_stbl.
Definition tidy_mdia : atom -> Prop := tidy_box (id4 "minf") tidy_minf.
Definition tidy_trak : atom -> Prop := tidy_box (id4 "mdia") tidy_mdia.

(** ** The movie *)

Definition tidy_mvhd (a : atom) : Prop :=
  let b := a_content a in
  4 <= blen b /\ (field b 0 1 = 0 -> 20 <= blen b) /\ (field b 0 1 = 1 -> 32 <= blen b).
Definition tidy_moov (a : atom) : Prop :=
  a_pre a = [] /\ Forall tidy_mvhd (named_kids (id4 "mvhd") (a_kids a)) /\
  Forall tidy_trak (named_kids (id4 "trak") (a_kids a)) /\ Forall tidy_udta (named_kids (id4 "udta") (a_kids a)).
Definition tidy (f : list atom) : Prop :=
  at_most_one (id4 "moov") f /\ Forall tidy_moov (named_kids (id4 "moov") f).

(** The durations of the movie headers, in nanoseconds and times the time scale, fit into 64 bits. *)
Definition short_mvhd (a : atom) : Prop :=
  field (a_content a) 0 1 = 1 -> field (a_content a) 24 8 * 1000000000 < 2 ^ 64.
Definition short_movie (f : list atom) : Prop :=
  Forall (fun mv => Forall short_mvhd (named_kids (id4 "mvhd") (a_kids mv))) (named_kids (id4 "moov") f).
