(** Numbers outside the movie atom that address bytes of the file: specification for C83.
    A movie fragment (moof, ISO/IEC 14496-12 section 8.8) tells in the header of each track fragment (tfhd)
    where the data it describes begins: as a position in the file, if flag 1 is set, or else relative to the
    beginning of the fragment. The library knows neither: it skips every atom behind the movie. *)

From Coq Require Import List NArith ZArith String.
From Verif Require Import Base Types TagSpec FileSpec EditSpec ChunkSpec.
Import ListNotations.
Local Open Scope list_scope.

(** The [n] bytes at [o] are inside atom [k], which is not the movie. *)
Definition within (f : list atom) (k : nat) (o n : N) : Prop :=
  exists a, nth_error f k = Some a /\ a_id a <> id4 "moov" /\ start f k <= o /\ o + n <= start f (S k).

(** The movie fragment [a] has a track fragment whose data begins at byte [o] of the file: version, flags,
    track number, base of 8 bytes. *)
Definition fragment_base (a : atom) (o : N) : Prop :=
  a_id a = id4 "moof" /\ o < 2 ^ 64 /\
  exists tr th v fl track rest, In tr (a_kids a) /\ a_id tr = id4 "traf" /\ In th (a_kids tr) /\ a_id th = id4 "tfhd" /\
    a_content th = v ++ fl ++ track ++ be 8 o ++ rest /\
    List.length v = 1%nat /\ List.length fl = 3%nat /\ List.length track = 4%nat /\ N.odd (unbe fl) = true.

(** Atom [k] is behind the movie. *)
Definition behind (f : list atom) (k : nat) : Prop := exists m, movie_is f m /\ (m < k)%nat.
