(** Which chunk offsets still point to the same place after writing: specification for C74. *)

From Coq Require Import List NArith ZArith String.
From Verif Require Import Base Types TagSpec FileSpec EditSpec.
Import ListNotations.
Local Open Scope list_scope.

(** Where atom [k] of a file begins. *)
Definition start (f : list atom) (k : nat) : N := blen (render_all (firstn k f)).

(** The [n] bytes at [o] are inside the media data atom [k]. *)
Definition inside (f : list atom) (k : nat) (o n : N) : Prop :=
  exists md, nth_error f k = Some md /\ a_id md = id4 "mdat" /\ start f k <= o /\ o + n <= start f (S k).

(** [o'] in [g] is as far behind the beginning of atom [k] as [o] in [f]. *)
Definition same_place (f g : list atom) (k : nat) (o o' : N) : Prop :=
  (Z.of_N o' - Z.of_N (start g k) = Z.of_N o - Z.of_N (start f k))%Z.

(** The movie is atom [k] of the file. *)
Definition movie_is (f : list atom) (k : nat) : Prop := exists mv, nth_error f k = Some mv /\ a_id mv = id4 "moov".

(** Table [i] belongs to a track that precedes the user data of the movie (all do if there is no user data). *)
Definition early (f : list atom) (i : nat) : Prop :=
  exists mv a b, In mv f /\ a_id mv = id4 "moov" /\ a_kids mv = a ++ b /\ named_kids (id4 "udta") a = [] /\
    (b = [] \/ exists u r, b = u :: r /\ a_id u = id4 "udta") /\ (i < List.length (moov_tables (with_kids mv a)))%nat.

(** Whether offset [o] in table [i], whose entries have [w] bytes, still points to the same place of the
    media data atom [k] when [items] are written: the adjusted offsets are those of the tables of [early] if
    media data follows the movie; the media data that moves is that behind the movie. *)
Definition stays (f : list atom) (items : list atom_data) (i : nat) (w : nat) (k : nat) (o : N) : Prop :=
  let d := displacement items f in let range := (2 ^ (8 * Z.of_nat w))%Z in
  (mdat_follows f -> early f i ->
     ((exists m, movie_is f m /\ (m < k)%nat) -> (Z.of_N o + d < range)%Z) /\
     ((exists m, movie_is f m /\ (k < m)%nat) -> (d mod range = 0)%Z)) /\
  (~ early f i -> (exists m, movie_is f m /\ (m < k)%nat) -> d = 0%Z).

(** All chunks in media data stay where they are in it. *)
Definition all_in_place (f g : list atom) : Prop :=
  forall i j o k n, entry f i j o -> inside f k o n -> exists o', entry g i j o' /\ same_place f g k o o'.
