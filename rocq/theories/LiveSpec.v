(** Specification: the chunk offset tables that count when containers occur several times. *)

From Coq Require Import List NArith ZArith Bool String.
From Verif Require Import Base Types TagSpec FileSpec ReadSpec EditSpec LastSpec.
Import ListNotations.
Local Open Scope list_scope.

(** The tables in the last child called [id]. *)
Definition in_last (id : fourcc) (g : atom -> list (nat * atom)) (a : atom) : list (nat * atom) :=
  match last_opt (named_kids id (a_kids a)) with Some c => g c | None => [] end.
Definition live_stbl (a : atom) : list (nat * atom) :=
  in_last (id4 "stco") (fun c => [(4%nat, c)]) a ++ in_last (id4 "co64") (fun c => [(8%nat, c)]) a.
Definition live_trak : atom -> list (nat * atom) := in_last (id4 "mdia") (in_last (id4 "minf") (in_last (id4 "stbl") live_stbl)).
Definition live_moov (a : atom) : list (nat * atom) := flat_map live_trak (named_kids (id4 "trak") (a_kids a)).
(** The last tables of every track, with the widths of their entries. *)
Definition live_tables (f : list atom) : list (nat * atom) := match last_opt (named_kids (id4 "moov") f) with Some mv => live_moov mv | None => [] end.

(** Entry [j] of table [i] is [o]. *)
Definition live_entry (f : list atom) (i j : nat) (o : N) : Prop :=
  exists t, nth_error (live_tables f) i = Some t /\ nth_error (offsets t) j = Some o.
(** Every chunk addressed in [f] by a table that counts has the same bytes in [g]. *)
Definition live_kept (f g : list atom) : Prop :=
  forall i j o n, live_entry f i j o -> in_mdat f o n ->
    exists o', live_entry g i j o' /\ slice (render_all g) o' n = slice (render_all f) o n.

(** No offset that counts leaves its range when the media data moves. *)
Definition live_reach (items : list atom_data) (f : list atom) : Prop :=
  mdat_follows f -> Forall (in_range (Z.of_N (blen (render_all (last_file items f))) - Z.of_N (blen (render_all f)))) (live_tables f).
(** No track follows the last user data. *)
Definition tracks_before (f : list atom) : Prop :=
  forall mv x u y, In mv f -> a_id mv = id4 "moov" -> a_kids mv = x ++ u :: y -> a_id u = id4 "udta" -> named_kids (id4 "udta") y = [] ->
    named_kids (id4 "trak") y = [].
