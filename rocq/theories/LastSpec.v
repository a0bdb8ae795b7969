(** Specification: the new file when containers occur several times.

    Of several atoms of the same name in the same place the library changes the last one; the others are kept as they are.  A table that is not changed may contain anything. *)

From Coq Require Import List NArith ZArith Bool String.
From Verif Require Import Base Utf Types TagSpec FileSpec RepairSpec.
Import ListNotations.
Local Open Scope list_scope.

(** The list around the last atom called [id]. *)
Fixpoint split_last (id : fourcc) (l : list atom) : option (list atom * atom * list atom) :=
  match l with
  | [] => None
  | a :: r =>
    match split_last id r with
    | Some (x, b, y) => Some (a :: x, b, y)
    | None => if is_named id a then Some ([], a, r) else None
    end
  end.
(** Change the last atom called [id]. *)
Definition map_last (id : fourcc) (g : atom -> atom) (l : list atom) : list atom :=
  match split_last id l with Some (x, c, y) => x ++ g c :: y | None => l end.
Definition last_kid (id : fourcc) (g : atom -> atom) (a : atom) : atom := with_kids a (map_last id g (a_kids a)).

(** Add [d] to the entries of the last tables of a track. *)
Definition move_stbl (d : Z) (a : atom) : atom := last_kid (id4 "co64") (shift_table 8 d) (last_kid (id4 "stco") (shift_table 4 d) a).
Definition move_trak (d : Z) : atom -> atom := last_kid (id4 "mdia") (last_kid (id4 "minf") (last_kid (id4 "stbl") (move_stbl d))).
Definition move_traks (d : Z) (l : list atom) : list atom := map_kids (id4 "trak") (move_trak d) l.

Definition last_meta (items : list atom_data) (a : atom) : atom :=
  match split_last (id4 "ilst") (a_kids a) with
  | Some (x, _, y) => with_kids a (x ++ missing_hdlr a ++ [new_ilst items] ++ y)
  | None => with_kids a (a_kids a ++ missing_hdlr a ++ [new_ilst items])
  end.
Definition last_udta (items : list atom_data) (a : atom) : atom :=
  match split_last (id4 "meta") (a_kids a) with
  | Some (x, m, y) => with_kids a (x ++ last_meta items m :: y)
  | None => with_kids a (a_kids a ++ [new_meta items])
  end.
Definition last_moov (items : list atom_data) (d : Z) (a : atom) : atom :=
  match split_last (id4 "udta") (a_kids a) with
  | Some (x, u, y) => with_kids a (move_traks d x ++ last_udta items u :: y)
  | None => with_kids a (move_traks d (a_kids a) ++ [new_udta items])
  end.
Definition last_growth (items : list atom_data) (a : atom) : Z :=
  (Z.of_N (blen (render (last_moov items 0 a))) - Z.of_N (blen (render a)))%Z.
Definition last_file (items : list atom_data) (f : list atom) : list atom :=
  match split_last (id4 "moov") f with
  | Some (x, m, y) => x ++ last_moov items (match named_kids (id4 "mdat") y with [] => 0%Z | _ => last_growth items m end) m :: y
  | None => f
  end.

(** [P] holds for the last child called [id]. *)
Definition of_last (id : fourcc) (P : atom -> Prop) (a : atom) : Prop := match split_last id (a_kids a) with Some (_, c, _) => P c | None => True end.
(** The tables that are changed are sound. *)
Definition sound_stbl (a : atom) : Prop := of_last (id4 "stco") (good_table 4) a /\ of_last (id4 "co64") (good_table 8) a.
Definition sound_trak : atom -> Prop := of_last (id4 "mdia") (of_last (id4 "minf") (of_last (id4 "stbl") sound_stbl)).
Definition sound_moov (a : atom) : Prop := Forall sound_trak (named_kids (id4 "trak") (a_kids a)).
(** So are those of the last movie. *)
Definition sound_tables (f : list atom) : Prop := match split_last (id4 "moov") f with Some (_, m, _) => sound_moov m | None => True end.

(** An outline with any number of movies. *)
Definition bare_moov (a : atom) : Prop :=
  a_pre a = [] /\ Forall bare_trak (named_kids (id4 "trak") (a_kids a)) /\ Forall bare_udta (named_kids (id4 "udta") (a_kids a)).
Definition outline (f : list atom) : Prop :=
  exists ft s rest, f = ft :: rest /\ a_id ft = id4 "ftyp" /\ wf_ustr s = true /\ a_content ft = enc8 s /\
    named_kids (id4 "moov") rest <> [] /\ Forall bare_moov (named_kids (id4 "moov") rest).
