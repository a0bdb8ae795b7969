(** Specification: files whose atoms are where they belong, whatever the ones that are not gone into contain. *)

From Coq Require Import List NArith Bool String.
From Verif Require Import Base Utf Types TagSpec FileSpec ReadSpec.
Import ListNotations.
Local Open Scope list_scope.

(** A container without leading bytes; [P] holds for its children called [id]. *)
Definition bare (id : fourcc) (P : atom -> Prop) (a : atom) : Prop := a_pre a = [] /\ Forall P (named_kids id (a_kids a)).
(** Nothing is said about movie headers, sample descriptions, handlers and item lists. *)
Definition bare_trak : atom -> Prop := bare (id4 "mdia") (bare (id4 "minf") (bare (id4 "stbl") (fun a => a_pre a = []))).
Definition bare_udta : atom -> Prop := bare (id4 "meta") (fun a => version0 (a_pre a)).
(** A file with the file type [s] and one movie [mv]. *)
Definition shell (f : list atom) (s : ustring) (mv : atom) : Prop :=
  exists ft pre post, f = ft :: pre ++ mv :: post /\
    a_id ft = id4 "ftyp" /\ wf_ustr s = true /\ a_content ft = enc8 s /\
    a_id mv = id4 "moov" /\ named_kids (id4 "moov") (pre ++ post) = [] /\
    a_pre mv = [] /\ Forall bare_trak (named_kids (id4 "trak") (a_kids mv)) /\ Forall bare_udta (named_kids (id4 "udta") (a_kids mv)).
(** What the movie header and the tracks say. *)
Definition sounds (mv : atom) (info : audio_info) : Prop :=
  exists dur auds, last_child (id4 "mvhd") mvhd_means mv dur /\ Forall2 trak_means (named_kids (id4 "trak") (a_kids mv)) auds /\
    info = info_of dur (first_some auds).

(** The file around an item list, with the list [a]. *)
Definition relist_meta (c : place) (a : atom) : atom := Atom (at_meta c) (id4 "meta") (at_meta_head c) (at_meta_pre c ++ a :: at_meta_post c).
Definition relist_udta (c : place) (a : atom) : atom := Atom (at_udta c) (id4 "udta") [] (at_udta_pre c ++ relist_meta c a :: at_udta_post c).
Definition relist_moov (c : place) (a : atom) : atom := Atom (at_moov c) (id4 "moov") [] (at_moov_pre c ++ relist_udta c a :: at_moov_post c).
Definition relist (c : place) (a : atom) : list atom := at_ft c :: at_pre c ++ relist_moov c a :: at_post c.
