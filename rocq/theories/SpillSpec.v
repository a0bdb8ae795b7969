(** Specification: a file into which items with UTF-16 text are written.  Of such text only half of the length is announced, see
    [WOutSpec.value_len]. *)

From Coq Require Import List NArith Bool String.
From Verif Require Import Base Types TagSpec FileSpec ReadSpec RepairSpec WOutSpec.
Import ListNotations.
Local Open Scope list_scope.

(** All bytes of the items, and how many of them are announced. *)
Definition all_bytes (items : list atom_data) : bytes := flat_map snd (flat_map item_pieces items).
Definition announced (items : list atom_data) : nat := N.to_nat (list_len items).

(** Items that take up the announced length: bytes in place of UTF-16 text. *)
Definition stand_value (d : data) : data := match d with DUtf16 _ => DReserved (zeros (value_len d)) | _ => d end.
Definition stand_ins (items : list atom_data) : list atom_data := map (fun a => AtomData (ad_ident a) (map stand_value (ad_data a))) items.

(** The item list that is left: as many bytes as announced. *)
Definition cut_list (items : list atom_data) : atom := new_box (id4 "ilst") (firstn (announced items) (all_bytes items)) [].
(** What is behind the list in a file, *)
Definition behind (c : place) : bytes :=
  render_all (at_meta_post c) ++ render_all (at_udta_post c) ++ render_all (at_moov_post c) ++ render_all (at_post c).
(** and what is left at its end: the bytes that are not announced, as far as they are not overwritten by what is behind the list. *)
Definition spilled (c : place) (items : list atom_data) : bytes := skipn (announced items + List.length (behind c)) (all_bytes items).
(** The place [c] of the list in [f] when a list of the announced length is written. *)
Definition lies (f : list atom) (items : list atom_data) (c : place) : Prop := update_file (stand_ins items) f = relist c (new_ilst (stand_ins items)).
