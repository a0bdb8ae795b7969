(** Specification: which lists of items can be the result of reading a file. *)

From Coq Require Import List NArith Bool String.
From Verif Require Import Base Utf Types TagSpec FileSpec.
Import ListNotations.
Local Open Scope list_scope.

(** An item which is not called `free` and has values (all strings are sequences of Unicode scalar values, as every Rust [String] is);
    no two items have the same identifier. *)
Definition readable_item (i : atom_data) : Prop := storable_ident (ad_ident i) /\ ad_data i <> [] /\ Forall good_data (ad_data i).
Definition readable_items (items : list atom_data) : Prop := unique_idents items /\ Forall readable_item items.
