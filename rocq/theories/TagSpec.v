(** Specification of tags as ordered maps from identifiers to value lists.  Does not use any
    function of [TagApi]. *)

From Coq Require Import List NArith ZArith Bool.
From Coq Require Strings.Byte.
From Verif Require Import Base Utf Types.
Import ListNotations.

Definition byte_dec : forall a b : byte, {a = b} + {a <> b} := Byte.byte_eq_dec.

Definition fourcc_dec (a b : fourcc) : {a = b} + {a <> b}.
Proof. decide equality; apply byte_dec. Defined.

Definition ident_dec (a b : data_ident) : {a = b} + {a <> b}.
Proof. decide equality; try apply fourcc_dec; apply list_eq_dec, N.eq_dec. Defined.

(** The identifier an argument of the API stands for. *)
Definition named (i : ident_arg) : data_ident :=
  match i with
  | AFourcc f => IFourcc f
  | AFreeform me na => IFreeform me na
  | AData j => j
  end.

(** The identifiers of the items, in order. *)
Definition idents (l : list atom_data) : list data_ident := map ad_ident l.

(** The values stored under an identifier. *)
Fixpoint values (l : list atom_data) (j : data_ident) : list data :=
  match l with
  | [] => []
  | a :: r => if ident_dec (ad_ident a) j then ad_data a else values r j
  end.

(** The abstract tag: an ordered map. *)
Record view := View { vw_order : list data_ident; vw_values : data_ident -> list data }.

Definition view_of (l : list atom_data) : view := View (idents l) (values l).

Definition view_eq (v w : view) : Prop :=
  vw_order v = vw_order w /\ forall j, vw_values v j = vw_values w j.

Definition upd (v : data_ident -> list data) (j : data_ident) (d : list data) : data_ident -> list data :=
  fun k => if ident_dec j k then d else v k.

(** Insert at the end unless present. *)
Definition insert_ident (o : list data_ident) (j : data_ident) : list data_ident :=
  if in_dec ident_dec j o then o else o ++ [j].

Definition delete_ident (o : list data_ident) (j : data_ident) : list data_ident :=
  filter (fun k => if ident_dec j k then false else true) o.

Definition view_set (v : view) (j : data_ident) (d : list data) : view :=
  View (insert_ident (vw_order v) j) (upd (vw_values v) j d).

Definition view_delete (v : view) (j : data_ident) : view :=
  View (delete_ident (vw_order v) j) (upd (vw_values v) j []).

(** Keep the values satisfying [p]; an item left without values disappears. *)
Definition view_retain (v : view) (j : data_ident) (p : data -> bool) : view :=
  match filter p (vw_values v j) with
  | [] => view_delete v j
  | d => View (vw_order v) (upd (vw_values v) j d)
  end.

Definition view_retain_all (v : view) (p : data_ident -> data -> bool) : view :=
  View (filter (fun j => existsb (p j) (vw_values v j)) (vw_order v))
       (fun j => filter (p j) (vw_values v j)).

(** Change the values of one item, keeping their number. *)
Definition view_change (v : view) (j : data_ident) (g : list data -> list data) : view :=
  View (vw_order v) (upd (vw_values v) j (g (vw_values v j))).

Definition view_change_all (v : view) (g : data_ident -> list data -> list data) : view :=
  View (vw_order v) (fun j => g j (vw_values v j)).

Definition unique_idents (l : list atom_data) : Prop := NoDup (idents l).
