(** Identifiers that callers implement themselves (trait [Ident], src/atom/ident.rs 152-157, with its requirement
    [PartialEq<DataIdent>], and [Into<DataIdent>] where items may be created), and the methods of [Tag] that take them. *)

From Coq Require Import List NArith Bool.
From Verif Require Import Base Utf Types TagApi.
Import ListNotations.

(** What the methods of [Tag] use of an identifier: [==], [!=] and [into()].  The comparisons are functions: they have no
    side effects and do not panic.  Unless the implementation replaces it, [!=] is the negation of [==]. *)
Record user_ident := UserIdent { u_eq : data_ident -> bool; u_ne : data_ident -> bool; u_into : data_ident }.

(** The identifiers of the crate: ident.rs 183-190, 223-230, 256, 294-310. *)
Definition user_of (i : ident_arg) : user_ident := UserIdent (arg_eqb i) (fun x => negb (arg_eqb i x)) (arg_into i).

(** [data_of], mod.rs 497-502. *)
Fixpoint u_data_of (l : atoms) (u : user_ident) : list data :=
  match l with
  | [] => []
  | a :: r => if u_eq u (ad_ident a) then ad_data a else u_data_of r u
  end.
(** [data_mut_of], mod.rs 518-523. *)
Fixpoint u_data_mut_of (g : list data -> list data) (l : atoms) (u : user_ident) : atoms :=
  match l with
  | [] => []
  | a :: r => if u_eq u (ad_ident a) then AtomData (ad_ident a) (g (ad_data a)) :: r else a :: u_data_mut_of g r u
  end.
(** [take_data_of], mod.rs 538-550. *)
Fixpoint u_take_data_of (l : atoms) (u : user_ident) : list data * atoms :=
  match l with
  | [] => ([], [])
  | a :: r => if u_eq u (ad_ident a) then (ad_data a, r) else let (d, r') := u_take_data_of r u in (d, a :: r')
  end.
(** [remove_data_of], mod.rs 936-938. *)
Definition u_remove_data_of (l : atoms) (u : user_ident) : atoms := filter (fun a => u_ne u (ad_ident a)) l.
(** [retain_data_of], mod.rs 1052-1061. *)
Fixpoint u_retain_data_of (l : atoms) (u : user_ident) (p : data -> bool) : atoms :=
  match l with
  | [] => []
  | a :: r =>
    if u_eq u (ad_ident a) then
      match filter p (ad_data a) with
      | [] => r
      | d => AtomData (ad_ident a) d :: r
      end
    else a :: u_retain_data_of r u p
  end.
(** [set_all_data], mod.rs 1267-1281. *)
Fixpoint u_set_all_data (l : atoms) (u : user_ident) (d : list data) : atoms :=
  match l with
  | [] => [AtomData (u_into u) d]
  | a :: r => if u_eq u (ad_ident a) then AtomData (ad_ident a) d :: r else a :: u_set_all_data r u d
  end.
(** [set_data], mod.rs 1236-1244. *)
Fixpoint u_set_data (l : atoms) (u : user_ident) (d : data) : atoms :=
  match l with
  | [] => [AtomData (u_into u) [d]]
  | a :: r => if u_eq u (ad_ident a) then AtomData (ad_ident a) [d] :: r else a :: u_set_data r u d
  end.
(** [add_all_data], mod.rs 1329-1338. *)
Fixpoint u_add_all_data (l : atoms) (u : user_ident) (d : list data) : atoms :=
  match l with
  | [] => [AtomData (u_into u) d]
  | a :: r => if u_eq u (ad_ident a) then AtomData (ad_ident a) (ad_data a ++ d) :: r else a :: u_add_all_data r u d
  end.
(** [add_data], mod.rs 1301-1306. *)
Fixpoint u_add_data (l : atoms) (u : user_ident) (d : data) : atoms :=
  match l with
  | [] => [AtomData (u_into u) [d]]
  | a :: r => if u_eq u (ad_ident a) then AtomData (ad_ident a) (ad_data a ++ [d]) :: r else a :: u_add_data r u d
  end.
