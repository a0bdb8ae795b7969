(** Specification: files that differ only in atoms a reader of tags does not interpret and in the
    width of size fields. *)

From Coq Require Import List NArith Bool String Relations.
From Verif Require Import Base Utf Types TagSpec FileSpec.
Import ListNotations.
Local Open Scope list_scope.

(** Places where child atoms are. *)
Inductive place :=
| InFile | InMoov | InTrak | InMdia | InMinf | InStbl | InStsd | InMp4a | InUdta | InMeta | InIlst | InItem.

Definition look (id : fourcc) (l : list (string * option place)) : option (option place) :=
  match find (fun x => if fourcc_dec (id4 (fst x)) id then true else false) l with
  | Some x => Some (snd x)
  | None => None
  end.

(** The atoms with a meaning at a place: [None] is a foreign atom, [Some None] one whose content is
    interpreted as a whole, [Some (Some p)] one that contains atoms. *)
Definition meaningful (pl : place) (id : fourcc) : option (option place) :=
  match pl with
  | InFile => look id [("moov"%string, Some InMoov)]
  | InMoov => look id [("mvhd"%string, None); ("trak"%string, Some InTrak); ("udta"%string, Some InUdta)]
  | InTrak => look id [("mdia"%string, Some InMdia)]
  | InMdia => look id [("minf"%string, Some InMinf)]
  | InMinf => look id [("stbl"%string, Some InStbl)]
  | InStbl => look id [("stsd"%string, Some InStsd)]
  | InStsd => look id [("mp4a"%string, Some InMp4a)]
  | InMp4a => Some None
  | InUdta => look id [("meta"%string, Some InMeta)]
  | InMeta => look id [("ilst"%string, Some InIlst)]
  | InIlst => if fourcc_dec id (id4 "free") then None else Some (Some InItem)
  | InItem => look id [("data"%string, None); ("mean"%string, None); ("name"%string, None)]
  end.

(** One change: insert a foreign atom, replace everything behind the `esds` atom of a sample entry,
    change the width of a size field, or do one of these further inside. *)
Inductive edit : place -> list atom -> list atom -> Prop :=
| ed_insert : forall pl x k y, meaningful pl (a_id k) = None -> edit pl (x ++ y) (x ++ k :: y)
| ed_tail : forall e x y, edit InMp4a (e :: x) (e :: y)
| ed_head : forall pl x e e' i p k y, edit pl (x ++ Atom e i p k :: y) (x ++ Atom e' i p k :: y)
| ed_inside : forall pl pl' x e i p k k' y, meaningful pl i = Some (Some pl') -> edit pl' k k' ->
    edit pl (x ++ Atom e i p k :: y) (x ++ Atom e i p k' :: y).

Inductive edit_file : list atom -> list atom -> Prop :=
| ef_ftyp : forall e e' i p k r, edit_file (Atom e i p k :: r) (Atom e' i p k :: r)
| ef_rest : forall a x y, edit InFile x y -> edit_file (a :: x) (a :: y).

(** Any sequence of changes and their inverses. *)
Definition same_but_foreign : list atom -> list atom -> Prop := clos_refl_sym_trans _ edit_file.
