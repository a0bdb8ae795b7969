(** Specification: operations after which a tag can still be written and read back. *)

From Coq Require Import List NArith Bool.
From Verif Require Import Base Utf Types TagApi TagOps TagSpec FileSpec.
Import ListNotations.

Definition storable_target (i : ident_arg) : Prop := storable_ident (named i).
Definition storable_values (d : list data) : Prop := d <> [] /\ Forall storable_data d.
Definition storable_strings (s : list ustring) : Prop := s <> [] /\ Forall (fun x => wf_ustr x = true) s.
(** An assignment to values that turns values that can be stored into such values. *)
Definition storable_change (g : nat -> data -> data) : Prop := forall k d, storable_data d -> storable_data (g k d).

(** No item called `free`, no item without values, no UTF-16 text, only sequences of Unicode scalar
    values as strings (every Rust [String] is one).  Methods that only remove things, and those
    storing numbers, flags, single images or strings under a fixed identifier, are always fine. *)
Definition careful (o : tag_op) : Prop :=
  match o with
  | OpSetData i d | OpAddData i d => storable_target i /\ storable_data d
  | OpSetAllData i d | OpAddAllData i d => storable_target i /\ storable_values d
  | OpRemoveDataOf _ | OpTakeDataOf _ | OpTakeBytesOf _ | OpTakeStringsOf _ | OpTakeImagesOf _
  | OpRemoveBytesOf _ | OpRemoveStringsOf _ | OpRemoveImagesOf _
  | OpRetainDataOf _ _ | OpRetainBytesOf _ _ | OpRetainStringsOf _ _ | OpRetainImagesOf _ _
  | OpRetainData _ | OpRetainBytes _ | OpRetainStrings _ | OpRetainImages _ | OpClear => True
  | OpDataMutOf _ g => storable_change g
  | OpStringsMutOf _ g => storable_change (fun k => on_string (g k))
  | OpDataMut g => forall j, storable_change (g j)
  | OpStringsMut g => forall j, storable_change (fun k => on_string (g j k))
  | OpBytesMutOf _ _ | OpImagesMutOf _ _ | OpBytesMut _ | OpImagesMut _ => True
  | OpSetString i s | OpAddString i s => storable_target i /\ wf_ustr s = true
  | OpSetStrings i s | OpAddStrings i s => storable_target i /\ storable_strings s
  | OpTakeString _ | OpRemoveItem _ | OpTakeAllStrings _ => True
  | OpSetFlag i | OpSetInt16 i _ | OpSetInt32 i _ => storable_target i
  | OpSetArtworks x | OpAddArtworks x => x <> []
  | OpTakeArtworks | OpTakeArtwork | OpSetArtwork _ | OpAddArtwork _ | OpRemoveArtworks => True
  | OpSetMediaType _ | OpRemoveMediaType | OpSetAdvisoryRating _ | OpRemoveAdvisoryRating => True
  | OpSetPair _ _ _ | OpSetPairNumber _ _ | OpSetPairTotal _ _
  | OpRemovePair _ | OpRemovePairNumber _ | OpRemovePairTotal _ => True
  | OpSetStandardGenres c | OpAddStandardGenres c => c <> []
  | OpSetStandardGenre _ | OpAddStandardGenre _ | OpRemoveStandardGenres
  | OpTakeGenres | OpTakeGenre | OpRemoveGenres => True
  | OpSetGenre g | OpAddGenre g => wf_ustr g = true
  | OpSetGenres g => storable_strings g
  end.

(** No value is UTF-16 text (an empty one would do). *)
Definition no_utf16 (l : list atom_data) : Prop :=
  Forall (fun a => Forall (fun d => forall s, d = DUtf16 s -> s = []) (ad_data a)) l.
