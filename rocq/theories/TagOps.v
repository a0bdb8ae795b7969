(** All public operations that change a [Tag], as data, so that sequences of operations can be
    quantified over. *)

From Coq Require Import List NArith ZArith Bool.
From Verif Require Import Base Utf Types TagApi.
Import ListNotations.

(** [data_mut], tag/mod.rs 802-808: the caller may assign to every value. *)
Fixpoint map_from {A} (k : nat) (g : nat -> A -> A) (l : list A) : list A :=
  match l with
  | [] => []
  | x :: r => g k x :: map_from (S k) g r
  end.
(** [g] may treat each value differently (callers may stop iterating or look at indices). *)
Definition mapi {A} (g : nat -> A -> A) (l : list A) : list A := map_from 0 g l.

Definition data_mut (g : data_ident -> nat -> data -> data) (l : atoms) : atoms :=
  map (fun a => AtomData (ad_ident a) (mapi (g (ad_ident a)) (ad_data a))) l.

(** Assigning through [Data::bytes_mut] (data.rs 212-218), [Data::string_mut] (241-247),
    [Data::image_mut] (271-278) on every value that has one. *)
Definition on_bytes (g : bytes -> bytes) (d : data) : data :=
  match d with DReserved v => DReserved (g v) | DBeSigned v => DBeSigned (g v) | _ => d end.
Definition on_string (g : ustring -> ustring) (d : data) : data :=
  match d with DUtf8 s => DUtf8 (g s) | DUtf16 s => DUtf16 (g s) | _ => d end.
Definition on_image (g : bytes -> bytes) (d : data) : data :=
  match d with DJpeg v => DJpeg (g v) | DPng v => DPng (g v) | DBmp v => DBmp (g v) | _ => d end.

(** One constructor per public mutating method (src/tag/mod.rs, tuple.rs, genre.rs and the generated
    accessors); [take_*] methods are the removal they perform.  [i] ranges over what the caller may
    pass as identifier; for the generated accessors any identifier is allowed here, which covers
    those of the tables in tag/mod.rs 128-165. *)
Inductive tag_op : Type :=
| OpSetData (i : ident_arg) (d : data)
| OpSetAllData (i : ident_arg) (d : list data)
| OpAddData (i : ident_arg) (d : data)
| OpAddAllData (i : ident_arg) (d : list data)
| OpRemoveDataOf (i : ident_arg)
| OpTakeDataOf (i : ident_arg)
| OpTakeBytesOf (i : ident_arg)
| OpTakeStringsOf (i : ident_arg)
| OpTakeImagesOf (i : ident_arg)
| OpRemoveBytesOf (i : ident_arg)
| OpRemoveStringsOf (i : ident_arg)
| OpRemoveImagesOf (i : ident_arg)
| OpRetainDataOf (i : ident_arg) (p : data -> bool)
| OpRetainBytesOf (i : ident_arg) (p : bytes -> bool)
| OpRetainStringsOf (i : ident_arg) (p : ustring -> bool)
| OpRetainImagesOf (i : ident_arg) (p : img -> bool)
| OpRetainData (p : data_ident -> data -> bool)
| OpRetainBytes (p : data_ident -> bytes -> bool)
| OpRetainStrings (p : data_ident -> ustring -> bool)
| OpRetainImages (p : data_ident -> img -> bool)
| OpClear
| OpDataMutOf (i : ident_arg) (g : nat -> data -> data)
| OpBytesMutOf (i : ident_arg) (g : nat -> bytes -> bytes)
| OpStringsMutOf (i : ident_arg) (g : nat -> ustring -> ustring)
| OpImagesMutOf (i : ident_arg) (g : nat -> bytes -> bytes)
| OpDataMut (g : data_ident -> nat -> data -> data)
| OpBytesMut (g : data_ident -> nat -> bytes -> bytes)
| OpStringsMut (g : data_ident -> nat -> ustring -> ustring)
| OpImagesMut (g : data_ident -> nat -> bytes -> bytes)
(* generated accessors *)
| OpSetString (i : ident_arg) (s : ustring)
| OpTakeString (i : ident_arg)
| OpRemoveItem (i : ident_arg)
| OpSetStrings (i : ident_arg) (s : list ustring)
| OpAddStrings (i : ident_arg) (s : list ustring)
| OpAddString (i : ident_arg) (s : ustring)
| OpTakeAllStrings (i : ident_arg)
| OpSetFlag (i : ident_arg)
| OpSetInt16 (i : ident_arg) (n : N)
| OpSetInt32 (i : ident_arg) (n : N)
(* artwork *)
| OpTakeArtworks
| OpTakeArtwork
| OpSetArtwork (x : img)
| OpSetArtworks (x : list img)
| OpAddArtwork (x : img)
| OpAddArtworks (x : list img)
| OpRemoveArtworks
(* media type, advisory rating *)
| OpSetMediaType (x : media_type)
| OpRemoveMediaType
| OpSetAdvisoryRating (x : advisory_rating)
| OpRemoveAdvisoryRating
(* track and disc *)
| OpSetPair (disc : bool) (n t : N)
| OpSetPairNumber (disc : bool) (n : N)
| OpSetPairTotal (disc : bool) (t : N)
| OpRemovePair (disc : bool)
| OpRemovePairNumber (disc : bool)
| OpRemovePairTotal (disc : bool)
(* genres *)
| OpSetStandardGenre (c : N)
| OpSetStandardGenres (c : list N)
| OpAddStandardGenre (c : N)
| OpAddStandardGenres (c : list N)
| OpRemoveStandardGenres
| OpTakeGenres
| OpTakeGenre
| OpSetGenre (g : ustring)
| OpSetGenres (g : list ustring)
| OpAddGenre (g : ustring)
| OpRemoveGenres.

Definition pair_ident (disc : bool) : ident_arg :=
  if disc then AFourcc DISC_NUMBER else AFourcc TRACK_NUMBER.

Definition run_op (l : atoms) (o : tag_op) : atoms :=
  match o with
  | OpSetData i d => set_data l i d
  | OpSetAllData i d => set_all_data l i d
  | OpAddData i d => add_data l i d
  | OpAddAllData i d => add_all_data l i d
  | OpRemoveDataOf i => remove_data_of l i
  | OpTakeDataOf i => snd (take_data_of l i)
  | OpTakeBytesOf i => snd (take_bytes_of l i)
  | OpTakeStringsOf i => snd (take_strings_of l i)
  | OpTakeImagesOf i => snd (take_images_of l i)
  | OpRemoveBytesOf i => remove_bytes_of l i
  | OpRemoveStringsOf i => remove_strings_of l i
  | OpRemoveImagesOf i => remove_images_of l i
  | OpRetainDataOf i p => retain_data_of l i p
  | OpRetainBytesOf i p => retain_bytes_of l i p
  | OpRetainStringsOf i p => retain_strings_of l i p
  | OpRetainImagesOf i p => retain_images_of l i p
  | OpRetainData p => retain_data l p
  | OpRetainBytes p => retain_bytes l p
  | OpRetainStrings p => retain_strings l p
  | OpRetainImages p => retain_images l p
  | OpClear => clear l
  | OpDataMutOf i g => data_mut_of (mapi g) l i
  | OpBytesMutOf i g => data_mut_of (mapi (fun k => on_bytes (g k))) l i
  | OpStringsMutOf i g => data_mut_of (mapi (fun k => on_string (g k))) l i
  | OpImagesMutOf i g => data_mut_of (mapi (fun k => on_image (g k))) l i
  | OpDataMut g => data_mut g l
  | OpBytesMut g => data_mut (fun i k => on_bytes (g i k)) l
  | OpStringsMut g => data_mut (fun i k => on_string (g i k)) l
  | OpImagesMut g => data_mut (fun i k => on_image (g i k)) l
  | OpSetString i s => set_string i l s
  | OpTakeString i => snd (take_string i l)
  | OpRemoveItem i => remove_item i l
  | OpSetStrings i s => set_strings i l s
  | OpAddStrings i s => add_strings i l s
  | OpAddString i s => add_string i l s
  | OpTakeAllStrings i => snd (take_all_strings i l)
  | OpSetFlag i => set_flag i l
  | OpSetInt16 i n => set_int 2 i l n
  | OpSetInt32 i n => set_int 4 i l n
  | OpTakeArtworks => snd (take_artworks l)
  | OpTakeArtwork => snd (take_artwork l)
  | OpSetArtwork x => set_artwork l x
  | OpSetArtworks x => set_artworks l x
  | OpAddArtwork x => add_artwork l x
  | OpAddArtworks x => add_artworks l x
  | OpRemoveArtworks => remove_artworks l
  | OpSetMediaType x => set_media_type l x
  | OpRemoveMediaType => remove_media_type l
  | OpSetAdvisoryRating x => set_advisory_rating l x
  | OpRemoveAdvisoryRating => remove_advisory_rating l
  | OpSetPair k n t => set_pair (pair_ident k) l n t
  | OpSetPairNumber k n => set_pair_number (pair_ident k) l n
  | OpSetPairTotal k t => set_pair_total (pair_ident k) l t
  | OpRemovePair k => remove_pair (pair_ident k) l
  | OpRemovePairNumber k => remove_pair_number (pair_ident k) l
  | OpRemovePairTotal k => remove_pair_total (pair_ident k) l
  | OpSetStandardGenre c => set_standard_genre l c
  | OpSetStandardGenres c => set_standard_genres l c
  | OpAddStandardGenre c => add_standard_genre l c
  | OpAddStandardGenres c => add_standard_genres l c
  | OpRemoveStandardGenres => remove_standard_genres l
  | OpTakeGenres => snd (take_genres l)
  | OpTakeGenre => snd (take_genre l)
  | OpSetGenre g => set_genre l g
  | OpSetGenres g => set_genres l g
  | OpAddGenre g => add_genre l g
  | OpRemoveGenres => remove_genres l
  end.

Definition run_ops (l : atoms) (o : list tag_op) : atoms := fold_left run_op o l.
