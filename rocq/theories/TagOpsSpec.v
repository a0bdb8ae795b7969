(** Specification of the operations: their effect on the ordered map and the items they touch. *)

From Coq Require Import List NArith ZArith Bool String.
From Coq Require Strings.Byte.
From Verif Require Import Base Utf Types TagApi TagOps TagSpec.
Import ListNotations.
Local Open Scope list_scope.

(** The byte string of a value, if it holds one. *)
Definition byte_value (d : data) : option bytes :=
  match d with DReserved b | DBeSigned b => Some b | _ => None end.

(** Every value changed, in a way that may depend on its index. *)
Definition each {A} (g : nat -> A -> A) (l : list A) : list A := map (fun x => g (fst x) (snd x)) (combine (seq 0 (List.length l)) l).

(** The first byte string among the values. *)
Fixpoint first_byte_value (d : list data) : option bytes :=
  match d with
  | [] => None
  | x :: r => match byte_value x with Some b => Some b | None => first_byte_value r end
  end.

(** The values with the first byte string changed; its type and all other values stay. *)
Fixpoint change_byte_value (g : bytes -> bytes) (d : list data) : list data :=
  match d with
  | [] => []
  | DReserved b :: r => DReserved (g b) :: r
  | DBeSigned b :: r => DBeSigned (g b) :: r
  | x :: r => x :: change_byte_value g r
  end.

(** [b] with [n] written in two bytes at position [k], filled up with zeros if too short. *)
Definition poke (k : nat) (n : N) (b : bytes) : bytes :=
  firstn k (b ++ repeat Byte.x00 (k - List.length b)) ++ be 2 n ++ skipn (k + 2) b.

(** Two numbers in the layout of the track and disc items. *)
Definition pair_bytes (n t : N) : bytes := [Byte.x00; Byte.x00] ++ be 2 n ++ be 2 t.

(** Change the first byte string of an item, or do [e] if there is none. *)
Definition view_pair (v : view) (j : data_ident) (g : bytes -> bytes) (e : view) : view :=
  match first_byte_value (vw_values v j) with
  | Some _ => view_change v j (change_byte_value g)
  | None => e
  end.

Definition pair_item (disc : bool) : data_ident := IFourcc (if disc then DISC_NUMBER else TRACK_NUMBER).

(** The stored codes. *)
Definition media_byte (x : media_type) : byte :=
  match x with
  | MTMovie => Byte.x00 | MTNormal => Byte.x01 | MTAudioBook => Byte.x02 | MTWhackedBookmark => Byte.x05
  | MTMusicVideo => Byte.x06 | MTShortFilm => Byte.x09 | MTTvShow => Byte.x0a | MTBooklet => Byte.x0b
  end.
Definition rating_byte (x : advisory_rating) : byte :=
  match x with RInoffensive => Byte.x00 | RClean => Byte.x02 | RExplicit => Byte.x04 end.
Definition image_value (x : img) : data :=
  match x with Img FJpeg b => DJpeg b | Img FPng b => DPng b | Img FBmp b => DBmp b end.

(** The codes of the standard genre item: every byte string of at least two bytes is one. *)
Fixpoint genre_codes (d : list data) : list N :=
  match d with
  | [] => []
  | x :: r => match byte_value x with
              | Some (a :: b :: _) => 256 * b2n a + b2n b :: genre_codes r
              | _ => genre_codes r
              end
  end.

(** What every operation does to the ordered map. *)
Definition view_op (o : tag_op) (v : view) : view :=
  let set i d := view_set v i d in
  let add i d := view_set v i (vw_values v i ++ d) in
  let delete i := view_delete v i in
  match o with
  | OpSetData i d => set (named i) [d]
  | OpSetAllData i d => set (named i) d
  | OpAddData i d => add (named i) [d]
  | OpAddAllData i d => add (named i) d
  | OpRemoveDataOf i | OpTakeDataOf i | OpTakeBytesOf i | OpTakeStringsOf i | OpTakeImagesOf i
    => delete (named i)
  | OpRemoveBytesOf i =>
    view_retain v (named i) (fun d => match d with DReserved _ | DBeSigned _ => false | _ => true end)
  | OpRemoveStringsOf i =>
    view_retain v (named i) (fun d => match d with DUtf8 _ | DUtf16 _ => false | _ => true end)
  | OpRemoveImagesOf i =>
    view_retain v (named i) (fun d => match d with DJpeg _ | DPng _ | DBmp _ => false | _ => true end)
  | OpRetainDataOf i p => view_retain v (named i) p
  | OpRetainBytesOf i p =>
    view_retain v (named i) (fun d => match d with DReserved b | DBeSigned b => p b | _ => true end)
  | OpRetainStringsOf i p =>
    view_retain v (named i) (fun d => match d with DUtf8 s | DUtf16 s => p s | _ => true end)
  | OpRetainImagesOf i p =>
    view_retain v (named i)
      (fun d => match d with DJpeg b => p (Img FJpeg b) | DPng b => p (Img FPng b)
                        | DBmp b => p (Img FBmp b) | _ => true end)
  | OpRetainData p => view_retain_all v p
  | OpRetainBytes p =>
    view_retain_all v (fun j d => match d with DReserved b | DBeSigned b => p j b | _ => true end)
  | OpRetainStrings p =>
    view_retain_all v (fun j d => match d with DUtf8 s | DUtf16 s => p j s | _ => true end)
  | OpRetainImages p =>
    view_retain_all v
      (fun j d => match d with DJpeg b => p j (Img FJpeg b) | DPng b => p j (Img FPng b)
                          | DBmp b => p j (Img FBmp b) | _ => true end)
  | OpClear => View [] (fun _ => [])
  | OpDataMutOf i g => view_change v (named i) (each g)
  | OpBytesMutOf i g =>
    view_change v (named i)
      (each (fun k d => match d with DReserved b => DReserved (g k b) | DBeSigned b => DBeSigned (g k b)
                                | _ => d end))
  | OpStringsMutOf i g =>
    view_change v (named i)
      (each (fun k d => match d with DUtf8 s => DUtf8 (g k s) | DUtf16 s => DUtf16 (g k s) | _ => d end))
  | OpImagesMutOf i g =>
    view_change v (named i)
      (each (fun k d => match d with DJpeg b => DJpeg (g k b) | DPng b => DPng (g k b)
                                | DBmp b => DBmp (g k b) | _ => d end))
  | OpDataMut g => view_change_all v (fun j => each (g j))
  | OpBytesMut g =>
    view_change_all v
      (fun j => each (fun k d => match d with DReserved b => DReserved (g j k b)
                                          | DBeSigned b => DBeSigned (g j k b) | _ => d end))
  | OpStringsMut g =>
    view_change_all v
      (fun j => each (fun k d => match d with DUtf8 s => DUtf8 (g j k s) | DUtf16 s => DUtf16 (g j k s)
                                          | _ => d end))
  | OpImagesMut g =>
    view_change_all v
      (fun j => each (fun k d => match d with DJpeg b => DJpeg (g j k b) | DPng b => DPng (g j k b)
                                          | DBmp b => DBmp (g j k b) | _ => d end))
  (* strings are stored as UTF-8, flags and integers as big-endian signed, all else as reserved *)
  | OpSetString i s => set (named i) [DUtf8 s]
  | OpSetStrings i s => set (named i) (map DUtf8 s)
  | OpAddString i s => add (named i) [DUtf8 s]
  | OpAddStrings i s => add (named i) (map DUtf8 s)
  | OpTakeString i | OpTakeAllStrings i | OpRemoveItem i => delete (named i)
  | OpSetFlag i => set (named i) [DBeSigned [Byte.x01]]
  | OpSetInt16 i n => set (named i) [DBeSigned (be 2 n)]
  | OpSetInt32 i n => set (named i) [DBeSigned (be 4 n)]
  | OpSetArtwork x => set (IFourcc ARTWORK) [image_value x]
  | OpSetArtworks x => set (IFourcc ARTWORK) (map image_value x)
  | OpAddArtwork x => add (IFourcc ARTWORK) [image_value x]
  | OpAddArtworks x => add (IFourcc ARTWORK) (map image_value x)
  | OpTakeArtworks | OpTakeArtwork | OpRemoveArtworks => delete (IFourcc ARTWORK)
  | OpSetMediaType x => set (IFourcc MEDIA_TYPE) [DReserved [media_byte x]]
  | OpRemoveMediaType => delete (IFourcc MEDIA_TYPE)
  | OpSetAdvisoryRating x => set (IFourcc ADVISORY_RATING) [DReserved [rating_byte x]]
  | OpRemoveAdvisoryRating => delete (IFourcc ADVISORY_RATING)
  | OpSetPair k n t =>
    view_pair v (pair_item k) (fun b => poke 2 n (poke 4 t b)) (set (pair_item k) [DReserved (pair_bytes n t)])
  | OpSetPairNumber k n =>
    view_pair v (pair_item k) (poke 2 n) (set (pair_item k) [DReserved (pair_bytes n 0)])
  | OpSetPairTotal k t =>
    view_pair v (pair_item k) (poke 4 t) (set (pair_item k) [DReserved (pair_bytes 0 t)])
  | OpRemovePair k => delete (pair_item k)
  | OpRemovePairNumber k => view_pair v (pair_item k) (poke 2 0) (delete (pair_item k))
  | OpRemovePairTotal k => view_pair v (pair_item k) (poke 4 0) (delete (pair_item k))
  | OpSetStandardGenre c => set (IFourcc STANDARD_GENRE) [DReserved (be 2 c)]
  | OpSetStandardGenres c => set (IFourcc STANDARD_GENRE) (map (fun x => DReserved (be 2 x)) c)
  | OpAddStandardGenre c => add (IFourcc STANDARD_GENRE) [DReserved (be 2 c)]
  | OpAddStandardGenres c => add (IFourcc STANDARD_GENRE) (map (fun x => DReserved (be 2 x)) c)
  | OpRemoveStandardGenres => delete (IFourcc STANDARD_GENRE)
  | OpTakeGenres => delete (IFourcc CUSTOM_GENRE)
  | OpTakeGenre =>
    (* nothing is removed if the first code is one of the 80 standard genres *)
    match genre_codes (vw_values v (IFourcc STANDARD_GENRE)) with
    | c :: _ => if (1 <=? c) && (c <=? 80) then v else delete (IFourcc CUSTOM_GENRE)
    | [] => delete (IFourcc CUSTOM_GENRE)
    end
  | OpSetGenre g => view_delete (set (IFourcc CUSTOM_GENRE) [DUtf8 g]) (IFourcc STANDARD_GENRE)
  | OpSetGenres g => view_delete (set (IFourcc CUSTOM_GENRE) (map DUtf8 g)) (IFourcc STANDARD_GENRE)
  | OpAddGenre g => add (IFourcc CUSTOM_GENRE) [DUtf8 g]
  | OpRemoveGenres => view_delete (delete (IFourcc STANDARD_GENRE)) (IFourcc CUSTOM_GENRE)
  end.

(** A sequence of operations on the ordered map. *)
Definition view_ops (o : list tag_op) (v : view) : view := fold_left (fun v o => view_op o v) o v.

(** The names of the standard genres (UTF-8), codes 1 to 80, spelt as in the table of src/tag/genre.rs. *)
Definition genre_names : list string :=
  (["Blues"; "Classic rock"; "Country"; "Dance"; "Disco"; "Funk"; "Grunge"; "Hip,-Hop"; "Jazz";
   "Metal"; "New Age"; "Oldies"; "Other"; "Pop"; "Rhythm and Blues"; "Rap"; "Reggae"; "Rock";
   "Techno"; "Industrial"; "Alternative"; "Ska"; "Death metal"; "Pranks"; "Soundtrack";
   "Euro-Techno"; "Ambient"; "Trip-Hop"; "Vocal"; "Jazz & Funk"; "Fusion"; "Trance"; "Classical";
   "Instrumental"; "Acid"; "House"; "Game"; "Sound clip"; "Gospel"; "Noise"; "Alternative Rock";
   "Bass"; "Soul"; "Punk"; "Space"; "Meditative"; "Instrumental Pop"; "Instrumental Rock"; "Ethnic";
   "Gothic"; "Darkwave"; "Techno-Industrial"; "Electronic"; "Pop-Folk"; "Eurodance"; "Dream";
   "Southern Rock"; "Comedy"; "Cult"; "Gangsta"; "Top 41"; "Christian Rap"; "Pop/Funk"; "Jungle";
   "Native US"; "Cabaret"; "New Wave"; "Psychedelic"; "Rave"; "Show tunes"; "Trailer"; "Lo,-Fi";
   "Tribal"; "Acid Punk"; "Acid Jazz"; "Polka"; "Retro"; "Musical"; "Rock ’n’ Roll"; "Hard Rock"])%string.

(** The genre texts of a tag: the names of the known codes, then the custom genres. *)
Definition genre_name_bytes (c : N) : option bytes :=
  if c =? 0 then None
  else match nth_error genre_names (N.to_nat (c - 1)) with Some s => Some (list_byte_of_string s) | None => None end.

(** The items an operation may touch; [None]: all. *)
Definition op_targets (o : tag_op) : option (list data_ident) :=
  match o with
  | OpSetData i _ | OpSetAllData i _ | OpAddData i _ | OpAddAllData i _ | OpRemoveDataOf i | OpTakeDataOf i
  | OpTakeBytesOf i | OpTakeStringsOf i | OpTakeImagesOf i | OpRemoveBytesOf i | OpRemoveStringsOf i
  | OpRemoveImagesOf i | OpRetainDataOf i _ | OpRetainBytesOf i _ | OpRetainStringsOf i _ | OpRetainImagesOf i _
  | OpDataMutOf i _ | OpBytesMutOf i _ | OpStringsMutOf i _ | OpImagesMutOf i _
  | OpSetString i _ | OpTakeString i | OpRemoveItem i | OpSetStrings i _ | OpAddStrings i _ | OpAddString i _
  | OpTakeAllStrings i | OpSetFlag i | OpSetInt16 i _ | OpSetInt32 i _ => Some [named i]
  | OpTakeArtworks | OpTakeArtwork | OpSetArtwork _ | OpSetArtworks _ | OpAddArtwork _ | OpAddArtworks _
  | OpRemoveArtworks => Some [IFourcc ARTWORK]
  | OpSetMediaType _ | OpRemoveMediaType => Some [IFourcc MEDIA_TYPE]
  | OpSetAdvisoryRating _ | OpRemoveAdvisoryRating => Some [IFourcc ADVISORY_RATING]
  | OpSetPair k _ _ | OpSetPairNumber k _ | OpSetPairTotal k _ | OpRemovePair k | OpRemovePairNumber k
  | OpRemovePairTotal k => Some [IFourcc (if k then DISC_NUMBER else TRACK_NUMBER)]
  | OpSetStandardGenre _ | OpSetStandardGenres _ | OpAddStandardGenre _ | OpAddStandardGenres _
  | OpRemoveStandardGenres => Some [IFourcc STANDARD_GENRE]
  | OpTakeGenres | OpTakeGenre | OpAddGenre _ => Some [IFourcc CUSTOM_GENRE]
  | OpSetGenre _ | OpSetGenres _ | OpRemoveGenres => Some [IFourcc CUSTOM_GENRE; IFourcc STANDARD_GENRE]
  | OpRetainData _ | OpRetainBytes _ | OpRetainStrings _ | OpRetainImages _ | OpClear
  | OpDataMut _ | OpBytesMut _ | OpStringsMut _ | OpImagesMut _ => None
  end.

