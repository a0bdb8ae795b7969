(** What calls leave in a file, in bytes: the item list as names, type codes and payloads, what every
    method that takes no function does to it, and the bytes it is written as.  The codes of the items are
    spelt out; no function of [TagApi] and no constant of src/atom/ident.rs is used. *)

From Coq Require Import List NArith Bool String.
From Coq Require Strings.Byte.
From Verif Require Import Base Utf Types TagOps TagSpec FileSpec.
Import ListNotations.
Local Open Scope list_scope.

(** * The item list as bytes *)

(** A value: its type code and its bytes; an item: its name and its values. *)
Definition value : Type := N * bytes.
Definition entry : Type := data_ident * list value.
Definition wire : Type := list entry.

Definition seen_value (d : data) : value := (type_code d, payload d).
Definition seen (l : list atom_data) : wire := map (fun a => (ad_ident a, map seen_value (ad_data a))) l.

(** An atom with a 32-bit size. *)
Definition boxed (id content : bytes) : bytes := be 4 (8 + blen content) ++ id ++ content.
Definition ascii (s : string) : bytes := list_byte_of_string s.
(** Version 0, a type code of three bytes, no locale, the payload. *)
Definition value_bytes (v : value) : bytes :=
  boxed (ascii "data") (be 1 0 ++ be 3 (fst v) ++ be 4 0 ++ snd v).
Definition entry_bytes (e : entry) : bytes :=
  match fst e with
  | IFourcc (FourCC a b c d) => boxed [a; b; c; d] (flat_map value_bytes (snd e))
  | IFreeform mean name =>
    boxed (ascii "----")
      (boxed (ascii "mean") (be 4 0 ++ enc8 mean) ++ boxed (ascii "name") (be 4 0 ++ enc8 name) ++
       flat_map value_bytes (snd e))
  end.

(** * Changes *)

(** The item [k] gets the values [g old]; a missing one is added at the end. *)
Inductive put (k : data_ident) (g : list value -> list value) : wire -> wire -> Prop :=
| Put_there a old b : ~ In k (map fst a) -> put k g (a ++ (k, old) :: b) (a ++ (k, g old) :: b)
| Put_new w : ~ In k (map fst w) -> put k g w (w ++ [(k, g [])]).

(** The item [k] keeps the values satisfying [keep]; without values it is dropped. *)
Inductive cut (k : data_ident) (keep : value -> bool) : wire -> wire -> Prop :=
| Cut_absent w : ~ In k (map fst w) -> cut k keep w w
| Cut_some a old b : ~ In k (map fst a) -> filter keep old <> [] ->
    cut k keep (a ++ (k, old) :: b) (a ++ (k, filter keep old) :: b)
| Cut_all a old b : ~ In k (map fst a) -> filter keep old = [] -> cut k keep (a ++ (k, old) :: b) (a ++ b).
Definition drop (k : data_ident) : wire -> wire -> Prop := cut k (fun _ => false).

(** The type codes of byte strings, text and images. *)
Definition number (v : value) : bool := (fst v =? 0) || (fst v =? 21).
Definition textual (v : value) : bool := (fst v =? 1) || (fst v =? 2).
Definition image (v : value) : bool := (fst v =? 13) || (fst v =? 14) || (fst v =? 27).

(** The first byte string of the item [k] is changed by [g], its type code stays; [none] if there is
    no such value. *)
Inductive first_number (k : data_ident) (g : bytes -> bytes) (none : wire -> wire -> Prop) : wire -> wire -> Prop :=
| First_there a x c v y b : ~ In k (map fst a) -> Forall (fun u => number u = false) x -> number (c, v) = true ->
    first_number k g none (a ++ (k, x ++ (c, v) :: y) :: b) (a ++ (k, x ++ (c, g v) :: y) :: b)
| First_other a old b w' : ~ In k (map fst a) -> Forall (fun u => number u = false) old ->
    none (a ++ (k, old) :: b) w' -> first_number k g none (a ++ (k, old) :: b) w'
| First_absent w w' : ~ In k (map fst w) -> none w w' -> first_number k g none w w'.

(** The layout of the track and disc items: two bytes, the number, the total; what follows is kept,
    what is missing before is filled up with zeros. *)
Definition with_number (n : N) (v : bytes) : bytes := firstn 2 (v ++ be 2 0) ++ be 2 n ++ skipn 4 v.
Definition with_total (t : N) (v : bytes) : bytes := firstn 4 (v ++ be 4 0) ++ be 2 t ++ skipn 6 v.
Definition with_both (n t : N) (v : bytes) : bytes := firstn 2 (v ++ be 2 0) ++ be 2 n ++ be 2 t ++ skipn 6 v.

(** The codes of the items that have methods of their own. *)
Definition coded (s : string) : data_ident := IFourcc (id4 s).
Definition covr := coded "covr".
Definition stik := coded "stik".
Definition rtng := coded "rtng".
Definition gnre := coded "gnre".
(** The copyright sign, then gen. *)
Definition cgen := IFourcc (FourCC Byte.xa9 Byte.x67 Byte.x65 Byte.x6e).
Definition pair_code (disc : bool) : data_ident := if disc then coded "disk" else coded "trkn".

Definition text (s : ustring) : value := (1, enc8 s).
Definition picture (x : img) : value :=
  match x with Img FJpeg b => (13, b) | Img FPng b => (14, b) | Img FBmp b => (27, b) end.
Definition media (x : media_type) : N :=
  match x with
  | MTMovie => 0 | MTNormal => 1 | MTAudioBook => 2 | MTWhackedBookmark => 5
  | MTMusicVideo => 6 | MTShortFilm => 9 | MTTvShow => 10 | MTBooklet => 11
  end.
Definition rating (x : advisory_rating) : N := match x with RInoffensive => 0 | RClean => 2 | RExplicit => 4 end.
Definition genre_code (c : N) : value := (0, be 2 c).

(** The first genre code of the item gnre is that of a standard genre. *)
Definition standard_first (w : wire) : Prop :=
  exists a x c p q more y b, w = a ++ (gnre, x ++ (c, p :: q :: more) :: y) :: b /\ ~ In gnre (map fst a) /\
    Forall (fun u => number u = true -> (blen (snd u) < 2)%N) x /\ number (c, [] : bytes) = true /\
    1 <= 256 * b2n p + b2n q <= 80.

Definition followed (p q : wire -> wire -> Prop) (w w' : wire) : Prop := exists u, p w u /\ q u w'.

(** What a call does.  Methods that take a function are left out. *)
Definition effect (o : tag_op) : wire -> wire -> Prop :=
  let set k vs := put k (fun _ => vs) in
  let add k vs := put k (fun old => old ++ vs) in
  match o with
  | OpSetData i d => set (named i) [seen_value d]
  | OpSetAllData i d => set (named i) (map seen_value d)
  | OpAddData i d => add (named i) [seen_value d]
  | OpAddAllData i d => add (named i) (map seen_value d)
  | OpRemoveDataOf i | OpTakeDataOf i | OpTakeBytesOf i | OpTakeStringsOf i | OpTakeImagesOf i => drop (named i)
  | OpRemoveBytesOf i => cut (named i) (fun v => negb (number v))
  | OpRemoveStringsOf i => cut (named i) (fun v => negb (textual v))
  | OpRemoveImagesOf i => cut (named i) (fun v => negb (image v))
  | OpClear => fun _ w' => w' = []
  | OpSetString i s => set (named i) [text s]
  | OpSetStrings i s => set (named i) (map text s)
  | OpAddString i s => add (named i) [text s]
  | OpAddStrings i s => add (named i) (map text s)
  | OpTakeString i | OpTakeAllStrings i | OpRemoveItem i => drop (named i)
  | OpSetFlag i => set (named i) [(21, be 1 1)]
  | OpSetInt16 i n => set (named i) [(21, be 2 n)]
  | OpSetInt32 i n => set (named i) [(21, be 4 n)]
  | OpSetArtwork x => set covr [picture x]
  | OpSetArtworks x => set covr (map picture x)
  | OpAddArtwork x => add covr [picture x]
  | OpAddArtworks x => add covr (map picture x)
  | OpTakeArtworks | OpTakeArtwork | OpRemoveArtworks => drop covr
  | OpSetMediaType x => set stik [(0, be 1 (media x))]
  | OpRemoveMediaType => drop stik
  | OpSetAdvisoryRating x => set rtng [(0, be 1 (rating x))]
  | OpRemoveAdvisoryRating => drop rtng
  | OpSetPair k n t => first_number (pair_code k) (with_both n t) (set (pair_code k) [(0, be 2 0 ++ be 2 n ++ be 2 t)])
  | OpSetPairNumber k n => first_number (pair_code k) (with_number n) (set (pair_code k) [(0, be 2 0 ++ be 2 n ++ be 2 0)])
  | OpSetPairTotal k t => first_number (pair_code k) (with_total t) (set (pair_code k) [(0, be 2 0 ++ be 2 0 ++ be 2 t)])
  | OpRemovePair k => drop (pair_code k)
  | OpRemovePairNumber k => first_number (pair_code k) (with_number 0) (drop (pair_code k))
  | OpRemovePairTotal k => first_number (pair_code k) (with_total 0) (drop (pair_code k))
  | OpSetStandardGenre c => set gnre [genre_code c]
  | OpSetStandardGenres c => set gnre (map genre_code c)
  | OpAddStandardGenre c => add gnre [genre_code c]
  | OpAddStandardGenres c => add gnre (map genre_code c)
  | OpRemoveStandardGenres => drop gnre
  | OpTakeGenres => drop cgen
  | OpTakeGenre => fun w w' => standard_first w /\ w' = w \/ ~ standard_first w /\ drop cgen w w'
  | OpSetGenre g => followed (set cgen [text g]) (drop gnre)
  | OpSetGenres g => followed (set cgen (map text g)) (drop gnre)
  | OpAddGenre g => add cgen [text g]
  | OpRemoveGenres => followed (drop gnre) (drop cgen)
  | _ => fun _ _ => False
  end.

(** The methods [effect] says something about. *)
Definition plain (o : tag_op) : Prop :=
  match o with
  | OpRetainDataOf _ _ | OpRetainBytesOf _ _ | OpRetainStringsOf _ _ | OpRetainImagesOf _ _
  | OpRetainData _ | OpRetainBytes _ | OpRetainStrings _ | OpRetainImages _
  | OpDataMutOf _ _ | OpBytesMutOf _ _ | OpStringsMutOf _ _ | OpImagesMutOf _ _
  | OpDataMut _ | OpBytesMut _ | OpStringsMut _ | OpImagesMut _ => False
  | _ => True
  end.

(** A sequence of calls. *)
Fixpoint effects (ops : list tag_op) (w w' : wire) : Prop :=
  match ops with
  | [] => w' = w
  | o :: r => exists u, effect o w u /\ effects r u w'
  end.

(** * The item list of a file *)

(** The file has one item list, and these are its bytes. *)
Definition only_kid (id : string) (l : list atom) (a : atom) : Prop := named_kids (id4 id) l = [a].
Definition item_list (g : list atom) (content : bytes) : Prop :=
  exists mv ud me il, only_kid "moov" g mv /\ only_kid "udta" (a_kids mv) ud /\ only_kid "meta" (a_kids ud) me /\
    only_kid "ilst" (a_kids me) il /\ a_content il = content.

(** * Reading *)

(** The values of an item. *)
Fixpoint stored (w : wire) (k : data_ident) : list value :=
  match w with
  | [] => []
  | e :: r => if ident_dec (fst e) k then snd e else stored r k
  end.
(** The text of a value: UTF-8 or, with type code 2, big-endian UTF-16. *)
Definition reads_text (v : value) (s : ustring) : Prop := v = (1, enc8 s) \/ v = (2, flat_map (be 2) (enc16 s)).
(** The first byte string of an item. *)
Definition bytes_at (w : wire) (k : data_ident) : option bytes := option_map snd (hd_error (filter number (stored w k))).
(** Two bytes at position [k], unless they are missing or zero. *)
Definition field (k : nat) (v : bytes) : option N :=
  match skipn k v with
  | a :: b :: _ => if 256 * b2n a + b2n b =? 0 then None else Some (256 * b2n a + b2n b)
  | _ => None
  end.
(** A byte string of at least two bytes is a genre code. *)
Definition code_of (v : value) : list N :=
  match snd v with a :: b :: _ => [256 * b2n a + b2n b] | _ => [] end.
