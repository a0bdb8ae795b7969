(** The public methods of [Tag] that inspect and change items: src/tag/mod.rs, src/tag/tuple.rs,
    src/tag/genre.rs and the accessors generated by proc/src/lib.rs.

    Methods taking [&mut self] are functions from tag to tag (and result).  Iterators are lists. *)

From Coq Require Import List NArith ZArith Bool.
From Verif Require Import Base Utf Types.
Import ListNotations.

Definition atoms := list atom_data.

(** * Data accessors, src/tag/mod.rs 313-1359 *)

(** [data_of], mod.rs 497-502. *)
Fixpoint data_of (l : atoms) (i : ident_arg) : list data :=
  match l with
  | [] => []
  | a :: r => if arg_eqb i (ad_ident a) then ad_data a else data_of r i
  end.

Fixpoint filter_map {A B} (g : A -> option B) (l : list A) : list B :=
  match l with
  | [] => []
  | x :: r => match g x with Some y => y :: filter_map g r | None => filter_map g r end
  end.

(** [Iterator::next] on a fresh iterator. *)
Definition first {A} (l : list A) : option A := match l with [] => None | x :: _ => Some x end.

(** [bytes_of] mod.rs 328-330, [strings_of] 384-386, [images_of] 441-443. *)
Definition bytes_of (l : atoms) (i : ident_arg) : list bytes := filter_map data_bytes (data_of l i).
Definition strings_of (l : atoms) (i : ident_arg) : list ustring := filter_map data_string (data_of l i).
Definition images_of (l : atoms) (i : ident_arg) : list img := filter_map data_image (data_of l i).

(** [data_mut_of], mod.rs 518-523: the caller may replace each value; [g] is what it does. *)
Fixpoint data_mut_of (g : list data -> list data) (l : atoms) (i : ident_arg) : atoms :=
  match l with
  | [] => []
  | a :: r => if arg_eqb i (ad_ident a) then AtomData (ad_ident a) (g (ad_data a)) :: r
              else a :: data_mut_of g r i
  end.

(** [take_data_of], mod.rs 538-550: the loop removes the first matching atom. *)
Fixpoint take_data_of (l : atoms) (i : ident_arg) : list data * atoms :=
  match l with
  | [] => ([], [])
  | a :: r => if arg_eqb i (ad_ident a) then (ad_data a, r)
              else let (d, r') := take_data_of r i in (d, a :: r')
  end.

(** [take_bytes_of] mod.rs 365-370, [take_strings_of] 421-426, [take_images_of] 481-483. *)
Definition take_bytes_of (l : atoms) (i : ident_arg) : list bytes * atoms :=
  let (d, r) := take_data_of l i in (filter_map data_bytes d, r).
Definition take_strings_of (l : atoms) (i : ident_arg) : list ustring * atoms :=
  let (d, r) := take_data_of l i in (filter_map data_string d, r).
Definition take_images_of (l : atoms) (i : ident_arg) : list img * atoms :=
  let (d, r) := take_data_of l i in (filter_map data_image d, r).

(** [data], mod.rs 779-781 (and [data_mut] 802-808, [take_data] 827-833, which enumerate the same
    values by mutable reference and by value). *)
Definition all_data (l : atoms) : list (data_ident * data) :=
  flat_map (fun a => map (fun d => (ad_ident a, d)) (ad_data a)) l.
Definition take_data (l : atoms) : list (data_ident * data) :=
  flat_map (fun a => let ident := ad_ident a in let ds := ad_data a in map (fun d => (ident, d)) ds) l.

Definition with_ident {B} (g : data -> option B) (x : data_ident * data) : option (data_ident * B) :=
  match g (snd x) with Some y => Some (fst x, y) | None => None end.

(** [bytes] mod.rs 571-573, [strings] 640-642, [images] 709-711. *)
Definition all_bytes (l : atoms) := filter_map (with_ident data_bytes) (all_data l).
Definition all_strings (l : atoms) := filter_map (with_ident data_string) (all_data l).
Definition all_images (l : atoms) := filter_map (with_ident data_image) (all_data l).
(** [take_bytes] mod.rs 617-619, [take_strings] 686-688, [take_images] 755-757. *)
Definition take_bytes (l : atoms) := filter_map (with_ident data_bytes) (take_data l).
Definition take_strings (l : atoms) := filter_map (with_ident data_string) (take_data l).
Definition take_images (l : atoms) := filter_map (with_ident data_image) (take_data l).

(** [remove_data_of], mod.rs 936-938: [Vec::retain]. *)
Definition remove_data_of (l : atoms) (i : ident_arg) : atoms :=
  filter (fun a => negb (arg_eqb i (ad_ident a))) l.

(** [retain_data_of], mod.rs 1052-1061. *)
Fixpoint retain_data_of (l : atoms) (i : ident_arg) (p : data -> bool) : atoms :=
  match l with
  | [] => []
  | a :: r =>
    if arg_eqb i (ad_ident a) then
      match filter p (ad_data a) with
      | [] => r
      | d => AtomData (ad_ident a) d :: r
      end
    else a :: retain_data_of r i p
  end.

Definition map_or_true {A} (o : option A) (p : A -> bool) : bool :=
  match o with Some x => p x | None => true end.

(** [retain_bytes_of] mod.rs 965-967, [retain_strings_of] 994-996, [retain_images_of] 1023-1025. *)
Definition retain_bytes_of (l : atoms) (i : ident_arg) (p : bytes -> bool) : atoms :=
  retain_data_of l i (fun d => map_or_true (data_bytes d) p).
Definition retain_strings_of (l : atoms) (i : ident_arg) (p : ustring -> bool) : atoms :=
  retain_data_of l i (fun d => map_or_true (data_string d) p).
Definition retain_images_of (l : atoms) (i : ident_arg) (p : img -> bool) : atoms :=
  retain_data_of l i (fun d => map_or_true (data_image d) p).

(** [remove_bytes_of] mod.rs 860-862, [remove_strings_of] 889-891, [remove_images_of] 918-920. *)
Definition remove_bytes_of (l : atoms) (i : ident_arg) : atoms :=
  retain_data_of l i (fun d => negb (data_is_bytes d)).
Definition remove_strings_of (l : atoms) (i : ident_arg) : atoms :=
  retain_data_of l i (fun d => negb (data_is_string d)).
Definition remove_images_of (l : atoms) (i : ident_arg) : atoms :=
  retain_data_of l i (fun d => negb (data_is_image d)).

(** [Vec::remove]: index [i] must be in range (otherwise the list is unchanged here; the loops
    below only use valid indices). *)
Fixpoint vec_remove {A} (l : list A) (i : nat) : list A :=
  match l, i with
  | [], _ => []
  | _ :: r, O => r
  | x :: r, S i' => x :: vec_remove r i'
  end.

Fixpoint vec_set {A} (l : list A) (i : nat) (v : A) : list A :=
  match l, i with
  | [], _ => []
  | _ :: r, O => v :: r
  | x :: r, S i' => x :: vec_set r i' v
  end.

(** Inner loop of [retain_data], mod.rs 1188-1195:
    [while j < len { if predicate { j += 1 } else { remove(j) } }]; each iteration decreases
    [len - j], so [length data] iterations suffice. *)
Fixpoint retain_inner (fuel : nat) (p : data -> bool) (d : list data) (j : nat) : list data :=
  match fuel with
  | O => d
  | S fuel' =>
    match nth_error d j with
    | None => d
    | Some x => if p x then retain_inner fuel' p d (S j) else retain_inner fuel' p (vec_remove d j) j
    end
  end.

(** Outer loop of [retain_data], mod.rs 1184-1203. *)
Fixpoint retain_outer (fuel : nat) (p : data_ident -> data -> bool) (l : atoms) (i : nat) : atoms :=
  match fuel with
  | O => l
  | S fuel' =>
    match nth_error l i with
    | None => l
    | Some a =>
      match retain_inner (length (ad_data a)) (p (ad_ident a)) (ad_data a) 0 with
      | [] => retain_outer fuel' p (vec_remove l i) i
      | d => retain_outer fuel' p (vec_set l i (AtomData (ad_ident a) d)) (S i)
      end
    end
  end.

Definition retain_data (l : atoms) (p : data_ident -> data -> bool) : atoms :=
  retain_outer (length l) p l 0.

(** [retain_bytes] mod.rs 1091-1093, [retain_strings] 1123-1125, [retain_images] 1155-1157. *)
Definition retain_bytes (l : atoms) (p : data_ident -> bytes -> bool) : atoms :=
  retain_data l (fun i d => map_or_true (data_bytes d) (p i)).
Definition retain_strings (l : atoms) (p : data_ident -> ustring -> bool) : atoms :=
  retain_data l (fun i d => map_or_true (data_string d) (p i)).
Definition retain_images (l : atoms) (p : data_ident -> img -> bool) : atoms :=
  retain_data l (fun i d => map_or_true (data_image d) (p i)).

(** [clear], mod.rs 1219-1221. *)
Definition clear (l : atoms) : atoms := [].

(** [set_all_data], mod.rs 1267-1281. *)
Fixpoint set_all_data (l : atoms) (i : ident_arg) (d : list data) : atoms :=
  match l with
  | [] => [AtomData (arg_into i) d]
  | a :: r => if arg_eqb i (ad_ident a) then AtomData (ad_ident a) d :: r
              else a :: set_all_data r i d
  end.

(** [set_data], mod.rs 1236-1244. *)
Fixpoint set_data (l : atoms) (i : ident_arg) (d : data) : atoms :=
  match l with
  | [] => [AtomData (arg_into i) [d]]
  | a :: r => if arg_eqb i (ad_ident a) then AtomData (ad_ident a) [d] :: r
              else a :: set_data r i d
  end.

(** [add_all_data], mod.rs 1329-1338. *)
Fixpoint add_all_data (l : atoms) (i : ident_arg) (d : list data) : atoms :=
  match l with
  | [] => [AtomData (arg_into i) d]
  | a :: r => if arg_eqb i (ad_ident a) then AtomData (ad_ident a) (ad_data a ++ d) :: r
              else a :: add_all_data r i d
  end.

(** [add_data], mod.rs 1301-1306. *)
Fixpoint add_data (l : atoms) (i : ident_arg) (d : data) : atoms :=
  match l with
  | [] => [AtomData (arg_into i) [d]]
  | a :: r => if arg_eqb i (ad_ident a) then AtomData (ad_ident a) (ad_data a ++ [d]) :: r
              else a :: add_data r i d
  end.

(** [is_empty], mod.rs 1356-1358. *)
Definition is_empty (l : atoms) : bool := match l with [] => true | _ => false end.

(** * Generated accessors, proc/src/lib.rs *)

(** single_string_value_accessor, proc/src/lib.rs 50-67. *)
Definition get_string (i : ident_arg) (l : atoms) : option ustring := first (strings_of l i).
Definition take_string (i : ident_arg) (l : atoms) : option ustring * atoms :=
  let (s, r) := take_strings_of l i in (first s, r).
Definition set_string (i : ident_arg) (l : atoms) (s : ustring) : atoms := set_data l i (DUtf8 s).
Definition remove_item (i : ident_arg) (l : atoms) : atoms := remove_data_of l i.

(** multiple_string_values_accessor, proc/src/lib.rs 107-151 (the remaining generated functions
    coincide with those above). *)
Definition get_strings (i : ident_arg) (l : atoms) : list ustring := strings_of l i.
Definition take_all_strings (i : ident_arg) (l : atoms) : list ustring * atoms := take_strings_of l i.
Definition set_strings (i : ident_arg) (l : atoms) (s : list ustring) : atoms :=
  set_all_data l i (map DUtf8 s).
Definition add_strings (i : ident_arg) (l : atoms) (s : list ustring) : atoms :=
  add_all_data l i (map DUtf8 s).
Definition add_string (i : ident_arg) (l : atoms) (s : ustring) : atoms := add_data l i (DUtf8 s).

(** flag_value_accessor, proc/src/lib.rs 188-204. *)
Definition get_flag (i : ident_arg) (l : atoms) : bool :=
  match first (bytes_of l i) with
  | None => false
  | Some v => match v with [] => false | b :: _ => b2n b =? 1 end
  end.
Definition set_flag (i : ident_arg) (l : atoms) : atoms := set_data l i (DBeSigned [n2b 1]).

(** [be_int!], src/atom/data.rs 507-526. *)
Definition be_int (v : bytes) (index : nat) (size : nat) : option N :=
  if Nat.ltb (length v) (index + size) then None
  else Some (unbe (firstn size (skipn index v))).

(** [set_be_int!], src/atom/data.rs 529-545: [Vec::resize] with zeros, then byte-wise assignment. *)
Definition set_be_int (v : bytes) (index : nat) (value : N) (size : nat) : bytes :=
  let v' := if Nat.ltb (length v) (index + size)
            then v ++ repeat Byte.x00 (index + size - length v) else v in
  firstn index v' ++ be size value ++ skipn (index + size) v'.

(** u16_value_accessor, proc/src/lib.rs 234-248; u32_value_accessor, 278-292; [size] = 2 or 4. *)
Definition get_int (size : nat) (i : ident_arg) (l : atoms) : option N :=
  match first (bytes_of l i) with
  | None => None
  | Some v => be_int v 0 size
  end.
Definition set_int (size : nat) (i : ident_arg) (l : atoms) (n : N) : atoms :=
  set_data l i (DBeSigned (be size n)).

(** Which identifier each generated accessor uses: src/tag/mod.rs 128-165 together with
    [base_values] (proc/src/lib.rs 21: [ident::NAME_IN_UPPER_CASE]) and src/atom/ident.rs. *)
Definition single_string_idents : list ident_arg :=
  [AFourcc ALBUM; AFourcc COPYRIGHT; AFourcc ENCODER; AFourcc LYRICS; AFourcc MOVEMENT; AFourcc TITLE;
   AFourcc TV_EPISODE_NAME; AFourcc TV_NETWORK_NAME; AFourcc TV_SHOW_NAME; AFourcc WORK; AFourcc YEAR; ISRC].
Definition multi_string_idents : list ident_arg :=
  [AFourcc ALBUM_ARTIST; AFourcc ARTIST; AFourcc CATEGORY; AFourcc COMMENT; AFourcc COMPOSER;
   AFourcc CUSTOM_GENRE; AFourcc DESCRIPTION; AFourcc GROUPING; AFourcc KEYWORD; LYRICIST].
Definition flag_idents : list ident_arg :=
  [AFourcc COMPILATION; AFourcc GAPLESS_PLAYBACK; AFourcc SHOW_MOVEMENT].
Definition u16_idents : list ident_arg := [AFourcc BPM; AFourcc MOVEMENT_COUNT; AFourcc MOVEMENT_INDEX].
Definition u32_idents : list ident_arg := [AFourcc TV_EPISODE; AFourcc TV_SEASON].
(** Handwritten accessors: tag/mod.rs 169-312, tuple.rs, genre.rs. *)
Definition custom_idents : list ident_arg :=
  [AFourcc ARTWORK; AFourcc MEDIA_TYPE; AFourcc ADVISORY_RATING; AFourcc TRACK_NUMBER;
   AFourcc DISC_NUMBER; AFourcc STANDARD_GENRE].
Definition accessor_idents : list ident_arg :=
  single_string_idents ++ multi_string_idents ++ flag_idents ++ u16_idents ++ u32_idents ++ custom_idents.

(** * Artwork, src/tag/mod.rs 169-213 *)

Definition artworks (l : atoms) : list img := images_of l (AFourcc ARTWORK).
Definition artwork (l : atoms) : option img := first (images_of l (AFourcc ARTWORK)).
Definition take_artworks (l : atoms) : list img * atoms := take_images_of l (AFourcc ARTWORK).
Definition take_artwork (l : atoms) : option img * atoms :=
  let (x, r) := take_images_of l (AFourcc ARTWORK) in (first x, r).
Definition set_artwork (l : atoms) (x : img) : atoms := set_data l (AFourcc ARTWORK) (data_of_img x).
Definition set_artworks (l : atoms) (x : list img) : atoms :=
  set_all_data l (AFourcc ARTWORK) (map data_of_img x).
Definition add_artwork (l : atoms) (x : img) : atoms := add_data l (AFourcc ARTWORK) (data_of_img x).
Definition add_artworks (l : atoms) (x : list img) : atoms :=
  add_all_data l (AFourcc ARTWORK) (map data_of_img x).
Definition remove_artworks (l : atoms) : atoms := remove_data_of l (AFourcc ARTWORK).

(** * Media type and advisory rating, src/tag/mod.rs 252-312 *)

Definition get_media_type (l : atoms) : option media_type :=
  match first (bytes_of l (AFourcc MEDIA_TYPE)) with
  | None => None
  | Some [] => None
  | Some (b :: _) => media_of (b2n b)
  end.
Definition set_media_type (l : atoms) (x : media_type) : atoms :=
  set_data l (AFourcc MEDIA_TYPE) (DReserved [n2b (media_code x)]).
Definition remove_media_type (l : atoms) : atoms := remove_data_of l (AFourcc MEDIA_TYPE).

Definition get_advisory_rating (l : atoms) : option advisory_rating :=
  match first (bytes_of l (AFourcc ADVISORY_RATING)) with
  | None => None
  | Some [] => None
  | Some (b :: _) => Some (rating_of (b2n b))
  end.
Definition set_advisory_rating (l : atoms) (x : advisory_rating) : atoms :=
  set_data l (AFourcc ADVISORY_RATING) (DReserved [n2b (rating_code x)]).
Definition remove_advisory_rating (l : atoms) : atoms := remove_data_of l (AFourcc ADVISORY_RATING).

(** * Track and disc, src/tag/tuple.rs.  [i] is TRACK_NUMBER (9-88) or DISC_NUMBER (105-184);
      the two halves of the file are identical up to that constant. *)

Definition nonzero (o : option N) : option N :=
  match o with Some n => if n =? 0 then None else Some n | None => None end.

(** [number] tuple.rs 197-199, [total] 201-203, [set_number] 205-207, [set_total] 209-211, [new] 213-217. *)
Definition tnumber (v : bytes) : option N := nonzero (be_int v 2 2).
Definition ttotal (v : bytes) : option N := nonzero (be_int v 4 2).
Definition tset_number (v : bytes) (n : N) : bytes := set_be_int v 2 n 2.
Definition tset_total (v : bytes) (n : N) : bytes := set_be_int v 4 n 2.
Definition tnew (n t : N) : bytes := [n2b 0; n2b 0] ++ be16 n ++ be16 t.

(** [track] 11-18, [disc] 107-114. *)
Definition get_pair (i : ident_arg) (l : atoms) : option N * option N :=
  match first (bytes_of l i) with
  | Some v => (tnumber v, ttotal v)
  | None => (None, None)
  end.
(** [track_number] 21-24, [disc_number] 117-120. *)
Definition get_number (i : ident_arg) (l : atoms) : option N :=
  match first (bytes_of l i) with Some v => tnumber v | None => None end.
(** [total_tracks] 27-30, [total_discs] 123-126. *)
Definition get_total (i : ident_arg) (l : atoms) : option N :=
  match first (bytes_of l i) with Some v => ttotal v | None => None end.

(** Assigning through the first reference [bytes_mut_of] yields. *)
Fixpoint map_first_bytes (g : bytes -> bytes) (d : list data) : list data :=
  match d with
  | [] => []
  | x :: r => match data_bytes x with
              | Some v => data_set_bytes x (g v) :: r
              | None => x :: map_first_bytes g r
              end
  end.
Definition mut_first_bytes (i : ident_arg) (l : atoms) (g : bytes -> bytes) : atoms :=
  data_mut_of (map_first_bytes g) l i.

(** [set_new_track] 32-35, [set_new_disc] 128-131. *)
Definition set_new_pair (i : ident_arg) (l : atoms) (n t : N) : atoms :=
  set_data l i (DReserved (tnew n t)).
(** [set_track] 38-47, [set_disc] 134-143. *)
Definition set_pair (i : ident_arg) (l : atoms) (n t : N) : atoms :=
  match first (bytes_of l i) with
  | Some _ => mut_first_bytes i l (fun v => tset_number (tset_total v t) n)
  | None => set_new_pair i l n t
  end.
(** [set_track_number] 50-56, [set_disc_number] 146-152. *)
Definition set_pair_number (i : ident_arg) (l : atoms) (n : N) : atoms :=
  match first (bytes_of l i) with
  | Some _ => mut_first_bytes i l (fun v => tset_number v n)
  | None => set_new_pair i l n 0
  end.
(** [set_total_tracks] 59-65, [set_total_discs] 155-161. *)
Definition set_pair_total (i : ident_arg) (l : atoms) (t : N) : atoms :=
  match first (bytes_of l i) with
  | Some _ => mut_first_bytes i l (fun v => tset_total v t)
  | None => set_new_pair i l 0 t
  end.
(** [remove_track] 68-70, [remove_disc] 164-166. *)
Definition remove_pair (i : ident_arg) (l : atoms) : atoms := remove_data_of l i.

Definition onat_eqb (a b : option N) : bool := opt_eqb N.eqb a b.

(** [remove_track_number] 73-79, [remove_disc_number] 169-175. *)
Definition remove_pair_number (i : ident_arg) (l : atoms) : atoms :=
  match first (bytes_of l i) with
  | Some v => if negb (onat_eqb (ttotal v) (Some 0))
              then mut_first_bytes i l (fun v => tset_number v 0) else remove_pair i l
  | None => remove_pair i l
  end.
(** [remove_total_tracks] 82-88, [remove_total_discs] 178-184. *)
Definition remove_pair_total (i : ident_arg) (l : atoms) : atoms :=
  match first (bytes_of l i) with
  | Some v => if negb (onat_eqb (tnumber v) (Some 0))
              then mut_first_bytes i l (fun v => tset_total v 0) else remove_pair i l
  | None => remove_pair i l
  end.

(** * Genres, src/tag/genre.rs *)

(** [STANDARD_GENRES], genre.rs 7-88, as lists of code points. *)
Definition STANDARD_GENRES : list ustring :=
[
  [66; 108; 117; 101; 115] (* Blues *);
  [67; 108; 97; 115; 115; 105; 99; 32; 114; 111; 99; 107] (* Classic rock *);
  [67; 111; 117; 110; 116; 114; 121] (* Country *);
  [68; 97; 110; 99; 101] (* Dance *);
  [68; 105; 115; 99; 111] (* Disco *);
  [70; 117; 110; 107] (* Funk *);
  [71; 114; 117; 110; 103; 101] (* Grunge *);
  [72; 105; 112; 44; 45; 72; 111; 112] (* Hip,-Hop *);
  [74; 97; 122; 122] (* Jazz *);
  [77; 101; 116; 97; 108] (* Metal *);
  [78; 101; 119; 32; 65; 103; 101] (* New Age *);
  [79; 108; 100; 105; 101; 115] (* Oldies *);
  [79; 116; 104; 101; 114] (* Other *);
  [80; 111; 112] (* Pop *);
  [82; 104; 121; 116; 104; 109; 32; 97; 110; 100; 32; 66; 108; 117; 101; 115] (* Rhythm and Blues *);
  [82; 97; 112] (* Rap *);
  [82; 101; 103; 103; 97; 101] (* Reggae *);
  [82; 111; 99; 107] (* Rock *);
  [84; 101; 99; 104; 110; 111] (* Techno *);
  [73; 110; 100; 117; 115; 116; 114; 105; 97; 108] (* Industrial *);
  [65; 108; 116; 101; 114; 110; 97; 116; 105; 118; 101] (* Alternative *);
  [83; 107; 97] (* Ska *);
  [68; 101; 97; 116; 104; 32; 109; 101; 116; 97; 108] (* Death metal *);
  [80; 114; 97; 110; 107; 115] (* Pranks *);
  [83; 111; 117; 110; 100; 116; 114; 97; 99; 107] (* Soundtrack *);
  [69; 117; 114; 111; 45; 84; 101; 99; 104; 110; 111] (* Euro-Techno *);
  [65; 109; 98; 105; 101; 110; 116] (* Ambient *);
  [84; 114; 105; 112; 45; 72; 111; 112] (* Trip-Hop *);
  [86; 111; 99; 97; 108] (* Vocal *);
  [74; 97; 122; 122; 32; 38; 32; 70; 117; 110; 107] (* Jazz & Funk *);
  [70; 117; 115; 105; 111; 110] (* Fusion *);
  [84; 114; 97; 110; 99; 101] (* Trance *);
  [67; 108; 97; 115; 115; 105; 99; 97; 108] (* Classical *);
  [73; 110; 115; 116; 114; 117; 109; 101; 110; 116; 97; 108] (* Instrumental *);
  [65; 99; 105; 100] (* Acid *);
  [72; 111; 117; 115; 101] (* House *);
  [71; 97; 109; 101] (* Game *);
  [83; 111; 117; 110; 100; 32; 99; 108; 105; 112] (* Sound clip *);
  [71; 111; 115; 112; 101; 108] (* Gospel *);
  [78; 111; 105; 115; 101] (* Noise *);
  [65; 108; 116; 101; 114; 110; 97; 116; 105; 118; 101; 32; 82; 111; 99; 107] (* Alternative Rock *);
  [66; 97; 115; 115] (* Bass *);
  [83; 111; 117; 108] (* Soul *);
  [80; 117; 110; 107] (* Punk *);
  [83; 112; 97; 99; 101] (* Space *);
  [77; 101; 100; 105; 116; 97; 116; 105; 118; 101] (* Meditative *);
  [73; 110; 115; 116; 114; 117; 109; 101; 110; 116; 97; 108; 32; 80; 111; 112] (* Instrumental Pop *);
  [73; 110; 115; 116; 114; 117; 109; 101; 110; 116; 97; 108; 32; 82; 111; 99; 107] (* Instrumental Rock *);
  [69; 116; 104; 110; 105; 99] (* Ethnic *);
  [71; 111; 116; 104; 105; 99] (* Gothic *);
  [68; 97; 114; 107; 119; 97; 118; 101] (* Darkwave *);
  [84; 101; 99; 104; 110; 111; 45; 73; 110; 100; 117; 115; 116; 114; 105; 97; 108] (* Techno-Industrial *);
  [69; 108; 101; 99; 116; 114; 111; 110; 105; 99] (* Electronic *);
  [80; 111; 112; 45; 70; 111; 108; 107] (* Pop-Folk *);
  [69; 117; 114; 111; 100; 97; 110; 99; 101] (* Eurodance *);
  [68; 114; 101; 97; 109] (* Dream *);
  [83; 111; 117; 116; 104; 101; 114; 110; 32; 82; 111; 99; 107] (* Southern Rock *);
  [67; 111; 109; 101; 100; 121] (* Comedy *);
  [67; 117; 108; 116] (* Cult *);
  [71; 97; 110; 103; 115; 116; 97] (* Gangsta *);
  [84; 111; 112; 32; 52; 49] (* Top 41 *);
  [67; 104; 114; 105; 115; 116; 105; 97; 110; 32; 82; 97; 112] (* Christian Rap *);
  [80; 111; 112; 47; 70; 117; 110; 107] (* Pop/Funk *);
  [74; 117; 110; 103; 108; 101] (* Jungle *);
  [78; 97; 116; 105; 118; 101; 32; 85; 83] (* Native US *);
  [67; 97; 98; 97; 114; 101; 116] (* Cabaret *);
  [78; 101; 119; 32; 87; 97; 118; 101] (* New Wave *);
  [80; 115; 121; 99; 104; 101; 100; 101; 108; 105; 99] (* Psychedelic *);
  [82; 97; 118; 101] (* Rave *);
  [83; 104; 111; 119; 32; 116; 117; 110; 101; 115] (* Show tunes *);
  [84; 114; 97; 105; 108; 101; 114] (* Trailer *);
  [76; 111; 44; 45; 70; 105] (* Lo,-Fi *);
  [84; 114; 105; 98; 97; 108] (* Tribal *);
  [65; 99; 105; 100; 32; 80; 117; 110; 107] (* Acid Punk *);
  [65; 99; 105; 100; 32; 74; 97; 122; 122] (* Acid Jazz *);
  [80; 111; 108; 107; 97] (* Polka *);
  [82; 101; 116; 114; 111] (* Retro *);
  [77; 117; 115; 105; 99; 97; 108] (* Musical *);
  [82; 111; 99; 107; 32; 8217; 110; 8217; 32; 82; 111; 108; 108] (* Rock 'n' Roll *);
  [72; 97; 114; 100; 32; 82; 111; 99; 107] (* Hard Rock *)
].

(** [stanard_genre], genre.rs 215-222. *)
Definition standard_genre_name (code : N) : option ustring :=
  if (0 <? code) && (code <=? blen STANDARD_GENRES)
  then nth_error STANDARD_GENRES (N.to_nat (code - 1)) else None.

(** [standard_genres], genre.rs 93-101. *)
Definition standard_genres (l : atoms) : list N :=
  filter_map (fun v => match v with a :: b :: _ => Some (unbe [a; b]) | _ => None end)
             (bytes_of l (AFourcc STANDARD_GENRE)).
(** [standard_genre], genre.rs 104-106. *)
Definition standard_genre (l : atoms) : option N := first (standard_genres l).
(** genre.rs 109-135. *)
Definition set_standard_genre (l : atoms) (c : N) : atoms :=
  set_data l (AFourcc STANDARD_GENRE) (DReserved (be16 c)).
Definition set_standard_genres (l : atoms) (c : list N) : atoms :=
  set_all_data l (AFourcc STANDARD_GENRE) (map (fun x => DReserved (be16 x)) c).
Definition add_standard_genre (l : atoms) (c : N) : atoms :=
  add_data l (AFourcc STANDARD_GENRE) (DReserved (be16 c)).
Definition add_standard_genres (l : atoms) (c : list N) : atoms :=
  add_all_data l (AFourcc STANDARD_GENRE) (map (fun x => DReserved (be16 x)) c).
Definition remove_standard_genres (l : atoms) : atoms := remove_data_of l (AFourcc STANDARD_GENRE).

(** The custom_genre accessors generated in tag/mod.rs 147. *)
Definition custom_genres (l : atoms) : list ustring := get_strings (AFourcc CUSTOM_GENRE) l.
Definition custom_genre (l : atoms) : option ustring := get_string (AFourcc CUSTOM_GENRE) l.

Definition obind_opt {A B} (o : option A) (g : A -> option B) : option B :=
  match o with Some x => g x | None => None end.

(** [genres], genre.rs 144-147. *)
Definition genres (l : atoms) : list ustring :=
  filter_map standard_genre_name (standard_genres l) ++ custom_genres l.
(** [genre], genre.rs 150-156. *)
Definition genre (l : atoms) : option ustring :=
  match obind_opt (standard_genre l) standard_genre_name with
  | Some g => Some g
  | None => custom_genre l
  end.
(** [take_genres], genre.rs 160-167. *)
Definition take_genres (l : atoms) : list ustring * atoms :=
  let std := filter_map standard_genre_name (standard_genres l) in
  let (c, r) := take_all_strings (AFourcc CUSTOM_GENRE) l in (std ++ c, r).
(** [take_genre], genre.rs 170-176. *)
Definition take_genre (l : atoms) : option ustring * atoms :=
  match obind_opt (standard_genre l) standard_genre_name with
  | Some g => (Some g, l)
  | None => take_string (AFourcc CUSTOM_GENRE) l
  end.
(** [set_genre], genre.rs 179-182. *)
Definition set_genre (l : atoms) (g : ustring) : atoms :=
  remove_standard_genres (set_string (AFourcc CUSTOM_GENRE) l g).
(** [set_genres], genre.rs 185-188. *)
Definition set_genres (l : atoms) (g : list ustring) : atoms :=
  remove_standard_genres (set_strings (AFourcc CUSTOM_GENRE) l g).
(** [add_genre], genre.rs 191-193. *)
Definition add_genre (l : atoms) (g : ustring) : atoms := add_string (AFourcc CUSTOM_GENRE) l g.
(** [remove_genres], genre.rs 196-199. *)
Definition remove_genres (l : atoms) : atoms :=
  remove_data_of (remove_standard_genres l) (AFourcc CUSTOM_GENRE).
