(** The text of a tag: [impl Display for Tag] (src/tag/mod.rs 32-78) and the formatting functions it
    calls.  Text is a list of code points.

    Not modelled: a formatter whose sink fails (the result is then an error after some prefix of the
    text), and the [Debug] text of strings, which needs Unicode tables; it is the parameter [dbg]. *)

From Coq Require Import List NArith ZArith Bool String.
From Verif Require Import Base Utf Types TagApi.
Import ListNotations.
Local Open Scope list_scope.

(** A literal of the source. *)
Definition txt (s : string) : ustring := map b2n (list_byte_of_string s).

(** What [writeln!] appends. *)
Definition nl : ustring := [10].

(** [Display] of unsigned integers (core library): decimal, no leading zeros.  [N.size_nat n] (the
    number of bits) is at least the number of digits. *)
Fixpoint dec_digits (fuel : nat) (n : N) : ustring :=
  match fuel with
  | O => []
  | S fuel' => if n <? 10 then [48 + n] else dec_digits fuel' (n / 10) ++ [48 + n mod 10]
  end.
Definition dec (n : N) : ustring := dec_digits (S (N.size_nat n)) n.

(** [{:02}]. *)
Definition pad2 (n : N) : ustring := if n <? 10 then 48 :: dec n else dec n.

(** * The accessor macros, proc/src/lib.rs *)

(** [base_values], lib.rs 16: [value_ident.replace('_', " ")]. *)
Definition macro_name (s : ustring) : ustring := map (fun c => if c =? 95 then 32 else c) s.

(** lib.rs 94-100: plural of an identifier. *)
Definition macro_plural (s : ustring) : ustring :=
  match rev s with
  | 121 :: r => rev r ++ txt "ies"
  | _ => s ++ txt "s"
  end.

(** [format_{vi}] of single_string_value_accessor, lib.rs 69-75. *)
Definition format_single (vi : string) (i : ident_arg) (l : atoms) : ustring :=
  match get_string i l with
  | Some s => macro_name (txt vi) ++ txt ": " ++ s ++ nl
  | None => []
  end.

(** [format_{vip}] of multiple_string_values_accessor, lib.rs 153-163. *)
Definition format_multi (vi : string) (i : ident_arg) (l : atoms) : ustring :=
  if Nat.ltb 1 (List.length (get_strings i l))
  then macro_name (macro_plural (txt vi)) ++ txt ":" ++ nl ++
       List.concat (map (fun s => txt "    " ++ s ++ nl) (get_strings i l))
  else match get_string i l with
       | Some s => macro_name (txt vi) ++ txt ": " ++ s ++ nl
       | None => []
       end.

(** [format_{vi}] of flag_value_accessor, lib.rs 206-212. *)
Definition format_flag (vi : string) (i : ident_arg) (l : atoms) : ustring :=
  if get_flag i l then macro_name (txt vi) ++ nl else [].

(** [format_{vi}] of u16_value_accessor (lib.rs 250-256) and u32_value_accessor (294-300). *)
Definition format_int (size : nat) (vi : string) (i : ident_arg) (l : atoms) : ustring :=
  match get_int size i l with
  | Some n => macro_name (txt vi) ++ txt ": " ++ dec n ++ nl
  | None => []
  end.

(** * Handwritten formatting *)

(** [format_genres], genre.rs 202-212. *)
Definition format_genres (l : atoms) : ustring :=
  if Nat.ltb 1 (List.length (genres l))
  then txt "genres:" ++ nl ++ List.concat (map (fun s => txt "    " ++ s ++ nl) (genres l))
  else match genre l with
       | Some s => txt "genre: " ++ s ++ nl
       | None => []
       end.

(** [format_track], tuple.rs 91-98, [format_disc], 187-194. *)
Definition format_pair (label : string) (i : ident_arg) (l : atoms) : ustring :=
  match get_pair i l with
  | (Some d, Some t) => txt label ++ txt ": " ++ dec d ++ txt " of " ++ dec t ++ nl
  | (Some d, None) => txt label ++ txt ": " ++ dec d ++ nl
  | (None, Some t) => txt label ++ txt ": ? of " ++ dec t ++ nl
  | (None, None) => []
  end.

(** The inner [format_artwork], tag/mod.rs 217-237. *)
Definition format_artwork (x : img) : ustring :=
  match img_format x with FPng => txt "png" | FJpeg => txt "jpeg" | FBmp => txt "bmp" end ++
  (let len := blen (img_data x) in
   if len <? 1024 then txt " " ++ dec len ++ nl
   else if len <? 1024 * 1024 then txt " " ++ dec (len / 1024) ++ txt "k" ++ nl
   else txt " " ++ dec (len / (1024 * 1024)) ++ txt "M" ++ nl).

(** [format_artworks], tag/mod.rs 216-249. *)
Definition format_artworks (l : atoms) : ustring :=
  if Nat.ltb 1 (List.length (artworks l))
  then txt "artworks:" ++ nl ++ List.concat (map (fun x => txt "    " ++ format_artwork x) (artworks l))
  else match artwork l with
       | Some x => txt "artwork: " ++ format_artwork x
       | None => []
       end.

(** [Display for MediaType], types.rs 135-148. *)
Definition media_text (x : media_type) : ustring :=
  match x with
  | MTMovie => txt "Movie" | MTNormal => txt "Normal" | MTAudioBook => txt "Audiobook"
  | MTWhackedBookmark => txt "Whacked Bookmark" | MTMusicVideo => txt "Music Video"
  | MTShortFilm => txt "Short Film" | MTTvShow => txt "TV-Show" | MTBooklet => txt "Booklet"
  end.
(** [format_media_type], tag/mod.rs 274-279. *)
Definition format_media_type (l : atoms) : ustring :=
  match get_media_type l with Some x => txt "media type: " ++ media_text x ++ nl | None => [] end.

(** [Display for AdvisoryRating], types.rs 183-191. *)
Definition rating_text (x : advisory_rating) : ustring :=
  match x with RClean => txt "Clean" | RInoffensive => txt "Inoffensive" | RExplicit => txt "Explicit" end.
(** [format_advisory_rating], tag/mod.rs 305-310. *)
Definition format_advisory_rating (l : atoms) : ustring :=
  match get_advisory_rating l with Some x => txt "advisory rating: " ++ rating_text x ++ nl | None => [] end.

(** [format_duration], readonly.rs 19-42.  [d] is in nanoseconds: [as_secs] and [subsec_nanos] are
    quotient and remainder.  The arms of the match are tried in order. *)
Definition duration_text (d : N) : ustring :=
  let total_seconds := d / 1000000000 in
  let nanos := d mod 1000000000 in
  let micros := nanos / 1000 in
  let millis := nanos / 1000000 in
  let seconds := total_seconds mod 60 in
  let minutes := total_seconds / 60 mod 60 in
  let hours := total_seconds / 60 / 60 in
  if hours =? 0 then
    if minutes =? 0 then
      if seconds =? 0 then
        if millis =? 0 then
          if micros =? 0 then dec nanos ++ txt "ns"
          else dec micros ++ [181] ++ txt "s"
        else dec millis ++ txt "ms"
      else dec seconds ++ txt "s"
    else dec minutes ++ txt ":" ++ pad2 seconds
  else dec hours ++ txt ":" ++ pad2 minutes ++ txt ":" ++ pad2 seconds.
Definition format_duration (i : audio_info) : ustring :=
  match ai_duration i with Some d => txt "duration: " ++ duration_text d ++ nl | None => [] end.

(** [Display for ChannelConfig], types.rs 247-259; [format_channel_config], readonly.rs 49-54. *)
Definition channel_text (c : channel_config) : ustring :=
  match c with
  | Mono => txt "Mono" | Stereo => txt "Stereo" | Three => txt "3.0" | Four => txt "4.0"
  | Five => txt "5.0" | FiveOne => txt "5.1" | SevenOne => txt "7.1"
  end.
Definition format_channel_config (i : audio_info) : ustring :=
  match ai_channels i with Some c => txt "channel config: " ++ channel_text c ++ nl | None => [] end.

(** [Display for SampleRate], types.rs 318-322; [format_sample_rate], readonly.rs 61-66. *)
Definition format_sample_rate (i : audio_info) : ustring :=
  match ai_rate i with Some r => txt "sample rate: " ++ dec (hz r) ++ txt "Hz" ++ nl | None => [] end.

(** [format_avg_bitrate], readonly.rs 73-78; [format_max_bitrate], 85-90. *)
Definition format_avg_bitrate (i : audio_info) : ustring :=
  match ai_avg i with Some c => txt "average bitrate: " ++ dec (c / 1024) ++ txt "kbps" ++ nl | None => [] end.
Definition format_max_bitrate (i : audio_info) : ustring :=
  match ai_max i with Some c => txt "maximum bitrate: " ++ dec (c / 1024) ++ txt "kbps" ++ nl | None => [] end.

(** * Debug of values, data.rs 106-118 *)

Fixpoint comma_separated (l : list ustring) : ustring :=
  match l with
  | [] => []
  | [x] => x
  | x :: r => x ++ txt ", " ++ comma_separated r
  end.
(** [Debug] of [Vec<u8>] (core library). *)
Definition debug_bytes (v : bytes) : ustring :=
  txt "[" ++ comma_separated (map (fun b => dec (b2n b)) v) ++ txt "]".
Definition debug_data (dbg : ustring -> ustring) (d : data) : ustring :=
  match d with
  | DReserved v => txt "Data::Reserved(" ++ debug_bytes v ++ txt ")"
  | DUtf8 s => txt "Data::Utf8(" ++ dbg s ++ txt ")"
  | DUtf16 s => txt "Data::Utf16(" ++ dbg s ++ txt ")"
  | DJpeg _ => txt "Data::Jpeg"
  | DPng _ => txt "Data::Png"
  | DBeSigned v => txt "Data::BeSigned(" ++ debug_bytes v ++ txt ")"
  | DBmp _ => txt "Data::Bmp"
  end.

(** [Display for DataIdent], ident.rs 285-292, and for [Fourcc], 208-212: [char::from] of each byte. *)
Definition ident_text (i : data_ident) : ustring :=
  match i with
  | IFourcc (FourCC a b c d) => map b2n [a; b; c; d]
  | IFreeform me na => txt "----:" ++ me ++ txt ":" ++ na
  end.

(** The loop over the freeform items, tag/mod.rs 74-81. *)
Definition format_freeform (dbg : ustring -> ustring) (a : atom_data) : ustring :=
  match ad_ident a with
  | IFreeform _ _ =>
    ident_text (ad_ident a) ++ txt ":" ++ nl ++
    List.concat (map (fun d => txt "    " ++ debug_data dbg d ++ nl) (ad_data a))
  | IFourcc _ => []
  end.

(** [Display for Tag], tag/mod.rs 32-84. *)
Definition display (dbg : ustring -> ustring) (t : tag) : ustring :=
  let l := tg_atoms t in
  let i := tg_info t in
  format_multi "album_artist" (AFourcc ALBUM_ARTIST) l ++
  format_multi "artist" (AFourcc ARTIST) l ++
  format_multi "composer" (AFourcc COMPOSER) l ++
  format_multi "lyricist" LYRICIST l ++
  format_single "album" (AFourcc ALBUM) l ++
  format_single "title" (AFourcc TITLE) l ++
  format_genres l ++
  format_single "year" (AFourcc YEAR) l ++
  format_pair "track" (AFourcc TRACK_NUMBER) l ++
  format_pair "disc" (AFourcc DISC_NUMBER) l ++
  format_artworks l ++
  format_advisory_rating l ++
  format_media_type l ++
  format_multi "grouping" (AFourcc GROUPING) l ++
  format_multi "description" (AFourcc DESCRIPTION) l ++
  format_multi "comment" (AFourcc COMMENT) l ++
  format_multi "category" (AFourcc CATEGORY) l ++
  format_multi "keyword" (AFourcc KEYWORD) l ++
  format_single "copyright" (AFourcc COPYRIGHT) l ++
  format_single "encoder" (AFourcc ENCODER) l ++
  format_single "tv_show_name" (AFourcc TV_SHOW_NAME) l ++
  format_single "tv_network_name" (AFourcc TV_NETWORK_NAME) l ++
  format_single "tv_episode_name" (AFourcc TV_EPISODE_NAME) l ++
  format_int 4 "tv_episode" (AFourcc TV_EPISODE) l ++
  format_int 4 "tv_season" (AFourcc TV_SEASON) l ++
  format_int 2 "bpm" (AFourcc BPM) l ++
  format_single "movement" (AFourcc MOVEMENT) l ++
  format_single "work" (AFourcc WORK) l ++
  format_int 2 "movement_count" (AFourcc MOVEMENT_COUNT) l ++
  format_int 2 "movement_index" (AFourcc MOVEMENT_INDEX) l ++
  format_duration i ++
  format_channel_config i ++
  format_sample_rate i ++
  format_avg_bitrate i ++
  format_max_bitrate i ++
  format_flag "show_movement" (AFourcc SHOW_MOVEMENT) l ++
  format_flag "gapless_playback" (AFourcc GAPLESS_PLAYBACK) l ++
  format_flag "compilation" (AFourcc COMPILATION) l ++
  format_single "isrc" ISRC l ++
  format_single "lyrics" (AFourcc LYRICS) l ++
  List.concat (map (format_freeform dbg) l) ++
  txt "filetype: " ++ tg_ftyp t ++ nl.
