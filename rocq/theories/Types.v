(** Data types of the crate: identifiers, values, enums, the tag. *)

From Coq Require Import List NArith Bool.
From Coq Require Import Init.Byte.
From Verif Require Import Base Utf.
Import ListNotations.

(** * Fourcc constants *)

(** src/atom/ident.rs 5 *)
Definition FILETYPE : fourcc := FourCC x66 x74 x79 x70.
(** src/atom/ident.rs 7 *)
Definition MEDIA_DATA : fourcc := FourCC x6d x64 x61 x74.
(** src/atom/ident.rs 9 *)
Definition MOVIE : fourcc := FourCC x6d x6f x6f x76.
(** src/atom/ident.rs 11 *)
Definition MOVIE_HEADER : fourcc := FourCC x6d x76 x68 x64.
(** src/atom/ident.rs 13 *)
Definition TRACK : fourcc := FourCC x74 x72 x61 x6b.
(** src/atom/ident.rs 15 *)
Definition MEDIA : fourcc := FourCC x6d x64 x69 x61.
(** src/atom/ident.rs 17 *)
Definition MEDIA_INFORMATION : fourcc := FourCC x6d x69 x6e x66.
(** src/atom/ident.rs 19 *)
Definition SAMPLE_TABLE : fourcc := FourCC x73 x74 x62 x6c.
(** src/atom/ident.rs 21 *)
Definition SAMPLE_TABLE_CHUNK_OFFSET : fourcc := FourCC x73 x74 x63 x6f.
(** src/atom/ident.rs 23 *)
Definition SAMPLE_TABLE_CHUNK_OFFSET_64 : fourcc := FourCC x63 x6f x36 x34.
(** src/atom/ident.rs 25 *)
Definition SAMPLE_TABLE_SAMPLE_DESCRIPTION : fourcc := FourCC x73 x74 x73 x64.
(** src/atom/ident.rs 27 *)
Definition MP4_AUDIO : fourcc := FourCC x6d x70 x34 x61.
(** src/atom/ident.rs 29 *)
Definition ELEMENTARY_STREAM_DESCRIPTION : fourcc := FourCC x65 x73 x64 x73.
(** src/atom/ident.rs 31 *)
Definition USER_DATA : fourcc := FourCC x75 x64 x74 x61.
(** src/atom/ident.rs 33 *)
Definition METADATA : fourcc := FourCC x6d x65 x74 x61.
(** src/atom/ident.rs 35 *)
Definition HANDLER_REFERENCE : fourcc := FourCC x68 x64 x6c x72.
(** src/atom/ident.rs 37 *)
Definition ITEM_LIST : fourcc := FourCC x69 x6c x73 x74.
(** src/atom/ident.rs 39 *)
Definition DATA : fourcc := FourCC x64 x61 x74 x61.
(** src/atom/ident.rs 41 *)
Definition MEAN : fourcc := FourCC x6d x65 x61 x6e.
(** src/atom/ident.rs 43 *)
Definition NAME : fourcc := FourCC x6e x61 x6d x65.
(** src/atom/ident.rs 45 *)
Definition FREE : fourcc := FourCC x66 x72 x65 x65.
(** src/atom/ident.rs 48 *)
Definition FREEFORM : fourcc := FourCC x2d x2d x2d x2d.
(** src/atom/ident.rs 52 *)
Definition ADVISORY_RATING : fourcc := FourCC x72 x74 x6e x67.
(** src/atom/ident.rs 54 *)
Definition ALBUM : fourcc := FourCC xa9 x61 x6c x62.
(** src/atom/ident.rs 56 *)
Definition ALBUM_ARTIST : fourcc := FourCC x61 x41 x52 x54.
(** src/atom/ident.rs 58 *)
Definition ARTIST : fourcc := FourCC xa9 x41 x52 x54.
(** src/atom/ident.rs 60 *)
Definition ARTWORK : fourcc := FourCC x63 x6f x76 x72.
(** src/atom/ident.rs 62 *)
Definition BPM : fourcc := FourCC x74 x6d x70 x6f.
(** src/atom/ident.rs 64 *)
Definition COMMENT : fourcc := FourCC xa9 x63 x6d x74.
(** src/atom/ident.rs 66 *)
Definition COMPILATION : fourcc := FourCC x63 x70 x69 x6c.
(** src/atom/ident.rs 68 *)
Definition COMPOSER : fourcc := FourCC xa9 x77 x72 x74.
(** src/atom/ident.rs 70 *)
Definition COPYRIGHT : fourcc := FourCC x63 x70 x72 x74.
(** src/atom/ident.rs 72 *)
Definition CUSTOM_GENRE : fourcc := FourCC xa9 x67 x65 x6e.
(** src/atom/ident.rs 74 *)
Definition DISC_NUMBER : fourcc := FourCC x64 x69 x73 x6b.
(** src/atom/ident.rs 76 *)
Definition ENCODER : fourcc := FourCC xa9 x74 x6f x6f.
(** src/atom/ident.rs 78 *)
Definition STANDARD_GENRE : fourcc := FourCC x67 x6e x72 x65.
(** src/atom/ident.rs 80 *)
Definition TITLE : fourcc := FourCC xa9 x6e x61 x6d.
(** src/atom/ident.rs 82 *)
Definition TRACK_NUMBER : fourcc := FourCC x74 x72 x6b x6e.
(** src/atom/ident.rs 84 *)
Definition YEAR : fourcc := FourCC xa9 x64 x61 x79.
(** src/atom/ident.rs 88 *)
Definition GROUPING : fourcc := FourCC xa9 x67 x72 x70.
(** src/atom/ident.rs 90 *)
Definition MEDIA_TYPE : fourcc := FourCC x73 x74 x69 x6b.
(** src/atom/ident.rs 94 *)
Definition CATEGORY : fourcc := FourCC x63 x61 x74 x67.
(** src/atom/ident.rs 96 *)
Definition KEYWORD : fourcc := FourCC x6b x65 x79 x77.
(** src/atom/ident.rs 98 *)
Definition PODCAST : fourcc := FourCC x70 x63 x73 x74.
(** src/atom/ident.rs 100 *)
Definition PODCAST_EPISODE_GLOBAL_UNIQUE_ID : fourcc := FourCC x65 x67 x69 x64.
(** src/atom/ident.rs 102 *)
Definition PODCAST_URL : fourcc := FourCC x70 x75 x72 x6c.
(** src/atom/ident.rs 106 *)
Definition DESCRIPTION : fourcc := FourCC x64 x65 x73 x63.
(** src/atom/ident.rs 108 *)
Definition LYRICS : fourcc := FourCC xa9 x6c x79 x72.
(** src/atom/ident.rs 112 *)
Definition TV_EPISODE : fourcc := FourCC x74 x76 x65 x73.
(** src/atom/ident.rs 114 *)
Definition TV_EPISODE_NAME : fourcc := FourCC x74 x76 x65 x6e.
(** src/atom/ident.rs 116 *)
Definition TV_NETWORK_NAME : fourcc := FourCC x74 x76 x6e x6e.
(** src/atom/ident.rs 118 *)
Definition TV_SEASON : fourcc := FourCC x74 x76 x73 x6e.
(** src/atom/ident.rs 120 *)
Definition TV_SHOW_NAME : fourcc := FourCC x74 x76 x73 x68.
(** src/atom/ident.rs 124 *)
Definition PURCHASE_DATE : fourcc := FourCC x70 x75 x72 x64.
(** src/atom/ident.rs 128 *)
Definition GAPLESS_PLAYBACK : fourcc := FourCC x70 x67 x61 x70.
(** src/atom/ident.rs 132 *)
Definition MOVEMENT : fourcc := FourCC xa9 x6d x76 x6e.
(** src/atom/ident.rs 134 *)
Definition MOVEMENT_COUNT : fourcc := FourCC xa9 x6d x76 x63.
(** src/atom/ident.rs 136 *)
Definition MOVEMENT_INDEX : fourcc := FourCC xa9 x6d x76 x69.
(** src/atom/ident.rs 138 *)
Definition WORK : fourcc := FourCC xa9 x77 x72 x6b.
(** src/atom/ident.rs 140 *)
Definition SHOW_MOVEMENT : fourcc := FourCC x73 x68 x77 x6d.

(** "com.apple.iTunes", src/atom/ident.rs 144. *)
Definition APPLE_ITUNES_MEAN : ustring :=
  [99; 111; 109; 46; 97; 112; 112; 108; 101; 46; 105; 84; 117; 110; 101; 115].

(** * Identifiers *)

(** src/atom/ident.rs 257-267 [DataIdent]. *)
Inductive data_ident : Type :=
| IFourcc (f : fourcc)
| IFreeform (mean name : ustring).

(** Derived [PartialEq] of [DataIdent], src/atom/ident.rs 256. *)
Definition ident_eqb (a b : data_ident) : bool :=
  match a, b with
  | IFourcc f, IFourcc g => fourcc_eqb f g
  | IFreeform m n, IFreeform m' n' => ustr_eqb m m' && ustr_eqb n n'
  | _, _ => false
  end.

(** What can be passed where the API takes [impl Ident]: the three implementations of the crate
    (implementations of the trait by callers are in UserIdent.v). *)
Inductive ident_arg : Type :=
| AFourcc (f : fourcc)                (* Fourcc, ident.rs 167 *)
| AFreeform (mean name : ustring)     (* FreeformIdent, ident.rs 216-221 *)
| AData (i : data_ident).             (* DataIdent *)

(** [impl PartialEq<DataIdent>] of the three: ident.rs 183-190, 223-230, 256. *)
Definition arg_eqb (a : ident_arg) (i : data_ident) : bool :=
  match a with
  | AFourcc f =>
    match i with IFourcc g => fourcc_eqb f g | IFreeform _ _ => false end
  | AFreeform m n =>
    match i with IFourcc _ => false | IFreeform m' n' => ustr_eqb m m' && ustr_eqb n n' end
  | AData j => ident_eqb j i
  end.

(** [Into<DataIdent>]: ident.rs 294-310 (and the identity for [DataIdent]). *)
Definition arg_into (a : ident_arg) : data_ident :=
  match a with
  | AFourcc f => IFourcc f
  | AFreeform m n => IFreeform m n
  | AData i => i
  end.

(** [Ident::fourcc], ident.rs 193-195, 233-235, 270-275. *)
Definition arg_fourcc (a : ident_arg) : option fourcc :=
  match a with
  | AFourcc f => Some f
  | AFreeform _ _ => None
  | AData (IFourcc f) => Some f
  | AData (IFreeform _ _) => None
  end.

(** [Ident::freeform], ident.rs 197-199, 237-239, 277-282. *)
Definition arg_freeform (a : ident_arg) : option (ustring * ustring) :=
  match a with
  | AFourcc _ => None
  | AFreeform m n => Some (m, n)
  | AData (IFourcc _) => None
  | AData (IFreeform m n) => Some (m, n)
  end.

Definition opt_eqb {A} (eq : A -> A -> bool) (a b : option A) : bool :=
  match a, b with
  | Some x, Some y => eq x y
  | None, None => true
  | _, _ => false
  end.

(** [idents_match], ident.rs 161-163. *)
Definition idents_match (a b : ident_arg) : bool :=
  opt_eqb fourcc_eqb (arg_fourcc a) (arg_fourcc b)
  && opt_eqb (fun x y => ustr_eqb (fst x) (fst y) && ustr_eqb (snd x) (snd y))
             (arg_freeform a) (arg_freeform b).

(** (`----:com.apple.iTunes:ISRC`), ident.rs 147. *)
Definition ISRC : ident_arg := AFreeform APPLE_ITUNES_MEAN [73; 83; 82; 67].
(** (`----:com.apple.iTunes:LYRICIST`), ident.rs 149. *)
Definition LYRICIST : ident_arg := AFreeform APPLE_ITUNES_MEAN [76; 89; 82; 73; 67; 73; 83; 84].

(** * Values *)

(** src/types.rs 385-394 [ImgFmt] and 369-375 [Img]. *)
Inductive img_fmt := FBmp | FJpeg | FPng.
Record img := Img { img_format : img_fmt; img_data : bytes }.

(** src/atom/data.rs 89-104 [Data]. *)
Inductive data : Type :=
| DReserved (v : bytes)
| DUtf8 (s : ustring)
| DUtf16 (s : ustring)
| DJpeg (v : bytes)
| DPng (v : bytes)
| DBeSigned (v : bytes)
| DBmp (v : bytes).

(** [From<Img>], data.rs 120-128. *)
Definition data_of_img (i : img) : data :=
  match img_format i with
  | FBmp => DBmp (img_data i)
  | FJpeg => DJpeg (img_data i)
  | FPng => DPng (img_data i)
  end.

(** [Data::len], data.rs 132-142: note the number of code units (not bytes) for UTF-16. *)
Definition data_len (d : data) : N :=
  match d with
  | DReserved v => blen v
  | DUtf8 s => blen (enc8 s)
  | DUtf16 s => blen (enc16 s)
  | DJpeg v => blen v
  | DPng v => blen v
  | DBeSigned v => blen v
  | DBmp v => blen v
  end.

(** [Data::is_empty], data.rs 145-147. *)
Definition data_is_empty (d : data) : bool := data_len d =? 0.

(** [Data::is_bytes], data.rs 150-152. *)
Definition data_is_bytes (d : data) : bool :=
  match d with DReserved _ | DBeSigned _ => true | _ => false end.
(** [Data::is_string], data.rs 155-157. *)
Definition data_is_string (d : data) : bool :=
  match d with DUtf8 _ | DUtf16 _ => true | _ => false end.
(** [Data::is_image], data.rs 161-163. *)
Definition data_is_image (d : data) : bool :=
  match d with DJpeg _ | DPng _ | DBmp _ => true | _ => false end.

(** [Data::bytes]/[into_bytes], data.rs 202-228. *)
Definition data_bytes (d : data) : option bytes :=
  match d with DReserved v => Some v | DBeSigned v => Some v | _ => None end.
(** [Data::string]/[into_string], data.rs 231-256. *)
Definition data_string (d : data) : option ustring :=
  match d with DUtf8 s => Some s | DUtf16 s => Some s | _ => None end.
(** [Data::image]/[into_image], data.rs 260-289. *)
Definition data_image (d : data) : option img :=
  match d with
  | DJpeg v => Some (Img FJpeg v)
  | DPng v => Some (Img FPng v)
  | DBmp v => Some (Img FBmp v)
  | _ => None
  end.
(** [Data::image_data]/[into_image_data], data.rs 293-307. *)
Definition data_image_data (d : data) : option bytes :=
  option_map img_data (data_image d).

(** [Data::bytes_mut], data.rs 212-218: what remains after assigning through the reference. *)
Definition data_set_bytes (d : data) (v : bytes) : data :=
  match d with DReserved _ => DReserved v | DBeSigned _ => DBeSigned v | _ => d end.

(** * Audio information *)

(** src/types.rs 195-211. *)
Inductive channel_config := Mono | Stereo | Three | Four | Five | FiveOne | SevenOne.

(** [TryFrom<u8> for ChannelConfig], src/types.rs 212-230, followed by [.ok()]. *)
Definition channel_config_of (n : N) : option channel_config :=
  match n with
  | 1 => Some Mono | 2 => Some Stereo | 3 => Some Three | 4 => Some Four
  | 5 => Some Five | 6 => Some FiveOne | 7 => Some SevenOne
  | _ => None
  end.

(** [ChannelConfig::channel_count], src/types.rs 234-244. *)
Definition channel_count (c : channel_config) : N :=
  match c with
  | Mono => 1 | Stereo => 2 | Three => 3 | Four => 4 | Five => 5 | FiveOne => 6 | SevenOne => 8
  end.

(** src/types.rs 263-291. *)
Inductive sample_rate :=
| Hz96000 | Hz88200 | Hz64000 | Hz48000 | Hz44100 | Hz32000 | Hz24000 | Hz22050
| Hz16000 | Hz12000 | Hz11025 | Hz8000 | Hz7350.

(** [TryFrom<u8> for SampleRate], src/types.rs 293-317, followed by [.ok()]. *)
Definition sample_rate_of (n : N) : option sample_rate :=
  match n with
  | 0 => Some Hz96000 | 1 => Some Hz88200 | 2 => Some Hz64000 | 3 => Some Hz48000
  | 4 => Some Hz44100 | 5 => Some Hz32000 | 6 => Some Hz24000 | 7 => Some Hz22050
  | 8 => Some Hz16000 | 9 => Some Hz12000 | 10 => Some Hz11025 | 11 => Some Hz8000
  | 12 => Some Hz7350
  | _ => None
  end.

(** [SampleRate::hz], src/types.rs 327-343. *)
Definition hz (s : sample_rate) : N :=
  match s with
  | Hz96000 => 96000 | Hz88200 => 88200 | Hz64000 => 64000 | Hz48000 => 48000
  | Hz44100 => 44100 | Hz32000 => 32000 | Hz24000 => 24000 | Hz22050 => 22050
  | Hz16000 => 16000 | Hz12000 => 12000 | Hz11025 => 11025 | Hz8000 => 8000
  | Hz7350 => 7350
  end.

(** src/types.rs 347-359 [AudioInfo]; the duration is in nanoseconds. *)
Record audio_info := AudioInfo {
  ai_duration : option N;
  ai_channels : option channel_config;
  ai_rate : option sample_rate;
  ai_max : option N;
  ai_avg : option N
}.
Definition default_info := AudioInfo None None None None None.

(** * Media type and advisory rating *)

(** src/types.rs 79-96. *)
Inductive media_type :=
| MTMovie | MTNormal | MTAudioBook | MTWhackedBookmark | MTMusicVideo | MTShortFilm | MTTvShow | MTBooklet.

(** [MediaType::code], src/types.rs 100-111. *)
Definition media_code (m : media_type) : N :=
  match m with
  | MTMovie => 0 | MTNormal => 1 | MTAudioBook => 2 | MTWhackedBookmark => 5
  | MTMusicVideo => 6 | MTShortFilm => 9 | MTTvShow => 10 | MTBooklet => 11
  end.

(** [TryFrom<u8> for MediaType], src/types.rs 114-133, followed by [.ok()]. *)
Definition media_of (n : N) : option media_type :=
  match n with
  | 0 => Some MTMovie | 1 => Some MTNormal | 2 => Some MTAudioBook | 5 => Some MTWhackedBookmark
  | 6 => Some MTMusicVideo | 9 => Some MTShortFilm | 10 => Some MTTvShow | 11 => Some MTBooklet
  | _ => None
  end.

(** src/types.rs 152-161. *)
Inductive advisory_rating := RClean | RInoffensive | RExplicit.

(** [AdvisoryRating::code], src/types.rs 165-171. *)
Definition rating_code (r : advisory_rating) : N :=
  match r with RClean => 2 | RInoffensive => 0 | RExplicit => 4 end.

(** [From<u8> for AdvisoryRating], src/types.rs 174-182. *)
Definition rating_of (n : N) : advisory_rating :=
  match n with 2 => RClean | 0 => RInoffensive | _ => RExplicit end.

(** * Atoms and tags *)

(** src/atom/mod.rs 155-160 [AtomData]. *)
Record atom_data := AtomData { ad_ident : data_ident; ad_data : list data }.

(** src/tag/mod.rs 23-30 [Tag]. *)
Record tag := Tag { tg_ftyp : ustring; tg_info : audio_info; tg_atoms : list atom_data }.

(** [Tag::default], derived, src/tag/mod.rs 22. *)
Definition default_tag := Tag [] default_info [].
