(** The accessor macros of the crate mp4ameta_proc (proc/src/lib.rs) and what they expand to for the
    invocations of src/tag/mod.rs 128-165.

    A macro receives the text of its arguments ([TokenStream::to_string]) and returns an [impl Tag]
    block.  The text of a block is modelled by its methods: visibility, name and body.  The body is one
    of the shapes the five templates contain, with the holes filled as [format!] fills them: a path
    ([ident::ALBUM]), names of other methods of [Tag] and labels are texts, which [run] looks up.

    Not modelled: the documentation comments, the parsing of the returned text by the compiler (a
    value identifier that is not a Rust identifier, or a label with braces, would not compile), and
    the upper case of characters that are not ASCII, which is the parameter [up]. *)

From Coq Require Import List NArith Bool String.
From Verif Require Import Base Utf Types TagApi Display.
Import ListNotations.
Local Open Scope list_scope.

(** * The arguments, lib.rs 3-39 *)

(** [str::split(',')]: the pieces between the separators, at least one. *)
Fixpoint split_on (c : N) (s : ustring) : list ustring :=
  match s with
  | [] => [[]]
  | x :: r => if x =? c then [] :: split_on c r
              else match split_on c r with
                   | p :: q => (x :: p) :: q
                   | [] => [[x]]
                   end
  end.

(** [char::is_whitespace]: the property White_Space. *)
Definition white (c : N) : bool :=
  ((9 <=? c) && (c <=? 13)) || (c =? 32) || (c =? 133) || (c =? 160) || (c =? 5760) ||
  ((8192 <=? c) && (c <=? 8202)) || (c =? 8232) || (c =? 8233) || (c =? 8239) || (c =? 8287) ||
  (c =? 12288).

Fixpoint trim_start (s : ustring) : ustring :=
  match s with
  | [] => []
  | c :: r => if white c then trim_start r else s
  end.
(** [str::trim]. *)
Definition trim (s : ustring) : ustring := rev (trim_start (rev (trim_start s))).

(** Removing every quotation mark, lib.rs 11 and 27. *)
Definition unquote (s : ustring) : ustring := filter (fun c => negb (c =? 34)) s.

(** What [base_values] returns, lib.rs 38. *)
Record holes := Holes {
  v_ident : ustring;      (* value_ident *)
  v_name : ustring;       (* name *)
  v_headline : ustring;   (* headline *)
  v_path : ustring;       (* atom_ident *)
  v_text : ustring        (* atom_ident_string *)
}.

(** The result of a macro: a block, or a panic with its message (a compile error). *)
Inductive mres (A : Type) := Expanded (x : A) | Rejected (message : ustring).
Arguments Expanded {A} x.
Arguments Rejected {A} message.

(** [base_values], lib.rs 3-39.  The first [expect] cannot fail, [split] yields at least one piece,
    but is kept.  [up] is [char::to_uppercase]. *)
Definition base_values (up : N -> ustring) (input : ustring) : mres holes :=
  match split_on 44 input with
  | [] => Rejected (txt "Missing first positional argument: value identifier")
  | p1 :: rest =>
    let value_ident := unquote (trim p1) in
    match value_ident with
    | [] => Rejected (txt "Found empty value identifier.")
    | _ :: _ =>
      let name := macro_name value_ident in
      let headline := match name with [] => [] | c :: r => up c ++ r end in
      let atom_ident := txt "ident::" ++ flat_map up value_ident in
      match rest with
      | [] => Rejected (txt "Missing second positional argument: atom ident string")
      | p2 :: rest' =>
        let atom_ident_string := unquote (trim p2) in
        match atom_ident_string with
        | [] => Rejected (txt "Found empty atom identifier string.")
        | _ :: _ =>
          let result := Expanded (Holes value_ident name headline atom_ident atom_ident_string) in
          match rest' with
          | [] => result
          | p3 :: _ =>
            match trim p3 with
            | [] => result
            | arg => Rejected (txt "Found unexpected third positional argument: " ++ arg ++ txt ".")
            end
          end
        end
      end
    end
  end.

(** * The blocks *)

(** The shapes of the bodies; [p] is the path of the identifier. *)
Inductive body :=
| BNextString (p : ustring)              (* self.strings_of(&p).next() *)
| BStrings (p : ustring)                 (* self.strings_of(&p) *)
| BTakeNextString (p : ustring)          (* self.take_strings_of(&p).next() *)
| BTakeStrings (p : ustring)             (* self.take_strings_of(&p) *)
| BSetUtf8 (p : ustring)                 (* self.set_data(p, Data::Utf8(arg.into())) *)
| BSetAllUtf8 (p : ustring)              (* self.set_all_data(p, arg.map(Data::Utf8)) *)
| BAddUtf8 (p : ustring)                 (* self.add_data(p, Data::Utf8(arg.into())) *)
| BAddAllUtf8 (p : ustring)              (* self.add_all_data(p, arg.map(Data::Utf8)) *)
| BRemove (p : ustring)                  (* self.remove_data_of(&p) *)
| BFlag (p : ustring)                    (* first byte of the first value is 1 *)
| BSetFlag (p : ustring)                 (* self.set_data(p, Data::BeSigned(vec![1])) *)
| BInt (size : nat) (p : ustring)        (* be_int!(self.bytes_of(&p).next()?, 0, ..) *)
| BSetInt (size : nat) (p : ustring)     (* self.set_data(p, Data::BeSigned(arg.to_be_bytes())) *)
| BFormatOne (callee label : ustring)    (* match self.callee() { Some(s) => "label: s\n" .. } *)
| BFormatMany (callees callee labels label : ustring)
| BFormatFlag (callee label : ustring).  (* match self.callee() { true => "label\n" .. } *)

Record method := Method { m_public : bool; m_name : ustring; m_body : body }.

(** single_string_value_accessor, lib.rs 41-86. *)
Definition single_block (v : holes) : list method :=
  let vi := v_ident v in let ai := v_path v in
  [Method true vi (BNextString ai);
   Method true (txt "take_" ++ vi) (BTakeNextString ai);
   Method true (txt "set_" ++ vi) (BSetUtf8 ai);
   Method true (txt "remove_" ++ vi) (BRemove ai);
   Method false (txt "format_" ++ vi) (BFormatOne vi (v_name v))].

(** multiple_string_values_accessor, lib.rs 88-177. *)
Definition multiple_block (v : holes) : list method :=
  let vi := v_ident v in let ai := v_path v in
  let vip := macro_plural vi in
  let np := macro_name vip in
  [Method true vip (BStrings ai);
   Method true vi (BNextString ai);
   Method true (txt "take_" ++ vip) (BTakeStrings ai);
   Method true (txt "take_" ++ vi) (BTakeNextString ai);
   Method true (txt "set_" ++ vip) (BSetAllUtf8 ai);
   Method true (txt "set_" ++ vi) (BSetUtf8 ai);
   Method true (txt "add_" ++ vip) (BAddAllUtf8 ai);
   Method true (txt "add_" ++ vi) (BAddUtf8 ai);
   Method true (txt "remove_" ++ vip) (BRemove ai);
   Method false (txt "format_" ++ vip) (BFormatMany vip vi np (v_name v))].

(** flag_value_accessor, lib.rs 179-223. *)
Definition flag_block (v : holes) : list method :=
  let vi := v_ident v in let ai := v_path v in
  [Method true vi (BFlag ai);
   Method true (txt "set_" ++ vi) (BSetFlag ai);
   Method true (txt "remove_" ++ vi) (BRemove ai);
   Method false (txt "format_" ++ vi) (BFormatFlag vi (v_name v))].

(** u16_value_accessor, lib.rs 225-267 ([size] = 2); u32_value_accessor, 269-311 ([size] = 4). *)
Definition int_block (size : nat) (v : holes) : list method :=
  let vi := v_ident v in let ai := v_path v in
  [Method true vi (BInt size ai);
   Method true (txt "set_" ++ vi) (BSetInt size ai);
   Method true (txt "remove_" ++ vi) (BRemove ai);
   Method false (txt "format_" ++ vi) (BFormatOne vi (v_name v))].

Inductive macro := MSingle | MMultiple | MFlag | MU16 | MU32.

Definition block (k : macro) : holes -> list method :=
  match k with
  | MSingle => single_block
  | MMultiple => multiple_block
  | MFlag => flag_block
  | MU16 => int_block 2
  | MU32 => int_block 4
  end.

Definition expand (up : N -> ustring) (k : macro) (input : ustring) : mres (list method) :=
  match base_values up input with
  | Expanded v => Expanded (block k v)
  | Rejected e => Rejected e
  end.

(** All the methods a sequence of invocations adds to [Tag]. *)
Fixpoint expand_all (up : N -> ustring) (is : list (macro * ustring)) : mres (list method) :=
  match is with
  | [] => Expanded []
  | (k, input) :: r =>
    match expand up k input with
    | Rejected e => Rejected e
    | Expanded ms => match expand_all up r with
                     | Rejected e => Rejected e
                     | Expanded ms' => Expanded (ms ++ ms')
                     end
    end
  end.

(** * The invocations, src/tag/mod.rs 128-165, as the text the compiler passes: the literals as they are
      written, separated by a comma and a blank. *)

Definition invocation (vi : string) (ais : ustring) : ustring :=
  txt """" ++ txt vi ++ txt """, """ ++ ais ++ txt """".
(** A code that starts with the copyright sign. *)
Definition c_ (s : string) : ustring := 169 :: txt s.

Definition invocations : list (macro * ustring) :=
  [(MSingle, invocation "album" (c_ "alb"));
   (MSingle, invocation "copyright" (txt "cprt"));
   (MSingle, invocation "encoder" (c_ "too"));
   (MSingle, invocation "lyrics" (c_ "lyr"));
   (MSingle, invocation "movement" (c_ "mvn"));
   (MSingle, invocation "title" (c_ "nam"));
   (MSingle, invocation "tv_episode_name" (txt "tven"));
   (MSingle, invocation "tv_network_name" (txt "tvnn"));
   (MSingle, invocation "tv_show_name" (txt "tvsh"));
   (MSingle, invocation "work" (c_ "wrk"));
   (MSingle, invocation "year" (c_ "day"));
   (MSingle, invocation "isrc" (txt "----:com.apple.iTunes:ISRC"));
   (MMultiple, invocation "album_artist" (txt "aART"));
   (MMultiple, invocation "artist" (c_ "ART"));
   (MMultiple, invocation "category" (txt "catg"));
   (MMultiple, invocation "comment" (c_ "cmt"));
   (MMultiple, invocation "composer" (c_ "wrt"));
   (MMultiple, invocation "custom_genre" (c_ "gen"));
   (MMultiple, invocation "description" (txt "desc"));
   (MMultiple, invocation "grouping" (c_ "grp"));
   (MMultiple, invocation "keyword" (txt "keyw"));
   (MMultiple, invocation "lyricist" (txt "----:com.apple.iTunes:LYRICIST"));
   (MFlag, invocation "compilation" (txt "cpil"));
   (MFlag, invocation "gapless_playback" (txt "pgap"));
   (MFlag, invocation "show_movement" (txt "shwm"));
   (MU16, invocation "bpm" (txt "tmpo"));
   (MU16, invocation "movement_count" (c_ "mvc"));
   (MU16, invocation "movement_index" (c_ "mvi"));
   (MU32, invocation "tv_episode" (txt "tves"));
   (MU32, invocation "tv_season" (txt "tvsn"))].

(** * The constants of the module [ident], src/atom/ident.rs 5-149 *)

Definition constants : list (string * ident_arg) :=
  [("FILETYPE", AFourcc FILETYPE); ("MEDIA_DATA", AFourcc MEDIA_DATA); ("MOVIE", AFourcc MOVIE);
   ("MOVIE_HEADER", AFourcc MOVIE_HEADER); ("TRACK", AFourcc TRACK); ("MEDIA", AFourcc MEDIA);
   ("MEDIA_INFORMATION", AFourcc MEDIA_INFORMATION); ("SAMPLE_TABLE", AFourcc SAMPLE_TABLE);
   ("SAMPLE_TABLE_CHUNK_OFFSET", AFourcc SAMPLE_TABLE_CHUNK_OFFSET);
   ("SAMPLE_TABLE_CHUNK_OFFSET_64", AFourcc SAMPLE_TABLE_CHUNK_OFFSET_64);
   ("SAMPLE_TABLE_SAMPLE_DESCRIPTION", AFourcc SAMPLE_TABLE_SAMPLE_DESCRIPTION);
   ("MP4_AUDIO", AFourcc MP4_AUDIO);
   ("ELEMENTARY_STREAM_DESCRIPTION", AFourcc ELEMENTARY_STREAM_DESCRIPTION);
   ("USER_DATA", AFourcc USER_DATA); ("METADATA", AFourcc METADATA);
   ("HANDLER_REFERENCE", AFourcc HANDLER_REFERENCE); ("ITEM_LIST", AFourcc ITEM_LIST);
   ("DATA", AFourcc DATA); ("MEAN", AFourcc MEAN); ("NAME", AFourcc NAME); ("FREE", AFourcc FREE);
   ("FREEFORM", AFourcc FREEFORM); ("ADVISORY_RATING", AFourcc ADVISORY_RATING); ("ALBUM", AFourcc ALBUM);
   ("ALBUM_ARTIST", AFourcc ALBUM_ARTIST); ("ARTIST", AFourcc ARTIST); ("ARTWORK", AFourcc ARTWORK);
   ("BPM", AFourcc BPM); ("COMMENT", AFourcc COMMENT); ("COMPILATION", AFourcc COMPILATION);
   ("COMPOSER", AFourcc COMPOSER); ("COPYRIGHT", AFourcc COPYRIGHT);
   ("CUSTOM_GENRE", AFourcc CUSTOM_GENRE); ("DISC_NUMBER", AFourcc DISC_NUMBER);
   ("ENCODER", AFourcc ENCODER); ("STANDARD_GENRE", AFourcc STANDARD_GENRE); ("TITLE", AFourcc TITLE);
   ("TRACK_NUMBER", AFourcc TRACK_NUMBER); ("YEAR", AFourcc YEAR); ("GROUPING", AFourcc GROUPING);
   ("MEDIA_TYPE", AFourcc MEDIA_TYPE); ("CATEGORY", AFourcc CATEGORY); ("KEYWORD", AFourcc KEYWORD);
   ("PODCAST", AFourcc PODCAST);
   ("PODCAST_EPISODE_GLOBAL_UNIQUE_ID", AFourcc PODCAST_EPISODE_GLOBAL_UNIQUE_ID);
   ("PODCAST_URL", AFourcc PODCAST_URL); ("DESCRIPTION", AFourcc DESCRIPTION); ("LYRICS", AFourcc LYRICS);
   ("TV_EPISODE", AFourcc TV_EPISODE); ("TV_EPISODE_NAME", AFourcc TV_EPISODE_NAME);
   ("TV_NETWORK_NAME", AFourcc TV_NETWORK_NAME); ("TV_SEASON", AFourcc TV_SEASON);
   ("TV_SHOW_NAME", AFourcc TV_SHOW_NAME); ("PURCHASE_DATE", AFourcc PURCHASE_DATE);
   ("GAPLESS_PLAYBACK", AFourcc GAPLESS_PLAYBACK); ("MOVEMENT", AFourcc MOVEMENT);
   ("MOVEMENT_COUNT", AFourcc MOVEMENT_COUNT); ("MOVEMENT_INDEX", AFourcc MOVEMENT_INDEX);
   ("WORK", AFourcc WORK); ("SHOW_MOVEMENT", AFourcc SHOW_MOVEMENT); ("ISRC", ISRC);
   ("LYRICIST", LYRICIST)]%string.

Fixpoint eq_text (a b : ustring) : bool :=
  match a, b with
  | [], [] => true
  | x :: r, y :: s => (x =? y) && eq_text r s
  | _, _ => false
  end.

(** What a path denotes. *)
Definition constant (p : ustring) : option ident_arg :=
  match find (fun c => eq_text (txt "ident::" ++ txt (fst c)) p) constants with
  | Some c => Some (snd c)
  | None => None
  end.

(** * Calling a generated method *)

Inductive arg := NoArg | TextArg (s : ustring) | TextsArg (s : list ustring) | NumArg (n : N).
Inductive value :=
| VNone | VText (o : option ustring) | VTexts (s : list ustring) | VBool (b : bool) | VNum (o : option N)
| VWritten (s : ustring).

Definition lookup (ms : list method) (n : ustring) : option method :=
  find (fun m => eq_text (m_name m) n) ms.

(** The bodies that call no other generated method.  [None]: does not type-check. *)
Definition run_plain (b : body) (a : arg) (l : atoms) : option (value * atoms) :=
  match b, a with
  | BNextString p, NoArg =>
      match constant p with Some i => Some (VText (first (strings_of l i)), l) | None => None end
  | BStrings p, NoArg =>
      match constant p with Some i => Some (VTexts (strings_of l i), l) | None => None end
  | BTakeNextString p, NoArg =>
      match constant p with
      | Some i => let (s, r) := take_strings_of l i in Some (VText (first s), r)
      | None => None
      end
  | BTakeStrings p, NoArg =>
      match constant p with
      | Some i => let (s, r) := take_strings_of l i in Some (VTexts s, r)
      | None => None
      end
  | BSetUtf8 p, TextArg s =>
      match constant p with Some i => Some (VNone, set_data l i (DUtf8 s)) | None => None end
  | BSetAllUtf8 p, TextsArg s =>
      match constant p with Some i => Some (VNone, set_all_data l i (map DUtf8 s)) | None => None end
  | BAddUtf8 p, TextArg s =>
      match constant p with Some i => Some (VNone, add_data l i (DUtf8 s)) | None => None end
  | BAddAllUtf8 p, TextsArg s =>
      match constant p with Some i => Some (VNone, add_all_data l i (map DUtf8 s)) | None => None end
  | BRemove p, NoArg =>
      match constant p with Some i => Some (VNone, remove_data_of l i) | None => None end
  | BFlag p, NoArg =>
      match constant p with
      | Some i => Some (VBool (match first (bytes_of l i) with
                               | None => false
                               | Some v => match v with [] => false | b :: _ => b2n b =? 1 end
                               end), l)
      | None => None
      end
  | BSetFlag p, NoArg =>
      match constant p with Some i => Some (VNone, set_data l i (DBeSigned [n2b 1])) | None => None end
  | BInt size p, NoArg =>
      match constant p with
      | Some i => Some (VNum (match first (bytes_of l i) with
                              | None => None
                              | Some v => be_int v 0 size
                              end), l)
      | None => None
      end
  | BSetInt size p, NumArg n =>
      match constant p with Some i => Some (VNone, set_data l i (DBeSigned (be size n))) | None => None end
  | _, _ => None
  end.

(** [self.callee()]. *)
Definition ask (ms : list method) (callee : ustring) (l : atoms) : option value :=
  match lookup ms callee with
  | Some m => match run_plain (m_body m) NoArg l with Some (v, _) => Some v | None => None end
  | None => None
  end.

(** Writing the value of a call with a label, lib.rs 69-75, 206-212, 250-256. *)
Definition write_one (label : ustring) (v : value) : option ustring :=
  match v with
  | VText (Some s) => Some (label ++ txt ": " ++ s ++ nl)
  | VNum (Some n) => Some (label ++ txt ": " ++ dec n ++ nl)
  | VText None | VNum None => Some []
  | _ => None
  end.

Definition run (ms : list method) (b : body) (a : arg) (l : atoms) : option (value * atoms) :=
  match b, a with
  | BFormatOne callee label, NoArg =>
      match ask ms callee l with
      | Some v => match write_one label v with Some t => Some (VWritten t, l) | None => None end
      | None => None
      end
  | BFormatFlag callee label, NoArg =>
      match ask ms callee l with
      | Some (VBool f) => Some (VWritten (if f then label ++ nl else []), l)
      | _ => None
      end
  | BFormatMany callees callee labels label, NoArg =>   (* lib.rs 153-163 *)
      match ask ms callees l with
      | Some (VTexts ss) =>
          if Nat.ltb 1 (List.length ss)
          then Some (VWritten (labels ++ txt ":" ++ nl ++
                               List.concat (map (fun s => txt "    " ++ s ++ nl) ss)), l)
          else match ask ms callee l with
               | Some v => match write_one label v with Some t => Some (VWritten t, l) | None => None end
               | None => None
               end
      | _ => None
      end
  | _, _ => run_plain b a l
  end.

Definition call (ms : list method) (n : ustring) (a : arg) (l : atoms) : option (value * atoms) :=
  match lookup ms n with
  | Some m => run ms (m_body m) a l
  | None => None
  end.
