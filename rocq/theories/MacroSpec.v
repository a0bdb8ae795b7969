(** What the accessor macros are meant to do, stated without the functions of [Macro]: how the text of
    the arguments is taken apart, and which methods, with which effect, an invocation gives a tag. *)

From Coq Require Import List NArith Bool String.
From Verif Require Import Base Utf Types TagApi Display Macro.
Import ListNotations.
Local Open Scope list_scope.

(** * The arguments *)

(** [s] is [ps] joined by commas, and no piece contains one. *)
Inductive pieces : ustring -> list ustring -> Prop :=
| Pieces_last p : ~ In 44 p -> pieces p [p]
| Pieces_more p s ps : ~ In 44 p -> pieces s ps -> pieces (p ++ 44 :: s) (p :: ps).

(** The characters with the property White_Space in the Unicode character database. *)
Definition blank (c : N) : Prop :=
  In c [9; 10; 11; 12; 13; 32; 133; 160; 5760; 8192; 8193; 8194; 8195; 8196; 8197; 8198; 8199; 8200; 8201;
        8202; 8232; 8233; 8239; 8287; 12288].

(** [m] is [s] without the blanks around it. *)
Definition trimmed (s m : ustring) : Prop :=
  exists before after, s = before ++ m ++ after /\ Forall blank before /\ Forall blank after /\
    (forall c r, m = c :: r -> ~ blank c) /\ (forall c r, m = r ++ [c] -> ~ blank c).

(** [v] is [m] without its quotation marks. *)
Inductive unquoted : ustring -> ustring -> Prop :=
| Unquoted_nil : unquoted [] []
| Unquoted_mark m v : unquoted m v -> unquoted (34 :: m) v
| Unquoted_other c m v : c <> 34 -> unquoted m v -> unquoted (c :: m) (c :: v).

(** The value of a piece. *)
Definition argument (piece v : ustring) : Prop := exists m, trimmed piece m /\ unquoted m v.

(** The arguments are accepted and are [vi] and [code]: two pieces, and a third only if it is blank.
    What follows the third is not looked at. *)
Definition arguments (input vi code : ustring) : Prop :=
  exists p1 p2 rest, pieces input (p1 :: p2 :: rest) /\ argument p1 vi /\ vi <> [] /\
    argument p2 code /\ code <> [] /\
    forall p3 more, rest = p3 :: more -> Forall blank p3.

(** The arguments are refused with a message. *)
Inductive refused (input : ustring) : ustring -> Prop :=
| Refused_first p1 rest : pieces input (p1 :: rest) -> argument p1 [] ->
    refused input (txt "Found empty value identifier.")
| Refused_one p1 vi : pieces input [p1] -> argument p1 vi -> vi <> [] ->
    refused input (txt "Missing second positional argument: atom ident string")
| Refused_second p1 vi p2 rest : pieces input (p1 :: p2 :: rest) -> argument p1 vi -> vi <> [] ->
    argument p2 [] -> refused input (txt "Found empty atom identifier string.")
| Refused_third p1 vi p2 code p3 rest arg : pieces input (p1 :: p2 :: p3 :: rest) ->
    argument p1 vi -> vi <> [] -> argument p2 code -> code <> [] -> trimmed p3 arg -> arg <> [] ->
    refused input (txt "Found unexpected third positional argument: " ++ arg ++ txt ".").

(** * The words made of an identifier *)

(** Underscores are written as blanks. *)
Definition spaced : ustring -> ustring -> Prop :=
  Forall2 (fun c d => c = 95 /\ d = 32 \/ c <> 95 /\ d = c).

(** The plural: y becomes ies, otherwise an s is added. *)
Inductive plural : ustring -> ustring -> Prop :=
| Plural_y stem : plural (stem ++ txt "y") (stem ++ txt "ies")
| Plural_s s : (forall stem, s <> stem ++ txt "y") -> plural s (s ++ txt "s").

(** What is assumed of the upper case of the standard library: right on ASCII. *)
Definition upper_case (up : N -> ustring) : Prop :=
  (forall c, 97 <= c <= 122 -> up c = [c - 32]) /\
  (forall c, c < 97 \/ 122 < c < 128 -> up c = [c]).

(** * The methods *)

(** The label of a line and its value. *)
Definition line (label s : ustring) : ustring := label ++ txt ": " ++ s ++ nl.
Definition line_opt (label : ustring) (o : option ustring) : ustring :=
  match o with Some s => line label s | None => [] end.

(** The methods of an accessor of kind [k] for the item [i] under the name [vi]: the method [n] with
    argument [a], called on a tag with the items [l], returns [r] and leaves [l']. *)
Inductive offered (k : macro) (vi : ustring) (i : ident_arg) :
    ustring -> arg -> atoms -> value -> atoms -> Prop :=
| O_text l : k = MSingle \/ k = MMultiple ->
    offered k vi i vi NoArg l (VText (get_string i l)) l
| O_take_text l : k = MSingle \/ k = MMultiple ->
    offered k vi i (txt "take_" ++ vi) NoArg l (VText (fst (take_string i l))) (snd (take_string i l))
| O_set_text l s : k = MSingle \/ k = MMultiple ->
    offered k vi i (txt "set_" ++ vi) (TextArg s) l VNone (set_string i l s)
| O_format_text l label : k = MSingle -> spaced vi label ->
    offered k vi i (txt "format_" ++ vi) NoArg l (VWritten (line_opt label (get_string i l))) l
| O_remove l : k <> MMultiple ->
    offered k vi i (txt "remove_" ++ vi) NoArg l VNone (remove_item i l)
| O_texts l vip : k = MMultiple -> plural vi vip ->
    offered k vi i vip NoArg l (VTexts (get_strings i l)) l
| O_take_texts l vip : k = MMultiple -> plural vi vip ->
    offered k vi i (txt "take_" ++ vip) NoArg l
      (VTexts (fst (take_all_strings i l))) (snd (take_all_strings i l))
| O_set_texts l s vip : k = MMultiple -> plural vi vip ->
    offered k vi i (txt "set_" ++ vip) (TextsArg s) l VNone (set_strings i l s)
| O_add_text l s : k = MMultiple ->
    offered k vi i (txt "add_" ++ vi) (TextArg s) l VNone (add_string i l s)
| O_add_texts l s vip : k = MMultiple -> plural vi vip ->
    offered k vi i (txt "add_" ++ vip) (TextsArg s) l VNone (add_strings i l s)
| O_remove_all l vip : k = MMultiple -> plural vi vip ->
    offered k vi i (txt "remove_" ++ vip) NoArg l VNone (remove_item i l)
| O_format_many l vip label : k = MMultiple -> plural vi vip -> spaced vip label ->
    (1 < List.length (get_strings i l))%nat ->
    offered k vi i (txt "format_" ++ vip) NoArg l
      (VWritten (label ++ txt ":" ++ nl ++
                 List.concat (map (fun s => txt "    " ++ s ++ nl) (get_strings i l)))) l
| O_format_few l vip label : k = MMultiple -> plural vi vip -> spaced vi label ->
    (List.length (get_strings i l) <= 1)%nat ->
    offered k vi i (txt "format_" ++ vip) NoArg l (VWritten (line_opt label (get_string i l))) l
| O_flag l : k = MFlag -> offered k vi i vi NoArg l (VBool (get_flag i l)) l
| O_set_flag l : k = MFlag -> offered k vi i (txt "set_" ++ vi) NoArg l VNone (set_flag i l)
| O_format_flag l label : k = MFlag -> spaced vi label ->
    offered k vi i (txt "format_" ++ vi) NoArg l (VWritten (if get_flag i l then label ++ nl else [])) l
| O_int l size : k = MU16 /\ size = 2%nat \/ k = MU32 /\ size = 4%nat ->
    offered k vi i vi NoArg l (VNum (get_int size i l)) l
| O_set_int l size n : k = MU16 /\ size = 2%nat \/ k = MU32 /\ size = 4%nat ->
    offered k vi i (txt "set_" ++ vi) (NumArg n) l VNone (set_int size i l n)
| O_format_int l size label : k = MU16 /\ size = 2%nat \/ k = MU32 /\ size = 4%nat -> spaced vi label ->
    offered k vi i (txt "format_" ++ vi) NoArg l
      (VWritten (line_opt label (match get_int size i l with Some n => Some (dec n) | None => None end))) l.

(** The code of an item as it is written in the documentation: the four bytes as Latin-1 characters,
    or ----:mean:name. *)
Inductive coded : ident_arg -> ustring -> Prop :=
| Coded_fourcc a b c d : coded (AFourcc (FourCC a b c d)) [b2n a; b2n b; b2n c; b2n d]
| Coded_freeform mean name : coded (AFreeform mean name) (txt "----:" ++ mean ++ txt ":" ++ name).

(** The accessors of a tag: kind, name and code of the item. *)
Definition accessors : list (macro * string * ustring) :=
  [(MSingle, "album", 169 :: txt "alb"); (MSingle, "copyright", txt "cprt");
   (MSingle, "encoder", 169 :: txt "too"); (MSingle, "lyrics", 169 :: txt "lyr");
   (MSingle, "movement", 169 :: txt "mvn"); (MSingle, "title", 169 :: txt "nam");
   (MSingle, "tv_episode_name", txt "tven"); (MSingle, "tv_network_name", txt "tvnn");
   (MSingle, "tv_show_name", txt "tvsh"); (MSingle, "work", 169 :: txt "wrk");
   (MSingle, "year", 169 :: txt "day"); (MSingle, "isrc", txt "----:com.apple.iTunes:ISRC");
   (MMultiple, "album_artist", txt "aART"); (MMultiple, "artist", 169 :: txt "ART");
   (MMultiple, "category", txt "catg"); (MMultiple, "comment", 169 :: txt "cmt");
   (MMultiple, "composer", 169 :: txt "wrt"); (MMultiple, "custom_genre", 169 :: txt "gen");
   (MMultiple, "description", txt "desc"); (MMultiple, "grouping", 169 :: txt "grp");
   (MMultiple, "keyword", txt "keyw"); (MMultiple, "lyricist", txt "----:com.apple.iTunes:LYRICIST");
   (MFlag, "compilation", txt "cpil"); (MFlag, "gapless_playback", txt "pgap");
   (MFlag, "show_movement", txt "shwm"); (MU16, "bpm", txt "tmpo");
   (MU16, "movement_count", 169 :: txt "mvc"); (MU16, "movement_index", 169 :: txt "mvi");
   (MU32, "tv_episode", txt "tves"); (MU32, "tv_season", txt "tvsn")]%string.
