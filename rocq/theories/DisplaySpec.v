(** How the text of a tag is read back.  Uses nothing of [Display] and [TagApi]. *)

From Coq Require Import List NArith ZArith Bool String.
From Verif Require Import Base Utf Types.
Import ListNotations.
Local Open Scope list_scope.

Definition word (s : string) : ustring := map b2n (list_byte_of_string s).

(** The lines of a text; what follows the last line feed is ignored. *)
Fixpoint lines_from (cur : ustring) (t : ustring) : list ustring :=
  match t with
  | [] => []
  | c :: r => if c =? 10 then rev cur :: lines_from [] r else lines_from (c :: cur) r
  end.
Definition lines (t : ustring) : list ustring := lines_from [] t.

Fixpoint after (p t : ustring) : option ustring :=
  match p, t with
  | [], _ => Some t
  | x :: p', y :: t' => if x =? y then after p' t' else None
  | _ :: _, [] => None
  end.

Definition indented (l : ustring) : option ustring := after (word "    ") l.

(** The indented lines up to the next heading. *)
Fixpoint entries (ls : list ustring) : list ustring :=
  match ls with
  | [] => []
  | l :: r => match indented l with Some x => x :: entries r | None => [] end
  end.

(** What the text says about [label]: the rest of the first line [label: …]. *)
Fixpoint field (label : ustring) (ls : list ustring) : option ustring :=
  match ls with
  | [] => None
  | l :: r => match after (label ++ word ": ") l with Some v => Some v | None => field label r end
  end.

(** The same for labels with several values: either one line [label: …], or a line [plural:]
    followed by indented lines. *)
Fixpoint fields (label plural : ustring) (ls : list ustring) : list ustring :=
  match ls with
  | [] => []
  | l :: r =>
    if ustr_eqb l (plural ++ word ":") then entries r
    else match after (label ++ word ": ") l with Some v => [v] | None => fields label plural r end
  end.

(** * Numbers *)

Definition digit (c : N) : option N := if (48 <=? c) && (c <=? 57) then Some (c - 48) else None.

(** Longest prefix of digits and its value. *)
Fixpoint digits_from (acc : N) (t : ustring) : N * ustring :=
  match t with
  | [] => (acc, [])
  | c :: r => match digit c with Some d => digits_from (10 * acc + d) r | None => (acc, t) end
  end.

(** A decimal number at the front: at least one digit, no leading zeros. *)
Definition number (t : ustring) : option (N * ustring) :=
  match t with
  | [] => None
  | c :: r => match digit c with
              | None => None
              | Some 0 => match r with
                          | [] => Some (0, [])
                          | c' :: _ => match digit c' with Some _ => None | None => Some (0, r) end
                          end
              | Some d => Some (digits_from d r)
              end
  end.

Definition whole_number (t : ustring) : option N :=
  match number t with Some (n, []) => Some n | _ => None end.

(** Two digits below 60. *)
Definition sixtieth (t : ustring) : option (N * ustring) :=
  match t with
  | a :: b :: r => match digit a, digit b with
                   | Some x, Some y => if x <? 6 then Some (10 * x + y, r) else None
                   | _, _ => None
                   end
  | _ => None
  end.

(** A duration: the number of units and the unit in nanoseconds. *)
Definition clock (t : ustring) : option (N * N) :=
  match number t with
  | None => None
  | Some (a, r) =>
    if ustr_eqb r (word "ns") then Some (a, 1)
    else if ustr_eqb r (181 :: word "s") then Some (a, 1000)
    else if ustr_eqb r (word "ms") then Some (a, 1000000)
    else if ustr_eqb r (word "s") then Some (a, 1000000000)
    else match after (word ":") r with
         | None => None
         | Some r1 =>
           match sixtieth r1 with
           | None => None
           | Some (b, []) => Some (60 * a + b, 1000000000)
           | Some (b, r2) =>
             match after (word ":") r2 with
             | None => None
             | Some r3 => match sixtieth r3 with
                          | Some (c, []) => Some (3600 * a + 60 * b + c, 1000000000)
                          | _ => None
                          end
             end
           end
         end
  end.

(** [n], [n of m], [? of m]. *)
Definition pair_text (t : ustring) : option (option N * option N) :=
  match after (word "? of ") t with
  | Some r => match whole_number r with Some m => Some (None, Some m) | None => None end
  | None => match number t with
            | None => None
            | Some (n, []) => Some (Some n, None)
            | Some (n, r) => match after (word " of ") r with
                             | None => None
                             | Some r' => match whole_number r' with Some m => Some (Some n, Some m) | None => None end
                             end
            end
  end.

(** A number with a unit. *)
Definition with_unit (unit : string) (t : ustring) : option N :=
  match number t with Some (n, r) => if ustr_eqb r (word unit) then Some n else None | None => None end.

(** An image: format, number of units, unit in bytes. *)
Definition size_text (t : ustring) : option (N * N) :=
  match with_unit "" t with
  | Some n => Some (n, 1)
  | None => match with_unit "k" t with
            | Some n => Some (n, 1024)
            | None => match with_unit "M" t with Some n => Some (n, 1048576) | None => None end
            end
  end.
Definition image_text (t : ustring) : option (img_fmt * (N * N)) :=
  match after (word "png ") t with
  | Some r => match size_text r with Some x => Some (FPng, x) | None => None end
  | None => match after (word "jpeg ") t with
            | Some r => match size_text r with Some x => Some (FJpeg, x) | None => None end
            | None => match after (word "bmp ") t with
                      | Some r => match size_text r with Some x => Some (FBmp, x) | None => None end
                      | None => None
                      end
            end
  end.

(** [q] units of [u] are the amount [x], rounded down. *)
Definition rounded (x : N) (qu : N * N) : Prop := fst qu * snd qu <= x < (fst qu + 1) * snd qu.

(** * Headings *)

Fixpoint upto_colon (t : ustring) : ustring :=
  match t with [] => [] | c :: r => if c =? 58 then [] else c :: upto_colon r end.

(** The labels of the lines that are not indented, in order. *)
Fixpoint headings (ls : list ustring) : list ustring :=
  match ls with
  | [] => []
  | l :: r => match indented l with Some _ => headings r | None => upto_colon l :: headings r end
  end.

Inductive subseq {A} : list A -> list A -> Prop :=
| Sub_nil : subseq [] []
| Sub_skip x l m : subseq l m -> subseq l (x :: m)
| Sub_take x l m : subseq l m -> subseq (x :: l) (x :: m).

(** * Tags whose strings fit on a line *)

Definition one_line (s : ustring) : Prop := ~ In 10 s.

Definition data_one_line (d : data) : Prop :=
  match d with DUtf8 s | DUtf16 s => one_line s | _ => True end.
Definition ident_one_line (i : data_ident) : Prop :=
  match i with IFourcc _ => True | IFreeform me na => one_line me /\ one_line na end.
Definition item_one_line (a : atom_data) : Prop :=
  ident_one_line (ad_ident a) /\ Forall data_one_line (ad_data a).
Definition tag_one_line (t : tag) : Prop :=
  one_line (tg_ftyp t) /\ Forall item_one_line (tg_atoms t).

(** * The documented names *)

(** All headings before the freeform items, in order. *)
Definition display_order : list string :=
  ["album artist"; "album artists"; "artist"; "artists"; "composer"; "composers"; "lyricist"; "lyricists"; "album";
   "title"; "genre"; "genres"; "year"; "track"; "disc"; "artwork"; "artworks"; "advisory rating"; "media type";
   "grouping"; "groupings"; "description"; "descriptions"; "comment"; "comments"; "category"; "categories";
   "keyword"; "keywords"; "copyright"; "encoder"; "tv show name"; "tv network name"; "tv episode name"; "tv episode";
   "tv season"; "bpm"; "movement"; "work"; "movement count"; "movement index"; "duration"; "channel config";
   "sample rate"; "average bitrate"; "maximum bitrate"; "show movement"; "gapless playback"; "compilation"; "isrc";
   "lyrics"]%string.

Definition media_names : list (string * media_type) :=
  [("Movie", MTMovie); ("Normal", MTNormal); ("Audiobook", MTAudioBook); ("Whacked Bookmark", MTWhackedBookmark);
   ("Music Video", MTMusicVideo); ("Short Film", MTShortFilm); ("TV-Show", MTTvShow); ("Booklet", MTBooklet)]%string.
Definition rating_names : list (string * advisory_rating) :=
  [("Clean", RClean); ("Inoffensive", RInoffensive); ("Explicit", RExplicit)]%string.
Definition channel_names : list (string * channel_config) :=
  [("Mono", Mono); ("Stereo", Stereo); ("3.0", Three); ("4.0", Four); ("5.0", Five); ("5.1", FiveOne);
   ("7.1", SevenOne)]%string.

Fixpoint named_value {A} (names : list (string * A)) (s : ustring) : option A :=
  match names with
  | [] => None
  | (w, x) :: r => if ustr_eqb s (word w) then Some x else named_value r s
  end.

(** Reading an optional line. *)
Definition read_line {A} (g : ustring -> option A) (o : option ustring) : option (option A) :=
  match o with
  | None => Some None
  | Some s => match g s with Some x => Some (Some x) | None => None end
  end.

(** * The values of freeform items *)

(** Numbers separated by [, ] up to a closing bracket, and what follows. *)
Fixpoint numbers (fuel : nat) (t : ustring) : option (list N * ustring) :=
  match fuel with
  | O => None
  | S fuel' =>
    match number t with
    | None => None
    | Some (n, r) =>
      match after (word ", ") r with
      | Some r' => match numbers fuel' r' with Some (ns, x) => Some (n :: ns, x) | None => None end
      | None => match after (word "]") r with Some x => Some ([n], x) | None => None end
      end
    end
  end.
Definition number_list (t : ustring) : option (list N * ustring) :=
  match after (word "[") t with
  | None => None
  | Some r => match after (word "]") r with
              | Some x => Some ([], x)
              | None => numbers (List.length r) r
              end
  end.

(** [s] is the text of the value [d]: the kind, and for integer data all bytes, for strings their
    [Debug] text; images only name their format. *)
Definition shows (dbg : ustring -> ustring) (d : data) (s : ustring) : Prop :=
  match d with
  | DReserved v => exists r, after (word "Data::Reserved(") s = Some r /\ number_list r = Some (map b2n v, word ")")
  | DBeSigned v => exists r, after (word "Data::BeSigned(") s = Some r /\ number_list r = Some (map b2n v, word ")")
  | DUtf8 u => s = word "Data::Utf8(" ++ dbg u ++ word ")"
  | DUtf16 u => s = word "Data::Utf16(" ++ dbg u ++ word ")"
  | DJpeg _ => s = word "Data::Jpeg"
  | DPng _ => s = word "Data::Png"
  | DBmp _ => s = word "Data::Bmp"
  end.

(** A block of lines showing one freeform item. *)
Definition shows_item (dbg : ustring -> ustring) (a : atom_data) (ls : list ustring) : Prop :=
  match ad_ident a, ls with
  | IFreeform me na, h :: r =>
    h = word "----:" ++ me ++ word ":" ++ na ++ word ":" /\
    Forall2 (fun d l => exists s, indented l = Some s /\ shows dbg d s) (ad_data a) r
  | _, _ => False
  end.

Definition is_freeform (a : atom_data) : bool :=
  match ad_ident a with IFreeform _ _ => true | IFourcc _ => false end.
