(** Specification vocabulary for theorems about reading: atoms at a path. *)

From Coq Require Import List NArith Bool String.
From Verif Require Import Base Utf Types TagSpec FileSpec.
Import ListNotations.
Local Open Scope list_scope.

(** The atom reached by following the last child of each name. *)
Fixpoint last_at (path : list string) (l : list atom) : option atom :=
  match path with
  | [] => None
  | [i] => last_opt (named_kids (id4 i) l)
  | i :: p => match last_opt (named_kids (id4 i) l) with Some a => last_at p (a_kids a) | None => None end
  end.

(** The item list of a file. *)
Definition item_list (f : list atom) : option atom := last_at ["moov"; "udta"; "meta"; "ilst"]%string f.
(** The movie header of a file. *)
Definition movie_header (f : list atom) : option atom := last_at ["moov"; "mvhd"]%string f.
(** The tracks of a file. *)
Definition tracks (f : list atom) : list atom :=
  match last_at ["moov"%string] f with Some m => named_kids (id4 "trak") (a_kids m) | None => [] end.

(** The items of an item list that are not padding. *)
Definition real_items (a : atom) : list atom := filter (fun k => negb (is_named (id4 "free") k)) (a_kids a).

(** All values of a list of items. *)
Definition every_value (l : list atom_data) : list (data_ident * data) :=
  flat_map (fun a => map (pair (ad_ident a)) (ad_data a)) l.

(** The type codes with a known meaning. *)
Definition known_codes : list N := [0; 1; 2; 13; 14; 21; 27].

(** The sample entry of a track. *)
Definition sample_entry (a : atom) : option atom := last_at ["mdia"; "minf"; "stbl"; "stsd"; "mp4a"]%string (a_kids a).

(** The same information with another duration. *)
Definition with_duration (d : N) (i : audio_info) : audio_info :=
  AudioInfo (Some d) (ai_channels i) (ai_rate i) (ai_max i) (ai_avg i).

(** ** Every layout of a sample entry *)

(** Choices that do not matter: descriptor length widths, the bytes in front of the interesting
    fields, additional descriptors, what follows. *)
Record layout := Layout {
  ly_entry : bytes; ly_flags : bytes; ly_ext : bool;
  ly_w3 : nat; ly_w4 : nat; ly_w5 : nat;
  ly_es : bytes; ly_dc : bytes;
  ly_es_before : list desc; ly_es_behind : list desc;
  ly_dc_before : list desc; ly_dc_behind : list desc;
  ly_rest : bytes; ly_atoms : list atom }.

Definition ly_ds_desc (l : layout) (ds : bytes) : desc := Desc (n2b 5) (ly_w5 l) ds.
Definition ly_dc_desc (l : layout) (mx av : N) (ds : bytes) : desc :=
  Desc (n2b 4) (ly_w4 l) ((ly_dc l ++ be 4 mx ++ be 4 av) ++
    flat_map render_desc (ly_dc_before l ++ ly_ds_desc l ds :: ly_dc_behind l)).
Definition ly_es_desc (l : layout) (mx av : N) (ds : bytes) : desc :=
  Desc (n2b 3) (ly_w3 l) (ly_es l ++ flat_map render_desc (ly_es_before l ++ ly_dc_desc l mx av ds :: ly_es_behind l)).
Definition ly_esds (l : layout) (mx av : N) (ds : bytes) : atom :=
  Atom (ly_ext l) (id4 "esds") ((n2b 0 :: ly_flags l) ++ render_desc (ly_es_desc l mx av ds) ++ ly_rest l) [].
(** Content of the sample entry: maximum bitrate, average bitrate, decoder specific info. *)
Definition ly_kids (l : layout) (mx av : N) (ds : bytes) : list atom := ly_esds l mx av ds :: ly_atoms l.

Definition other_tag (t : N) (d : desc) : Prop := good_desc d /\ b2n (d_tag d) <> t.
Definition good_layout (l : layout) (mx av : N) (ds : bytes) : Prop :=
  List.length (ly_entry l) = 28%nat /\ List.length (ly_flags l) = 3%nat /\
  List.length (ly_es l) = 3%nat /\ List.length (ly_dc l) = 5%nat /\
  Forall (other_tag 4) (ly_es_before l ++ ly_es_behind l) /\ Forall (other_tag 5) (ly_dc_before l ++ ly_dc_behind l) /\
  good_desc (ly_ds_desc l ds) /\ good_desc (ly_dc_desc l mx av ds) /\ good_desc (ly_es_desc l mx av ds).

(** ** Failing reads *)

(** How a read can fail. *)
Inductive bad := BadErr (e : err) | BadPanic (p : panic).
Definition raise {A} (b : bad) : res A := match b with BadErr e => Err e | BadPanic p => Panic p end.

(** A place for an item in a file: everything around it. *)
Record place := Place {
  at_ft : atom; at_pre : list atom; at_post : list atom;
  at_moov : bool; at_moov_pre : list atom; at_moov_post : list atom;
  at_udta : bool; at_udta_pre : list atom; at_udta_post : list atom;
  at_meta : bool; at_meta_head : bytes; at_meta_pre : list atom; at_meta_post : list atom;
  at_ilst : bool; at_ilst_pre : list atom; at_ilst_post : list atom }.
Definition put_ilst (c : place) (it : atom) : atom :=
  Atom (at_ilst c) (id4 "ilst") [] (at_ilst_pre c ++ it :: at_ilst_post c).
Definition put_meta (c : place) (it : atom) : atom :=
  Atom (at_meta c) (id4 "meta") (at_meta_head c) (at_meta_pre c ++ put_ilst c it :: at_meta_post c).
Definition put_udta (c : place) (it : atom) : atom :=
  Atom (at_udta c) (id4 "udta") [] (at_udta_pre c ++ put_meta c it :: at_udta_post c).
Definition put_moov (c : place) (it : atom) : atom :=
  Atom (at_moov c) (id4 "moov") [] (at_moov_pre c ++ put_udta c it :: at_moov_post c).
Definition put (c : place) (it : atom) : list atom := at_ft c :: at_pre c ++ put_moov c it :: at_post c.

Definition utf8_bytes (b : bytes) : Prop := exists s, wf_ustr s = true /\ enc8 s = b.
Definition utf16_be_bytes (b : bytes) : Prop := exists s, wf_ustr s = true /\ flat_map (be 2) (enc16 s) = b.

(** Content of a value that makes reading fail. *)
Inductive bad_data (m : mode) (c : bytes) : bad -> Prop :=
| bd_version : forall v r, c = v :: r -> (3 <= List.length r)%nat -> b2n v <> 0 ->
    bad_data m c (BadErr (EUnknownVersion (b2n v)))
| bd_type : forall code loc r, c = n2b 0 :: be 3 code ++ loc ++ r -> code < 2 ^ 24 -> List.length loc = 4%nat ->
    ~ In code known_codes -> bad_data m c (BadErr (EUnknownDataType code))
| bd_utf8 : forall loc r, c = n2b 0 :: be 3 1 ++ loc ++ r -> List.length loc = 4%nat -> ~ utf8_bytes r ->
    bad_data m c (BadErr EUtf8)
| bd_utf16 : forall loc r, c = n2b 0 :: be 3 2 ++ loc ++ r -> List.length loc = 4%nat -> Nat.even (List.length r) = true ->
    ~ utf16_be_bytes r -> bad_data m c (BadErr EUtf16)
| bd_short_debug : forall fl r, m = Checked -> c = n2b 0 :: fl ++ r -> List.length fl = 3%nat -> (List.length r < 4)%nat ->
    bad_data m c (BadPanic POverflow)
| bd_short_release : forall code r, m = Wrapping -> c = n2b 0 :: be 3 code ++ r -> In code known_codes -> (List.length r < 4)%nat ->
    bad_data m c (BadPanic PCapacity).
(** Content of a `mean` or `name` atom that makes reading fail. *)
Inductive bad_text (c : bytes) : bad -> Prop :=
| bt_version : forall v r, c = v :: r -> (3 <= List.length r)%nat -> b2n v <> 0 ->
    bad_text c (BadErr (EUnknownVersion (b2n v)))
| bt_utf8 : forall v r, version0 v -> c = v ++ r -> ~ utf8_bytes r -> bad_text c (BadErr EUtf8).
(** A bad atom in an item. *)
Definition bad_kid (m : mode) (k : atom) (b : bad) : Prop :=
  a_id k = id4 "data" /\ bad_data m (a_content k) b \/
  (a_id k = id4 "mean" \/ a_id k = id4 "name") /\ bad_text (a_content k) b.
(** An item whose first bad atom is [k]; or without any value. *)
Definition good_kids (ks : list atom) (ds : list data) : Prop :=
  Forall2 data_means (named_kids (id4 "data") ks) ds /\
  exists ms ns, Forall2 text_means (named_kids (id4 "mean") ks) ms /\ Forall2 text_means (named_kids (id4 "name") ks) ns.
Definition bad_item (m : mode) (it : atom) (b : bad) : Prop :=
  a_id it <> id4 "free" /\ a_pre it = [] /\
  ((exists x k y ds, a_kids it = x ++ k :: y /\ good_kids x ds /\ bad_kid m k b) \/
   (good_kids (a_kids it) [] /\ b = BadErr (EAtomNotFound (id4 "data")))).
(** The item list at this place is the one that counts. *)
Definition effective (c : place) : Prop :=
  named_kids (id4 "udta") (at_moov_post c) = [] /\ named_kids (id4 "meta") (at_udta_post c) = [] /\
  named_kids (id4 "ilst") (at_meta_post c) = [].
(** The items around it. *)
Definition items_around (c : place) (l1 l2 : list atom_data) : Prop :=
  Forall2 item_means (filter (fun k => negb (is_named (id4 "free") k)) (at_ilst_pre c)) l1 /\
  Forall2 item_means (filter (fun k => negb (is_named (id4 "free") k)) (at_ilst_post c)) l2.
(** An item with one value: type code, locale and payload. *)
Definition value_item (e e' : bool) (id : fourcc) (code : N) (loc pl : bytes) : atom :=
  Atom e id [] [Atom e' (id4 "data") (n2b 0 :: be 3 code ++ loc ++ pl) []].

(** No 64-bit size field is zero or at least 2^63, wherever in the file one looks. *)
Definition tame (f : bytes) : Prop :=
  forall p, field f p 4 = 1 -> p + 16 <= blen f -> 0 < field f (p + 8) 8 < 2 ^ 63.

(** A freeform item: namespace, name and one value. *)
Definition freeform_item (e em en ed : bool) (vm mean vn name loc : bytes) (d : data) : atom :=
  Atom e (id4 "----") []
    [Atom em (id4 "mean") (vm ++ mean) []; Atom en (id4 "name") (vn ++ name) [];
     Atom ed (id4 "data") (n2b 0 :: be 3 (type_code d) ++ loc ++ payload d) []].
