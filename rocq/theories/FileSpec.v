(** Specification of MP4 files: atom trees, the bytes they stand for, what a file means, and what
    changing the metadata of a file means.  Nothing here uses the parser or the writer of the model;
    only the byte codecs of [Base], the string encoders of [Utf] and the data types of [Types]. *)

From Coq Require Import List NArith ZArith Bool String Ascii.
From Verif Require Import Base Utf Types TagSpec.
Import ListNotations.
Local Open Scope list_scope.

(** * Atoms *)

(** A four character code. *)
Definition id4 (s : string) : fourcc :=
  match list_byte_of_string s with
  | [a; b; c; d] => FourCC a b c d
  | _ => FourCC Byte.x00 Byte.x00 Byte.x00 Byte.x00
  end.

(** An atom: whether its size field has 64 bits, its name, and its content: some bytes followed by
    atoms.  (Leaves have no child atoms, most containers no leading bytes.) *)
Inductive atom := Atom (ext : bool) (id : fourcc) (pre : bytes) (kids : list atom).

Definition a_ext (a : atom) : bool := match a with Atom e _ _ _ => e end.
Definition a_id (a : atom) : fourcc := match a with Atom _ i _ _ => i end.
Definition a_pre (a : atom) : bytes := match a with Atom _ _ p _ => p end.
Definition a_kids (a : atom) : list atom := match a with Atom _ _ _ k => k end.

(** ISO/IEC 14496-12, 4.2: 32-bit size and name; or size 1, name and 64-bit size.  The size
    includes the header. *)
Definition header (ext : bool) (id : fourcc) (content : N) : bytes :=
  if ext then be 4 1 ++ fc_bytes id ++ be 8 (content + 16)
  else be 4 (content + 8) ++ fc_bytes id.

Fixpoint render (a : atom) : bytes :=
  match a with
  | Atom ext id pre kids =>
    let c := pre ++ flat_map render kids in header ext id (blen c) ++ c
  end.

Definition render_all (l : list atom) : bytes := flat_map render l.

Definition a_content (a : atom) : bytes := a_pre a ++ render_all (a_kids a).

(** All sizes fit their size fields. *)
Fixpoint fits (a : atom) : bool :=
  match a with
  | Atom ext id pre kids =>
    let n := blen (pre ++ flat_map render kids) in
    (if ext then n + 16 <? 2 ^ 64 else n + 8 <? 2 ^ 32) && forallb fits kids
  end.

Definition is_named (id : fourcc) (a : atom) : bool := if fourcc_dec (a_id a) id then true else false.
Definition named_kids (id : fourcc) (l : list atom) : list atom := filter (is_named id) l.

(** * What a file means *)

Definition last_opt {A} (l : list A) : option A := fold_left (fun _ x => Some x) l None.
Definition join {A} (o : option (option A)) : option A := match o with Some x => x | None => None end.

(** All children called [id] are described by [P], [o] is what the last of them means. *)
Definition last_child {A} (id : fourcc) (P : atom -> A -> Prop) (a : atom) (o : option A) : Prop :=
  exists l, Forall2 P (named_kids id (a_kids a)) l /\ o = last_opt l.

(** A container without leading bytes whose only interesting child is [id]. *)
Definition box {A} (id : fourcc) (P : atom -> option A -> Prop) (a : atom) (o : option A) : Prop :=
  a_pre a = [] /\ exists oo, last_child id P a oo /\ o = join oo.

(** Version 0 and any flags. *)
Definition version0 (b : bytes) : Prop := exists fl, List.length fl = 3%nat /\ b = n2b 0 :: fl.

(** ** Items *)

(** The well-known type codes of the QuickTime file format. *)
Definition type_code (d : data) : N :=
  match d with
  | DReserved _ => 0 | DUtf8 _ => 1 | DUtf16 _ => 2 | DJpeg _ => 13 | DPng _ => 14
  | DBeSigned _ => 21 | DBmp _ => 27
  end.
Definition payload (d : data) : bytes :=
  match d with
  | DReserved v | DJpeg v | DPng v | DBeSigned v | DBmp v => v
  | DUtf8 s => enc8 s
  | DUtf16 s => flat_map (be 2) (enc16 s)
  end.
(** Strings are sequences of Unicode scalar values. *)
Definition good_data (d : data) : Prop :=
  match d with DUtf8 s | DUtf16 s => wf_ustr s = true | _ => True end.

(** A value: version 0, type, locale, payload. *)
Definition data_means (a : atom) (d : data) : Prop :=
  good_data d /\
  exists locale, List.length locale = 4%nat /\ a_content a = n2b 0 :: be 3 (type_code d) ++ locale ++ payload d.

(** A `mean` or `name` atom. *)
Definition text_means (a : atom) (s : ustring) : Prop :=
  wf_ustr s = true /\ exists v, version0 v /\ a_content a = v ++ enc8 s.

Definition item_name (id : fourcc) (mean name : option ustring) : data_ident :=
  match mean, name with
  | Some m, Some n => if fourcc_dec id (id4 "----") then IFreeform m n else IFourcc id
  | _, _ => IFourcc id
  end.

Definition item_means (a : atom) (i : atom_data) : Prop :=
  a_pre a = [] /\
  exists ds ms ns,
    Forall2 data_means (named_kids (id4 "data") (a_kids a)) ds /\
    Forall2 text_means (named_kids (id4 "mean") (a_kids a)) ms /\
    Forall2 text_means (named_kids (id4 "name") (a_kids a)) ns /\
    ds <> [] /\ i = AtomData (item_name (a_id a) (last_opt ms) (last_opt ns)) ds.

(** Items with the same identifier are merged: one item per identifier, in the order of first
    occurrence, holding all values in order. *)
Fixpoint first_occurrences (l : list data_ident) : list data_ident :=
  match l with
  | [] => []
  | j :: r => j :: filter (fun k => if ident_dec j k then false else true) (first_occurrences r)
  end.
Definition all_values (l : list atom_data) (j : data_ident) : list data :=
  flat_map ad_data (filter (fun a => if ident_dec (ad_ident a) j then true else false) l).
Definition merged (l r : list atom_data) : Prop :=
  idents r = first_occurrences (idents l) /\ forall j, values r j = all_values l j.

Definition ilst_means (a : atom) (items : list atom_data) : Prop :=
  a_pre a = [] /\
  exists l, Forall2 item_means (filter (fun k => negb (is_named (id4 "free") k)) (a_kids a)) l /\ merged l items.

Definition meta_means (a : atom) (o : option (list atom_data)) : Prop :=
  version0 (a_pre a) /\ last_child (id4 "ilst") ilst_means a o.

Definition udta_means : atom -> option (list atom_data) -> Prop := box (id4 "meta") meta_means.

(** ** Audio parameters *)

(** Descriptors of ISO/IEC 14496-1, 8.3.3: a tag, the length in [width] bytes of 7 bits each (all but
    the last with the high bit set), the body. *)
Record desc := Desc { d_tag : byte; d_width : nat; d_body : bytes }.
Fixpoint len7 (width : nat) (n : N) : bytes :=
  match width with
  | O => []
  | 1%nat => [n2b (n mod 128)]
  | S w => n2b (128 + (n / 128 ^ N.of_nat w) mod 128) :: len7 w n
  end.
Definition render_desc (d : desc) : bytes := d_tag d :: len7 (d_width d) (blen (d_body d)) ++ d_body d.
Definition good_desc (d : desc) : Prop :=
  (1 <= d_width d <= 4)%nat /\ blen (d_body d) < 128 ^ N.of_nat (d_width d).
Definition tagged_desc (t : N) (l : list desc) : list desc := filter (fun d => b2n (d_tag d) =? t) l.

(** The bits of a byte string, most significant first. *)
Definition bits (b : bytes) : list bool :=
  flat_map (fun x => map (N.testbit (b2n x)) [7; 6; 5; 4; 3; 2; 1; 0]) b.
Definition bits_value (l : list bool) : N := fold_left (fun a b => 2 * a + N.b2n b) l 0.

(** ISO/IEC 14496-3, tables 1.18 and 1.19. *)
Definition mpeg4_frequencies : list N :=
  [96000; 88200; 64000; 48000; 44100; 32000; 24000; 22050; 16000; 12000; 11025; 8000; 7350].
Definition mpeg4_channels : list (option N) :=
  [None; Some 1; Some 2; Some 3; Some 4; Some 5; Some 6; Some 8].

(** Decoder specific info: 5 bits object type, 4 bits frequency index, 4 bits channel configuration. *)
Definition ds_means (b : bytes) (ch : option channel_config) (rate : option sample_rate) : Prop :=
  (2 <= List.length b)%nat /\
  option_map hz rate = nth_error mpeg4_frequencies (N.to_nat (bits_value (firstn 4 (skipn 5 (bits b))))) /\
  option_map channel_count ch = join (nth_error mpeg4_channels (N.to_nat (bits_value (firstn 4 (skipn 9 (bits b)))))).

(** Audio parameters: channels, sample rate, maximum and average bitrate. *)
Record audio := Audio { au_channels : option channel_config; au_rate : option sample_rate;
                        au_max : option N; au_avg : option N }.

(** Decoder config: 13 bytes, the last eight of which are the bitrates; descriptors. *)
Definition dc_means (b : bytes) (a : audio) : Prop :=
  exists h l, List.length h = 13%nat /\ b = h ++ flat_map render_desc l /\ Forall good_desc l /\
    au_max a = Some (unbe (firstn 4 (skipn 5 h))) /\ au_avg a = Some (unbe (skipn 9 h)) /\
    match tagged_desc 5 l with
    | [] => au_channels a = None /\ au_rate a = None
    | [d] => ds_means (d_body d) (au_channels a) (au_rate a)
    | _ => False
    end.

(** Elementary stream descriptor: 3 bytes; descriptors. *)
Definition es_means (b : bytes) (a : audio) : Prop :=
  exists h l, List.length h = 3%nat /\ b = h ++ flat_map render_desc l /\ Forall good_desc l /\
    match tagged_desc 4 l with
    | [] => a = Audio None None None None
    | [d] => dc_means (d_body d) a
    | _ => False
    end.

Definition esds_means (a : atom) (x : audio) : Prop :=
  a_id a = id4 "esds" /\
  exists v d rest, version0 v /\ b2n (d_tag d) = 3 /\ good_desc d /\
    a_content a = v ++ render_desc d ++ rest /\ es_means (d_body d) x.

(** Sample entry: 28 bytes, then the `esds` atom, then anything. *)
Definition mp4a_means (a : atom) (x : audio) : Prop :=
  List.length (a_pre a) = 28%nat /\ exists e rest, a_kids a = e :: rest /\ esds_means e x.

Definition stsd_means (a : atom) (o : option audio) : Prop :=
  (exists v n, version0 v /\ List.length n = 4%nat /\ a_pre a = v ++ n) /\ last_child (id4 "mp4a") mp4a_means a o.

Definition stbl_means : atom -> option audio -> Prop := box (id4 "stsd") stsd_means.
Definition minf_means : atom -> option audio -> Prop := box (id4 "stbl") stbl_means.
Definition mdia_means : atom -> option audio -> Prop := box (id4 "minf") minf_means.
Definition trak_means : atom -> option audio -> Prop := box (id4 "mdia") mdia_means.

(** ** The movie *)

(** A field of a fixed layout. *)
Definition field (b : bytes) (pos len : N) : N := unbe (slice b pos len).

(** The duration in nanoseconds. *)
Definition nanos (timescale duration d : N) : Prop :=
  timescale <> 0 /\ duration * 1000000000 < 2 ^ 64 /\ d = duration * 1000000000 / timescale.

Definition mvhd_means (a : atom) (d : N) : Prop :=
  let b := a_content a in
  (field b 0 1 = 0 /\ 20 <= blen b /\ nanos (field b 12 4) (field b 16 4) d) \/
  (field b 0 1 = 1 /\ 32 <= blen b /\ nanos (field b 20 4) (field b 24 8) d).

(** The parameters of the first track that has some. *)
Fixpoint first_some {A} (l : list (option A)) : option A :=
  match l with
  | [] => None
  | Some x :: _ => Some x
  | None :: r => first_some r
  end.

Definition info_of (dur : option N) (a : option audio) : audio_info :=
  match a with
  | Some x => AudioInfo dur (au_channels x) (au_rate x) (au_max x) (au_avg x)
  | None => AudioInfo dur None None None None
  end.

Definition moov_means (a : atom) (info : audio_info) (items : list atom_data) : Prop :=
  a_pre a = [] /\
  exists dur auds uo,
    last_child (id4 "mvhd") mvhd_means a dur /\
    Forall2 trak_means (named_kids (id4 "trak") (a_kids a)) auds /\
    last_child (id4 "udta") udta_means a uo /\
    info = info_of dur (first_some auds) /\
    items = match join uo with Some l => l | None => [] end.

(** A file: a file type atom first, exactly one movie atom. *)
Definition describes (f : list atom) (t : tag) : Prop :=
  exists ft pre mv post,
    f = ft :: pre ++ mv :: post /\
    a_id ft = id4 "ftyp" /\ wf_ustr (tg_ftyp t) = true /\ a_content ft = enc8 (tg_ftyp t) /\
    a_id mv = id4 "moov" /\ named_kids (id4 "moov") (pre ++ post) = [] /\
    moov_means mv (tg_info t) (tg_atoms t).

(** Sizes fit and the whole file is smaller than 2^62 bytes. *)
Definition good_sizes (f : list atom) : Prop := forallb fits f = true /\ blen (render_all f) < 2 ^ 62.

Definition well_formed (f : list atom) : Prop := good_sizes f /\ exists t, describes f t.

(** * Changing the metadata *)

(** ** New atoms *)

Definition data_atom (d : data) : atom :=
  Atom false (id4 "data") (n2b 0 :: be 3 (type_code d) ++ zeros 4 ++ payload d) [].
Definition text_atom (id : fourcc) (s : ustring) : atom := Atom false id (zeros 4 ++ enc8 s) [].
Definition item_atom (i : atom_data) : atom :=
  match ad_ident i with
  | IFourcc f => Atom false f [] (map data_atom (ad_data i))
  | IFreeform m n =>
    Atom false (id4 "----") []
         (text_atom (id4 "mean") m :: text_atom (id4 "name") n :: map data_atom (ad_data i))
  end.

(** A new container gets a 64-bit size field only if it needs one. *)
Definition new_box (id : fourcc) (pre : bytes) (kids : list atom) : atom :=
  Atom (2 ^ 32 <=? blen (pre ++ render_all kids) + 8) id pre kids.
Definition new_ilst (items : list atom_data) : atom := new_box (id4 "ilst") [] (map item_atom items).
(** Version 0, no predefined type, subtype mdir, manufacturer appl, an empty name. *)
Definition new_hdlr : atom :=
  Atom false (id4 "hdlr") (zeros 8 ++ list_byte_of_string "mdir" ++ list_byte_of_string "appl" ++ zeros 9) [].
Definition new_meta (items : list atom_data) : atom :=
  new_box (id4 "meta") (zeros 4) [new_hdlr; new_ilst items].
Definition new_udta (items : list atom_data) : atom := new_box (id4 "udta") [] [new_meta items].

(** ** Replacing the item list *)

Definition with_kids (a : atom) (k : list atom) : atom := Atom (a_ext a) (a_id a) (a_pre a) k.

(** The list around the first atom called [id]. *)
Fixpoint split_on (id : fourcc) (l : list atom) : option (list atom * atom * list atom) :=
  match l with
  | [] => None
  | a :: r =>
    if is_named id a then Some ([], a, r)
    else match split_on id r with Some (x, b, y) => Some (a :: x, b, y) | None => None end
  end.

(** A handler atom, if there is none. *)
Definition missing_hdlr (a : atom) : list atom :=
  match named_kids (id4 "hdlr") (a_kids a) with [] => [new_hdlr] | _ => [] end.

Definition update_meta (items : list atom_data) (a : atom) : atom :=
  match split_on (id4 "ilst") (a_kids a) with
  | Some (x, _, y) => with_kids a (x ++ missing_hdlr a ++ [new_ilst items] ++ y)
  | None => with_kids a (a_kids a ++ missing_hdlr a ++ [new_ilst items])
  end.
Definition update_udta (items : list atom_data) (a : atom) : atom :=
  match split_on (id4 "meta") (a_kids a) with
  | Some (x, m, y) => with_kids a (x ++ update_meta items m :: y)
  | None => with_kids a (a_kids a ++ [new_meta items])
  end.

(** ** Chunk offset tables *)

Fixpoint chunks (w : nat) (n : nat) (l : bytes) : list bytes :=
  match n with
  | O => []
  | S n' => firstn w l :: chunks w n' (skipn w l)
  end.
(** The entries of a table whose entries have [w] bytes: behind version, flags and entry count. *)
Definition table_entries (w : nat) (b : bytes) : list N :=
  map unbe (chunks w (List.length (skipn 8 b) / w) (skipn 8 b)).
Definition shift_entry (w : nat) (d : Z) (off : N) : N :=
  Z.to_N ((Z.of_N off + d) mod 2 ^ (8 * Z.of_nat w)).
Definition shift_table (w : nat) (d : Z) (a : atom) : atom :=
  Atom (a_ext a) (a_id a)
       (firstn 8 (a_pre a) ++ flat_map (be w) (map (shift_entry w d) (table_entries w (a_pre a)))) (a_kids a).

(** Change the children called [id]. *)
Definition map_kids (id : fourcc) (g : atom -> atom) (l : list atom) : list atom :=
  map (fun k => if is_named id k then g k else k) l.
Definition map_child (id : fourcc) (g : atom -> atom) (a : atom) : atom := with_kids a (map_kids id g (a_kids a)).

(** Add [d] to all entries of the tables of a track. *)
Definition shift_stbl (d : Z) (a : atom) : atom :=
  map_child (id4 "stco") (shift_table 4 d) (map_child (id4 "co64") (shift_table 8 d) a).
Definition shift_trak (d : Z) : atom -> atom :=
  map_child (id4 "mdia") (map_child (id4 "minf") (map_child (id4 "stbl") (shift_stbl d))).
Definition shift_traks (d : Z) (l : list atom) : list atom := map_kids (id4 "trak") (shift_trak d) l.

(** ** The file *)

(** The new movie atom.  [d] is added to the chunk offsets of the tracks in front of the user data
    atom (of all tracks if there is none). *)
Definition update_moov (items : list atom_data) (d : Z) (a : atom) : atom :=
  match split_on (id4 "udta") (a_kids a) with
  | Some (x, u, y) => with_kids a (shift_traks d x ++ update_udta items u :: y)
  | None => with_kids a (shift_traks d (a_kids a) ++ [new_udta items])
  end.

(** By how much the movie atom grows. *)
Definition growth (items : list atom_data) (a : atom) : Z :=
  (Z.of_N (blen (render (update_moov items 0 a))) - Z.of_N (blen (render a)))%Z.

(** The chunk offsets are adjusted if there is media data behind the movie atom. *)
Definition update_file (items : list atom_data) (f : list atom) : list atom :=
  match split_on (id4 "moov") f with
  | Some (x, m, y) =>
    let d := match named_kids (id4 "mdat") y with [] => 0%Z | _ => growth items m end in
    x ++ update_moov items d m :: y
  | None => f
  end.

(** ** Files whose metadata can be changed *)

Definition at_most_one (id : fourcc) (l : list atom) : Prop := (List.length (named_kids id l) <= 1)%nat.

(** A chunk offset table with entries of [w] bytes. *)
Definition good_table (w : nat) (a : atom) : Prop :=
  a_kids a = [] /\
  exists v offs, version0 v /\ a_pre a = v ++ be 4 (blen offs) ++ flat_map (be w) offs /\
    blen offs < 2 ^ 32 /\ Forall (fun o => o < 2 ^ (8 * N.of_nat w) /\ o < 2 ^ 62) offs.
Definition good_stbl (a : atom) : Prop :=
  at_most_one (id4 "stco") (a_kids a) /\ at_most_one (id4 "co64") (a_kids a) /\
  Forall (good_table 4) (named_kids (id4 "stco") (a_kids a)) /\
  Forall (good_table 8) (named_kids (id4 "co64") (a_kids a)).
Definition only_child (id : fourcc) (P : atom -> Prop) (a : atom) : Prop :=
  at_most_one id (a_kids a) /\ Forall P (named_kids id (a_kids a)).
Definition good_trak : atom -> Prop :=
  only_child (id4 "mdia") (only_child (id4 "minf") (only_child (id4 "stbl") good_stbl)).
Definition good_meta (a : atom) : Prop := at_most_one (id4 "ilst") (a_kids a).
Definition good_udta : atom -> Prop := only_child (id4 "meta") good_meta.
Definition good_moov (a : atom) : Prop :=
  Forall good_trak (named_kids (id4 "trak") (a_kids a)) /\ only_child (id4 "udta") good_udta a.

(** Every table is sound and no container the library changes occurs twice. *)
Definition editable (f : list atom) : Prop := Forall good_moov (named_kids (id4 "moov") f).

(** ** Items that can be stored *)

Definition storable_data (d : data) : Prop :=
  good_data d /\ match d with DUtf16 s => s = [] | _ => True end.
Definition storable_ident (i : data_ident) : Prop :=
  match i with
  | IFourcc f => f <> id4 "free"
  | IFreeform m n => wf_ustr m = true /\ wf_ustr n = true
  end.
Definition storable (items : list atom_data) : Prop :=
  unique_idents items /\
  Forall (fun i => storable_ident (ad_ident i) /\ ad_data i <> [] /\ Forall storable_data (ad_data i)) items.

(** No item exceeds its 32-bit size field. *)
Definition items_fit (items : list atom_data) : Prop := forallb fits (map item_atom items) = true.

Definition updatable (f : list atom) (items : list atom_data) : Prop :=
  well_formed f /\ editable f /\ storable items /\ good_sizes (update_file items f).
