(** Specification of errors of reading: the places of a file the reader visits, and for each error the flaws of the
    file at these places that it reports, with the description it gives. *)

From Coq Require Import List NArith ZArith Bool String.
From Verif Require Import Base Types Utf TagSpec FileSpec FailSpec PanicSpec Display.
Import ListNotations.
Local Open Scope list_scope.

(** * Places *)

(** The containers around a place, the innermost first, each with the number of its bytes that have not been accounted
    for: every box takes the size it announces. *)
Definition standing := list (level * N).
Definition inner (w : standing) : level := match w with [] => Top | (l, _) :: _ => l end.
(** The places where a box is expected while bytes are left, and the places where a container ends.  Nothing behind the
    movie box is visited. *)
Inductive sees (f : bytes) : standing -> N -> Prop :=
| Sees_start : sees f [(Top, blen f)] 0
| Sees_past : forall l k w q id head size, sees f ((l, k) :: w) q -> 0 < k -> box_at f q id head size -> opens l id = None ->
    sees f ((l, k - size) :: w) (q + size)
| Sees_into : forall l k w q id head size l' d, sees f ((l, k) :: w) q -> 0 < k -> box_at f q id head size -> opens l id = Some (l', d) ->
    sees f ((l', size - head - d) :: (l, k - size) :: w) (q + head + d)
| Sees_out : forall l l' k w q, sees f ((l, 0) :: (l', k) :: w) q -> l <> InMoov -> sees f ((l', k) :: w) q.
(** A box called [id] at a place that is visited. *)
Definition seen (f : bytes) (w : standing) (q : N) (id : fourcc) (head size : N) : Prop :=
  exists l k w', w = (l, k) :: w' /\ sees f w q /\ 0 < k /\ box_at f q id head size.

(** The names of the containers, the outermost first.  An item has no name of its own. *)
Definition level_name (l : level) : list fourcc :=
  match l with
  | Top | InItem => []
  | InMoov => [id4 "moov"] | InTrak => [id4 "trak"] | InMdia => [id4 "mdia"] | InMinf => [id4 "minf"] | InStbl => [id4 "stbl"]
  | InStsd => [id4 "stsd"] | InUdta => [id4 "udta"] | InMeta => [id4 "meta"] | InIlst => [id4 "ilst"]
  end.
Definition trail (w : standing) : list fourcc := flat_map (fun x => level_name (fst x)) (rev w).

(** Boxes that are not containers but named, too. *)
Definition own (l : level) (id : fourcc) : list fourcc :=
  match l with
  | InMoov => if fourcc_eqb id (id4 "mvhd") then [id] else []
  | InStsd => if fourcc_eqb id (id4 "mp4a") then [id] else []
  | _ => []
  end.

(** A place where the head of a box is expected, and the names of the boxes around it. *)
Inductive head_place (f : bytes) : list fourcc -> N -> Prop :=
| In_container : forall l k w q, sees f ((l, k) :: w) q -> q = 0 \/ 0 < k -> head_place f (trail ((l, k) :: w)) q
(** the description of a sample entry is behind 28 bytes *)
| In_entry : forall w p head size, seen f w p (id4 "mp4a") head size -> inner w = InStsd -> head_place f (trail w ++ [id4 "mp4a"]) (p + head + 28).
(** A description at [a], of a sample entry at [p]; its descriptors start at [d] and end at [e]. *)
Definition esds_place (f : bytes) (w : standing) (p a d e : N) : Prop :=
  exists head size head' size', seen f w p (id4 "mp4a") head size /\ inner w = InStsd /\ a = p + head + 28 /\ box_at f a (id4 "esds") head' size' /\ d = a + head' + 4 /\ e = a + size'.
(** A place where a version is expected, and what is said about one that is not 0. *)
Inductive version_place (f : bytes) : list fourcc -> N -> string -> Prop :=
| Of_value : forall w q id head size, seen f w q id head size -> inner w = InItem -> In id [id4 "data"; id4 "mean"; id4 "name"] ->
    version_place f (trail w) (q + head) "Error reading data atom (data)"
| Of_meta : forall w q head size, seen f w q (id4 "meta") head size -> inner w = InUdta ->
    version_place f (trail w ++ [id4 "meta"]) (q + head) "Unknown metadata (meta) version"
| Of_stsd : forall w q head size, seen f w q (id4 "stsd") head size -> inner w = InStbl ->
    version_place f (trail w ++ [id4 "stsd"]) (q + head) "Unknown sample table sample description (stsd) version"
| Of_esds : forall w p a d e, esds_place f w p a d e ->
    version_place f (trail w ++ [id4 "mp4a"]) (d - 4) "Unknown MPEG-4 audio (mp4a) version".
(** A movie header. *)
Definition header_place (f : bytes) (ns : list fourcc) (p : N) : Prop :=
  exists w q head size, seen f w q (id4 "mvhd") head size /\ inner w = InMoov /\ ns = trail w ++ [id4 "mvhd"] /\ p = q + head.

(** The places where descriptors are expected, with the bytes left of the descriptors around them.  The first is an
    elementary stream descriptor, which must not go on behind [e]. *)
Inductive sees_desc (f : bytes) (d e : N) : list N -> N -> Prop :=
| Desc_first : forall n len, descriptor_at f d 3 n len -> sees_desc f d e [N.min len (e - (d + n)) - 3] (d + n + 3)
| Desc_past : forall k w q tag n len, sees_desc f d e (k :: w) q -> 0 < k -> descriptor_at f q tag n len -> tag <> 4 \/ w <> [] ->
    sees_desc f d e (k - (n + len) :: w) (q + n + len)
| Desc_into : forall k q n len, sees_desc f d e [k] q -> 0 < k -> descriptor_at f q 4 n len ->
    sees_desc f d e [len - 13; k - (n + len)] (q + n + 13)
| Desc_out : forall k w q, sees_desc f d e (0 :: k :: w) q -> sees_desc f d e (k :: w) q.
Definition desc_place (f : bytes) (ns : list fourcc) (q : N) (w : list N) : Prop :=
  exists w' p a d e k w2, esds_place f w' p a d e /\ ns = trail w' ++ [id4 "mp4a"] /\ w = k :: w2 /\ 0 < k /\ sees_desc f d e w q.

(** * Texts *)

Definition is_utf8 (b : bytes) : Prop := exists s, wf_ustr s = true /\ b = enc8 s.
(** Big endian; an odd last byte is ignored. *)
Definition is_utf16 (b : bytes) : Prop := exists s odd, wf_ustr s = true /\ b = units_bytes (enc16 s) ++ odd /\ (odd = [] \/ blen odd = 1).
(** An item from [q] to [e] without a value. *)
Inductive no_value (f : bytes) (e : N) : N -> Prop :=
| Nothing_left : forall q, e <= q -> no_value f e q
| Other_box : forall q id head size, q < e -> box_at f q id head size -> id <> id4 "data" -> no_value f e (q + size) -> no_value f e q.
(** A name in a text. *)
Definition bytes_text (b : bytes) : ustring := map b2n b.

(** * Errors *)

Inductive cause (f : bytes) : list fourcc -> err -> ustring -> Prop :=
(** The head of a box is cut off, *)
| Cut_size : forall ns q, head_place f ns q -> blen f < q + 4 -> cause f ns EIoEof (txt "Error reading atom length")
| Cut_name : forall ns q, head_place f ns q -> q + 4 <= blen f < q + 8 -> cause f ns EIoEof (txt "Error reading atom identifier")
| Cut_long_size : forall ns q, head_place f ns q -> field f q 4 = 1 -> q + 8 <= blen f < q + 16 -> cause f ns EIoEof (txt "Error reading extended atom length")
(** or its size is too small. *)
| Small_size : forall ns q, head_place f ns q -> q + 8 <= blen f -> field f q 4 < 8 -> field f q 4 <> 1 ->
    cause f ns EParsing (txt "Read length of '" ++ bytes_text (slice f (q + 4) 4) ++ txt "' which is less than 8 bytes: " ++ dec (field f q 4))
(** The first box is not a file type, or it is cut off, or not text. *)
| Not_type : forall id head size, box_at f 0 id head size -> id <> id4 "ftyp" -> cause f [] ENoTag (txt "No filetype atom found.")
| Cut_type : forall head size, box_at f 0 (id4 "ftyp") head size -> blen f < size -> cause f [] EIoEof []
| Bad_type : forall head size, box_at f 0 (id4 "ftyp") head size -> size <= blen f -> ~ is_utf8 (slice f head (size - head)) -> cause f [] EUtf8 (txt "Data is not valid utf-8.")
(** The end is reached without a movie. *)
| No_movie : forall q, sees f [(Top, 0)] q -> 0 < q -> cause f [] (EAtomNotFound (id4 "moov")) (txt "Missing necessary data, no movie (moov) atom found")
(** A box that ends where one cannot seek to. *)
| Too_far : forall w q id head size, seen f w q id head size -> opens (inner w) id = None -> 2 ^ 63 <= q + size ->
    cause f (trail w ++ own (inner w) id) EIoSeek []
(** Version and flags are cut off, or the version is unknown. *)
| Cut_version : forall ns p, (exists s, version_place f ns p s) \/ header_place f ns p -> blen f < p + 1 -> cause f ns EIoEof (txt "Error reading version of full atom head")
| Cut_flags : forall ns p, (exists s, version_place f ns p s) \/ header_place f ns p -> p + 1 <= blen f < p + 4 -> cause f ns EIoEof (txt "Error reading flags of full atom head")
| Bad_version : forall ns p s, version_place f ns p s -> p + 4 <= blen f -> field f p 1 <> 0 -> cause f ns (EUnknownVersion (field f p 1)) (txt s)
| Bad_header_version : forall ns p, header_place f ns p -> p + 4 <= blen f -> 1 < field f p 1 ->
    cause f ns (EUnknownVersion (field f p 1)) (txt "Error unknown movie header (mvhd) version " ++ dec (field f p 1))
(** A movie header that is cut off. *)
| Cut_header : forall ns p, header_place f ns p -> field f p 1 = 0 /\ blen f < p + 20 \/ field f p 1 = 1 /\ blen f < p + 32 -> cause f ns EIoEof []
(** A value of unknown type, that is cut off, or not text.  An empty value is not missed: its locale is not read. *)
| Bad_kind : forall w q head size, seen f w q (id4 "data") head size -> inner w = InItem -> q + head + 4 <= blen f ->
    ~ In (field f (q + head + 1) 3) [0; 1; 2; 13; 14; 21; 27] -> cause f (trail w) (EUnknownDataType (field f (q + head + 1) 3)) (txt "Unknown datatype code")
| Cut_value : forall w q head size, seen f w q (id4 "data") head size -> inner w = InItem -> head + 8 < size -> blen f < q + size -> cause f (trail w) EIoEof []
| Cut_name_value : forall w q id head size, seen f w q id head size -> inner w = InItem -> In id [id4 "mean"; id4 "name"] -> blen f < q + size -> cause f (trail w) EIoEof []
| Bad_value : forall w q head size, seen f w q (id4 "data") head size -> inner w = InItem -> q + size <= blen f ->
    field f (q + head + 1) 3 = 1 -> ~ is_utf8 (slice f (q + head + 8) (size - head - 8)) -> cause f (trail w) EUtf8 (txt "Data is not valid utf-8.")
| Bad_value16 : forall w q head size, seen f w q (id4 "data") head size -> inner w = InItem -> q + size <= blen f ->
    field f (q + head + 1) 3 = 2 -> ~ is_utf16 (slice f (q + head + 8) (size - head - 8)) -> cause f (trail w) EUtf16 (txt "Data is not valid utf-16.")
| Bad_name : forall w q id head size, seen f w q id head size -> inner w = InItem -> In id [id4 "mean"; id4 "name"] -> q + size <= blen f ->
    ~ is_utf8 (slice f (q + head + 4) (size - head - 4)) -> cause f (trail w) EUtf8 (txt "Data is not valid utf-8.")
(** An item without value. *)
| No_value : forall w q id head size, seen f w q id head size -> inner w = InIlst -> id <> id4 "free" -> no_value f (q + size) (q + head) ->
    cause f (trail w) (EAtomNotFound (id4 "data")) (txt "Error constructing atom data '" ++ bytes_text (fc_bytes id) ++ txt "', missing data atom")
(** A sample entry without description. *)
| No_esds : forall w p head size id head' size', seen f w p (id4 "mp4a") head size -> inner w = InStsd -> box_at f (p + head + 28) id head' size' -> id <> id4 "esds" ->
    cause f (trail w ++ [id4 "mp4a"]) (EAtomNotFound (id4 "esds")) (txt "Missing esds atom")
(** A description that starts with another descriptor, *)
| Other_descriptor : forall w p a d e tag n len, esds_place f w p a d e -> descriptor_at f d tag n len -> tag <> 3 ->
    cause f (trail w ++ [id4 "mp4a"]) (EDescriptorNotFound 3) (txt "Missing elementary stream descriptor")
(** and descriptors that are cut off. *)
| Cut_first : forall w p a d e, esds_place f w p a d e -> d <= blen f -> (forall tag n len, ~ descriptor_at f d tag n len) -> cause f (trail w ++ [id4 "mp4a"]) EIoEof []
| Cut_descriptor : forall ns q w, desc_place f ns q w -> (forall tag n len, ~ descriptor_at f q tag n len) -> cause f ns EIoEof []
| Cut_decoder : forall ns q k n len, desc_place f ns q [k] -> descriptor_at f q 4 n len -> blen f < q + n + 13 -> cause f ns EIoEof []
| Cut_config : forall ns q k k' n len, desc_place f ns q [k; k'] -> descriptor_at f q 5 n len -> blen f < q + n + 2 -> cause f ns EIoEof [].

(** What is said: the names of the boxes around the place, then what is wrong there. *)
Definition says (ns : list fourcc) (s : ustring) : ustring :=
  fold_right (fun id t => txt "Error parsing " ++ bytes_text (fc_bytes id) ++ txt ": " ++ t) s ns.
