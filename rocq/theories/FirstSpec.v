(** Specification of the outcome of reading an arbitrary file: the boxes are visited one after another, and the first flaw
    that is met decides the error.  ErrSpec.v lists the causes of errors without saying which of several is reported. *)

From Coq Require Import List NArith ZArith Bool String.
From Verif Require Import Base Types Utf TagSpec FileSpec FailSpec PanicSpec Display ErrSpec.
Import ListNotations.
Local Open Scope list_scope.

(** * What is wrong with a part of the file *)

(** The head of a box at [q]. *)
Inductive head_wrong (f : bytes) (q : N) : err -> ustring -> Prop :=
| No_size : blen f < q + 4 -> head_wrong f q EIoEof (txt "Error reading atom length")
| No_name : q + 4 <= blen f < q + 8 -> head_wrong f q EIoEof (txt "Error reading atom identifier")
| No_long_size : field f q 4 = 1 -> q + 8 <= blen f < q + 16 -> head_wrong f q EIoEof (txt "Error reading extended atom length")
| Below_eight : q + 8 <= blen f -> field f q 4 < 8 -> field f q 4 <> 1 ->
    head_wrong f q EParsing (txt "Read length of '" ++ bytes_text (slice f (q + 4) 4) ++ txt "' which is less than 8 bytes: " ++ dec (field f q 4)).
(** Version and flags at [p]; about versions above [top] it is said [said]. *)
Inductive full_wrong (f : bytes) (p top : N) (said : ustring) : err -> ustring -> Prop :=
| No_version : blen f < p + 1 -> full_wrong f p top said EIoEof (txt "Error reading version of full atom head")
| No_flags : p + 1 <= blen f < p + 4 -> full_wrong f p top said EIoEof (txt "Error reading flags of full atom head")
| Other_version : p + 4 <= blen f -> top < field f p 1 -> full_wrong f p top said (EUnknownVersion (field f p 1)) said.
Definition full_fine (f : bytes) (p top : N) : Prop := p + 4 <= blen f /\ field f p 1 <= top.

(** The file type at the start. *)
Inductive type_wrong (f : bytes) : err -> ustring -> Prop :=
| Type_head : forall e s, head_wrong f 0 e s -> type_wrong f e s
| Type_missing : forall id head size, box_at f 0 id head size -> id <> id4 "ftyp" -> type_wrong f ENoTag (txt "No filetype atom found.")
| Type_cut : forall head size, box_at f 0 (id4 "ftyp") head size -> blen f < size -> type_wrong f EIoEof []
| Type_text : forall head size, box_at f 0 (id4 "ftyp") head size -> size <= blen f -> ~ is_utf8 (slice f head (size - head)) ->
    type_wrong f EUtf8 (txt "Data is not valid utf-8.").

(** A value at [q]: version, type, bytes, text. *)
Definition kinds : list N := [0; 1; 2; 13; 14; 21; 27].
Inductive value_wrong (f : bytes) (q head size : N) : err -> ustring -> Prop :=
| Value_version : forall e s, full_wrong f (q + head) 0 (txt "Error reading data atom (data)") e s -> value_wrong f q head size e s
| Value_kind : full_fine f (q + head) 0 -> ~ In (field f (q + head + 1) 3) kinds ->
    value_wrong f q head size (EUnknownDataType (field f (q + head + 1) 3)) (txt "Unknown datatype code")
| Value_cut : full_fine f (q + head) 0 -> In (field f (q + head + 1) 3) kinds -> head + 8 < size -> blen f < q + size -> value_wrong f q head size EIoEof []
| Value_text : full_fine f (q + head) 0 -> q + size <= blen f -> field f (q + head + 1) 3 = 1 -> ~ is_utf8 (slice f (q + head + 8) (size - head - 8)) ->
    value_wrong f q head size EUtf8 (txt "Data is not valid utf-8.")
| Value_text16 : full_fine f (q + head) 0 -> q + size <= blen f -> field f (q + head + 1) 3 = 2 -> ~ is_utf16 (slice f (q + head + 8) (size - head - 8)) ->
    value_wrong f q head size EUtf16 (txt "Data is not valid utf-16.").
(** A namespace or name. *)
Inductive name_wrong (f : bytes) (q head size : N) : err -> ustring -> Prop :=
| Name_version : forall e s, full_wrong f (q + head) 0 (txt "Error reading data atom (data)") e s -> name_wrong f q head size e s
| Name_cut : full_fine f (q + head) 0 -> blen f < q + size -> name_wrong f q head size EIoEof []
| Name_text : full_fine f (q + head) 0 -> q + size <= blen f -> ~ is_utf8 (slice f (q + head + 4) (size - head - 4)) -> name_wrong f q head size EUtf8 (txt "Data is not valid utf-8.").
(** A movie header whose content is at [p]. *)
Inductive header_wrong (f : bytes) (p : N) : err -> ustring -> Prop :=
| Header_version : forall e s, full_wrong f p 1 (txt "Error unknown movie header (mvhd) version " ++ dec (field f p 1)) e s -> header_wrong f p e s
| Header_cut : full_fine f p 1 -> blen f < p + (if field f p 1 =? 0 then 20 else 32) -> header_wrong f p EIoEof [].

(** The descriptors of a sample entry that are reached one after another; see [sees_desc]. *)
Inductive desc_reached (f : bytes) (d e : N) : list N -> N -> Prop :=
| Descs_start : forall n len, descriptor_at f d 3 n len -> desc_reached f d e [N.min len (e - (d + n)) - 3] (d + n + 3)
| Past_desc : forall k w q tag n len, desc_reached f d e (k :: w) q -> 0 < k -> descriptor_at f q tag n len -> tag <> 4 \/ w <> [] ->
    (tag = 5 -> w <> [] -> q + n + 2 <= blen f) -> desc_reached f d e (k - (n + len) :: w) (q + n + len)
| Into_desc : forall k q n len, desc_reached f d e [k] q -> 0 < k -> descriptor_at f q 4 n len -> q + n + 13 <= blen f ->
    desc_reached f d e [len - 13; k - (n + len)] (q + n + 13)
| Out_desc : forall k w q, desc_reached f d e (0 :: k :: w) q -> desc_reached f d e (k :: w) q.
(** One that is cut off. *)
Definition desc_cut (f : bytes) (d e : N) : Prop :=
  exists k w q, desc_reached f d e (k :: w) q /\ 0 < k /\
    ((forall tag n len, ~ descriptor_at f q tag n len) \/
     (exists n len, descriptor_at f q 4 n len /\ w = [] /\ blen f < q + n + 13) \/
     (exists n len, descriptor_at f q 5 n len /\ w <> [] /\ blen f < q + n + 2)).
(** The description of a sample entry, at [a]. *)
Inductive entry_wrong (f : bytes) (a : N) : err -> ustring -> Prop :=
| Entry_head : forall e s, head_wrong f a e s -> entry_wrong f a e s
| Entry_other : forall id head size, box_at f a id head size -> id <> id4 "esds" -> entry_wrong f a (EAtomNotFound (id4 "esds")) (txt "Missing esds atom")
| Entry_version : forall head size e s, box_at f a (id4 "esds") head size -> full_wrong f (a + head) 0 (txt "Unknown MPEG-4 audio (mp4a) version") e s -> entry_wrong f a e s
| Entry_empty : forall head size, box_at f a (id4 "esds") head size -> full_fine f (a + head) 0 ->
    (forall tag n len, ~ descriptor_at f (a + head + 4) tag n len) -> entry_wrong f a EIoEof []
| Entry_stream : forall head size tag n len, box_at f a (id4 "esds") head size -> full_fine f (a + head) 0 ->
    descriptor_at f (a + head + 4) tag n len -> tag <> 3 -> entry_wrong f a (EDescriptorNotFound 3) (txt "Missing elementary stream descriptor")
| Entry_cut : forall head size, box_at f a (id4 "esds") head size -> full_fine f (a + head) 0 -> desc_cut f (a + head + 4) (a + size) -> entry_wrong f a EIoEof [].

(** The content of a box in a container of kind [l] that is not gone into, with the names that are added. *)
Inductive content_wrong (f : bytes) (l : level) (q : N) (id : fourcc) (head size : N) : list fourcc -> err -> ustring -> Prop :=
| Wrong_value : forall e s, l = InItem -> id = id4 "data" -> value_wrong f q head size e s -> content_wrong f l q id head size [] e s
| Wrong_name : forall e s, l = InItem -> In id [id4 "mean"; id4 "name"] -> name_wrong f q head size e s -> content_wrong f l q id head size [] e s
| Wrong_header : forall e s, l = InMoov -> id = id4 "mvhd" -> header_wrong f (q + head) e s -> content_wrong f l q id head size [id4 "mvhd"] e s
| Wrong_entry : forall e s, l = InStsd -> id = id4 "mp4a" -> entry_wrong f (q + head + 28) e s -> content_wrong f l q id head size [id4 "mp4a"] e s.
(** Behind all boxes but those in items that have a meaning the position is set to the end, if the content is right. *)
Definition is_read (l : level) (id : fourcc) : Prop := l = InItem /\ In id [id4 "data"; id4 "mean"; id4 "name"].
Inductive box_wrong (f : bytes) (l : level) (q : N) (id : fourcc) (head size : N) : list fourcc -> err -> ustring -> Prop :=
| Wrong_content : forall ns e s, content_wrong f l q id head size ns e s -> box_wrong f l q id head size ns e s
| Wrong_end : (forall ns e s, ~ content_wrong f l q id head size ns e s) -> ~ is_read l id -> 2 ^ 63 <= q + size ->
    box_wrong f l q id head size (own l id) EIoSeek [].
(** The bytes behind the head of a box that is gone into. *)
Inductive start_wrong (f : bytes) (l : level) (p : N) : err -> ustring -> Prop :=
| Wrong_meta : forall e s, l = InMeta -> full_wrong f p 0 (txt "Unknown metadata (meta) version") e s -> start_wrong f l p e s
| Wrong_stsd : forall e s, l = InStsd -> full_wrong f p 0 (txt "Unknown sample table sample description (stsd) version") e s -> start_wrong f l p e s.

(** * The boxes in an item *)

(** The places reached in an item whose content of [k0] bytes is at [q0]: whether there was a value, the bytes left. *)
Inductive in_item (f : bytes) (k0 q0 : N) : bool -> N -> N -> Prop :=
| Item_start : in_item f k0 q0 false k0 q0
| Item_past : forall v k q id head size, in_item f k0 q0 v k q -> 0 < k -> box_at f q id head size -> (forall ns e s, ~ box_wrong f InItem q id head size ns e s) ->
    in_item f k0 q0 (v || fourcc_eqb id (id4 "data")) (k - size) (q + size).
Inductive item_wrong (f : bytes) (name : fourcc) (k0 q0 : N) : err -> ustring -> Prop :=
| Item_head : forall v k q e s, in_item f k0 q0 v k q -> 0 < k -> head_wrong f q e s -> item_wrong f name k0 q0 e s
| Item_box : forall v k q id head size ns e s, in_item f k0 q0 v k q -> 0 < k -> box_at f q id head size -> box_wrong f InItem q id head size ns e s -> item_wrong f name k0 q0 e s
| Item_empty : forall q, in_item f k0 q0 false 0 q ->
    item_wrong f name k0 q0 (EAtomNotFound (id4 "data")) (txt "Error constructing atom data '" ++ bytes_text (fc_bytes name) ++ txt "', missing data atom").

(** * The boxes of the file *)

Inductive reached (f : bytes) : standing -> N -> Prop :=
| Reach_first : forall head size, box_at f 0 (id4 "ftyp") head size -> size <= blen f -> is_utf8 (slice f head (size - head)) -> reached f [(Top, blen f - size)] size
| Reach_past : forall l k w q id head size, reached f ((l, k) :: w) q -> 0 < k -> box_at f q id head size -> opens l id = None ->
    (forall ns e s, ~ box_wrong f l q id head size ns e s) -> reached f ((l, k - size) :: w) (q + size)
| Reach_into : forall l k w q id head size l' d, reached f ((l, k) :: w) q -> 0 < k -> box_at f q id head size -> opens l id = Some (l', d) -> l' <> InItem ->
    (forall e s, ~ start_wrong f l' (q + head) e s) -> reached f ((l', size - head - d) :: (l, k - size) :: w) (q + head + d)
| Reach_item : forall l k w q id head size q', reached f ((l, k) :: w) q -> 0 < k -> box_at f q id head size -> opens l id = Some (InItem, 0) ->
    in_item f (size - head) (q + head) true 0 q' -> reached f ((l, k - size) :: w) q'
| Reach_out : forall l l' k w q, reached f ((l, 0) :: (l', k) :: w) q -> l <> InMoov -> reached f ((l', k) :: w) q.

(** Reading ends at the end of the movie, *)
Definition read_through (f : bytes) : Prop := exists w q, reached f ((InMoov, 0) :: w) q.
(** or with the first flaw. *)
Inductive first_flaw (f : bytes) : list fourcc -> err -> ustring -> Prop :=
| At_type : forall e s, type_wrong f e s -> first_flaw f [] e s
| At_end : forall w q, reached f ((Top, 0) :: w) q -> first_flaw f [] (EAtomNotFound (id4 "moov")) (txt "Missing necessary data, no movie (moov) atom found")
| At_head : forall l k w q e s, reached f ((l, k) :: w) q -> 0 < k -> head_wrong f q e s -> first_flaw f (trail ((l, k) :: w)) e s
| At_box : forall l k w q id head size ns e s, reached f ((l, k) :: w) q -> 0 < k -> box_at f q id head size -> opens l id = None ->
    box_wrong f l q id head size ns e s -> first_flaw f (trail ((l, k) :: w) ++ ns) e s
| At_start_of : forall l k w q id head size l' d e s, reached f ((l, k) :: w) q -> 0 < k -> box_at f q id head size -> opens l id = Some (l', d) ->
    start_wrong f l' (q + head) e s -> first_flaw f (trail ((l, k) :: w) ++ level_name l') e s
| At_item : forall l k w q id head size e s, reached f ((l, k) :: w) q -> 0 < k -> box_at f q id head size -> opens l id = Some (InItem, 0) ->
    item_wrong f id (size - head) (q + head) e s -> first_flaw f (trail ((l, k) :: w)) e s.
