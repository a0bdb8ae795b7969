(** Specification of the outcome of reading an arbitrary file, in the profile with overflow checks ([Checked]) and in the one
    without ([Wrapping]): the boxes are visited one after another, and each part either is passed, which leads to a new
    position, or stops the reader with an error or a panic.  FirstSpec.v does this for files without the flaws of
    PanicSpec.v; here nothing is excluded. *)

From Coq Require Import List NArith ZArith Bool String.
From Verif Require Import Base Types Utf TagSpec FileSpec FailSpec PanicSpec Display ErrSpec FirstSpec.
Import ListNotations.
Local Open Scope list_scope.

(** Why the reader stops: an error with its text, or a panic. *)
Inductive fault := Fails (e : err) (s : ustring) | Breaks (p : panic).
(** What a part of the file leads to: the position behind it, or the end of reading. *)
Inductive out := Goes (p : N) | Stops (x : fault).

(** * Numbers of 64 bits *)

(** [c] is [a] less [b], which wraps without overflow checks. *)
Definition less (m : mode) (a b c : N) : Prop := b <= a /\ c = a - b \/ m = Wrapping /\ a < b /\ c = a + 2 ^ 64 - b.
Definition lacking (m : mode) (a b : N) : Prop := m = Checked /\ a < b.
(** [c] is the sum [a] kept in 64 bits. *)
Definition kept (m : mode) (a c : N) : Prop := a < 2 ^ 64 /\ c = a \/ m = Wrapping /\ 2 ^ 64 <= a /\ c = a mod 2 ^ 64.
Definition beyond (m : mode) (a : N) : Prop := m = Checked /\ 2 ^ 64 <= a.

(** * Parts of the file *)

(** A box at [q] that is skipped.  The length of its content is taken as a signed number, so that the position can move
    back. *)
Inductive skipped (m : mode) (q head size : N) : out -> Prop :=
| Skip_short : lacking m size head -> skipped m q head size (Stops (Breaks POverflow))
| Skip_less : m = Wrapping -> size < head -> skipped m q head size (Goes (q + size))
| Skip_on : head <= size -> size - head < 2 ^ 63 -> q + size < 2 ^ 63 -> skipped m q head size (Goes (q + size))
| Skip_far : head <= size -> size - head < 2 ^ 63 -> 2 ^ 63 <= q + size -> skipped m q head size (Stops (Fails EIoSeek []))
| Skip_back : head <= size -> 2 ^ 63 <= size - head -> 2 ^ 64 <= q + size -> skipped m q head size (Goes (q + size - 2 ^ 64))
| Skip_before : head <= size -> 2 ^ 63 <= size - head -> q + size < 2 ^ 64 -> skipped m q head size (Stops (Fails EIoSeek [])).
(** The position is set from [cur] to the end of the box at [q]. *)
Inductive ended (m : mode) (q size cur : N) : out -> Prop :=
| End_over : beyond m (q + size) -> ended m q size cur (Stops (Breaks POverflow))
| End_behind : forall e, kept m (q + size) e -> lacking m e cur -> ended m q size cur (Stops (Breaks POverflow))
| End_far : forall e, kept m (q + size) e -> ~ lacking m e cur -> 2 ^ 63 <= e -> ended m q size cur (Stops (Fails EIoSeek []))
| End_on : forall e, kept m (q + size) e -> ~ lacking m e cur -> e < 2 ^ 63 -> ended m q size cur (Goes e).
(** [n] bytes at [p] are read, which have to be [good]. *)
Inductive taken (f : bytes) (p n : N) (good : bytes -> Prop) (bad : fault) : out -> Prop :=
| Take_much : 2 ^ 63 <= n -> taken f p n good bad (Stops (Breaks PCapacity))
| Take_cut : 0 < n < 2 ^ 63 -> blen f < p + n -> taken f p n good bad (Stops (Fails EIoEof []))
| Take_bad : n < 2 ^ 63 -> n = 0 \/ p + n <= blen f -> ~ good (slice f p n) -> taken f p n good bad (Stops bad)
| Take_good : n < 2 ^ 63 -> n = 0 \/ p + n <= blen f -> good (slice f p n) -> taken f p n good bad (Goes (p + n)).
Definition not_utf8 : fault := Fails EUtf8 (txt "Data is not valid utf-8.").
Definition not_utf16 : fault := Fails EUtf16 (txt "Data is not valid utf-16.").

(** The file type at the start. *)
Inductive type_out (m : mode) (f : bytes) : out -> Prop :=
| Type_no_head : forall e s, head_wrong f 0 e s -> type_out m f (Stops (Fails e s))
| Type_other : forall id head size, box_at f 0 id head size -> id <> id4 "ftyp" -> type_out m f (Stops (Fails ENoTag (txt "No filetype atom found.")))
| Type_short : forall head size, box_at f 0 (id4 "ftyp") head size -> lacking m size head -> type_out m f (Stops (Breaks POverflow))
| Type_taken : forall head size n o, box_at f 0 (id4 "ftyp") head size -> less m size head n -> taken f head n is_utf8 not_utf8 o -> type_out m f o.

(** A value at [q]. *)
Inductive value_out (m : mode) (f : bytes) (q head size : N) : out -> Prop :=
| Value_stops : forall e s, full_wrong f (q + head) 0 (txt "Error reading data atom (data)") e s -> value_out m f q head size (Stops (Fails e s))
| Value_short : full_fine f (q + head) 0 -> lacking m size (head + 8) -> value_out m f q head size (Stops (Breaks POverflow))
| Value_other : full_fine f (q + head) 0 -> ~ lacking m size (head + 8) -> ~ In (field f (q + head + 1) 3) kinds ->
    value_out m f q head size (Stops (Fails (EUnknownDataType (field f (q + head + 1) 3)) (txt "Unknown datatype code")))
| Value_bytes : forall n o, full_fine f (q + head) 0 -> less m size (head + 8) n -> In (field f (q + head + 1) 3) kinds -> field f (q + head + 1) 3 <> 1 -> field f (q + head + 1) 3 <> 2 ->
    taken f (q + head + 8) n (fun _ => True) not_utf8 o -> value_out m f q head size o
| Value_utf8 : forall n o, full_fine f (q + head) 0 -> less m size (head + 8) n -> field f (q + head + 1) 3 = 1 ->
    taken f (q + head + 8) n is_utf8 not_utf8 o -> value_out m f q head size o
| Value_utf16 : forall n o, full_fine f (q + head) 0 -> less m size (head + 8) n -> field f (q + head + 1) 3 = 2 ->
    taken f (q + head + 8) n is_utf16 not_utf16 o -> value_out m f q head size o.
(** A namespace or name. *)
Inductive name_out (m : mode) (f : bytes) (q head size : N) : out -> Prop :=
| Name_stops : forall e s, full_wrong f (q + head) 0 (txt "Error reading data atom (data)") e s -> name_out m f q head size (Stops (Fails e s))
| Name_short : full_fine f (q + head) 0 -> lacking m size (head + 4) -> name_out m f q head size (Stops (Breaks POverflow))
| Name_utf8 : forall n o, full_fine f (q + head) 0 -> less m size (head + 4) n -> taken f (q + head + 4) n is_utf8 not_utf8 o -> name_out m f q head size o.

(** Time scale and duration of a movie header whose content is at [p], and the position behind them. *)
Definition header_at (f : bytes) (p scale dur e : N) : Prop :=
  e <= blen f /\ (field f p 1 = 0 /\ scale = field f (p + 12) 4 /\ dur = field f (p + 16) 4 /\ e = p + 20 \/
                  field f p 1 = 1 /\ scale = field f (p + 20) 4 /\ dur = field f (p + 24) 8 /\ e = p + 32).
Inductive header_out (m : mode) (f : bytes) (q head size : N) : out -> Prop :=
| Header_stops : forall e s, header_wrong f (q + head) e s -> header_out m f q head size (Stops (Fails e s))
| Header_much : forall scale dur e, header_at f (q + head) scale dur e -> beyond m (dur * 10 ^ 9) -> header_out m f q head size (Stops (Breaks POverflow))
| Header_zero : forall dur e, header_at f (q + head) 0 dur e -> ~ beyond m (dur * 10 ^ 9) -> header_out m f q head size (Stops (Breaks PDivZero))
| Header_ends : forall scale dur e o, header_at f (q + head) scale dur e -> ~ beyond m (dur * 10 ^ 9) -> scale <> 0 -> ended m q size e o -> header_out m f q head size o.

(** Descriptors: the places reached in the first one, whose content of [n] bytes is at [p], with the bytes left in each
    of those around the place. *)
Inductive desc_at (m : mode) (f : bytes) (n p : N) : list N -> N -> Prop :=
| Descs_first : desc_at m f n p [n - 3] (p + 3)
| Descs_past : forall k w q tag h len, desc_at m f n p (k :: w) q -> 0 < k -> descriptor_at f q tag h len -> tag <> 4 \/ w <> [] ->
    (tag = 5 -> w <> [] -> q + h + 2 <= blen f /\ ~ lacking m len 2) -> desc_at m f n p (k - (h + len) :: w) (q + h + len)
| Descs_into : forall k q h len, desc_at m f n p [k] q -> 0 < k -> descriptor_at f q 4 h len -> q + h + 13 <= blen f ->
    desc_at m f n p [len - 13; k - (h + len)] (q + h + 13)
| Descs_out : forall k w q, desc_at m f n p (0 :: k :: w) q -> desc_at m f n p (k :: w) q.
Inductive descs_out (m : mode) (f : bytes) (n p : N) : out -> Prop :=
| Desc_none : forall k w q, desc_at m f n p (k :: w) q -> 0 < k -> (forall tag h len, ~ descriptor_at f q tag h len) -> descs_out m f n p (Stops (Fails EIoEof []))
| Desc_config : forall k q h len, desc_at m f n p [k] q -> 0 < k -> descriptor_at f q 4 h len -> blen f < q + h + 13 -> descs_out m f n p (Stops (Fails EIoEof []))
| Desc_specific : forall k w q h len, desc_at m f n p (k :: w) q -> 0 < k -> w <> [] -> descriptor_at f q 5 h len -> blen f < q + h + 2 -> descs_out m f n p (Stops (Fails EIoEof []))
| Desc_short : forall k w q h len, desc_at m f n p (k :: w) q -> 0 < k -> w <> [] -> descriptor_at f q 5 h len -> q + h + 2 <= blen f -> lacking m len 2 -> descs_out m f n p (Stops (Breaks POverflow))
| Desc_end : forall q, desc_at m f n p [0] q -> descs_out m f n p (Goes q).
(** A sample entry at [q] with its description at [a]. *)
Inductive entry_out (m : mode) (f : bytes) (q size a : N) : out -> Prop :=
| Entry_stops : forall e s, head_wrong f a e s -> entry_out m f q size a (Stops (Fails e s))
| Entry_no_esds : forall id head size', box_at f a id head size' -> id <> id4 "esds" -> entry_out m f q size a (Stops (Fails (EAtomNotFound (id4 "esds")) (txt "Missing esds atom")))
| Entry_versions : forall head size' e s, box_at f a (id4 "esds") head size' -> full_wrong f (a + head) 0 (txt "Unknown MPEG-4 audio (mp4a) version") e s -> entry_out m f q size a (Stops (Fails e s))
| Entry_none : forall head size', box_at f a (id4 "esds") head size' -> full_fine f (a + head) 0 ->
    (forall tag n len, ~ descriptor_at f (a + head + 4) tag n len) -> entry_out m f q size a (Stops (Fails EIoEof []))
| Entry_tag : forall head size' tag n len, box_at f a (id4 "esds") head size' -> full_fine f (a + head) 0 -> descriptor_at f (a + head + 4) tag n len -> tag <> 3 ->
    entry_out m f q size a (Stops (Fails (EDescriptorNotFound 3) (txt "Missing elementary stream descriptor")))
| Entry_short : forall head size' n len, box_at f a (id4 "esds") head size' -> full_fine f (a + head) 0 -> descriptor_at f (a + head + 4) 3 n len -> lacking m size' (head + 4 + n) ->
    entry_out m f q size a (Stops (Breaks POverflow))
| Entry_descs : forall head size' n len c x, box_at f a (id4 "esds") head size' -> full_fine f (a + head) 0 -> descriptor_at f (a + head + 4) 3 n len -> less m size' (head + 4 + n) c ->
    descs_out m f (N.min len c) (a + head + 4 + n) (Stops x) -> entry_out m f q size a (Stops x)
| Entry_ends : forall head size' n len c cur o, box_at f a (id4 "esds") head size' -> full_fine f (a + head) 0 -> descriptor_at f (a + head + 4) 3 n len -> less m size' (head + 4 + n) c ->
    descs_out m f (N.min len c) (a + head + 4 + n) (Goes cur) -> ended m q size cur o -> entry_out m f q size a o.

(** * Items *)

Inductive part_out (m : mode) (f : bytes) (q : N) (id : fourcc) (head size : N) : out -> Prop :=
| Part_value : forall o, id = id4 "data" -> value_out m f q head size o -> part_out m f q id head size o
| Part_name : forall o, In id [id4 "mean"; id4 "name"] -> name_out m f q head size o -> part_out m f q id head size o
| Part_other : forall o, ~ In id [id4 "data"; id4 "mean"; id4 "name"] -> skipped m q head size o -> part_out m f q id head size o.
(** The places reached in an item whose content of [n] bytes is at [q0], after a number of boxes: whether there was a value,
    and how many bytes the boxes before it announced.  This number is counted in 64 bits. *)
Inductive in_item_at (m : mode) (f : bytes) (n q0 : N) : nat -> bool -> N -> N -> Prop :=
| Parts_first : in_item_at m f n q0 0 false 0 q0
| Parts_next : forall k v d q id head size p d', in_item_at m f n q0 k v d q -> d < n -> box_at f q id head size -> part_out m f q id head size (Goes p) -> kept m (d + size) d' ->
    in_item_at m f n q0 (S k) (v || fourcc_eqb id (id4 "data")) d' p.
Inductive item_out (m : mode) (f : bytes) (name : fourcc) (n q0 : N) : out -> Prop :=
| Item_no_head : forall k v d q e s, in_item_at m f n q0 k v d q -> d < n -> head_wrong f q e s -> item_out m f name n q0 (Stops (Fails e s))
| Item_part : forall k v d q id head size x, in_item_at m f n q0 k v d q -> d < n -> box_at f q id head size -> part_out m f q id head size (Stops x) -> item_out m f name n q0 (Stops x)
| Item_sum : forall k v d q id head size p, in_item_at m f n q0 k v d q -> d < n -> box_at f q id head size -> part_out m f q id head size (Goes p) -> beyond m (d + size) ->
    item_out m f name n q0 (Stops (Breaks POverflow))
| Item_no_value : forall k d q, in_item_at m f n q0 k false d q -> n <= d ->
    item_out m f name n q0 (Stops (Fails (EAtomNotFound (id4 "data")) (txt "Error constructing atom data '" ++ bytes_text (fc_bytes name) ++ txt "', missing data atom")))
| Item_full : forall k d q, in_item_at m f n q0 k true d q -> n <= d -> item_out m f name n q0 (Goes q).

(** * The boxes of the file *)

(** The box [id] at [q] in a container of kind [l], if it is not a container itself, with the names that are added. *)
Inductive leaf_out (m : mode) (f : bytes) (l : level) (q : N) (id : fourcc) (head size : N) : list fourcc -> out -> Prop :=
| Leaf_header : forall o, l = InMoov -> id = id4 "mvhd" -> header_out m f q head size o -> leaf_out m f l q id head size [id4 "mvhd"] o
| Leaf_entry : forall o, l = InStsd -> id = id4 "mp4a" -> entry_out m f q size (q + head + 28) o -> leaf_out m f l q id head size [id4 "mp4a"] o
| Leaf_short : l = InIlst -> id <> id4 "free" -> lacking m size head -> leaf_out m f l q id head size [] (Stops (Breaks POverflow))
| Leaf_item : forall n o, l = InIlst -> id <> id4 "free" -> less m size head n -> item_out m f id n (q + head) o -> leaf_out m f l q id head size [] o
| Leaf_other : forall o, opens l id = None -> own l id = [] -> skipped m q head size o -> leaf_out m f l q id head size [] o.
(** The start of a container. *)
Definition version_said (l : level) : option ustring :=
  match l with
  | InMeta => Some (txt "Unknown metadata (meta) version")
  | InStsd => Some (txt "Unknown sample table sample description (stsd) version")
  | _ => None
  end.
Inductive enter_out (m : mode) (f : bytes) (l : level) (skip q head size : N) : out -> Prop :=
| Enter_version : forall t e s, version_said l = Some t -> full_wrong f (q + head) 0 t e s -> enter_out m f l skip q head size (Stops (Fails e s))
| Enter_short : version_said l = None \/ full_fine f (q + head) 0 -> lacking m size head -> enter_out m f l skip q head size (Stops (Breaks POverflow))
| Enter_fine : version_said l = None \/ full_fine f (q + head) 0 -> ~ lacking m size head -> enter_out m f l skip q head size (Goes (q + head + skip)).

(** The containers around a place, the innermost first: the length of the content, and how much of it the boxes announced
    so far.  The box that a container is in counts as soon as it is entered, and the sum is checked when it is left. *)
Definition around := list (level * N * N).
Definition names (w : around) : list fourcc := flat_map (fun x => level_name (fst (fst x))) (rev w).
(** The places the reader arrives at, after a number of steps. *)
Inductive arrives (m : mode) (f : bytes) : nat -> around -> N -> Prop :=
| Arrive_first : forall p, type_out m f (Goes p) -> arrives m f 0 [(Top, blen f - p, 0)] p
| Arrive_past : forall k l n d w q id head size ns p d', arrives m f k ((l, n, d) :: w) q -> d < n -> box_at f q id head size -> leaf_out m f l q id head size ns (Goes p) -> kept m (d + size) d' ->
    arrives m f (S k) ((l, n, d') :: w) p
| Arrive_into : forall k l n d w q id head size l' s p n', arrives m f k ((l, n, d) :: w) q -> d < n -> box_at f q id head size -> opens l id = Some (l', s) -> l' <> InItem ->
    enter_out m f l' s q head size (Goes p) -> less m size head n' -> arrives m f (S k) ((l', n', s) :: (l, n, d + size) :: w) p
| Arrive_out : forall k l' n' d' l n d w q d'', arrives m f k ((l', n', d') :: (l, n, d) :: w) q -> n' <= d' -> l' <> Top -> l' <> InMoov -> kept m d d'' ->
    arrives m f (S k) ((l, n, d'') :: w) q.

(** The end of the movie is reached, *)
Definition arrives_at_end (m : mode) (f : bytes) : Prop := exists k n d w q, arrives m f k ((InMoov, n, d) :: w) q /\ n <= d.
(** or something stops the reader, in the boxes with the given names, *)
Inductive stops_with (m : mode) (f : bytes) : list fourcc -> fault -> Prop :=
| Stop_type : forall x, type_out m f (Stops x) -> stops_with m f [] x
| Stop_end : forall k n d w q, arrives m f k ((Top, n, d) :: w) q -> n <= d ->
    stops_with m f [] (Fails (EAtomNotFound (id4 "moov")) (txt "Missing necessary data, no movie (moov) atom found"))
| Stop_head : forall k l n d w q e s, arrives m f k ((l, n, d) :: w) q -> d < n -> head_wrong f q e s -> stops_with m f (names ((l, n, d) :: w)) (Fails e s)
| Stop_leaf : forall k l n d w q id head size ns x, arrives m f k ((l, n, d) :: w) q -> d < n -> box_at f q id head size -> leaf_out m f l q id head size ns (Stops x) ->
    stops_with m f (names ((l, n, d) :: w) ++ ns) x
| Stop_sum : forall k l n d w q id head size ns p, arrives m f k ((l, n, d) :: w) q -> d < n -> box_at f q id head size -> leaf_out m f l q id head size ns (Goes p) -> beyond m (d + size) ->
    stops_with m f (names ((l, n, d) :: w)) (Breaks POverflow)
| Stop_enter : forall k l n d w q id head size l' s x, arrives m f k ((l, n, d) :: w) q -> d < n -> box_at f q id head size -> opens l id = Some (l', s) -> l' <> InItem ->
    enter_out m f l' s q head size (Stops x) -> stops_with m f (names ((l, n, d) :: w) ++ level_name l') x
| Stop_out : forall k l' n' d' l n d w q, arrives m f k ((l', n', d') :: (l, n, d) :: w) q -> n' <= d' -> l' <> Top -> l' <> InMoov -> beyond m d ->
    stops_with m f (names ((l, n, d) :: w)) (Breaks POverflow).
(** or the reader never stops: for every number it takes that many steps from box to box, or that many within one item. *)
Definition busy (m : mode) (f : bytes) (c : nat) : Prop :=
  (exists w q, arrives m f c w q) \/
  (exists k n d w q id head size n' v d' q', arrives m f k ((InIlst, n, d) :: w) q /\ d < n /\ box_at f q id head size /\ id <> id4 "free" /\ less m size head n' /\
    in_item_at m f n' (q + head) c v d' q').
Definition never_stops (m : mode) (f : bytes) : Prop := forall c, busy m f c.
