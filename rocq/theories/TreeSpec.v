(** Specification of the tag an arbitrary file holds: the boxes of the file as the reader finds them, and what they
    say. *)

From Coq Require Import List NArith ZArith Bool String.
From Verif Require Import Base Types Utf TagSpec FileSpec FailSpec PanicSpec ErrSpec LayoutSpec.
Import ListNotations.
Local Open Scope list_scope.

(** * The boxes *)

(** The boxes that fill [k] bytes of a container of kind [l], by the sizes they announce, from [q] on, up to [q']; see
    [row] for the boxes the writer goes into. *)
Inductive contents (f : bytes) : level -> N -> N -> list node -> N -> Prop :=
| Contents_end : forall l q, contents f l 0 q [] q
| Contents_past : forall l k q id head size ns q', 0 < k -> box_at f q id head size -> opens l id = None ->
    contents f l (k - size) (q + size) ns q' -> contents f l k q (Node q head size id [] :: ns) q'
| Contents_into : forall l k q id head size l' d inside q1 ns q', 0 < k -> box_at f q id head size -> opens l id = Some (l', d) ->
    contents f l' (size - head - d) (q + head + d) inside q1 -> contents f l (k - size) q1 ns q' -> contents f l k q (Node q head size id inside :: ns) q'.
(** The first movie among the boxes of a file; those behind it are not looked at. *)
Inductive first_movie (f : bytes) : N -> N -> node -> Prop :=
| Movie_here : forall k q head size inside q', 0 < k -> box_at f q (id4 "moov") head size -> contents f InMoov (size - head) (q + head) inside q' ->
    first_movie f k q (Node q head size (id4 "moov") inside)
| Movie_behind : forall k q id head size mo, 0 < k -> box_at f q id head size -> id <> id4 "moov" -> first_movie f (k - size) (q + size) mo -> first_movie f k q mo.

(** Both or none. *)
Definition both {A B} (P : A -> B -> Prop) (x : option A) (y : option B) : Prop :=
  match x, y with Some a, Some b => P a b | None, None => True | _, _ => False end.
(** The content of a box behind [d] bytes. *)
Definition n_start (n : node) : N := n_at n + n_head n.
Definition content_behind (f : bytes) (d : N) (n : node) : bytes := slice f (n_start n + d) (n_size n - n_head n - d).

(** * Items *)

Definition text8 (b : bytes) (s : ustring) : Prop := wf_ustr s = true /\ b = enc8 s.
(** An odd last byte is ignored. *)
Definition text16 (b : bytes) (s : ustring) : Prop := wf_ustr s = true /\ exists odd, b = units_bytes (enc16 s) ++ odd /\ blen odd <= 1.
(** A value: its type behind the version, its bytes behind the locale. *)
Definition value_says (f : bytes) (n : node) (d : data) : Prop :=
  let b := content_behind f 8 n in
  type_code d = field f (n_start n + 1) 3 /\
  match d with DUtf8 s => text8 b s | DUtf16 s => text16 b s | DReserved v | DJpeg v | DPng v | DBeSigned v | DBmp v => v = b end.
Definition name_says (f : bytes) (n : node) (s : ustring) : Prop := text8 (content_behind f 4 n) s.
(** All values count, of several namespaces and names the last. *)
Definition item_says (f : bytes) (n : node) (a : atom_data) : Prop :=
  exists mean name ds, both (name_says f) (final (id4 "mean") (n_inside n)) mean /\ both (name_says f) (final (id4 "name") (n_inside n)) name /\
    Forall2 (value_says f) (filter (named (id4 "data")) (n_inside n)) ds /\ a = AtomData (item_name (n_id n) mean name) ds.
(** The items of the last item list in the last metadata in the last user data. *)
Definition item_nodes (mo : node) : list node :=
  filter (fun n => negb (named (id4 "free") n)) (within_it (final (id4 "ilst") (within_it (final (id4 "meta") (within_it (final (id4 "udta") (n_inside mo))))))).
Definition items_say (f : bytes) (mo : node) (items : list atom_data) : Prop :=
  exists l, Forall2 (item_says f) (item_nodes mo) l /\ merged l items.

(** * Audio parameters *)

(** A descriptor: its tag, where its content is, the descriptors in it if it is gone into. *)
Inductive dnode := DNode (tag p : N) (inside : list dnode).
Definition dn_tag (n : dnode) : N := let 'DNode t _ _ := n in t.
Definition dn_at (n : dnode) : N := let 'DNode _ p _ := n in p.
Definition dn_inside (n : dnode) : list dnode := let 'DNode _ _ l := n in l.
(** The descriptors that fill [k] bytes from [q] on, up to [q'].  Decoder configurations are gone into, behind their first
    13 bytes, unless ([outer]) they are in one. *)
Inductive descs (f : bytes) : bool -> N -> N -> list dnode -> N -> Prop :=
| Descs_end : forall outer q, descs f outer 0 q [] q
| Descs_past : forall outer k q tag n len ds q', 0 < k -> descriptor_at f q tag n len -> tag <> 4 \/ outer = false ->
    descs f outer (k - (n + len)) (q + n + len) ds q' -> descs f outer k q (DNode tag (q + n) [] :: ds) q'
| Descs_into : forall k q n len inside q1 ds q', 0 < k -> descriptor_at f q 4 n len ->
    descs f false (len - 13) (q + n + 13) inside q1 -> descs f true (k - (n + len)) q1 ds q' -> descs f true k q (DNode 4 (q + n) inside :: ds) q'.
Definition tagged_as (t : N) (ds : list dnode) : list dnode := filter (fun d => dn_tag d =? t) ds.
(** The bitrates are in the last decoder configuration, the other parameters in the last specific configuration in any. *)
Definition sound_says (f : bytes) (e : node) (a : audio) : Prop :=
  exists head size n len ds q', let p := n_start e + 28 in let d := p + head + 4 in
    box_at f p (id4 "esds") head size /\ descriptor_at f d 3 n len /\ descs f true (N.min len (p + size - (d + n)) - 3) (d + n + 3) ds q' /\
    au_max a = option_map (fun c => field f (dn_at c + 5) 4) (last_opt (tagged_as 4 ds)) /\
    au_avg a = option_map (fun c => field f (dn_at c + 9) 4) (last_opt (tagged_as 4 ds)) /\
    match last_opt (tagged_as 5 (flat_map dn_inside (tagged_as 4 ds))) with
    | None => au_channels a = None /\ au_rate a = None
    | Some c => ds_means (slice f (dn_at c) 2) (au_channels a) (au_rate a)
    end.
(** The last sample entry of a track, of the last of each of the boxes around it. *)
Definition sample_entry (t : node) : option node :=
  final (id4 "mp4a") (within_it (final (id4 "stsd") (within_it (final (id4 "stbl") (within_it (final (id4 "minf") (within_it (final (id4 "mdia") (n_inside t))))))))).
Definition header_says (f : bytes) (n : node) (d : N) : Prop :=
  let p := n_start n in
  field f p 1 = 0 /\ nanos (field f (p + 12) 4) (field f (p + 16) 4) d \/
  field f p 1 = 1 /\ nanos (field f (p + 20) 4) (field f (p + 24) 8) d.
Definition info_says (f : bytes) (mo : node) (i : audio_info) : Prop :=
  exists dur auds, both (header_says f) (final (id4 "mvhd") (n_inside mo)) dur /\
    Forall2 (fun t o => both (sound_says f) (sample_entry t) o) (filter (named (id4 "trak")) (n_inside mo)) auds /\ i = info_of dur (first_some auds).

(** * The tag *)

Definition holds (f : bytes) (t : tag) : Prop :=
  (exists head size, box_at f 0 (id4 "ftyp") head size /\ text8 (slice f head (size - head)) (tg_ftyp t)) /\
  exists mo, first_movie f (blen f) 0 mo /\ info_says f mo (tg_info t) /\ items_say f mo (tg_atoms t).
