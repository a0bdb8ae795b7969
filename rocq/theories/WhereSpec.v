(** Specification of where in a byte string, well-formed or not, the parts of a tag are stored. *)

From Coq Require Import List NArith ZArith Bool String.
From Verif Require Import Base Utf Types TagSpec FileSpec FailSpec.
Import ListNotations.

(** What an item box contains: values and, in freeform items, namespace and name. *)
Inductive part := PData (d : data) | PMean (s : ustring) | PName (s : ustring).

(** A `data` box at [q]: version 0, type, locale, payload.  An odd last byte of UTF-16 text is ignored. *)
Definition value_at (f : bytes) (q size : N) (d : data) : Prop :=
  good_data d /\ exists head odd, box_at f q (id4 "data") head size /\
    slice f (q + head) 4 = n2b 0 :: be 3 (type_code d) /\
    size = head + 8 + blen (payload d ++ odd) /\
    slice f (q + head + 8) (blen (payload d ++ odd)) = payload d ++ odd /\
    (odd = [] \/ blen odd = 1 /\ type_code d = 2).
(** A box at [q] that holds version 0, flags and UTF-8 text. *)
Definition text_at (f : bytes) (q size : N) (id : fourcc) (s : ustring) : Prop :=
  wf_ustr s = true /\ exists head, box_at f q id head size /\ field f (q + head) 1 = 0 /\
    size = head + 4 + blen (enc8 s) /\ slice f (q + head + 4) (blen (enc8 s)) = enc8 s.
Definition part_at (f : bytes) (q size : N) (x : part) : Prop :=
  match x with
  | PData d => value_at f q size d
  | PMean s => text_at f q size (id4 "mean") s
  | PName s => text_at f q size (id4 "name") s
  end.

Definition datas (l : list part) : list data := flat_map (fun x => match x with PData d => [d] | _ => [] end) l.
Definition means (l : list part) : list ustring := flat_map (fun x => match x with PMean s => [s] | _ => [] end) l.
Definition names (l : list part) : list ustring := flat_map (fun x => match x with PName s => [s] | _ => [] end) l.
(** The item a box called [id] with these parts is. *)
Definition item_of (id : fourcc) (l : list part) : atom_data :=
  AtomData (item_name id (last_opt (means l)) (last_opt (names l))) (datas l).

(** An item somewhere in the file, its parts anywhere in the file. *)
Definition somewhere (f : bytes) (i : atom_data) : Prop :=
  exists p head size id l, box_at f p id head size /\ id <> id4 "free" /\ datas l <> [] /\ i = item_of id l /\
    Forall (fun x => exists q n, part_at f q n x) l.

(** The parts are in boxes that follow each other between [a] and [b]; something may be between them. *)
Inductive parts_in (f : bytes) : N -> list part -> N -> Prop :=
| No_parts : forall a b, a <= b -> parts_in f a [] b
| Next_part : forall a q size x r b, a <= q -> part_at f q size x -> parts_in f (q + size) r b -> parts_in f a (x :: r) b.
(** The items are in boxes that follow each other, their parts behind the head of their box and in front
    of the next box. *)
Inductive items_in (f : bytes) : N -> list atom_data -> N -> Prop :=
| No_items : forall a b, a <= b -> items_in f a [] b
| Next_item : forall a p id head size l c r b, a <= p -> box_at f p id head size -> id <> id4 "free" ->
    parts_in f (p + head) l c -> datas l <> [] -> items_in f c r b -> items_in f a (item_of id l :: r) b.

(** The file type box at the start. *)
Definition filetype_at_start (f : bytes) (s : ustring) : Prop :=
  wf_ustr s = true /\ exists head, box_at f 0 (id4 "ftyp") head (head + blen (enc8 s)) /\ slice f head (blen (enc8 s)) = enc8 s.

(** A movie header, of version 0 or 1, with this duration in nanoseconds; the product is taken modulo
    2^64 if arithmetic is not checked. *)
Definition duration_somewhere (m : mode) (f : bytes) (d : N) : Prop :=
  exists p head size scale dur, box_at f p (id4 "mvhd") head size /\
    (field f (p + head) 1 = 0 /\ scale = field f (p + head + 12) 4 /\ dur = field f (p + head + 16) 4 /\ p + head + 20 <= blen f \/
     field f (p + head) 1 = 1 /\ scale = field f (p + head + 20) 4 /\ dur = field f (p + head + 24) 8 /\ p + head + 32 <= blen f) /\
    scale <> 0 /\ (m = Checked -> dur * 1000000000 < 2 ^ 64) /\ d = (dur * 1000000000) mod 2 ^ 64 / scale.

(** A descriptor: tag, a length of one to four bytes, content from [q + n]. *)
Definition desc_at (f : bytes) (q tag n : N) : Prop := field f q 1 = tag /\ 2 <= n <= 5.
(** Audio parameters: an `esds` box in an `mp4a` box, a decoder config descriptor with these bitrates
    and a decoder specific descriptor with these parameters, or none of them. *)
Definition audio_somewhere (f : bytes) (ch : option channel_config) (rate : option sample_rate) (mx av : option N) : Prop :=
  exists p head size head' size', box_at f p (id4 "mp4a") head size /\ box_at f (p + head + 28) (id4 "esds") head' size' /\
    field f (p + head + 28 + head') 1 = 0 /\ field f (p + head + 28 + head' + 4) 1 = 3 /\
    (mx = None /\ av = None \/
     exists q n, desc_at f q 4 n /\ q + n + 13 <= blen f /\ mx = Some (field f (q + n + 5) 4) /\ av = Some (field f (q + n + 9) 4)) /\
    (ch = None /\ rate = None \/
     exists q n, desc_at f q 5 n /\ q + n + 2 <= blen f /\ ds_means (slice f (q + n) 2) ch rate).
