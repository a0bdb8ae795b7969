(** Specification of malformed atoms in arbitrary byte strings: where the reader looks for atoms, and the flaws of
    the atoms found there that make it panic. *)

From Coq Require Import List NArith ZArith Bool String.
From Verif Require Import Base Types TagSpec FileSpec FailSpec.
Import ListNotations.

(** * Where boxes are looked for *)

Inductive level := Top | InMoov | InTrak | InMdia | InMinf | InStbl | InStsd | InUdta | InMeta | InIlst | InItem.
(** The boxes whose content is a sequence of boxes, and the number of bytes before the first. *)
Definition opens (l : level) (id : fourcc) : option (level * N) :=
  let is (s : string) := fourcc_eqb id (id4 s) in
  match l with
  | Top => if is "moov"%string then Some (InMoov, 0) else None
  | InMoov => if is "trak"%string then Some (InTrak, 0) else if is "udta"%string then Some (InUdta, 0) else None
  | InTrak => if is "mdia"%string then Some (InMdia, 0) else None
  | InMdia => if is "minf"%string then Some (InMinf, 0) else None
  | InMinf => if is "stbl"%string then Some (InStbl, 0) else None
  | InStbl => if is "stsd"%string then Some (InStsd, 8) else None
  | InUdta => if is "meta"%string then Some (InMeta, 4) else None
  | InMeta => if is "ilst"%string then Some (InIlst, 0) else None
  | InIlst => if is "free"%string then None else Some (InItem, 0)
  | InStsd | InItem => None
  end.
(** The containers around a place, the innermost first, each with its announced end. *)
Definition within := list (level * N).
Definition lv (w : within) : level := match w with [] => Top | (l, _) :: _ => l end.
(** At the start of the file; behind a box; in a container; and, when the end of a container is reached or has been
    passed, in the container around it.  Nothing behind the movie box is looked at. *)
Inductive looks (f : bytes) : within -> N -> Prop :=
| At_start : looks f [] 0
| Past : forall w q id head size, looks f w q -> box_at f q id head size -> opens (lv w) id = None -> looks f w (q + size)
| Into : forall w q id head size l d, looks f w q -> box_at f q id head size -> opens (lv w) id = Some (l, d) -> looks f ((l, q + size) :: w) (q + head + d)
| Out : forall l e w q, looks f ((l, e) :: w) q -> w <> [] -> e <= q -> looks f w q.

(** * Where descriptors are looked for *)

(** A descriptor at [q]: its tag, then its length in one to four bytes of seven bits each, of which all but the last
    have the high bit set (the fourth may have it set, too).  [n] is the number of these bytes, tag included. *)
Definition descriptor_at (f : bytes) (q tag n len : N) : Prop :=
  q + n <= blen f /\ field f q 1 = tag /\
  exists i z, slice f (q + 1) (n - 1) = i ++ [z] /\ n = 2 + blen i /\ Forall (fun b => 128 <= b2n b) i /\
    (blen i < 3 /\ b2n z < 128 \/ blen i = 3) /\ len = fold_left (fun a b => a * 128 + b2n b mod 128) (i ++ [z]) 0.
(** From the first descriptor, at [a], on: behind a descriptor; in an elementary stream descriptor, which the first one
    must be, behind three bytes; in a decoder config descriptor behind thirteen. *)
Inductive looks_desc (f : bytes) (a : N) : N -> Prop :=
| First : forall n len, descriptor_at f a 3 n len -> looks_desc f a (a + n + 3)
| Behind : forall q tag n len, looks_desc f a q -> descriptor_at f q tag n len -> looks_desc f a (q + n + len)
| Inside : forall q n len, looks_desc f a q -> descriptor_at f q 4 n len -> looks_desc f a (q + n + 13).
(** A sample entry at [p] with its description at [a], whose descriptors start at [d]. *)
Definition entry_at (f : bytes) (p size a size' d : N) : Prop :=
  exists w head head', looks f w p /\ lv w = InStsd /\ box_at f p (id4 "mp4a") head size /\ a = p + head + 28 /\
    box_at f a (id4 "esds") head' size' /\ d = a + head' + 4.

(** * Flaws *)

Inductive flaw (f : bytes) : Prop :=
(** a 64-bit size that does not cover its own head, or of 2^63 and more *)
| Odd_size : forall q id size, (exists w, looks f w q) \/ (exists p s a' d, entry_at f p s q a' d) ->
    box_at f q id 16 size -> size < 16 \/ 2 ^ 63 <= size -> flaw f
(** a value without room for type and locale; a namespace or name without room for version and flags *)
| Short_value : forall w q head size, looks f w q -> lv w = InItem -> box_at f q (id4 "data") head size -> size < head + 8 -> flaw f
| Short_text : forall w q id head size, looks f w q -> lv w = InItem -> box_at f q id head size -> id = id4 "mean" \/ id = id4 "name" -> size < head + 4 -> flaw f
(** a movie header that does not contain its duration, with time scale 0, or with a duration that in nanoseconds
    exceeds 64 bits *)
| Bad_header : forall w q head size, looks f w q -> lv w = InMoov -> box_at f q (id4 "mvhd") head size ->
    (field f (q + head) 1 = 0 /\ (size < head + 20 \/ field f (q + head + 12) 4 = 0) \/
     field f (q + head) 1 = 1 /\ (size < head + 32 \/ field f (q + head + 20) 4 = 0 \/ 2 ^ 64 <= field f (q + head + 24) 8 * 10 ^ 9)) -> flaw f
(** a description without room for the head of its first descriptor *)
| Short_esds : forall p size a size' d n len, entry_at f p size a size' d -> descriptor_at f d 3 n len -> a + size' < d + n -> flaw f
(** a decoder specific descriptor of less than two bytes *)
| Short_config : forall p size a size' d q n len, entry_at f p size a size' d -> looks_desc f d q -> descriptor_at f q 5 n len -> len < 2 -> flaw f
(** descriptors that do not fit the sample entry *)
| Long_descriptor : forall p size a size' d q, entry_at f p size a size' d -> looks_desc f d q -> p + size < q -> flaw f.
