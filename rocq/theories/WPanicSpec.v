(** Specification of what makes writing panic: where the writer looks for boxes, and the flaws of the boxes found
    there and of the values that are to be written. *)

From Coq Require Import List NArith ZArith Bool String.
From Verif Require Import Base Types Utf Write TagSpec FileSpec FailSpec PanicSpec.
Import ListNotations.

(** * Where the writer looks for boxes *)

(** The boxes it goes into; the others are passed over. *)
Definition scan_opens (l : level) (id : fourcc) : option (level * N) :=
  let is (s : string) := fourcc_eqb id (id4 s) in
  match l with
  | Top => if is "moov"%string then Some (InMoov, 0) else None
  | InMoov => if is "trak"%string then Some (InTrak, 0) else if is "udta"%string then Some (InUdta, 0) else None
  | InTrak => if is "mdia"%string then Some (InMdia, 0) else None
  | InMdia => if is "minf"%string then Some (InMinf, 0) else None
  | InMinf => if is "stbl"%string then Some (InStbl, 0) else None
  | InUdta => if is "meta"%string then Some (InMeta, 4) else None
  | _ => None
  end.
(** As for reading, but the boxes behind the movie box are looked at, too. *)
Inductive scans (f : bytes) : within -> N -> Prop :=
| Scan_start : scans f [] 0
| Scan_past : forall w q id head size, scans f w q -> box_at f q id head size -> scan_opens (lv w) id = None -> scans f w (q + size)
| Scan_into : forall w q id head size l d, scans f w q -> box_at f q id head size -> scan_opens (lv w) id = Some (l, d) -> scans f ((l, q + size) :: w) (q + head + d)
| Scan_out : forall l e w q, scans f ((l, e) :: w) q -> e <= q -> scans f w q.
(** A box called [id] in a box of kind [l]. *)
Definition scanned (f : bytes) (l : level) (q : N) (id : fourcc) (head size : N) : Prop :=
  exists w, scans f w q /\ lv w = l /\ box_at f q id head size.

(** * Flaws *)

(** The boxes the item list is in. *)
Definition around_list (l : level) (id : fourcc) : Prop :=
  l = Top /\ id = id4 "moov" \/ l = InMoov /\ id = id4 "udta" \/ l = InUdta /\ id = id4 "meta".
(** The sizes of the items, as announced by the library, and room for the boxes around them. *)
Definition room (items : list atom_data) : N := nsum (map ad_len items) + 100.

Inductive wflaw (f : bytes) (items : list atom_data) : Prop :=
(** a 64-bit size that does not cover its own head, or of 2^63 and more *)
| W_odd_size : forall l q id size, scanned f l q id 16 size -> size < 16 \/ 2 ^ 63 <= size -> wflaw f items
(** an item list, or a box to which one is to be added, that goes on behind the end of the file *)
| W_cut : forall l q id head size, scanned f l q id head size -> around_list l id \/ l = InMeta /\ id = id4 "ilst" -> blen f < q + size -> wflaw f items
(** a box around the item list that would grow to 2^63 bytes *)
| W_huge : forall l q id head size, scanned f l q id head size -> around_list l id -> 2 ^ 63 <= size + room items -> wflaw f items
(** a 64-bit chunk offset that would grow to 2^63 *)
| W_far : forall q head size i, scanned f InStbl q (id4 "co64") head size -> q + head + 8 + 8 * i + 8 <= q + size -> q + size <= blen f ->
    2 ^ 63 <= field f (q + head + 8 + 8 * i) 8 + room items -> wflaw f items
(** a value, a namespace or a name whose box would not have a 32-bit size *)
| W_long_value : forall a d, In a items -> In d (ad_data a) -> 2 ^ 32 <= 16 + data_len d mod 2 ^ 32 -> wflaw f items
| W_long_name : forall a mean name, In a items -> ad_ident a = IFreeform mean name ->
    2 ^ 32 <= 12 + blen (enc8 mean) mod 2 ^ 32 \/ 2 ^ 32 <= 12 + blen (enc8 name) mod 2 ^ 32 -> wflaw f items.
