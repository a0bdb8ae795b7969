(** The scan of the write path: every [find_atom], and the plan [write_tag_to] makes before it
    modifies the file. *)

From Coq Require Import List NArith ZArith Bool.
From Verif Require Import Base Utf Types Stream Parse.
Import ListNotations.

(** [Mdat::find_atom] mdat.rs 24-28, [Hdlr::find_atom] hdlr.rs 57-61, [Ilst::find_atom]
    ilst.rs 93-97, [Stco::find_atom] stco.rs 62-66, [Co64::find_atom] co64.rs 62-66: identical. *)
Definition leaf_find (m : mode) (s : size) : R bounds :=
  b <- find_bounds m s ;;
  seek_to_end m b ;;;
  ret b.

(** stbl.rs 36-40 [StblBounds]; the bounds of the atom itself are computed but never used. *)
Record stbl_bounds := StblBounds { sb_bounds : bounds; sb_stco : option bounds; sb_co64 : option bounds }.

(** Local variables of [Stbl::find_atom], stbl.rs 47-48: stco and co64. *)
Definition stbl_fbody (m : mode) (h : head) (r : option bounds * option bounds)
  : R (option bounds * option bounds) :=
  let id := hd_fourcc h in
  if fourcc_eqb id SAMPLE_TABLE_CHUNK_OFFSET then
    b <- leaf_find m (hd_size h) ;; ret (Some b, snd r)
  else if fourcc_eqb id SAMPLE_TABLE_CHUNK_OFFSET_64 then
    b <- leaf_find m (hd_size h) ;; ret (fst r, Some b)
  else skip_atom m h ;;; ret r.

(** [Stbl::find_atom], stbl.rs 45-66. *)
Definition stbl_find (fuel : nat) (m : mode) (s : size) : R stbl_bounds :=
  b <- find_bounds m s ;;
  r <- atom_loop fuel m (content_len m s) (stbl_fbody m) 0 (None, None) ;;
  ret (StblBounds b (fst r) (snd r)).

(** [Minf::find_atom], minf.rs 42-61. *)
Definition minf_fbody (fuel : nat) (m : mode) (h : head) (r : option stbl_bounds) : R (option stbl_bounds) :=
  if fourcc_eqb (hd_fourcc h) SAMPLE_TABLE then
    x <- stbl_find fuel m (hd_size h) ;; ret (Some x)
  else skip_atom m h ;;; ret r.

Record minf_bounds := MinfBounds { nb_bounds : bounds; nb_stbl : option stbl_bounds }.

Definition minf_find (fuel : nat) (m : mode) (s : size) : R minf_bounds :=
  b <- find_bounds m s ;;
  r <- atom_loop fuel m (content_len m s) (minf_fbody fuel m) 0 None ;;
  ret (MinfBounds b r).

(** [Mdia::find_atom], mdia.rs 42-61. *)
Definition mdia_fbody (fuel : nat) (m : mode) (h : head) (r : option minf_bounds) : R (option minf_bounds) :=
  if fourcc_eqb (hd_fourcc h) MEDIA_INFORMATION then
    x <- minf_find fuel m (hd_size h) ;; ret (Some x)
  else skip_atom m h ;;; ret r.

Record mdia_bounds := MdiaBounds { db_bounds : bounds; db_minf : option minf_bounds }.

Definition mdia_find (fuel : nat) (m : mode) (s : size) : R mdia_bounds :=
  b <- find_bounds m s ;;
  r <- atom_loop fuel m (content_len m s) (mdia_fbody fuel m) 0 None ;;
  ret (MdiaBounds b r).

(** [Trak::find_atom], trak.rs 42-61. *)
Definition trak_fbody (fuel : nat) (m : mode) (h : head) (r : option mdia_bounds) : R (option mdia_bounds) :=
  if fourcc_eqb (hd_fourcc h) MEDIA then
    x <- mdia_find fuel m (hd_size h) ;; ret (Some x)
  else skip_atom m h ;;; ret r.

Record trak_bounds := TrakBounds { tb_bounds : bounds; tb_mdia : option mdia_bounds }.

Definition trak_find (fuel : nat) (m : mode) (s : size) : R trak_bounds :=
  b <- find_bounds m s ;;
  r <- atom_loop fuel m (content_len m s) (trak_fbody fuel m) 0 None ;;
  ret (TrakBounds b r).

(** meta.rs 77-81 [MetaBounds]. *)
Record meta_bounds := MetaBounds { eb_bounds : bounds; eb_hdlr : option bounds; eb_ilst : option bounds }.

(** Body of the loop of [Meta::find_atom], meta.rs 110-118; locals hdlr and ilst. *)
Definition meta_fbody (m : mode) (h : head) (r : option bounds * option bounds)
  : R (option bounds * option bounds) :=
  let id := hd_fourcc h in
  if fourcc_eqb id HANDLER_REFERENCE then
    b <- leaf_find m (hd_size h) ;; ret (Some b, snd r)
  else if fourcc_eqb id ITEM_LIST then
    b <- leaf_find m (hd_size h) ;; ret (fst r, Some b)
  else skip_atom m h ;;; ret r.

(** [Meta::find_atom], meta.rs 94-124. *)
Definition meta_find (fuel : nat) (m : mode) (s : size) : R meta_bounds :=
  b <- find_bounds m s ;;
  vf <- parse_full_head ;;
  if negb (fst vf =? 0) then fail (EUnknownVersion (fst vf)) else
  r <- atom_loop fuel m (content_len m s) (meta_fbody m) 4 (None, None) ;;
  ret (MetaBounds b (fst r) (snd r)).

(** udta.rs 48-51 [UdtaBounds]. *)
Record udta_bounds := UdtaBounds { ub_bounds : bounds; ub_meta : option meta_bounds }.

Definition udta_fbody (fuel : nat) (m : mode) (h : head) (r : option meta_bounds) : R (option meta_bounds) :=
  if fourcc_eqb (hd_fourcc h) METADATA then
    x <- meta_find fuel m (hd_size h) ;; ret (Some x)
  else skip_atom m h ;;; ret r.

(** [Udta::find_atom], udta.rs 64-83. *)
Definition udta_find (fuel : nat) (m : mode) (s : size) : R udta_bounds :=
  b <- find_bounds m s ;;
  r <- atom_loop fuel m (content_len m s) (udta_fbody fuel m) 0 None ;;
  ret (UdtaBounds b r).

(** moov.rs 52-56 [MoovBounds]. *)
Record moov_bounds := MoovBounds { vb_bounds : bounds; vb_trak : list trak_bounds; vb_udta : option udta_bounds }.

Definition moov_fbody (fuel : nat) (m : mode) (h : head) (r : list trak_bounds * option udta_bounds)
  : R (list trak_bounds * option udta_bounds) :=
  let id := hd_fourcc h in
  if fourcc_eqb id TRACK then
    t <- trak_find fuel m (hd_size h) ;; ret (fst r ++ [t], snd r)
  else if fourcc_eqb id USER_DATA then
    u <- udta_find fuel m (hd_size h) ;; ret (fst r, Some u)
  else skip_atom m h ;;; ret r.

(** [Moov::find_atom], moov.rs 69-90. *)
Definition moov_find (fuel : nat) (m : mode) (s : size) : R moov_bounds :=
  b <- find_bounds m s ;;
  r <- atom_loop fuel m (content_len m s) (moov_fbody fuel m) 0 ([], None) ;;
  ret (MoovBounds b (fst r) (snd r)).

(** Body of the top-level loop of [write_tag_to], mod.rs 367-376; locals moov and mdat. *)
Definition top_fbody (fuel : nat) (m : mode) (h : head) (r : option moov_bounds * option bounds)
  : R (option moov_bounds * option bounds) :=
  let id := hd_fourcc h in
  if fourcc_eqb id MOVIE then
    x <- moov_find fuel m (hd_size h) ;; ret (Some x, snd r)
  else if fourcc_eqb id MEDIA_DATA then
    b <- leaf_find m (hd_size h) ;; ret (fst r, Some b)
  else skip_atom m h ;;; ret r.

(** mod.rs 357-387: everything found in the file; the position of the last mdat (0 if none). *)
Definition scan (fuel : nat) (m : mode) : R (moov_bounds * N) :=
  ftyp_parse m ;;;
  len <- remaining_stream_len m ;;
  r <- atom_loop fuel m (Ok len) (top_fbody fuel m) 0 (None, None) ;;
  match fst r with
  | None => fail (EAtomNotFound MOVIE)
  | Some mb => ret (mb, match snd r with Some b => b_pos b | None => 0 end)
  end.
