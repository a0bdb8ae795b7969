(** The read path: atom heads, every [parse_atom], [AtomData::parse], [read_tag_from].

    All [ParseAtom::parse]/[FindAtom::find] wrappers (src/atom/mod.rs 88-120) only prefix the
    description of an error and are omitted.

    Loops take the argument [fuel], the number of iterations after which the evaluation is cut
    off with [Fuel]. *)

From Coq Require Import List NArith ZArith Bool.
From Verif Require Import Base Utf Types Stream.
Import ListNotations.

(** * src/atom/head.rs *)

(** head.rs 11-17 [Size]. *)
Record size := Size { sz_ext : bool; sz_len : N }.
(** head.rs 60-64 [Head]. *)
Record head := Head { hd_size : size; hd_fourcc : fourcc }.

(** [Size::from], head.rs 20-27.  The additions are on [u64] and are not checked here: the
    argument is the length of something held in memory. *)
Definition size_from (content_len : N) : size :=
  let len := content_len + 8 in
  let ext := 4294967295 <? len in
  Size ext (if ext then len + 8 else len).

(** [Size::head_len], head.rs 37-42. *)
Definition head_len (s : size) : N := if sz_ext s then 16 else 8.

(** [Size::content_len], head.rs 44-49. *)
Definition content_len (m : mode) (s : size) : res N :=
  if sz_ext s then sub64 m (sz_len s) 16 else sub64 m (sz_len s) 8.

(** The four bytes of an identifier, [read_exact(&mut *ident)]. *)
Definition fourcc_of_bytes (l : bytes) : fourcc :=
  match l with
  | [a; b; c; d] => FourCC a b c d
  | _ => FourCC Byte.x00 Byte.x00 Byte.x00 Byte.x00
  end.

(** [parse_head], head.rs 101-135. *)
Definition parse_head : R head :=
  len <- read_u32 ;;
  id <- read_exact 4 ;;
  let ident := fourcc_of_bytes id in
  if len =? 1 then
    l <- read_u64 ;; ret (Head (Size true l) ident)
  else if len <? 8 then fail EParsing
  else ret (Head (Size false len) ident).

(** [parse_full_head], head.rs 155-175: version and flags. *)
Definition parse_full_head : R (N * bytes) :=
  v <- read_u8 ;;
  fl <- read_exact 3 ;;
  ret (v, fl).

(** head.rs 184-187 [AtomBounds]. *)
Record bounds := Bounds { b_pos : N; b_size : size }.

(** [AtomBounds::content_pos], head.rs 206-208. *)
Definition content_pos (m : mode) (b : bounds) : res N := add64 m (b_pos b) (head_len (b_size b)).
(** [AtomBounds::end], head.rs 210-212. *)
Definition bounds_end (m : mode) (b : bounds) : res N := add64 m (b_pos b) (sz_len (b_size b)).

(** [find_bounds], head.rs 215-218. *)
Definition find_bounds (m : mode) (s : size) : R bounds :=
  cur <- position ;;
  pos <- lift (sub64 m cur (head_len s)) ;;
  ret (Bounds pos s).

(** [seek_to_end], head.rs 220-225. *)
Definition seek_to_end (m : mode) (b : bounds) : R unit :=
  current <- position ;;
  e <- lift (bounds_end m b) ;;
  diff <- lift (sub64 m e current) ;;
  seek_cur (as_i64 diff).

(** [reader.seek(SeekFrom::Current(head.content_len() as i64))], the way every container skips
    an atom it is not interested in. *)
Definition skip_atom (m : mode) (h : head) : R unit :=
  c <- lift (content_len m (hd_size h)) ;;
  seek_cur (as_i64 c).

(** The loop all containers share, e.g. moov.rs 17-32:
    [while parsed_bytes < limit { let head = parse_head(reader)?; body; parsed_bytes += head.len(); }].
    [limit] is re-evaluated in every iteration, as [size.content_len()] in the source. *)
Fixpoint atom_loop {S : Type} (fuel : nat) (m : mode) (limit : res N)
         (body : head -> S -> R S) (parsed : N) (s : S) : R S :=
  match fuel with
  | O => outOfFuel
  | Datatypes.S fuel' =>
    l <- lift limit ;;
    if parsed <? l then
      h <- parse_head ;;
      s' <- body h s ;;
      parsed' <- lift (add64 m parsed (sz_len (hd_size h))) ;;
      atom_loop fuel' m limit body parsed' s'
    else ret s
  end.

(** * src/atom/data.rs, src/atom/mod.rs: item values *)

(** [Data::parse], data.rs 418-434. *)
Definition data_parse (datatype len : N) : R data :=
  match datatype with
  | 0 => v <- read_u8_vec len ;; ret (DReserved v)
  | 1 => s <- read_utf8 len ;; ret (DUtf8 s)
  | 2 => s <- read_utf16 len ;; ret (DUtf16 s)
  | 13 => v <- read_u8_vec len ;; ret (DJpeg v)
  | 14 => v <- read_u8_vec len ;; ret (DPng v)
  | 21 => v <- read_u8_vec len ;; ret (DBeSigned v)
  | 27 => v <- read_u8_vec len ;; ret (DBmp v)
  | _ => fail (EUnknownDataType datatype)
  end.

(** Local variables of [AtomData::parse], mod.rs 190-192. *)
Record item_acc := ItemAcc { ia_data : list data; ia_mean : option ustring; ia_name : option ustring }.

(** Body of the loop of [AtomData::parse], mod.rs 196-238. *)
Definition item_body (m : mode) (h : head) (a : item_acc) : R item_acc :=
  let id := hd_fourcc h in
  if fourcc_eqb id DATA then
    vf <- parse_full_head ;;
    if negb (fst vf =? 0) then fail (EUnknownVersion (fst vf)) else
    let datatype := unbe (snd vf) in
    seek_cur 4 ;;;
    c <- lift (content_len m (hd_size h)) ;;
    n <- lift (sub64 m c 8) ;;
    d <- data_parse datatype n ;;
    ret (ItemAcc (ia_data a ++ [d]) (ia_mean a) (ia_name a))
  else if fourcc_eqb id MEAN then
    vf <- parse_full_head ;;
    if negb (fst vf =? 0) then fail (EUnknownVersion (fst vf)) else
    c <- lift (content_len m (hd_size h)) ;;
    n <- lift (sub64 m c 4) ;;
    s <- read_utf8 n ;;
    ret (ItemAcc (ia_data a) (Some s) (ia_name a))
  else if fourcc_eqb id NAME then
    vf <- parse_full_head ;;
    if negb (fst vf =? 0) then fail (EUnknownVersion (fst vf)) else
    c <- lift (content_len m (hd_size h)) ;;
    n <- lift (sub64 m c 4) ;;
    s <- read_utf8 n ;;
    ret (ItemAcc (ia_data a) (ia_mean a) (Some s))
  else
    skip_atom m h ;;; ret a.

(** The identifier chosen in mod.rs 243-246. *)
Definition item_ident (parent : fourcc) (mean name : option ustring) : data_ident :=
  match mean, name with
  | Some me, Some na => if fourcc_eqb parent FREEFORM then IFreeform me na else IFourcc parent
  | _, _ => IFourcc parent
  end.

(** [AtomData::parse], mod.rs 189-258. *)
Definition atom_data_parse (fuel : nat) (m : mode) (parent : fourcc) (len : N) : R atom_data :=
  a <- atom_loop fuel m (Ok len) (item_body m) 0 (ItemAcc [] None None) ;;
  match ia_data a with
  | [] => fail (EAtomNotFound DATA)
  | _ => ret (AtomData (item_ident parent (ia_mean a) (ia_name a)) (ia_data a))
  end.

(** ilst.rs 38-43: extend the first atom with an equal identifier, or push. *)
Fixpoint ilst_add (l : list atom_data) (a : atom_data) : list atom_data :=
  match l with
  | [] => [a]
  | o :: r => if ident_eqb (ad_ident a) (ad_ident o)
              then AtomData (ad_ident o) (ad_data o ++ ad_data a) :: r
              else o :: ilst_add r a
  end.

(** Body of the loop of [Ilst::parse_atom], ilst.rs 30-45. *)
Definition ilst_body (fuel : nat) (m : mode) (h : head) (l : list atom_data) : R (list atom_data) :=
  if fourcc_eqb (hd_fourcc h) FREE then skip_atom m h ;;; ret l
  else
    c <- lift (content_len m (hd_size h)) ;;
    a <- atom_data_parse fuel m (hd_fourcc h) c ;;
    ret (ilst_add l a).

(** [Ilst::parse_atom], ilst.rs 25-51. *)
Definition ilst_parse (fuel : nat) (m : mode) (s : size) : R (list atom_data) :=
  atom_loop fuel m (content_len m s) (ilst_body fuel m) 0 [].

(** [Meta::parse_atom], meta.rs 14-41.  The result is the [ilst] field, the only one set. *)
Definition meta_body (fuel : nat) (m : mode) (h : head) (r : option (list atom_data))
  : R (option (list atom_data)) :=
  if fourcc_eqb (hd_fourcc h) ITEM_LIST then
    l <- ilst_parse fuel m (hd_size h) ;; ret (Some l)
  else skip_atom m h ;;; ret r.

Definition meta_parse (fuel : nat) (m : mode) (s : size) : R (option (list atom_data)) :=
  vf <- parse_full_head ;;
  if negb (fst vf =? 0) then fail (EUnknownVersion (fst vf)) else
  atom_loop fuel m (content_len m s) (meta_body fuel m) 4 None.

(** [Udta::parse_atom], udta.rs 13-31: the [meta] field. *)
Definition udta_body (fuel : nat) (m : mode) (h : head) (r : option (option (list atom_data)))
  : R (option (option (list atom_data))) :=
  if fourcc_eqb (hd_fourcc h) METADATA then
    x <- meta_parse fuel m (hd_size h) ;; ret (Some x)
  else skip_atom m h ;;; ret r.

Definition udta_parse (fuel : nat) (m : mode) (s : size) : R (option (option (list atom_data))) :=
  atom_loop fuel m (content_len m s) (udta_body fuel m) 0 None.

(** * src/atom/mp4a.rs *)

(** mp4a.rs 62-67 [Mp4a]. *)
Record mp4a := Mp4a {
  ma_channels : option channel_config;
  ma_rate : option sample_rate;
  ma_max : option N;
  ma_avg : option N
}.
Definition mp4a_default := Mp4a None None None None.

(** [parse_desc_head], mp4a.rs 228-243: the loop reads at most four length bytes. *)
Fixpoint desc_len_loop (k : nat) (hl len : N) : R (N * N) :=
  match k with
  | O => ret (hl, len)
  | S k' =>
    b <- read_u8 ;;
    let len' := len * 128 + b mod 128 in
    if b <? 128 then ret (hl + 1, len') else desc_len_loop k' (hl + 1) len'
  end.

(** Returns tag, head length and descriptor length. *)
Definition parse_desc_head : R (N * N * N) :=
  tag <- read_u8 ;;
  hl <- desc_len_loop 4 1 0 ;;
  ret (tag, fst hl, snd hl).

(** [parse_ds_desc], mp4a.rs 215-226. *)
Definition parse_ds_desc (m : mode) (info : mp4a) (len : N) : R mp4a :=
  num <- read_u16 ;;
  let freq_index := (num / 128) mod 16 in
  let channel := (num / 8) mod 16 in
  d <- lift (sub64 m len 2) ;;
  seek_cur (as_i64 d) ;;;
  ret (Mp4a (channel_config_of channel) (sample_rate_of freq_index) (ma_max info) (ma_avg info)).

(** The descriptor loops of mp4a.rs 153-165 and 188-200. *)
Fixpoint desc_loop {S : Type} (fuel : nat) (m : mode) (len : N)
         (body : N -> N -> S -> R S) (parsed : N) (s : S) : R S :=
  match fuel with
  | O => outOfFuel
  | Datatypes.S fuel' =>
    if parsed <? len then
      h <- parse_desc_head ;;
      let '(tag, hl, dl) := h in
      s' <- body tag dl s ;;
      k <- lift (add64 m hl dl) ;;
      parsed' <- lift (add64 m parsed k) ;;
      desc_loop fuel' m len body parsed' s'
    else ret s
  end.

(** mp4a.rs 192-197. *)
Definition dc_body (m : mode) (tag dl : N) (info : mp4a) : R mp4a :=
  if tag =? 5 then parse_ds_desc m info dl
  else seek_cur (as_i64 dl) ;;; ret info.

(** [parse_dc_desc], mp4a.rs 183-203. *)
Definition parse_dc_desc (fuel : nat) (m : mode) (info : mp4a) (len : N) : R mp4a :=
  seek_cur 5 ;;;
  mx <- read_u32 ;;
  av <- read_u32 ;;
  desc_loop fuel m len (dc_body m) 13 (Mp4a (ma_channels info) (ma_rate info) (Some mx) (Some av)).

(** mp4a.rs 157-162. *)
Definition es_body (fuel : nat) (m : mode) (tag dl : N) (info : mp4a) : R mp4a :=
  if tag =? 4 then parse_dc_desc fuel m info dl
  else seek_cur (as_i64 dl) ;;; ret info.

(** [parse_es_desc], mp4a.rs 150-168. *)
Definition parse_es_desc (fuel : nat) (m : mode) (info : mp4a) (len : N) : R mp4a :=
  seek_cur 3 ;;;
  desc_loop fuel m len (es_body fuel m) 3 info.

(** [parse_esds], mp4a.rs 112-134. *)
Definition parse_esds (fuel : nat) (m : mode) (info : mp4a) (s : size) : R mp4a :=
  vf <- parse_full_head ;;
  if negb (fst vf =? 0) then fail (EUnknownVersion (fst vf)) else
  h <- parse_desc_head ;;
  let '(tag, hl, dl) := h in
  if negb (tag =? 3) then fail (EDescriptorNotFound 3) else
  c <- lift (content_len m s) ;;
  c4 <- lift (sub64 m c 4) ;;
  max_len <- lift (sub64 m c4 hl) ;;
  parse_es_desc fuel m info (N.min dl max_len).

(** [Mp4a::parse_atom], mp4a.rs 74-93. *)
Definition mp4a_parse (fuel : nat) (m : mode) (s : size) : R mp4a :=
  b <- find_bounds m s ;;
  seek_cur 28 ;;;
  h <- parse_head ;;
  if negb (fourcc_eqb (hd_fourcc h) ELEMENTARY_STREAM_DESCRIPTION)
  then fail (EAtomNotFound ELEMENTARY_STREAM_DESCRIPTION) else
  r <- parse_esds fuel m mp4a_default (hd_size h) ;;
  seek_to_end m b ;;;
  ret r.

(** * Tracks *)

(** [Stsd::parse_atom], stsd.rs 13-42: the [mp4a] field. *)
Definition stsd_body (fuel : nat) (m : mode) (h : head) (r : option mp4a) : R (option mp4a) :=
  if fourcc_eqb (hd_fourcc h) MP4_AUDIO then
    x <- mp4a_parse fuel m (hd_size h) ;; ret (Some x)
  else skip_atom m h ;;; ret r.

Definition stsd_parse (fuel : nat) (m : mode) (s : size) : R (option mp4a) :=
  vf <- parse_full_head ;;
  if negb (fst vf =? 0) then fail (EUnknownVersion (fst vf)) else
  seek_cur 4 ;;;
  atom_loop fuel m (content_len m s) (stsd_body fuel m) 8 None.

(** [Stbl::parse_atom], stbl.rs 13-33: the [stsd] field. *)
Definition stbl_body (fuel : nat) (m : mode) (h : head) (r : option (option mp4a))
  : R (option (option mp4a)) :=
  if fourcc_eqb (hd_fourcc h) SAMPLE_TABLE_SAMPLE_DESCRIPTION then
    x <- stsd_parse fuel m (hd_size h) ;; ret (Some x)
  else skip_atom m h ;;; ret r.

Definition stbl_parse (fuel : nat) (m : mode) (s : size) : R (option (option mp4a)) :=
  atom_loop fuel m (content_len m s) (stbl_body fuel m) 0 None.

(** [Minf::parse_atom], minf.rs 13-31: the [stbl] field. *)
Definition minf_body (fuel : nat) (m : mode) (h : head) (r : option (option (option mp4a)))
  : R (option (option (option mp4a))) :=
  if fourcc_eqb (hd_fourcc h) SAMPLE_TABLE then
    x <- stbl_parse fuel m (hd_size h) ;; ret (Some x)
  else skip_atom m h ;;; ret r.

Definition minf_parse (fuel : nat) (m : mode) (s : size) : R (option (option (option mp4a))) :=
  atom_loop fuel m (content_len m s) (minf_body fuel m) 0 None.

(** [Mdia::parse_atom], mdia.rs 13-31: the [minf] field. *)
Definition mdia_body (fuel : nat) (m : mode) (h : head) (r : option (option (option (option mp4a))))
  : R (option (option (option (option mp4a)))) :=
  if fourcc_eqb (hd_fourcc h) MEDIA_INFORMATION then
    x <- minf_parse fuel m (hd_size h) ;; ret (Some x)
  else skip_atom m h ;;; ret r.

Definition mdia_parse (fuel : nat) (m : mode) (s : size) : R (option (option (option (option mp4a)))) :=
  atom_loop fuel m (content_len m s) (mdia_body fuel m) 0 None.

(** What [Trak] holds after parsing: mdia.minf.stbl.stsd.mp4a, each optional. *)
Definition trak_info := option (option (option (option (option mp4a)))).

(** [Trak::parse_atom], trak.rs 13-31: the [mdia] field. *)
Definition trak_body (fuel : nat) (m : mode) (h : head) (r : trak_info) : R trak_info :=
  if fourcc_eqb (hd_fourcc h) MEDIA then
    x <- mdia_parse fuel m (hd_size h) ;; ret (Some x)
  else skip_atom m h ;;; ret r.

Definition trak_parse (fuel : nat) (m : mode) (s : size) : R trak_info :=
  atom_loop fuel m (content_len m s) (trak_body fuel m) 0 None.

(** * src/atom/mvhd.rs *)

(** [Duration::from_nanos(duration * 1_000_000_000 / timescale)], mvhd.rs 36 and 51. *)
Definition mvhd_nanos (m : mode) (timescale duration : N) : res N :=
  rbind (mul64 m duration 1000000000) (fun x => div64 x timescale).

(** [Mvhd::parse_atom], mvhd.rs 17-64: the duration. *)
Definition mvhd_parse (m : mode) (s : size) : R N :=
  b <- find_bounds m s ;;
  vf <- parse_full_head ;;
  d <- match fst vf with
       | 0 =>
         seek_cur 8 ;;;
         timescale <- read_u32 ;;
         duration <- read_u32 ;;
         lift (mvhd_nanos m timescale duration)
       | 1 =>
         seek_cur 16 ;;;
         timescale <- read_u32 ;;
         duration <- read_u64 ;;
         lift (mvhd_nanos m timescale duration)
       | v => fail (EUnknownVersion v)
       end ;;
  seek_to_end m b ;;;
  ret d.

(** * src/atom/moov.rs *)

(** moov.rs 4-8 [Moov]. *)
Record moov := Moov {
  mv_mvhd : option N;
  mv_trak : list trak_info;
  mv_udta : option (option (option (list atom_data)))
}.

(** Body of the loop of [Moov::parse_atom], moov.rs 20-29. *)
Definition moov_body (fuel : nat) (m : mode) (h : head) (r : moov) : R moov :=
  let id := hd_fourcc h in
  if fourcc_eqb id MOVIE_HEADER then
    d <- mvhd_parse m (hd_size h) ;; ret (Moov (Some d) (mv_trak r) (mv_udta r))
  else if fourcc_eqb id TRACK then
    t <- trak_parse fuel m (hd_size h) ;; ret (Moov (mv_mvhd r) (mv_trak r ++ [t]) (mv_udta r))
  else if fourcc_eqb id USER_DATA then
    u <- udta_parse fuel m (hd_size h) ;; ret (Moov (mv_mvhd r) (mv_trak r) (Some u))
  else skip_atom m h ;;; ret r.

(** [Moov::parse_atom], moov.rs 15-35. *)
Definition moov_parse (fuel : nat) (m : mode) (s : size) : R moov :=
  atom_loop fuel m (content_len m s) (moov_body fuel m) 0 (Moov None [] None).

(** * src/atom/ftyp.rs *)

(** [Ftyp::parse], ftyp.rs 7-16. *)
Definition ftyp_parse (m : mode) : R ustring :=
  h <- parse_head ;;
  if negb (fourcc_eqb (hd_fourcc h) FILETYPE) then fail ENoTag else
  c <- lift (content_len m (hd_size h)) ;;
  read_utf8 c.

(** * [read_tag_from], src/atom/mod.rs 299-353 *)

(** The loop of mod.rs 304-326: parses the first movie atom. *)
Fixpoint find_moov (fuel : nat) (m : mode) (inner : nat) (len parsed : N) : R moov :=
  match fuel with
  | O => outOfFuel
  | S fuel' =>
    if len <=? parsed then fail (EAtomNotFound MOVIE) else
    h <- parse_head ;;
    if fourcc_eqb (hd_fourcc h) MOVIE then moov_parse inner m (hd_size h)
    else
      skip_atom m h ;;;
      parsed' <- lift (add64 m parsed (sz_len (hd_size h))) ;;
      find_moov fuel' m inner len parsed'
  end.

Definition ojoin {A} (o : option (option A)) : option A :=
  match o with Some x => x | None => None end.

(** [trak.mdia.and_then(minf).and_then(stbl).and_then(stsd).and_then(mp4a)], mod.rs 330-335. *)
Definition trak_mp4a (t : trak_info) : option mp4a := ojoin (ojoin (ojoin (ojoin t))).

(** [find_map], mod.rs 329. *)
Fixpoint find_map {A B} (g : A -> option B) (l : list A) : option B :=
  match l with
  | [] => None
  | x :: r => match g x with Some y => Some y | None => find_map g r end
  end.

(** mod.rs 343-350. *)
Definition moov_info (r : moov) : audio_info :=
  match find_map trak_mp4a (mv_trak r) with
  | Some a => AudioInfo (mv_mvhd r) (ma_channels a) (ma_rate a) (ma_max a) (ma_avg a)
  | None => AudioInfo (mv_mvhd r) None None None None
  end.

(** mod.rs 336-341. *)
Definition moov_atoms (r : moov) : list atom_data :=
  match ojoin (ojoin (mv_udta r)) with Some l => l | None => [] end.

(** [read_tag_from], mod.rs 299-353 = [Tag::read_from], tag/mod.rs 93-95; the reader starts at
    its current position. *)
Definition read_tag_from (fuel : nat) (m : mode) : R tag :=
  ft <- ftyp_parse m ;;
  len <- remaining_stream_len m ;;
  r <- find_moov fuel m fuel len 0 ;;
  ret (Tag ft (moov_info r) (moov_atoms r)).

(** The tag read from a file content, starting at position 0 ([Tag::read_from_path],
    tag/mod.rs 98-101). *)
Definition read_tag (fuel : nat) (m : mode) (f : bytes) : res tag :=
  match read_tag_from fuel m f 0 with
  | Ok (t, _) => Ok t
  | Err e => Err e
  | Panic p => Panic p
  | Fuel => Fuel
  end.
