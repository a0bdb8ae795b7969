(** Reading with the descriptions of errors: the text of Parse.v, with the strings the source attaches to errors
    (src/error.rs) and the wrappers [ParseAtom::parse] (src/atom/mod.rs 87-97) that put the name of the atom before them. *)

From Coq Require Import List NArith ZArith Bool String.
From Verif Require Import Base Utf Types Stream Parse Display.
Import ListNotations.
Local Open Scope list_scope.

(** src/error.rs 42-47 [Error]: kind and description. *)
Inductive dres (A : Type) : Type :=
| DOk (a : A)
| DErr (e : err) (said : ustring)
| DPanic (p : panic)
| DFuel.
Arguments DOk {A}. Arguments DErr {A}. Arguments DPanic {A}. Arguments DFuel {A}.
Definition D (A : Type) := bytes -> N -> dres (A * N).

Definition dret {A} (a : A) : D A := fun _ p => DOk (a, p).
(** [Err(crate::Error::new(kind, description))]. *)
Definition dfail {A} (e : err) (said : ustring) : D A := fun _ _ => DErr e said.
Definition dbind {A B} (x : D A) (k : A -> D B) : D B :=
  fun f p => match x f p with DOk (a, p') => k a f p' | DErr e t => DErr e t | DPanic q => DPanic q | DFuel => DFuel end.
Definition dfuel {A} : D A := fun _ _ => DFuel.
Declare Scope d_scope.
Notation "x <# a ;; b" := (dbind a (fun x => b)) (at level 61, a at next level, right associativity) : d_scope.
Notation "a ;#; b" := (dbind a (fun _ => b)) (at level 61, right associativity) : d_scope.
Local Open Scope d_scope.

(** [match op { Err(e) => return Err(crate::Error::new(ErrorKind::Io(e), said)), .. }]. *)
Definition saying {A} (said : ustring) (x : R A) : D A :=
  fun f p => match x f p with Ok a => DOk a | Err e => DErr e said | Panic q => DPanic q | Fuel => DFuel end.
(** What [?] makes of an error of the standard library, error.rs 65-87. *)
Definition from_text (e : err) : ustring :=
  match e with EUtf8 => txt "Data is not valid utf-8." | EUtf16 => txt "Data is not valid utf-16." | _ => [] end.
(** [op?]. *)
Definition plainly {A} (x : R A) : D A :=
  fun f p => match x f p with Ok a => DOk a | Err e => DErr e (from_text e) | Panic q => DPanic q | Fuel => DFuel end.
(** [Display] of identifiers, ident.rs 204-208: every byte is a code point. *)
Definition fc_text (i : fourcc) : ustring := map b2n (fc_bytes i).
(** [ParseAtom::parse], mod.rs 88-96. *)
Definition prefixed (i : fourcc) (t : ustring) : ustring := txt "Error parsing " ++ fc_text i ++ txt ": " ++ t.
Definition parsing {A} (i : fourcc) (x : D A) : D A :=
  fun f p => match x f p with DErr e t => DErr e (prefixed i t) | r => r end.

(** [parse_head], head.rs 101-135. *)
Definition d_head : D head :=
  len <# saying (txt "Error reading atom length") read_u32 ;;
  id <# saying (txt "Error reading atom identifier") (read_exact 4) ;;
  let ident := fourcc_of_bytes id in
  if len =? 1 then
    l <# saying (txt "Error reading extended atom length") read_u64 ;; dret (Head (Size true l) ident)
  else if len <? 8 then
    dfail EParsing (txt "Read length of '" ++ fc_text ident ++ txt "' which is less than 8 bytes: " ++ dec len)
  else dret (Head (Size false len) ident).

(** [parse_full_head], head.rs 155-175. *)
Definition d_full : D (N * bytes) :=
  v <# saying (txt "Error reading version of full atom head") read_u8 ;;
  fl <# saying (txt "Error reading flags of full atom head") (read_exact 3) ;;
  dret (v, fl).

(** The loop all containers share, see [atom_loop]. *)
Fixpoint d_loop {S : Type} (fuel : nat) (m : mode) (limit : res N) (body : head -> S -> D S) (parsed : N) (s : S) : D S :=
  match fuel with
  | O => dfuel
  | Datatypes.S fuel' =>
    l <# plainly (lift limit) ;;
    if parsed <? l then
      h <# d_head ;;
      s' <# body h s ;;
      parsed' <# plainly (lift (add64 m parsed (sz_len (hd_size h)))) ;;
      d_loop fuel' m limit body parsed' s'
    else dret s
  end.

(** [Data::parse], data.rs 418-434. *)
Definition d_data (datatype len : N) : D data :=
  match datatype with
  | 0 => v <# plainly (read_u8_vec len) ;; dret (DReserved v)
  | 1 => s <# plainly (read_utf8 len) ;; dret (DUtf8 s)
  | 2 => s <# plainly (read_utf16 len) ;; dret (DUtf16 s)
  | 13 => v <# plainly (read_u8_vec len) ;; dret (DJpeg v)
  | 14 => v <# plainly (read_u8_vec len) ;; dret (DPng v)
  | 21 => v <# plainly (read_u8_vec len) ;; dret (DBeSigned v)
  | 27 => v <# plainly (read_u8_vec len) ;; dret (DBmp v)
  | _ => dfail (EUnknownDataType datatype) (txt "Unknown datatype code")
  end.

(** Body of the loop of [AtomData::parse], mod.rs 196-238. *)
Definition d_item_body (m : mode) (h : head) (a : item_acc) : D item_acc :=
  let id := hd_fourcc h in
  if fourcc_eqb id DATA then
    vf <# d_full ;;
    if negb (fst vf =? 0) then dfail (EUnknownVersion (fst vf)) (txt "Error reading data atom (data)") else
    let datatype := unbe (snd vf) in
    plainly (seek_cur 4) ;#;
    c <# plainly (lift (content_len m (hd_size h))) ;;
    n <# plainly (lift (sub64 m c 8)) ;;
    d <# d_data datatype n ;;
    dret (ItemAcc (ia_data a ++ [d]) (ia_mean a) (ia_name a))
  else if fourcc_eqb id MEAN then
    vf <# d_full ;;
    if negb (fst vf =? 0) then dfail (EUnknownVersion (fst vf)) (txt "Error reading data atom (data)") else
    c <# plainly (lift (content_len m (hd_size h))) ;;
    n <# plainly (lift (sub64 m c 4)) ;;
    s <# plainly (read_utf8 n) ;;
    dret (ItemAcc (ia_data a) (Some s) (ia_name a))
  else if fourcc_eqb id NAME then
    vf <# d_full ;;
    if negb (fst vf =? 0) then dfail (EUnknownVersion (fst vf)) (txt "Error reading data atom (data)") else
    c <# plainly (lift (content_len m (hd_size h))) ;;
    n <# plainly (lift (sub64 m c 4)) ;;
    s <# plainly (read_utf8 n) ;;
    dret (ItemAcc (ia_data a) (ia_mean a) (Some s))
  else
    plainly (skip_atom m h) ;#; dret a.

(** [AtomData::parse], mod.rs 189-258. *)
Definition d_item (fuel : nat) (m : mode) (parent : fourcc) (len : N) : D atom_data :=
  a <# d_loop fuel m (Ok len) (d_item_body m) 0 (ItemAcc [] None None) ;;
  match ia_data a with
  | [] => dfail (EAtomNotFound DATA) (txt "Error constructing atom data '" ++ fc_text parent ++ txt "', missing data atom")
  | _ => dret (AtomData (item_ident parent (ia_mean a) (ia_name a)) (ia_data a))
  end.

(** Body of the loop of [Ilst::parse_atom], ilst.rs 30-45. *)
Definition d_ilst_body (fuel : nat) (m : mode) (h : head) (l : list atom_data) : D (list atom_data) :=
  if fourcc_eqb (hd_fourcc h) FREE then plainly (skip_atom m h) ;#; dret l
  else
    c <# plainly (lift (content_len m (hd_size h))) ;;
    a <# d_item fuel m (hd_fourcc h) c ;;
    dret (ilst_add l a).
(** [Ilst::parse_atom], ilst.rs 25-51. *)
Definition d_ilst (fuel : nat) (m : mode) (s : size) : D (list atom_data) :=
  d_loop fuel m (content_len m s) (d_ilst_body fuel m) 0 [].

(** [Meta::parse_atom], meta.rs 14-41. *)
Definition d_meta_body (fuel : nat) (m : mode) (h : head) (r : option (list atom_data)) : D (option (list atom_data)) :=
  if fourcc_eqb (hd_fourcc h) ITEM_LIST then
    l <# parsing ITEM_LIST (d_ilst fuel m (hd_size h)) ;; dret (Some l)
  else plainly (skip_atom m h) ;#; dret r.
Definition d_meta (fuel : nat) (m : mode) (s : size) : D (option (list atom_data)) :=
  vf <# d_full ;;
  if negb (fst vf =? 0) then dfail (EUnknownVersion (fst vf)) (txt "Unknown metadata (meta) version") else
  d_loop fuel m (content_len m s) (d_meta_body fuel m) 4 None.

(** [Udta::parse_atom], udta.rs 13-31. *)
Definition d_udta_body (fuel : nat) (m : mode) (h : head) (r : option (option (list atom_data))) : D (option (option (list atom_data))) :=
  if fourcc_eqb (hd_fourcc h) METADATA then
    x <# parsing METADATA (d_meta fuel m (hd_size h)) ;; dret (Some x)
  else plainly (skip_atom m h) ;#; dret r.
Definition d_udta (fuel : nat) (m : mode) (s : size) : D (option (option (list atom_data))) :=
  d_loop fuel m (content_len m s) (d_udta_body fuel m) 0 None.

(** [parse_desc_head], mp4a.rs 228-243. *)
Definition d_desc_head : D (N * N * N) := plainly parse_desc_head.

(** [parse_ds_desc], mp4a.rs 215-226. *)
Definition d_ds_desc (m : mode) (info : mp4a) (len : N) : D mp4a := plainly (parse_ds_desc m info len).

(** The descriptor loops of mp4a.rs 153-165 and 188-200. *)
Fixpoint d_desc_loop {S : Type} (fuel : nat) (m : mode) (len : N) (body : N -> N -> S -> D S) (parsed : N) (s : S) : D S :=
  match fuel with
  | O => dfuel
  | Datatypes.S fuel' =>
    if parsed <? len then
      h <# d_desc_head ;;
      let '(tag, hl, dl) := h in
      s' <# body tag dl s ;;
      k <# plainly (lift (add64 m hl dl)) ;;
      parsed' <# plainly (lift (add64 m parsed k)) ;;
      d_desc_loop fuel' m len body parsed' s'
    else dret s
  end.

(** mp4a.rs 192-197. *)
Definition d_dc_body (m : mode) (tag dl : N) (info : mp4a) : D mp4a :=
  if tag =? 5 then d_ds_desc m info dl
  else plainly (seek_cur (as_i64 dl)) ;#; dret info.
(** [parse_dc_desc], mp4a.rs 183-203. *)
Definition d_dc_desc (fuel : nat) (m : mode) (info : mp4a) (len : N) : D mp4a :=
  plainly (seek_cur 5) ;#;
  mx <# plainly read_u32 ;;
  av <# plainly read_u32 ;;
  d_desc_loop fuel m len (d_dc_body m) 13 (Mp4a (ma_channels info) (ma_rate info) (Some mx) (Some av)).
(** mp4a.rs 157-162. *)
Definition d_es_body (fuel : nat) (m : mode) (tag dl : N) (info : mp4a) : D mp4a :=
  if tag =? 4 then d_dc_desc fuel m info dl
  else plainly (seek_cur (as_i64 dl)) ;#; dret info.
(** [parse_es_desc], mp4a.rs 150-168. *)
Definition d_es_desc (fuel : nat) (m : mode) (info : mp4a) (len : N) : D mp4a :=
  plainly (seek_cur 3) ;#;
  d_desc_loop fuel m len (d_es_body fuel m) 3 info.

(** [parse_esds], mp4a.rs 112-134. *)
Definition d_esds (fuel : nat) (m : mode) (info : mp4a) (s : size) : D mp4a :=
  vf <# d_full ;;
  if negb (fst vf =? 0) then dfail (EUnknownVersion (fst vf)) (txt "Unknown MPEG-4 audio (mp4a) version") else
  h <# d_desc_head ;;
  let '(tag, hl, dl) := h in
  if negb (tag =? 3) then dfail (EDescriptorNotFound 3) (txt "Missing elementary stream descriptor") else
  c <# plainly (lift (content_len m s)) ;;
  c4 <# plainly (lift (sub64 m c 4)) ;;
  max_len <# plainly (lift (sub64 m c4 hl)) ;;
  d_es_desc fuel m info (N.min dl max_len).

(** [Mp4a::parse_atom], mp4a.rs 74-93. *)
Definition d_mp4a (fuel : nat) (m : mode) (s : size) : D mp4a :=
  b <# plainly (find_bounds m s) ;;
  plainly (seek_cur 28) ;#;
  h <# d_head ;;
  if negb (fourcc_eqb (hd_fourcc h) ELEMENTARY_STREAM_DESCRIPTION)
  then dfail (EAtomNotFound ELEMENTARY_STREAM_DESCRIPTION) (txt "Missing esds atom") else
  r <# d_esds fuel m mp4a_default (hd_size h) ;;
  plainly (seek_to_end m b) ;#;
  dret r.

(** [Stsd::parse_atom], stsd.rs 13-42. *)
Definition d_stsd_body (fuel : nat) (m : mode) (h : head) (r : option mp4a) : D (option mp4a) :=
  if fourcc_eqb (hd_fourcc h) MP4_AUDIO then
    x <# parsing MP4_AUDIO (d_mp4a fuel m (hd_size h)) ;; dret (Some x)
  else plainly (skip_atom m h) ;#; dret r.
Definition d_stsd (fuel : nat) (m : mode) (s : size) : D (option mp4a) :=
  vf <# d_full ;;
  if negb (fst vf =? 0) then dfail (EUnknownVersion (fst vf)) (txt "Unknown sample table sample description (stsd) version") else
  plainly (seek_cur 4) ;#;
  d_loop fuel m (content_len m s) (d_stsd_body fuel m) 8 None.

(** [Stbl::parse_atom], stbl.rs 13-33. *)
Definition d_stbl_body (fuel : nat) (m : mode) (h : head) (r : option (option mp4a)) : D (option (option mp4a)) :=
  if fourcc_eqb (hd_fourcc h) SAMPLE_TABLE_SAMPLE_DESCRIPTION then
    x <# parsing SAMPLE_TABLE_SAMPLE_DESCRIPTION (d_stsd fuel m (hd_size h)) ;; dret (Some x)
  else plainly (skip_atom m h) ;#; dret r.
Definition d_stbl (fuel : nat) (m : mode) (s : size) : D (option (option mp4a)) :=
  d_loop fuel m (content_len m s) (d_stbl_body fuel m) 0 None.

(** [Minf::parse_atom], minf.rs 13-31. *)
Definition d_minf_body (fuel : nat) (m : mode) (h : head) (r : option (option (option mp4a))) : D (option (option (option mp4a))) :=
  if fourcc_eqb (hd_fourcc h) SAMPLE_TABLE then
    x <# parsing SAMPLE_TABLE (d_stbl fuel m (hd_size h)) ;; dret (Some x)
  else plainly (skip_atom m h) ;#; dret r.
Definition d_minf (fuel : nat) (m : mode) (s : size) : D (option (option (option mp4a))) :=
  d_loop fuel m (content_len m s) (d_minf_body fuel m) 0 None.

(** [Mdia::parse_atom], mdia.rs 13-31. *)
Definition d_mdia_body (fuel : nat) (m : mode) (h : head) (r : option (option (option (option mp4a)))) : D (option (option (option (option mp4a)))) :=
  if fourcc_eqb (hd_fourcc h) MEDIA_INFORMATION then
    x <# parsing MEDIA_INFORMATION (d_minf fuel m (hd_size h)) ;; dret (Some x)
  else plainly (skip_atom m h) ;#; dret r.
Definition d_mdia (fuel : nat) (m : mode) (s : size) : D (option (option (option (option mp4a)))) :=
  d_loop fuel m (content_len m s) (d_mdia_body fuel m) 0 None.

(** [Trak::parse_atom], trak.rs 13-31. *)
Definition d_trak_body (fuel : nat) (m : mode) (h : head) (r : trak_info) : D trak_info :=
  if fourcc_eqb (hd_fourcc h) MEDIA then
    x <# parsing MEDIA (d_mdia fuel m (hd_size h)) ;; dret (Some x)
  else plainly (skip_atom m h) ;#; dret r.
Definition d_trak (fuel : nat) (m : mode) (s : size) : D trak_info :=
  d_loop fuel m (content_len m s) (d_trak_body fuel m) 0 None.

(** [Mvhd::parse_atom], mvhd.rs 17-64. *)
Definition d_mvhd (m : mode) (s : size) : D N :=
  b <# plainly (find_bounds m s) ;;
  vf <# d_full ;;
  d <# match fst vf with
       | 0 =>
         plainly (seek_cur 8) ;#;
         timescale <# plainly read_u32 ;;
         duration <# plainly read_u32 ;;
         plainly (lift (mvhd_nanos m timescale duration))
       | 1 =>
         plainly (seek_cur 16) ;#;
         timescale <# plainly read_u32 ;;
         duration <# plainly read_u64 ;;
         plainly (lift (mvhd_nanos m timescale duration))
       | v => dfail (EUnknownVersion v) (txt "Error unknown movie header (mvhd) version " ++ dec v)
       end ;;
  plainly (seek_to_end m b) ;#;
  dret d.

(** Body of the loop of [Moov::parse_atom], moov.rs 20-29. *)
Definition d_moov_body (fuel : nat) (m : mode) (h : head) (r : moov) : D moov :=
  let id := hd_fourcc h in
  if fourcc_eqb id MOVIE_HEADER then
    d <# parsing MOVIE_HEADER (d_mvhd m (hd_size h)) ;; dret (Moov (Some d) (mv_trak r) (mv_udta r))
  else if fourcc_eqb id TRACK then
    t <# parsing TRACK (d_trak fuel m (hd_size h)) ;; dret (Moov (mv_mvhd r) (mv_trak r ++ [t]) (mv_udta r))
  else if fourcc_eqb id USER_DATA then
    u <# parsing USER_DATA (d_udta fuel m (hd_size h)) ;; dret (Moov (mv_mvhd r) (mv_trak r) (Some u))
  else plainly (skip_atom m h) ;#; dret r.
(** [Moov::parse_atom], moov.rs 15-35. *)
Definition d_moov (fuel : nat) (m : mode) (s : size) : D moov :=
  d_loop fuel m (content_len m s) (d_moov_body fuel m) 0 (Moov None [] None).

(** [Ftyp::parse], ftyp.rs 7-16: not the wrapper. *)
Definition d_ftyp (m : mode) : D ustring :=
  h <# d_head ;;
  if negb (fourcc_eqb (hd_fourcc h) FILETYPE) then dfail ENoTag (txt "No filetype atom found.") else
  c <# plainly (lift (content_len m (hd_size h))) ;;
  plainly (read_utf8 c).

(** The loop of mod.rs 304-326. *)
Fixpoint d_find_moov (fuel : nat) (m : mode) (inner : nat) (len parsed : N) : D moov :=
  match fuel with
  | O => dfuel
  | S fuel' =>
    if len <=? parsed then dfail (EAtomNotFound MOVIE) (txt "Missing necessary data, no movie (moov) atom found") else
    h <# d_head ;;
    if fourcc_eqb (hd_fourcc h) MOVIE then parsing MOVIE (d_moov inner m (hd_size h))
    else
      plainly (skip_atom m h) ;#;
      parsed' <# plainly (lift (add64 m parsed (sz_len (hd_size h)))) ;;
      d_find_moov fuel' m inner len parsed'
  end.

(** [read_tag_from], mod.rs 299-353. *)
Definition d_read_from (fuel : nat) (m : mode) : D tag :=
  ft <# d_ftyp m ;;
  len <# plainly (remaining_stream_len m) ;;
  r <# d_find_moov fuel m fuel len 0 ;;
  dret (Tag ft (moov_info r) (moov_atoms r)).
(** The tag of a file, or the error with its description. *)
Definition d_read (fuel : nat) (m : mode) (f : bytes) : dres tag :=
  match d_read_from fuel m f 0 with
  | DOk (t, _) => DOk t
  | DErr e t => DErr e t
  | DPanic p => DPanic p
  | DFuel => DFuel
  end.

(** Without descriptions. *)
Definition undress {A} (r : dres A) : res A :=
  match r with DOk a => Ok a | DErr e _ => Err e | DPanic p => Panic p | DFuel => Fuel end.
