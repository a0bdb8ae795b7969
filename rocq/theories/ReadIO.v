(** The programs of [Parse.v] and [Find.v] as trees of reader operations, so that one can speak about
    the operations themselves: how many there are, how much memory they ask for, and what happens when
    they fail.

    The text is that of [Parse.v] and [Find.v] over other operations; [IoProofs.v] shows that running a
    tree on a file gives what the function of the same name gives ([read_is], [scan_is]). *)

From Coq Require Import List NArith ZArith Bool.
From Verif Require Import Base Utf Types Stream Parse Find Write Fault.
Import ListNotations.

(** * Trees of operations *)

(** What is asked of a reader: [read_exact] into a buffer of fixed size, [read_exact] into a fresh
    [vec![0; n]], [seek(SeekFrom::Current(0))] to learn the position, and the three seeks. *)
Inductive io_op := ORead (n : N) | OReadVec (n : N) | OPosition | OSeekCur (d : Z) | OSeekStart (q : N) | OSeekEnd.

(** An operation answers with the bytes read ([read_exact]) or the new position ([seek]). *)
Inductive answer := ABytes (b : bytes) | APos (q : N).

Inductive IO (A : Type) :=
| Stop (r : res A)
| Ask (o : io_op) (k : answer -> IO A).
Arguments Stop {A}. Arguments Ask {A}.

Fixpoint io_bind {A B} (x : IO A) (k : A -> IO B) : IO B :=
  match x with
  | Stop (Ok a) => k a
  | Stop (Err e) => Stop (Err e)
  | Stop (Panic p) => Stop (Panic p)
  | Stop Fuel => Stop Fuel
  | Ask o c => Ask o (fun a => io_bind (c a) k)
  end.

Definition io_ret {A} (a : A) : IO A := Stop (Ok a).
Definition io_fail {A} (e : err) : IO A := Stop (Err e).
Definition io_lift {A} (r : res A) : IO A := Stop r.
Definition io_outOfFuel {A} : IO A := Stop Fuel.
Definition get_bytes (a : answer) : bytes := match a with ABytes b => b | APos _ => [] end.
Definition get_pos (a : answer) : N := match a with APos q => q | ABytes _ => 0 end.
Definition io_read_exact (n : N) : IO bytes := Ask (ORead n) (fun a => Stop (Ok (get_bytes a))).
Definition io_seek_cur (d : Z) : IO unit := Ask (OSeekCur d) (fun _ => Stop (Ok tt)).
Definition io_seek_start (q : N) : IO unit := Ask (OSeekStart q) (fun _ => Stop (Ok tt)).
Definition io_position : IO N := Ask OPosition (fun a => Stop (Ok (get_pos a))).
Definition io_seek_end : IO N := Ask OSeekEnd (fun a => Stop (Ok (get_pos a))).

Declare Scope io_scope.
Notation "x <- a ;; b" := (io_bind a (fun x => b)) (at level 61, a at next level, right associativity) : io_scope.
Notation "a ;;; b" := (io_bind a (fun _ => b)) (at level 61, right associativity) : io_scope.
Local Open Scope io_scope.

(** * Running a tree *)

(** One operation on a file content at a position, as [read_exact], [seek_cur], [seek_start] and
    [seek_end] of [Stream.v]. *)
Definition perform (o : io_op) (f : bytes) (p : N) : res (answer * N) :=
  match o with
  | ORead n => match read_exact n f p with
               | Ok (b, q) => Ok (ABytes b, q) | Err e => Err e | Panic x => Panic x | Fuel => Fuel end
  | OReadVec n => if two63 <=? n then Panic PCapacity
                  else match read_exact n f p with
                       | Ok (b, q) => Ok (ABytes b, q) | Err e => Err e | Panic x => Panic x | Fuel => Fuel end
  | OPosition => match position f p with
                 | Ok (_, q) => Ok (APos q, q) | Err e => Err e | Panic x => Panic x | Fuel => Fuel end
  | OSeekCur d => match seek_cur d f p with
                  | Ok (_, q) => Ok (APos q, q) | Err e => Err e | Panic x => Panic x | Fuel => Fuel end
  | OSeekStart s => match seek_start s f p with
                    | Ok (_, q) => Ok (APos q, q) | Err e => Err e | Panic x => Panic x | Fuel => Fuel end
  | OSeekEnd => match seek_end f p with
                | Ok (_, q) => Ok (APos q, q) | Err e => Err e | Panic x => Panic x | Fuel => Fuel end
  end.

Fixpoint run {A} (x : IO A) (f : bytes) (p : N) : res (A * N) :=
  match x with
  | Stop (Ok a) => Ok (a, p)
  | Stop (Err e) => Err e
  | Stop (Panic q) => Panic q
  | Stop Fuel => Fuel
  | Ask o k => match perform o f p with
               | Ok (a, q) => run (k a) f q
               | Err e => Err e
               | Panic q => Panic q
               | Fuel => Fuel
               end
  end.

(** The operations asked for, in order; the last one may be the one that fails. *)
Fixpoint asked {A} (x : IO A) (f : bytes) (p : N) : list io_op :=
  match x with
  | Stop _ => []
  | Ask o k => o :: match perform o f p with
                    | Ok (a, q) => asked (k a) f q
                    | _ => []
                    end
  end.

(** Memory requested, one entry per [vec![0; n]].  Not counted: the buffers of fixed size, the vectors
    of items and values (a few words per atom read), and the two further copies [read_utf16] makes of
    the bytes it has read. *)
Fixpoint vecs (l : list io_op) : list N :=
  match l with
  | [] => []
  | OReadVec n :: r => n :: vecs r
  | _ :: r => vecs r
  end.

(** One unit per operation and one per byte delivered. *)
Definition op_bytes (o : io_op) : N := match o with ORead n | OReadVec n => n | _ => 0 end.
Fixpoint work {A} (x : IO A) (f : bytes) (p : N) : N :=
  match x with
  | Stop _ => 0
  | Ask o k => match perform o f p with
               | Ok (a, q) => 1 + op_bytes o + work (k a) f q
               | _ => 1
               end
  end.

(** * A device that fails *)

(** [Read::read_exact] (std): repeats [read] until [n] bytes are there.  A call may deliver fewer bytes
    ([Short]) or be interrupted ([Again], which [read_exact] ignores), or fail.  Returns the events left
    and whether it succeeded. *)
Fixpoint dev_read (ev : list event) (n : N) : list event * bool :=
  if n =? 0 then (ev, true) else
  match ev with
  | [] => ([], true)
  | Fine _ :: r => (r, true)
  | Short j :: r => dev_read r (n - N.of_nat (S j))
  | Again :: r => dev_read r n
  | Broken _ :: r => (r, false)
  end.
(** [lseek] is one call; it is never partial or interrupted. *)
Definition dev_seek (ev : list event) : list event * bool :=
  match ev with
  | [] => ([], true)
  | Broken _ :: r => (r, false)
  | _ :: r => (r, true)
  end.
Definition dev_op (o : io_op) (ev : list event) : list event * bool :=
  match o with
  | ORead n | OReadVec n => dev_read ev n
  | _ => dev_seek ev
  end.

(** A run on such a device: the outcome and the events not used.  A failing call is reported by the
    operation before it would report anything else. *)
Fixpoint dev_run {A} (x : IO A) (ev : list event) (f : bytes) (p : N) : outcome A * list event :=
  match x with
  | Stop r => (Done r, ev)
  | Ask o k =>
    match perform o f p with
    | Panic q => (Done (Panic q), ev)
    | r =>
      match dev_op o ev with
      | (ev', false) => (DeviceError, ev')
      | (ev', true) =>
        match r with
        | Ok (a, q) => dev_run (k a) ev' f q
        | Err e => (Done (Err e), ev')
        | Panic q => (Done (Panic q), ev')
        | Fuel => (Done Fuel, ev')
        end
      end
    end
  end.

(** * ReadData, src/atom/data.rs 437-491 *)

(** [read_u8], data.rs 439-443. *)
Definition io_read_u8 : IO N := b <- io_read_exact 1 ;; io_ret (unbe b).

(** [read_u16], data.rs 446-450. *)
Definition io_read_u16 : IO N := b <- io_read_exact 2 ;; io_ret (unbe b).

(** [read_u32], data.rs 453-457. *)
Definition io_read_u32 : IO N := b <- io_read_exact 4 ;; io_ret (unbe b).

(** [read_u64], data.rs 460-464. *)
Definition io_read_u64 : IO N := b <- io_read_exact 8 ;; io_ret (unbe b).

(** [read_u8_vec], data.rs 467-471. *)
Definition io_read_u8_vec (len : N) : IO bytes :=
  Ask (OReadVec len) (fun a => Stop (Ok (get_bytes a))).

(** [read_utf8], data.rs 474-478. *)
Definition io_read_utf8 (len : N) : IO ustring :=
  d <- io_read_u8_vec len ;;
  match dec8 d with Some s => io_ret s | None => io_fail EUtf8 end.

(** [read_utf16], data.rs 481-490. *)
Definition io_read_utf16 (len : N) : IO ustring :=
  d <- io_read_u8_vec len ;;
  match dec16 (bytes_units d) with Some s => io_ret s | None => io_fail EUtf16 end.

(** [remaining_stream_len], data.rs 496-504. *)
Definition io_remaining_stream_len (m : mode) : IO N :=
  cur <- io_position ;;
  total <- io_seek_end ;;
  len <- io_lift (sub64 m total cur) ;;
  io_seek_start cur ;;;
  io_ret len.

(** [parse_head], head.rs 101-135. *)
Definition io_parse_head : IO head :=
  len <- io_read_u32 ;;
  id <- io_read_exact 4 ;;
  let ident := fourcc_of_bytes id in
  if len =? 1 then
    l <- io_read_u64 ;; io_ret (Head (Size true l) ident)
  else if len <? 8 then io_fail EParsing
  else io_ret (Head (Size false len) ident).

(** [parse_full_head], head.rs 155-175: version and flags. *)
Definition io_parse_full_head : IO (N * bytes) :=
  v <- io_read_u8 ;;
  fl <- io_read_exact 3 ;;
  io_ret (v, fl).

(** [find_bounds], head.rs 215-218. *)
Definition io_find_bounds (m : mode) (s : size) : IO bounds :=
  cur <- io_position ;;
  pos <- io_lift (sub64 m cur (head_len s)) ;;
  io_ret (Bounds pos s).

(** [seek_to_end], head.rs 220-225. *)
Definition io_seek_to_end (m : mode) (b : bounds) : IO unit :=
  current <- io_position ;;
  e <- io_lift (bounds_end m b) ;;
  diff <- io_lift (sub64 m e current) ;;
  io_seek_cur (as_i64 diff).

(** [reader.seek(SeekFrom::Current(head.content_len() as i64))], the way every container skips
    an atom it is not interested in. *)
Definition io_skip_atom (m : mode) (h : head) : IO unit :=
  c <- io_lift (content_len m (hd_size h)) ;;
  io_seek_cur (as_i64 c).

(** The loop all containers share, e.g. moov.rs 17-32:
    [while parsed_bytes < limit { let head = parse_head(reader)?; body; parsed_bytes += head.len(); }].
    [limit] is re-evaluated in every iteration, as [size.content_len()] in the source. *)
Fixpoint io_atom_loop {S : Type} (fuel : nat) (m : mode) (limit : res N)
         (body : head -> S -> IO S) (parsed : N) (s : S) : IO S :=
  match fuel with
  | O => io_outOfFuel
  | Datatypes.S fuel' =>
    l <- io_lift limit ;;
    if parsed <? l then
      h <- io_parse_head ;;
      s' <- body h s ;;
      parsed' <- io_lift (add64 m parsed (sz_len (hd_size h))) ;;
      io_atom_loop fuel' m limit body parsed' s'
    else io_ret s
  end.

(** * src/atom/data.rs, src/atom/mod.rs: item values *)

(** [Data::parse], data.rs 418-434. *)
Definition io_data_parse (datatype len : N) : IO data :=
  match datatype with
  | 0 => v <- io_read_u8_vec len ;; io_ret (DReserved v)
  | 1 => s <- io_read_utf8 len ;; io_ret (DUtf8 s)
  | 2 => s <- io_read_utf16 len ;; io_ret (DUtf16 s)
  | 13 => v <- io_read_u8_vec len ;; io_ret (DJpeg v)
  | 14 => v <- io_read_u8_vec len ;; io_ret (DPng v)
  | 21 => v <- io_read_u8_vec len ;; io_ret (DBeSigned v)
  | 27 => v <- io_read_u8_vec len ;; io_ret (DBmp v)
  | _ => io_fail (EUnknownDataType datatype)
  end.

(** Body of the loop of [AtomData::parse], mod.rs 196-238. *)
Definition io_item_body (m : mode) (h : head) (a : item_acc) : IO item_acc :=
  let id := hd_fourcc h in
  if fourcc_eqb id DATA then
    vf <- io_parse_full_head ;;
    if negb (fst vf =? 0) then io_fail (EUnknownVersion (fst vf)) else
    let datatype := unbe (snd vf) in
    io_seek_cur 4 ;;;
    c <- io_lift (content_len m (hd_size h)) ;;
    n <- io_lift (sub64 m c 8) ;;
    d <- io_data_parse datatype n ;;
    io_ret (ItemAcc (ia_data a ++ [d]) (ia_mean a) (ia_name a))
  else if fourcc_eqb id MEAN then
    vf <- io_parse_full_head ;;
    if negb (fst vf =? 0) then io_fail (EUnknownVersion (fst vf)) else
    c <- io_lift (content_len m (hd_size h)) ;;
    n <- io_lift (sub64 m c 4) ;;
    s <- io_read_utf8 n ;;
    io_ret (ItemAcc (ia_data a) (Some s) (ia_name a))
  else if fourcc_eqb id NAME then
    vf <- io_parse_full_head ;;
    if negb (fst vf =? 0) then io_fail (EUnknownVersion (fst vf)) else
    c <- io_lift (content_len m (hd_size h)) ;;
    n <- io_lift (sub64 m c 4) ;;
    s <- io_read_utf8 n ;;
    io_ret (ItemAcc (ia_data a) (ia_mean a) (Some s))
  else
    io_skip_atom m h ;;; io_ret a.

(** [AtomData::parse], mod.rs 189-258. *)
Definition io_atom_data_parse (fuel : nat) (m : mode) (parent : fourcc) (len : N) : IO atom_data :=
  a <- io_atom_loop fuel m (Ok len) (io_item_body m) 0 (ItemAcc [] None None) ;;
  match ia_data a with
  | [] => io_fail (EAtomNotFound DATA)
  | _ => io_ret (AtomData (item_ident parent (ia_mean a) (ia_name a)) (ia_data a))
  end.

(** Body of the loop of [Ilst::parse_atom], ilst.rs 30-45. *)
Definition io_ilst_body (fuel : nat) (m : mode) (h : head) (l : list atom_data) : IO (list atom_data) :=
  if fourcc_eqb (hd_fourcc h) FREE then io_skip_atom m h ;;; io_ret l
  else
    c <- io_lift (content_len m (hd_size h)) ;;
    a <- io_atom_data_parse fuel m (hd_fourcc h) c ;;
    io_ret (ilst_add l a).

(** [Ilst::parse_atom], ilst.rs 25-51. *)
Definition io_ilst_parse (fuel : nat) (m : mode) (s : size) : IO (list atom_data) :=
  io_atom_loop fuel m (content_len m s) (io_ilst_body fuel m) 0 [].

(** [Meta::parse_atom], meta.rs 14-41.  The result is the [ilst] field, the only one set. *)
Definition io_meta_body (fuel : nat) (m : mode) (h : head) (r : option (list atom_data))
  : IO (option (list atom_data)) :=
  if fourcc_eqb (hd_fourcc h) ITEM_LIST then
    l <- io_ilst_parse fuel m (hd_size h) ;; io_ret (Some l)
  else io_skip_atom m h ;;; io_ret r.

Definition io_meta_parse (fuel : nat) (m : mode) (s : size) : IO (option (list atom_data)) :=
  vf <- io_parse_full_head ;;
  if negb (fst vf =? 0) then io_fail (EUnknownVersion (fst vf)) else
  io_atom_loop fuel m (content_len m s) (io_meta_body fuel m) 4 None.

(** [Udta::parse_atom], udta.rs 13-31: the [meta] field. *)
Definition io_udta_body (fuel : nat) (m : mode) (h : head) (r : option (option (list atom_data)))
  : IO (option (option (list atom_data))) :=
  if fourcc_eqb (hd_fourcc h) METADATA then
    x <- io_meta_parse fuel m (hd_size h) ;; io_ret (Some x)
  else io_skip_atom m h ;;; io_ret r.

Definition io_udta_parse (fuel : nat) (m : mode) (s : size) : IO (option (option (list atom_data))) :=
  io_atom_loop fuel m (content_len m s) (io_udta_body fuel m) 0 None.

(** [parse_desc_head], mp4a.rs 228-243: the loop reads at most four length bytes. *)
Fixpoint io_desc_len_loop (k : nat) (hl len : N) : IO (N * N) :=
  match k with
  | O => io_ret (hl, len)
  | S k' =>
    b <- io_read_u8 ;;
    let len' := len * 128 + b mod 128 in
    if b <? 128 then io_ret (hl + 1, len') else io_desc_len_loop k' (hl + 1) len'
  end.

(** Returns tag, head length and descriptor length. *)
Definition io_parse_desc_head : IO (N * N * N) :=
  tag <- io_read_u8 ;;
  hl <- io_desc_len_loop 4 1 0 ;;
  io_ret (tag, fst hl, snd hl).

(** [parse_ds_desc], mp4a.rs 215-226. *)
Definition io_parse_ds_desc (m : mode) (info : mp4a) (len : N) : IO mp4a :=
  num <- io_read_u16 ;;
  let freq_index := (num / 128) mod 16 in
  let channel := (num / 8) mod 16 in
  d <- io_lift (sub64 m len 2) ;;
  io_seek_cur (as_i64 d) ;;;
  io_ret (Mp4a (channel_config_of channel) (sample_rate_of freq_index) (ma_max info) (ma_avg info)).

(** The descriptor loops of mp4a.rs 153-165 and 188-200. *)
Fixpoint io_desc_loop {S : Type} (fuel : nat) (m : mode) (len : N)
         (body : N -> N -> S -> IO S) (parsed : N) (s : S) : IO S :=
  match fuel with
  | O => io_outOfFuel
  | Datatypes.S fuel' =>
    if parsed <? len then
      h <- io_parse_desc_head ;;
      let '(tag, hl, dl) := h in
      s' <- body tag dl s ;;
      k <- io_lift (add64 m hl dl) ;;
      parsed' <- io_lift (add64 m parsed k) ;;
      io_desc_loop fuel' m len body parsed' s'
    else io_ret s
  end.

(** mp4a.rs 192-197. *)
Definition io_dc_body (m : mode) (tag dl : N) (info : mp4a) : IO mp4a :=
  if tag =? 5 then io_parse_ds_desc m info dl
  else io_seek_cur (as_i64 dl) ;;; io_ret info.

(** [parse_dc_desc], mp4a.rs 183-203. *)
Definition io_parse_dc_desc (fuel : nat) (m : mode) (info : mp4a) (len : N) : IO mp4a :=
  io_seek_cur 5 ;;;
  mx <- io_read_u32 ;;
  av <- io_read_u32 ;;
  io_desc_loop fuel m len (io_dc_body m) 13 (Mp4a (ma_channels info) (ma_rate info) (Some mx) (Some av)).

(** mp4a.rs 157-162. *)
Definition io_es_body (fuel : nat) (m : mode) (tag dl : N) (info : mp4a) : IO mp4a :=
  if tag =? 4 then io_parse_dc_desc fuel m info dl
  else io_seek_cur (as_i64 dl) ;;; io_ret info.

(** [parse_es_desc], mp4a.rs 150-168. *)
Definition io_parse_es_desc (fuel : nat) (m : mode) (info : mp4a) (len : N) : IO mp4a :=
  io_seek_cur 3 ;;;
  io_desc_loop fuel m len (io_es_body fuel m) 3 info.

(** [parse_esds], mp4a.rs 112-134. *)
Definition io_parse_esds (fuel : nat) (m : mode) (info : mp4a) (s : size) : IO mp4a :=
  vf <- io_parse_full_head ;;
  if negb (fst vf =? 0) then io_fail (EUnknownVersion (fst vf)) else
  h <- io_parse_desc_head ;;
  let '(tag, hl, dl) := h in
  if negb (tag =? 3) then io_fail (EDescriptorNotFound 3) else
  c <- io_lift (content_len m s) ;;
  c4 <- io_lift (sub64 m c 4) ;;
  max_len <- io_lift (sub64 m c4 hl) ;;
  io_parse_es_desc fuel m info (N.min dl max_len).

(** [Mp4a::parse_atom], mp4a.rs 74-93. *)
Definition io_mp4a_parse (fuel : nat) (m : mode) (s : size) : IO mp4a :=
  b <- io_find_bounds m s ;;
  io_seek_cur 28 ;;;
  h <- io_parse_head ;;
  if negb (fourcc_eqb (hd_fourcc h) ELEMENTARY_STREAM_DESCRIPTION)
  then io_fail (EAtomNotFound ELEMENTARY_STREAM_DESCRIPTION) else
  r <- io_parse_esds fuel m mp4a_default (hd_size h) ;;
  io_seek_to_end m b ;;;
  io_ret r.

(** * Tracks *)

(** [Stsd::parse_atom], stsd.rs 13-42: the [mp4a] field. *)
Definition io_stsd_body (fuel : nat) (m : mode) (h : head) (r : option mp4a) : IO (option mp4a) :=
  if fourcc_eqb (hd_fourcc h) MP4_AUDIO then
    x <- io_mp4a_parse fuel m (hd_size h) ;; io_ret (Some x)
  else io_skip_atom m h ;;; io_ret r.

Definition io_stsd_parse (fuel : nat) (m : mode) (s : size) : IO (option mp4a) :=
  vf <- io_parse_full_head ;;
  if negb (fst vf =? 0) then io_fail (EUnknownVersion (fst vf)) else
  io_seek_cur 4 ;;;
  io_atom_loop fuel m (content_len m s) (io_stsd_body fuel m) 8 None.

(** [Stbl::parse_atom], stbl.rs 13-33: the [stsd] field. *)
Definition io_stbl_body (fuel : nat) (m : mode) (h : head) (r : option (option mp4a))
  : IO (option (option mp4a)) :=
  if fourcc_eqb (hd_fourcc h) SAMPLE_TABLE_SAMPLE_DESCRIPTION then
    x <- io_stsd_parse fuel m (hd_size h) ;; io_ret (Some x)
  else io_skip_atom m h ;;; io_ret r.

Definition io_stbl_parse (fuel : nat) (m : mode) (s : size) : IO (option (option mp4a)) :=
  io_atom_loop fuel m (content_len m s) (io_stbl_body fuel m) 0 None.

(** [Minf::parse_atom], minf.rs 13-31: the [stbl] field. *)
Definition io_minf_body (fuel : nat) (m : mode) (h : head) (r : option (option (option mp4a)))
  : IO (option (option (option mp4a))) :=
  if fourcc_eqb (hd_fourcc h) SAMPLE_TABLE then
    x <- io_stbl_parse fuel m (hd_size h) ;; io_ret (Some x)
  else io_skip_atom m h ;;; io_ret r.

Definition io_minf_parse (fuel : nat) (m : mode) (s : size) : IO (option (option (option mp4a))) :=
  io_atom_loop fuel m (content_len m s) (io_minf_body fuel m) 0 None.

(** [Mdia::parse_atom], mdia.rs 13-31: the [minf] field. *)
Definition io_mdia_body (fuel : nat) (m : mode) (h : head) (r : option (option (option (option mp4a))))
  : IO (option (option (option (option mp4a)))) :=
  if fourcc_eqb (hd_fourcc h) MEDIA_INFORMATION then
    x <- io_minf_parse fuel m (hd_size h) ;; io_ret (Some x)
  else io_skip_atom m h ;;; io_ret r.

Definition io_mdia_parse (fuel : nat) (m : mode) (s : size) : IO (option (option (option (option mp4a)))) :=
  io_atom_loop fuel m (content_len m s) (io_mdia_body fuel m) 0 None.

(** [Trak::parse_atom], trak.rs 13-31: the [mdia] field. *)
Definition io_trak_body (fuel : nat) (m : mode) (h : head) (r : trak_info) : IO trak_info :=
  if fourcc_eqb (hd_fourcc h) MEDIA then
    x <- io_mdia_parse fuel m (hd_size h) ;; io_ret (Some x)
  else io_skip_atom m h ;;; io_ret r.

Definition io_trak_parse (fuel : nat) (m : mode) (s : size) : IO trak_info :=
  io_atom_loop fuel m (content_len m s) (io_trak_body fuel m) 0 None.

(** [Mvhd::parse_atom], mvhd.rs 17-64: the duration. *)
Definition io_mvhd_parse (m : mode) (s : size) : IO N :=
  b <- io_find_bounds m s ;;
  vf <- io_parse_full_head ;;
  d <- match fst vf with
       | 0 =>
         io_seek_cur 8 ;;;
         timescale <- io_read_u32 ;;
         duration <- io_read_u32 ;;
         io_lift (mvhd_nanos m timescale duration)
       | 1 =>
         io_seek_cur 16 ;;;
         timescale <- io_read_u32 ;;
         duration <- io_read_u64 ;;
         io_lift (mvhd_nanos m timescale duration)
       | v => io_fail (EUnknownVersion v)
       end ;;
  io_seek_to_end m b ;;;
  io_ret d.

(** Body of the loop of [Moov::parse_atom], moov.rs 20-29. *)
Definition io_moov_body (fuel : nat) (m : mode) (h : head) (r : moov) : IO moov :=
  let id := hd_fourcc h in
  if fourcc_eqb id MOVIE_HEADER then
    d <- io_mvhd_parse m (hd_size h) ;; io_ret (Moov (Some d) (mv_trak r) (mv_udta r))
  else if fourcc_eqb id TRACK then
    t <- io_trak_parse fuel m (hd_size h) ;; io_ret (Moov (mv_mvhd r) (mv_trak r ++ [t]) (mv_udta r))
  else if fourcc_eqb id USER_DATA then
    u <- io_udta_parse fuel m (hd_size h) ;; io_ret (Moov (mv_mvhd r) (mv_trak r) (Some u))
  else io_skip_atom m h ;;; io_ret r.

(** [Moov::parse_atom], moov.rs 15-35. *)
Definition io_moov_parse (fuel : nat) (m : mode) (s : size) : IO moov :=
  io_atom_loop fuel m (content_len m s) (io_moov_body fuel m) 0 (Moov None [] None).

(** * src/atom/ftyp.rs *)

(** [Ftyp::parse], ftyp.rs 7-16. *)
Definition io_ftyp_parse (m : mode) : IO ustring :=
  h <- io_parse_head ;;
  if negb (fourcc_eqb (hd_fourcc h) FILETYPE) then io_fail ENoTag else
  c <- io_lift (content_len m (hd_size h)) ;;
  io_read_utf8 c.

(** * [read_tag_from], src/atom/mod.rs 299-353 *)

(** The loop of mod.rs 304-326: parses the first movie atom. *)
Fixpoint io_find_moov (fuel : nat) (m : mode) (inner : nat) (len parsed : N) : IO moov :=
  match fuel with
  | O => io_outOfFuel
  | S fuel' =>
    if len <=? parsed then io_fail (EAtomNotFound MOVIE) else
    h <- io_parse_head ;;
    if fourcc_eqb (hd_fourcc h) MOVIE then io_moov_parse inner m (hd_size h)
    else
      io_skip_atom m h ;;;
      parsed' <- io_lift (add64 m parsed (sz_len (hd_size h))) ;;
      io_find_moov fuel' m inner len parsed'
  end.

(** [read_tag_from], mod.rs 299-353 = [Tag::read_from], tag/mod.rs 93-95; the reader starts at
    its current position. *)
Definition io_read_tag_from (fuel : nat) (m : mode) : IO tag :=
  ft <- io_ftyp_parse m ;;
  len <- io_remaining_stream_len m ;;
  r <- io_find_moov fuel m fuel len 0 ;;
  io_ret (Tag ft (moov_info r) (moov_atoms r)).

(** [Mdat::find_atom] mdat.rs 24-28, [Hdlr::find_atom] hdlr.rs 57-61, [Ilst::find_atom]
    ilst.rs 93-97, [Stco::find_atom] stco.rs 62-66, [Co64::find_atom] co64.rs 62-66: identical. *)
Definition io_leaf_find (m : mode) (s : size) : IO bounds :=
  b <- io_find_bounds m s ;;
  io_seek_to_end m b ;;;
  io_ret b.

(** Local variables of [Stbl::find_atom], stbl.rs 47-48: stco and co64. *)
Definition io_stbl_fbody (m : mode) (h : head) (r : option bounds * option bounds)
  : IO (option bounds * option bounds) :=
  let id := hd_fourcc h in
  if fourcc_eqb id SAMPLE_TABLE_CHUNK_OFFSET then
    b <- io_leaf_find m (hd_size h) ;; io_ret (Some b, snd r)
  else if fourcc_eqb id SAMPLE_TABLE_CHUNK_OFFSET_64 then
    b <- io_leaf_find m (hd_size h) ;; io_ret (fst r, Some b)
  else io_skip_atom m h ;;; io_ret r.

(** [Stbl::find_atom], stbl.rs 45-66. *)
Definition io_stbl_find (fuel : nat) (m : mode) (s : size) : IO stbl_bounds :=
  b <- io_find_bounds m s ;;
  r <- io_atom_loop fuel m (content_len m s) (io_stbl_fbody m) 0 (None, None) ;;
  io_ret (StblBounds b (fst r) (snd r)).

(** [Minf::find_atom], minf.rs 42-61. *)
Definition io_minf_fbody (fuel : nat) (m : mode) (h : head) (r : option stbl_bounds) : IO (option stbl_bounds) :=
  if fourcc_eqb (hd_fourcc h) SAMPLE_TABLE then
    x <- io_stbl_find fuel m (hd_size h) ;; io_ret (Some x)
  else io_skip_atom m h ;;; io_ret r.

Definition io_minf_find (fuel : nat) (m : mode) (s : size) : IO minf_bounds :=
  b <- io_find_bounds m s ;;
  r <- io_atom_loop fuel m (content_len m s) (io_minf_fbody fuel m) 0 None ;;
  io_ret (MinfBounds b r).

(** [Mdia::find_atom], mdia.rs 42-61. *)
Definition io_mdia_fbody (fuel : nat) (m : mode) (h : head) (r : option minf_bounds) : IO (option minf_bounds) :=
  if fourcc_eqb (hd_fourcc h) MEDIA_INFORMATION then
    x <- io_minf_find fuel m (hd_size h) ;; io_ret (Some x)
  else io_skip_atom m h ;;; io_ret r.

Definition io_mdia_find (fuel : nat) (m : mode) (s : size) : IO mdia_bounds :=
  b <- io_find_bounds m s ;;
  r <- io_atom_loop fuel m (content_len m s) (io_mdia_fbody fuel m) 0 None ;;
  io_ret (MdiaBounds b r).

(** [Trak::find_atom], trak.rs 42-61. *)
Definition io_trak_fbody (fuel : nat) (m : mode) (h : head) (r : option mdia_bounds) : IO (option mdia_bounds) :=
  if fourcc_eqb (hd_fourcc h) MEDIA then
    x <- io_mdia_find fuel m (hd_size h) ;; io_ret (Some x)
  else io_skip_atom m h ;;; io_ret r.

Definition io_trak_find (fuel : nat) (m : mode) (s : size) : IO trak_bounds :=
  b <- io_find_bounds m s ;;
  r <- io_atom_loop fuel m (content_len m s) (io_trak_fbody fuel m) 0 None ;;
  io_ret (TrakBounds b r).

(** Body of the loop of [Meta::find_atom], meta.rs 110-118; locals hdlr and ilst. *)
Definition io_meta_fbody (m : mode) (h : head) (r : option bounds * option bounds)
  : IO (option bounds * option bounds) :=
  let id := hd_fourcc h in
  if fourcc_eqb id HANDLER_REFERENCE then
    b <- io_leaf_find m (hd_size h) ;; io_ret (Some b, snd r)
  else if fourcc_eqb id ITEM_LIST then
    b <- io_leaf_find m (hd_size h) ;; io_ret (fst r, Some b)
  else io_skip_atom m h ;;; io_ret r.

(** [Meta::find_atom], meta.rs 94-124. *)
Definition io_meta_find (fuel : nat) (m : mode) (s : size) : IO meta_bounds :=
  b <- io_find_bounds m s ;;
  vf <- io_parse_full_head ;;
  if negb (fst vf =? 0) then io_fail (EUnknownVersion (fst vf)) else
  r <- io_atom_loop fuel m (content_len m s) (io_meta_fbody m) 4 (None, None) ;;
  io_ret (MetaBounds b (fst r) (snd r)).

Definition io_udta_fbody (fuel : nat) (m : mode) (h : head) (r : option meta_bounds) : IO (option meta_bounds) :=
  if fourcc_eqb (hd_fourcc h) METADATA then
    x <- io_meta_find fuel m (hd_size h) ;; io_ret (Some x)
  else io_skip_atom m h ;;; io_ret r.

(** [Udta::find_atom], udta.rs 64-83. *)
Definition io_udta_find (fuel : nat) (m : mode) (s : size) : IO udta_bounds :=
  b <- io_find_bounds m s ;;
  r <- io_atom_loop fuel m (content_len m s) (io_udta_fbody fuel m) 0 None ;;
  io_ret (UdtaBounds b r).

Definition io_moov_fbody (fuel : nat) (m : mode) (h : head) (r : list trak_bounds * option udta_bounds)
  : IO (list trak_bounds * option udta_bounds) :=
  let id := hd_fourcc h in
  if fourcc_eqb id TRACK then
    t <- io_trak_find fuel m (hd_size h) ;; io_ret (fst r ++ [t], snd r)
  else if fourcc_eqb id USER_DATA then
    u <- io_udta_find fuel m (hd_size h) ;; io_ret (fst r, Some u)
  else io_skip_atom m h ;;; io_ret r.

(** [Moov::find_atom], moov.rs 69-90. *)
Definition io_moov_find (fuel : nat) (m : mode) (s : size) : IO moov_bounds :=
  b <- io_find_bounds m s ;;
  r <- io_atom_loop fuel m (content_len m s) (io_moov_fbody fuel m) 0 ([], None) ;;
  io_ret (MoovBounds b (fst r) (snd r)).

(** Body of the top-level loop of [write_tag_to], mod.rs 367-376; locals moov and mdat. *)
Definition io_top_fbody (fuel : nat) (m : mode) (h : head) (r : option moov_bounds * option bounds)
  : IO (option moov_bounds * option bounds) :=
  let id := hd_fourcc h in
  if fourcc_eqb id MOVIE then
    x <- io_moov_find fuel m (hd_size h) ;; io_ret (Some x, snd r)
  else if fourcc_eqb id MEDIA_DATA then
    b <- io_leaf_find m (hd_size h) ;; io_ret (fst r, Some b)
  else io_skip_atom m h ;;; io_ret r.

(** mod.rs 357-387: everything found in the file; the position of the last mdat (0 if none). *)
Definition io_scan (fuel : nat) (m : mode) : IO (moov_bounds * N) :=
  io_ftyp_parse m ;;;
  len <- io_remaining_stream_len m ;;
  r <- io_atom_loop fuel m (Ok len) (io_top_fbody fuel m) 0 (None, None) ;;
  match fst r with
  | None => io_fail (EAtomNotFound MOVIE)
  | Some mb => io_ret (mb, match snd r with Some b => b_pos b | None => 0 end)
  end.
