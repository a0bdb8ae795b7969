(** The write path: [write_atom] functions, the buffered writer, [write_tag_to], [dump_tag_to]. *)

From Coq Require Import List NArith ZArith Bool.
From Verif Require Import Base Utf Types Stream Parse Find.
Import ListNotations.

(** * Producing bytes *)

(** A computation writing to [impl Write]: the buffers passed to [write_all], in order, and the
    outcome.  (I/O errors of the writer are not modelled.) *)
Definition Out (A : Type) : Type := list bytes * res A.

Definition oret {A} (a : A) : Out A := ([], Ok a).
Definition obind {A B} (x : Out A) (k : A -> Out B) : Out B :=
  match snd x with
  | Ok a => let r := k a in (fst x ++ fst r, snd r)
  | Err e => (fst x, Err e)
  | Panic p => (fst x, Panic p)
  | Fuel => (fst x, Fuel)
  end.
Definition olift {A} (r : res A) : Out A := ([], r).
(** [writer.write_all(b)?]. *)
Definition emit (b : bytes) : Out unit := ([b], Ok tt).

Declare Scope o_scope.
Notation "x <~ a ;; b" := (obind a (fun x => b)) (at level 61, a at next level, right associativity) : o_scope.
Notation "a ~;; b" := (obind a (fun _ => b)) (at level 61, right associativity) : o_scope.
Global Open Scope o_scope.

Fixpoint omap {A} (g : A -> Out unit) (l : list A) : Out unit :=
  match l with
  | [] => oret tt
  | x :: r => g x ~;; omap g r
  end.

(** [write_head], head.rs 137-147. *)
Definition write_head (s : size) (id : fourcc) : Out unit :=
  if sz_ext s then emit (be32 1) ~;; emit (fc_bytes id) ~;; emit (be64 (sz_len s))
  else emit (be32 (sz_len s)) ~;; emit (fc_bytes id).

(** [write_full_head], head.rs 177-181. *)
Definition write_full_head (version : N) (flags : bytes) : Out unit :=
  emit (be 1 version) ~;; emit flags.

(** [Data::write_raw], data.rs 387-415. *)
Definition write_raw (d : data) : Out unit :=
  match d with
  | DReserved v => emit v
  | DUtf8 s => emit (enc8 s)
  | DUtf16 s => omap (fun c => emit (be16 c)) (enc16 s)
  | DJpeg v => emit v
  | DPng v => emit v
  | DBeSigned v => emit v
  | DBmp v => emit v
  end.

(** The type codes of data.rs 8-36 chosen in data.rs 367-375. *)
Definition data_code (d : data) : N :=
  match d with
  | DReserved _ => 0
  | DUtf8 _ => 1
  | DUtf16 _ => 2
  | DJpeg _ => 13
  | DPng _ => 14
  | DBeSigned _ => 21
  | DBmp _ => 27
  end.

(** [Data::write_typed], data.rs 366-384. *)
Definition write_typed (d : data) : Out unit :=
  emit (be32 (data_code d)) ~;; emit (zeros 4) ~;; write_raw d.

Definition nsum (l : list N) : N := fold_right N.add 0 l.

(** [AtomData::len], mod.rs 169-182 (sum of lengths of things in memory, not checked). *)
Definition ad_len (a : atom_data) : N :=
  let data_len := nsum (map (fun d => 16 + data_len d) (ad_data a)) in
  match ad_ident a with
  | IFourcc _ => 8 + data_len
  | IFreeform mean name => 8 + (12 + blen (enc8 mean)) + (12 + blen (enc8 name)) + data_len
  end.

(** [AtomData::write], mod.rs 261-295. *)
Definition ad_write (m : mode) (a : atom_data) : Out unit :=
  emit (be32 (as_u32 (ad_len a))) ~;;
  match ad_ident a with
  | IFourcc f => emit (fc_bytes f)
  | IFreeform mean name =>
    emit (fc_bytes FREEFORM) ~;;
    mean_len <~ olift (add32 m 12 (as_u32 (blen (enc8 mean)))) ;;
    emit (be32 mean_len) ~;;
    emit (fc_bytes MEAN) ~;;
    emit (zeros 4) ~;;
    emit (enc8 mean) ~;;
    name_len <~ olift (add32 m 12 (as_u32 (blen (enc8 name)))) ;;
    emit (be32 name_len) ~;;
    emit (fc_bytes NAME) ~;;
    emit (zeros 4) ~;;
    emit (enc8 name)
  end ~;;
  omap (fun d =>
    dl <~ olift (add32 m 16 (as_u32 (data_len d))) ;;
    emit (be32 dl) ~;;
    emit (fc_bytes DATA) ~;;
    write_typed d) (ad_data a).

(** [Ilst::size], ilst.rs 63-66. *)
Definition ilst_size (l : list atom_data) : size := size_from (nsum (map ad_len l)).
(** [Ilst::write_atom], ilst.rs 55-61. *)
Definition ilst_write (m : mode) (l : list atom_data) : Out unit :=
  write_head (ilst_size l) ITEM_LIST ~;; omap (ad_write m) l.

(** [Hdlr::size], hdlr.rs 37-39 and [Hdlr::write_atom], hdlr.rs 31-35. *)
Definition hdlr_size (h : bytes) : size := size_from (blen h).
Definition hdlr_write (h : bytes) : Out unit :=
  write_head (hdlr_size h) HANDLER_REFERENCE ~;; emit h.

(** [Meta::hdlr], meta.rs 64-74. *)
Definition meta_hdlr : bytes :=
  map n2b [0; 0; 0; 0;  0; 0; 0; 0;  109; 100; 105; 114;  97; 112; 112; 108;
           0; 0; 0; 0;  0; 0; 0; 0;  0].

(** The [Meta] values that are written, meta.rs 4-7: hdlr and ilst. *)
Record new_meta := NewMeta { nm_hdlr : option bytes; nm_ilst : list atom_data }.

(** [LenOrZero], mod.rs 143-151. *)
Definition hdlr_len_or_zero (h : option bytes) : N :=
  match h with Some b => sz_len (hdlr_size b) | None => 0 end.

(** [Meta::size], meta.rs 57-60 (the ilst is always present in metas that are written). *)
Definition meta_size (x : new_meta) : size :=
  size_from (hdlr_len_or_zero (nm_hdlr x) + sz_len (ilst_size (nm_ilst x)) + 4).
(** [Meta::write_atom], meta.rs 45-55. *)
Definition meta_write (m : mode) (x : new_meta) : Out unit :=
  write_head (meta_size x) METADATA ~;;
  write_full_head 0 (zeros 3) ~;;
  match nm_hdlr x with Some h => hdlr_write h | None => oret tt end ~;;
  ilst_write m (nm_ilst x).

(** [Udta::size], udta.rs 43-45 and [Udta::write_atom], udta.rs 35-41 (meta always present). *)
Definition udta_size (x : new_meta) : size := size_from (sz_len (meta_size x)).
Definition udta_write (m : mode) (x : new_meta) : Out unit :=
  write_head (udta_size x) USER_DATA ~;; meta_write m x.

(** [Moov::size], moov.rs 47-49 and [Moov::write_atom], moov.rs 39-45 (udta always present). *)
Definition moov_size (x : new_meta) : size := size_from (sz_len (udta_size x)).
Definition moov_write (m : mode) (x : new_meta) : Out unit :=
  write_head (moov_size x) MOVIE ~;; udta_write m x.

(** [Ftyp::write], ftyp.rs 18-27. *)
Definition ftyp_write (s : ustring) : Out unit :=
  write_head (Size false (blen (enc8 s) + 8)) FILETYPE ~;; emit (enc8 s).

(** "M4A \0\0\2\0isomiso2", mod.rs 531. *)
Definition dump_ftyp : ustring :=
  [77; 52; 65; 32; 0; 0; 2; 0; 105; 115; 111; 109; 105; 115; 111; 50].

(** [dump_tag_to], mod.rs 530-547 = [Tag::dump_to], tag/mod.rs 117-119. *)
Definition dump_tag_to (m : mode) (atoms : list atom_data) : Out unit :=
  ftyp_write dump_ftyp ~;; moov_write m (NewMeta (Some meta_hdlr) atoms).

(** * Modifying the file *)

(** The system calls changing the file: write at an offset, set the length. *)
Inductive fop := OWrite (off : N) (d : bytes) | OSetLen (n : N).

(** [pwrite]: bytes behind the end of the file are zero-filled first. *)
Definition write_at (f : bytes) (p : N) (d : bytes) : bytes :=
  firstn (N.to_nat p) (f ++ zeros (p - blen f)) ++ d ++ skipn (N.to_nat (p + blen d)) f.

(** [ftruncate]. *)
Definition set_length (f : bytes) (n : N) : bytes :=
  firstn (N.to_nat n) f ++ zeros (n - blen f).

Definition apply_op (f : bytes) (o : fop) : bytes :=
  match o with
  | OWrite p d => write_at f p d
  | OSetLen n => set_length f n
  end.

(** State of [BufWriter<&File>]: the file, its cursor, the buffer; and the calls made so far. *)
Record wst := Wst { w_file : bytes; w_cur : N; w_buf : bytes; w_ops : list fop }.

(** A computation on the writer; the state is kept on every outcome. *)
Definition W (A : Type) := wst -> res A * wst.
Definition wret {A} (a : A) : W A := fun s => (Ok a, s).
Definition wbind {A B} (x : W A) (k : A -> W B) : W B :=
  fun s => match x s with
           | (Ok a, s') => k a s'
           | (Err e, s') => (Err e, s')
           | (Panic p, s') => (Panic p, s')
           | (Fuel, s') => (Fuel, s')
           end.
Definition wlift {A} (r : res A) : W A := fun s => (r, s).

Declare Scope w_scope.
Notation "x <== a ;; b" := (wbind a (fun x => b)) (at level 61, a at next level, right associativity) : w_scope.
Notation "a =;; b" := (wbind a (fun _ => b)) (at level 61, right associativity) : w_scope.
Global Open Scope w_scope.

(** [File::write_all] at the cursor; nothing is called for an empty buffer. *)
Definition os_write (d : bytes) : W unit :=
  fun s =>
    match d with
    | [] => (Ok tt, s)
    | _ => (Ok tt, Wst (write_at (w_file s) (w_cur s) d) (w_cur s + blen d) (w_buf s)
                       (w_ops s ++ [OWrite (w_cur s) d]))
    end.

(** [BufWriter::flush_buf]. *)
Definition bw_flush : W unit :=
  fun s =>
    match os_write (w_buf s) s with
    | (r, s') => (r, Wst (w_file s') (w_cur s') [] (w_ops s'))
    end.

(** [BufWriter::write_all] with a buffer of capacity [cap] (8 KiB in std; nothing depends on it):
    flush if the data does not fit, write directly if it is as large as the buffer. *)
Definition bw_write (cap : N) (d : bytes) : W unit :=
  fun s =>
    let s1 := if cap <? blen (w_buf s) + blen d then snd (bw_flush s) else s in
    if cap <=? blen d then os_write d s1
    else (Ok tt, Wst (w_file s1) (w_cur s1) (w_buf s1 ++ d) (w_ops s1)).

(** [BufWriter::seek(SeekFrom::Start(q))]: flushes first. *)
Definition bw_seek_start (q : N) : W unit :=
  bw_flush =;;
  fun s => if q <? two63 then (Ok tt, Wst (w_file s) q (w_buf s) (w_ops s)) else (Err EIoSeek, s).

(** [BufWriter::seek(SeekFrom::Current(d))]. *)
Definition bw_seek_cur (d : Z) : W unit :=
  bw_flush =;;
  fun s =>
    let t := (Z.of_N (w_cur s) + d)%Z in
    if ((0 <=? t) && (t <? Z.of_N two63))%Z
    then (Ok tt, Wst (w_file s) (Z.to_N t) (w_buf s) (w_ops s)) else (Err EIoSeek, s).

(** [File::set_len]: does not touch the cursor or the buffer of the [BufWriter]; lengths that do
    not fit an [off_t] are rejected. *)
Definition file_set_len (n : N) : W unit :=
  fun s => if n <? two63
           then (Ok tt, Wst (set_length (w_file s) n) (w_cur s) (w_buf s) (w_ops s ++ [OSetLen n]))
           else (Err EIoSeek, s).

Fixpoint bw_chunks (cap : N) (l : list bytes) : W unit :=
  match l with
  | [] => wret tt
  | d :: r => bw_write cap d =;; bw_chunks cap r
  end.

(** Running a producer on the buffered writer. *)
Definition bw_out {A} (cap : N) (o : Out A) : W A :=
  bw_chunks cap (fst o) =;; wlift (snd o).

(** Reading the current file content through the reader after [reader.seek(SeekFrom::Start(q))].
    Reader and writer share the cursor of the [File]; this is not modelled, because every use of
    either starts with an absolute seek (mod.rs 466, 469, 477, 480, 493, 507, 521) and the writer is
    flushed before the reader is used (mod.rs 474, 485). *)
Definition w_read {A} (r : R A) (q : N) : W A :=
  fun s => if q <? two63 then
             match r (w_file s) q with
             | Ok (a, _) => (Ok a, s)
             | Err e => (Err e, s)
             | Panic p => (Panic p, s)
             | Fuel => (Fuel, s)
             end
           else (Err EIoSeek, s).

(** * Chunk offset tables *)

Fixpoint read_many (k : nat) (r : R N) : R (list N) :=
  match k with
  | 0%nat => ret []
  | S k' => x <- r ;; l <- read_many k' r ;; ret (x :: l)
  end.

(** [Stco::parse_atom], stco.rs 17-44, with [w] = 4 and [read_u32]; [Co64::parse_atom],
    co64.rs 17-44, with [w] = 8 and [read_u64]: position of the table and the offsets. *)
Definition table_parse (w : N) (rd : R N) (m : mode) (s : size) : R (N * list N) :=
  vf <- parse_full_head ;;
  match fst vf with
  | 0 =>
    entries <- read_u32 ;;
    c <- lift (content_len m s) ;;
    if negb (8 + w * entries =? c) then fail EParsing else
    table_pos <- position ;;
    offs <- read_many (N.to_nat entries) rd ;;
    ret (table_pos, offs)
  | v => fail (EUnknownVersion v)
  end.

Definition stco_parse := table_parse 4 read_u32.
Definition co64_parse := table_parse 8 read_u64.

(** The loops of mod.rs 470-473 and 481-484: [( *co as i64 + len_diff) as u32] resp. [as u64].
    ([u32 as i64] and [as_i64] agree below 2^63.) *)
Fixpoint write_offsets (cap : N) (m : mode) (wide : bool) (diff : Z) (l : list N) : W unit :=
  match l with
  | [] => wret tt
  | co :: r =>
    v <== wlift (addi m (as_i64 co) diff) ;;
    bw_write cap (if wide then be64 (i_as_u64 v) else be32 (i_as_u32 v)) =;;
    write_offsets cap m wide diff r
  end.

(** mod.rs 465-475 ([wide] = false) and 476-486 ([wide] = true). *)
Definition adjust_table (cap : N) (m : mode) (wide : bool) (diff : Z) (b : bounds) : W unit :=
  cp <== wlift (content_pos m b) ;;
  t <== w_read (if wide then co64_parse m (b_size b) else stco_parse m (b_size b)) cp ;;
  bw_seek_start (fst t) =;;
  write_offsets cap m wide diff (snd t) =;;
  bw_flush.

(** Body of the loop over the sample tables, mod.rs 464-487. *)
Definition adjust_stbl (cap : N) (m : mode) (diff : Z) (sb : stbl_bounds) : W unit :=
  match sb_stco sb with Some b => adjust_table cap m false diff b | None => wret tt end =;;
  match sb_co64 sb with Some b => adjust_table cap m true diff b | None => wret tt end.

(** The [filter_map] of mod.rs 460-462. *)
Definition trak_stbl (t : trak_bounds) : option stbl_bounds :=
  match tb_mdia t with
  | Some d => match db_minf d with Some n => nb_stbl n | None => None end
  | None => None
  end.

Fixpoint adjust_traks (cap : N) (m : mode) (diff : Z) (l : list trak_bounds) : W unit :=
  match l with
  | [] => wret tt
  | t :: r =>
    match trak_stbl t with Some sb => adjust_stbl cap m diff sb | None => wret tt end =;;
    adjust_traks cap m diff r
  end.

(** Body of the loop of mod.rs 491-501. *)
Definition update_atom (cap : N) (m : mode) (diff : Z) (b : bounds) : W unit :=
  new_len <== wlift (addi m (as_i64 (sz_len (b_size b))) diff) ;;
  bw_seek_start (b_pos b) =;;
  if sz_ext (b_size b) then
    bw_write cap (be32 1) =;;
    bw_seek_cur 4 =;;
    bw_write cap (be64 (i_as_u64 new_len))
  else bw_write cap (be32 (i_as_u32 new_len)).

Fixpoint update_all (cap : N) (m : mode) (diff : Z) (l : list bounds) : W unit :=
  match l with
  | [] => wret tt
  | b :: r => update_atom cap m diff b =;; update_all cap m diff r
  end.

(** * [write_tag_to], src/atom/mod.rs 356-526 *)

(** What is written: a new udta, a new meta, or hdlr and ilst (mod.rs 403-437, 509-518). *)
Inductive new_atoms :=
| NUdta (x : new_meta)
| NMeta (x : new_meta)
| NIlst (h : option bytes) (l : list atom_data).

(** mod.rs 440-446. *)
Definition new_atoms_len (n : new_atoms) : N :=
  match n with
  | NUdta x => sz_len (udta_size x)
  | NMeta x => sz_len (meta_size x)
  | NIlst h l => hdlr_len_or_zero h + sz_len (ilst_size l)
  end.

(** mod.rs 509-518. *)
Definition new_atoms_write (m : mode) (n : new_atoms) : Out unit :=
  match n with
  | NUdta x => udta_write m x
  | NMeta x => meta_write m x
  | NIlst h l => match h with Some b => hdlr_write b | None => oret tt end ~;; ilst_write m l
  end.

(** Results of the preparation, mod.rs 381-454: positions, difference, the atoms whose size is
    updated (in the order moov, udta, meta of the reversed iteration), what is written and the data
    to be moved. *)
Record plan := Plan {
  pl_moov : moov_bounds;
  pl_mdat_pos : N;
  pl_start : N;
  pl_moved_start : N;
  pl_diff : Z;
  pl_update : list bounds;
  pl_new : new_atoms;
  pl_old_len : N;
  pl_moved : bytes
}.

Definition omapb {A B} (g : A -> B) (o : option A) : option B :=
  match o with Some x => Some (g x) | None => None end.

(** [Read::read_to_end] from the current position. *)
Definition read_to_end : R bytes :=
  fun f p => Ok (skipn (N.to_nat (N.min p (blen f))) f, N.max p (blen f)).

(** mod.rs 356-454, up to the creation of the writer. *)
Definition prepare (fuel : nat) (m : mode) (atoms : list atom_data) : R plan :=
  sc <- scan fuel m ;;
  let mb := fst sc in
  let udta := vb_udta mb in
  let meta := match udta with Some u => ub_meta u | None => None end in
  let hdlr := match meta with Some e => eb_hdlr e | None => None end in
  let ilst := match meta with Some e => eb_ilst e | None => None end in
  let new_hdlr := match hdlr with None => Some meta_hdlr | Some _ => None end in
  (* mod.rs 406-410: ilst.pos(), ilst.end(), len_diff -= ilst.len() as i64 *)
  d0 <- match ilst with
        | Some b =>
          e <- lift (bounds_end m b) ;;
          d <- lift (subi m 0 (as_i64 (sz_len (b_size b)))) ;;
          ret (b_pos b, e, d)
        | None => ret (0, 0, 0%Z)
        end ;;
  let '(start0, moved0, diff0) := d0 in
  (* mod.rs 412-423 *)
  d1 <- match meta with
        | Some e =>
          match ilst with
          | None => s <- lift (bounds_end m (eb_bounds e)) ;; ret (s, s)
          | Some _ => ret (start0, moved0)
          end
        | None => ret (start0, moved0)
        end ;;
  (* mod.rs 424-438 *)
  d2 <- match udta with
        | Some u =>
          match meta with
          | None => s <- lift (bounds_end m (ub_bounds u)) ;; ret (s, s)
          | Some _ => ret d1
          end
        | None => s <- lift (bounds_end m (vb_bounds mb)) ;; ret (s, s)
        end ;;
  let update :=
    vb_bounds mb ::
    match udta with Some u => [ub_bounds u] | None => [] end ++
    match meta with Some e => [eb_bounds e] | None => [] end in
  let new :=
    match udta, meta with
    | None, _ => NUdta (NewMeta new_hdlr atoms)
    | Some _, None => NMeta (NewMeta new_hdlr atoms)
    | Some _, Some _ => NIlst new_hdlr atoms
    end in
  (* mod.rs 447 *)
  diff <- lift (addi m diff0 (as_i64 (new_atoms_len new))) ;;
  (* mod.rs 450-454 *)
  old_len <- seek_end ;;
  moved_len <- lift (sub64 m old_len (snd d2)) ;;
  if two63 <=? moved_len then lift (Panic PCapacity) else
  seek_start (snd d2) ;;;
  moved <- read_to_end ;;
  ret (Plan mb (snd sc) (fst d2) (snd d2) diff update new old_len moved).

(** mod.rs 456-526: the modifications. *)
Definition execute (cap : N) (m : mode) (p : plan) : W unit :=
  (if b_pos (vb_bounds (pl_moov p)) <? pl_mdat_pos p
   then adjust_traks cap m (pl_diff p) (vb_trak (pl_moov p)) else wret tt) =;;
  update_all cap m (pl_diff p) (pl_update p) =;;
  (n <== wlift (addi m (as_i64 (pl_old_len p)) (pl_diff p)) ;; file_set_len (i_as_u64 n)) =;;
  bw_seek_start (pl_start p) =;;
  bw_out cap (new_atoms_write m (pl_new p)) =;;
  (q <== wlift (addi m (as_i64 (pl_moved_start p)) (pl_diff p)) ;; bw_seek_start (i_as_u64 q)) =;;
  bw_write cap (pl_moved p) =;;
  bw_flush.

(** Outcome of a write: result, file content afterwards, system calls made. *)
Record wresult := WResult { wr_res : res unit; wr_file : bytes; wr_ops : list fop }.

(** [write_tag_to] on a file whose cursor is at [pos] ([Tag::write_to], tag/mod.rs 105-107).
    Dropping the [BufWriter] flushes it on every outcome. *)
Definition write_tag_to (cap : N) (fuel : nat) (m : mode) (atoms : list atom_data)
           (f : bytes) (pos : N) : wresult :=
  match prepare fuel m atoms f pos with
  | Ok (p, _) =>
    match execute cap m p (Wst f 0 [] []) with
    | (r, s) =>
      match bw_flush s with
      | (_, s') => WResult r (w_file s') (w_ops s')
      end
    end
  | Err e => WResult (Err e) f []
  | Panic q => WResult (Panic q) f []
  | Fuel => WResult Fuel f []
  end.

(** [Tag::write_to_path], tag/mod.rs 111-114: a freshly opened file. *)
Definition write_tag (cap : N) (fuel : nat) (m : mode) (atoms : list atom_data) (f : bytes) : wresult :=
  write_tag_to cap fuel m atoms f 0.
