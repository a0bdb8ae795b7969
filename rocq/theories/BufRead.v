(** [std::io::BufReader] around a [File], as used by [Tag::read_from_path] (tag/mod.rs 99) and
    [write_tag_to] (atom/mod.rs 357), and the programs of [ReadIO.v] on it.  The crate uses [read_exact], [seek]
    and [read_to_end] of it. *)

From Coq Require Import List NArith ZArith Bool.
From Verif Require Import Base Utf Types Stream Parse Find Write Fault ReadIO.
Import ListNotations.

(** The cursor of the file, and the bytes in the buffer that are not used yet. *)
Record breader := BReader { br_pos : N; br_buf : bytes }.

(** One call of [read] for [n] bytes at the cursor of a file.  It delivers what there is ([Fine]), fewer
    bytes, but not none ([Short]), or it is interrupted or fails. *)
Inductive delivery := Got (b : bytes) | Interrupted | Failed.
Definition sys_read (ev : list event) (f : bytes) (q n : N) : delivery * list event :=
  match ev with
  | [] => (Got (slice f q n), [])
  | Fine _ :: r => (Got (slice f q n), r)
  | Short j :: r => (Got (slice f q (N.min n (N.of_nat (S j)))), r)
  | Again :: r => (Interrupted, r)
  | Broken _ :: r => (Failed, r)
  end.

(** [BufReader::read] for [n] bytes: from the buffer; if it is empty then directly for requests as large as the
    capacity, or after filling the buffer. *)
Definition br_read (cap : N) (f : bytes) (ev : list event) (b : breader) (n : N) : delivery * list event * breader :=
  match br_buf b with
  | [] =>
    if cap <=? n then
      match sys_read ev f (br_pos b) n with
      | (Got x, ev') => (Got x, ev', BReader (br_pos b + blen x) [])
      | (d, ev') => (d, ev', b)
      end
    else
      match sys_read ev f (br_pos b) cap with
      | (Got x, ev') => (Got (firstn (N.to_nat n) x), ev', BReader (br_pos b + blen x) (skipn (N.to_nat n) x))
      | (d, ev') => (d, ev', b)
      end
  | x => (Got (firstn (N.to_nat n) x), ev, BReader (br_pos b) (skipn (N.to_nat n) x))
  end.

(** [read_exact]: the loop of std.  [k] limits the number of calls; [br_enough] is never too small. *)
Fixpoint br_loop (k : nat) (cap : N) (f : bytes) (ev : list event) (b : breader) (n : N) (got : bytes)
  : outcome bytes * list event * breader :=
  if n =? 0 then (Done (Ok got), ev, b) else
  match k with
  | O => (Done Fuel, ev, b)
  | S k' =>
    match br_read cap f ev b n with
    | (Got [], ev', b') => (Done (Err EIoEof), ev', b')
    | (Got x, ev', b') => br_loop k' cap f ev' b' (n - blen x) (got ++ x)
    | (Interrupted, ev', b') => br_loop k' cap f ev' b' n got
    | (Failed, ev', b') => (DeviceError, ev', b')
    end
  end.
Definition br_enough (f : bytes) (ev : list event) (b : breader) : nat :=
  S (List.length f + List.length (br_buf b) + List.length ev).
Definition br_read_exact (cap : N) (f : bytes) (ev : list event) (b : breader) (n : N) : outcome bytes * list event * breader :=
  br_loop (br_enough f ev b) cap f ev b n [].

(** [lseek] relative to the cursor. *)
Definition sys_seek_cur (ev : list event) (q : N) (d : Z) : outcome N * list event :=
  match dev_seek ev with
  | (ev', false) => (DeviceError, ev')
  | (ev', true) =>
    let t := (Z.of_N q + d)%Z in
    (Done (if ((0 <=? t) && (t <? Z.of_N two63))%Z then Ok (Z.to_N t) else Err EIoSeek), ev')
  end.
(** [BufReader::seek(SeekFrom::Current(d))]: relative to the cursor of the file, so what is in the buffer is
    subtracted; in two steps if that overflows.  The buffer is discarded. *)
Definition br_seek_cur (ev : list event) (b : breader) (d : Z) : outcome N * list event :=
  let rest := Z.of_N (blen (br_buf b)) in
  if (- Z.of_N two63 <=? d - rest)%Z then sys_seek_cur ev (br_pos b) (d - rest)
  else match sys_seek_cur ev (br_pos b) (- rest) with
       | (Done (Ok q), ev') => sys_seek_cur ev' q d
       | r => r
       end.
(** The other seeks are passed on. *)
Definition sys_seek (ev : list event) (r : res N) : outcome N * list event :=
  match dev_seek ev with
  | (ev', false) => (DeviceError, ev')
  | (ev', true) => (Done r, ev')
  end.

Definition br_sought (x : outcome N * list event) (b : breader) : outcome answer * list event * breader :=
  match x with
  | (Done (Ok q), ev) => (Done (Ok (APos q)), ev, BReader q [])
  | (Done (Err e), ev) => (Done (Err e), ev, b)
  | (Done (Panic p), ev) => (Done (Panic p), ev, b)
  | (Done Fuel, ev) => (Done Fuel, ev, b)
  | (DeviceError, ev) => (DeviceError, ev, b)
  end.
Definition br_answer (x : outcome bytes * list event * breader) : outcome answer * list event * breader :=
  match x with
  | (Done (Ok y), ev, b) => (Done (Ok (ABytes y)), ev, b)
  | (Done (Err e), ev, b) => (Done (Err e), ev, b)
  | (Done (Panic p), ev, b) => (Done (Panic p), ev, b)
  | (Done Fuel, ev, b) => (Done Fuel, ev, b)
  | (DeviceError, ev, b) => (DeviceError, ev, b)
  end.
(** One operation of [ReadIO.v]. *)
Definition br_op (cap : N) (o : io_op) (ev : list event) (f : bytes) (b : breader) : outcome answer * list event * breader :=
  match o with
  | ORead n => br_answer (br_read_exact cap f ev b n)
  | OReadVec n => if two63 <=? n then (Done (Panic PCapacity), ev, b) else br_answer (br_read_exact cap f ev b n)
  | OPosition => br_sought (br_seek_cur ev b 0) b
  | OSeekCur d => br_sought (br_seek_cur ev b d) b
  | OSeekStart q => br_sought (sys_seek ev (if q <? two63 then Ok q else Err EIoSeek)) b
  | OSeekEnd => br_sought (sys_seek ev (Ok (blen f))) b
  end.

(** A program: the outcome, the events not used, and the reader afterwards. *)
Fixpoint buf_run3 {A} (cap : N) (x : IO A) (ev : list event) (f : bytes) (b : breader) : outcome A * list event * breader :=
  match x with
  | Stop r => (Done r, ev, b)
  | Ask o k =>
    match br_op cap o ev f b with
    | (Done (Ok a), ev', b') => buf_run3 cap (k a) ev' f b'
    | (Done (Err e), ev', b') => (Done (Err e), ev', b')
    | (Done (Panic p), ev', b') => (Done (Panic p), ev', b')
    | (Done Fuel, ev', b') => (Done Fuel, ev', b')
    | (DeviceError, ev', b') => (DeviceError, ev', b')
    end
  end.
Definition buf_run {A} (cap : N) (x : IO A) (ev : list event) (f : bytes) (b : breader) : outcome A * list event :=
  fst (buf_run3 cap x ev f b).

(** [read_to_end] (mod.rs 454): what is in the buffer, then [read] until nothing is delivered.  How much is asked
    for in each call is up to std: [sizes], and [last] when the list is used up; none of them is 0. *)
Fixpoint br_to_end (k : nat) (sizes : list N) (last : N) (f : bytes) (ev : list event) (q : N) (got : bytes) : outcome bytes * list event :=
  match k with
  | O => (Done Fuel, ev)
  | S k' =>
    let '(n, r) := match sizes with [] => (last, []) | n :: r => (n, r) end in
    match sys_read ev f q n with
    | (Got [], ev') => (Done (Ok got), ev')
    | (Got x, ev') => br_to_end k' r last f ev' (q + blen x) (got ++ x)
    | (Interrupted, ev') => br_to_end k' r last f ev' q got
    | (Failed, ev') => (DeviceError, ev')
    end
  end.
Definition br_read_to_end (sizes : list N) (last : N) (f : bytes) (ev : list event) (b : breader) : outcome bytes * list event :=
  br_to_end (br_enough f ev b) sizes last f ev (br_pos b) (br_buf b).

(** The reading of a chunk offset table, [Stco::parse_atom] and [Co64::parse_atom] (stco.rs 17-44, co64.rs
    17-44), after [reader.seek(SeekFrom::Start(q))] (mod.rs 466, 477), as a program of reader operations. *)
Local Open Scope io_scope.
Fixpoint io_read_many (k : nat) (r : IO N) : IO (list N) :=
  match k with
  | 0%nat => io_ret []
  | S k' => x <- r ;; l <- io_read_many k' r ;; io_ret (x :: l)
  end.
Definition io_table_parse (w : N) (rd : IO N) (m : mode) (s : size) : IO (N * list N) :=
  vf <- io_parse_full_head ;;
  match fst vf with
  | 0 =>
    entries <- io_read_u32 ;;
    c <- io_lift (content_len m s) ;;
    if negb (8 + w * entries =? c) then io_fail EParsing else
    table_pos <- io_position ;;
    offs <- io_read_many (N.to_nat entries) rd ;;
    io_ret (table_pos, offs)
  | v => io_fail (EUnknownVersion v)
  end.
Definition io_table_at (wide : bool) (m : mode) (s : size) (q : N) : IO (N * list N) :=
  io_seek_start q ;;; (if wide then io_table_parse 8 io_read_u64 m s else io_table_parse 4 io_read_u32 m s).
