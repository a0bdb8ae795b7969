(** Readers: a file content and a position.  Models [impl Read + Seek] as used by the crate:
    [Read::read_exact] and [Seek::seek] of [BufReader<File>] / [Cursor]. *)

From Coq Require Import List NArith ZArith Bool.
From Verif Require Import Base Utf Types.
Import ListNotations.

(** A reader computation: content and position to an outcome and a new position.
    After [Err] or [Panic] the position is not modelled: no caller in the crate continues. *)
Definition R (A : Type) := bytes -> N -> res (A * N).

Definition ret {A} (a : A) : R A := fun _ p => Ok (a, p).
Definition fail {A} (e : err) : R A := fun _ _ => Err e.
Definition lift {A} (r : res A) : R A :=
  fun _ p => match r with Ok a => Ok (a, p) | Err e => Err e | Panic q => Panic q | Fuel => Fuel end.
Definition bind {A B} (x : R A) (k : A -> R B) : R B :=
  fun f p => match x f p with
             | Ok (a, p') => k a f p'
             | Err e => Err e
             | Panic q => Panic q
             | Fuel => Fuel
             end.
Definition outOfFuel {A} : R A := fun _ _ => Fuel.

Declare Scope r_scope.
Notation "x <- a ;; b" := (bind a (fun x => b)) (at level 61, a at next level, right associativity) : r_scope.
Notation "a ;;; b" := (bind a (fun _ => b)) (at level 61, right associativity) : r_scope.
Global Open Scope r_scope.

(** [Read::read_exact] with a buffer of [n] bytes: reads exactly [n] bytes or fails with
    [UnexpectedEof]; reading 0 bytes succeeds at any position. *)
Definition read_exact (n : N) : R bytes :=
  fun f p =>
    if n =? 0 then Ok ([], p)
    else if p + n <=? blen f then Ok (slice f p n, p + n)
    else Err EIoEof.

(** [seek(SeekFrom::Current(d))]: fails for targets that are negative or do not fit an [off_t]
    (lseek: EINVAL/EOVERFLOW).  Seeking past the end is allowed. *)
Definition seek_cur (d : Z) : R unit :=
  fun _ p =>
    let t := (Z.of_N p + d)%Z in
    if ((0 <=? t) && (t <? Z.of_N two63))%Z then Ok (tt, Z.to_N t) else Err EIoSeek.

(** [seek(SeekFrom::Start(q))]; an offset of 2^63 or more is negative as [off_t]. *)
Definition seek_start (q : N) : R unit :=
  fun _ _ => if q <? two63 then Ok (tt, q) else Err EIoSeek.

(** [seek(SeekFrom::Current(0))] used to query the position. *)
Definition position : R N := fun _ p => Ok (p, p).
(** [seek(SeekFrom::End(0))]. *)
Definition seek_end : R N := fun f _ => Ok (blen f, blen f).

(** ** ReadData, src/atom/data.rs 437-491 *)

(** [read_u8], data.rs 439-443. *)
Definition read_u8 : R N := b <- read_exact 1 ;; ret (unbe b).
(** [read_u16], data.rs 446-450. *)
Definition read_u16 : R N := b <- read_exact 2 ;; ret (unbe b).
(** [read_u32], data.rs 453-457. *)
Definition read_u32 : R N := b <- read_exact 4 ;; ret (unbe b).
(** [read_u64], data.rs 460-464. *)
Definition read_u64 : R N := b <- read_exact 8 ;; ret (unbe b).

(** [read_u8_vec], data.rs 467-471.  [vec![0; len]] panics with "capacity overflow" above
    [isize::MAX]; smaller allocations are assumed to succeed. *)
Definition read_u8_vec (len : N) : R bytes :=
  if two63 <=? len then lift (Panic PCapacity) else read_exact len.

(** [read_utf8], data.rs 474-478. *)
Definition read_utf8 (len : N) : R ustring :=
  d <- read_u8_vec len ;;
  match dec8 d with Some s => ret s | None => fail EUtf8 end.

(** [read_utf16], data.rs 481-490. *)
Definition read_utf16 (len : N) : R ustring :=
  d <- read_u8_vec len ;;
  match dec16 (bytes_units d) with Some s => ret s | None => fail EUtf16 end.

(** [remaining_stream_len], data.rs 496-504. *)
Definition remaining_stream_len (m : mode) : R N :=
  cur <- position ;;
  total <- seek_end ;;
  len <- lift (sub64 m total cur) ;;
  seek_start cur ;;;
  ret len.
