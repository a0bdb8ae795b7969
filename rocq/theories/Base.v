(** Bytes, results and machine arithmetic shared by the whole model.

    Everything here models the Rust language or its standard library rather than a
    particular file of the crate; where a definition exists because of a construct of
    the crate, the place is cited. *)

From Coq Require Import List NArith ZArith Lia Bool Arith.
From Coq Require Import Init.Byte.
From Coq Require Strings.Byte.
Import ListNotations.

Global Open Scope N_scope.

Global Arguments N.add : simpl never.
Global Arguments N.sub : simpl never.
Global Arguments N.mul : simpl never.
Global Arguments N.pow : simpl never.
Global Arguments N.modulo : simpl never.
Global Arguments N.div : simpl never.
Global Arguments N.leb : simpl never.
Global Arguments N.ltb : simpl never.
Global Arguments N.eqb : simpl never.
Global Arguments N.to_nat : simpl never.
Global Arguments N.of_nat : simpl never.
Global Arguments Z.add : simpl never.
Global Arguments Z.sub : simpl never.
Global Arguments Z.mul : simpl never.
Global Arguments Z.of_N : simpl never.
Global Arguments Z.to_N : simpl never.
Global Arguments Z.modulo : simpl never.
Global Arguments Z.div : simpl never.
Global Arguments Z.leb : simpl never.
Global Arguments Z.ltb : simpl never.
Global Arguments Z.pow : simpl never.

(** * Bytes *)

(** A Rust [u8]. *)
Definition byte := Byte.byte.
(** A Rust [Vec<u8>], [&[u8]] or file content. *)
Definition bytes := list byte.

(** [u8 as u64] etc. *)
Definition b2n (b : byte) : N := Byte.to_N b.
(** [n as u8]: keeps the low 8 bits. *)
Definition n2b (n : N) : byte :=
  match Byte.of_N (n mod 256) with Some b => b | None => x00 end.

Definition byte_eqb (a b : byte) : bool := Byte.eqb a b.

(** [Vec::len] as a [u64]/[usize]. *)
Definition blen {A} (l : list A) : N := N.of_nat (length l).

(** Big-endian encoding in [k] bytes, [uN::to_be_bytes] (bits above [8*k] are dropped, as
    a preceding [as uN] cast does). *)
Fixpoint be (k : nat) (v : N) : bytes :=
  match k with
  | O => []
  | S k' => n2b (v / 256 ^ N.of_nat k') :: be k' v
  end.

(** Big-endian decoding, [uN::from_be_bytes]. *)
Definition unbe (l : bytes) : N := fold_left (fun a b => a * 256 + b2n b) l 0.

Definition be16 := be 2.
Definition be32 := be 4.
Definition be64 := be 8.

(** [n] bytes of [f] from position [p]. *)
Definition slice (f : bytes) (p n : N) : bytes :=
  firstn (N.to_nat n) (skipn (N.to_nat p) f).

Definition zeros (n : N) : bytes := repeat x00 (N.to_nat n).

Fixpoint bytes_eqb (a b : bytes) : bool :=
  match a, b with
  | [], [] => true
  | x :: a', y :: b' => byte_eqb x y && bytes_eqb a' b'
  | _, _ => false
  end.

(** * Four character codes *)

(** src/atom/ident.rs 166-171: [Fourcc([u8; 4])]. *)
Record fourcc := FourCC { fc0 : byte; fc1 : byte; fc2 : byte; fc3 : byte }.

Definition fourcc_eqb (a b : fourcc) : bool :=
  byte_eqb (fc0 a) (fc0 b) && byte_eqb (fc1 a) (fc1 b)
  && byte_eqb (fc2 a) (fc2 b) && byte_eqb (fc3 a) (fc3 b).

Definition fc_bytes (a : fourcc) : bytes := [fc0 a; fc1 a; fc2 a; fc3 a].

(** * Outcomes *)

(** src/error.rs 10-39 [ErrorKind], without the data that invalid text carries; descriptions are in
    Described.v.  [Io] keeps which
    of the two I/O failures possible in the model happened: end of file in [read_exact], or
    seeking to an offset that is negative or does not fit 63 bits. *)
Inductive err : Type :=
| EAtomNotFound (f : fourcc)
| EDescriptorNotFound (t : N)
| EParsing
| ENoTag
| EUnknownChannelConfig (n : N)
| EUnknownDataType (n : N)
| EUnknownMediaType (n : N)
| EUnknownVersion (n : N)
| EUtf8
| EUtf16
| EUnwritableData
| EIoEof
| EIoSeek.

(** Reasons for which Rust code reached from the public API panics. *)
Inductive panic : Type :=
| POverflow   (* arithmetic overflow with overflow checks enabled (debug profile) *)
| PDivZero    (* division by zero, in both profiles *)
| PCapacity.  (* [Vec] capacity overflow, in both profiles *)

(** [Fuel] is not a Rust outcome: it says that the evaluation was cut off after the number
    of loop iterations given to the evaluator. *)
Inductive res (A : Type) : Type :=
| Ok (a : A)
| Err (e : err)
| Panic (p : panic)
| Fuel.
Arguments Ok {A}. Arguments Err {A}. Arguments Panic {A}. Arguments Fuel {A}.

Definition rbind {A B} (x : res A) (f : A -> res B) : res B :=
  match x with
  | Ok a => f a
  | Err e => Err e
  | Panic p => Panic p
  | Fuel => Fuel
  end.

(** * Machine integers *)

(** Build profile: overflow checks on (debug) or off (release). *)
Inductive mode := Checked | Wrapping.

Definition two32 : N := 4294967296.
Definition two63 : N := 9223372036854775808.
Definition two64 : N := 18446744073709551616.

(** [a + b] on [u64]. *)
Definition add64 (m : mode) (a b : N) : res N :=
  if a + b <? two64 then Ok (a + b)
  else match m with Checked => Panic POverflow | Wrapping => Ok ((a + b) mod two64) end.

(** [a - b] on [u64]. *)
Definition sub64 (m : mode) (a b : N) : res N :=
  if b <=? a then Ok (a - b)
  else match m with Checked => Panic POverflow | Wrapping => Ok ((a + two64 - b) mod two64) end.

(** [a * b] on [u64]. *)
Definition mul64 (m : mode) (a b : N) : res N :=
  if a * b <? two64 then Ok (a * b)
  else match m with Checked => Panic POverflow | Wrapping => Ok ((a * b) mod two64) end.

(** [a / b] on [u64]. *)
Definition div64 (a b : N) : res N :=
  if b =? 0 then Panic PDivZero else Ok (a / b).

(** [a + b] on [u32]. *)
Definition add32 (m : mode) (a b : N) : res N :=
  if a + b <? two32 then Ok (a + b)
  else match m with Checked => Panic POverflow | Wrapping => Ok ((a + b) mod two32) end.

(** [n as u32]. *)
Definition as_u32 (n : N) : N := n mod two32.

(** [n as i64] for a [u64]. *)
Definition as_i64 (n : N) : Z :=
  if n <? two63 then Z.of_N n else (Z.of_N n - Z.of_N two64)%Z.

(** [z as u64] for an [i64]. *)
Definition i_as_u64 (z : Z) : N := Z.to_N (z mod Z.of_N two64).
(** [z as u32] for an [i64]. *)
Definition i_as_u32 (z : Z) : N := Z.to_N (z mod Z.of_N two32).

Definition in_i64 (z : Z) : bool :=
  ((- Z.of_N two63 <=? z) && (z <? Z.of_N two63))%Z.

Definition wrap_i64 (z : Z) : Z := as_i64 (i_as_u64 z).

(** [a + b] on [i64]. *)
Definition addi (m : mode) (a b : Z) : res Z :=
  if in_i64 (a + b) then Ok (a + b)%Z
  else match m with Checked => Panic POverflow | Wrapping => Ok (wrap_i64 (a + b)) end.

(** [a - b] on [i64]. *)
Definition subi (m : mode) (a b : Z) : res Z :=
  if in_i64 (a - b) then Ok (a - b)%Z
  else match m with Checked => Panic POverflow | Wrapping => Ok (wrap_i64 (a - b)) end.
