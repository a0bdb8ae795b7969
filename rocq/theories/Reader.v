(** Reading from other readers than files.  [Tag::read_from] (tag/mod.rs 93-95) takes any [impl Read + Seek].  What a seek to
    a place behind the end does is up to the reader: [lseek] of a file accepts offsets below 2^63, a file system may accept
    less, [std::io::Cursor] (bytes in memory) accepts all of 64 bits, others refuse places behind their end.

    The programs are those of ReadIO.v; here a reader is its bytes and the places it accepts. *)

From Coq Require Import List NArith ZArith Bool.
From Verif Require Import Base Utf Types Stream Parse ReadIO.
Import ListNotations.

(** The places a seek may go to. *)
Definition places := N -> bool.
(** [File]: [off_t]. *)
Definition file_places : places := fun q => q <? two63.
(** [Cursor]: [checked_add_signed] on 64 bits. *)
Definition memory_places : places := fun q => q <? two64.

(** One operation.  [read_exact] and the two seeks to a place that is known to exist (the current one and the end) do not
    depend on the places. *)
Definition perform_on (P : places) (o : io_op) (f : bytes) (p : N) : res (answer * N) :=
  match o with
  | OSeekCur d => let t := (Z.of_N p + d)%Z in
                  if (0 <=? t)%Z && P (Z.to_N t) then Ok (APos (Z.to_N t), Z.to_N t) else Err EIoSeek
  | OSeekStart s => if P s then Ok (APos s, s) else Err EIoSeek
  | _ => perform o f p
  end.
Fixpoint run_on (P : places) {A} (x : IO A) (f : bytes) (p : N) : res (A * N) :=
  match x with
  | Stop (Ok a) => Ok (a, p)
  | Stop (Err e) => Err e
  | Stop (Panic q) => Panic q
  | Stop Fuel => Fuel
  | Ask o k => match perform_on P o f p with
               | Ok (a, q) => run_on P (k a) f q
               | Err e => Err e
               | Panic q => Panic q
               | Fuel => Fuel
               end
  end.
(** [Tag::read_from] of a reader with the bytes [f] that accepts seeks to the places [P]. *)
Definition read_on (P : places) (fuel : nat) (m : mode) (f : bytes) : res tag :=
  match run_on P (io_read_tag_from fuel m) f 0 with Ok (t, _) => Ok t | Err e => Err e | Panic q => Panic q | Fuel => Fuel end.
