(** [write_tag_to] (mod.rs 355-526) on a file that other programs change also while it is being read: for C97.

    [Interfere.v] starts when the file has been read. Here the others have a turn before each call of the operating system
    that reading makes, too: the scan (mod.rs 356-453) is the program [io_locate] of [FineWrite.v] run through the buffer of
    [SharedBuf.v], and then comes [read_to_end] (mod.rs 454). Simplified as in [Interfere.v]: each table is read without
    a turn in between (not so in [SharedTables.v]). The writer starts at the beginning of the file and not where the reader is; it seeks before it
    writes (C49). *)

From Coq Require Import List NArith ZArith Bool.
From Verif Require Import Base Utf Types Stream Parse Find Write Fault ReadIO LookSpec SharedBuf FineWrite Interfere.
Import ListNotations.
Local Open Scope list_scope.

(** [read_to_end] of the file, as [br_to_end] of [BufRead.v]: [read] until nothing is delivered. [calls] bounds the calls
    (others could append for ever). *)
Fixpoint sb_to_end (calls : nat) (sizes : list N) (last : N) (s : sbuf) (got : bytes) : res bytes * sbuf :=
  match calls with
  | O => (Fuel, s)
  | S k =>
    let '(n, r) := match sizes with [] => (last, []) | n :: r => (n, r) end in
    match sb_sys_read s n with
    | ([], t) => (Ok got, t)
    | (x, t) => sb_to_end k r last t (got ++ x)
    end
  end.
(** What is in the buffer comes first. *)
Definition sb_read_to_end (calls : nat) (sizes : list N) (last : N) (s : sbuf) : res bytes * sbuf :=
  sb_to_end calls sizes last (SBuf (sb_others s) (sb_file s) (sb_pos s) [] (sb_short s)) (sb_buf s).

(** From [Interfere.shared_write]: what happens when the plan is made. *)
Definition shared_execute (others : list (bytes -> bytes)) (cap : N) (m : mode) (p : plan) (f : bytes) : sresult :=
  match x_execute cap m p (Xst (Wst f 0 [] []) others) with
  | (r, s) => match x_flush s with (_, s') => SResult r (rest (x_others s') (w_file (x_w s'))) end
  end.
Definition gave_up {A} (r : res A) (s : sbuf) : sresult :=
  SResult (match r with Ok _ => Ok tt | Err e => Err e | Panic q => Panic q | Fuel => Fuel end) (rest (sb_others s) (sb_file s)).

(** [write_tag_to]. [rcap] and [cap] are the capacities of reader and writer. *)
Definition full_write (others : list (bytes -> bytes)) (short : list N) (rcap cap : N) (sizes : list N) (last : N) (calls fuel : nat) (m : mode)
    (atoms : list atom_data) (f : bytes) : sresult :=
  match sb_run rcap (io_locate fuel m atoms) (SBuf others f 0 [] short) with
  | (Ok p, s) =>
    match sb_read_to_end calls sizes last s with
    | (Ok moved, t) => shared_execute (sb_others t) cap m (with_moved p moved) (sb_file t)
    | (r, t) => gave_up r t
    end
  | (r, s) => gave_up r s
  end.

(** * For the statements *)

(** The scan looks at the byte at [i]. *)
Definition scanned (fuel : nat) (m : mode) (f : bytes) (i : N) : Prop := exists y, In y (looked (trail (io_scan fuel m) f 0)) /\ covers y i.
