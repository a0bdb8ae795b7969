(** [write_tag_to] (mod.rs 355-526) on a file that other programs change, also while chunk offset tables are read: for C97.

    As [SharedScan.full_write], but the reader of mod.rs 466-467 and 477-478 is that of [SharedBuf.v], too: the others have a turn before
    each of its calls, and each call delivers as many bytes as it likes. Seeking discards what it held (its position
    before does not matter). The writer seeks before it writes, so the position that the reader leaves does not matter. *)

From Coq Require Import List NArith ZArith Bool.
From Verif Require Import Base Utf Types Stream Parse Find Write Fault ReadIO BufRead LookSpec SharedBuf FineWrite Interfere SharedScan.
Import ListNotations.
Local Open Scope list_scope.

(** The writer, the others, and how many bytes the next calls that read deliver. *)
Definition yst : Type := xst * list N.
Definition Y (A : Type) := yst -> res A * yst.
Definition yret (A : Type) (a : A) : Y A := fun s => (Ok a, s).
Definition ybind (A B : Type) (c : Y A) (k : A -> Y B) : Y B :=
  fun s => match c s with
           | (Ok a, s') => k a s'
           | (Err e, s') => (Err e, s')
           | (Panic p, s') => (Panic p, s')
           | (Fuel, s') => (Fuel, s')
           end.
Definition ylift (A : Type) (r : res A) : Y A := fun s => (r, s).
(** The operations that do not read. *)
Definition up {A} (c : X A) : Y A := fun s => match c (fst s) with (r, x) => (r, (x, snd s)) end.
(** mod.rs 466-467, 477-478. *)
Definition y_table (rcap : N) (m : mode) (wide : bool) (sz : size) (q : N) : Y (N * list N) :=
  fun s =>
    match sb_run rcap (io_table_at wide m sz q) (SBuf (x_others (fst s)) (w_file (x_w (fst s))) 0 [] (snd s)) with
    | (r, t) => (r, (Xst (with_file (x_w (fst s)) (sb_file t)) (sb_others t), sb_short t))
    end.

Definition y_execute (rcap cap : N) (m : mode) (p : plan) : Y unit :=
  g_execute Y yret ybind ylift (fun d => up (x_write cap d)) (fun q => up (x_seek q)) (fun d => up (x_seek_cur d)) (up x_flush) (fun n => up (x_set_len n)) (y_table rcap) m p.
Definition whole_execute (others : list (bytes -> bytes)) (short : list N) (rcap cap : N) (m : mode) (p : plan) (f : bytes) : sresult :=
  match y_execute rcap cap m p (Xst (Wst f 0 [] []) others, short) with
  | (r, (s, _)) => match x_flush s with (_, s') => SResult r (rest (x_others s') (w_file (x_w s'))) end
  end.

(** [write_tag_to]. *)
Definition whole_write (others : list (bytes -> bytes)) (short : list N) (rcap cap : N) (sizes : list N) (last : N) (calls fuel : nat) (m : mode)
    (atoms : list atom_data) (f : bytes) : sresult :=
  match sb_run rcap (io_locate fuel m atoms) (SBuf others f 0 [] short) with
  | (Ok p, s) =>
    match sb_read_to_end calls sizes last s with
    | (Ok moved, t) => whole_execute (sb_others t) (sb_short t) rcap cap m (with_moved p moved) (sb_file t)
    | (r, t) => gave_up r t
    end
  | (r, s) => gave_up r s
  end.
