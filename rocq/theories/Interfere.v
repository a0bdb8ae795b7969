(** [write_tag_to] (mod.rs 355-526) on a file that other programs change at the same time.

    The program is that of [Fault.v] ([g_execute]).  Before each call of the operating system that stores bytes, sets the
    length or reads a chunk offset table the others have a turn, in which they do anything to the contents of the file.
    Simplified: the file is read (scan and [read_to_end], mod.rs 356-454) without a turn of the others in between, and
    so is each table. [SharedScan.v] and [SharedTables.v] are without these simplifications. *)

From Coq Require Import List NArith ZArith Bool.
From Verif Require Import Base Utf Types Stream Parse Find Write Fault.
Import ListNotations.

(** The writer and what the others do in their next turns. *)
Record xst := Xst { x_w : wst; x_others : list (bytes -> bytes) }.
Definition X (A : Type) := xst -> res A * xst.
Definition xret (A : Type) (a : A) : X A := fun s => (Ok a, s).
Definition xbind (A B : Type) (c : X A) (k : A -> X B) : X B :=
  fun s => match c s with
           | (Ok a, s') => k a s'
           | (Err e, s') => (Err e, s')
           | (Panic p, s') => (Panic p, s')
           | (Fuel, s') => (Fuel, s')
           end.
Definition xlift (A : Type) (r : res A) : X A := fun s => (r, s).

Definition with_file (w : wst) (f : bytes) : wst := Wst f (w_cur w) (w_buf w) (w_ops w).
(** One turn. *)
Definition x_turn (s : xst) : xst :=
  match x_others s with
  | [] => s
  | g :: r => Xst (with_file (x_w s) (g (w_file (x_w s)))) r
  end.
(** Without and with a call of the operating system. *)
Definition x_run {A} (op : W A) : X A := fun s => match op (x_w s) with (r, w) => (r, Xst w (x_others s)) end.
Definition x_call {A} (op : W A) : X A := fun s => x_run op (x_turn s).

(** [bw_flush], [bw_write], [bw_seek_start], [bw_seek_cur], [file_set_len] of [Write.v] and [w_table] of [Fault.v]: the
    writer of std, mod.rs 456 and std::io::BufWriter; [File::set_len]; the reader, mod.rs 466-467, 477-478. *)
Definition x_flush : X unit := fun s => match w_buf (x_w s) with [] => x_run bw_flush s | _ => x_call bw_flush s end.
Definition x_write (cap : N) (d : bytes) : X unit :=
  fun s =>
    let s1 := if cap <? blen (w_buf (x_w s)) + blen d then snd (x_flush s) else s in
    if cap <=? blen d then x_call (os_write d) s1
    else (Ok tt, Xst (Wst (w_file (x_w s1)) (w_cur (x_w s1)) (w_buf (x_w s1) ++ d) (w_ops (x_w s1))) (x_others s1)).
Definition x_seek (q : N) : X unit := xbind _ _ x_flush (fun _ => x_run (bw_seek_start q)).
Definition x_seek_cur (d : Z) : X unit := xbind _ _ x_flush (fun _ => x_run (bw_seek_cur d)).
Definition x_set_len (n : N) : X unit := x_call (file_set_len n).
Definition x_table (m : mode) (wide : bool) (sz : size) (q : N) : X (N * list N) := x_call (w_table m wide sz q).

Definition x_execute (cap : N) (m : mode) (p : plan) : X unit :=
  g_execute X xret xbind xlift (x_write cap) x_seek x_seek_cur x_flush x_set_len x_table m p.

(** The remaining turns, when the writer is done. *)
Definition rest (others : list (bytes -> bytes)) (f : bytes) : bytes := fold_left (fun x g => g x) others f.

Record sresult := SResult { sr_res : res unit; sr_file : bytes }.
Definition shared_write (others : list (bytes -> bytes)) (cap : N) (fuel : nat) (m : mode) (atoms : list atom_data) (f : bytes) : sresult :=
  match prepare fuel m atoms f 0 with
  | Ok (p, _) =>
    match x_execute cap m p (Xst (Wst f 0 [] []) others) with
    | (r, s) => match x_flush s with (_, s') => SResult r (rest (x_others s') (w_file (x_w s'))) end
    end
  | Err e => SResult (Err e) (rest others f)
  | Panic q => SResult (Panic q) (rest others f)
  | Fuel => SResult Fuel (rest others f)
  end.
