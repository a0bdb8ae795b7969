(** [write_tag_to] with every system call: the reader is a [BufReader] on the file that the writer uses, too, so
    that both move the same cursor (mod.rs 357, 456).

    [Fault.v] has one event for the scan and one for reading a table; here each call has its own. *)

From Coq Require Import List NArith ZArith Bool.
From Verif Require Import Base Utf Types Stream Parse Find Write Fault ReadIO BufRead.
Import ListNotations.
Local Open Scope io_scope.

(** mod.rs 356-453: the text of [prepare] in [Write.v] up to [read_to_end], as a program of reader operations. *)
Definition io_locate (fuel : nat) (m : mode) (atoms : list atom_data) : IO plan :=
  sc <- io_scan fuel m ;;
  let mb := fst sc in
  let udta := vb_udta mb in
  let meta := match udta with Some u => ub_meta u | None => None end in
  let hdlr := match meta with Some e => eb_hdlr e | None => None end in
  let ilst := match meta with Some e => eb_ilst e | None => None end in
  let new_hdlr := match hdlr with None => Some meta_hdlr | Some _ => None end in
  d0 <- match ilst with
        | Some b =>
          e <- io_lift (bounds_end m b) ;;
          d <- io_lift (subi m 0 (as_i64 (sz_len (b_size b)))) ;;
          io_ret (b_pos b, e, d)
        | None => io_ret (0, 0, 0%Z)
        end ;;
  let '(start0, moved0, diff0) := d0 in
  d1 <- match meta with
        | Some e =>
          match ilst with
          | None => s <- io_lift (bounds_end m (eb_bounds e)) ;; io_ret (s, s)
          | Some _ => io_ret (start0, moved0)
          end
        | None => io_ret (start0, moved0)
        end ;;
  d2 <- match udta with
        | Some u =>
          match meta with
          | None => s <- io_lift (bounds_end m (ub_bounds u)) ;; io_ret (s, s)
          | Some _ => io_ret d1
          end
        | None => s <- io_lift (bounds_end m (vb_bounds mb)) ;; io_ret (s, s)
        end ;;
  let update :=
    vb_bounds mb ::
    match udta with Some u => [ub_bounds u] | None => [] end ++
    match meta with Some e => [eb_bounds e] | None => [] end in
  let new :=
    match udta, meta with
    | None, _ => NUdta (NewMeta new_hdlr atoms)
    | Some _, None => NMeta (NewMeta new_hdlr atoms)
    | Some _, Some _ => NIlst new_hdlr atoms
    end in
  diff <- io_lift (addi m diff0 (as_i64 (new_atoms_len new))) ;;
  old_len <- io_seek_end ;;
  moved_len <- io_lift (sub64 m old_len (snd d2)) ;;
  if two63 <=? moved_len then io_lift (Panic PCapacity) else
  io_seek_start (snd d2) ;;;
  io_ret (Plan mb (snd sc) (fst d2) (snd d2) diff update new old_len []).

Definition with_moved (p : plan) (d : bytes) : plan :=
  Plan (pl_moov p) (pl_mdat_pos p) (pl_start p) (pl_moved_start p) (pl_diff p) (pl_update p) (pl_new p) (pl_old_len p) d.

(** Reading a table through the reader, mod.rs 466-467, 477-478.  The first operation is a seek, which discards what
    the reader holds; [n_table_reader] says that what it held makes no difference.  The cursor of the file is left
    where the reader has read up to. *)
Definition n_table (rcap : N) (m : mode) (wide : bool) (sz : size) (q : N) : F (N * list N) :=
  fun s =>
    match buf_run3 rcap (io_table_at wide m sz q) (f_ev s) (w_file (f_w s)) (BReader (w_cur (f_w s)) []) with
    | (r, ev, b) => (r, Fst (at_cursor (f_w s) (br_pos b)) ev)
    end.

Definition n_execute (rcap cap : N) (m : mode) (p : plan) : F unit :=
  g_execute F fret fbind flift (f_write cap) f_seek f_seek_cur f_flush f_set_len (n_table rcap) m p.

(** [write_tag_to], mod.rs 355-526.  [rcap] and [cap] are the capacities of reader and writer, 8192 in std; [sizes]
    and [last] are the sizes std asks for in [read_to_end].  Dropping the writer flushes its buffer, ignoring
    errors. *)
Definition fine_write (ev : list event) (rcap cap : N) (sizes : list N) (last : N) (fuel : nat) (m : mode)
           (atoms : list atom_data) (f : bytes) (pos : N) : fresult :=
  match buf_run3 rcap (io_locate fuel m atoms) ev f (BReader pos []) with
  | (Done (Ok p), ev1, b1) =>
    match br_read_to_end sizes last f ev1 b1 with
    | (Done (Ok moved), ev2) =>
      match n_execute rcap cap m (with_moved p moved) (Fst (Wst f (pl_moved_start p + blen moved) [] []) ev2) with
      | (r, s) => match f_flush s with
                  | (_, s') => FResult r (w_file (f_w s'))
                  end
      end
    | (Done (Err e), _) => FResult (Done (Err e)) f
    | (Done (Panic q), _) => FResult (Done (Panic q)) f
    | (Done Fuel, _) => FResult (Done Fuel) f
    | (DeviceError, _) => FResult DeviceError f
    end
  | (Done (Err e), _, _) => FResult (Done (Err e)) f
  | (Done (Panic q), _, _) => FResult (Done (Panic q)) f
  | (Done Fuel, _, _) => FResult (Done Fuel) f
  | (DeviceError, _, _) => FResult DeviceError f
  end.
