(** [write_tag_to] on a device whose system calls can fail, store less than asked for, or be
    interrupted, and with the cursor of the [File] that reader and writer share.

    The text of the program is that of [Write.v], as a function of the operations of the writer; with
    the operations of [Write.v] it is the program of [Write.v] ([program_is_execute]). *)

From Coq Require Import List NArith ZArith Bool.
From Verif Require Import Base Utf Types Stream Parse Find Write.
Import ListNotations.

(** * The program *)

Section Program.
  Context (M : Type -> Type) (ret_ : forall A, A -> M A) (bind_ : forall A B, M A -> (A -> M B) -> M B)
          (lift_ : forall A, res A -> M A) (write_ : bytes -> M unit) (seek_ : N -> M unit)
          (seek_cur_ : Z -> M unit) (flush_ : M unit) (set_len_ : N -> M unit) (table_ : mode -> bool -> size -> N -> M (N * list N)%type).
  Arguments ret_ {A}. Arguments bind_ {A B}. Arguments lift_ {A}.

  (** [new_atoms.write(&mut writer)?]: the buffers in turn. *)
  Fixpoint g_chunks (l : list bytes) : M unit :=
    match l with
    | [] => ret_ tt
    | d :: r => bind_ (write_ d) (fun _ => g_chunks r)
    end.
  Definition g_out {A} (o : Out A) : M A := bind_ (g_chunks (fst o)) (fun _ => lift_ (snd o)).

  (** mod.rs 470-473, 481-484. *)
  Fixpoint g_offsets (m : mode) (wide : bool) (diff : Z) (l : list N) : M unit :=
    match l with
    | [] => ret_ tt
    | co :: r =>
      bind_ (lift_ (addi m (as_i64 co) diff)) (fun v =>
      bind_ (write_ (if wide then be64 (i_as_u64 v) else be32 (i_as_u32 v))) (fun _ =>
      g_offsets m wide diff r))
    end.
  (** mod.rs 465-486. *)
  Definition g_table (m : mode) (wide : bool) (diff : Z) (b : bounds) : M unit :=
    bind_ (lift_ (content_pos m b)) (fun cp =>
    bind_ (table_ m wide (b_size b) cp) (fun t =>
    bind_ (seek_ (fst t)) (fun _ =>
    bind_ (g_offsets m wide diff (snd t)) (fun _ =>
    flush_)))).
  Definition g_stbl (m : mode) (diff : Z) (sb : stbl_bounds) : M unit :=
    bind_ match sb_stco sb with Some b => g_table m false diff b | None => ret_ tt end (fun _ =>
    match sb_co64 sb with Some b => g_table m true diff b | None => ret_ tt end).
  Fixpoint g_traks (m : mode) (diff : Z) (l : list trak_bounds) : M unit :=
    match l with
    | [] => ret_ tt
    | t :: r =>
      bind_ match trak_stbl t with Some sb => g_stbl m diff sb | None => ret_ tt end (fun _ =>
      g_traks m diff r)
    end.
  (** mod.rs 491-501. *)
  Definition g_update (m : mode) (diff : Z) (b : bounds) : M unit :=
    bind_ (lift_ (addi m (as_i64 (sz_len (b_size b))) diff)) (fun new_len =>
    bind_ (seek_ (b_pos b)) (fun _ =>
    if sz_ext (b_size b) then
      bind_ (write_ (be32 1)) (fun _ =>
      bind_ (seek_cur_ 4) (fun _ =>
      write_ (be64 (i_as_u64 new_len))))
    else write_ (be32 (i_as_u32 new_len)))).
  Fixpoint g_update_all (m : mode) (diff : Z) (l : list bounds) : M unit :=
    match l with
    | [] => ret_ tt
    | b :: r => bind_ (g_update m diff b) (fun _ => g_update_all m diff r)
    end.
  (** mod.rs 456-526. *)
  Definition g_execute (m : mode) (p : plan) : M unit :=
    bind_ (if b_pos (vb_bounds (pl_moov p)) <? pl_mdat_pos p
           then g_traks m (pl_diff p) (vb_trak (pl_moov p)) else ret_ tt) (fun _ =>
    bind_ (g_update_all m (pl_diff p) (pl_update p)) (fun _ =>
    bind_ (bind_ (lift_ (addi m (as_i64 (pl_old_len p)) (pl_diff p))) (fun n => set_len_ (i_as_u64 n))) (fun _ =>
    bind_ (seek_ (pl_start p)) (fun _ =>
    bind_ (g_out (new_atoms_write m (pl_new p))) (fun _ =>
    bind_ (bind_ (lift_ (addi m (as_i64 (pl_moved_start p)) (pl_diff p))) (fun q => seek_ (i_as_u64 q))) (fun _ =>
    bind_ (write_ (pl_moved p)) (fun _ =>
    flush_))))))).
End Program.

(** With the operations of [Write.v] it is the program of [Write.v]. *)
Definition w_table (m : mode) (wide : bool) (s : size) (q : N) : W (N * list N) :=
  w_read (if wide then co64_parse m s else stco_parse m s) q.
Definition w_execute (cap : N) (m : mode) (p : plan) : W unit :=
  g_execute W (@wret) (@wbind) (@wlift) (bw_write cap) bw_seek_start bw_seek_cur bw_flush file_set_len w_table m p.

Lemma wbind_ext : forall A B (x y : W A) (k l : A -> W B),
  (forall s, x s = y s) -> (forall a s, k a s = l a s) -> forall s, wbind x k s = wbind y l s.
Proof.
  intros A B x y k l H1 H2 s. unfold wbind. rewrite H1. destruct (y s) as [[a|e|q|] s']; auto.
Qed.

Lemma program_is_execute : forall cap m p s, w_execute cap m p s = execute cap m p s.
Proof.
  intros cap m p.
  assert (CH : forall l s, g_chunks W (@wret) (@wbind) (bw_write cap) l s = bw_chunks cap l s).
  { induction l as [|d l IH]; intros s; [reflexivity|]. cbn [g_chunks bw_chunks]. now apply wbind_ext. }
  assert (OF : forall wide diff l s,
            g_offsets W (@wret) (@wbind) (@wlift) (bw_write cap) m wide diff l s = write_offsets cap m wide diff l s).
  { intros wide diff. induction l as [|co l IH]; intros s; [reflexivity|]. cbn [g_offsets write_offsets].
    apply wbind_ext; [reflexivity|]. intros v s'. now apply wbind_ext. }
  assert (TA : forall wide diff b s,
            g_table W (@wret) (@wbind) (@wlift) (bw_write cap) bw_seek_start bw_flush w_table m wide diff b s
            = adjust_table cap m wide diff b s).
  { intros wide diff b s. unfold g_table, adjust_table. apply wbind_ext; [reflexivity|]. intros cp s1.
    apply wbind_ext; [reflexivity|]. intros t s2. apply wbind_ext; [reflexivity|]. intros _ s3.
    apply wbind_ext; [apply OF|reflexivity]. }
  assert (TR : forall diff l s,
            g_traks W (@wret) (@wbind) (@wlift) (bw_write cap) bw_seek_start bw_flush w_table m diff l s
            = adjust_traks cap m diff l s).
  { intros diff. induction l as [|t l IH]; intros s; [reflexivity|]. cbn [g_traks adjust_traks].
    apply wbind_ext; [|intros _; exact IH]. destruct (trak_stbl t) as [sb|]; [|reflexivity].
    intros s1. unfold g_stbl, adjust_stbl. apply wbind_ext.
    - destruct (sb_stco sb); [apply TA|reflexivity].
    - intros _. destruct (sb_co64 sb); [apply TA|reflexivity]. }
  assert (UP : forall diff l s,
            g_update_all W (@wret) (@wbind) (@wlift) (bw_write cap) bw_seek_start bw_seek_cur m diff l s
            = update_all cap m diff l s).
  { intros diff. induction l as [|b l IH]; intros s; [reflexivity|]. cbn [g_update_all update_all].
    apply wbind_ext; [reflexivity|intros _; exact IH]. }
  intros s. unfold w_execute, g_execute, execute.
  apply wbind_ext; [intros s1; destruct (_ <? _); [apply TR|reflexivity]|]. intros _ s1.
  apply wbind_ext; [apply UP|]. intros _ s2.
  apply wbind_ext; [reflexivity|]. intros _ s3.
  apply wbind_ext; [reflexivity|]. intros _ s4.
  apply wbind_ext; [|reflexivity].
  intros s5. unfold g_out, bw_out. apply wbind_ext; [apply CH|reflexivity].
Qed.

(** * The device *)

(** What happens to the next system call.  [Fine]: it succeeds.  [Short n]: a write stores [n + 1]
    bytes only.  [Again]: a write is interrupted before anything is stored.  [Broken]: it fails.
    [c] is where the cursor of the file is after reading. *)
Inductive event := Fine (c : N) | Short (n : nat) | Again | Broken (c : N).

(** When the list is used up all calls succeed. *)
Definition next (ev : list event) : event * list event :=
  match ev with [] => (Fine 0, []) | e :: r => (e, r) end.

(** [Write::write_all] on a [File], and the loop of [BufWriter::flush_buf] (both in std): repeat
    [write] until everything is stored, ignoring interruptions.  Returns what is left of the events,
    the pieces stored by the calls and the bytes not stored. *)
Fixpoint dev_write (ev : list event) (d : bytes) : list event * list bytes * bytes :=
  match d with
  | [] => (ev, [], [])
  | _ =>
    match ev with
    | [] => ([], [d], [])
    | Fine _ :: r => (r, [d], [])
    | Short n :: r =>
      match dev_write r (skipn (S n) d) with
      | (ev', l, rest) => (ev', firstn (S n) d :: l, rest)
      end
    | Again :: r => dev_write r d
    | Broken _ :: r => (r, [], d)
    end
  end.

(** The calls that store the pieces one after the other. *)
Fixpoint store (s : wst) (l : list bytes) : wst :=
  match l with
  | [] => s
  | d :: r => store (Wst (write_at (w_file s) (w_cur s) d) (w_cur s + blen d) (w_buf s)
                         (w_ops s ++ [OWrite (w_cur s) d])) r
  end.

(** * The writer *)

Inductive outcome (A : Type) := Done (r : res A) | DeviceError.
Arguments Done {A}. Arguments DeviceError {A}.

Record fst' := Fst { f_w : wst; f_ev : list event }.
Definition F (A : Type) := fst' -> outcome A * fst'.

Definition fret (A : Type) (a : A) : F A := fun s => (Done (Ok a), s).
Definition fbind (A B : Type) (x : F A) (k : A -> F B) : F B :=
  fun s => match x s with
           | (Done (Ok a), s') => k a s'
           | (Done (Err e), s') => (Done (Err e), s')
           | (Done (Panic p), s') => (Done (Panic p), s')
           | (Done Fuel, s') => (Done Fuel, s')
           | (DeviceError, s') => (DeviceError, s')
           end.
Definition flift (A : Type) (r : res A) : F A := fun s => (Done r, s).

Definition with_buf (s : wst) (b : bytes) : wst := Wst (w_file s) (w_cur s) b (w_ops s).

(** [File::write_all]. *)
Definition f_write_all (d : bytes) : F unit :=
  fun s => match dev_write (f_ev s) d with
           | (ev, l, rest) =>
             (match rest with [] => Done (Ok tt) | _ => DeviceError end, Fst (store (f_w s) l) ev)
           end.
(** [BufWriter::flush_buf]: what could not be stored stays in the buffer. *)
Definition f_flush : F unit :=
  fun s => match dev_write (f_ev s) (w_buf (f_w s)) with
           | (ev, l, rest) =>
             (match rest with [] => Done (Ok tt) | _ => DeviceError end,
              Fst (with_buf (store (f_w s) l) rest) ev)
           end.
(** [BufWriter::write_all]. *)
Definition f_push (d : bytes) : F unit :=
  fun s => (Done (Ok tt), Fst (with_buf (f_w s) (w_buf (f_w s) ++ d)) (f_ev s)).
Definition f_write (cap : N) (d : bytes) : F unit :=
  fun s =>
    fbind _ _ (if cap <? blen (w_buf (f_w s)) + blen d then f_flush else fret _ tt)
      (fun _ => if cap <=? blen d then f_write_all d else f_push d) s.
(** [lseek]. *)
Definition f_move (t : Z) : F unit :=
  fun s =>
    if ((0 <=? t) && (t <? Z.of_N two63))%Z then
      match next (f_ev s) with
      | (Broken _, ev) => (DeviceError, Fst (f_w s) ev)
      | (_, ev) => (Done (Ok tt), Fst (Wst (w_file (f_w s)) (Z.to_N t) (w_buf (f_w s)) (w_ops (f_w s))) ev)
      end
    else (Done (Err EIoSeek), s).
Definition f_seek (q : N) : F unit := fbind _ _ f_flush (fun _ => f_move (Z.of_N q)).
Definition f_seek_cur (d : Z) : F unit :=
  fbind _ _ f_flush (fun _ s => f_move (Z.of_N (w_cur (f_w s)) + d) s).
(** [ftruncate]. *)
Definition f_set_len (n : N) : F unit :=
  fun s =>
    if n <? two63 then
      match next (f_ev s) with
      | (Broken _, ev) => (DeviceError, Fst (f_w s) ev)
      | (_, ev) => (Done (Ok tt), Fst (Wst (set_length (w_file (f_w s)) n) (w_cur (f_w s)) (w_buf (f_w s))
                                           (w_ops (f_w s) ++ [OSetLen n])) ev)
      end
    else (Done (Err EIoSeek), s).
(** Reading through the [BufReader]: the cursor of the file ends up somewhere. *)
Definition at_cursor (s : wst) (c : N) : wst := Wst (w_file s) c (w_buf s) (w_ops s).
Definition f_read (A : Type) (r : R A) (q : N) : F A :=
  fun s =>
    match next (f_ev s) with
    | (Broken c, ev) => (DeviceError, Fst (at_cursor (f_w s) c) ev)
    | (e, ev) =>
      let s' := Fst (at_cursor (f_w s) (match e with Fine c => c | _ => 0 end)) ev in
      if q <? two63 then
        match r (w_file (f_w s)) q with
        | Ok (a, _) => (Done (Ok a), s')
        | Err e => (Done (Err e), s')
        | Panic p => (Done (Panic p), s')
        | Fuel => (Done Fuel, s')
        end
      else (Done (Err EIoSeek), s')
    end.

Definition f_table (m : mode) (wide : bool) (s : size) (q : N) : F (N * list N) :=
  f_read _ (if wide then co64_parse m s else stco_parse m s) q.

Definition f_execute (cap : N) (m : mode) (p : plan) : F unit :=
  g_execute F fret fbind flift (f_write cap) f_seek f_seek_cur f_flush f_set_len f_table m p.

(** * [write_tag_to], mod.rs 356-526 *)

Record fresult := FResult { fr_res : outcome unit; fr_file : bytes }.

(** The scan is one event: it has no effect on the file however often and wherever it fails.
    Dropping the writer flushes its buffer whatever happened before; errors are ignored. *)
Definition faulty_write (ev : list event) (cap : N) (fuel : nat) (m : mode) (atoms : list atom_data)
           (f : bytes) (pos : N) : fresult :=
  match next ev with
  | (Broken _, _) => FResult DeviceError f
  | (e, ev') =>
    match prepare fuel m atoms f pos with
    | Ok (p, _) =>
      match f_execute cap m p (Fst (Wst f (match e with Fine c => c | _ => 0 end) [] []) ev') with
      | (r, s) => match f_flush s with
                  | (_, s') => FResult r (w_file (f_w s'))
                  end
      end
    | Err e => FResult (Done (Err e)) f
    | Panic q => FResult (Done (Panic q)) f
    | Fuel => FResult (Done Fuel) f
    end
  end.
