(** [Tag::read_from_path] (tag/mod.rs 98-101) while other programs change the file: the [BufReader] of [BufRead.v] on the
    file of [SharedRead.v]. The others have a turn before each call of the operating system; what is in the buffer then
    stays there, also if the others change it in the file. A call of [read] may deliver fewer bytes than there are.
    Simplified: calls that are interrupted or fail are in [BufRead.v] only; opening the file is not modelled. *)

From Coq Require Import List NArith ZArith Bool.
From Verif Require Import Base Types Stream ReadIO.
Import ListNotations.
Local Open Scope list_scope.

(** The turns of the others that are left, the file, its cursor, the bytes in the buffer that are not used yet, and how many
    bytes the next calls of [read] deliver at most (all, if the list is used up). *)
Record sbuf := SBuf { sb_others : list (bytes -> bytes); sb_file : bytes; sb_pos : N; sb_buf : bytes; sb_short : list N }.

Definition sb_turn (s : sbuf) : sbuf :=
  SBuf (tl (sb_others s)) (match sb_others s with [] => sb_file s | g :: _ => g (sb_file s) end) (sb_pos s) (sb_buf s) (sb_short s).

(** [File::read] for [n] bytes: at least one, if there is one. *)
Definition sb_sys_read (s : sbuf) (n : N) : bytes * sbuf :=
  let t := sb_turn s in
  let most := match sb_short s with [] => n | k :: _ => N.min n (N.max 1 k) end in
  let x := slice (sb_file t) (sb_pos t) most in
  (x, SBuf (sb_others t) (sb_file t) (sb_pos t + blen x) (sb_buf t) (tl (sb_short t))).
(** [File::seek] to [t], and the buffer is discarded. *)
Definition sb_sys_seek (s : sbuf) (t : Z) : res N * sbuf :=
  let u := sb_turn s in
  if ((0 <=? t) && (t <? Z.of_N two63))%Z then (Ok (Z.to_N t), SBuf (sb_others u) (sb_file u) (Z.to_N t) [] (sb_short u)) else (Err EIoSeek, u).

(** [BufReader::read], as [br_read]. *)
Definition sb_read (cap : N) (s : sbuf) (n : N) : bytes * sbuf :=
  match sb_buf s with
  | [] =>
    if cap <=? n then sb_sys_read s n
    else match sb_sys_read s cap with
         | (x, t) => (firstn (N.to_nat n) x, SBuf (sb_others t) (sb_file t) (sb_pos t) (skipn (N.to_nat n) x) (sb_short t))
         end
  | x => (firstn (N.to_nat n) x, SBuf (sb_others s) (sb_file s) (sb_pos s) (skipn (N.to_nat n) x) (sb_short s))
  end.
(** [read_exact], as [br_loop]; each turn of the loop delivers at least one byte. *)
Fixpoint sb_loop (k : nat) (cap : N) (s : sbuf) (n : N) (got : bytes) : res bytes * sbuf :=
  if n =? 0 then (Ok got, s) else
  match k with
  | O => (Fuel, s)
  | S k' =>
    match sb_read cap s n with
    | ([], t) => (Err EIoEof, t)
    | (x, t) => sb_loop k' cap t (n - blen x) (got ++ x)
    end
  end.
(** [BufReader::seek(SeekFrom::Current(d))], as [br_seek_cur]. *)
Definition sb_seek_cur (s : sbuf) (d : Z) : res N * sbuf :=
  let left := Z.of_N (blen (sb_buf s)) in
  if (- Z.of_N two63 <=? d - left)%Z then sb_sys_seek s (Z.of_N (sb_pos s) + (d - left))
  else match sb_sys_seek s (Z.of_N (sb_pos s) - left) with
       | (Ok q, t) => sb_sys_seek t (Z.of_N q + d)
       | r => r
       end.

Definition sb_answer {A} (f : A -> answer) (x : res A * sbuf) : res answer * sbuf :=
  match x with
  | (Ok a, s) => (Ok (f a), s) | (Err e, s) => (Err e, s) | (Panic p, s) => (Panic p, s) | (Fuel, s) => (Fuel, s)
  end.
(** One operation of [ReadIO.v], as [br_op]. *)
Definition sb_op (cap : N) (o : io_op) (s : sbuf) : res answer * sbuf :=
  match o with
  | ORead n => sb_answer ABytes (sb_loop (N.to_nat n) cap s n [])
  | OReadVec n => if two63 <=? n then (Panic PCapacity, s) else sb_answer ABytes (sb_loop (N.to_nat n) cap s n [])
  | OPosition => sb_answer APos (sb_seek_cur s 0)
  | OSeekCur d => sb_answer APos (sb_seek_cur s d)
  | OSeekStart q => sb_answer APos (sb_sys_seek s (Z.of_N q))
  | OSeekEnd => sb_answer APos (sb_sys_seek s (Z.of_N (blen (sb_file (sb_turn s)))))
  end.
Fixpoint sb_run {A} (cap : N) (x : IO A) (s : sbuf) : res A * sbuf :=
  match x with
  | Stop r => (r, s)
  | Ask o k =>
    match sb_op cap o s with
    | (Ok a, t) => sb_run cap (k a) t
    | (Err e, t) => (Err e, t)
    | (Panic p, t) => (Panic p, t)
    | (Fuel, t) => (Fuel, t)
    end
  end.

(** [Tag::read_from_path], when the file has been opened. *)
Definition shared_read_path (others : list (bytes -> bytes)) (short : list N) (cap : N) (fuel : nat) (m : mode) (f : bytes) : res tag :=
  fst (sb_run cap (io_read_tag_from fuel m) (SBuf others f 0 [] short)).
