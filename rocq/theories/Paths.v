(** [Tag::dump_to] on a device whose calls can fail, and the functions that take a path.

    A file system is a map from paths to contents.  Opening a file is one call, which can fail for other reasons than
    the file not being there; errors of opening and of the device are not distinguished. *)

From Coq Require Import List NArith ZArith Bool.
From Verif Require Import Base Utf Types Stream Parse Find Write Fault ReadIO BufRead FineWrite.
Import ListNotations.

(** * Dumping *)

(** [write_all] of one buffer after the other, on a device that appends: the events not used, what is stored, and
    whether everything is. *)
Fixpoint dev_chunks (ev : list event) (l : list bytes) : list event * bytes * bool :=
  match l with
  | [] => (ev, [], true)
  | d :: r =>
    match dev_write ev d with
    | (ev1, pieces, []) => match dev_chunks ev1 r with
                           | (ev2, c, ok) => (ev2, List.concat pieces ++ c, ok)
                           end
    | (ev1, pieces, _) => (ev1, List.concat pieces, false)
    end
  end.

Record dumped := Dumped { dp_res : outcome unit; dp_left : list event; dp_content : bytes }.

(** [dump_tag_to], atom/mod.rs 530-547 (= [Tag::dump_to], tag/mod.rs 117-119), to an unbuffered writer. *)
Definition faulty_dump (ev : list event) (m : mode) (atoms : list atom_data) : dumped :=
  match dev_chunks ev (fst (dump_tag_to m atoms)) with
  | (ev', c, ok) => Dumped (if ok then Done (snd (dump_tag_to m atoms)) else DeviceError) ev' c
  end.

(** * Paths *)

Definition path := bytes.
Definition file_system := path -> option bytes.
Definition put (s : file_system) (p : path) (c : bytes) : file_system :=
  fun q => if bytes_eqb q p then Some c else s q.

(** [Tag::read_from_path], tag/mod.rs 98-101; [cap] is the capacity of the buffer, 8192 in std. *)
Definition read_from_path (cap : N) (ev : list event) (fuel : nat) (m : mode) (s : file_system) (p : path) : outcome tag :=
  match next ev with
  | (Broken _, _) => DeviceError
  | (_, ev') =>
    match s p with
    | None => DeviceError
    | Some f => fst (buf_run cap (io_read_tag_from fuel m) ev' f (BReader 0 []))
    end
  end.

(** [Tag::write_to_path], tag/mod.rs 111-114: the file is opened for reading and writing, not created.  For [rcap],
    [cap], [sizes] and [last] see [fine_write]. *)
Definition write_to_path (rcap cap : N) (sizes : list N) (last : N) (ev : list event) (fuel : nat) (m : mode) (atoms : list atom_data)
           (s : file_system) (p : path) : outcome unit * file_system :=
  match next ev with
  | (Broken _, _) => (DeviceError, s)
  | (_, ev') =>
    match s p with
    | None => (DeviceError, s)
    | Some f => match fine_write ev' rcap cap sizes last fuel m atoms f 0 with
                | FResult r f' => (r, put s p f')
                end
    end
  end.

(** [Tag::dump_to_path], tag/mod.rs 122-125: [File::create] creates the file or empties it. *)
Definition dump_to_path (ev : list event) (m : mode) (atoms : list atom_data) (s : file_system) (p : path)
  : outcome unit * file_system :=
  match next ev with
  | (Broken _, _) => (DeviceError, s)
  | (_, ev') => match faulty_dump ev' m atoms with
                | Dumped r _ c => (r, put s p c)
                end
  end.
