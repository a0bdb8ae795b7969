(** Reading while other programs change the file, for C96: [Tag::read_from] (tag/mod.rs 93-95, atom/mod.rs 299-353) on
    a [File], which has no buffer. Before every read and every seek the others have a turn, in which they do anything to
    the contents of the file; the position belongs to the reader and stays. Simplified: a read of several bytes sees one
    state of the file. [read_from_path] (tag/mod.rs 98-101), where a [BufReader] keeps bytes that the others may have
    changed meanwhile, is in [SharedBuf.v]. *)

From Coq Require Import List NArith.
From Verif Require Import Base Types Stream FileSpec ChunkSpec ReadIO LookSpec.
Import ListNotations.
Local Open Scope list_scope.

(** The program of [ReadIO.v] on a file that is shared: the result, the turns that are left and the file then. *)
Fixpoint shared_run {A} (x : IO A) (others : list (bytes -> bytes)) (f : bytes) (p : N) : res (A * N) * (list (bytes -> bytes) * bytes) :=
  match x with
  | Stop (Ok a) => (Ok (a, p), (others, f))
  | Stop (Err e) => (Err e, (others, f))
  | Stop (Panic q) => (Panic q, (others, f))
  | Stop Fuel => (Fuel, (others, f))
  | Ask o k =>
    let g := match others with [] => f | t :: _ => t f end in
    match perform o g p with
    | Ok (a, q) => shared_run (k a) (tl others) g q
    | Err e => (Err e, (tl others, g))
    | Panic q => (Panic q, (tl others, g))
    | Fuel => (Fuel, (tl others, g))
    end
  end.

Definition shared_read (others : list (bytes -> bytes)) (fuel : nat) (m : mode) (f : bytes) : res tag :=
  match fst (shared_run (io_read_tag_from fuel m) others f 0) with
  | Ok (t, _) => Ok t | Err e => Err e | Panic q => Panic q | Fuel => Fuel
  end.

(** * For the statements *)

(** The file after [n] turns. *)
Definition after (others : list (bytes -> bytes)) (s : bytes) (n : nat) : bytes := fold_left (fun x g => g x) (firstn n others) s.

(** What each operation reads or passes. *)
Fixpoint steps {A} (x : IO A) (f : bytes) (p : N) : list (list stretch) :=
  match x with
  | Stop _ => []
  | Ask o k => match perform o f p with
               | Ok (a, q) => op_stretch o p q :: steps (k a) f q
               | _ => []
               end
  end.

(** Operation number [i] sees the bytes it reads as they are in [b]. *)
Definition sees_same (l : list (list stretch)) (b : bytes) (others : list (bytes -> bytes)) (s : bytes) : Prop :=
  forall i z y j, nth_error l i = Some z -> In y (looked z) -> covers y j -> nth_error (after others s (S i)) (N.to_nat j) = nth_error b (N.to_nat j).

(** What must stay: the bytes of interest. *)
Definition intact (f : list atom) (k : nat) (x : bytes) : Prop :=
  forall i, of_interest f k i -> nth_error x (N.to_nat i) = nth_error (render_all f) (N.to_nat i).

(** The others keep what is so. *)
Definition keeping (inv : bytes -> Prop) (others : list (bytes -> bytes)) : Prop := Forall (fun g => forall x, inv x -> inv (g x)) others.
