(** Specification of what writing costs: how many bytes are handed to the device, in how many calls. *)

From Coq Require Import List NArith ZArith Bool String.
From Verif Require Import Base Types Utf TagSpec FileSpec FailSpec PanicSpec Write OutSpec LayoutSpec WOutSpec.
Import ListNotations.

(** The bytes handed to the device by [calls]. *)
Definition handed (calls : list fop) : N := fold_right N.add 0 (map (fun c => match c with OWrite _ d => blen d | OSetLen _ => 0 end) calls).
Definition sum (l : list N) : N := fold_right N.add 0 l.

(** The bytes of the size of the box [n], of the entries of the table [n]. *)
Definition size_bytes (n : node) : N := if n_head n =? 16 then 12 else 4.
Definition entry_bytes (n : node) : N := n_size n - n_head n - 8.
(** The tables that are changed: those of all tracks if the media data is behind the movie. *)
Definition changed (ns : list node) : list node := if adjusts ns then map snd (tables_of ns) else [].
(** The bytes of a write to [f] that goes to the end, where the rest of the file starts at [e]: tables, sizes, the new boxes,
    and the rest of the file, whether it is moved or not. *)
Definition cost (m : mode) (f : bytes) (items : list atom_data) (ns : list node) (mo : node) (e : N) : N :=
  sum (map entry_bytes (changed ns)) + sum (map size_bytes (around mo)) + blen (poured m (pieces items mo)) + (blen f - e).
(** How often the writer goes to another place, at most. *)
Definition moves (ns : list node) (mo : node) : N := 2 * N.of_nat (List.length (changed ns)) + 2 * N.of_nat (List.length (around mo)) + 5.
