(** The sums of lengths with the arithmetic of [u64], which Parse.v and Write.v take without limits. *)

From Coq Require Import List NArith ZArith Bool.
From Verif Require Import Base Utf Types Stream Parse Find Write.
Import ListNotations.

(** [Iterator::sum] of [u64]: additions from the left, from 0 (they are checked if those of the crate are). *)
Fixpoint sum_from (m : mode) (acc : N) (l : list (res N)) : res N :=
  match l with
  | [] => Ok acc
  | x :: r => rbind x (fun n => rbind (add64 m acc n) (fun s => sum_from m s r))
  end.
Definition sum64 (m : mode) (l : list (res N)) : res N := sum_from m 0 l.

(** [AtomData::len], mod.rs 169-182; [Data::len], data.rs 132-142, is a conversion of the length of one allocation. *)
Definition ad_len64 (m : mode) (a : atom_data) : res N :=
  rbind (sum64 m (map (fun d => add64 m 16 (data_len d)) (ad_data a))) (fun data_len =>
  match ad_ident a with
  | IFourcc _ => add64 m 8 data_len
  | IFreeform mean name =>
    rbind (add64 m 12 (blen (enc8 mean))) (fun mean_len =>
    rbind (add64 m 12 (blen (enc8 name))) (fun name_len =>
    rbind (add64 m 8 mean_len) (fun x =>
    rbind (add64 m x name_len) (fun y => add64 m y data_len))))
  end).

(** [Size::from], head.rs 20-27. *)
Definition size_from64 (m : mode) (content_len : N) : res size :=
  rbind (add64 m content_len 8) (fun len =>
  let ext := 4294967295 <? len in
  if ext then rbind (add64 m len 8) (fun len => Ok (Size ext len)) else Ok (Size ext len)).

(** [Ilst::size], ilst.rs 63-66. *)
Definition ilst_size64 (m : mode) (l : list atom_data) : res size := rbind (sum64 m (map (ad_len64 m) l)) (size_from64 m).
(** [Hdlr::size], hdlr.rs 37-39, under [len_or_zero], mod.rs 147-151. *)
Definition hdlr_len64 (m : mode) (h : option bytes) : res N :=
  match h with Some b => rbind (size_from64 m (blen b)) (fun s => Ok (sz_len s)) | None => Ok 0 end.
(** [Meta::size], meta.rs 57-60 (the item list is always present). *)
Definition meta_size64 (m : mode) (x : new_meta) : res size :=
  rbind (hdlr_len64 m (nm_hdlr x)) (fun h =>
  rbind (ilst_size64 m (nm_ilst x)) (fun s =>
  rbind (add64 m h (sz_len s)) (fun c =>
  rbind (add64 m c 4) (size_from64 m)))).
(** [Udta::size], udta.rs 43-45, and [Moov::size], moov.rs 47-49. *)
Definition udta_size64 (m : mode) (x : new_meta) : res size := rbind (meta_size64 m x) (fun s => size_from64 m (sz_len s)).
Definition moov_size64 (m : mode) (x : new_meta) : res size := rbind (udta_size64 m x) (fun s => size_from64 m (sz_len s)).
