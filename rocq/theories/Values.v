(** The methods of values and images that the tag methods do not use: src/atom/data.rs, src/types.rs, src/atom/mod.rs. *)

From Coq Require Import List NArith Bool.
From Verif Require Import Base Utf Types.
Import ListNotations.

(** * data.rs *)

(** [Data::is_reserved], data.rs 166-168. *)
Definition data_is_reserved (d : data) : bool := match d with DReserved _ => true | _ => false end.
(** [Data::is_utf8], data.rs 171-173. *)
Definition data_is_utf8 (d : data) : bool := match d with DUtf8 _ => true | _ => false end.
(** [Data::is_utf16], data.rs 176-178. *)
Definition data_is_utf16 (d : data) : bool := match d with DUtf16 _ => true | _ => false end.
(** [Data::is_jpeg], data.rs 181-183. *)
Definition data_is_jpeg (d : data) : bool := match d with DJpeg _ => true | _ => false end.
(** [Data::is_png], data.rs 186-188. *)
Definition data_is_png (d : data) : bool := match d with DPng _ => true | _ => false end.
(** [Data::is_be_signed], data.rs 191-193. *)
Definition data_is_be_signed (d : data) : bool := match d with DBeSigned _ => true | _ => false end.
(** [Data::is_bmp], data.rs 196-198. *)
Definition data_is_bmp (d : data) : bool := match d with DBmp _ => true | _ => false end.

(** [Data::reserved], data.rs 310-315. *)
Definition data_reserved (d : data) : option bytes := match d with DReserved v => Some v | _ => None end.
(** [Data::utf8], data.rs 318-323. *)
Definition data_utf8 (d : data) : option ustring := match d with DUtf8 s => Some s | _ => None end.
(** [Data::utf16], data.rs 326-331. *)
Definition data_utf16 (d : data) : option ustring := match d with DUtf16 s => Some s | _ => None end.
(** [Data::jpeg], data.rs 334-339. *)
Definition data_jpeg (d : data) : option bytes := match d with DJpeg v => Some v | _ => None end.
(** [Data::png], data.rs 342-347. *)
Definition data_png (d : data) : option bytes := match d with DPng v => Some v | _ => None end.
(** [Data::be_signed], data.rs 350-355. *)
Definition data_be_signed (d : data) : option bytes := match d with DBeSigned v => Some v | _ => None end.
(** [Data::bmp], data.rs 358-363. *)
Definition data_bmp (d : data) : option bytes := match d with DBmp v => Some v | _ => None end.

(** * types.rs *)

(** [Img::bmp], [Img::jpeg], [Img::png], types.rs 383-395. *)
Definition img_bmp (v : bytes) : img := Img FBmp v.
Definition img_jpeg (v : bytes) : img := Img FJpeg v.
Definition img_png (v : bytes) : img := Img FPng v.
(** [ImgFmt::is_bmp], [is_jpeg], [is_png], types.rs 411-423. *)
Definition fmt_is_bmp (t : img_fmt) : bool := match t with FBmp => true | _ => false end.
Definition fmt_is_jpeg (t : img_fmt) : bool := match t with FJpeg => true | _ => false end.
Definition fmt_is_png (t : img_fmt) : bool := match t with FPng => true | _ => false end.

(** * mod.rs *)

(** [AtomData::is_empty], mod.rs 185-187. *)
Definition ad_is_empty (a : atom_data) : bool :=
  match ad_data a with [] => true | _ => forallb data_is_empty (ad_data a) end.
