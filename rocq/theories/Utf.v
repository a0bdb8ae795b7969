(** Unicode strings.  A Rust [String] is a list of Unicode scalar values (Rust [char]s).
    These definitions model the standard library conversions the crate calls:
    [str::as_bytes]/[str::len] (data.rs 135, 393; mod.rs 177, 280), [String::from_utf8]
    (data.rs 477), [str::encode_utf16] (data.rs 136, 396), [String::from_utf16] (data.rs 489). *)

From Coq Require Import List NArith Bool.
From Verif Require Import Base.
Import ListNotations.

(** A Rust [String]. *)
Definition ustring := list N.

(** Unicode scalar values: code points except surrogates (the values of Rust's [char]). *)
Definition is_scalar (c : N) : bool :=
  (c <? 55296) || ((57343 <? c) && (c <? 1114112)).

(** Type invariant of Rust's [String]. *)
Definition wf_ustr (s : ustring) : bool := forallb is_scalar s.

Fixpoint ustr_eqb (a b : ustring) : bool :=
  match a, b with
  | [], [] => true
  | x :: a', y :: b' => (x =? y) && ustr_eqb a' b'
  | _, _ => false
  end.

(** * UTF-8 *)

(** [char::encode_utf8]. *)
Definition enc8_char (c : N) : bytes :=
  if c <? 128 then [n2b c]
  else if c <? 2048 then [n2b (192 + c / 64); n2b (128 + c mod 64)]
  else if c <? 65536 then [n2b (224 + c / 4096); n2b (128 + (c / 64) mod 64); n2b (128 + c mod 64)]
  else [n2b (240 + c / 262144); n2b (128 + (c / 4096) mod 64); n2b (128 + (c / 64) mod 64); n2b (128 + c mod 64)].

(** [str::as_bytes]. *)
Definition enc8 (s : ustring) : bytes := concat (map enc8_char s).

(** Continuation byte. *)
Definition is_cont (b : N) : bool := (127 <? b) && (b <? 192).

Definition ocons {A} (x : A) (o : option (list A)) : option (list A) :=
  match o with Some l => Some (x :: l) | None => None end.

(** [String::from_utf8]: the standard library validates according to table 3-7 of the Unicode
    standard (core/src/str/validations.rs, run_utf8_validation). *)
Fixpoint dec8 (l : bytes) : option ustring :=
  match l with
  | [] => Some []
  | b0 :: r0 =>
    let c0 := b2n b0 in
    if c0 <? 128 then ocons c0 (dec8 r0)
    else if (193 <? c0) && (c0 <? 224) then
      match r0 with
      | b1 :: r1 =>
        let c1 := b2n b1 in
        if is_cont c1 then ocons ((c0 - 192) * 64 + (c1 - 128)) (dec8 r1) else None
      | _ => None
      end
    else if (223 <? c0) && (c0 <? 240) then
      match r0 with
      | b1 :: b2 :: r2 =>
        let c1 := b2n b1 in let c2 := b2n b2 in
        if is_cont c1 && is_cont c2
           && (if c0 =? 224 then 159 <? c1 else if c0 =? 237 then c1 <? 160 else true)
        then ocons ((c0 - 224) * 4096 + (c1 - 128) * 64 + (c2 - 128)) (dec8 r2) else None
      | _ => None
      end
    else if (239 <? c0) && (c0 <? 245) then
      match r0 with
      | b1 :: b2 :: b3 :: r3 =>
        let c1 := b2n b1 in let c2 := b2n b2 in let c3 := b2n b3 in
        if is_cont c1 && is_cont c2 && is_cont c3
           && (if c0 =? 240 then 143 <? c1 else if c0 =? 244 then c1 <? 144 else true)
        then ocons ((c0 - 240) * 262144 + (c1 - 128) * 4096 + (c2 - 128) * 64 + (c3 - 128)) (dec8 r3)
        else None
      | _ => None
      end
    else None
  end.

(** * UTF-16 *)

(** [char::encode_utf16]: code units. *)
Definition enc16_char (c : N) : list N :=
  if c <? 65536 then [c] else [55296 + (c - 65536) / 1024; 56320 + (c - 65536) mod 1024].

(** [str::encode_utf16]. *)
Definition enc16 (s : ustring) : list N := concat (map enc16_char s).

(** The bytes written for a UTF-16 string: each unit [to_be_bytes] (data.rs 396-398). *)
Definition units_bytes (u : list N) : bytes := concat (map be16 u).

(** [buf.chunks_exact(2).map(from_be_bytes)] (data.rs 486-487); an odd last byte is dropped. *)
Fixpoint bytes_units (l : bytes) : list N :=
  match l with
  | a :: b :: r => unbe [a; b] :: bytes_units r
  | _ => []
  end.

(** [String::from_utf16]: unpaired surrogates are errors. *)
Fixpoint dec16 (u : list N) : option ustring :=
  match u with
  | [] => Some []
  | c :: r =>
    if (c <? 55296) || (57343 <? c) then ocons c (dec16 r)
    else if c <? 56320 then
      match r with
      | d :: r' => if (56319 <? d) && (d <? 57344)
                   then ocons (65536 + (c - 55296) * 1024 + (d - 56320)) (dec16 r')
                   else None
      | [] => None
      end
    else None
  end.
