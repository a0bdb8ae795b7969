(** What bytes mean as text, independent of the model: the tables of chapter 3 of the Unicode standard. *)

From Coq Require Import List NArith.
From Verif Require Import Base.
Import ListNotations.

(** The number written with these binary digits, the most significant first. *)
Definition val (l : list bool) : N := fold_left (fun n (d : bool) => 2 * n + (if d then 1 else 0)) l 0.

Definition bits (k : nat) (l : list bool) : Prop := List.length l = k.

(** Scalar values (D76): code points except surrogates. *)
Definition scalar (c : N) : Prop := c <= 0x10FFFF /\ ~ (0xD800 <= c <= 0xDFFF).

(** UTF-8 (D92, table 3-6), shortest forms of scalar values only. *)
Inductive utf8_char : N -> list N -> Prop :=
| U8_1 : forall x, bits 7 x -> utf8_char (val x) [val ([false] ++ x)]
| U8_2 : forall y x, bits 5 y -> bits 6 x -> 0x80 <= val (y ++ x) ->
    utf8_char (val (y ++ x)) [val ([true; true; false] ++ y); val ([true; false] ++ x)]
| U8_3 : forall z y x, bits 4 z -> bits 6 y -> bits 6 x -> 0x800 <= val (z ++ y ++ x) -> scalar (val (z ++ y ++ x)) ->
    utf8_char (val (z ++ y ++ x)) [val ([true; true; true; false] ++ z); val ([true; false] ++ y); val ([true; false] ++ x)]
| U8_4 : forall u v z y x, bits 3 u -> bits 2 v -> bits 4 z -> bits 6 y -> bits 6 x ->
    0x10000 <= val (u ++ v ++ z ++ y ++ x) -> scalar (val (u ++ v ++ z ++ y ++ x)) ->
    utf8_char (val (u ++ v ++ z ++ y ++ x))
      [val ([true; true; true; true; false] ++ u); val ([true; false] ++ v ++ z); val ([true; false] ++ y); val ([true; false] ++ x)].

(** UTF-16 with the more significant byte first (D91, D97, table 3-5). *)
Inductive utf16_char : N -> list N -> Prop :=
| U16_1 : forall h l, bits 8 h -> bits 8 l -> scalar (val (h ++ l)) -> utf16_char (val (h ++ l)) [val h; val l]
| U16_2 : forall u w1 w2 a b1 b2, bits 5 u -> bits 2 w1 -> bits 2 w2 -> bits 6 a -> bits 2 b1 -> bits 8 b2 ->
    val u = val (w1 ++ w2) + 1 ->
    utf16_char (val (u ++ a ++ b1 ++ b2))
      [val ([true; true; false; true; true; false] ++ w1); val (w2 ++ a); val ([true; true; false; true; true; true] ++ b1); val b2].

(** A text is the sequence of its characters. *)
Inductive spelt (char : N -> list N -> Prop) : list N -> list N -> Prop :=
| Sp_nil : spelt char [] []
| Sp_cons : forall c l s r, char c l -> spelt char s r -> spelt char (c :: s) (l ++ r).

Definition utf8 : list N -> list N -> Prop := spelt utf8_char.
Definition utf16 : list N -> list N -> Prop := spelt utf16_char.

(** Table 3-7: the well-formed sequences of UTF-8, a range for each byte. *)
Definition table_3_7 : list (list (N * N)) :=
  [[(0x00, 0x7F)];
   [(0xC2, 0xDF); (0x80, 0xBF)];
   [(0xE0, 0xE0); (0xA0, 0xBF); (0x80, 0xBF)];
   [(0xE1, 0xEC); (0x80, 0xBF); (0x80, 0xBF)];
   [(0xED, 0xED); (0x80, 0x9F); (0x80, 0xBF)];
   [(0xEE, 0xEF); (0x80, 0xBF); (0x80, 0xBF)];
   [(0xF0, 0xF0); (0x90, 0xBF); (0x80, 0xBF); (0x80, 0xBF)];
   [(0xF1, 0xF3); (0x80, 0xBF); (0x80, 0xBF); (0x80, 0xBF)];
   [(0xF4, 0xF4); (0x80, 0x8F); (0x80, 0xBF); (0x80, 0xBF)]].
Definition in_row (r : list (N * N)) (l : list N) : Prop := Forall2 (fun x b => fst x <= b <= snd x) r l.
Inductive well_formed : list N -> Prop :=
| Wf_nil : well_formed []
| Wf_app : forall r l rest, In r table_3_7 -> in_row r l -> well_formed rest -> well_formed (l ++ rest).

(** The numbers of bytes. *)
Definition numbers (l : bytes) : list N := map b2n l.
