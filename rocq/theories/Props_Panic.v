(** Theorems about the causes of panics in reading: C13 (see properties.jsonl). *)

From Coq Require Import List NArith ZArith Bool Lia String.
From Coq Require Import ZifyBool ZifyNat ZifyN.
From Verif Require Import Base BaseLemmas Types Stream Parse TagSpec FileSpec FailSpec PanicSpec PanicProofs.
Import ListNotations.
Local Open Scope list_scope.

(** * C13: reading never panics *)

(** Not true as it stands (C13_zero_timescale_refuted, C13_short_value_refuted).  Missing for the whole claim is
    exactly the seven flaws: on any byte string, in both build profiles, reading panics only if one of the boxes
    or descriptors it looks at has one. *)
Theorem C13_causes_partial : forall fuel m f p, blen f < 2 ^ 62 -> read_tag fuel m f = Panic p -> flaw f.
Proof.
  intros fuel m f p L E. destruct (post_read_tag m f L fuel) as [F|F]; [exact F|]. exfalso. unfold read_tag in E.
  destruct (read_tag_from fuel m f 0) as [[t q]|e|x|]; try discriminate. exact F.
Qed.
Print Assumptions C13_causes_partial.

(** Each of the seven happens, so none can be left out. *)
Definition bx (id : string) (c : bytes) : bytes := be 4 (8 + blen c) ++ fc_bytes (id4 id) ++ c.
Definition ft : bytes := bx "ftyp" (fc_bytes (id4 "M4A ")).
Definition item (c : bytes) : bytes := bx "moov" (bx "udta" (bx "meta" (be 4 0 ++ bx "ilst" (bx "(c)n" c)))).
Definition entry (c : bytes) : bytes := bx "moov" (bx "trak" (bx "mdia" (bx "minf" (bx "stbl" (bx "stsd" (be 8 1 ++ bx "mp4a" (be 28 0 ++ c))))))).
Definition bad_odd : bytes := ft ++ be 4 1 ++ fc_bytes (id4 "free") ++ be 8 15.
Definition bad_value : bytes := ft ++ item (bx "data" (be 4 1) ++ be 4 0).
Definition bad_text : bytes := ft ++ item (bx "mean" [] ++ be 4 0).
Definition bad_mvhd : bytes := ft ++ bx "moov" (bx "mvhd" (be 4 0 ++ be 8 0 ++ be 4 0 ++ be 4 7)).
Definition bad_esds : bytes := ft ++ entry (bx "esds" (be 4 0) ++ [n2b 3; n2b 0]).
Definition bad_config : bytes := ft ++ entry (bx "esds" (be 4 0 ++ [n2b 3; n2b 22] ++ be 3 0 ++ [n2b 4; n2b 17] ++ be 13 0 ++ [n2b 5; n2b 1] ++ be 2 0)).
Definition bad_long : bytes := ft ++ entry (bx "esds" (be 4 0 ++ [n2b 3; n2b 100] ++ be 3 0 ++ [n2b 6; n2b 90] ++ be 1 0)).
Example C13_each_happens :
  map (fun f => match read_tag 20 Checked f with Panic p => true | _ => false end) [bad_odd; bad_value; bad_text; bad_mvhd; bad_esds; bad_config; bad_long] =
  [true; true; true; true; true; true; true].
Proof. vm_compute. reflexivity. Qed.

(** And a file without flaws. *)
Definition fine : bytes := ft ++ bx "moov" (bx "mvhd" (be 4 0 ++ be 8 0 ++ be 4 600 ++ be 4 7) ++ bx "free" []).
Lemma fc_inj : forall a b, fc_bytes a = fc_bytes b -> a = b.
Proof. intros [a0 a1 a2 a3] [b0 b1 b2 b3] E. injection E as -> -> -> ->. reflexivity. Qed.
Lemma at_none : forall f q id head size, box_at f q id head size -> q < blen f. 
Proof. intros f q id head size (L & _ & [(_ & -> & _)|(_ & _ & -> & _)]); lia. Qed.
Lemma at_box : forall f q id head size, box_at f q id head size -> field f q 4 <> 1 -> head = 8 /\ size = field f q 4 /\ fc_bytes id = slice f (q + 4) 4.
Proof. intros f q id head size (_ & E & [(C & _)|(_ & _ & -> & ->)]) N; [contradiction|]. rewrite E. auto. Qed.
Lemma fine_looks : forall w q, looks fine w q -> w = [] /\ (q = 0 \/ q = 12) \/ w = [(InMoov, 56)] /\ (q = 20 \/ q = 48 \/ q = 56).
Proof.
  assert (W : blen fine = 56) by (vm_compute; reflexivity).
  assert (I : forall q id head size, box_at fine q id head size -> (q = 0 -> id = id4 "ftyp" /\ head = 8 /\ size = 12) /\
    (q = 12 -> id = id4 "moov" /\ head = 8 /\ size = 44) /\ (q = 20 -> id = id4 "mvhd" /\ head = 8 /\ size = 28) /\ (q = 48 -> id = id4 "free" /\ head = 8 /\ size = 8)).
  { intros q id head size B.
    split; [|split; [|split]]; intros ->; (apply at_box in B; [|vm_compute; discriminate]); destruct B as (-> & -> & E); (split; [|split; vm_compute; reflexivity]);
      apply fc_inj; rewrite E; vm_compute; reflexivity. }
  intros w q H. induction H as [|w q id head size H IH B O|w q id head size l d H IH B O|l e w q H IH N L].
  - left. auto.
  - pose proof (at_none _ _ _ _ _ B) as Q. rewrite W in Q. destruct (I _ _ _ _ B) as (I0 & I1 & I2 & I3). destruct IH as [[-> [-> | ->]]|[-> [-> |[-> | ->]]]].
    + destruct (I0 eq_refl) as (-> & -> & ->). left. auto.
    + destruct (I1 eq_refl) as (-> & -> & ->). vm_compute in O. discriminate.
    + destruct (I2 eq_refl) as (-> & -> & ->). right. auto.
    + destruct (I3 eq_refl) as (-> & -> & ->). right. auto.
    + lia.
  - pose proof (at_none _ _ _ _ _ B) as Q. rewrite W in Q. destruct (I _ _ _ _ B) as (I0 & I1 & I2 & I3). destruct IH as [[-> [-> | ->]]|[-> [-> |[-> | ->]]]].
    + destruct (I0 eq_refl) as (-> & -> & ->). vm_compute in O. discriminate.
    + destruct (I1 eq_refl) as (-> & -> & ->). vm_compute in O. injection O as <- <-. right. auto.
    + destruct (I2 eq_refl) as (-> & -> & ->). vm_compute in O. discriminate.
    + destruct (I3 eq_refl) as (-> & -> & ->). vm_compute in O. discriminate.
    + lia.
  - destruct IH as [[C _]|[C _]]; [discriminate|]. injection C as _ _ ->. contradiction.
Qed.
Example C13_causes_example : ~ flaw fine /\ read_tag 20 Checked fine = Ok (Tag (map (fun c => c) [77; 52; 65; 32]) (AudioInfo (Some 11666666) None None None None) []).
Proof.
  split; [|vm_compute; reflexivity]. assert (E : forall p size a size' d, ~ entry_at fine p size a size' d).
  { intros p size a size' d (w & head & head' & K & Iw & _). apply fine_looks in K. destruct K as [[-> _]|[-> _]]; discriminate. }
  assert (B : forall q id size w, looks fine w q -> ~ box_at fine q id 16 size).
  { intros q id size w K (L & _ & [(C & _)|(_ & _ & C & _)]); [|discriminate]. apply fine_looks in K.
    destruct K as [[_ [-> | ->]]|[_ [-> |[-> | ->]]]]; vm_compute in C; discriminate || (vm_compute in L; congruence). }
  intros F. destruct F as [q id size [[w K]|(p & s & a' & d & K)] Bx _|w q head size K Iw _ _|w q id head size K Iw _ _ _|w q head size K Iw Bx C|p size a size' d n len K _ _|p size a size' d q n len K _ _ _|p size a size' d q K _ _];
    try (eapply E; exact K).
  - eapply B; [exact K|exact Bx].
  - apply fine_looks in K. destruct K as [[-> _]|[-> _]]; discriminate.
  - apply fine_looks in K. destruct K as [[-> _]|[-> _]]; discriminate.
  - apply fine_looks in K. destruct K as [[-> _]|[_ [-> |[-> | ->]]]]; [discriminate| | |].
    + apply at_box in Bx; [|vm_compute; discriminate]. destruct Bx as (-> & -> & _). vm_compute in C. destruct C as [[_ [C|C]]|[C _]]; discriminate.
    + apply at_box in Bx; [|vm_compute; discriminate]. destruct Bx as (_ & _ & Ei). vm_compute in Ei. discriminate.
    + apply at_none in Bx. vm_compute in Bx. discriminate.
Qed.
