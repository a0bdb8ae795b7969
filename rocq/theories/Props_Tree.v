(** Theorems about the tag that is read from an arbitrary file: C67 (see properties.jsonl). *)

From Coq Require Import List NArith ZArith Bool Lia Arith String.
From Coq Require Import ZifyBool ZifyNat ZifyN.
From Verif Require Import Base BaseLemmas Utf Types Stream Parse TagSpec FileSpec FailSpec PanicSpec ErrSpec LayoutSpec TreeSpec TreeProofs ReadCalm Props_ReadErr Props_Exact.
Import ListNotations.
Local Open Scope list_scope.

(** * C67: the tag that is read is the one the boxes of the file say *)

(** Whatever file is read, the result is what its boxes say, by the specification; unless it has one of the flaws that
    make the reader panic in the checked profile. *)
Theorem C67_tag_as : forall fuel m f t, blen f < 2 ^ 62 -> read_tag fuel m f = Ok t -> flaw f \/ holds f t.
Proof. exact read_holds. Qed.
Print Assumptions C67_tag_as.

(** The boxes of a file say at most one tag. *)
Theorem C67_only : forall f t t', holds f t -> holds f t' -> t = t'.
Proof. exact holds_det. Qed.
Print Assumptions C67_only.

(** So a tag is read from a file without flaws if and only if its boxes say it and there is no cause for an error. *)
Theorem C67_exact : forall m f t, blen f < 2 ^ 62 -> ~ flaw f -> (reads m f (Ok t) <-> holds f t /\ forall ns e s, ~ cause f ns e s).
Proof.
  intros m f t L NF. destruct (C64_exact m f L NF) as (r & R & X & _). split.
  - intros R'. assert (r = Ok t). { destruct R as [n R], R' as [n' R']. rewrite <- (R (n + n')%nat ltac:(lia)). apply R'. lia. } subst r. split; [|apply X; now exists t].
    destruct R as [n R]. destruct (C67_tag_as n m f t L (R n (le_n n))) as [F|H]; [contradiction|exact H].
  - intros [H N]. destruct (proj2 X N) as [t' ->]. assert (E : holds f t'). { destruct R as [n R']. destruct (C67_tag_as n m f t' L (R' n (le_n n))) as [F|Y]; [contradiction|exact Y]. }
    now rewrite (C67_only _ _ _ H E).
Qed.
Print Assumptions C67_exact.

(** ** Example *)

(** A file with several boxes of most kinds, and with a box that is larger than the boxes around it say. *)
Definition of_size (id : string) (n : N) (c : bytes) : bytes := be 4 n ++ fc_bytes (id4 id) ++ c.
Definition bx (id : string) (c : bytes) : bytes := of_size id (8 + blen c) c.
Definition val (n : N) (c : bytes) : bytes := bx "data" (be 4 n ++ be 4 0 ++ c).
Definition txt (c : N) : bytes := be 4 0 ++ be 1 c.
Definition item_list : bytes :=
  bx "ilst" (bx "----" (bx "mean" (txt 97) ++ val 1 (be 1 65) ++ bx "mean" (txt 98) ++ bx "name" (txt 99) ++ bx "cool" [] ++ val 2 (be 3 16896)) ++ bx "free" (be 2 0) ++
             bx "trkn" (val 0 (be 2 1)) ++ bx "----" (val 13 (be 1 7) ++ bx "name" (txt 99) ++ bx "mean" (txt 98))).
Definition stream : bytes :=
  bx "esds" (be 4 0 ++ [n2b 3; n2b 40] ++ be 3 0 ++ ([n2b 4; n2b 17] ++ be 5 0 ++ be 4 11 ++ be 4 12 ++ [n2b 5; n2b 2; n2b 18; n2b 16]) ++ ([n2b 4; n2b 13] ++ be 5 0 ++ be 4 21 ++ be 4 22)).
Definition track : bytes := bx "trak" (bx "mdia" (bx "minf" (bx "stbl" (bx "stsd" (be 8 1 ++ bx "mp4a" (be 28 0 ++ stream)))))).
Definition odd : bytes :=
  bx "ftyp" (fc_bytes (id4 "M4A ")) ++ bx "free" [] ++
  of_size "moov" (8 + 28 + 29 + 8 + blen track)
    (bx "mvhd" (be 4 0 ++ be 8 0 ++ be 4 600 ++ be 4 7) ++ of_size "udta" 29 (of_size "meta" 21 (be 4 0 ++ item_list)) ++ bx "trak" [] ++ track).
Example C67_example : ~ flaw odd /\
  let t := Tag [77; 52; 65; 32] (AudioInfo (Some 11666666) (Some Stereo) (Some Hz44100) (Some 21) (Some 22))
             [AtomData (IFreeform [98] [99]) [DUtf8 [65]; DUtf16 [66]; DJpeg (be 1 7)]; AtomData (IFourcc (id4 "trkn")) [DReserved (be 2 1)]] in
  reads Wrapping odd (Ok t) /\ holds odd t /\ forall ns e s, ~ cause odd ns e s.
Proof.
  assert (F : ~ flaw odd) by (apply (calm_no_flaw 200); vm_compute; reflexivity). split; [exact F|]. intros t.
  assert (E : read_tag 30 Checked odd = Ok t) by (vm_compute; reflexivity).
  assert (L : blen odd < 2 ^ 62) by (vm_compute; reflexivity).
  destruct (C67_tag_as _ _ _ _ L E) as [X|H]; [contradiction|].
  assert (N : forall ns e s, ~ cause odd ns e s) by (intros ns e s C; apply F; eapply C64_read_without_cause; [exact L|exact E|exact C]).
  split; [|split; [exact H|exact N]]. apply C67_exact; [exact L|exact F|]. split; [exact H|exact N].
Qed.
