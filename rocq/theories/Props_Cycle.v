(** Theorems about files that are read or scanned forever: C78 (see properties.jsonl). *)

From Coq Require Import List NArith ZArith Bool Lia String.
From Coq Require Import ZifyBool ZifyNat ZifyN.
From Verif Require Import Base BaseLemmas Types Utf Stream Parse Find Write TagSpec FileSpec FailSpec PanicSpec WPanicSpec Display Described DescribedWrite ErrSpec FirstSpec OutSpec OutUnique LayoutSpec WOutSpec CycleSpec CycleProofs ReadMore Props_Err Props_First Props_Out Props_WOut.
From Verif Require WOutUnique.
Import ListNotations.
Local Open Scope list_scope.

(** * C78: reading and scanning are endless exactly if they come back to a place, and a fixed number of steps tells *)

(** A number of steps that is enough for all files. *)
Definition ample : nat := (N.to_nat places + N.to_nat spots + N.to_nat (2 ^ 28 + 1))%nat.
Lemma ample_is : forall a b c : N, (N.to_nat a <= N.to_nat a + N.to_nat b + N.to_nat c)%nat /\ (N.to_nat b <= N.to_nat a + N.to_nat b + N.to_nat c)%nat /\
  c <= N.of_nat (N.to_nat a + N.to_nat b + N.to_nat c).
Proof. intros a b c. repeat split; lia. Qed.
Lemma ample_steps : enough_steps ample /\ 2 ^ 28 < N.of_nat ample.
Proof.
  destruct (ample_is places spots (2 ^ 28 + 1)) as (A & B & C). split; [exact (conj A B)|]. apply N.lt_succ_r in C. rewrite <- N.add_1_r in C.
  apply (N.add_lt_mono_r _ _ 1). exact C.
Qed.
Global Opaque ample places spots.

(** A file is read forever if and only if the reader comes back to a place. *)
Theorem C78_reading : forall m f, blen f < 2 ^ 62 -> (never_stops m f <-> comes_back m f).
Proof.
  intros m f L. split; [|apply back_endless]. intros N. exact (busy_back m f L ample (proj1 ample_steps) (N ample)).
Qed.
Print Assumptions C78_reading.
(** The same for the scan of the writer. *)
Theorem C78_scanning : forall m f, blen f < 2 ^ 62 -> (scans_on m f <-> scan_comes_back m f).
Proof.
  intros m f L. split; [|apply scan_back_endless]. intros N. destruct (N ample) as (w & q & C). exact (scan_back m f L _ _ _ (proj1 (proj1 ample_steps)) C).
Qed.
Print Assumptions C78_scanning.

(** So it is decided what happens: reading gets to the end of the movie, is stopped, or comes back, *)
Theorem C78_read_decided : forall m f, blen f < 2 ^ 62 -> arrives_at_end m f \/ (exists ns x, stops_with m f ns x) \/ comes_back m f.
Proof.
  intros m f L. pose proof (out_sound m ample f L) as O. unfold outcome_of in O. destruct (d_read ample m f) as [g|e t|p|].
  - auto.
  - destruct O as (ns & s & S & _). eauto.
  - destruct O as (ns & S). eauto.
  - right. right. exact (busy_back m f L ample (proj1 ample_steps) (O (proj2 ample_steps))).
Qed.
Print Assumptions C78_read_decided.
(** and writing has an outcome, or its scan comes back. *)
Theorem C78_write_decided : forall m items f, blen f < 2 ^ 62 -> (exists o g, write_out m f items o g) \/ scan_comes_back m f.
Proof.
  intros m items f L. destruct (C75_sound 9 ample m items f L ltac:(reflexivity)) as [(o & W & Y)|(_ & w & q & Y)]; [eauto|].
  right. exact (scan_back m f L _ _ _ (proj1 (proj1 ample_steps)) Y).
Qed.
Print Assumptions C78_write_decided.

(** One number of steps is enough for all files: what does not end with it does not end, and more steps change nothing. *)
Theorem C78_steps : exists n, forall m f fuel, blen f < 2 ^ 62 -> (n <= fuel)%nat ->
  d_read fuel m f = d_read n m f /\ forall cap items, 8 < cap -> d_write cap fuel m items f = d_write cap n m items f.
Proof.
  exists ample. destruct ample_steps as [E A]. revert E A. generalize ample. intros n E A m f fuel L Lf.
  assert (Ef : enough_steps fuel) by (destruct E; split; lia). assert (Af : 2 ^ 28 < N.of_nat fuel) by lia. split.
  - destruct (d_read n m f) as [g|e t|p|] eqn:X.
    + pose proof (C63_described n m f) as R1. pose proof (C63_described fuel m f) as R2. rewrite X in R1. cbn [undress] in R1. unfold read_tag in R1, R2.
      assert (NF : read_tag_from n m f 0 <> Fuel) by (intros N; rewrite N in R1; discriminate R1).
      rewrite (read_fuel m n fuel Lf f 0 NF) in R2. rewrite <- R1 in R2. destruct (d_read fuel m f); try discriminate R2. cbn [undress] in R2. now injection R2 as ->.
    + pose proof (out_sound m n f L) as O. unfold outcome_of in O. rewrite X in O. destruct O as (ns & s & S & ->).
      pose proof (out_sound m fuel f L) as O. unfold outcome_of in O. destruct (d_read fuel m f) as [g|e' t|p|].
      * exfalso. eapply stops_no_end; eassumption.
      * destruct O as (ns' & s' & S' & ->). destruct (stops_one _ _ _ _ _ _ S S') as [<- Y]. now injection Y as <- <-.
      * destruct O as (ns' & S'). destruct (stops_one _ _ _ _ _ _ S S') as [_ Y]. discriminate Y.
      * exfalso. destruct (stops_bound _ _ _ _ S) as [b B]. specialize (B _ (back_endless _ _ (busy_back m f L fuel Ef (O Af)) (Datatypes.S b))). lia.
    + pose proof (out_sound m n f L) as O. unfold outcome_of in O. rewrite X in O. destruct O as (ns & S).
      pose proof (out_sound m fuel f L) as O. unfold outcome_of in O. destruct (d_read fuel m f) as [g|e' t|p'|].
      * exfalso. eapply stops_no_end; eassumption.
      * destruct O as (ns' & s' & S' & ->). destruct (stops_one _ _ _ _ _ _ S S') as [_ Y]. discriminate Y.
      * destruct O as (ns' & S'). destruct (stops_one _ _ _ _ _ _ S S') as [_ Y]. now injection Y as <-.
      * exfalso. destruct (stops_bound _ _ _ _ S) as [b B]. specialize (B _ (back_endless _ _ (busy_back m f L fuel Ef (O Af)) (Datatypes.S b))). lia.
    + pose proof (out_sound m n f L) as O. unfold outcome_of in O. rewrite X in O. exact (proj2 (endless_read m f L) (back_endless _ _ (busy_back m f L n E (O A))) fuel).
  - intros cap items C. destruct (C75_sound cap n m items f L C) as [(o & W & Y)|(Y & w & q & P)].
    + destruct (C75_sound cap fuel m items f L C) as [(o' & W' & Y')|(Y' & w & q & P)].
      * destruct (WOutUnique.write_one m f L items _ _ _ _ W W') as [-> _]. now rewrite Y, Y'.
      * exfalso. apply (proj2 (C75_unique _ _ _ _ _ L W)). apply scan_back_endless. exact (scan_back m f L _ _ _ (proj1 Ef) P).
    + rewrite Y. apply (proj2 (C75_endless m items f L)); [|exact C]. apply scan_back_endless. exact (scan_back m f L _ _ _ (proj1 E) P).
Qed.
Print Assumptions C78_steps.

(** A box of 16 bytes and one whose 64-bit length moves the position back to the first: without overflow checks reader and
    writer go round in two steps, and the sum of the sizes is the same each time. *)
Definition back_box : bytes := Props_WOut.bx "free" (zeros 8) ++ be 4 1 ++ fc_bytes (id4 "free") ++ be 8 (2 ^ 64 - 16).
Definition round : bytes := ft ++ back_box.
(** The same in an item. *)
Definition item_round : bytes := ft ++ Props_WOut.bx "moov" (Props_WOut.bx "udta" (Props_WOut.bx "meta" (zeros 4 ++ Props_WOut.bx "ilst" (Props_WOut.bx "item" back_box)))).
Lemma two_steps : forall (m : mode) f q n, m = Wrapping -> 16 <= n -> n < 2 ^ 64 -> q < 2 ^ 62 -> box_at f q (id4 "free") 8 16 -> box_at f (q + 16) (id4 "free") 16 (2 ^ 64 - 16) ->
  skipped m q 8 16 (Goes (q + 16)) /\ skipped m (q + 16) 16 (2 ^ 64 - 16) (Goes q) /\ kept m (0 + 16) 16 /\ kept m (16 + (2 ^ 64 - 16)) 0.
Proof.
  intros m f q n M Ln Ln' Lq A B. split; [apply Skip_on; lia|]. split; [|split].
  - replace (Goes q) with (Goes (q + 16 + (2 ^ 64 - 16) - 2 ^ 64)) by (f_equal; lia). apply Skip_back; lia.
  - left. split; reflexivity.
  - right. split; [exact M|]. split; [lia|reflexivity].
Qed.
Example C78_example : comes_back Wrapping round /\ scan_comes_back Wrapping round /\ d_read 30 Wrapping round = DFuel /\ d_read 30 Checked round = DPanic POverflow.
Proof.
  assert (W : blen round = 44) by (vm_compute; reflexivity).
  assert (T : type_out Wrapping round (Goes 12)) by (apply type_here; [apply box8; vm_compute; discriminate || reflexivity|rewrite W; discriminate|vm_compute; reflexivity]).
  assert (B1 : box_at round 12 (id4 "free") 8 16) by (apply box8; vm_compute; discriminate || reflexivity).
  assert (B2 : box_at round (12 + 16) (id4 "free") 16 (2 ^ 64 - 16)) by (apply long_box; vm_compute; discriminate || reflexivity).
  destruct (two_steps Wrapping round 12 32 eq_refl ltac:(lia) ltac:(lia) ltac:(lia) B1 B2) as (S1 & S2 & K1 & K2).
  split; [|split; [|split; vm_compute; reflexivity]].
  - left. assert (A0 : arrives Wrapping round 0 [(Top, 32, 0)] 12) by (change 32 with (44 - 12); rewrite <- W; now apply Arrive_first).
    exists 0%nat, 2%nat, [(Top, 32, 0)], 12. split; [lia|]. split; [exact A0|].
    refine (Arrive_past Wrapping round 1 Top 32 16 [] _ _ _ _ [] 12 0 _ ltac:(reflexivity) B2 _ K2); [|now apply Leaf_other].
    refine (Arrive_past Wrapping round 0 Top 32 0 [] _ _ _ _ [] _ 16 A0 ltac:(reflexivity) B1 _ K1). now apply Leaf_other.
  - assert (A0 : comes Wrapping round 0 [(Top, 32, 0, [])] 12) by (change 32 with (44 - 12); rewrite <- W; now apply Come_first).
    eexists 0%nat, 2%nat, _, _, 12. split; [lia|]. split; [exact A0|]. split.
    + refine (Come_past Wrapping round 1 Top 32 16 _ [] _ _ _ _ [] 12 0 _ ltac:(reflexivity) B2 eq_refl _ K2); [|now apply Pass_other].
      refine (Come_past Wrapping round 0 Top 32 0 _ [] _ _ _ _ [] _ 16 A0 ltac:(reflexivity) B1 eq_refl _ K1). now apply Pass_other.
    + reflexivity.
Qed.
Example C78_example_item : comes_back Wrapping item_round /\ d_read 30 Wrapping item_round = DFuel /\ d_read 30 Checked item_round = DPanic POverflow.
Proof.
  assert (W : blen item_round = 88) by (vm_compute; reflexivity).
  assert (T : type_out Wrapping item_round (Goes 12)) by (apply type_here; [apply box8; vm_compute; discriminate || reflexivity|rewrite W; discriminate|vm_compute; reflexivity]).
  assert (B1 : box_at item_round 12 (id4 "moov") 8 76) by (apply box8; vm_compute; discriminate || reflexivity).
  assert (B2 : box_at item_round 20 (id4 "udta") 8 68) by (apply box8; vm_compute; discriminate || reflexivity).
  assert (B3 : box_at item_round 28 (id4 "meta") 8 60) by (apply box8; vm_compute; discriminate || reflexivity).
  assert (B4 : box_at item_round 40 (id4 "ilst") 8 48) by (apply box8; vm_compute; discriminate || reflexivity).
  assert (B5 : box_at item_round 48 (id4 "item") 8 40) by (apply box8; vm_compute; discriminate || reflexivity).
  assert (C1 : box_at item_round 56 (id4 "free") 8 16) by (apply box8; vm_compute; discriminate || reflexivity).
  assert (C2 : box_at item_round (56 + 16) (id4 "free") 16 (2 ^ 64 - 16)) by (apply long_box; vm_compute; discriminate || reflexivity).
  destruct (two_steps Wrapping item_round 56 32 eq_refl ltac:(lia) ltac:(lia) ltac:(lia) C1 C2) as (S1 & S2 & K1 & K2).
  assert (F : full_fine item_round 36 0) by (split; vm_compute; discriminate).
  assert (NL : forall a b, ~ lacking Wrapping a b) by (intros a b [N _]; discriminate N).
  split; [|split; vm_compute; reflexivity]. right.
  exists 4%nat, 40, 0, [(InMeta, 52, 4 + 48); (InUdta, 60, 0 + 60); (InMoov, 68, 0 + 68); (Top, 88 - 12, 0 + 76)], 48, (id4 "item"), 8, 40, 32, 0%nat, 2%nat, false, 0, 56.
  split; [|split; [reflexivity|split; [exact B5|split; [discriminate|split; [left; split; [lia|reflexivity]|split; [lia|]]]]]].
  - refine (Arrive_into Wrapping item_round 3 InMeta 52 4 _ 40 _ 8 48 InIlst 0 48 40 _ ltac:(reflexivity) B4 eq_refl ltac:(discriminate) _ _);
      [|exact (Enter_fine Wrapping item_round InIlst 0 40 8 48 (or_introl eq_refl) (NL _ _))|left; split; [discriminate|reflexivity]].
    refine (Arrive_into Wrapping item_round 2 InUdta 60 0 _ 28 _ 8 60 InMeta 4 40 52 _ ltac:(reflexivity) B3 eq_refl ltac:(discriminate) _ _);
      [|exact (Enter_fine Wrapping item_round InMeta 4 28 8 60 (or_intror F) (NL _ _))|left; split; [discriminate|reflexivity]].
    refine (Arrive_into Wrapping item_round 1 InMoov 68 0 _ 20 _ 8 68 InUdta 0 28 60 _ ltac:(reflexivity) B2 eq_refl ltac:(discriminate) _ _);
      [|exact (Enter_fine Wrapping item_round InUdta 0 20 8 68 (or_introl eq_refl) (NL _ _))|left; split; [discriminate|reflexivity]].
    refine (Arrive_into Wrapping item_round 0 Top (88 - 12) 0 _ 12 _ 8 76 InMoov 0 20 68 _ ltac:(reflexivity) B1 eq_refl ltac:(discriminate) _ _);
      [|exact (Enter_fine Wrapping item_round InMoov 0 12 8 76 (or_introl eq_refl) (NL _ _))|left; split; [discriminate|reflexivity]].
    rewrite <- W at 1. now apply Arrive_first.
  - assert (NI : ~ In (id4 "free") [id4 "data"; id4 "mean"; id4 "name"]) by (intros [N|[N|[N|[]]]]; discriminate N).
    split; [constructor|].
    refine (Parts_next Wrapping item_round 32 56 1 (false || fourcc_eqb (id4 "free") (id4 "data")) 16 (56 + 16) _ _ _ 56 0 _ ltac:(reflexivity) C2 _ K2); [|apply Part_other; assumption].
    refine (Parts_next Wrapping item_round 32 56 0 false 0 56 _ _ _ _ 16 (Parts_first _ _ _ _) ltac:(reflexivity) C1 _ K1). apply Part_other; assumption.
Qed.
