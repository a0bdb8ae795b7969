(** Theorems about the exactness of the causes of errors: C64 (see properties.jsonl). *)

From Coq Require Import List NArith ZArith Bool Lia String.
From Coq Require Import ZifyBool ZifyNat ZifyN.
From Verif Require Import Base BaseLemmas Types Stream Parse TagSpec FileSpec FailSpec PanicSpec Display Described DescribedIs ErrSpec ErrProofs ErrExact Props_ReadErr Props_Panic Props_Err.
Import ListNotations.
Local Open Scope list_scope.

(** * C64: exactly the files with a cause are not read *)

(** A file that is read has none of the causes, at any place it is visited; unless it has one of the flaws that make the
    reader panic in the checked profile. *)
Theorem C64_read_without_cause : forall fuel m f t ns e s, blen f < 2 ^ 62 -> read_tag fuel m f = Ok t -> cause f ns e s -> flaw f.
Proof. intros fuel m f t ns e s L E C. exact (cause_not_read fuel m f ns e s t L C E). Qed.
Print Assumptions C64_read_without_cause.

(** So reading a file without flaws ends in both profiles, with a tag if it has no cause and with an error if it has one. *)
Theorem C64_exact : forall m f, blen f < 2 ^ 62 -> ~ flaw f ->
  exists r, reads m f r /\ ((exists t, r = Ok t) <-> forall ns e s, ~ cause f ns e s) /\ ((exists e, r = Err e) <-> exists ns e s, cause f ns e s).
Proof.
  intros m f L NF. destruct (C14_debug f) as (r & [n R] & NFu). exists r.
  assert (NP : forall p, r <> Panic p) by (intros p E; apply NF; eapply (C13_causes_partial n Checked f p L); rewrite R by lia; exact E).
  assert (Rm : reads m f r).
  { exists n. intros fuel H. destruct m; [now apply R|]. rewrite <- (R fuel H). apply C36_reading_any. rewrite (R fuel H). apply NP. }
  split; [exact Rm|]. pose proof (R n (le_n n)) as Rn.
  assert (A : forall t ns e s, r = Ok t -> ~ cause f ns e s) by (intros t ns e s E C; apply NF; eapply C64_read_without_cause; [exact L|rewrite Rn; exact E|exact C]).
  assert (B : forall e, r = Err e -> exists ns e s, cause f ns e s).
  { intros e E. pose proof (C63_described n Checked f) as D. rewrite Rn, E in D. destruct (d_read n Checked f) as [t|e' t'|p|] eqn:X; try discriminate.
    destruct (C63_error_causes n Checked f e' t' L X) as [F|(ns & s & C & _)]; [contradiction|]. eauto. }
  destruct r as [t|e|p|]; [| |exfalso; exact (NP p eq_refl)|exfalso; exact (NFu eq_refl)].
  - split; split; [intros _; intros ns e s; now apply (A t)|intros _; now exists t|intros [e E]; discriminate|intros (ns & e & s & C); exfalso; now apply (A t ns e s)].
  - destruct (B e eq_refl) as (ns & e' & s & C). split; split; [intros [t E]; discriminate|intros N; exfalso; exact (N _ _ _ C)|intros _; eauto|intros _; now exists e].
Qed.
Print Assumptions C64_exact.

(** If all causes of a file are of one kind, that is the error. *)
Theorem C64_error_of_cause : forall m f e, blen f < 2 ^ 62 -> ~ flaw f -> (exists ns s, cause f ns e s) -> (forall ns e' s, cause f ns e' s -> e' = e) -> reads m f (Err e).
Proof.
  intros m f e L NF (ns & s & C) U. destruct (C64_exact m f L NF) as (r & R & _ & X). destruct (proj2 X ltac:(eauto)) as [e' ->].
  destruct R as [n R]. pose proof (R n (le_n n)) as Rn. pose proof (C63_described n m f) as D. rewrite Rn in D. destruct (d_read n m f) as [t|e2 t2|p|] eqn:Y; try discriminate.
  injection D as ->. destruct (C63_error_causes n m f e' t2 L Y) as [F|(ns' & s' & C' & _)]; [contradiction|]. rewrite <- (U _ _ _ C'). now exists n.
Qed.
Print Assumptions C64_error_of_cause.

(** A file without flaws that is read has no cause, and one that is not read has one. *)
Definition only_type : bytes := Props_Err.ft.
Lemma type_box : forall q id head size, box_at only_type q id head size -> q = 0 /\ id = id4 "ftyp" /\ head = 8 /\ size = 12 \/ 0 < q < 12 /\ q <> 12.
Proof.
  intros q id head size B. pose proof (at_none _ _ _ _ _ B) as Q. change (blen only_type) with 12 in Q. destruct (N.eq_dec q 0) as [->|Z]; [left|right; lia].
  split; [reflexivity|]. apply Props_Panic.at_box in B; [|vm_compute; discriminate]. destruct B as (-> & -> & E). split; [|split; vm_compute; reflexivity].
  apply Props_Panic.fc_inj. rewrite E. vm_compute. reflexivity.
Qed.
Lemma type_looks : forall w q, looks only_type w q -> w = [] /\ (q = 0 \/ q = 12).
Proof.
  intros w q H. induction H as [|w q id head size H IH B O|w q id head size l d H IH B O|l e w q H IH N L].
  - auto.
  - destruct IH as [-> Q]. apply type_box in B. destruct B as [(-> & -> & -> & ->)|B]; [auto|lia].
  - destruct IH as [-> Q]. apply type_box in B. destruct B as [(-> & -> & -> & ->)|B]; [discriminate|lia].
  - destruct IH as [C _]. discriminate.
Qed.
Example C64_example : (~ flaw fine /\ forall ns e s, ~ cause fine ns e s) /\ (~ flaw only_type /\ reads Wrapping only_type (Err (EAtomNotFound (id4 "moov"))) /\ exists s, cause only_type [] (EAtomNotFound (id4 "moov")) s).
Proof.
  split; [split; [exact (proj1 C13_causes_example)|]|].
  - intros ns e s C. refine (proj1 C13_causes_example _). eapply C64_read_without_cause; [|exact (proj2 C13_causes_example)|exact C]. vm_compute. reflexivity.
  - assert (NE : forall p size a size' d, ~ entry_at only_type p size a size' d).
    { intros p size a size' d (w & head & head' & K & Iw & _). apply type_looks in K. destruct K as [-> _]. discriminate. }
    split; [|split].
    + intros F. destruct F as [q id size [[w K]|(p & s & a' & d & K)] Bx _|w q head size K Iw _ _|w q id head size K Iw _ _ _|w q head size K Iw Bx C|p size a size' d n len K _ _|p size a size' d q n len K _ _ _|p size a size' d q K _ _];
        try (eapply NE; exact K); apply type_looks in K; destruct K as [-> K]; try discriminate.
      apply type_box in Bx. destruct Bx as [(_ & _ & C & _)|C]; [discriminate|lia].
    + exists 3%nat. intros fuel H. destruct fuel as [|[|[|fuel]]]; try lia. vm_compute. reflexivity.
    + eexists. apply (No_movie _ 12); [|lia]. refine (Sees_past only_type Top 12 [] 0 (id4 "ftyp") 8 12 _ _ _ _); [apply Sees_start|lia| |reflexivity].
      split; [vm_compute; discriminate|]. split; [vm_compute; reflexivity|]. right. split; [vm_compute; discriminate|]. split; [vm_compute; discriminate|]. split; vm_compute; reflexivity.
Qed.
