(** Theorems about the outcome of reading arbitrary files, panics and endless reading included: C72, C73 (see properties.jsonl). *)

From Coq Require Import List NArith ZArith Bool Lia String.
From Coq Require Import ZifyBool ZifyNat ZifyN.
From Verif Require Import Base BaseLemmas Types Utf Stream Parse TagSpec FileSpec FailSpec PanicSpec Display Described DescribedIs ErrSpec FirstSpec OutSpec OutUnique OutBase OutProofs OutModes ReadMore Props_ReadErr Props_Panic Props_Err Props_First.
Import ListNotations.
Local Open Scope list_scope.

(** * Both profiles *)

(** What reading ends with is what stops the reader, or the end of the movie is reached. *)
Definition outcome_of (m : mode) (f : bytes) (fuel : nat) : Prop :=
  match d_read fuel m f with
  | DOk _ => arrives_at_end m f
  | DErr e t => exists ns s, stops_with m f ns (Fails e s) /\ t = says ns s
  | DPanic p => exists ns, stops_with m f ns (Breaks p)
  | DFuel => 2 ^ 28 < N.of_nat fuel -> busy m f fuel
  end.
Lemma out_sound : forall m fuel f, blen f < 2 ^ 62 -> outcome_of m f fuel.
Proof.
  intros m fuel f L. pose proof (OutProofs.dread m f L fuel) as F. unfold OutBase.dpost in F. unfold outcome_of, d_read.
  destruct (d_read_from fuel m f 0) as [[a q]|e t|x|]; exact F.
Qed.
Lemma enough : forall b : nat, exists n, (b < n)%nat /\ forall k, (n <= k)%nat -> 2 ^ 28 < N.of_nat k.
Proof. intros b. exists (S b + N.to_nat (2 ^ 28 + 1))%nat. split; [lia|]. intros k L. pose proof (N2Nat.id (2 ^ 28 + 1)). lia. Qed.
Lemma stop_read : forall m f ns x, blen f < 2 ^ 62 -> stops_with m f ns x -> exists n, forall fuel, (n <= fuel)%nat ->
  d_read fuel m f = match x with Fails e s => DErr e (says ns s) | Breaks p => DPanic p end.
Proof.
  intros m f ns x L S. destruct (stops_bound _ _ _ _ S) as [b B]. destruct (enough b) as (n & Ln & Lk). exists n. intros fuel Hf.
  pose proof (out_sound m fuel f L) as O. unfold outcome_of in O. destruct (d_read fuel m f) as [g|e t|p|].
  - exfalso. eapply stops_no_end; eassumption.
  - destruct O as (ns' & s & S' & ->). destruct (stops_one _ _ _ _ _ _ S S') as [<- ->]. reflexivity.
  - destruct O as (ns' & S'). destruct (stops_one _ _ _ _ _ _ S S') as [<- ->]. reflexivity.
  - specialize (B _ (O (Lk _ Hf))). lia.
Qed.
Lemma end_read : forall m f, blen f < 2 ^ 62 -> arrives_at_end m f -> exists g n, forall fuel, (n <= fuel)%nat -> d_read fuel m f = DOk g.
Proof.
  intros m f L E. destruct (end_bound _ _ E) as [b B]. destruct (enough b) as (n & Ln & Lk).
  assert (X : forall fuel, (n <= fuel)%nat -> exists g, d_read fuel m f = DOk g).
  { intros fuel Hf. pose proof (out_sound m fuel f L) as O. unfold outcome_of in O. destruct (d_read fuel m f) as [g|e t|p|].
    - eauto.
    - destruct O as (ns' & s & S' & _). exfalso. eapply stops_no_end; eassumption.
    - destruct O as (ns' & S'). exfalso. eapply stops_no_end; eassumption.
    - specialize (B _ (O (Lk _ Hf))). lia. }
  destruct (X n (le_n n)) as [g Hg]. exists g, n. intros fuel Hf. destruct (X fuel Hf) as [g' Hg']. rewrite Hg'. f_equal.
  pose proof (C63_described n m f) as R1. pose proof (C63_described fuel m f) as R2. rewrite Hg in R1. rewrite Hg' in R2. cbn [undress] in R1, R2. unfold read_tag in R1, R2.
  assert (NF : read_tag_from n m f 0 <> Fuel) by (intros N; rewrite N in R1; discriminate R1).
  rewrite (read_fuel m n fuel Hf f 0 NF) in R2. rewrite <- R1 in R2. injection R2 as ->. reflexivity.
Qed.
Lemma fuel_less : forall m f n k, (n <= k)%nat -> d_read k m f = DFuel -> d_read n m f = DFuel.
Proof.
  intros m f n k L E. pose proof (C63_described k m f) as R. pose proof (C63_described n m f) as R2. rewrite E in R. cbn [undress] in R.
  assert (X : read_tag n m f = Fuel).
  { unfold read_tag in R |- *. destruct (read_tag_from n m f 0) as [[g q]|e|p|] eqn:Y; [| | |reflexivity];
      (rewrite (read_fuel m n k L f 0) in R by (rewrite Y; discriminate); rewrite Y in R; discriminate R). }
  rewrite X in R2. destruct (d_read n m f); try discriminate R2. reflexivity.
Qed.
Lemma endless_read : forall m f, blen f < 2 ^ 62 -> ((forall fuel, d_read fuel m f = DFuel) <-> never_stops m f).
Proof.
  intros m f L. split.
  - intros R c. destruct (enough c) as (n & Ln & Lk). pose proof (out_sound m n f L) as O. unfold outcome_of in O. rewrite (R n) in O.
    eapply busy_before; [exact (O (Lk n (le_n n)))|lia].
  - intros N fuel. pose proof (out_sound m fuel f L) as O. unfold outcome_of in O. destruct (d_read fuel m f) as [g|e t|p|]; [exfalso..|reflexivity].
    + destruct (end_bound _ _ O) as [b B]. specialize (B _ (N (S b))). lia.
    + destruct O as (ns & s & S & _). destruct (stops_bound _ _ _ _ S) as [b B]. specialize (B _ (N (Datatypes.S b))). lia.
    + destruct O as (ns & S). destruct (stops_bound _ _ _ _ S) as [b B]. specialize (B _ (N (Datatypes.S b))). lia.
Qed.

(** * C72: every file has exactly one outcome in the profile with overflow checks, and it can be told from the file *)

(** What reading ends with is what stops the reader, or the end of the movie is reached. *)
Theorem C72_sound : forall fuel f, blen f < 2 ^ 62 ->
  match d_read fuel Checked f with
  | DOk _ => arrives_at_end Checked f
  | DErr e t => exists ns s, stops_with Checked f ns (Fails e s) /\ t = says ns s
  | DPanic p => exists ns, stops_with Checked f ns (Breaks p)
  | DFuel => True
  end.
Proof.
  intros fuel f L. pose proof (out_sound Checked fuel f L) as O. unfold outcome_of in O. destruct (d_read fuel Checked f); try exact O. exact I.
Qed.
Print Assumptions C72_sound.

(** At most one thing stops the reader, and none if the end is reached. *)
Theorem C72_unique : forall f ns x, stops_with Checked f ns x -> ~ arrives_at_end Checked f /\ forall ns' x', stops_with Checked f ns' x' -> ns' = ns /\ x' = x.
Proof.
  intros f ns x S. split; [intros E; eapply stops_no_end; eassumption|]. intros ns' x' S'. exact (stops_one _ _ _ _ _ _ S' S).
Qed.
Print Assumptions C72_unique.

(** So the outcome is decided: an error with its text, a panic, or a tag. *)
Theorem C72_outcome : forall f, blen f < 2 ^ 62 -> exists n, forall fuel, (n <= fuel)%nat ->
  (forall e t, d_read fuel Checked f = DErr e t <-> exists ns s, stops_with Checked f ns (Fails e s) /\ t = says ns s) /\
  (forall p, d_read fuel Checked f = DPanic p <-> exists ns, stops_with Checked f ns (Breaks p)) /\
  ((exists g, d_read fuel Checked f = DOk g) <-> arrives_at_end Checked f).
Proof.
  intros f L. destruct (C14_debug f) as (r & [n R] & NFu). exists n. intros fuel Hf. pose proof (C72_sound fuel f L) as O.
  specialize (R fuel Hf). rewrite <- C63_described in R. destruct (d_read fuel Checked f) as [g|e t|p|]; cbn [undress] in R.
  - split; [|split].
    + intros e t. split; [discriminate|]. intros (ns & s & S & _). exfalso. eapply stops_no_end; eassumption.
    + intros p. split; [discriminate|]. intros (ns & S). exfalso. eapply stops_no_end; eassumption.
    + split; [auto|]. intros _. eauto.
  - destruct O as (ns & s & S & ->). split; [|split].
    + intros e' t'. split; [intros E; injection E as <- <-; eauto|]. intros (ns' & s' & S' & ->). destruct (stops_one _ _ _ _ _ _ S S') as [<- E]. injection E as <- <-. reflexivity.
    + intros p. split; [discriminate|]. intros (ns' & S'). destruct (stops_one _ _ _ _ _ _ S S') as [_ E]. discriminate.
    + split; [intros [g E]; discriminate|]. intros E. exfalso. eapply stops_no_end; eassumption.
  - destruct O as (ns & S). split; [|split].
    + intros e' t'. split; [discriminate|]. intros (ns' & s' & S' & ->). destruct (stops_one _ _ _ _ _ _ S S') as [_ E]. discriminate.
    + intros p'. split; [intros E; injection E as <-; eauto|]. intros (ns' & S'). destruct (stops_one _ _ _ _ _ _ S S') as [_ E]. injection E as <-. reflexivity.
    + split; [intros [g E]; discriminate|]. intros E. exfalso. eapply stops_no_end; eassumption.
  - exfalso. apply NFu. now symmetry.
Qed.
Print Assumptions C72_outcome.

(** There is always one. *)
Theorem C72_total : forall f, blen f < 2 ^ 62 -> arrives_at_end Checked f \/ exists ns x, stops_with Checked f ns x.
Proof.
  intros f L. destruct (C14_debug f) as (r & [n R] & NFu). specialize (R n (le_n n)). rewrite <- C63_described in R. pose proof (C72_sound n f L) as O.
  destruct (d_read n Checked f) as [g|e t|p|]; cbn [undress] in R; [now left|destruct O as (ns & s & S & _); eauto|destruct O as (ns & S); eauto|]. exfalso. apply NFu. now symmetry.
Qed.
Print Assumptions C72_total.

(** What makes the reader panic is one of the flaws of C13. *)
Theorem C72_break_is_flaw : forall f ns p, blen f < 2 ^ 62 -> stops_with Checked f ns (Breaks p) -> flaw f.
Proof.
  intros f ns p L S. destruct (C72_outcome f L) as [n O]. destruct (O n (le_n n)) as (_ & O2 & _). destruct (O2 p) as [_ O3].
  apply (C13_causes_partial n Checked f p L). rewrite <- C63_described, O3 by eauto. reflexivity.
Qed.
Print Assumptions C72_break_is_flaw.

(** Without overflow checks the outcome is the same, unless a check would have stopped the reader. *)
Theorem C72_release : forall f, blen f < 2 ^ 62 -> (forall ns, ~ stops_with Checked f ns (Breaks POverflow)) -> exists n, forall fuel, (n <= fuel)%nat ->
  (forall e, read_tag fuel Wrapping f = Err e <-> exists ns s, stops_with Checked f ns (Fails e s)) /\
  (forall p, read_tag fuel Wrapping f = Panic p <-> exists ns, stops_with Checked f ns (Breaks p)) /\
  ((exists g, read_tag fuel Wrapping f = Ok g) <-> arrives_at_end Checked f).
Proof.
  intros f L NO. destruct (C72_outcome f L) as [n O]. exists n. intros fuel Hf. destruct (O fuel Hf) as (O1 & O2 & O3).
  rewrite C36_reading_any.
  - rewrite <- C63_described. split; [|split].
    + intros e. split.
      * intros E. destruct (d_read fuel Checked f) as [g|e' t|p|] eqn:X; cbn [undress] in E; try discriminate. injection E as ->. destruct (proj1 (O1 e t) eq_refl) as (ns & s & S & _). eauto.
      * intros (ns & s & S). rewrite (proj2 (O1 e (says ns s))) by eauto. reflexivity.
    + intros p. split.
      * intros E. destruct (d_read fuel Checked f) as [g|e' t|p'|] eqn:X; cbn [undress] in E; try discriminate. injection E as ->. now apply O2.
      * intros S. rewrite (proj2 (O2 p) S). reflexivity.
    + split.
      * intros [g E]. apply O3. destruct (d_read fuel Checked f) as [g'|e' t|p'|] eqn:X; cbn [undress] in E; try discriminate. eauto.
      * intros S. destruct (proj2 O3 S) as [g ->]. exists g. reflexivity.
  - rewrite <- C63_described. intros E. destruct (d_read fuel Checked f) as [g|e' t|p'|] eqn:X; cbn [undress] in E; try discriminate. injection E as ->.
    destruct (proj1 (O2 POverflow) eq_refl) as [ns S]. exact (NO ns S).
Qed.
Print Assumptions C72_release.

(** * C73: the outcome in the profile without overflow checks *)

(** What reading ends with is what stops the reader, or the end of the movie is reached.  If a number of steps is used up
    (more than the largest descriptor has bytes), the reader takes that many steps. *)
Theorem C73_sound : forall fuel f, blen f < 2 ^ 62 ->
  match d_read fuel Wrapping f with
  | DOk _ => arrives_at_end Wrapping f
  | DErr e t => exists ns s, stops_with Wrapping f ns (Fails e s) /\ t = says ns s
  | DPanic p => exists ns, stops_with Wrapping f ns (Breaks p)
  | DFuel => 2 ^ 28 < N.of_nat fuel -> busy Wrapping f fuel
  end.
Proof. exact (out_sound Wrapping). Qed.
Print Assumptions C73_sound.

(** The end, a stop and endless reading exclude each other, and there is at most one stop. *)
Theorem C73_unique : forall f,
  (forall ns x, stops_with Wrapping f ns x -> ~ arrives_at_end Wrapping f /\ ~ never_stops Wrapping f /\ forall ns' x', stops_with Wrapping f ns' x' -> ns' = ns /\ x' = x) /\
  (arrives_at_end Wrapping f -> ~ never_stops Wrapping f).
Proof.
  intros f. split.
  - intros ns x S. split; [intros E; eapply stops_no_end; eassumption|]. split.
    + intros N. destruct (stops_bound _ _ _ _ S) as [b B]. specialize (B _ (N (Datatypes.S b))). lia.
    + intros ns' x' S'. exact (stops_one _ _ _ _ _ _ S' S).
  - intros E N. destruct (end_bound _ _ E) as [b B]. specialize (B _ (N (S b))). lia.
Qed.
Print Assumptions C73_unique.

(** So the outcome is decided: an error with its text, a panic, a tag, or none at all. *)
Theorem C73_outcome : forall f, blen f < 2 ^ 62 ->
  (forall e t, (exists n, forall fuel, (n <= fuel)%nat -> d_read fuel Wrapping f = DErr e t) <-> exists ns s, stops_with Wrapping f ns (Fails e s) /\ t = says ns s) /\
  (forall p, (exists n, forall fuel, (n <= fuel)%nat -> d_read fuel Wrapping f = DPanic p) <-> exists ns, stops_with Wrapping f ns (Breaks p)) /\
  ((exists g n, forall fuel, (n <= fuel)%nat -> d_read fuel Wrapping f = DOk g) <-> arrives_at_end Wrapping f) /\
  ((forall fuel, d_read fuel Wrapping f = DFuel) <-> never_stops Wrapping f).
Proof.
  intros f L. split; [|split; [|split; [|now apply endless_read]]].
  - intros e t. split.
    + intros [n R]. pose proof (C73_sound n f L) as O. rewrite (R n (le_n n)) in O. exact O.
    + intros (ns & s & S & ->). exact (stop_read _ _ _ _ L S).
  - intros p. split.
    + intros [n R]. pose proof (C73_sound n f L) as O. rewrite (R n (le_n n)) in O. exact O.
    + intros (ns & S). exact (stop_read _ _ _ _ L S).
  - split.
    + intros (g & n & R). pose proof (C73_sound n f L) as O. rewrite (R n (le_n n)) in O. exact O.
    + exact (end_read _ _ L).
Qed.
Print Assumptions C73_outcome.

(** There is no fourth possibility. *)
Theorem C73_total : forall f, blen f < 2 ^ 62 -> ~ arrives_at_end Wrapping f -> (forall ns x, ~ stops_with Wrapping f ns x) -> never_stops Wrapping f.
Proof.
  intros f L NE NS. apply endless_read; [exact L|]. intros fuel. pose proof (C73_sound fuel f L) as O. destruct (d_read fuel Wrapping f) as [g|e t|p|]; [contradiction|exfalso..|reflexivity].
  - destruct O as (ns & s & S & _). exact (NS _ _ S).
  - destruct O as (ns & S). exact (NS _ _ S).
Qed.
Print Assumptions C73_total.

(** Nothing overflows: the only panics are divisions by zero and reservations that are too large. *)
Theorem C73_panics : forall f ns p, stops_with Wrapping f ns (Breaks p) -> p = PDivZero \/ p = PCapacity.
Proof. intros f ns p S. pose proof (stops_safe _ _ _ S) as N. destruct p; auto. now contradiction N. Qed.
Print Assumptions C73_panics.

(** The outcome is that of the profile with overflow checks, with the same text, unless a check stops the reader there. *)
Theorem C73_same : forall f,
  (arrives_at_end Checked f -> arrives_at_end Wrapping f) /\
  (forall ns x, stops_with Checked f ns x -> x <> Breaks POverflow -> stops_with Wrapping f ns x).
Proof. intros f. split; [apply end_same|apply stops_same]. Qed.
Print Assumptions C73_same.

(** With overflow checks no file is read forever. *)
Theorem C73_checked : forall f, blen f < 2 ^ 62 -> ~ never_stops Checked f.
Proof.
  intros f L N. destruct (C72_total f L) as [E|(ns & x & S)].
  - destruct (end_bound _ _ E) as [b B]. specialize (B _ (N (S b))). lia.
  - destruct (stops_bound _ _ _ _ S) as [b B]. specialize (B _ (N (Datatypes.S b))). lia.
Qed.
Print Assumptions C73_checked.

(** A file whose movie holds a box of nearly 2^64 bytes: the position moves back to the start of the file, behind which
    the movie is at its end, and the file is read. *)
Definition backward : bytes := ft ++ be 4 32 ++ fc_bytes (id4 "moov") ++ be 4 1 ++ fc_bytes (id4 "free") ++ be 8 (2 ^ 64 - 20) ++ be 8 0.
(** A file whose movie holds a header with the time scale 0, and an item without value behind it. *)
Definition zero_scale : bytes := ft ++ bx "moov" (bx "mvhd" (be 4 0 ++ be 8 0 ++ be 4 0 ++ be 4 7) ++ bx "udta" (bx "meta" (be 4 0 ++ bx "ilst" (bx "(c)n" [])))).
Lemma type_here : forall m f, box_at f 0 (id4 "ftyp") 8 12 -> 12 <= blen f -> slice f 8 4 = [n2b 77; n2b 52; n2b 65; n2b 32] -> type_out m f (Goes 12).
Proof.
  intros m f B L S. apply (Type_taken m f 8 12 4 _ B); [left; split; [discriminate|reflexivity]|]. change 12 with (8 + 4). apply Take_good; [reflexivity|right; exact L|].
  rewrite S. exists [77; 52; 65; 32]. vm_compute. auto 10.
Qed.
Example C72_example : arrives_at_end Checked backward /\ stops_with Checked zero_scale [id4 "moov"; id4 "mvhd"] (Breaks PDivZero) /\
  (exists g, d_read 20 Checked backward = DOk g) /\ d_read 20 Checked zero_scale = DPanic PDivZero.
Proof.
  split; [|split; [|split; [eexists|]; vm_compute; reflexivity]].
  - assert (W : blen backward = 44) by (vm_compute; reflexivity).
    assert (B0 : box_at backward 0 (id4 "ftyp") 8 12) by (apply box8; vm_compute; discriminate || reflexivity).
    assert (B1 : box_at backward 12 (id4 "moov") 8 32) by (apply box8; vm_compute; discriminate || reflexivity).
    assert (B2 : box_at backward 20 (id4 "free") 16 (2 ^ 64 - 20)) by (split; [rewrite W; discriminate|]; split; [vm_compute; reflexivity|]; left; repeat split; vm_compute; reflexivity).
    exists 2%nat, 24, (0 + (2 ^ 64 - 20)), [(Top, 44 - 12, 0 + 32)], 0. split; [|vm_compute; discriminate].
    refine (Arrive_past Checked backward 1 InMoov 24 0 [(Top, 44 - 12, 0 + 32)] 20 (id4 "free") 16 (2 ^ 64 - 20) [] 0 _ _ ltac:(reflexivity) B2 _ _).
    + refine (Arrive_into Checked backward 0 Top (44 - 12) 0 [] 12 (id4 "moov") 8 32 InMoov 0 20 24 _ ltac:(reflexivity) B1 eq_refl ltac:(discriminate) _ _).
      * rewrite <- W at 1. apply Arrive_first, type_here; [exact B0|rewrite W; discriminate|vm_compute; reflexivity].
      * change 20 with (12 + 8 + 0). apply Enter_fine; [now left|]. intros [_ N]. discriminate N.
      * left. split; [discriminate|reflexivity].
    + apply Leaf_other; [reflexivity|reflexivity|]. apply (Skip_back Checked 20 16 (2 ^ 64 - 20)); vm_compute; discriminate.
    + left. split; reflexivity.
  - assert (W : blen zero_scale = 84) by (vm_compute; reflexivity).
    assert (B0 : box_at zero_scale 0 (id4 "ftyp") 8 12) by (apply box8; vm_compute; discriminate || reflexivity).
    assert (B1 : box_at zero_scale 12 (id4 "moov") 8 72) by (apply box8; vm_compute; discriminate || reflexivity).
    assert (B2 : box_at zero_scale 20 (id4 "mvhd") 8 28) by (apply box8; vm_compute; discriminate || reflexivity).
    change [id4 "moov"; id4 "mvhd"] with (names [(InMoov, 64, 0); (Top, 84 - 12, 0 + 72)] ++ [id4 "mvhd"]).
    refine (Stop_leaf Checked zero_scale 1 InMoov 64 0 [(Top, 84 - 12, 0 + 72)] 20 (id4 "mvhd") 8 28 _ _ _ ltac:(reflexivity) B2 _).
    + refine (Arrive_into Checked zero_scale 0 Top (84 - 12) 0 [] 12 (id4 "moov") 8 72 InMoov 0 20 64 _ ltac:(reflexivity) B1 eq_refl ltac:(discriminate) _ _).
      * rewrite <- W at 1. apply Arrive_first, type_here; [exact B0|rewrite W; discriminate|vm_compute; reflexivity].
      * change 20 with (12 + 8 + 0). apply Enter_fine; [now left|]. intros [_ N]. discriminate N.
      * left. split; [discriminate|reflexivity].
    + apply Leaf_header; [reflexivity|reflexivity|]. apply (Header_zero _ _ _ _ _ 7 48); [|intros [_ N]; now apply N]. split; [rewrite W; discriminate|]. left. vm_compute. auto.
Qed.

(** A file with a box whose 64-bit length is 0: without checks the reader stays in front of it forever. *)
Definition spinning : bytes := ft ++ be 4 1 ++ fc_bytes (id4 "free") ++ be 8 0 ++ be 4 8 ++ fc_bytes (id4 "moov").
(** A file with a box whose 64-bit length is 12, less than its head: without checks its last bytes are the length of a movie. *)
Definition overlapping : bytes := ft ++ be 4 1 ++ fc_bytes (id4 "free") ++ be 8 12 ++ fc_bytes (id4 "moov") ++ be 4 8 ++ fc_bytes (id4 "free").
Lemma long_box : forall f q id size, q + 16 <= blen f -> field f q 4 = 1 -> slice f (q + 4) 4 = fc_bytes id -> field f (q + 8) 8 = size -> box_at f q id 16 size.
Proof. intros f q id size A B C <-. split; [exact A|]. split; [exact C|]. left. auto. Qed.
Example C73_example :
  never_stops Wrapping spinning /\ stops_with Checked spinning [] (Breaks POverflow) /\ d_read 20 Wrapping spinning = DFuel /\
  arrives_at_end Wrapping overlapping /\ stops_with Checked overlapping [] (Breaks POverflow) /\
  (exists g, d_read 20 Wrapping overlapping = DOk g) /\ d_read 20 Checked overlapping = DPanic POverflow.
Proof.
  assert (W : blen spinning = 36) by (vm_compute; reflexivity). assert (V : blen overlapping = 40) by (vm_compute; reflexivity).
  assert (A0 : forall m, arrives m spinning 0 [(Top, 24, 0)] 12).
  { intros m. change 24 with (36 - 12). rewrite <- W. apply Arrive_first, type_here; [apply box8; vm_compute; discriminate || reflexivity|rewrite W; discriminate|vm_compute; reflexivity]. }
  assert (Z0 : forall m, arrives m overlapping 0 [(Top, 28, 0)] 12).
  { intros m. change 28 with (40 - 12). rewrite <- V. apply Arrive_first, type_here; [apply box8; vm_compute; discriminate || reflexivity|rewrite V; discriminate|vm_compute; reflexivity]. }
  assert (B : box_at spinning 12 (id4 "free") 16 0) by (apply long_box; vm_compute; discriminate || reflexivity).
  assert (Y : box_at overlapping 12 (id4 "free") 16 12) by (apply long_box; vm_compute; discriminate || reflexivity).
  split.
  { intros c. left. exists [(Top, 24, 0)], 12. induction c as [|c IH]; [apply A0|].
    refine (Arrive_past Wrapping spinning c Top 24 0 [] 12 (id4 "free") 16 0 [] 12 0 IH ltac:(reflexivity) B _ _).
    - apply Leaf_other; [reflexivity|reflexivity|]. change 12 with (12 + 0) at 2. now apply Skip_less.
    - left. split; reflexivity. }
  split.
  { change (@nil fourcc) with (names [(Top, 24, 0)] ++ []). refine (Stop_leaf Checked spinning 0 Top 24 0 [] 12 (id4 "free") 16 0 [] _ (A0 _) ltac:(reflexivity) B _).
    apply Leaf_other; [reflexivity|reflexivity|]. apply Skip_short. split; reflexivity. }
  split; [vm_compute; reflexivity|]. split.
  { exists 3%nat, 4, 8, [(Top, 28, 12 + 12)], 40. split; [|discriminate].
    refine (Arrive_past Wrapping overlapping 2 InMoov 4 0 [(Top, 28, 12 + 12)] 32 (id4 "free") 8 8 [] 40 8 _ ltac:(reflexivity) _ _ _).
    - refine (Arrive_into Wrapping overlapping 1 Top 28 12 [] 24 (id4 "moov") 8 12 InMoov 0 32 4 _ ltac:(reflexivity) _ eq_refl ltac:(discriminate) _ _).
      + refine (Arrive_past Wrapping overlapping 0 Top 28 0 [] 12 (id4 "free") 16 12 [] 24 12 (Z0 _) ltac:(reflexivity) Y _ _).
        * apply Leaf_other; [reflexivity|reflexivity|]. change 24 with (12 + 12). now apply Skip_less.
        * left. split; reflexivity.
      + apply box8; vm_compute; discriminate || reflexivity.
      + change 32 with (24 + 8 + 0). apply Enter_fine; [now left|]. intros [N _]. discriminate N.
      + left. split; [discriminate|reflexivity].
    - apply box8; vm_compute; discriminate || reflexivity.
    - apply Leaf_other; [reflexivity|reflexivity|]. change 40 with (32 + 8). apply Skip_on; discriminate || reflexivity.
    - left. split; reflexivity. }
  split.
  { change (@nil fourcc) with (names [(Top, 28, 0)] ++ []). refine (Stop_leaf Checked overlapping 0 Top 28 0 [] 12 (id4 "free") 16 12 [] _ (Z0 _) ltac:(reflexivity) Y _).
    apply Leaf_other; [reflexivity|reflexivity|]. apply Skip_short. split; reflexivity. }
  split; [eexists|]; vm_compute; reflexivity.
Qed.
