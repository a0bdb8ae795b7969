(** Theorems about the outcome of reading arbitrary files: C71 (see properties.jsonl). *)

From Coq Require Import List NArith ZArith Bool Lia String.
From Coq Require Import ZifyBool ZifyNat ZifyN.
From Verif Require Import Base BaseLemmas Types Utf Stream Parse TagSpec FileSpec FailSpec PanicSpec Display Described DescribedIs ErrSpec FirstSpec FirstUnique FirstProofs Props_ReadErr Props_Panic Props_Err Props_Exact.
Import ListNotations.
Local Open Scope list_scope.

(** * C71: the outcome of reading is decided by the first flaw of the file *)

(** An error that is returned is that of the first flaw, and its text names the containers around it; the file is one
    without the flaws that make the reader panic in the checked profile. *)
Theorem C71_error_is_first : forall fuel m f e t, blen f < 2 ^ 62 -> ~ flaw f -> d_read fuel m f = DErr e t ->
  exists ns s, first_flaw f ns e s /\ t = says ns s.
Proof.
  intros fuel m f e t L NF E. destruct (FirstProofs.dread m f L fuel) as [F|F]; [contradiction|]. unfold d_read in E.
  destruct (d_read_from fuel m f 0) as [[a q]|e' t'|x|]; try discriminate. injection E as <- <-. exact F.
Qed.
Print Assumptions C71_error_is_first.

(** A file that is read has been gone through up to the end of its movie. *)
Theorem C71_read_through : forall fuel m f t, blen f < 2 ^ 62 -> ~ flaw f -> read_tag fuel m f = Ok t -> read_through f.
Proof.
  intros fuel m f t L NF E. rewrite <- C63_described in E. destruct (FirstProofs.dread m f L fuel) as [F|F]; [contradiction|]. unfold d_read in E.
  destruct (d_read_from fuel m f 0) as [[a q]|e' t'|x|]; try discriminate. exact F.
Qed.
Print Assumptions C71_read_through.

(** There is at most one first flaw, and none if the end is reached. *)
Theorem C71_unique : forall f ns e s, first_flaw f ns e s ->
  ~ read_through f /\ forall ns' e' s', first_flaw f ns' e' s' -> ns' = ns /\ e' = e /\ s' = s.
Proof.
  intros f ns e s F. split; [intros R; eapply through_none; eassumption|]. intros ns' e' s' F'. exact (first_one _ _ _ _ _ _ _ F' F).
Qed.
Print Assumptions C71_unique.

(** So both profiles end with the same outcome, which can be told from the file. *)
Theorem C71_outcome : forall f, blen f < 2 ^ 62 -> ~ flaw f -> exists n, forall m fuel, (n <= fuel)%nat ->
  (forall e t, d_read fuel m f = DErr e t <-> exists ns s, first_flaw f ns e s /\ t = says ns s) /\
  ((exists g, d_read fuel m f = DOk g) <-> read_through f).
Proof.
  intros f L NF. destruct (C14_debug f) as (r & [n R] & NFu). exists n. intros m fuel Hf.
  assert (NP : forall p, r <> Panic p) by (intros p E; apply NF; eapply (C13_causes_partial n Checked f p L); rewrite R by lia; exact E).
  assert (Rm : read_tag fuel m f = r) by (destruct m; [now apply R|]; rewrite <- (R fuel Hf); apply C36_reading_any; rewrite (R fuel Hf); apply NP).
  assert (A : forall g, d_read fuel m f = DOk g -> read_through f).
  { intros g E. apply (C71_read_through fuel m f g L NF). rewrite <- C63_described, E. reflexivity. }
  assert (B : forall e t, d_read fuel m f = DErr e t -> exists ns s, first_flaw f ns e s /\ t = says ns s) by (intros; now apply (C71_error_is_first fuel m)).
  assert (D : (exists g, d_read fuel m f = DOk g) \/ exists e t, d_read fuel m f = DErr e t).
  { rewrite <- C63_described in Rm. destruct (d_read fuel m f) as [g|e t|p|]; cbn [undress] in Rm; [left; eauto|right; eauto|exfalso; exact (NP p (eq_sym Rm))|exfalso; exact (NFu (eq_sym Rm))]. }
  split.
  - intros e t. split; [apply B|]. intros (ns & s & F & ->). destruct D as [[g D]|(e' & t' & D)]; [exfalso; eapply through_none; [exact F|exact (A g D)]|].
    destruct (B e' t' D) as (ns' & s' & F' & ->). destruct (first_one _ _ _ _ _ _ _ F F') as (-> & -> & ->). exact D.
  - split; [intros [g D']; exact (A g D')|]. intros T. destruct D as [D|(e' & t' & D)]; [exact D|]. destruct (B e' t' D) as (ns' & s' & F' & _). exfalso. eapply through_none; eassumption.
Qed.
Print Assumptions C71_outcome.

(** The first flaw is one of the causes of C63. *)
Theorem C71_is_cause : forall f ns e s, blen f < 2 ^ 62 -> ~ flaw f -> first_flaw f ns e s -> exists ns' s', cause f ns' e s' /\ says ns' s' = says ns s.
Proof.
  intros f ns e s L NF F. destruct (C71_outcome f L NF) as [n O]. destruct (O Checked n (le_n n)) as [O1 _].
  assert (E : d_read n Checked f = DErr e (says ns s)) by (apply O1; eauto). destruct (C63_error_causes n Checked f _ _ L E) as [X|(ns' & s' & C & T)]; [contradiction|]. eauto.
Qed.
Print Assumptions C71_is_cause.

(** A file with two causes and none of the flaws of C13: the version of the movie header is unknown, and the box behind
    it is smaller than its head.  The first is reported. *)
Definition twice : bytes := ft ++ bx "moov" (bx "mvhd" (n2b 2 :: be 3 0) ++ be 4 7 ++ fc_bytes (id4 "free")).
Lemma twice_box : forall q id head size, box_at twice q id head size -> q < 40 /\ (q = 0 -> id = id4 "ftyp" /\ head = 8 /\ size = 12) /\
  (q = 12 -> id = id4 "moov" /\ head = 8 /\ size = 28) /\ (q = 20 -> id = id4 "mvhd" /\ head = 8 /\ size = 12) /\ q <> 32.
Proof.
  intros q id head size B. split; [pose proof (at_none _ _ _ _ _ B) as Q; vm_compute in Q |- *; exact Q|].
  split; [|split; [|split]].
  4: { intros ->. destruct B as (_ & _ & [(C & _)|(_ & C & _)]); vm_compute in C; [discriminate|apply C; reflexivity]. }
  all: intros ->; (apply Props_Panic.at_box in B; [|vm_compute; discriminate]); destruct B as (-> & -> & E); (split; [|split; vm_compute; reflexivity]);
      apply Props_Panic.fc_inj; rewrite E; vm_compute; reflexivity.
Qed.
Lemma twice_looks : forall w q, looks twice w q -> w = [] /\ (q = 0 \/ q = 12) \/ w = [(InMoov, 40)] /\ (q = 20 \/ q = 32).
Proof.
  intros w q H. induction H as [|w q id head size H IH B O|w q id head size l d H IH B O|l e w q H IH N L].
  - left. auto.
  - destruct (twice_box _ _ _ _ B) as (Q & I0 & I1 & I2 & I3). destruct IH as [[-> [-> | ->]]|[-> [-> | ->]]].
    + destruct (I0 eq_refl) as (-> & -> & ->). left. auto.
    + destruct (I1 eq_refl) as (-> & -> & ->). vm_compute in O. discriminate.
    + destruct (I2 eq_refl) as (-> & -> & ->). right. auto.
    + contradiction.
  - destruct (twice_box _ _ _ _ B) as (Q & I0 & I1 & I2 & I3). destruct IH as [[-> [-> | ->]]|[-> [-> | ->]]].
    + destruct (I0 eq_refl) as (-> & -> & ->). vm_compute in O. discriminate.
    + destruct (I1 eq_refl) as (-> & -> & ->). vm_compute in O. injection O as <- <-. right. auto.
    + destruct (I2 eq_refl) as (-> & -> & ->). vm_compute in O. discriminate.
    + contradiction.
  - destruct IH as [[C _]|[C _]]; [discriminate|]. injection C as _ _ ->. contradiction.
Qed.
Lemma box8 : forall f q n id, q + 8 <= blen f -> field f q 4 = n -> n <> 1 -> 8 <= n -> slice f (q + 4) 4 = fc_bytes id -> box_at f q id 8 n.
Proof. intros f q n id L E N1 N8 S. unfold box_at. rewrite E. split; [lia|]. split; [exact S|]. right. auto. Qed.
Example C71_example : ~ flaw twice /\
  cause twice [id4 "moov"] EParsing (txt "Read length of 'free' which is less than 8 bytes: 7") /\
  first_flaw twice [id4 "moov"; id4 "mvhd"] (EUnknownVersion 2) (txt "Error unknown movie header (mvhd) version 2").
Proof.
  assert (B0 : box_at twice 0 (id4 "ftyp") 8 12) by (apply box8; vm_compute; discriminate || reflexivity).
  assert (B1 : box_at twice 12 (id4 "moov") 8 28) by (apply box8; vm_compute; discriminate || reflexivity).
  assert (B2 : box_at twice 20 (id4 "mvhd") 8 12) by (apply box8; vm_compute; discriminate || reflexivity).
  assert (W : blen twice = 40) by (vm_compute; reflexivity).
  assert (R : reached twice [(InMoov, 20); (Top, 0)] 20).
  { refine (Reach_into twice Top 28 [] 12 (id4 "moov") 8 28 InMoov 0 _ ltac:(lia) B1 eq_refl ltac:(discriminate) _).
    - change 28 with (40 - 12). rewrite <- W. refine (Reach_first _ 8 12 B0 ltac:(rewrite W; discriminate) _). exists [77; 52; 65; 32]. vm_compute. auto 10.
    - intros e s X. destruct X as [e s X _|e s X _]; discriminate X. }
  split; [|split].
  - assert (NE : forall p size a size' d, ~ entry_at twice p size a size' d).
    { intros p size a size' d (w & head & head' & K & Iw & _). apply twice_looks in K. destruct K as [[-> _]|[-> _]]; discriminate. }
    intros F. destruct F as [q id size [[w K]|(p & s & a' & d & K)] Bx _|w q head size K Iw _ _|w q id head size K Iw _ _ _|w q head size K Iw Bx C|p size a size' d n len K _ _|p size a size' d q n len K _ _ _|p size a size' d q K _ _];
      try (eapply NE; exact K); apply twice_looks in K.
    + destruct (twice_box _ _ _ _ Bx) as (Q & I0 & I1 & I2 & I3). destruct K as [[-> [-> | ->]]|[-> [-> | ->]]];
        [destruct (I0 eq_refl) as (_ & X & _)|destruct (I1 eq_refl) as (_ & X & _)|destruct (I2 eq_refl) as (_ & X & _)|contradiction]; discriminate X.
    + destruct K as [[-> _]|[-> _]]; discriminate.
    + destruct K as [[-> _]|[-> _]]; discriminate.
    + destruct (twice_box _ _ _ _ Bx) as (Q & I0 & I1 & I2 & I3). destruct K as [[-> _]|[-> [-> | ->]]]; [discriminate| |contradiction].
      destruct (I2 eq_refl) as (_ & -> & ->). vm_compute in C. destruct C as [[C _]|[C _]]; discriminate.
  - apply (Small_size twice [id4 "moov"] 32); [|vm_compute; discriminate|vm_compute; reflexivity|vm_compute; discriminate].
    apply (In_container twice InMoov 8 [(Top, 0)] 32); [|lia].
    refine (Sees_past twice InMoov 20 [(Top, 0)] 20 (id4 "mvhd") 8 12 _ ltac:(lia) B2 eq_refl). exact (reached_sees _ _ _ R).
  - change [id4 "moov"; id4 "mvhd"] with (trail [(InMoov, 20); (Top, 0)] ++ [id4 "mvhd"]).
    refine (At_box twice InMoov 20 [(Top, 0)] 20 (id4 "mvhd") 8 12 _ _ _ R ltac:(lia) B2 eq_refl _). apply Wrong_content, Wrong_header; [reflexivity|reflexivity|].
    apply Header_version. change 2 with (field twice 28 1) at 1. apply Other_version; vm_compute; discriminate || reflexivity.
Qed.
