(** A file that is written to has none of the causes of errors. *)

From Coq Require Import List NArith ZArith Bool Lia Arith String.
From Coq Require Import ZifyBool ZifyNat ZifyN.
From Verif Require Import Base BaseLemmas Utf UtfLemmas Types Stream Parse Find Write TagSpec FileSpec ParseLemmas WriteBytes FailSpec PanicSpec WPanicSpec Display Described DescribedIs DescribedWrite ErrSpec LayoutSpec LayoutTables LayoutRun.
From Verif Require WPanicProofs ErrExact WriteTerm Modes ReadMore.
Import ListNotations.
Local Open Scope list_scope.
Local Open Scope d_scope.

(** The boxes of a file are what they are. *)
Lemma row_fun : forall f l k q ns q', row f l k q ns q' -> forall ns2 q2, row f l k q ns2 q2 -> ns = ns2 /\ q' = q2.
Proof.
  intros f l k q ns q' H. induction H as [l q|l k q id head size ns q' K B O L H IH|l k q id head size l' d inside q1 ns q' K B O V H1 IH1 H2 IH2]; intros ns2 q2 R.
  - inversion R; subst; try lia. auto.
  - inversion R as [|? ? ? id2 head2 size2 ns3 ? K2 B2 O2 L2 H2|? ? ? id2 head2 size2 l2 d2 inside2 q3 ns3 ? K2 B2 O2 V2 H2 H3]; subst; [lia| |];
      destruct (ErrExact.box_fun _ _ _ _ _ _ _ _ B B2) as (-> & -> & ->); [|congruence]. destruct (IH _ _ H2) as [-> ->]. auto.
  - inversion R as [|? ? ? id2 head2 size2 ns3 ? K2 B2 O2 L2 H3|? ? ? id2 head2 size2 l2 d2 inside2 q3 ns3 ? K2 B2 O2 V2 H3 H4]; subst; [lia| |];
      destruct (ErrExact.box_fun _ _ _ _ _ _ _ _ B B2) as (-> & -> & ->); [congruence|]. rewrite O in O2. injection O2 as <- <-.
    destruct (IH1 _ _ H3) as [-> ->]. destruct (IH2 _ _ H4) as [-> ->]. auto.
Qed.
Lemma layout_fun : forall f ns ns', layout f ns -> layout f ns' -> ns = ns'.
Proof. intros f ns ns' (_ & q & R) (_ & q' & R'). apply (row_fun _ _ _ _ _ _ R _ _ R'). Qed.

(** Where one stands, boxes follow until the end of every box around. *)
Fixpoint chain (f : bytes) (w : standing) (q : N) : Prop :=
  match w with
  | [] => True
  | (l, k) :: w' => exists ns q', row f l k q ns q' /\ chain f w' q'
  end.
Lemma visits_chain : forall f ns, layout f ns -> forall w q, visits f w q -> chain f w q.
Proof.
  intros f ns (_ & q0 & R0) w q V. induction V as [|l k w q id head size V IH K B O|l k w q id head size l' d V IH K B O|l l' k w q V IH].
  - exists ns, q0. split; [exact R0|exact I].
  - destruct IH as (ns1 & q1 & R & C). inversion R as [|? ? ? id2 head2 size2 ns3 ? K2 B2 O2 L2 H2|? ? ? id2 head2 size2 l2 d2 inside2 q3 ns3 ? K2 B2 O2 V2 H2 H3]; subst; [lia| |];
      destruct (ErrExact.box_fun _ _ _ _ _ _ _ _ B B2) as (-> & -> & ->); [|congruence]. exists ns3, q1. auto.
  - destruct IH as (ns1 & q1 & R & C). inversion R as [|? ? ? id2 head2 size2 ns3 ? K2 B2 O2 L2 H2|? ? ? id2 head2 size2 l2 d2 inside2 q3 ns3 ? K2 B2 O2 V2 H2 H3]; subst; [lia| |];
      destruct (ErrExact.box_fun _ _ _ _ _ _ _ _ B B2) as (-> & -> & ->); [congruence|]. rewrite O in O2. injection O2 as <- <-. exists inside2, q3. split; [exact H2|]. exists ns3, q1. auto.
  - destruct IH as (ns1 & q1 & R & C). inversion R; subst; try lia. exact C.
Qed.
Lemma spot_box : forall f ns, layout f ns -> forall l q, head_spot f l q -> exists id head size, box_at f q id head size.
Proof.
  intros f ns Ly l q (l0 & k & w & V & K & _). destruct (N.eq_0_gt_0_cases k) as [Z|P].
  - destruct K as [-> |K]; [|lia]. destruct Ly as ((head & size & B & _) & _). eauto.
  - destruct (visits_chain f ns Ly _ _ V) as (ns1 & q1 & R & _). inversion R; subst; try lia; eauto.
Qed.
Lemma past_near : forall f ns, layout f ns -> forall w q id head size, visited f w q id head size -> scan_opens (inner w) id = None -> q + size < 2 ^ 63.
Proof.
  intros f ns Ly w q id head size (l & k & w' & -> & V & K & B) O. cbn [inner] in O. destruct (visits_chain f ns Ly _ _ V) as (ns1 & q1 & R & _).
  inversion R as [|? ? ? id2 head2 size2 ns3 ? K2 B2 O2 L2 H2|? ? ? id2 head2 size2 l2 d2 inside2 q3 ns3 ? K2 B2 O2 V2 H2 H3]; subst; [lia| |];
      destruct (ErrExact.box_fun _ _ _ _ _ _ _ _ B B2) as (-> & -> & ->); [exact L2|congruence].
Qed.
Lemma meta_known : forall f ns, layout f ns -> forall w q head size, visited f w q (id4 "meta") head size -> inner w = InUdta -> q + head + 4 <= blen f /\ field f (q + head) 1 = 0.
Proof.
  intros f ns Ly w q head size (l & k & w' & -> & V & K & B) O. cbn [inner] in O. subst l. destruct (visits_chain f ns Ly _ _ V) as (ns1 & q1 & R & _).
  inversion R as [|? ? ? id2 head2 size2 ns3 ? K2 B2 O2 L2 H2|? ? ? id2 head2 size2 l2 d2 inside2 q3 ns3 ? K2 B2 O2 V2 H2 H3]; subst; [lia| |];
      destruct (ErrExact.box_fun _ _ _ _ _ _ _ _ B B2) as (<- & -> & ->).
  - vm_compute in O2. discriminate.
  - assert (d2 = 4) as -> by (vm_compute in O2; congruence). destruct V2 as [V2|V2]; [discriminate|exact V2].
Qed.

Lemma no_cause : forall f ns mo, layout f ns -> movie ns = Some mo -> (adjusts ns = true -> Forall (good_tab f) (tables_of ns)) -> forall l e t, ~ wcause f l e t.
Proof.
  intros f ns mo Ly M G.
  assert (T : forall wide p c, table_spot f wide p c -> tgood f wide p c).
  { intros wide p c (ns' & n & Ly' & A & Hn & -> & ->). rewrite (layout_fun _ _ _ Ly' Ly) in *. specialize (G A). rewrite Forall_forall in G. exact (proj2 (G _ Hn)). }
  pose proof Ly as ((h0 & s0 & B0 & L0 & U0) & _).
  intros l e t C. destruct C as [l q S L|l q S L|l q S F L|l q S L F1 F2|id head size B N|head size B L|head size B L U|ns' Ly' N|w q id head size V O L|w q head size V Iw L|w q head size V Iw L|w q head size V Iw L F|wide p c S F|wide p c S F N].
  1-4: destruct (spot_box f ns Ly _ _ S) as (id & head & size & B1 & _ & B2); lia.
  - destruct (ErrExact.box_fun _ _ _ _ _ _ _ _ B B0) as (-> & _). contradiction.
  - destruct (ErrExact.box_fun _ _ _ _ _ _ _ _ B B0) as (_ & -> & ->). lia.
  - destruct (ErrExact.box_fun _ _ _ _ _ _ _ _ B B0) as (_ & -> & ->). contradiction.
  - rewrite (layout_fun _ _ _ Ly' Ly) in N. congruence.
  - pose proof (past_near f ns Ly w q id head size V O). lia.
  - destruct (meta_known f ns Ly w q head size V Iw) as [K _]. lia.
  - destruct (meta_known f ns Ly w q head size V Iw) as [K _]. lia.
  - destruct (meta_known f ns Ly w q head size V Iw) as [_ K]. contradiction.
  - apply T in S. destruct S as (S & _). contradiction.
  - apply T in S. destruct S as (_ & S & X). contradiction.
Qed.

Lemma write_ends : forall cap fuel m items f, ReadMore.big fuel -> blen f < 2 ^ 62 -> nsum (map ad_len items) < 2 ^ 61 -> ~ wflaw f items -> wr_res (write_tag cap fuel m items f) <> Fuel.
Proof.
  intros cap fuel m items f Bg Lf La N. pose proof (WriteTerm.write_terminates cap fuel items f 0 Bg) as T. destruct m; [exact T|].
  unfold write_tag. rewrite Modes.write_modes; [exact T|]. intros P. apply N. eapply (WPanicProofs.panics_have_causes cap fuel Checked items f); eassumption.
Qed.

Theorem error_iff_cause : forall cap fuel m items f, ReadMore.big fuel -> blen f < 2 ^ 62 -> nsum (map ad_len items) < 2 ^ 61 -> ~ wflaw f items ->
  ((exists e t, d_write cap fuel m items f = DErr e t) <-> exists ns e s, wcause f ns e s).
Proof.
  intros cap fuel m items f Bg Lf La N. pose proof (described_is_write cap fuel m items f) as D. pose proof (write_ends cap fuel m items f Bg Lf La N) as E.
  destruct (write_is m f items Lf La cap fuel) as [F|H]; [contradiction|]. destruct (d_write cap fuel m items f) as [u|e t|q|]; cbn [undress] in D.
  - destruct H as (ns & mo & H1 & H2 & H3 & _). split; [intros (e & t & X); discriminate|]. intros (l & e & t & C). exfalso. exact (no_cause f ns mo H1 H2 H3 _ _ _ C).
  - split; [|intros _; eauto]. intros _. destruct H as ((ns & s & C & _) & _). eauto.
  - exfalso. apply N. eapply (WPanicProofs.panics_have_causes cap fuel m items f q); auto.
  - symmetry in D. contradiction.
Qed.
Theorem written_as : forall cap fuel m items f, ReadMore.big fuel -> blen f < 2 ^ 62 -> nsum (map ad_len items) < 2 ^ 61 -> ~ wflaw f items -> (forall ns e s, ~ wcause f ns e s) ->
  exists ns mo, layout f ns /\ (forall ns', layout f ns' -> ns' = ns) /\ movie ns = Some mo /\ wr_res (write_tag cap fuel m items f) = Ok tt /\
    (exact_items items -> items_fit items -> wr_file (write_tag cap fuel m items f) = rewritten f items ns mo).
Proof.
  intros cap fuel m items f Bg Lf La N C. pose proof (described_is_write cap fuel m items f) as D. pose proof (write_ends cap fuel m items f Bg Lf La N) as E.
  destruct (write_is m f items Lf La cap fuel) as [F|H]; [contradiction|]. destruct (d_write cap fuel m items f) as [[]|e t|q|]; cbn [undress] in D.
  - destruct H as (ns & mo & H1 & H2 & H3 & H4). exists ns, mo. split; [exact H1|]. split; [intros ns' L; eapply layout_fun; eassumption|]. split; [exact H2|]. split; [symmetry; exact D|exact H4].
  - destruct H as ((ns & s & X & _) & _). exfalso. exact (C _ _ _ X).
  - exfalso. apply N. eapply (WPanicProofs.panics_have_causes cap fuel m items f q); auto.
  - symmetry in D. contradiction.
Qed.

(** An error leaves the file as it was, or with the tables before the first that is not sound adjusted. *)
Theorem failed_as : forall cap fuel m items f e, blen f < 2 ^ 62 -> nsum (map ad_len items) < 2 ^ 61 -> ~ wflaw f items -> exact_items items -> items_fit items ->
  wr_res (write_tag cap fuel m items f) = Err e -> wr_file (write_tag cap fuel m items f) = f \/ given_up f items (wr_file (write_tag cap fuel m items f)).
Proof.
  intros cap fuel m items f e Lf La N X1 X2 R. pose proof (described_is_write cap fuel m items f) as D. rewrite R in D. destruct (write_is m f items Lf La cap fuel) as [F|H]; [contradiction|].
  destruct (d_write cap fuel m items f) as [u|e' t|q|]; try discriminate D. apply H; assumption.
Qed.
