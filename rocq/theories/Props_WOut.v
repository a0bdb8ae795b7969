(** Theorems about the outcome of writing to arbitrary files, panics and endless scanning included: C75 (see properties.jsonl). *)

From Coq Require Import List NArith ZArith Bool Lia String.
From Coq Require Import ZifyBool ZifyNat ZifyN.
From Verif Require Import Base BaseLemmas Types Utf Stream Parse Find Write TagSpec FileSpec FailSpec PanicSpec Display Described DescribedIs DescribedWrite ErrSpec FirstSpec OutSpec LayoutSpec WOutSpec WOutPlan WOutRun WOutModes ExampleFile Props_Term.
From Verif Require OutBase WOutScan WOutUnique WriteTerm Fault LayoutProofs.
Import ListNotations.
Local Open Scope list_scope.

(** What is returned: an error has the text that is said about it, in the boxes it is in. *)
Definition returned (o : ending) : dres unit :=
  match o with
  | Ends => DOk tt
  | Halts ns (Fails e s) => DErr e (says ns s)
  | Halts _ (Breaks k) => DPanic k
  end.

Lemma prepared : forall m f items fuel, blen f < 2 ^ 62 ->
  match d_prepare fuel m items f 0 with
  | DOk (p, _) => exists ns mo s e d, finds m f ns /\ movie ns = Some mo /\ ready m f items mo s e d /\ p = plan_with f items mo match final (id4 "mdat") ns with Some n => n_at n | None => 0 end s e d
  | DErr e t => exists ns u, write_out m f items (Halts ns (Fails e u)) f /\ t = says ns u
  | DPanic k => exists ns, write_out m f items (Halts ns (Breaks k)) f
  | DFuel => exists w q, comes m f fuel w q
  end.
Proof.
  intros m f items fuel L. pose proof (WOutScan.dscan m f L fuel) as S. unfold OutBase.dpost in S. unfold d_prepare, dbind. destruct (d_scan fuel m f 0) as [[sc p]|e t|k|].
  - destruct S as (ns & Fi & mo & M & E1 & E2). destruct sc as [mv mp]. cbn [fst snd] in E1, E2. subst mv mp.
    pose proof (plan_is m f L items mo match final (id4 "mdat") ns with Some n => n_at n | None => 0 end p) as P. unfold pout in P. unfold plainly.
    destruct (WriteTerm.plan_rest m items _ f p) as [[pl q]|e|k|].
    + destruct P as (s & e & d & R & ->). exists ns, mo, s, e, d. auto.
    + exists [], (from_text e). split; [|reflexivity]. exact (Write_plan m f items ns mo _ Fi M P).
    + exists []. exact (Write_plan m f items ns mo _ Fi M P).
    + destruct P.
  - destruct S as (ns & u & S & ->). exists ns, u. split; [|reflexivity]. now apply Write_scan.
  - destruct S as (ns & S). exists ns. now apply Write_scan.
  - exact S.
Qed.

(** * What writing does is what WOutSpec.v says *)

(** Whatever the file, the items, the profile and the number of steps of the evaluator: the value returned and the file left are
    an outcome of the specification, or all steps were used for finding boxes. *)
Theorem C75_sound : forall cap fuel m items f, blen f < 2 ^ 62 -> 8 < cap ->
  (exists o, write_out m f items o (wr_file (write_tag cap fuel m items f)) /\ d_write cap fuel m items f = returned o) \/
  d_write cap fuel m items f = DFuel /\ exists w q, comes m f fuel w q.
Proof.
  intros cap fuel m items f L C. pose proof (prepared m f items fuel L) as P. pose proof (same_prepare fuel m items f 0) as SP.
  unfold d_write, write_tag, write_tag_to. destruct (d_prepare fuel m items f 0) as [[p q]|e t|k|]; cbn [undress] in SP; rewrite <- SP.
  - left. destruct P as (ns & mo & s & e & d & Fi & M & R & ->). pose proof (run_out m f L cap C items ns mo s e d Fi M R) as X. unfold xpost in X.
    set (pl := plan_with _ _ _ _ _ _ _) in *. pose proof (ws_execute cap m pl (Wst f 0 [] [])) as W. rewrite Fault.program_is_execute in W.
    destruct (d_execute cap m pl (Wst f 0 [] [])) as [r st]. cbn [fst]. rewrite <- W. destruct (flush_is st) as (s1 & -> & A & _). cbn [wr_file]. rewrite A.
    destruct r as [[]|e0 t|k|].
    + exists Ends. auto.
    + destruct X as (nm & u & X & ->). exists (Halts nm (Fails e0 u)). auto.
    + destruct X as (nm & X). exists (Halts nm (Breaks k)). auto.
    + destruct X.
  - left. destruct P as (ns & u & P & ->). exists (Halts ns (Fails e u)). auto.
  - left. destruct P as (ns & P). exists (Halts ns (Breaks k)). auto.
  - right. auto.
Qed.
Print Assumptions C75_sound.

(** The specification allows one outcome only, and no endless scan besides. *)
Theorem C75_unique : forall m f items o g, blen f < 2 ^ 62 -> write_out m f items o g ->
  (forall o' g', write_out m f items o' g' -> o' = o /\ g' = g) /\ ~ scans_on m f.
Proof.
  intros m f items o g L W. split.
  - intros o' g' W'. exact (WOutUnique.write_one m f L items _ _ _ _ W' W).
  - intros S. destruct (WOutUnique.write_bound m f items o g W) as [b B]. destruct (S (Datatypes.S b)) as (w & q & Y). specialize (B _ _ _ Y). lia.
Qed.
Print Assumptions C75_unique.

(** So an outcome of the specification is what happens, *)
Theorem C75_outcome : forall m items f o g, blen f < 2 ^ 62 -> write_out m f items o g ->
  exists n, forall cap fuel, 8 < cap -> (n <= fuel)%nat -> d_write cap fuel m items f = returned o /\ wr_file (write_tag cap fuel m items f) = g.
Proof.
  intros m items f o g L W. destruct (WOutUnique.write_bound m f items o g W) as [b B]. exists (S b). intros cap fuel C Hf.
  destruct (C75_sound cap fuel m items f L C) as [(o' & W' & E)|(_ & w & q & Y)].
  - destruct (WOutUnique.write_one m f L items _ _ _ _ W' W) as [-> ->]. auto.
  - specialize (B _ _ _ Y). lia.
Qed.
Print Assumptions C75_outcome.

(** and writing does not end iff the boxes are looked for forever. *)
Theorem C75_endless : forall m items f, blen f < 2 ^ 62 -> (forall cap fuel, 8 < cap -> d_write cap fuel m items f = DFuel) <-> scans_on m f.
Proof.
  intros m items f L. split.
  - intros H c. destruct (C75_sound 9 c m items f L ltac:(lia)) as [(o & W & E)|(_ & Y)]; [|exact Y].
    rewrite H in E by lia. destruct o as [|ns [e s|k]]; discriminate E.
  - intros H cap fuel C. destruct (C75_sound cap fuel m items f L C) as [(o & W & E)|(E & _)]; [|exact E]. destruct (C75_unique _ _ _ _ _ L W) as [_ X]. contradiction.
Qed.
Print Assumptions C75_endless.

(** With overflow checks there is always an outcome, *)
Theorem C75_checked : forall items f, blen f < 2 ^ 62 -> exists o g, write_out Checked f items o g.
Proof.
  intros items f L. destruct (C42_debug items f 0) as [n H]. destruct (H 9 n (le_n n)) as [NF _].
  destruct (C75_sound 9 n Checked items f L ltac:(lia)) as [(o & W & _)|(E & _)]; [eauto|]. exfalso. apply NF. fold (write_tag 9 n Checked items f). rewrite <- described_is_write, E. reflexivity.
Qed.
Print Assumptions C75_checked.
(** without them unless the scan is endless. *)
Theorem C75_total : forall m items f, blen f < 2 ^ 62 -> (forall o g, ~ write_out m f items o g) -> scans_on m f.
Proof.
  intros m items f L N c. destruct (C75_sound 9 c m items f L ltac:(lia)) as [(o & W & E)|(_ & Y)]; [|exact Y]. destruct (N _ _ W).
Qed.
Print Assumptions C75_total.

(** The profiles do the same unless a check stops the writer, *)
Theorem C75_same : forall items f o g, write_out Checked f items o g -> (forall ns, o <> Halts ns (Breaks POverflow)) -> write_out Wrapping f items o g.
Proof. intros items f o g. apply write_same. Qed.
Print Assumptions C75_same.
(** and without checks nothing but memory that cannot be had panics. *)
Theorem C75_panics : forall items f ns k g, write_out Wrapping f items (Halts ns (Breaks k)) g -> k = PCapacity.
Proof. intros items f ns k g W. exact (write_cap f items _ _ _ _ W eq_refl). Qed.
Print Assumptions C75_panics.

(** The capacity of the buffer makes no difference. *)
Theorem C75_capacity : forall m items f cap cap' fuel, blen f < 2 ^ 62 -> 8 < cap -> 8 < cap' ->
  d_write cap fuel m items f = d_write cap' fuel m items f /\ wr_file (write_tag cap fuel m items f) = wr_file (write_tag cap' fuel m items f).
Proof.
  intros m items f cap cap' fuel L C C'. destruct (C75_sound cap fuel m items f L C) as [(o & W & E)|(E & Y)]; destruct (C75_sound cap' fuel m items f L C') as [(o' & W' & E')|(E' & Y')].
  - destruct (WOutUnique.write_one m f L items _ _ _ _ W W') as [-> X]. rewrite E, E'. auto.
  - exfalso. unfold d_write in E, E'. pose proof (prepared m f items fuel L) as P. destruct (d_prepare fuel m items f 0) as [[p q]|e t|k|]; try discriminate E'; [|destruct o as [|? [? ?|?]]; discriminate E].
    destruct P as (ns & mo & s & e & d & Fi & M & R & ->). pose proof (run_out m f L cap' C' items ns mo s e d Fi M R) as X. unfold xpost in X. destruct (d_execute cap' m _ _) as [r st]. cbn [fst] in E'. subst r. exact X.
  - exfalso. unfold d_write in E, E'. pose proof (prepared m f items fuel L) as P. destruct (d_prepare fuel m items f 0) as [[p q]|e t|k|]; try discriminate E; [|destruct o' as [|? [? ?|?]]; discriminate E'].
    destruct P as (ns & mo & s & e & d & Fi & M & R & ->). pose proof (run_out m f L cap C items ns mo s e d Fi M R) as X. unfold xpost in X. destruct (d_execute cap m _ _) as [r st]. cbn [fst] in E. subst r. exact X.
  - rewrite E, E'. split; [reflexivity|]. unfold d_write in E, E'. unfold write_tag, write_tag_to. rewrite <- same_prepare. pose proof (prepared m f items fuel L) as P. destruct (d_prepare fuel m items f 0) as [[p q]|e t|k|]; try discriminate E; [|reflexivity]. exfalso.
    destruct P as (ns & mo & s & e & d & Fi & M & R & ->). pose proof (run_out m f L cap C items ns mo s e d Fi M R) as X. unfold xpost in X. destruct (d_execute cap m _ _) as [r st]. cbn [fst] in E. subst r. exact X.
Qed.
Print Assumptions C75_capacity.

(** A movie before its media data, with a table of two offsets, the second of which is nearly [2 ^ 63]. *)
Definition bx (id : string) (c : bytes) : bytes := be 4 (8 + blen c) ++ fc_bytes (id4 id) ++ c.
Definition far_file (o1 o2 : N) : bytes :=
  bx "ftyp" (map n2b [77; 52; 65; 32]) ++
  bx "moov" (bx "trak" (bx "mdia" (bx "minf" (bx "stbl" (bx "co64" (zeros 4 ++ be 4 2 ++ be 8 o1 ++ be 8 o2)))))) ++
  bx "mdat" (zeros 4).
(** It panics, in the middle of the table, and the first offset has been changed; without overflow checks the file is written, with an offset beyond [2 ^ 63]. *)
Example C75_example :
  let f := far_file 100 (2 ^ 63 - 1) in
  (exists ns, write_out Checked f [] (Halts ns (Breaks POverflow)) (far_file 161 (2 ^ 63 - 1))) /\
  (exists g, write_out Wrapping f [] Ends g /\ slice g 68 16 = be 8 161 ++ be 8 (2 ^ 63 + 60)).
Proof.
  cbv zeta. assert (L : blen (far_file 100 (2 ^ 63 - 1)) < 2 ^ 62) by (vm_compute; reflexivity). split.
  - destruct (C75_sound 100 30 Checked [] _ L ltac:(lia)) as [(o & W & E)|(E & _)]; [|vm_compute in E; discriminate E].
    replace (wr_file _) with (far_file 161 (2 ^ 63 - 1)) in W by (vm_compute; reflexivity). replace (d_write _ _ _ _ _) with (@DPanic unit POverflow) in E by (vm_compute; reflexivity).
    destruct o as [|ns [e s|k]]; try discriminate E. injection E as <-. eauto.
  - destruct (C75_sound 100 30 Wrapping [] _ L ltac:(lia)) as [(o & W & E)|(E & _)]; [|vm_compute in E; discriminate E].
    replace (d_write _ _ _ _ _) with (DOk tt) in E by (vm_compute; reflexivity). destruct o as [|ns [e s|k]]; try discriminate E. eexists. split; [exact W|]. vm_compute. reflexivity.
Qed.
(** A box with a 64-bit length of zero is come to forever without overflow checks; with them it stops the writer. *)
Example C75_example_endless :
  let f := bx "ftyp" (map n2b [77; 52; 65; 32]) ++ be 4 1 ++ fc_bytes (id4 "free") ++ be 8 0 in
  scans_on Wrapping f /\ exists ns, write_out Checked f [] (Halts ns (Breaks POverflow)) f.
Proof.
  cbv zeta. set (f := _ ++ _). assert (L : blen f < 2 ^ 62) by (vm_compute; reflexivity). split.
  - assert (G : forall c, exists d ns, comes Wrapping f c [(Top, 16, d, ns)] 12 /\ d = 0).
    { assert (B : box_at f 12 (id4 "free") 16 0) by (split; [vm_compute; discriminate|]; split; [vm_compute; reflexivity|]; left; repeat split; vm_compute; reflexivity).
      induction c as [|c (d & ns & Y & ->)].
      - exists 0, []. split; [|reflexivity]. assert (E : 16 = blen f - 12) by (vm_compute; reflexivity). rewrite E. apply Come_first.
        eapply Type_taken with (head := 8) (size := 12) (n := 4).
        + split; [vm_compute; discriminate|]. split; [vm_compute; reflexivity|]. right. split; [vm_compute; discriminate|]. split; [vm_compute; discriminate|]. split; vm_compute; reflexivity.
        + left. split; [lia|reflexivity].
        + change 12 with (8 + 4). apply Take_good; [reflexivity|right; vm_compute; discriminate|]. exists (txt "M4A "). split; vm_compute; reflexivity.
      - exists 0, (ns ++ [Node 12 16 0 (id4 "free") []]). split; [|reflexivity].
        eapply Come_past with (nm := []) (p := 12); [exact Y|lia|exact B|reflexivity| |left; split; [lia|reflexivity]].
        apply Pass_other; [reflexivity|]. apply (Skip_less Wrapping 12 16 0); [reflexivity|lia]. }
    intros c. destruct (G c) as (d & ns & Y & _). eauto.
  - destruct (C75_sound 100 30 Checked [] f L ltac:(lia)) as [(o & W & E)|(E & _)]; [|vm_compute in E; discriminate E].
    replace (wr_file _) with f in W by (vm_compute; reflexivity). replace (d_write _ _ _ _ _) with (@DPanic unit POverflow) in E by (vm_compute; reflexivity).
    destruct o as [|ns [e s|k]]; try discriminate E. injection E as <-. eauto.
Qed.
