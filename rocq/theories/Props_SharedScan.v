(** Writing a tag while other programs change the file, also while it is being read: C97 (see properties.jsonl and SharedScan). *)

From Coq Require Import List NArith ZArith Bool Lia Arith String.
From Coq Require Import ZifyBool ZifyNat ZifyN.
From Verif Require Import Base BaseLemmas Utf UtfLemmas Types Stream Parse Find Write Fault TagSpec FileSpec ReadSpec ReadFacts ParseLemmas WriteMain UpdateMeans EditSpec EditProofs RepairSpec LastSpec LastProofs
  LastWrite LastMeans WriteBytes ChunkSpec ReadIO IoProofs LookSpec LookProofs FineWrite SharedRead SharedReadProofs SharedBuf SharedBufProofs Interfere InterfereProofs InterfereFront LateProofs SharedScan SharedScanProofs SharedFront ScanLooked SharedTables SharedTablesProofs SharedTablesAlone SharedFails
  WriteExample ExampleFile Props_Read Props_Write Props_Last Props_LiveCrash Props_Interfere.
From Verif Require FineProofs.
Import ListNotations.
Local Open Scope list_scope.

(** Without others it is the call of the other theorems, whatever the capacities and the numbers of bytes that the calls
    ask for and deliver. *)
Theorem C97_alone : forall short rcap cap sizes last calls fuel m items f, blen f < 2 ^ 62 -> last <> 0 -> Forall (fun n => n <> 0) sizes -> blen f < N.of_nat calls ->
  sr_res (full_write [] short rcap cap sizes last calls fuel m items f) = wr_res (write_tag cap fuel m items f) /\
  sr_file (full_write [] short rcap cap sizes last calls fuel m items f) = wr_file (write_tag cap fuel m items f).
Proof.
  intros short rcap cap sizes last calls fuel m items f L Nl Ns Lc. destruct (C95_alone cap fuel m items f) as [E1 E2]. rewrite <- E1, <- E2. clear E1 E2.
  destruct (prepare fuel m items f 0) as [[p e]|e|q|] eqn:P.
  - destruct (full_is_shared [] short rcap cap sizes last calls fuel m items f p e L Nl Ns Lc P ltac:(constructor)) as (n & E & _). rewrite E.
    unfold after. rewrite firstn_nil, skipn_nil. split; reflexivity.
  - unfold shared_write. rewrite P. unfold full_write. rewrite FineProofs.locate_is in P.
    pose proof (keep_alone rcap (io_locate fuel m items) (SBuf [] f 0 [] short) eq_refl) as [K1 K2].
    assert (R : fst (sb_run rcap (io_locate fuel m items) (SBuf [] f 0 [] short)) = match run (io_locate fuel m items) f 0 with Ok (a, _) => Ok a | Err e => Err e | Panic q => Panic q | Fuel => Fuel end).
    { apply (run_alone f rcap L _ _ 0). split; [exists 0%nat; split; reflexivity|]. split; [reflexivity|]. split; [reflexivity|]. intros j Hj. change (blen (sb_buf (SBuf [] f 0 [] short))) with 0 in Hj. lia. }
    destruct (run (io_locate fuel m items) f 0) as [[pl q]| | |]; try discriminate. cbn in P. injection P as <-.
    destruct (sb_run rcap (io_locate fuel m items) (SBuf [] f 0 [] short)) as [r s]. cbn [fst snd sb_file] in *. subst r. unfold gave_up. cbn. rewrite K1, K2. split; reflexivity.
  - unfold shared_write. rewrite P. unfold full_write. rewrite FineProofs.locate_is in P.
    pose proof (keep_alone rcap (io_locate fuel m items) (SBuf [] f 0 [] short) eq_refl) as [K1 K2].
    assert (R : fst (sb_run rcap (io_locate fuel m items) (SBuf [] f 0 [] short)) = match run (io_locate fuel m items) f 0 with Ok (a, _) => Ok a | Err e => Err e | Panic q => Panic q | Fuel => Fuel end).
    { apply (run_alone f rcap L _ _ 0). split; [exists 0%nat; split; reflexivity|]. split; [reflexivity|]. split; [reflexivity|]. intros j Hj. change (blen (sb_buf (SBuf [] f 0 [] short))) with 0 in Hj. lia. }
    destruct (run (io_locate fuel m items) f 0) as [[pl q']| | |]; try discriminate. cbn in P. injection P as <-.
    destruct (sb_run rcap (io_locate fuel m items) (SBuf [] f 0 [] short)) as [r s]. cbn [fst snd sb_file] in *. subst r. unfold gave_up. cbn. rewrite K1, K2. split; reflexivity.
  - unfold shared_write. rewrite P. unfold full_write. rewrite FineProofs.locate_is in P.
    pose proof (keep_alone rcap (io_locate fuel m items) (SBuf [] f 0 [] short) eq_refl) as [K1 K2].
    assert (R : fst (sb_run rcap (io_locate fuel m items) (SBuf [] f 0 [] short)) = match run (io_locate fuel m items) f 0 with Ok (a, _) => Ok a | Err e => Err e | Panic q => Panic q | Fuel => Fuel end).
    { apply (run_alone f rcap L _ _ 0). split; [exists 0%nat; split; reflexivity|]. split; [reflexivity|]. split; [reflexivity|]. intros j Hj. change (blen (sb_buf (SBuf [] f 0 [] short))) with 0 in Hj. lia. }
    destruct (run (io_locate fuel m items) f 0) as [[pl q]| | |]; try discriminate.
    destruct (sb_run rcap (io_locate fuel m items) (SBuf [] f 0 [] short)) as [r s]. cbn [fst snd sb_file] in *. subst r. unfold gave_up. cbn. rewrite K1, K2. split; reflexivity.
Qed.
Print Assumptions C97_alone.

(** Any file. If the others change neither the length, nor a byte that the scan looks at, nor one of those that will be moved, reading does
    not notice them: the call behaves as if it had begun, on the file as it is then, after reading, and [n] turns had been before. *)
Theorem C97_unnoticed : forall others short rcap cap sizes last calls fuel m items f p e, blen f < 2 ^ 62 -> last <> 0 -> Forall (fun n => n <> 0) sizes -> blen f < N.of_nat calls ->
  prepare fuel m items f 0 = Ok (p, e) ->
  keeping (fun x => blen x = blen f /\ forall i, scanned fuel m f i \/ pl_moved_start p <= i -> nth_error x (N.to_nat i) = nth_error f (N.to_nat i)) others ->
  exists n, full_write others short rcap cap sizes last calls fuel m items f = shared_write (skipn n others) cap fuel m items (after others f n).
Proof.
  intros others short rcap cap sizes last calls fuel m items f p e L Nl Ns Lc P K. destruct (full_is_shared others short rcap cap sizes last calls fuel m items f p e L Nl Ns Lc P K) as (n & E & _). exists n. exact E.
Qed.
Print Assumptions C97_unnoticed.

Lemma forall2_cut : forall {A B} (R : A -> B -> Prop) n l r, Forall2 R l r -> Forall2 R (firstn n l) (firstn n r) /\ Forall2 R (skipn n l) (skipn n r).
Proof.
  intros A B R. induction n as [|n IH]; intros l r H; [split; [constructor|exact H]|]. destruct H as [|x y l r H F]; [split; constructor|]. destruct (IH l r F) as [I1 I2]. split; [constructor; assumption|exact I2].
Qed.

(** Others that edit what is in front of the last movie in place (the media data, say), except for bytes that the scan looks at, at any
    moment while the tag is written: both take effect. Writing succeeds, the edits are all there, and behind them is what writing alone
    would have left. *)
Theorem C97_front : forall others hs short rcap cap sizes last calls fuel m ft pre mv post items, let f := ft :: pre ++ mv :: post in let k := blen (render_all (ft :: pre)) in
  outline f -> sound_tables f -> good_sizes f -> storable items -> good_sizes (last_file items f) -> blen (render_all f) < N.of_nat fuel ->
  a_id mv = id4 "moov" -> named_kids (id4 "moov") post = [] ->
  last <> 0 -> Forall (fun n => n <> 0) sizes -> blen (render_all f) < N.of_nat calls ->
  Forall2 (edits k) others hs ->
  Forall (fun h => forall a i, blen a = k -> i < k -> scanned fuel m (render_all f) i -> nth_error (h a) (N.to_nat i) = nth_error a (N.to_nat i)) hs ->
  exists mv', last_file items f = ft :: pre ++ mv' :: post /\
    full_write others short rcap cap sizes last calls fuel m items (render_all f) = SResult (Ok tt) (fold_left (fun x h => h x) hs (render_all (ft :: pre)) ++ render mv' ++ render_all post).
Proof.
  intros others hs short rcap cap sizes last calls fuel m ft pre mv post items f k (ft' & s & rst & E & I & W & C & N & B) So G St G' Fu J N2 Nl Ns Lc Ed Ke. injection E as <- <-.
  rewrite named_end in B by assumption. apply Forall_app in B. destruct B as [B1 B2]. inversion B2; subst. unfold f in *. pose proof (last_at items ft pre mv post J N2) as El. rewrite El in G'.
  set (Z := fold_left (fun x h => h x) hs (render_all (ft :: pre))). assert (LZ : blen Z = k) by (apply (edits_len k others); [exact Ed|reflexivity]).
  pose proof (split_file ft pre mv post) as Ef. pose proof G as (_ & Lf). assert (Lz : blen (Z ++ render mv ++ render_all post) < 2 ^ 62) by (rewrite Ef in Lf; rewrite blen_app in *; fold k in Lf; lia).
  destruct (late_llast cap fuel m items ft s pre mv post Z (render_all post) I W C J B1 N2) as (p & q & Pr & Pl & La); try assumption; [exact (sound_at _ _ _ _ J N2 So)|apply storable_exact, St|].
  destruct Pl as (P1 & P2 & P3 & P4 & P5 & P6 & P7). fold k in P1, P2, P3, P4, P5, P6, P7. eexists. split; [exact El|]. rewrite <- La.
  assert (Sp : forall F, blen F = k -> safe_plan F m p).
  { intros F LF. split; [rewrite P1, <- LF; apply safe_moov; lia|]. rewrite LF. split; [exact P3|]. split; [exact P4|]. split; assumption. }
  destruct (full_is_shared others short rcap cap sizes last calls fuel m items (render_all (ft :: pre ++ mv :: post)) p q Lf Nl Ns Lc Pr) as (n & En & Pn).
  { unfold keeping. clear - Ed Ke P7 Ef. revert Ke. induction Ed as [|g h o hs G F IH]; intros Ke; constructor; [|apply IH; inversion Ke; assumption]. inversion Ke as [|? ? Kh _]; subst.
    intros x [Lx Nx]. assert (Lk : k <= blen x) by (rewrite Lx, Ef, blen_app; fold k; lia).
    assert (La : blen (firstn (N.to_nat k) x) = k) by (unfold blen in *; rewrite firstn_length; lia). destruct (G _ (skipn (N.to_nat k) x) La) as [Lh Gx]. rewrite firstn_skipn in Gx. rewrite Gx. split.
    - rewrite blen_app, Lh, <- Lx. rewrite <- (firstn_skipn (N.to_nat k) x) at 2. rewrite blen_app, La. reflexivity.
    - intros i Hi. rewrite <- (Nx i Hi). rewrite <- (firstn_skipn (N.to_nat k) x) at 3. destruct (N.lt_ge_cases i k) as [Lt|Ge].
      + rewrite !nth_error_app1 by (unfold blen in *; lia). apply Kh; [exact La|exact Lt|]. destruct Hi as [Hi|Hi]; [exact Hi|lia].
      + rewrite !nth_error_app2 by (unfold blen in *; lia). f_equal. unfold blen in *. lia. }
  rewrite En. destruct (forall2_cut (edits k) n _ _ Ed) as [F1 F2].
  assert (Ea : after others (render_all (ft :: pre ++ mv :: post)) n = fold_left (fun x h => h x) (firstn n hs) (render_all (ft :: pre)) ++ render mv ++ render_all post).
  { rewrite Ef. exact (edits_rest k (firstn n others) (firstn n hs) _ _ F1 eq_refl). }
  rewrite Ea in Pn |- *. rewrite (front_late k (skipn n others) (skipn n hs) cap fuel m items _ _ p q F2 (edits_len k _ _ _ F1 eq_refl) Pn Sp).
  rewrite <- fold_left_app, firstn_skipn. reflexivity.
Qed.
Print Assumptions C97_front.

(** What the scan looks at, in every well-formed file: at most the file type atom, the heads of the other atoms and the movies. *)
Theorem C97_scanned : forall f fuel m i, outline f -> good_sizes f -> blen (render_all f) < N.of_nat fuel -> scanned fuel m (render_all f) i ->
  i < start f 1 \/ exists j a, (0 < j)%nat /\ nth_error f j = Some a /\ start f j <= i /\ (i < start f j + head_size a \/ (a_id a = id4 "moov" /\ i < start f (S j))).
Proof. exact scanned_needed. Qed.
Print Assumptions C97_scanned.
(** So the others may edit the contents of all atoms in front of the last movie, but not the file type and other movies. *)
Theorem C97_contents : forall others hs short rcap cap sizes last calls fuel m ft pre mv post items, let f := ft :: pre ++ mv :: post in let k := blen (render_all (ft :: pre)) in
  outline f -> sound_tables f -> good_sizes f -> storable items -> good_sizes (last_file items f) -> blen (render_all f) < N.of_nat fuel ->
  a_id mv = id4 "moov" -> named_kids (id4 "moov") post = [] ->
  last <> 0 -> Forall (fun n => n <> 0) sizes -> blen (render_all f) < N.of_nat calls ->
  Forall2 (edits k) others hs ->
  Forall (fun h => forall a i, blen a = k -> i < k -> scan_needs f i -> nth_error (h a) (N.to_nat i) = nth_error a (N.to_nat i)) hs ->
  exists mv', last_file items f = ft :: pre ++ mv' :: post /\
    full_write others short rcap cap sizes last calls fuel m items (render_all f) = SResult (Ok tt) (fold_left (fun x h => h x) hs (render_all (ft :: pre)) ++ render mv' ++ render_all post).
Proof.
  intros others hs short rcap cap sizes last calls fuel m ft pre mv post items f k O So G St G' Fu J N2 Nl Ns Lc Ed Ke. apply C97_front; try assumption.
  eapply Forall_impl; [|exact Ke]. cbv beta. intros h H a i La Li Sc. apply H; [exact La|exact Li|]. exact (scanned_needed _ fuel m i O G Fu Sc).
Qed.
Print Assumptions C97_contents.

(** The same with others that act also while the tables of chunk offsets are read, through a buffer and in pieces of any length. *)
Theorem C97_tables_contents : forall others hs short rcap cap sizes last calls fuel m ft pre mv post items, let f := ft :: pre ++ mv :: post in let k := blen (render_all (ft :: pre)) in
  outline f -> sound_tables f -> good_sizes f -> storable items -> good_sizes (last_file items f) -> blen (render_all f) < N.of_nat fuel ->
  a_id mv = id4 "moov" -> named_kids (id4 "moov") post = [] ->
  last <> 0 -> Forall (fun n => n <> 0) sizes -> blen (render_all f) < N.of_nat calls ->
  Forall2 (edits k) others hs ->
  Forall (fun h => forall a i, blen a = k -> i < k -> scan_needs f i -> nth_error (h a) (N.to_nat i) = nth_error a (N.to_nat i)) hs ->
  exists mv', last_file items f = ft :: pre ++ mv' :: post /\
    whole_write others short rcap cap sizes last calls fuel m items (render_all f) = SResult (Ok tt) (fold_left (fun x h => h x) hs (render_all (ft :: pre)) ++ render mv' ++ render_all post).
Proof.
  intros others hs short rcap cap sizes last calls fuel m ft pre mv post items f k O So G St G' Fu J N2 Nl Ns Lc Ed Ke. pose proof O as (ft' & s & rst & E & I & W & C & N & B). injection E as <- <-.
  rewrite named_end in B by assumption. apply Forall_app in B. destruct B as [B1 B2]. inversion B2; subst. unfold f in *. pose proof (last_at items ft pre mv post J N2) as El. rewrite El in G'.
  set (Z := fold_left (fun x h => h x) hs (render_all (ft :: pre))). assert (LZ : blen Z = k) by (apply (edits_len k others); [exact Ed|reflexivity]).
  pose proof (split_file ft pre mv post) as Ef. pose proof G as (_ & Lf). assert (Lz : blen (Z ++ render mv ++ render_all post) < 2 ^ 62) by (rewrite Ef in Lf; rewrite blen_app in *; fold k in Lf; lia).
  destruct (late_llast cap fuel m items ft s pre mv post Z (render_all post) I W C J B1 N2) as (p & q & Pr & Pl & La); try assumption; [exact (sound_at _ _ _ _ J N2 So)|apply storable_exact, St|].
  destruct Pl as (P1 & P2 & P3 & P4 & P5 & P6 & P7). fold k in P1, P2, P3, P4, P5, P6, P7. eexists. split; [exact El|].
  assert (Sp : forall F, blen F = k -> safe_plan F m p).
  { intros F LF. split; [rewrite P1, <- LF; apply safe_moov; lia|]. rewrite LF. split; [exact P3|]. split; [exact P4|]. split; assumption. }
  destruct (whole_reads others short rcap cap sizes last calls fuel m items (render_all (ft :: pre ++ mv :: post)) p q Lf Nl Ns Lc Pr) as (n & sh & En).
  { assert (Ks : Forall (fun h => forall a i, blen a = k -> i < k -> scanned fuel m (render_all (ft :: pre ++ mv :: post)) i -> nth_error (h a) (N.to_nat i) = nth_error a (N.to_nat i)) hs).
    { eapply Forall_impl; [|exact Ke]. cbv beta. intros h H a i Ha Hi Sc. apply H; [exact Ha|exact Hi|]. exact (scanned_needed _ fuel m i O G Fu Sc). }
    unfold keeping. clear - Ed Ks P7 Ef. revert Ks. induction Ed as [|g h o hs G F IH]; intros Ke; constructor; [|apply IH; inversion Ke; assumption]. inversion Ke as [|? ? Kh _]; subst.
    intros x [Lx Nx]. assert (Lk : k <= blen x) by (rewrite Lx, Ef, blen_app; fold k; lia).
    assert (La : blen (firstn (N.to_nat k) x) = k) by (unfold blen in *; rewrite firstn_length; lia). destruct (G _ (skipn (N.to_nat k) x) La) as [Lh Gx]. rewrite firstn_skipn in Gx. rewrite Gx. split.
    - rewrite blen_app, Lh, <- Lx. rewrite <- (firstn_skipn (N.to_nat k) x) at 2. rewrite blen_app, La. reflexivity.
    - intros i Hi. rewrite <- (Nx i Hi). rewrite <- (firstn_skipn (N.to_nat k) x) at 3. destruct (N.lt_ge_cases i k) as [Lt|Ge].
      + rewrite !nth_error_app1 by (unfold blen in *; lia). apply Kh; [exact La|exact Lt|]. destruct Hi as [Hi|Hi]; [exact Hi|lia].
      + rewrite !nth_error_app2 by (unfold blen in *; lia). f_equal. unfold blen in *. lia. }
  rewrite En. destruct (forall2_cut (edits k) n _ _ Ed) as [F1 F2].
  assert (Ea : after others (render_all (ft :: pre ++ mv :: post)) n = fold_left (fun x h => h x) (firstn n hs) (render_all (ft :: pre)) ++ render mv ++ render_all post).
  { rewrite Ef. exact (edits_rest k (firstn n others) (firstn n hs) _ _ F1 eq_refl). }
  assert (La' : blen (fold_left (fun x h => h x) (firstn n hs) (render_all (ft :: pre))) = k) by exact (edits_len k _ _ _ F1 eq_refl).
  rewrite Ea. apply (whole_late k (skipn n others) (skipn n hs)); [exact F2|exact La'|rewrite blen_app, La'; rewrite blen_app, LZ in Lz; exact Lz|exact Sp|].
  rewrite <- fold_left_app, firstn_skipn. exact La.
Qed.
Print Assumptions C97_tables_contents.

(** If the scan fails, it fails likewise, and the call leaves what the others leave. The bytes at which it fails need not be there:
    of these only those count that it looked at before. *)
Theorem C97_fails : forall others short rcap cap sizes last calls fuel m items f, blen f < 2 ^ 62 -> (forall p, prepare fuel m items f 0 <> Ok p) ->
  keeping (fun x => blen x = blen f /\ forall i, scanned fuel m f i -> nth_error x (N.to_nat i) = nth_error f (N.to_nat i)) others ->
  full_write others short rcap cap sizes last calls fuel m items f = SResult (wr_res (write_tag cap fuel m items f)) (fold_left (fun x g => g x) others f) /\
  whole_write others short rcap cap sizes last calls fuel m items f = SResult (wr_res (write_tag cap fuel m items f)) (fold_left (fun x g => g x) others f).
Proof.
  intros others short rcap cap sizes last calls fuel m items f L N K.
  assert (In0 : blen f = blen f /\ forall i, scanned fuel m f i -> nth_error f (N.to_nat i) = nth_error f (N.to_nat i)) by auto.
  assert (Af : forall n, blen (after others f n) = blen f /\ forall i, scanned fuel m f i -> nth_error (after others f n) (N.to_nat i) = nth_error f (N.to_nat i)).
  { intro n. exact (keeping_after _ others f n K In0). }
  set (s0 := SBuf others f 0 [] short).
  assert (On : exists n, sb_others s0 = skipn n others /\ sb_file s0 = after others f n) by (exists 0%nat; split; reflexivity).
  assert (R0 : ready f (scanned fuel m f) others f s0 0).
  { split; [exact On|]. split; [reflexivity|]. split; [reflexivity|]. intros j Hj. change (blen (sb_buf s0)) with 0 in Hj. lia. }
  assert (K0 : kept f others s0) by (split; [exact On|intro X; contradiction X; reflexivity]).
  destruct (run_off f (scanned fuel m f) others rcap L (fun n => proj2 (Af n)) (fun n => proj1 (Af n)) (io_locate fuel m items) s0 0 R0 K0) as [[(n & E1 & E2) _] F].
  { intros y i Iy Cy. rewrite locate_trail in Iy. exists y. split; assumption. }
  unfold full_write, whole_write, write_tag, write_tag_to. fold s0. rewrite FineProofs.locate_is in *.
  assert (Re : rest (sb_others (snd (sb_run rcap (io_locate fuel m items) s0))) (sb_file (snd (sb_run rcap (io_locate fuel m items) s0))) = fold_left (fun x g => g x) others f).
  { rewrite E1, E2. unfold rest, after. rewrite <- fold_left_app, firstn_skipn. reflexivity. }
  destruct (run (io_locate fuel m items) f 0) as [[pl q]|e|z|]; [exfalso; eapply N; reflexivity|..];
    destruct (sb_run rcap (io_locate fuel m items) s0) as [r s]; cbn [fst snd] in F, Re; subst r; unfold gave_up; rewrite Re; split; reflexivity.
Qed.
Print Assumptions C97_fails.

Lemma whole_gives_up : forall short rcap cap sizes last calls fuel m items f, blen f < 2 ^ 62 -> (forall p, prepare fuel m items f 0 <> Ok p) ->
  whole_write [] short rcap cap sizes last calls fuel m items f =
  SResult (sr_res (full_write [] short rcap cap sizes last calls fuel m items f)) (sr_file (full_write [] short rcap cap sizes last calls fuel m items f)).
Proof.
  intros short rcap cap sizes last calls fuel m items f L N. unfold whole_write, full_write. rewrite FineProofs.locate_is in N.
  assert (R : fst (sb_run rcap (io_locate fuel m items) (SBuf [] f 0 [] short)) = match run (io_locate fuel m items) f 0 with Ok (a, _) => Ok a | Err e => Err e | Panic q => Panic q | Fuel => Fuel end).
  { apply (run_alone f rcap L _ _ 0). split; [exists 0%nat; split; reflexivity|]. split; [reflexivity|]. split; [reflexivity|]. intros j Hj. change (blen (sb_buf (SBuf [] f 0 [] short))) with 0 in Hj. lia. }
  destruct (run (io_locate fuel m items) f 0) as [[pl q]| | |]; [exfalso; eapply N; reflexivity|..];
    destruct (sb_run rcap (io_locate fuel m items) (SBuf [] f 0 [] short)) as [r s]; cbn [fst] in R; subst r; reflexivity.
Qed.
(** Without others this call has the result of the call of the other theorems and leaves what that leaves, also if it fails. *)
Theorem C97_tables_alone : forall short rcap cap sizes last calls fuel m items f, blen f < 2 ^ 62 -> last <> 0 -> Forall (fun n => n <> 0) sizes -> blen f < N.of_nat calls ->
  whole_write [] short rcap cap sizes last calls fuel m items f = SResult (wr_res (write_tag cap fuel m items f)) (wr_file (write_tag cap fuel m items f)).
Proof.
  intros short rcap cap sizes last calls fuel m items f L Nl Ns Lc.
  destruct (prepare fuel m items f 0) as [[p e]|e|q|] eqn:P.
  - destruct (C95_alone cap fuel m items f) as [E1 E2]. rewrite <- E1, <- E2. clear E1 E2. rewrite (proj2 (shared_late cap fuel m items f p e (fun x => x) P)).
    destruct (whole_reads [] short rcap cap sizes last calls fuel m items f p e L Nl Ns Lc P ltac:(constructor)) as (n & sh & E). rewrite E. unfold after. rewrite firstn_nil, skipn_nil. cbn [fold_left].
    rewrite (whole_alone sh rcap cap m p f L). destruct (late cap m p f). reflexivity.
  - destruct (C97_alone short rcap cap sizes last calls fuel m items f L Nl Ns Lc) as [E1 E2]. rewrite <- E1, <- E2. apply (whole_gives_up short rcap cap sizes last calls fuel m items f L). intros [p s]. rewrite P. discriminate.
  - destruct (C97_alone short rcap cap sizes last calls fuel m items f L Nl Ns Lc) as [E1 E2]. rewrite <- E1, <- E2. apply (whole_gives_up short rcap cap sizes last calls fuel m items f L). intros [p s]. rewrite P. discriminate.
  - destruct (C97_alone short rcap cap sizes last calls fuel m items f L Nl Ns Lc) as [E1 E2]. rewrite <- E1, <- E2. apply (whole_gives_up short rcap cap sizes last calls fuel m items f L). intros [p s]. rewrite P. discriminate.
Qed.
Print Assumptions C97_tables_alone.

(** The file of C09, where containers are repeated. Two programs write over the media data in front of the last movie; the scan looks at none of these bytes. *)
Definition c97_edit (x a : bytes) : bytes := firstn (List.length a - List.length x) a ++ x.
Lemma c97_edits : forall x k, blen x <= k -> edits k (fun f => c97_edit x (firstn (N.to_nat k) f) ++ skipn (N.to_nat k) f) (c97_edit x).
Proof.
  intros x k L a r E. split; [unfold c97_edit, blen in *; rewrite app_length, firstn_length; lia|]. assert (K : N.to_nat k = List.length a) by (unfold blen in E; lia).
  rewrite K, firstn_app, Nat.sub_diag, firstn_all, app_nil_r, skipn_app, Nat.sub_diag, skipn_all. reflexivity.
Qed.
Example C97_example :
  let F := render_all (ex_ftyp :: [ex_mdat]) in
  let edit x := fun f => c97_edit x (firstn (N.to_nat (blen F)) f) ++ skipn (N.to_nat (blen F)) f in
  outline c09_file /\ sound_tables c09_file /\ good_sizes c09_file /\ storable ex_new_items /\ good_sizes (last_file ex_new_items c09_file) /\
  blen (render_all c09_file) < N.of_nat 1500 /\ c09_file = ex_ftyp :: [ex_mdat] ++ c88_moov :: [ex_mdat] /\
  Forall2 (edits (blen F)) [edit (raw [1; 2; 3]); edit (raw [4])] [c97_edit (raw [1; 2; 3]); c97_edit (raw [4])] /\
  Forall (fun h => forall a i, blen a = blen F -> i < blen F -> scanned 1500 Checked (render_all c09_file) i -> nth_error (h a) (N.to_nat i) = nth_error a (N.to_nat i))
    [c97_edit (raw [1; 2; 3]); c97_edit (raw [4])] /\
  skipn 24 F <> raw [0; 0; 0; 0; 0; 1; 2; 4] /\
  firstn (List.length F) (sr_file (full_write [edit (raw [1; 2; 3]); edit (raw [4])] [] 64 64 [] 100 1500 1500 Checked ex_new_items (render_all c09_file))) = firstn 24 F ++ firstn 5 (skipn 24 F) ++ raw [1; 2; 4].
Proof.
  cbv zeta. destruct C09_repeated_example as (A & B & C & D & E & _). repeat (split; [assumption|]). split; [vm_compute; reflexivity|]. split; [reflexivity|].
  split; [apply Forall2_cons; [apply c97_edits; vm_compute; discriminate|apply Forall2_cons; [apply c97_edits; vm_compute; discriminate|apply Forall2_nil]]|]. split; [|split; [vm_compute; discriminate|vm_compute; reflexivity]].
  assert (S : forall i, i < 32 -> scanned 1500 Checked (render_all c09_file) i -> i < 24).
  { intros i Li (y & Iy & C1 & C2). destruct (N.lt_ge_cases i 24) as [|Ge]; [assumption|exfalso].
    assert (K : forallb (fun s => (st_to s <=? 24) || (32 <=? st_from s)) (looked (trail (io_scan 1500 Checked) (render_all c09_file) 0)) = true) by (vm_compute; reflexivity).
    rewrite forallb_forall in K. specialize (K y Iy). lia. }
  assert (T : forall x, blen x <= 8 -> forall a i, blen a = 32 -> i < 32 -> scanned 1500 Checked (render_all c09_file) i -> nth_error (c97_edit x a) (N.to_nat i) = nth_error a (N.to_nat i)).
  { intros x Lx a i La Li Sc. specialize (S i Li Sc). unfold c97_edit. rewrite <- (firstn_skipn (List.length a - List.length x) a) at 3. unfold blen in *. rewrite !nth_error_app1 by (rewrite firstn_length; lia). reflexivity. }
  change (blen (render_all [ex_ftyp; ex_mdat])) with 32. apply Forall_cons; [apply T; vm_compute; discriminate|apply Forall_cons; [apply T; vm_compute; discriminate|apply Forall_nil]].
Qed.

(** In the same file only the last eight bytes in front of the movie, the media data, may be edited. *)
Example C97_contents_example : forall i, i < blen (render_all (ex_ftyp :: [ex_mdat])) -> (scan_needs c09_file i <-> i < 24).
Proof.
  change (blen (render_all [ex_ftyp; ex_mdat])) with 32. intros i Li.
  assert (S1 : start c09_file 1 = 16) by (vm_compute; reflexivity). split.
  - intros [H|(j & a & J & Ej & Lo & Hi)]; [rewrite S1 in H; lia|]. destruct j as [|[|j]]; [lia| |].
    + injection Ej as <-. rewrite S1 in *. destruct Hi as [Hi|[Hi _]]; [change (head_size ex_mdat) with 8 in Hi; lia|discriminate Hi].
    + exfalso. assert (32 <= start c09_file (S (S j))); [|lia]. unfold start, c09_file. cbn [firstn app]. rewrite !ParseLemmas.blen_render_all_cons.
      change (ParseLemmas.asize ex_ftyp) with 16. change (ParseLemmas.asize ex_mdat) with 16. lia.
  - intros H. destruct (N.lt_ge_cases i 16) as [L|L]; [left; rewrite S1; exact L|right]. exists 1%nat, ex_mdat. rewrite S1. split; [lia|]. split; [reflexivity|]. split; [exact L|left]. change (head_size ex_mdat) with 8. lia.
Qed.

(** An edit that happens after the scan, before a table is read to its end, with short reads. *)
Example C97_tables_example :
  let F := render_all (ex_ftyp :: [ex_mdat]) in
  let edit := fun f => c97_edit (raw [7]) (firstn (N.to_nat (blen F)) f) ++ skipn (N.to_nat (blen F)) f in
  let w n := whole_write (repeat (fun b => b) n ++ [edit]) [3; 1; 2] 64 64 [] 1000 1500 1500 Checked ex_new_items (render_all c09_file) in
  sr_res (w 70%nat) = Ok tt /\ skipn 31 (firstn 32 (sr_file (w 70%nat))) = raw [7] /\
  skipn 32 (sr_file (w 70%nat)) = skipn 32 (wr_file (write_tag 64 1500 Checked ex_new_items (render_all c09_file))).
Proof. cbv zeta. split; [|split]; vm_compute; reflexivity. Qed.

(** The file ends within the movie, and another program writes over the media data in front of it. *)
Example C97_fails_example :
  let edit := fun f => c97_edit (raw [7]) (firstn 32 f) ++ skipn 32 f in
  let f := firstn 100 (render_all c09_file) in
  sr_res (whole_write (repeat (fun b => b) 5 ++ [edit]) [3; 1; 2] 64 64 [] 1000 1500 1500 Checked ex_new_items f) = Err EIoEof /\
  wr_res (write_tag 64 1500 Checked ex_new_items f) = Err EIoEof /\
  nth_error (sr_file (whole_write (repeat (fun b => b) 5 ++ [edit]) [3; 1; 2] 64 64 [] 1000 1500 1500 Checked ex_new_items f)) 31 = nth_error (raw [7]) 0.
Proof. cbv zeta. split; [|split]; vm_compute; reflexivity. Qed.

(** Reading the second of two tables fails, since its version is unknown. *)
Example C97_tables_alone_example :
  let f := firstn 221 (render_all c09_file) ++ raw [1] ++ skipn 222 (render_all c09_file) in
  sr_res (whole_write [] [3; 1; 2] 64 64 [] 1000 1500 1500 Checked ex_new_items f) = Err (EUnknownVersion 1).
Proof. vm_compute. reflexivity. Qed.

(** "If two programs write tags to a file at the same time, and one of the calls runs as a whole between two calls of the other, a tag can be read afterwards if both succeed" is false,
    and so is "the calls do not panic": the length of the file is asked for after the scan (mod.rs 450), and the rest of it is read after that (454).
    If the other program makes the file shorter before the first, the difference of line 451 is negative; if it does so between the two, nothing is read. *)
Definition c97_at (n : nat) : list (bytes -> bytes) := repeat (fun b => b) n ++ [c95_other].
Theorem C97_two_writers_refuted : exists f t items, describes f t /\ good_sizes f /\ editable f /\ storable items /\
  wr_res (write_tag 64 2000 Checked [] (render_all f)) = Ok tt /\ wr_res (write_tag 64 2000 Checked items (render_all f)) = Ok tt /\
  (exists n, sr_res (full_write (c97_at n) [] 64 64 [] 1000 2000 2000 Checked items (render_all f)) = Panic POverflow) /\
  (exists n e, let w := full_write (c97_at n) [] 64 64 [] 1000 2000 2000 Checked items (render_all f) in sr_res w = Ok tt /\ read_tag 2000 Checked (sr_file w) = Err e).
Proof.
  exists ex_file, ex_tag, ex_new_items. split; [exact ex_describes|]. split; [exact ex_sizes|]. split; [exact ex_editable|]. split; [apply C88_example|].
  split; [vm_compute; reflexivity|]. split; [vm_compute; reflexivity|]. split; [exists 67%nat; vm_compute; reflexivity|]. exists 69%nat. eexists. cbv zeta. split; vm_compute; reflexivity.
Qed.
Print Assumptions C97_two_writers_refuted.
