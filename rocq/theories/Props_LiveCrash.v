(** Interrupted and failing writes to files with repeated containers: more of C09 and C50 (see properties.jsonl). *)

From Coq Require Import List NArith ZArith Bool Lia Arith String.
From Coq Require Import ZifyBool ZifyNat ZifyN.
From Verif Require Import Base BaseLemmas Utf UtfLemmas Types Stream Parse Find Write Fault TagSpec FileSpec ParseLemmas ReadProofs
  ExampleFile ReadFacts NewMeans WriteBytes DumpProofs WriteState ScanProofs AdjustProofs WriteProofs WriteMain UpdateMeans UpdateTwice
  EditSpec EditProofs OffsetProofs WriteExample StoreSpec StoreProofs SizeProofs LastSpec LastProofs LastWrite LastMeans
  Props_Read Props_ReadErr Props_Dump Props_Write Props_Write2 Props_Last Props_Fault.
Import ListNotations.
Local Open Scope list_scope.

(** The calls that change the file are all behind what is in front of the last movie. *)
Lemma live_ops : forall cap fuel m ft pre mv post items, let f := ft :: pre ++ mv :: post in
  outline f -> sound_tables f -> good_sizes f -> storable items -> good_sizes (last_file items f) -> blen (render_all f) < N.of_nat fuel ->
  a_id mv = id4 "moov" -> named_kids (id4 "moov") post = [] -> Forall (op_ge (blen (render_all (ft :: pre)))) (wr_ops (write_tag cap fuel m items (render_all f))).
Proof.
  intros cap fuel m ft pre mv post items f (ft' & s & rest & E & I & W & C & N & B) So G St G' Fu J N2. injection E as <- <-.
  rewrite named_end in B by assumption. apply Forall_app in B. destruct B as [B1 B2]. inversion B2; subst. unfold f in *. rewrite (last_at items ft pre mv post J N2) in G'.
  destruct (write_llast cap fuel m items ft s pre mv post I W C J B1 N2) as (ops & H & _ & O); try assumption; [exact (sound_at _ _ _ _ J N2 So)|apply storable_exact, St|].
  rewrite H. exact O.
Qed.
Lemma front_same : forall (A B g : bytes), firstn (N.to_nat (blen A)) g = firstn (N.to_nat (blen A)) (A ++ B) -> exists rest, g = A ++ rest.
Proof.
  intros A B g X. exists (skipn (N.to_nat (blen A)) g). rewrite <- (firstn_skipn (N.to_nat (blen A)) g) at 1. f_equal.
  rewrite X, firstn_app, to_nat_blen, Nat.sub_diag, firstn_O, app_nil_r. apply firstn_all.
Qed.

(** Whatever is repeated in the file, movies included: wherever a write is interrupted, everything in front of the last movie is unchanged. *)
Theorem C09_repeated : forall cap fuel m ft pre mv post items g, let f := ft :: pre ++ mv :: post in
  outline f -> sound_tables f -> good_sizes f -> storable items -> good_sizes (last_file items f) -> blen (render_all f) < N.of_nat fuel ->
  a_id mv = id4 "moov" -> named_kids (id4 "moov") post = [] ->
  interrupted (wr_ops (write_tag cap fuel m items (render_all f))) (render_all f) g ->
  exists rest, g = render_all (ft :: pre) ++ rest.
Proof.
  intros cap fuel m ft pre mv post items g f O So G St G' Fu J N2 (made & rest & Eo & C).
  pose proof (live_ops cap fuel m ft pre mv post items O So G St G' Fu J N2) as Op. fold f in Op. rewrite Eo in Op. apply Forall_app in Op. destruct Op as [O1 O2].
  assert (Ef : render_all f = render_all (ft :: pre) ++ render_all (mv :: post)) by (unfold f; apply (ParseLemmas.render_all_app (ft :: pre))).
  assert (L : blen (render_all (ft :: pre)) <= blen (render_all f)) by (rewrite Ef, blen_app; lia).
  destruct (ops_keep _ made (render_all f) O1 L) as [A B]. apply (front_same _ (render_all (mv :: post))). rewrite <- Ef.
  destruct C as [->|(p & d & r & k & -> & ->)]; [exact A|]. inversion O2 as [|? ? H _]; subst.
  destruct (op_keeps (blen (render_all (ft :: pre))) (OWrite p (firstn k d)) (run_ops made (render_all f)) H B) as [X _]. cbn [apply_op] in X. congruence.
Qed.
Print Assumptions C09_repeated.

(** The same for every pattern of failing calls. *)
Theorem C50_repeated : forall ev cap fuel m ft pre mv post items, let f := ft :: pre ++ mv :: post in
  outline f -> sound_tables f -> good_sizes f -> storable items -> good_sizes (last_file items f) -> blen (render_all f) < N.of_nat fuel ->
  a_id mv = id4 "moov" -> named_kids (id4 "moov") post = [] ->
  exists rest, fr_file (faulty_write ev cap fuel m items (render_all f) 0) = render_all (ft :: pre) ++ rest.
Proof.
  intros ev cap fuel m ft pre mv post items f O So G St G' Fu J N2. pose proof (C50_state ev cap fuel m items (render_all f) 0) as S. cbv zeta in S.
  change (write_tag_to cap fuel m items (render_all f) 0) with (write_tag cap fuel m items (render_all f)) in S.
  pose proof (live_ops cap fuel m ft pre mv post items O So G St G' Fu J N2) as Op. fold f in Op.
  assert (Ef : render_all f = render_all (ft :: pre) ++ render_all (mv :: post)) by (unfold f; apply (ParseLemmas.render_all_app (ft :: pre))).
  assert (L : blen (render_all (ft :: pre)) <= blen (render_all f)) by (rewrite Ef, blen_app; lia).
  apply (front_same _ (render_all (mv :: post))). rewrite <- Ef. exact (state_front _ _ (render_all f) _ Op L S).
Qed.
Print Assumptions C50_repeated.

Lemma interrupted_first : forall ops f, interrupted ops f f.
Proof. intros ops f. exists [], ops. split; [reflexivity|]. left. reflexivity. Qed.
(** Media data in front of the movie of C88, which has repeated tables, user data, metadata and item lists. *)
Definition c09_file : list atom := ex_ftyp :: [ex_mdat] ++ c88_moov :: [ex_mdat].
Example C09_repeated_example :
  outline c09_file /\ sound_tables c09_file /\ good_sizes c09_file /\ storable ex_new_items /\ good_sizes (last_file ex_new_items c09_file) /\ ~ editable c09_file /\
  interrupted (wr_ops (write_tag 64 1500 Checked ex_new_items (render_all c09_file))) (render_all c09_file) (render_all c09_file).
Proof.
  destruct C88_example as (D & S & _ & St & _ & E & _). split; [|split; [|split; [|split; [|split; [|split]]]]].
  - destruct (described_outline _ _ D) as (ft & s & rest & Ef & I & W & C & N & B). injection Ef as <- <-. exists ex_ftyp, s, ([ex_mdat] ++ c88_moov :: [ex_mdat]). repeat (split; [first [reflexivity|assumption]|]). exact B.
  - exact S.
  - split; vm_compute; reflexivity.
  - exact St.
  - split; vm_compute; reflexivity.
  - exact E.
  - apply interrupted_first.
Qed.
