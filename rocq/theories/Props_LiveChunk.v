(** Exactly which chunk offsets stay right in files with repeated containers: C94 (see properties.jsonl and ChunkLive). *)

From Coq Require Import List NArith ZArith Bool Lia Arith String.
From Coq Require Import ZifyBool ZifyNat ZifyN.
From Verif Require Import Base BaseLemmas Utf UtfLemmas Types Stream Parse Find Write TagSpec FileSpec ParseLemmas ReadProofs
  ExampleFile ReadFacts NewMeans WriteBytes DumpProofs WriteState ScanProofs AdjustProofs WriteProofs WriteMain UpdateMeans UpdateTwice
  EditSpec EditProofs OffsetProofs WriteExample StoreSpec StoreProofs SizeProofs LastSpec LastProofs LastWrite LastMeans LastTwice LastSize LiveSpec LiveProofs
  ChunkSpec ChunkProofs ChunkLive Props_Read Props_ReadErr Props_Dump Props_Write Props_Write2 Props_Last.
Import ListNotations.
Local Open Scope list_scope.

(** The tables of which [adjusted] speaks are all tables of the file, and those marked are the ones that count. *)
Theorem C94_tables : forall f, map snd (marked_tables f) = file_tables f /\ map snd (filter fst (marked_tables f)) = live_tables f.
Proof. intro f. split; [apply marked_all|apply marked_live]. Qed.
Print Assumptions C94_tables.

Lemma live_tiles : forall cap fuel m f items, outline f -> sound_tables f -> good_sizes f -> storable items -> good_sizes (last_file items f) -> blen (render_all f) < N.of_nat fuel ->
  wr_res (write_tag cap fuel m items (render_all f)) = Ok tt /\ wr_file (write_tag cap fuel m items (render_all f)) = render_all (last_file items f).
Proof. intros cap fuel m f items O S G St G' Fu. destruct (last_written cap fuel m items f O S G (storable_exact _ St) G' Fu) as (ops & ->). split; reflexivity. Qed.

(** Every well-formed file, whatever is repeated in it, whose tables that count are sound: each offset, in any table,
    of a chunk in media data is in the new file where it was, and still points to the same place of the same media data atom if and only if [any_stays]. *)
Theorem C94_exact : forall cap fuel m f d items, describes f d -> sound_tables f -> good_sizes f -> storable items -> good_sizes (last_file items f) -> blen (render_all f) < N.of_nat fuel ->
  let w := write_tag cap fuel m items (render_all f) in
  wr_res w = Ok tt /\ exists g, wr_file w = render_all g /\ (Z.of_N (blen (wr_file w)) - Z.of_N (blen (render_all f)) = last_displacement items f)%Z /\
  (forall k a, nth_error f k = Some a -> a_id a <> id4 "moov" -> nth_error g k = Some a) /\
  forall i j o k n t, entry f i j o -> inside f k o n -> nth_error (file_tables f) i = Some t ->
    exists o', entry g i j o' /\ (forall o2, entry g i j o2 -> o2 = o') /\ (same_place f g k o o' <-> any_stays f items i (fst t) k o).
Proof.
  intros cap fuel m f d items D So G St G' Fu w. destruct (live_tiles cap fuel m f items (described_outline f d D) So G St G' Fu) as (W1 & W2). unfold w. rewrite W1, W2. split; [reflexivity|].
  exists (last_file items f). split; [reflexivity|]. split; [reflexivity|]. split; [exact (live_atoms items f d D So)|].
  intros i j o k n tb He Hk Ht. destruct (any_exact items f d D So i j o k n He Hk) as (t' & o' & Ht' & A & B & C). rewrite Ht in Ht'. injection Ht' as <-. exists o'. auto.
Qed.
Print Assumptions C94_exact.

(** Then the bytes of the chunk are the same. *)
Theorem C94_bytes : forall cap fuel m f d items, describes f d -> sound_tables f -> good_sizes f -> storable items -> good_sizes (last_file items f) -> blen (render_all f) < N.of_nat fuel ->
  let w := write_tag cap fuel m items (render_all f) in
  forall i j o k n t, entry f i j o -> inside f k o n -> nth_error (file_tables f) i = Some t -> any_stays f items i (fst t) k o ->
  exists g o', wr_file w = render_all g /\ entry g i j o' /\ slice (wr_file w) o' n = slice (render_all f) o n.
Proof.
  intros cap fuel m f d items D So G St G' Fu w i j o k n tb He Hk Ht Sy. destruct (live_tiles cap fuel m f items (described_outline f d D) So G St G' Fu) as (W1 & W2). unfold w. rewrite W2.
  destruct (any_exact items f d D So i j o k n He Hk) as (t' & o' & Ht' & A & _ & C). rewrite Ht in Ht'. injection Ht' as <-.
  exists (last_file items f), o'. split; [reflexivity|]. split; [exact A|]. destruct Hk as (md & E & I & S1 & S2).
  apply (kept_slice f (last_file items f) k md o o' n); [exact E| |exact S1|exact S2|apply C, Sy].
  apply (live_atoms items f d D So); [exact E|rewrite I; discriminate].
Qed.
Print Assumptions C94_bytes.

(** So all chunks are found again if and only if all offsets are of this kind. *)
Theorem C94_all : forall cap fuel m f d items, describes f d -> sound_tables f -> good_sizes f -> storable items -> good_sizes (last_file items f) -> blen (render_all f) < N.of_nat fuel ->
  exists g, wr_file (write_tag cap fuel m items (render_all f)) = render_all g /\
    (all_in_place f g <-> forall i j o k n t, entry f i j o -> inside f k o n -> nth_error (file_tables f) i = Some t -> any_stays f items i (fst t) k o).
Proof.
  intros cap fuel m f d items D So G St G' Fu. destruct (C94_exact cap fuel m f d items D So G St G' Fu) as (_ & g & Eg & _ & _ & X). exists g. split; [exact Eg|]. split.
  - intros H i j o k n t He Hk Ht. destruct (H i j o k n He Hk) as (o1 & A1 & P1). destruct (X i j o k n t He Hk Ht) as (o' & A & B & C). apply C. rewrite <- (B o1 A1). exact P1.
  - intros H i j o k n He Hk. pose proof He as (t & Ht & _). destruct (X i j o k n t He Hk Ht) as (o' & A & _ & C). exists o'. split; [exact A|]. apply C. eapply H; eassumption.
Qed.
Print Assumptions C94_all.

(** A file with four tables: one that does not count, the one that replaces it, one between two user data atoms and one behind both;
    media data is on both sides of the movie. *)
Definition c94_moov : atom := c04_moov [ex_trak [ex_stco [24; 328]; ex_stco [24; 328]]; ex_udta []; ex_trak [ex_stco [24; 328]]; ex_udta []; ex_trak [ex_stco [24; 328]]].
Definition c94_file : list atom := [ex_ftyp; ex_mdat; c94_moov; ex_mdat].
Lemma c94_describes : exists d, describes c94_file d.
Proof.
  eexists. apply (c04_describes [ex_mdat] _ [ex_mdat]); try reflexivity.
  - assert (T : forall l, named_kids (id4 "stsd") l = [] -> trak_means (ex_trak l) None).
    { intros l E. eapply box_skip; [reflexivity|reflexivity|]. eapply box_skip; [reflexivity|reflexivity|]. eapply box_skip; [reflexivity|reflexivity|]. apply box_none; [reflexivity|exact E]. }
    repeat (constructor; [apply T; reflexivity|]). constructor.
  - repeat (constructor; [apply box_none; reflexivity|]). constructor.
Qed.
Lemma c94_movie : forall m, movie_is c94_file m <-> m = 2%nat.
Proof.
  intro m. split; [|intros ->; eexists; split; reflexivity]. intros (x & E & Ix).
  destruct m as [|[|[|[|m]]]]; cbn in E; try (injection E as <-; try discriminate Ix; reflexivity). destruct m; discriminate E.
Qed.
Lemma c94_adjusted : forall i, adjusted c94_file i <-> (i = 1%nat \/ i = 2%nat).
Proof.
  intro i. unfold c94_file. rewrite (adjusted_iff ex_ftyp [ex_mdat] c94_moov [ex_mdat]) by reflexivity. split.
  - intros (t & H). destruct i as [|[|[|i]]]; [cbn in H; discriminate H|auto|auto|cbn in H; destruct i; discriminate H].
  - intros [-> | ->]; eexists; vm_compute; reflexivity.
Qed.
Example C94_example :
  (exists d, describes c94_file d) /\ sound_tables c94_file /\ good_sizes c94_file /\ storable ex_new_items /\ good_sizes (last_file ex_new_items c94_file) /\ ~ editable c94_file /\
  last_displacement ex_new_items c94_file = 173%Z /\ inside c94_file 1 24 2 /\ inside c94_file 3 328 2 /\
  (forall i, (i < 4)%nat -> entry c94_file i 0 24 /\ entry c94_file i 1 328) /\
  (any_stays c94_file ex_new_items 0 4 1 24 /\ ~ any_stays c94_file ex_new_items 0 4 3 328) /\ (~ any_stays c94_file ex_new_items 1 4 1 24 /\ any_stays c94_file ex_new_items 1 4 3 328) /\
  map offsets (file_tables (last_file ex_new_items c94_file)) = [[24; 328]; [197; 501]; [197; 501]; [24; 328]].
Proof.
  assert (D : last_displacement ex_new_items c94_file = 173%Z) by (vm_compute; reflexivity).
  assert (M : mdat_follows c94_file) by (eexists [_; _], _, [_]; split; [reflexivity|split; [reflexivity|discriminate]]).
  split; [exact c94_describes|]. split. { repeat constructor; apply good_tableb_ok; vm_compute; reflexivity. }
  split; [split; vm_compute; reflexivity|]. split; [apply ex_updatable|]. split; [split; vm_compute; reflexivity|].
  split. { intro E. inversion E as [|? ? [_ [O _]] _]; subst. vm_compute in O. lia. }
  split; [exact D|].
  split; [eexists; split; [reflexivity|]; repeat split; vm_compute; discriminate|]. split; [eexists; split; [reflexivity|]; repeat split; vm_compute; discriminate|].
  split. { intros i L. destruct i as [|[|[|[|i]]]]; [| | | |lia]; split; eexists; split; vm_compute; reflexivity. }
  unfold any_stays. rewrite D. split.
  - assert (A : ~ adjusted c94_file 0) by (intro A; apply c94_adjusted in A; lia). split.
    + split; [intros _ X; contradiction|]. intros _ (q & Q & L). apply c94_movie in Q. lia.
    + intros [_ X]. enough (Y : 173%Z = 0%Z) by discriminate Y. apply X; [exact A|]. exists 2%nat. split; [now apply c94_movie|lia].
  - split; [|vm_compute; reflexivity]. assert (A : adjusted c94_file 1) by (apply c94_adjusted; auto). split.
    + intros [X _]. destruct (X M A) as [_ Y]. enough (Z : (173 mod 2 ^ (8 * Z.of_nat 4) = 0)%Z) by discriminate Z. apply Y. exists 2%nat. split; [now apply c94_movie|lia].
    + split; [|intros X; contradiction]. intros _ _. split; [intros _; reflexivity|]. intros (q & Q & L). apply c94_movie in Q. lia.
Qed.
