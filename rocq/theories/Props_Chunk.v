(** Exactly which chunk offsets stay right: C74 (see properties.jsonl and ChunkSpec). *)

From Coq Require Import List NArith ZArith Bool Lia Arith String.
From Coq Require Import ZifyBool ZifyNat ZifyN.
From Verif Require Import Base BaseLemmas Utf UtfLemmas Types Stream Parse Find Write TagSpec FileSpec ParseLemmas ReadProofs
  ExampleFile ReadFacts NewMeans WriteBytes DumpProofs WriteState ScanProofs AdjustProofs WriteProofs WriteMain UpdateMeans UpdateTwice
  EditSpec EditProofs OffsetProofs WriteExample ChunkSpec ChunkProofs Props_Read Props_ReadErr Props_Dump Props_Write Props_Write2.
Import ListNotations.
Local Open Scope list_scope.

(** Every well-formed file that can be updated: each offset of a chunk in media data is in the new file
    where it was, and still points to the same place of the same media data atom if and only if [stays]. *)
Theorem C74_exact : forall cap fuel m f items, updatable f items -> blen (render_all f) < N.of_nat fuel ->
  let w := write_tag cap fuel m items (render_all f) in
  wr_res w = Ok tt /\ exists g, wr_file w = render_all g /\ (Z.of_N (blen (wr_file w)) - Z.of_N (blen (render_all f)) = displacement items f)%Z /\
  (forall k md, nth_error f k = Some md -> a_id md = id4 "mdat" -> nth_error g k = Some md) /\
  forall i j o k n t, entry f i j o -> inside f k o n -> nth_error (file_tables f) i = Some t ->
    exists o', entry g i j o' /\ (forall o2, entry g i j o2 -> o2 = o') /\ (same_place f g k o o' <-> stays f items i (fst t) k o).
Proof.
  intros cap fuel m f items U Fu w. destruct (write_ok cap fuel m f items U Fu) as (ops & W & _). unfold w. rewrite W. split; [reflexivity|].
  exists (update_file items f). destruct (U) as ((_ & t & D) & E & _). split; [reflexivity|]. split; [reflexivity|]. split; [exact (media_same items f t D)|].
  intros i j o k n tb He Hk Ht. destruct (chunk_exact items f t D E i j o k n He Hk) as (t' & o' & Ht' & A & B & C). rewrite Ht in Ht'. injection Ht' as <-. exists o'. auto.
Qed.
Print Assumptions C74_exact.

(** Then the bytes of the chunk are the same. *)
Theorem C74_bytes : forall cap fuel m f items, updatable f items -> blen (render_all f) < N.of_nat fuel ->
  let w := write_tag cap fuel m items (render_all f) in
  forall i j o k n t, entry f i j o -> inside f k o n -> nth_error (file_tables f) i = Some t -> stays f items i (fst t) k o ->
  exists g o', wr_file w = render_all g /\ entry g i j o' /\ slice (wr_file w) o' n = slice (render_all f) o n.
Proof.
  intros cap fuel m f items U Fu w i j o k n tb He Hk Ht St. destruct (write_ok cap fuel m f items U Fu) as (ops & W & _). unfold w. rewrite W.
  destruct (U) as ((_ & t & D) & E & _). destruct (chunk_exact items f t D E i j o k n He Hk) as (t' & o' & Ht' & A & _ & C). rewrite Ht in Ht'. injection Ht' as <-.
  exists (update_file items f), o'. split; [reflexivity|]. split; [exact A|]. eapply (chunk_bytes items f t D E); [exact Hk|apply C, St].
Qed.
Print Assumptions C74_bytes.

(** So all chunks are found again if and only if all offsets are of this kind. *)
Theorem C74_all : forall cap fuel m f items, updatable f items -> blen (render_all f) < N.of_nat fuel ->
  exists g, wr_file (write_tag cap fuel m items (render_all f)) = render_all g /\
    (all_in_place f g <-> forall i j o k n t, entry f i j o -> inside f k o n -> nth_error (file_tables f) i = Some t -> stays f items i (fst t) k o).
Proof.
  intros cap fuel m f items U Fu. destruct (C74_exact cap fuel m f items U Fu) as (_ & g & Eg & _ & _ & X). exists g. split; [exact Eg|]. split.
  - intros H i j o k n t He Hk Ht. destruct (H i j o k n He Hk) as (o1 & A1 & P1). destruct (X i j o k n t He Hk Ht) as (o' & A & B & C). apply C. rewrite <- (B o1 A1). exact P1.
  - intros H i j o k n He Hk. pose proof He as (t & Ht & _). destruct (X i j o k n t He Hk Ht) as (o' & A & _ & C). exists o'. split; [exact A|]. apply C. eapply H; eassumption.
Qed.
Print Assumptions C74_all.

(** A file with a table in front of and one behind the user data, and media data on both sides of the movie:
    of the four offsets exactly two stay right. *)
Definition c74_file : list atom :=
  [ex_ftyp; ex_mdat; c04_moov [ex_trak [ex_stco [24; 222]]; ex_udta []; ex_trak [ex_stco [25; 223]]]; ex_mdat].
Lemma c74_updatable : updatable c74_file ex_new_items.
Proof.
  split; [split; [split; vm_compute; reflexivity|]|].
  { eexists. apply (c04_describes [ex_mdat] _ [ex_mdat]); try reflexivity.
    - assert (T : forall l, trak_means (ex_trak [ex_stco l]) None).
      { intro l. eapply box_skip; [reflexivity|reflexivity|]. eapply box_skip; [reflexivity|reflexivity|]. eapply box_skip; [reflexivity|reflexivity|]. apply box_none; reflexivity. }
      repeat (constructor; [apply T|]). constructor.
    - constructor; [|constructor]. apply box_none; reflexivity. }
  split; [apply editableb_ok; vm_compute; reflexivity|]. split; [apply storableb_ok; vm_compute; reflexivity|split; vm_compute; reflexivity].
Qed.
Lemma c74_movie : forall m, movie_is c74_file m <-> m = 2%nat.
Proof.
  intro m. split; [|intros ->; eexists; split; reflexivity]. intros (x & E & Ix).
  destruct m as [|[|[|[|m]]]]; cbn in E; try (injection E as <-; try discriminate Ix; reflexivity). destruct m; discriminate E.
Qed.
Lemma c74_early : early c74_file 0 /\ ~ early c74_file 1.
Proof.
  split.
  - exists (c04_moov [ex_trak [ex_stco [24; 222]]; ex_udta []; ex_trak [ex_stco [25; 223]]]), [ex_trak [ex_stco [24; 222]]], [ex_udta []; ex_trak [ex_stco [25; 223]]].
    split; [cbn; tauto|]. split; [reflexivity|]. split; [reflexivity|]. split; [reflexivity|]. split; [right; eexists _, _; split; reflexivity|cbn; lia].
  - intros (mv & a & b & Hm & J & E & Na & Hb & L). cbn in Hm. destruct Hm as [<-|[<-|[<-|[<-|[]]]]]; try discriminate J. cbn [a_kids c04_moov] in E.
    destruct a as [|a1 a]; [cbn in L; lia|]. injection E as <- E. destruct a as [|a2 a]; [cbn in L; lia|]. injection E as <- _. discriminate Na.
Qed.
Example C74_example :
  updatable c74_file ex_new_items /\ displacement ex_new_items c74_file = 173%Z /\
  inside c74_file 1 24 2 /\ inside c74_file 3 222 2 /\ entry c74_file 0 0 24 /\ entry c74_file 0 1 222 /\ entry c74_file 1 0 25 /\ entry c74_file 1 1 223 /\
  ~ stays c74_file ex_new_items 0 4 1 24 /\ stays c74_file ex_new_items 0 4 3 222 /\ stays c74_file ex_new_items 1 4 1 25 /\ ~ stays c74_file ex_new_items 1 4 3 223 /\
  map offsets (file_tables (update_file ex_new_items c74_file)) = [[197; 395]; [25; 223]].
Proof.
  assert (D : displacement ex_new_items c74_file = 173%Z) by (vm_compute; reflexivity). destruct c74_early as [E0 E1].
  assert (M : mdat_follows c74_file) by (eexists [_; _], _, [_]; split; [reflexivity|split; [reflexivity|discriminate]]).
  split; [exact c74_updatable|]. split; [exact D|].
  split; [eexists; split; [reflexivity|]; repeat split; vm_compute; discriminate|]. split; [eexists; split; [reflexivity|]; repeat split; vm_compute; discriminate|].
  do 4 (split; [eexists; split; vm_compute; reflexivity|]). unfold stays. rewrite D.
  split; [intros [X _]; specialize (X M E0); destruct X as [_ X]; enough (Y : (173 mod 2 ^ (8 * Z.of_nat 4) = 0)%Z) by discriminate Y; apply X; exists 2%nat; split; [now apply c74_movie|lia]|].
  split. { split; [|intros X; contradiction]. intros _ _. split; [intros _; reflexivity|]. intros (q & Q & L). apply c74_movie in Q. lia. }
  split. { split; [intros _ X; contradiction|]. intros _ (q & Q & L). apply c74_movie in Q. lia. }
  split; [intros [_ X]; enough (Y : 173%Z = 0%Z) by discriminate Y; apply X; [exact E1|]; exists 2%nat; split; [now apply c74_movie|lia]|].
  vm_compute. reflexivity.
Qed.
