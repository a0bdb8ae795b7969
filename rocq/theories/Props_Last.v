(** Theorems about writing to files with repeated containers: C88 (see properties.jsonl). *)

From Coq Require Import List NArith ZArith Bool Lia Arith String.
From Coq Require Import ZifyBool ZifyNat ZifyN.
From Verif Require Import Base BaseLemmas Utf UtfLemmas Types Stream Parse Find Write TagSpec FileSpec ParseLemmas ReadSpec ReadProofs ExampleFile
  ReadFacts NewMeans WriteBytes ScanProofs WriteProofs WriteMain UpdateMeans UpdateTwice OffsetProofs EditSpec EditProofs WriteExample Props_Read Props_Write Props_Write2
  RepairSpec LastSpec LastProofs LastWrite LastMeans LastTwice.
Import ListNotations.
Local Open Scope list_scope.

(** * C88: of several containers the last one is changed *)

(** Any number of movies, user data, metadata, item lists and tables; only the tables that are changed have to be sound. *)
Theorem C88_written : forall cap fuel m f items,
  outline f -> sound_tables f -> good_sizes f -> storable items -> good_sizes (last_file items f) -> blen (render_all f) < N.of_nat fuel ->
  wr_res (write_tag cap fuel m items (render_all f)) = Ok tt /\
  tiles (wr_file (write_tag cap fuel m items (render_all f))) (last_file items f) /\ file_edit f (last_file items f).
Proof.
  intros cap fuel m f items O S G St G' Fu. destruct (last_written cap fuel m items f O S G (storable_exact _ St) G' Fu) as (ops & ->).
  split; [reflexivity|]. split; [apply render_tiles, G'|apply file_edit_last; assumption].
Qed.
Print Assumptions C88_written.

(** What is written is what is read, and the file type and the audio information stay: C01 and C02 without the condition that nothing is repeated. *)
Theorem C88_read : forall cap fuel m m' f t items,
  describes f t -> sound_tables f -> good_sizes f -> storable items -> good_sizes (last_file items f) ->
  blen (render_all f) < N.of_nat fuel -> blen (render_all (last_file items f)) < N.of_nat fuel ->
  read_tag fuel m' (wr_file (write_tag cap fuel m items (render_all f))) = Ok (Tag (tg_ftyp t) (tg_info t) items).
Proof.
  intros cap fuel m m' f t items D S G St G' Fu Fu'.
  destruct (last_written cap fuel m items f (described_outline f t D) S G (storable_exact _ St) G' Fu) as (ops & ->). cbn [wr_file].
  apply C15_read_returns_content; [exact G'| |exact Fu']. apply last_describes; [apply storable_describable, St|exact D].
Qed.
Print Assumptions C88_read.

(** The last of two writes decides. *)
Theorem C88_twice : forall cap fuel m f t a b,
  describes f t -> sound_tables f -> good_sizes f -> storable a -> storable b -> sound_tables (last_file a f) ->
  good_sizes (last_file a f) -> good_sizes (last_file b f) ->
  blen (render (FileSpec.new_udta a)) < 2 ^ 32 -> blen (render (FileSpec.new_udta b)) < 2 ^ 32 ->
  blen (render_all f) < N.of_nat fuel -> blen (render_all (last_file a f)) < N.of_nat fuel ->
  wr_res (write_tag cap fuel m b (wr_file (write_tag cap fuel m a (render_all f)))) = Ok tt /\
  wr_file (write_tag cap fuel m b (wr_file (write_tag cap fuel m a (render_all f)))) = wr_file (write_tag cap fuel m b (render_all f)).
Proof.
  intros cap fuel m f t a b D S G Sa Sb S' Ga Gb La Lb Fu Fu'. pose proof (described_outline f t D) as O. pose proof (last_twice a b f (small_same a b La Lb) O S) as T.
  destruct (last_written cap fuel m a f O S G (storable_exact _ Sa) Ga Fu) as (ops & ->). cbn [wr_file].
  destruct (last_written cap fuel m b f O S G (storable_exact _ Sb) Gb Fu) as (ops2 & ->). rewrite <- T in *.
  destruct (last_written cap fuel m b (last_file a f) (described_outline _ _ (last_describes a f t (storable_describable _ Sa) D)) S' Ga (storable_exact _ Sb) Gb Fu') as (ops3 & ->).
  split; reflexivity.
Qed.
Print Assumptions C88_twice.

(** When nothing is repeated this is the file of the other theorems. *)
Theorem C88_same : forall f t items, describes f t -> editable f -> last_file items f = update_file items f /\ sound_tables f.
Proof.
  intros f t items (ft & pre & mv & post & -> & I & _ & _ & J & N & _) E. split; [|apply editable_sound, E]. apply last_file_one; [|exact E].
  apply named_two in N. destruct N as [N1 N2]. unfold at_most_one. change (ft :: pre ++ mv :: post) with ((ft :: pre) ++ mv :: post).
  rewrite named_end by assumption. rewrite named_other, N1 by (rewrite I; discriminate). cbn. lia.
Qed.
Print Assumptions C88_same.

(** A repeated table: its offsets are not adjusted, although the media data moves. *)
Definition c88_tables : list atom := [ex_ftyp; c04_moov [ex_trak [ex_stco [128]; ex_stco [130]]]; ex_mdat].
Theorem C88_chunks_refuted : exists f t items,
  describes f t /\ sound_tables f /\ good_sizes f /\ storable items /\ good_sizes (last_file items f) /\
  one_sided f /\ tracks_first f /\ in_reach items f /\ ~ chunks_kept f (last_file items f).
Proof.
  exists c88_tables. eexists. exists ex_new_items. split.
  { apply (c04_describes [] _ [ex_mdat]); try reflexivity; [|constructor]. constructor; [|constructor].
    eapply box_skip; [reflexivity|reflexivity|]. eapply box_skip; [reflexivity|reflexivity|]. eapply box_skip; [reflexivity|reflexivity|]. apply box_none; reflexivity. }
  split. { repeat constructor; apply good_tableb_ok; vm_compute; reflexivity. }
  split; [split; vm_compute; reflexivity|]. split; [apply ex_updatable|]. split; [split; vm_compute; reflexivity|]. split.
  { intros x mv y E J. unfold c88_tables in E. destruct x as [|a x]; [injection E as <- _; discriminate J|]. injection E as <- E.
    destruct x as [|b x]; [left; reflexivity|]. injection E as <- E. destruct x as [|c x]; [injection E as <- _; discriminate J|]. injection E as <- E. destruct x; discriminate E. }
  split. { intros mv x u y I J E K. cbn in I. destruct I as [<-|[<-|[<-|[]]]]; try discriminate J. cbn [a_kids c04_moov] in E.
    destruct x as [|a x]; [injection E as <- _; discriminate K|]. injection E as <- E. destruct x; discriminate E. }
  split; [apply in_reachb_ok; vm_compute; reflexivity|].
  intro H. destruct (H 0%nat 0%nat 128 8) as (o' & (t & A & B) & C).
  - eexists. split; vm_compute; reflexivity.
  - exists (firstn 2 c88_tables), ex_mdat, []. repeat split; vm_compute; discriminate.
  - vm_compute in A. injection A as <-. vm_compute in B. injection B as <-. vm_compute in C. discriminate C.
Qed.
Print Assumptions C88_chunks_refuted.

(** The example file with an unreadable table, a second user data atom, a second metadata atom and a second item list in front of the ones that count. *)
Definition c88_moov : atom :=
  Atom false (id4 "moov") []
    (ex_mvhd :: ex_trak [Atom false (id4 "stco") (raw [255]) []; ex_stco [782; 784]] ::
     [ex_udta [ex_meta [ex_ilst]];
      ex_udta [ex_meta [ex_ilst]; ex_meta [Atom false (id4 "ilst") [] []; ex_ilst]]; Atom true (id4 "iods") (raw [9]) []]).
Definition c88_file : list atom := [ex_ftyp; c88_moov; ex_mdat].
Definition c88_tag : tag := Tag (tg_ftyp ex_tag) (info_of (Some 90500000000) None) ex_items.
Example C88_example :
  describes c88_file c88_tag /\ sound_tables c88_file /\ good_sizes c88_file /\ storable ex_new_items /\ good_sizes (last_file ex_new_items c88_file) /\
  ~ editable c88_file /\ last_file ex_new_items c88_file <> update_file ex_new_items c88_file /\
  read_tag 1500 Checked (wr_file (write_tag 64 1500 Checked ex_new_items (render_all c88_file))) = Ok (Tag (tg_ftyp c88_tag) (tg_info c88_tag) ex_new_items).
Proof.
  split.
  { exists ex_ftyp, [], c88_moov, [ex_mdat]. do 6 (split; [reflexivity|]). split; [reflexivity|]. exists (Some 90500000000), [None], (Some (Some ex_items)).
    assert (M : forall l n, Forall2 ilst_means (named_kids (id4 "ilst") l) n -> last_opt n = Some ex_items -> meta_means (ex_meta l) (Some ex_items)).
    { intros l n F E. split; [apply ex_version0|]. exists n. split; [exact F|symmetry; exact E]. }
    assert (M1 : meta_means (ex_meta [ex_ilst]) (Some ex_items)) by (eapply (M _ [ex_items]); [repeat constructor; exact (proj2 ex_ilst_means)|reflexivity]).
    split; [|split; [|split; [|split; reflexivity]]].
    - exists [90500000000]. split; [|reflexivity]. constructor; [|constructor]. left. repeat split; try reflexivity; try discriminate.
    - constructor; [|constructor]. eapply box_skip; [reflexivity|reflexivity|]. eapply box_skip; [reflexivity|reflexivity|]. eapply box_skip; [reflexivity|reflexivity|]. apply box_none; reflexivity.
    - exists [Some ex_items; Some ex_items]. split; [|reflexivity]. constructor; [|constructor; [|constructor]].
      + eapply box_skip; [reflexivity|reflexivity|]. exact M1.
      + split; [reflexivity|]. exists (Some (Some ex_items)). split; [|reflexivity]. exists [Some ex_items; Some ex_items]. split; [|reflexivity].
        constructor; [exact M1|]. constructor; [|constructor]. eapply (M _ [[]; ex_items]); [|reflexivity]. constructor; [|constructor; [exact ex_ilst_means|constructor]].
        split; [reflexivity|]. exists []. split; [constructor|]. split; [reflexivity|]. intro j. reflexivity. }
  split. { repeat constructor; apply good_tableb_ok; vm_compute; reflexivity. }
  split; [split; vm_compute; reflexivity|]. split; [apply ex_updatable|]. split; [split; vm_compute; reflexivity|].
  split. { intro E. inversion E as [|? ? [_ [O _]] _]; subst. vm_compute in O. lia. }
  split; [|vm_compute; reflexivity]. intro H. apply (f_equal render_all) in H. revert H. vm_compute. discriminate.
Qed.
