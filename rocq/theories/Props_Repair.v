(** Theorems about writing to files whose item list cannot be read: C87 (see properties.jsonl). *)

From Coq Require Import List NArith ZArith Bool Lia Arith String.
From Coq Require Import ZifyBool ZifyNat ZifyN.
From Verif Require Import Base BaseLemmas Utf UtfLemmas Types Stream Parse Find Write TagSpec FileSpec ParseLemmas ReadSpec ReadProofs ExampleFile
  ReadFacts NewMeans WriteBytes ScanProofs WriteMain UpdateMeans EditSpec EditProofs WriteExample Props_Read Props_ReadErr Props_Write RepairSpec RepairProofs.
Import ListNotations.
Local Open Scope list_scope.

(** * C87: writing does not look into the item list *)

(** Nothing in the file has to be readable except its outline: the movie header, the audio descriptions and the item list may hold anything. *)
Theorem C87_written : forall cap fuel m f s mv items,
  shell f s mv -> good_sizes f -> editable f -> storable items -> good_sizes (update_file items f) -> blen (render_all f) < N.of_nat fuel ->
  wr_res (write_tag cap fuel m items (render_all f)) = Ok tt /\
  exists g, tiles (wr_file (write_tag cap fuel m items (render_all f))) g /\ file_edit f g.
Proof.
  intros cap fuel m f s mv items Sh G E St G' Fu. destruct (shell_writes cap fuel m f s mv items Sh G E (storable_exact _ St) G' Fu) as (ops & ->).
  split; [reflexivity|]. exists (update_file items f). cbn [wr_file]. split; [apply render_tiles, G'|eapply shell_edit; eassumption].
Qed.
Print Assumptions C87_written.

(** When the movie header and the tracks can be read, the written file can, and holds the new items only. *)
Theorem C87_read : forall cap fuel m m' f s mv info items,
  shell f s mv -> sounds mv info -> good_sizes f -> editable f -> storable items -> good_sizes (update_file items f) ->
  blen (render_all f) < N.of_nat fuel -> blen (render_all (update_file items f)) < N.of_nat fuel ->
  read_tag fuel m' (wr_file (write_tag cap fuel m items (render_all f))) = Ok (Tag s info items).
Proof.
  intros cap fuel m m' f s mv info items Sh So G E St G' Fu Fu'. destruct (shell_writes cap fuel m f s mv items Sh G E (storable_exact _ St) G' Fu) as (ops & ->).
  cbn [wr_file]. apply C15_read_returns_content; [exact G'| |exact Fu']. eapply shell_describes; try eassumption. apply storable_describable, St.
Qed.
Print Assumptions C87_read.

(** A file that described [t] until its item list was overwritten by anything else. *)
Theorem C87_repaired : forall cap fuel m m' c a a' t items,
  describes (relist c a) t -> editable (relist c a) -> a_id a = id4 "ilst" -> a_id a' = id4 "ilst" ->
  good_sizes (relist c a') -> storable items -> good_sizes (update_file items (relist c a')) ->
  blen (render_all (relist c a')) < N.of_nat fuel -> blen (render_all (update_file items (relist c a'))) < N.of_nat fuel ->
  wr_res (write_tag cap fuel m items (render_all (relist c a'))) = Ok tt /\
  read_tag fuel m' (wr_file (write_tag cap fuel m items (render_all (relist c a')))) = Ok (Tag (tg_ftyp t) (tg_info t) items).
Proof.
  intros cap fuel m m' c a a' t items D E I I' G St G' Fu Fu'. destruct (relist_shell c a a' t D) as [Sh So]. apply (relist_editable c a a' I I') in E.
  split; [apply (C87_written cap fuel m _ _ _ items Sh G E St G' Fu)|exact (C87_read cap fuel m m' _ _ _ _ items Sh So G E St G' Fu Fu')].
Qed.
Print Assumptions C87_repaired.

(** Of the list that was there only its size matters: two files that differ in a list of the same size become the same file. *)
Theorem C87_forgotten : forall cap fuel m c a a' s mv items,
  shell (relist c a) s mv -> editable (relist c a) -> a_id a = id4 "ilst" -> a_id a' = id4 "ilst" -> blen (render a) = blen (render a') ->
  good_sizes (relist c a) -> good_sizes (relist c a') -> storable items -> good_sizes (update_file items (relist c a)) ->
  blen (render_all (relist c a)) < N.of_nat fuel -> blen (render_all (relist c a')) < N.of_nat fuel ->
  wr_res (write_tag cap fuel m items (render_all (relist c a))) = Ok tt /\
  wr_res (write_tag cap fuel m items (render_all (relist c a'))) = Ok tt /\
  wr_file (write_tag cap fuel m items (render_all (relist c a))) = wr_file (write_tag cap fuel m items (render_all (relist c a'))).
Proof.
  intros cap fuel m c a a' s mv items Sh E I I' Eq G G' St Gu Fu Fu'.
  assert (U : update_file items (relist c a) = update_file items (relist c a')).
  { destruct Sh as (ft & pre & post & Er & If & _ & _ & _ & N & _). destruct (relist_parts c a ft pre mv post Er N) as (-> & -> & -> & ->).
    apply relist_file; try assumption. apply (editable_moov (at_ft c) (at_pre c) (relist_moov c a) (at_post c) eq_refl E). }
  destruct (shell_writes cap fuel m _ s mv items Sh G E (storable_exact _ St) Gu Fu) as (ops & ->).
  rewrite U in Gu. destruct (shell_writes cap fuel m _ s _ items (shell_relist c a a' s mv Sh) G' (relist_editable c a a' I I' E) (storable_exact _ St) Gu Fu') as (ops' & ->).
  cbn [wr_res wr_file]. rewrite U. repeat split; reflexivity.
Qed.
Print Assumptions C87_forgotten.

(** The example file with its item list overwritten: reading fails, writing mends it. *)
Definition c87_bad : atom := Atom true (id4 "ilst") (repeat Byte.xff 211) [].
Example C87_example :
  relist ex_place ex_ilst = ex_file /\ describes (relist ex_place ex_ilst) ex_tag /\ editable (relist ex_place ex_ilst) /\
  good_sizes (relist ex_place c87_bad) /\ blen (render ex_ilst) = blen (render c87_bad) /\ storable ex_new_items /\
  good_sizes (update_file ex_new_items (relist ex_place c87_bad)) /\
  (forall t, read_tag 1000 Checked (render_all (relist ex_place c87_bad)) <> Ok t) /\
  (let w := write_tag 64 1000 Checked ex_new_items (render_all (relist ex_place c87_bad)) in
   wr_res w = Ok tt /\ read_tag 1000 Checked (wr_file w) = Ok (Tag (tg_ftyp ex_tag) (tg_info ex_tag) ex_new_items)) /\
  shell (relist ex_place c87_bad) (tg_ftyp ex_tag) (relist_moov ex_place c87_bad) /\ sounds (relist_moov ex_place c87_bad) (tg_info ex_tag).
Proof.
  assert (E : relist ex_place ex_ilst = ex_file) by reflexivity. rewrite E. split; [reflexivity|]. split; [exact ex_describes|]. split; [exact ex_editable|].
  split; [split; vm_compute; reflexivity|]. split; [vm_compute; reflexivity|]. split; [apply ex_updatable|].
  split; [split; vm_compute; reflexivity|]. split; [intros t; vm_compute; discriminate|]. split; [split; vm_compute; reflexivity|].
  apply (relist_shell ex_place ex_ilst c87_bad ex_tag). rewrite E. exact ex_describes.
Qed.
