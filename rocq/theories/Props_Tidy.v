(** Which files have a meaning: C91 (see properties.jsonl). *)

From Coq Require Import List NArith ZArith Bool Lia Arith String.
From Coq Require Import ZifyBool ZifyNat ZifyN.
From Verif Require Import Base BaseLemmas Utf UtfLemmas Types Stream Parse Find Write TagSpec FileSpec ParseLemmas ReadProofs ExampleFile
  Props_Read RepairSpec LastSpec LastProofs LastWrite LastMeans WriteExample Props_Write Props_Last TidySpec TidyProofs TidyRead TidyMeans.
Import ListNotations.
Local Open Scope list_scope.

(** * C91: every properly laid out file that is read is one the guarantees hold for *)

(** Reading a tidy file returns what the file means; if it means nothing, reading fails. *)
Theorem C91_exactly : forall f m fuel t, good_sizes f -> tidy f -> m = Checked \/ short_movie f ->
  blen (render_all f) < N.of_nat fuel ->
  (read_tag fuel m (render_all f) = Ok t <-> describes f t).
Proof.
  intros f m fuel t G T Sh Fu. split; intros H.
  - destruct (tidy_decides f m fuel G T Sh Fu) as [(t' & D)|N]; [|exfalso; exact (N t H)].
    rewrite (C15_read_returns_content f t' m fuel G D Fu) in H. injection H as <-. exact D.
  - apply C15_read_returns_content; assumption.
Qed.
Print Assumptions C91_exactly.

(** The well-formed files are the tidy files that are read. *)
Theorem C91_domain : forall f fuel, blen (render_all f) < N.of_nat fuel ->
  (well_formed f <-> good_sizes f /\ tidy f /\ exists t, read_tag fuel Checked (render_all f) = Ok t).
Proof.
  intros f fuel Fu. split.
  - intros (G & t & D). split; [exact G|]. split; [apply (describes_tidy f t D)|]. exists t. apply C15_read_returns_content; assumption.
  - intros (G & T & t & H). split; [exact G|]. exists t. apply (C91_exactly f Checked fuel t G T (or_introl eq_refl) Fu), H.
Qed.
Print Assumptions C91_domain.

(** To every tidy file that is read, metadata can be written; it is read back with the file type and
    the audio information that were read before. *)
Theorem C91_written : forall cap fuel m f t items, good_sizes f -> tidy f -> read_tag fuel Checked (render_all f) = Ok t ->
  sound_tables f -> storable items -> good_sizes (last_file items f) ->
  blen (render_all f) < N.of_nat fuel -> blen (render_all (last_file items f)) < N.of_nat fuel ->
  wr_res (write_tag cap fuel m items (render_all f)) = Ok tt /\
  forall m', read_tag fuel m' (wr_file (write_tag cap fuel m items (render_all f))) = Ok (Tag (tg_ftyp t) (tg_info t) items).
Proof.
  intros cap fuel m f t items G T H S St G' Fu Fu'.
  assert (D : describes f t) by (apply (C91_exactly f Checked fuel t G T (or_introl eq_refl) Fu), H).
  split.
  - apply (C88_written cap fuel m f items (described_outline f t D) S G St G' Fu).
  - intros m'. apply C88_read; assumption.
Qed.
Print Assumptions C91_written.

(** * Examples *)

Example C91_example : good_sizes ex_file /\ tidy ex_file /\ short_movie ex_file /\ read_tag 1000 Checked (render_all ex_file) = Ok ex_tag.
Proof.
  split; [exact ex_sizes|]. pose proof (describes_tidy _ _ ex_describes) as [T S]. split; [exact T|]. split; [exact S|]. vm_compute. reflexivity.
Qed.

Example C91_example_written : sound_tables ex_file /\ storable ex_new_items /\ good_sizes (last_file ex_new_items ex_file) /\
  read_tag 1500 Wrapping (wr_file (write_tag 64 1500 Checked ex_new_items (render_all ex_file))) = Ok (Tag (tg_ftyp ex_tag) (tg_info ex_tag) ex_new_items).
Proof.
  split; [apply editable_sound, WriteExample.ex_editable|]. split; [apply Props_Write.ex_updatable|]. split; [split; vm_compute; reflexivity|]. vm_compute. reflexivity.
Qed.

(** Tidy files that are not read. *)
Definition c91_file (mvhd : bytes) (data : bytes) : list atom :=
  [ex_ftyp; Atom false (id4 "moov") [] [Atom false (id4 "mvhd") mvhd [];
    Atom false (id4 "udta") [] [Atom false (id4 "meta") (zeros 4) [Atom false (id4 "ilst") [] [Atom false (id4 "aART") [] [Atom false (id4 "data") data []]]]]]].
Definition c91_mvhd : bytes := zeros 12 ++ be 4 1000 ++ be 4 90500 ++ zeros 80.
Lemma c91_tidy : forall mvhd data, tidy_mvhd (Atom false (id4 "mvhd") mvhd []) -> tidy_data (Atom false (id4 "data") data []) -> tidy (c91_file mvhd data).
Proof.
  intros mvhd data M D. split; [apply Nat.leb_le; reflexivity|]. constructor; [|constructor]. split; [reflexivity|]. split; [constructor; [exact M|constructor]|].
  split; [constructor|]. constructor; [|constructor]. split; [reflexivity|]. constructor; [|constructor]. split; [reflexivity|].
  constructor; [|constructor]. split; [reflexivity|]. constructor; [|constructor]. split; [reflexivity|].
  split; [constructor; [exact D|constructor]|]. split; constructor.
Qed.
Example C91_example_tidy :
  (* a value of version 1, a value of an unknown type, broken text *)
  Forall (fun d => tidy (c91_file c91_mvhd d) /\ good_sizes (c91_file c91_mvhd d) /\ ~ exists t, describes (c91_file c91_mvhd d) t)
    [raw [1; 0; 0; 1; 0; 0; 0; 0; 65]; raw [0; 0; 0; 3; 0; 0; 0; 0; 65]; raw [0; 0; 0; 1; 0; 0; 0; 0; 255]].
Proof.
  assert (X : forall d e, tidy_data (Atom false (id4 "data") d []) -> good_sizes (c91_file c91_mvhd d) -> blen (render_all (c91_file c91_mvhd d)) < 1000 ->
    read_tag 1000 Checked (render_all (c91_file c91_mvhd d)) = Err e ->
    tidy (c91_file c91_mvhd d) /\ good_sizes (c91_file c91_mvhd d) /\ ~ exists t, describes (c91_file c91_mvhd d) t).
  { intros d e T G L R. split; [|split; [exact G|]].
    - apply c91_tidy; [|exact T]. split; [vm_compute; discriminate|]. split; intros X; vm_compute in X |- *; discriminate.
    - intros (t & D). rewrite (C15_read_returns_content _ t Checked 1000 G D L) in R. discriminate. }
  apply Forall_cons; [|apply Forall_cons; [|apply Forall_cons; [|apply Forall_nil]]]; (eapply X;
    [split; [vm_compute; discriminate|intros Y; vm_compute in Y; discriminate]|split; vm_compute; reflexivity|vm_compute; reflexivity|vm_compute; reflexivity]).
Qed.

(** What is asked of the layout cannot be left out: UTF-16 text with half a unit at its end is read, although the file has no meaning. *)
Theorem C91_untidy_refuted : exists f t, good_sizes f /\ (forall m, read_tag 1000 m (render_all f) = Ok t) /\ ~ exists t', describes f t'.
Proof.
  exists (c91_file c91_mvhd (raw [0; 0; 0; 2; 0; 0; 0; 0; 0; 65; 66])). eexists. split; [split; vm_compute; reflexivity|]. split.
  - intros []; vm_compute; reflexivity.
  - intros (t' & D). destruct (describes_tidy _ _ D) as [[_ T] _]. inversion T as [|? ? T1 _]; subst. destruct T1 as (_ & _ & _ & T1).
    inversion T1 as [|? ? T2 _]; subst. destruct T2 as [_ T2]. inversion T2 as [|? ? T3 _]; subst. destruct T3 as [_ T3].
    inversion T3 as [|? ? T4 _]; subst. destruct T4 as [_ T4]. inversion T4 as [|? ? T5 _]; subst. destruct T5 as (_ & T5 & _).
    inversion T5 as [|? ? T6 _]; subst. destruct T6 as [_ T6]. vm_compute in T6. specialize (T6 eq_refl). discriminate.
Qed.
Print Assumptions C91_untidy_refuted.

(** Without overflow checks a duration that does not fit is reduced modulo 2^64 and read. *)
Theorem C91_long_refuted : exists f t, good_sizes f /\ tidy f /\ read_tag 1000 Wrapping (render_all f) = Ok t /\ ~ exists t', describes f t'.
Proof.
  exists (c91_file (raw [1] ++ zeros 19 ++ be 4 1000 ++ be 8 (2 ^ 63) ++ zeros 80) (raw [0; 0; 0; 1; 0; 0; 0; 0; 65])). eexists.
  split; [split; vm_compute; reflexivity|]. split.
  { apply c91_tidy; [split; [vm_compute; discriminate|]; split; intros X; vm_compute in X |- *; discriminate|split; [vm_compute; discriminate|intros X; vm_compute in X; discriminate]]. }
  split; [vm_compute; reflexivity|]. intros (t' & D). destruct (describes_tidy _ _ D) as [_ S]. inversion S as [|? ? S1 _]; subst.
  inversion S1 as [|? ? S2 _]; subst. vm_compute in S2. specialize (S2 eq_refl). discriminate.
Qed.
Print Assumptions C91_long_refuted.
