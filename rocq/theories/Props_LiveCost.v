(** What writing to files with repeated containers costs: more of C81 (see properties.jsonl). *)

From Coq Require Import List NArith ZArith Bool Lia Arith String.
From Coq Require Import ZifyBool ZifyNat ZifyN.
From Verif Require Import Base BaseLemmas Types Utf Stream Parse Find Write TagSpec FileSpec ParseLemmas ReadProofs ReadSpec ReadFacts ReadBad ReadTerm WriteBytes WriteState ScanProofs
  AdjustProofs FramesProofs WriteProofs WriteMain UpdateMeans UpdateTwice OffsetProofs StoreSpec StoreProofs RepairSpec LastSpec LastProofs LastWrite LastMeans.
From Verif Require ExampleFile CostSpec CostProofs Props_Write Props_Last Props_LiveCrash.
Import ListNotations.
Local Open Scope list_scope.

(** Everything behind the last movie is loaded. *)
Lemma live_loaded : forall fuel m items ft s pre mv post,
  a_id ft = id4 "ftyp" -> wf_ustr s = true -> a_content ft = enc8 s ->
  a_id mv = id4 "moov" -> Forall plain_moov (named_kids (id4 "moov") pre) -> named_kids (id4 "moov") post = [] -> plain_moov mv ->
  good_sizes (ft :: pre ++ mv :: post) -> sound_moov mv ->
  exact_items items -> good_sizes (llast items ft pre mv post) -> blen (render_all (ft :: pre ++ mv :: post)) < N.of_nat fuel ->
  exists p q x, prepare fuel m items (render_all (ft :: pre ++ mv :: post)) 0 = Ok (p, q) /\ pl_moved p = x ++ render_all post.
Proof.
  intros fuel m items ft s pre mv post I Ws C J N1 N2 P G GM Ex G' Fu.
  destruct (scan_finds_last fuel m ft s pre mv post G Fu I Ws C J N1 N2 P) as (q & Sc). unfold llast in *.
  set (d := match named_kids (id4 "mdat") post with [] => 0%Z | _ => last_growth items mv end) in *.
  set (A := render_all (ft :: pre)) in *. set (T := render_all post).
  assert (Ef : render_all (ft :: pre ++ mv :: post) = A ++ render mv ++ T).
  { change (ft :: pre ++ mv :: post) with ((ft :: pre) ++ mv :: post). rewrite render_all_app, render_all_cons. reflexivity. }
  assert (Ef' : render_all ((ft :: pre) ++ last_moov items d mv :: post) = A ++ render (last_moov items d mv) ++ T).
  { rewrite render_all_app, render_all_cons. reflexivity. }
  destruct G as [F1 Sm]. destruct G' as [F1' Sm'].
  rewrite Ef in *. rewrite Ef' in *.
  assert (Fm : fits (last_moov items d mv) = true).
  { rewrite forallb_forall in F1'. apply F1'. apply in_or_app. right. left. reflexivity. }
  assert (Gr : (last_growth items mv = Z.of_N (asize (last_moov items d mv)) - Z.of_N (asize mv))%Z).
  { unfold last_growth. rewrite (last_moov_size items d 0 mv GM). reflexivity. }
  assert (Gb : (- 2 ^ 62 < last_growth items mv < 2 ^ 62)%Z).
  { rewrite Gr. rewrite !blen_app in Sm, Sm'. fold (asize mv) in Sm. fold (asize (last_moov items d mv)) in Sm'. lia. }
  assert (Db : (- 2 ^ 62 < d < 2 ^ 62)%Z) by (unfold d; destruct (named_kids (id4 "mdat") post); [lia|exact Gb]).
  assert (Sp : blen A + asize mv < 2 ^ 62) by (rewrite !blen_app in Sm; fold (asize mv) in Sm; lia).
  destruct (moov_lsite m items Ex (blen A) d mv GM Sp Fm Db)
    as (fs & fsd & old & nw & new & r & tail & R1 & R2 & R3 & R4 & R5 & R6 & R7 & R8 & R9 & R10 & R11).
  assert (L0 : blen A + blen (prefix fs (blen old)) + blen old <= blen (A ++ render mv ++ T)).
  { rewrite R1. unfold framed. rewrite !blen_app. lia. }
  assert (Ln : new_atoms_len new < 2 ^ 62).
  { rewrite R9. rewrite R4, !blen_app in Sm'. lia. }
  destruct (prepare_ok fuel m items _ _ _ q _ _ new r Sc R10 L0 Sm Ln) as (q' & Pr).
  assert (Mv : skipn (N.to_nat (blen A + blen (prefix fs (blen old)) + blen old)) (A ++ render mv ++ T) = suffix fs ++ T).
  { replace (A ++ render mv ++ T) with ((A ++ prefix fs (blen old) ++ old) ++ suffix fs ++ T).
    - apply skipn_app_at. rewrite !blen_app. lia.
    - rewrite R1. unfold framed. rewrite <- !app_assoc. reflexivity. }
  rewrite Mv in Pr. eexists _, q', (suffix fs). split; [exact Pr|reflexivity].
Qed.

(** Whatever is repeated, movies included: everything behind the last movie is handed over again. *)
Theorem C81_repeated : forall cap fuel m items ft pre mv post, 8 < cap ->
  let f := ft :: pre ++ mv :: post in
  outline f -> sound_tables f -> good_sizes f -> storable items -> good_sizes (last_file items f) -> blen (render_all f) < N.of_nat fuel ->
  a_id mv = id4 "moov" -> named_kids (id4 "moov") post = [] ->
  let w := write_tag cap fuel m items (render_all f) in
  wr_res w = Ok tt /\ blen (render_all post) <= CostSpec.handed (wr_ops w).
Proof.
  intros cap fuel m items ft pre mv post C f O So G St G' Fu J N2 w.
  destruct (Props_Last.C88_written cap fuel m f items O So G St G' Fu) as (W & _). fold w in W. split; [exact W|].
  destruct O as (ft' & s & rest & E & I & Ws & Cn & N & B). injection E as <- <-.
  rewrite named_end in B by assumption. apply Forall_app in B. destruct B as [B1 B2]. inversion B2; subst. unfold f in G'. rewrite (last_at items ft pre mv post J N2) in G'.
  destruct (live_loaded fuel m items ft s pre mv post I Ws Cn J B1 N2) as (p & q & x & Pr & Pm); try assumption; [exact (sound_at _ _ _ _ J N2 So)|apply storable_exact, St|].
  destruct (CostProofs.calls_cost cap fuel m items (render_all f)) as [[_ X]|(ns & mo & s0 & e & d & Fi & M & R & _ & Bc & _ & p' & q' & Pr' & Pm')]; [apply G|exact C| |].
  - fold w in X. contradiction.
  - unfold f in Pr'. rewrite Pr in Pr'. injection Pr' as <- <-. fold w in Bc. rewrite (Bc W). unfold CostSpec.cost.
    assert (X : blen (skipn (N.to_nat e) (render_all f)) = blen x + blen (render_all post)) by (rewrite <- Pm', Pm, blen_app; reflexivity).
    assert (Y : forall (l : bytes) n, blen (skipn (N.to_nat n) l) = blen l - n) by (intros l n; unfold blen; rewrite skipn_length; lia).
    rewrite Y in X. lia.
Qed.
Print Assumptions C81_repeated.

(** The file of C09 with repeated tables, user data, metadata and item lists. *)
Example C81_repeated_example :
  outline Props_LiveCrash.c09_file /\ sound_tables Props_LiveCrash.c09_file /\ good_sizes Props_LiveCrash.c09_file /\ storable Props_Write.ex_new_items /\
  good_sizes (last_file Props_Write.ex_new_items Props_LiveCrash.c09_file) /\ ~ editable Props_LiveCrash.c09_file /\
  Props_LiveCrash.c09_file = ExampleFile.ex_ftyp :: [ExampleFile.ex_mdat] ++ Props_Last.c88_moov :: [ExampleFile.ex_mdat] /\ 0 < blen (render_all [ExampleFile.ex_mdat]).
Proof.
  destruct Props_LiveCrash.C09_repeated_example as (A & B & C & D & E & F & _). repeat (split; [assumption|]). split; [reflexivity|]. vm_compute. reflexivity.
Qed.
