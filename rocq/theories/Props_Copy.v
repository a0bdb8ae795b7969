(** Theorems about copying metadata between files: C89 (see properties.jsonl). *)

From Coq Require Import List NArith ZArith Bool Lia Arith String.
From Coq Require Import ZifyBool ZifyNat ZifyN.
From Verif Require Import Base BaseLemmas Utf UtfLemmas Types Stream Parse Find Write TagApi TagOps TagSpec FileSpec ParseLemmas ReadSpec ReadProofs WOutSpec WOutPlan
  ExampleFile ReadFacts NewMeans WriteBytes DumpProofs WriteState WriteMain UpdateMeans UpdateTwice EditSpec EditProofs WriteExample StoreSpec StoreProofs SizeProofs
  Utf16Proofs SurviveSpec SurviveProofs RepairSpec LastSpec LastProofs LastWrite LastMeans LastTwice LastSize Props_Read Props_Dump Props_Write Props_Write3 Props_Utf16 Props_Survive Props_Last.
Import ListNotations.
Local Open Scope list_scope.

Lemma read_no_utf16 : forall fuel m f t, read_tag fuel m f = Ok t -> no_utf16 (tg_atoms t) -> storable (tg_atoms t).
Proof.
  intros fuel m f t R U. apply storable_is. split.
  - unfold read_tag in R. destruct (read_tag_from fuel m f 0) as [[t' p]| | |] eqn:E; try discriminate. injection R as ->. exact (C85_read _ _ _ _ _ _ E).
  - intros (i & s & Ii & Id & N). unfold no_utf16 in U. rewrite Forall_forall in U. specialize (U i Ii). rewrite Forall_forall in U. exact (N (U _ Id s eq_refl)).
Qed.

(** * C89: copying metadata *)

(** The source may be any sequence of bytes from which a tag is read; the target may have repeated containers. *)
Theorem C89_copied : forall cap fuel m m' m'' src t f d,
  read_tag fuel m src = Ok t -> no_utf16 (tg_atoms t) ->
  describes f d -> sound_tables f -> good_sizes f ->
  blen (render_all f) + announced (tg_atoms t) + 85 < 2 ^ 32 -> blen (render_all f) + announced (tg_atoms t) + 85 < N.of_nat fuel ->
  let w := write_tag cap fuel m' (tg_atoms t) (render_all f) in
  wr_res w = Ok tt /\ file_edit f (last_file (tg_atoms t) f) /\ tiles (wr_file w) (last_file (tg_atoms t) f) /\
  read_tag fuel m'' (wr_file w) = Ok (Tag (tg_ftyp d) (tg_info d) (tg_atoms t)).
Proof.
  intros cap fuel m m' m'' src t f d R U D So G L Fu w. pose proof (read_no_utf16 _ _ _ _ R U) as St.
  destruct (last_small f d (tg_atoms t) D So St L) as [G' B]. unfold announced in *. unfold total in *.
  destruct (C88_written cap fuel m' f (tg_atoms t) (described_outline f d D) So G St G') as (W1 & W2 & W3); [lia|].
  split; [exact W1|]. split; [exact W3|]. split; [exact W2|]. apply C88_read; try assumption; lia.
Qed.
Print Assumptions C89_copied.

(** A copy of a copy is a copy: going through another file changes no byte of the result. *)
Theorem C89_chain : forall cap cap' fuel m m' m'' src t f d t' target,
  read_tag fuel m src = Ok t -> no_utf16 (tg_atoms t) ->
  describes f d -> sound_tables f -> good_sizes f ->
  blen (render_all f) + announced (tg_atoms t) + 85 < 2 ^ 32 -> blen (render_all f) + announced (tg_atoms t) + 85 < N.of_nat fuel ->
  read_tag fuel m'' (wr_file (write_tag cap fuel m' (tg_atoms t) (render_all f))) = Ok t' ->
  write_tag cap' fuel m (tg_atoms t') target = write_tag cap' fuel m (tg_atoms t) target.
Proof.
  intros cap cap' fuel m m' m'' src t f d t' target R U D So G L Fu R'.
  destruct (C89_copied cap fuel m m' m'' src t f d R U D So G L Fu) as (_ & _ & _ & X). cbv zeta in X. rewrite X in R'. injection R' as <-. reflexivity.
Qed.
Print Assumptions C89_chain.

(** So is going through a dump. *)
Theorem C89_dumped : forall fuel m m' m'' src t,
  read_tag fuel m src = Ok t -> no_utf16 (tg_atoms t) -> items_fit (tg_atoms t) ->
  blen (out (dump_tag_to m' (tg_atoms t))) < 2 ^ 62 -> blen (out (dump_tag_to m' (tg_atoms t))) < N.of_nat fuel ->
  snd (dump_tag_to m' (tg_atoms t)) = Ok tt /\
  exists t', read_tag fuel m'' (out (dump_tag_to m' (tg_atoms t))) = Ok t' /\ tg_atoms t' = tg_atoms t.
Proof.
  intros fuel m m' m'' src t R U Fi L Fu. destruct (C10_dump_read m' m'' (tg_atoms t) fuel (read_no_utf16 _ _ _ _ R U) Fi L Fu) as [A B].
  split; [exact A|]. eexists. split; [exact B|reflexivity].
Qed.
Print Assumptions C89_dumped.

(** A tag written back to the file it was read from: C38 with repeated containers. *)
Theorem C89_back : forall cap fuel m m' f t,
  describes f t -> sound_tables f -> no_utf16 (tg_atoms t) -> blen (render_all f) + 77 < 2 ^ 32 -> blen (render_all f) + 77 < N.of_nat fuel ->
  let w := write_tag cap fuel m (tg_atoms t) (render_all f) in
  read_tag fuel m' (render_all f) = Ok t /\ wr_res w = Ok tt /\ read_tag fuel m' (wr_file w) = Ok t.
Proof.
  intros cap fuel m m' f t D So U L Fu w. destruct (last_read f t D So U L) as (St & G' & B). assert (G : good_sizes f) by (apply small_good; lia).
  split; [apply C15_read_returns_content; [exact G|exact D|lia]|]. split.
  - apply (C88_written cap fuel m f (tg_atoms t) (described_outline f t D) So G St G'). lia.
  - unfold w. rewrite (C88_read cap fuel m m' f t (tg_atoms t) D So G St G') by lia. destruct t. reflexivity.
Qed.
Print Assumptions C89_back.

(** UTF-16 text is not copied faithfully. *)
Definition c89_source : bytes := render_all (dump_file [AtomData (IFourcc TITLE) [DUtf16 (str "abcd")]]).
Theorem C89_utf16_refuted : exists src t f d t',
  read_tag 2000 Checked src = Ok t /\ describes f d /\ sound_tables f /\ good_sizes f /\
  wr_res (write_tag 64 2000 Checked (tg_atoms t) (render_all f)) = Ok tt /\
  read_tag 2000 Checked (wr_file (write_tag 64 2000 Checked (tg_atoms t) (render_all f))) = Ok t' /\ tg_atoms t' <> tg_atoms t.
Proof.
  exists c89_source. eexists. exists ex_file, ex_tag. eexists. split; [vm_compute; reflexivity|]. split; [exact ex_describes|]. split; [apply editable_sound, WriteExample.ex_editable|].
  split; [exact ex_sizes|]. split; [vm_compute; reflexivity|]. split; [vm_compute; reflexivity|]. vm_compute. discriminate.
Qed.
Print Assumptions C89_utf16_refuted.

(** From the example file to the file of C88, and the tag of C88 back to its file. *)
Example C89_example :
  read_tag 2000 Checked (render_all ex_file) = Ok ex_tag /\ no_utf16 (tg_atoms ex_tag) /\ items_fit (tg_atoms ex_tag) /\
  describes c88_file c88_tag /\ sound_tables c88_file /\ good_sizes c88_file /\ no_utf16 (tg_atoms c88_tag) /\
  blen (render_all c88_file) + announced (tg_atoms ex_tag) + 85 < 2000 /\
  wr_file (write_tag 64 2000 Checked (tg_atoms ex_tag) (render_all c88_file)) <> render_all c88_file /\
  blen (out (dump_tag_to Checked (tg_atoms ex_tag))) < 2000.
Proof.
  split; [vm_compute; reflexivity|]. split; [exact ex_no_utf16|]. split; [vm_compute; reflexivity|]. split; [apply C88_example|]. split; [apply C88_example|].
  split; [apply C88_example|]. split; [exact ex_no_utf16|]. split; [vm_compute; reflexivity|]. split; vm_compute; [discriminate|reflexivity].
Qed.
