(** What comes back from files with repeated containers: C37 and C61, last part (see properties.jsonl). *)

From Coq Require Import List NArith ZArith Bool Lia Arith String.
From Coq Require Import ZifyBool ZifyNat ZifyN.
From Verif Require Import Base BaseLemmas Utf UtfLemmas Types Stream Parse Find Write ReadIO Fault FineWrite Paths Props_Fault Props_Path IoDevice TagApi TagOps TagSpec FileSpec
  ParseLemmas ReadSpec ReadProofs WOutSpec WOutPlan
  ExampleFile ReadFacts NewMeans WriteBytes DumpProofs WriteState WriteMain UpdateMeans UpdateTwice EditSpec EditProofs WriteExample StoreSpec StoreProofs SizeProofs
  Utf16Proofs SurviveSpec SurviveProofs RepairSpec LastSpec LastProofs LastWrite LastMeans LastTwice LastSize Props_Read Props_Dump Props_Write Props_Write3 Props_Utf16 Props_Survive Props_Last
  Props_Copy.
Import ListNotations.
Local Open Scope list_scope.

(** What both calls do with items that can be stored. *)
Lemma last_comes_back : forall cap fuel m m' f t items,
  describes f t -> sound_tables f -> good_sizes f -> storable items ->
  blen (render_all f) + announced items + 85 < 2 ^ 32 -> blen (render_all f) + announced items + 85 < N.of_nat fuel ->
  let w := write_tag cap fuel m items (render_all f) in
  wr_res w = Ok tt /\ read_tag fuel m' (wr_file w) = Ok (Tag (tg_ftyp t) (tg_info t) items) /\ blen (wr_file w) < 2 ^ 32.
Proof.
  intros cap fuel m m' f t items D So G St L Fu w. destruct (last_small f t items D So St L) as [G' B]. unfold announced in *. unfold total in *.
  destruct (C88_written cap fuel m f items (described_outline f t D) So G St G') as (W1 & _); [lia|].
  split; [exact W1|]. split; [apply C88_read; try assumption; lia|].
  destruct (last_written cap fuel m items f (described_outline f t D) So G (storable_exact _ St) G') as (ops & X); [lia|].
  unfold w. rewrite X. cbn [wr_file]. lia.
Qed.

(** * C37: exactly the storable tags come back, if there is no UTF-16 text with characters *)

Theorem C37_repeated : forall cap fuel m f t items,
  describes f t -> sound_tables f -> good_sizes f -> no_utf16 items ->
  blen (render_all f) + announced items + 85 < 2 ^ 32 -> blen (render_all f) + announced items + 85 < N.of_nat fuel ->
  let w := write_tag cap fuel m items (render_all f) in
  (wr_res w = Ok tt /\ (exists t', read_tag fuel m (wr_file w) = Ok t' /\ tg_atoms t' = items) <-> storable items).
Proof.
  intros cap fuel m f t items D So G U L Fu w. split.
  - intros (_ & t' & R & <-). exact (read_no_utf16 _ _ _ _ R U).
  - intros Si. destruct (last_comes_back cap fuel m m f t items D So G Si L Fu) as (W & R & _). split; [exact W|].
    eexists. split; [exact R|reflexivity].
Qed.
Print Assumptions C37_repeated.

(** Careful calls on an empty tag or one read from any bytes. *)
Theorem C37_careful_repeated_partial : forall cap fuel m m' f t l ops,
  describes f t -> sound_tables f -> good_sizes f ->
  (l = [] \/ exists fuel0 m0 src t0, read_tag fuel0 m0 src = Ok t0 /\ no_utf16 (tg_atoms t0) /\ l = tg_atoms t0) -> Forall careful ops ->
  let items := TagOps.run_ops l ops in
  blen (render_all f) + announced items + 85 < 2 ^ 32 -> blen (render_all f) + announced items + 85 < N.of_nat fuel ->
  let w := write_tag cap fuel m items (render_all f) in
  wr_res w = Ok tt /\ read_tag fuel m' (wr_file w) = Ok (Tag (tg_ftyp t) (tg_info t) items).
Proof.
  intros cap fuel m m' f t l ops D So G S C items L Fu w.
  assert (Sl : storable l) by (destruct S as [->|(f0 & m0 & s0 & t0 & R0 & U0 & ->)]; [split; constructor|exact (read_no_utf16 _ _ _ _ R0 U0)]).
  pose proof (storable_run_ops ops l Sl C) as Si. fold items in Si.
  destruct (last_comes_back cap fuel m m' f t items D So G Si L Fu) as (W & R & _). split; [exact W|exact R].
Qed.
Print Assumptions C37_careful_repeated_partial.

(** * C61: the calls that take a path, on a file with repeated containers *)

Theorem C61_repeated : forall rcap cap cap' sizes last ev ev' fuel m m' s p f t items,
  last <> 0 -> Forall (fun n => n <> 0) sizes ->
  s p = Some (render_all f) -> unbroken ev -> unbroken ev' ->
  describes f t -> sound_tables f -> good_sizes f -> storable items ->
  blen (render_all f) + announced items + 85 < 2 ^ 32 -> blen (render_all f) + announced items + 85 < N.of_nat fuel ->
  let w := write_to_path rcap cap sizes last ev fuel m items s p in
  fst w = Done (Ok tt) /\ read_from_path cap' ev' fuel m' (snd w) p = Done (Ok (Tag (tg_ftyp t) (tg_info t) items)).
Proof.
  intros rcap cap cap' sizes last ev ev' fuel m m' s p f t items L0 Fs Hs U U' D So G St L Fu w.
  assert (Lf : blen (render_all f) < 2 ^ 63) by lia.
  destruct (proj2 (C61_content s p _ Hs Lf) rcap cap sizes last ev fuel m items U L0 Fs) as [R1 R2]. fold w in R1, R2.
  destruct (last_comes_back cap fuel m m' f t items D So G St L Fu) as (W & R & B). cbv zeta in *. split; [rewrite R1, W; reflexivity|].
  rewrite (proj1 (C61_content (snd w) p _ R2 ltac:(lia)) cap' ev' fuel m' U'), R. reflexivity.
Qed.
Print Assumptions C61_repeated.

(** The file of C88, where something is repeated: a tag that comes back and one that does not. *)
Example C37_repeated_example :
  describes c88_file c88_tag /\ sound_tables c88_file /\ good_sizes c88_file /\ ~ editable c88_file /\ no_utf16 twice /\ no_utf16 (with_text []) /\
  ~ storable twice /\ storable (with_text []) /\ storable ex_new_items /\ Forall careful c37_ops /\ read_tag 2000 Checked (render_all ex_file) = Ok ex_tag /\
  blen (render_all c88_file) + announced (TagOps.run_ops (tg_atoms ex_tag) c37_ops) + 85 < 2000 /\
  blen (render_all c88_file) + announced twice + 85 < 2000 /\
  unbroken [Short 0; Again] /\
  (let p := raw [97] in Paths.put (fun _ => None) p (render_all c88_file) p = Some (render_all c88_file)).
Proof.
  split; [apply C88_example|]. split; [apply C88_example|]. split; [apply C88_example|]. split; [apply C88_example|].
  split; [apply C37_written_example|]. split; [apply C37_written_example|]. split; [apply C37_written_example|]. split; [apply C37_written_example|].
  split; [apply C88_example|]. split; [apply C37_example|]. split; [vm_compute; reflexivity|]. split; [vm_compute; reflexivity|]. split; [vm_compute; reflexivity|].
  split; [intros c [X|[X|[]]]; discriminate|]. apply put_same.
Qed.
