(** Which tags can come out of a file, and which come back: C85 and C37, second part (see properties.jsonl). *)

From Coq Require Import List NArith ZArith Bool Lia Arith String.
From Coq Require Import ZifyBool ZifyNat ZifyN.
From Verif Require Import Base BaseLemmas Utf UtfLemmas Types Stream Parse Find Write TagApi TagOps TagSpec FileSpec ParseLemmas ReadProofs WOutSpec WOutPlan
  ExampleFile ReadFacts NewMeans WriteBytes DumpProofs WriteState WriteMain UpdateMeans EditSpec EditProofs WriteExample StoreSpec StoreProofs SizeProofs
  Utf16Proofs SurviveSpec SurviveProofs Props_Read Props_Write Props_Write3 Props_Utf16.
Import ListNotations.
Local Open Scope list_scope.

(** Whatever the bytes are and wherever reading starts: no two items with one identifier, none called `free`, none without values. *)
Theorem C85_read : forall fuel m f p t p', read_tag_from fuel m f p = Ok (t, p') -> readable_items (tg_atoms t).
Proof. exact read_readable. Qed.
Print Assumptions C85_read.

(** And nothing else can be said about the items read: every such list is in some file. *)
Theorem C85_range : forall items, items_fit items -> blen (render_all (dump_file items)) < 2 ^ 62 ->
  (readable_items items <-> exists fuel m f t, read_tag fuel m f = Ok t /\ tg_atoms t = items).
Proof.
  intros items Fi L. split.
  - intros D. exists (Datatypes.S (List.length (render_all (dump_file items)))), Checked, (render_all (dump_file items)). eexists. split.
    + apply C15_read_returns_content; [apply dump_sizes; assumption|apply dump_describes, D|unfold blen; lia].
    + reflexivity.
  - intros (fuel & m & f & t & R & <-). unfold read_tag in R. destruct (read_tag_from fuel m f 0) as [[t' p]| | |] eqn:E; try discriminate.
    injection R as ->. exact (C85_read _ _ _ _ _ _ E).
Qed.
Print Assumptions C85_range.
Example C85_example : items_fit (with_text (str "x")) /\ blen (render_all (dump_file (with_text (str "x")))) < 400 /\ readable_items (with_text (str "x")) /\
  (exists t, read_tag 400 Checked (render_all (dump_file (with_text (str "x")))) = Ok t /\ tg_atoms t = with_text (str "x")) /\
  ~ readable_items [AtomData (IFourcc TITLE) []].
Proof.
  split; [vm_compute; reflexivity|]. split; [vm_compute; reflexivity|]. split.
  { split; [repeat constructor; cbn; intuition discriminate|]. repeat constructor; try discriminate. }
  split; [eexists; split; [vm_compute; reflexivity|reflexivity]|]. intros [_ F]. inversion F as [|a l (_ & N & _)]. apply N. reflexivity.
Qed.

(** * C37 *)

(** A dumped tag comes back, in whatever profile, exactly if no two of its items have one identifier, none is called `free`, none has
    no values and no UTF-16 text has a character. *)
Theorem C37_dumped : forall m m' items fuel, Forall (fun i => item_len i < 2 ^ 32) items ->
  let f := out (dump_tag_to m items) in
  blen f < 2 ^ 62 -> blen f < N.of_nat fuel ->
  snd (dump_tag_to m items) = Ok tt /\ ((exists t, read_tag fuel m' f = Ok t /\ tg_atoms t = items) <-> storable items).
Proof.
  intros m m' items fuel L f S Fu.
  assert (L' : Forall (fun i => ad_len i < 2 ^ 32) items) by (apply Forall_impl with (2 := L); intros i X; rewrite item_len_is; exact X).
  split; [apply (dump_raw m items L')|]. rewrite storable_is. split.
  - intros (t & R & E). assert (D : readable_items items).
    { unfold read_tag in R. destruct (read_tag_from fuel m' f 0) as [[t' p]| | |] eqn:Ef; try discriminate. injection R as ->. rewrite <- E. exact (C85_read _ _ _ _ _ _ Ef). }
    split; [exact D|]. apply (proj1 (proj2 (dump_exactly m m' items fuel D L' S Fu))). exists t. split; assumption.
  - intros [D Lo]. exact (proj2 (proj2 (dump_exactly m m' items fuel D L' S Fu)) Lo).
Qed.
Print Assumptions C37_dumped.
Definition twice : list atom_data := [AtomData (IFourcc TITLE) [DUtf8 (str "a")]; AtomData (IFourcc TITLE) [DUtf8 (str "b")]].
Definition nothing : list atom_data := [AtomData (IFourcc TITLE) []].
Definition freed : list atom_data := [AtomData (IFourcc (id4 "free")) [DUtf8 (str "a")]].
Definition dumped (items : list atom_data) : bytes := out (dump_tag_to Checked items).
Definition back (items : list atom_data) : res (list atom_data) :=
  match read_tag 400 Wrapping (dumped items) with Ok t => Ok (tg_atoms t) | Err e => Err e | Panic k => Panic k | Fuel => Fuel end.
Example C37_dumped_example :
  Forall (fun l => Forall (fun i => item_len i < 2 ^ 32) l /\ blen (dumped l) < 400) [twice; nothing; freed; with_text []] /\
  back twice = Ok [AtomData (IFourcc TITLE) [DUtf8 (str "a"); DUtf8 (str "b")]] /\
  (exists e, back nothing = Err e) /\ back freed = Ok [] /\ back (with_text []) = Ok (with_text []).
Proof.
  split; [repeat constructor|]. split; [vm_compute; reflexivity|]. split; [eexists; vm_compute; reflexivity|]. split; vm_compute; reflexivity.
Qed.

(** The same for writing into an existing file, if there is no UTF-16 text with characters. *)
Theorem C37_written : forall cap fuel m f t items,
  describes f t -> good_sizes f -> editable f -> no_utf16 items ->
  blen (render_all f) + announced items + 85 < 2 ^ 32 -> blen (render_all f) + announced items + 85 < N.of_nat fuel ->
  let w := write_tag cap fuel m items (render_all f) in
  (wr_res w = Ok tt /\ (exists t', read_tag fuel m (wr_file w) = Ok t' /\ tg_atoms t' = items) <-> storable items).
Proof.
  intros cap fuel m f t items D G E U L Fu w. split.
  - intros (_ & t' & R & <-). apply storable_is. split.
    + unfold read_tag in R. destruct (read_tag_from fuel m (wr_file w) 0) as [[t'' p]| | |] eqn:Ef; try discriminate. injection R as ->. exact (C85_read _ _ _ _ _ _ Ef).
    + intros (i & s & Ii & Id & N). unfold no_utf16 in U. rewrite Forall_forall in U. specialize (U i Ii). rewrite Forall_forall in U. exact (N (U _ Id s eq_refl)).
  - intros Si. pose proof (small_updatable f t items D G E Si L) as Up. unfold w.
    destruct (write_ok cap fuel m f items Up ltac:(lia)) as (o & -> & _). split; [reflexivity|]. cbn [wr_file].
    eexists. split; [apply C15_read_returns_content; [apply Up|apply updated_describes; eassumption|]|reflexivity].
    pose proof (update_file_size items f t D E). pose proof (new_ilst_size items Si). unfold announced, total in *. lia.
Qed.
Print Assumptions C37_written.
Example C37_written_example : describes ex_file ex_tag /\ good_sizes ex_file /\ editable ex_file /\ no_utf16 twice /\ no_utf16 (with_text []) /\
  ~ storable twice /\ storable (with_text []).
Proof.
  split; [exact ex_describes|]. split; [exact ex_sizes|]. split; [exact ex_editable|].
  split. { repeat constructor; intros s X; inversion X. }
  split. { repeat constructor; intros s X; inversion X; reflexivity. }
  split; [intros [U _]; inversion U as [|x l N]; apply N; left; reflexivity|].
  split; [repeat constructor; cbn; intuition discriminate|]. repeat constructor; try discriminate.
Qed.
