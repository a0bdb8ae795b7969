(** Theorems about writing to a device that fails: C49, C50 (see properties.jsonl). *)

From Coq Require Import List NArith ZArith Bool Lia Arith String.
From Coq Require Import ZifyBool ZifyNat ZifyN.
From Verif Require Import Base BaseLemmas Utf Types Stream Parse Find Write TagSpec FileSpec WriteState ExampleFile WriteExample FailSpec FailProofs ScanFwd WriteAny CallsAny
  Fault FaultProofs Props_Write Props_Write2 Props_Any.
Import ListNotations.
Local Open Scope list_scope.

(** No call fails; writes may be short or interrupted, and reading may leave the cursor anywhere. *)
Definition unbroken (ev : list event) : Prop := forall c, ~ In (Broken c) ev.

Lemma unbroken_ok : forall ev, unbroken ev -> no_broken ev.
Proof.
  intros ev H. unfold no_broken. destruct (existsb is_broken ev) eqn:E; [|reflexivity]. apply existsb_exists in E. destruct E as (e & I & B).
  destruct e; try discriminate. exfalso. exact (H _ I).
Qed.

(** * C49: failing devices *)

(** Short and interrupted writes and the shared cursor make no difference. *)
Theorem C49_transparent : forall ev cap fuel m items f pos, unbroken ev ->
  let g := faulty_write ev cap fuel m items f pos in
  let w := write_tag_to cap fuel m items f pos in
  fr_res g = Done (wr_res w) /\ fr_file g = wr_file w.
Proof. intros ev cap fuel m items f pos H g w. apply (faulty_spec ev cap fuel m items f pos), unbroken_ok, H. Qed.
Print Assumptions C49_transparent.

(** Whatever fails: either that is reported, or the result is the same; and a success is one. *)
Theorem C49_reported : forall ev cap fuel m items f pos,
  let g := faulty_write ev cap fuel m items f pos in
  let w := write_tag_to cap fuel m items f pos in
  (fr_res g = DeviceError \/ fr_res g = Done (wr_res w)) /\
  (fr_res g = Done (Ok tt) -> wr_res w = Ok tt /\ fr_file g = wr_file w).
Proof.
  intros ev cap fuel m items f pos g w. destruct (faulty_spec ev cap fuel m items f pos) as (A & _ & B & _). fold g w in A, B.
  split; [tauto|]. intro E. split; [|exact (B E)]. destruct A as [A|A]; congruence.
Qed.
Print Assumptions C49_reported.

(** * C50: what a failure leaves behind *)

(** The file a failure leaves behind is one that an interruption can leave behind, except that after
    a failing change of the length the size field changed last may still get stored. *)
Theorem C50_state : forall ev cap fuel m items f pos,
  let g := faulty_write ev cap fuel m items f pos in
  let w := write_tag_to cap fuel m items f pos in
  interrupted (wr_ops w) f (fr_file g) \/
  exists made n p d rest k, wr_ops w = made ++ OSetLen n :: OWrite p d :: rest /\ fr_file g = write_at (run_ops made f) p (firstn k d).
Proof.
  intros ev cap fuel m items f pos g w. destruct (faulty_spec ev cap fuel m items f pos) as (_ & A & _). fold g w in A.
  destruct A as (made & rest & Eo & [H|[H|(n & p & d & r & k & -> & H)]]); [left; exists made, rest; split; auto..|].
  right. exists made, n, p, d, r, k. split; assumption.
Qed.
Print Assumptions C50_state.

Lemma state_front : forall lo ops f g, Forall (op_ge lo) ops -> lo <= blen f ->
  (interrupted ops f g \/ exists made n p d rest k, ops = made ++ OSetLen n :: OWrite p d :: rest /\ g = write_at (run_ops made f) p (firstn k d)) ->
  firstn (N.to_nat lo) g = firstn (N.to_nat lo) f.
Proof.
  intros lo ops f g O L H.
  assert (W : forall made p (d : bytes) k, Forall (op_ge lo) made -> lo <= p -> firstn (N.to_nat lo) (write_at (run_ops made f) p (firstn k d)) = firstn (N.to_nat lo) f).
  { intros made p d k Om Lp. destruct (ops_keep lo made f Om L) as [A B].
    destruct (op_keeps lo (OWrite p (firstn k d)) (run_ops made f) Lp B) as [X _]. cbn [apply_op] in X. congruence. }
  destruct H as [(made & rest & -> & [-> |(p & d & r & k & -> & ->)])|(made & n & p & d & r & k & -> & ->)]; apply Forall_app in O; destruct O as [O1 O2].
  - apply (ops_keep lo made f O1 L).
  - inversion O2 as [|? ? H _]; subst. apply W; assumption.
  - inversion O2 as [|? ? _ H]; subst. inversion H as [|? ? H' _]; subst. apply W; assumption.
Qed.

(** Wherever it fails, everything in front of what looks like the first movie box is as before. *)
Theorem C50_front : forall ev cap fuel items f pos lo,
  blen f < 2 ^ 62 -> announced items < 2 ^ 61 -> no_huge_box f ->
  lo <= blen f -> (forall q, q < lo -> slice f (q + 4) 4 <> fc_bytes (id4 "moov")) ->
  firstn (N.to_nat lo) (fr_file (faulty_write ev cap fuel Checked items f pos)) = firstn (N.to_nat lo) f.
Proof.
  intros ev cap fuel items f pos lo Lf La Hh Lo Nm.
  exact (state_front lo _ f _ (calls_front cap fuel items f pos lo Lf La Hh Nm) Lo (C50_state ev cap fuel Checked items f pos)).
Qed.
Print Assumptions C50_front.

(** In a well-formed file these are the boxes in front of the movie box. *)
Theorem C50_front_boxes : forall ev cap fuel m ft pre mv post items,
  let f := ft :: pre ++ mv :: post in
  updatable f items -> a_id mv = id4 "moov" -> blen (render_all f) < N.of_nat fuel ->
  exists rest, fr_file (faulty_write ev cap fuel m items (render_all f) 0) = render_all (ft :: pre) ++ rest.
Proof.
  intros ev cap fuel m ft pre mv post items f U J Fu. pose proof (C50_state ev cap fuel m items (render_all f) 0) as S. cbv zeta in S.
  change (write_tag_to cap fuel m items (render_all f) 0) with (write_tag cap fuel m items (render_all f)) in S.
  destruct (write_ok cap fuel m f items U Fu) as (ops & E & _ & O). rewrite E in S. cbn [wr_ops] in S. specialize (O ft pre mv post eq_refl J).
  set (g := fr_file _) in *.
  assert (Ef : render_all f = render_all (ft :: pre) ++ render_all (mv :: post)) by (unfold f; apply (ParseLemmas.render_all_app (ft :: pre))).
  assert (L : blen (render_all (ft :: pre)) <= blen (render_all f)) by (rewrite Ef, blen_app; lia).
  pose proof (state_front _ ops (render_all f) g O L S) as X.
  exists (skipn (N.to_nat (blen (render_all (ft :: pre)))) g). rewrite <- (firstn_skipn (N.to_nat (blen (render_all (ft :: pre)))) g) at 1. f_equal.
  rewrite X, Ef, firstn_app, to_nat_blen, Nat.sub_diag, firstn_O, app_nil_r. apply firstn_all.
Qed.
Print Assumptions C50_front_boxes.

(** A failure can leave a file that reads neither as before nor as intended. *)
Theorem C50_atomic_refuted : exists f items ev e, updatable f items /\
  let g := faulty_write ev 8192 1000 Checked items (render_all f) 0 in
  fr_res g = DeviceError /\ read_tag 1000 Checked (fr_file g) = Err e.
Proof.
  exists ex_file, ex_new_items, (repeat (Fine 3) 13 ++ [Broken 0]).
  destruct (read_tag 1000 Checked (fr_file (faulty_write (repeat (Fine 3) 13 ++ [Broken 0]) 8192 1000 Checked ex_new_items (render_all ex_file) 0))) as [t|e|q|] eqn:E;
    [exfalso; revert E; vm_compute; discriminate| |exfalso; revert E; vm_compute; discriminate|exfalso; revert E; vm_compute; discriminate].
  exists e. split; [exact ex_updatable|]. split; [vm_compute; reflexivity|exact E].
Qed.
Print Assumptions C50_atomic_refuted.

(** Every write is interrupted and then stores three bytes at a time for a while. *)
Definition bumpy : list event := Fine 5 :: Fine 77 :: List.concat (repeat [Again; Short 2; Again; Short 2; Short 0] 6).
Example C49_transparent_example :
  let w := write_tag 16 1000 Checked ex_new_items (render_all ex_file) in
  let g := faulty_write bumpy 16 1000 Checked ex_new_items (render_all ex_file) 0 in
  unbroken bumpy /\ wr_res w = Ok tt /\ fr_res g = Done (Ok tt) /\ fr_file g = wr_file w /\ fr_file g <> render_all ex_file.
Proof.
  intros w g. split.
  - intros c H. assert (E : existsb is_broken bumpy = true) by (apply existsb_exists; exists (Broken c); split; [exact H|reflexivity]).
    revert E. vm_compute. discriminate.
  - split; [vm_compute; reflexivity|]. split; [vm_compute; reflexivity|]. split; [vm_compute; reflexivity|]. vm_compute. discriminate.
Qed.

(** Changing the length fails: the file keeps its length, and the size field still gets stored. *)
Example C50_state_example :
  let w := write_tag 8192 1000 Checked ex_new_items (render_all ex_file) in
  let g := faulty_write (repeat (Fine 3) 12 ++ [Broken 0]) 8192 1000 Checked ex_new_items (render_all ex_file) 0 in
  fr_res g = DeviceError /\ blen (fr_file g) = blen (render_all ex_file) /\ blen (wr_file w) < blen (render_all ex_file) /\
  exists made n p d rest, wr_ops w = made ++ OSetLen n :: OWrite p d :: rest /\ d <> [] /\ fr_file g = write_at (run_ops made (render_all ex_file)) p d /\
    fr_file g <> run_ops made (render_all ex_file).
Proof.
  intros w g. split; [vm_compute; reflexivity|]. split; [vm_compute; reflexivity|]. split; [vm_compute; reflexivity|].
  exists (firstn 4 (wr_ops w)), 700, 459, (match nth 5 (wr_ops w) (OSetLen 0) with OWrite _ d => d | _ => [] end), (skipn 6 (wr_ops w)).
  split; [vm_compute; reflexivity|]. split; [vm_compute; discriminate|]. split; [vm_compute; reflexivity|]. vm_compute. discriminate.
Qed.

(** A write stores three bytes and fails, as does the attempt to store the rest: the 27 bytes in front of
    the movie box of the cut file are kept. *)
Example C50_front_example :
  let g := faulty_write (repeat (Fine 3) 5 ++ [Short 2; Broken 0; Broken 0]) 8192 1000 Checked ex_new_items cut_file 0 in
  blen cut_file < 2 ^ 62 /\ announced ex_new_items < 2 ^ 61 /\ no_huge_box cut_file /\ 27 <= blen cut_file /\
  (forall q, q < 27 -> slice cut_file (q + 4) 4 <> fc_bytes (id4 "moov")) /\
  fr_res g = DeviceError /\ firstn 27 (fr_file g) = firstn 27 cut_file /\ fr_file g <> cut_file.
Proof.
  intros g. split; [vm_compute; reflexivity|]. split; [vm_compute; reflexivity|]. split; [exact cut_no_huge|]. split; [vm_compute; discriminate|].
  split; [apply no_moovb_ok; vm_compute; reflexivity|]. split; [vm_compute; reflexivity|]. split; [vm_compute; reflexivity|]. vm_compute. discriminate.
Qed.
