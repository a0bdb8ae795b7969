(** Theorems about writing to arbitrary byte strings: C03, C09 (see properties.jsonl). *)

From Coq Require Import List NArith ZArith Bool Lia Arith String.
From Coq Require Import ZifyBool ZifyNat ZifyN.
From Verif Require Import Base BaseLemmas Utf Types Stream Parse Find Write Modes TagSpec FileSpec StoreSpec ParseLemmas ReadFacts WriteBytes WriteState
  ExampleFile FailSpec FailProofs ScanFwd WriteAny CallsAny Props_Write Props_Write2.
Import ListNotations.
Local Open Scope list_scope.

Lemma no_utf16_exact : forall items, no_utf16 items -> exact_items items.
Proof.
  intros items H. apply Forall_impl with (2 := H). intros a Ha. apply Forall_impl with (2 := Ha). intros d Hd. unfold exact_data.
  destruct d; try reflexivity. rewrite (Hd s eq_refl). reflexivity.
Qed.
Lemma announced_list : forall items, no_utf16 items -> announced items <= asize (new_ilst items).
Proof.
  intros items H. apply no_utf16_exact in H. rewrite <- (ilst_size_eq items H). unfold announced, ilst_size, size_from. cbn [sz_len]. destruct (_ <? _); lia.
Qed.

(** * C03 without assuming a well-formed file *)

(** Whatever the file contains: if the write succeeds then one place of it, an item list or the end of a
    metadata, user data or movie box, has been replaced by the new list or what goes around it.
    Everything behind that place is kept, and everything in front of it apart from chunk offset tables
    and the size fields of movie, user data and metadata boxes. *)
Theorem C03_any_file : forall cap fuel items f pos,
  blen f < 2 ^ 62 -> asize (new_ilst items) < 2 ^ 61 -> no_huge_box f -> no_utf16 items -> items_fit items ->
  wr_res (write_tag_to cap fuel Checked items f pos) = Ok tt ->
  exists start stop front new, replaced f items start stop new /\ start <= stop <= blen f /\ blen front = start /\
    wr_file (write_tag_to cap fuel Checked items f pos) = front ++ new ++ skipn (N.to_nat stop) f /\
    forall i, i < start -> ~ in_table f i -> ~ in_size_field f i -> nth_error front (N.to_nat i) = nth_error f (N.to_nat i).
Proof.
  intros cap fuel items f pos Lf La Hh Nu Fit H. pose proof (announced_list items Nu). apply any_write; try assumption; [lia|apply no_utf16_exact, Nu].
Qed.
Print Assumptions C03_any_file.
Theorem C03_any_unchecked : forall cap fuel items f pos,
  wr_res (write_tag_to cap fuel Checked items f pos) = Ok tt ->
  write_tag_to cap fuel Wrapping items f pos = write_tag_to cap fuel Checked items f pos.
Proof. intros cap fuel items f pos H. apply write_modes. rewrite H. discriminate. Qed.
Print Assumptions C03_any_unchecked.

Definition no_hugeb (f : bytes) : bool :=
  forallb (fun k => let p := N.of_nat k in negb (field f p 4 =? 1) || (field f (p + 8) 8 <? 2 ^ 63)) (seq 0 (List.length f)).
Lemma no_hugeb_ok : forall f, no_hugeb f = true -> no_huge_box f.
Proof.
  intros f H p E L. unfold no_hugeb in H. rewrite forallb_forall in H. specialize (H (N.to_nat p)). rewrite N2Nat.id in H.
  specialize (H ltac:(apply in_seq; unfold blen in L; lia)). cbv zeta in H. rewrite E in H. cbn in H. lia.
Qed.

(** A file that has been cut off inside its media data: the last box announces 16 bytes, 13 are left. *)
Definition cut_file : bytes := firstn (List.length (render_all ex_file) - 12) (render_all ex_file).
Lemma cut_no_huge : no_huge_box cut_file. Proof. apply no_hugeb_ok. vm_compute. reflexivity. Qed.
Lemma ex_new_no_utf16 : no_utf16 ex_new_items. Proof. unfold no_utf16. repeat constructor; intros s E; discriminate E. Qed.
Example C03_any_example :
  blen cut_file < 2 ^ 62 /\ asize (new_ilst ex_new_items) < 2 ^ 61 /\ no_huge_box cut_file /\ no_utf16 ex_new_items /\ items_fit ex_new_items /\
  slice cut_file (blen cut_file - 13) 8 = be 4 16 ++ fc_bytes (id4 "mdat") /\
  let w := write_tag 8192 1000 Checked ex_new_items cut_file in wr_res w = Ok tt /\ wr_file w <> cut_file.
Proof.
  split; [vm_compute; reflexivity|]. split; [vm_compute; reflexivity|]. split; [exact cut_no_huge|]. split; [exact ex_new_no_utf16|].
  split; [vm_compute; reflexivity|]. split; [vm_compute; reflexivity|]. split; [vm_compute; reflexivity|]. vm_compute. discriminate.
Qed.

(** * C09 without assuming a well-formed file *)

(** In every case, success, error or panic, the calls made produce the file that is left. *)
Theorem C09_calls_any : forall cap fuel m items f pos,
  let w := write_tag_to cap fuel m items f pos in run_ops (wr_ops w) f = wr_file w.
Proof. intros. apply calls_any. Qed.
Print Assumptions C09_calls_any.
(** Wherever they are interrupted, everything in front of what looks like the first movie box is as
    before. *)
Theorem C09_front_any : forall cap fuel items f pos lo g,
  blen f < 2 ^ 62 -> announced items < 2 ^ 61 -> no_huge_box f ->
  lo <= blen f -> (forall q, q < lo -> slice f (q + 4) 4 <> fc_bytes (id4 "moov")) ->
  interrupted (wr_ops (write_tag_to cap fuel Checked items f pos)) f g ->
  firstn (N.to_nat lo) g = firstn (N.to_nat lo) f.
Proof.
  intros cap fuel items f pos lo g Lf La Hh Lo Nm (made & rest & Eo & C). pose proof (calls_front cap fuel items f pos lo Lf La Hh Nm) as O.
  rewrite Eo in O. apply Forall_app in O. destruct O as [O1 O2]. destruct (ops_keep lo made f O1 Lo) as [A B].
  destruct C as [-> |(p & d & r & k & -> & ->)]; [exact A|]. inversion O2 as [|? ? H _]; subst.
  destruct (op_keeps lo (OWrite p (firstn k d)) (run_ops made f) H B) as [X _]. cbn [apply_op] in X. congruence.
Qed.
Print Assumptions C09_front_any.
(** In particular whatever the outcome of a completed call. *)
Theorem C09_outcome_any : forall cap fuel items f pos lo,
  blen f < 2 ^ 62 -> announced items < 2 ^ 61 -> no_huge_box f ->
  lo <= blen f -> (forall q, q < lo -> slice f (q + 4) 4 <> fc_bytes (id4 "moov")) ->
  firstn (N.to_nat lo) (wr_file (write_tag_to cap fuel Checked items f pos)) = firstn (N.to_nat lo) f.
Proof.
  intros cap fuel items f pos lo Lf La Hh Lo Nm. apply (C09_front_any cap fuel items f pos lo); try assumption.
  exists (wr_ops (write_tag_to cap fuel Checked items f pos)), []. split; [symmetry; apply app_nil_r|]. left. symmetry. apply C09_calls_any.
Qed.
Print Assumptions C09_outcome_any.

Definition no_moovb (f : bytes) (lo : N) : bool :=
  forallb (fun k => if list_eq_dec byte_dec (slice f (N.of_nat k + 4) 4) (fc_bytes (id4 "moov")) then false else true) (seq 0 (N.to_nat lo)).
Lemma no_moovb_ok : forall f lo, no_moovb f lo = true -> forall q, q < lo -> slice f (q + 4) 4 <> fc_bytes (id4 "moov").
Proof.
  intros f lo H q L E. unfold no_moovb in H. rewrite forallb_forall in H. specialize (H (N.to_nat q) ltac:(apply in_seq; lia)). rewrite N2Nat.id, E in H.
  destruct (list_eq_dec byte_dec _ _) in H; [discriminate H|contradiction].
Qed.
(** The movie box of the cut file is at 27; the write makes several calls. *)
Example C09_any_example :
  blen cut_file < 2 ^ 62 /\ announced ex_new_items < 2 ^ 61 /\ no_huge_box cut_file /\ 27 <= blen cut_file /\
  (forall q, q < 27 -> slice cut_file (q + 4) 4 <> fc_bytes (id4 "moov")) /\
  let w := write_tag 64 1000 Checked ex_new_items cut_file in
  wr_res w = Ok tt /\ (5 <= List.length (wr_ops w))%nat /\ firstn 28 (wr_file w) = firstn 28 cut_file /\ firstn 32 (wr_file w) <> firstn 32 cut_file.
Proof.
  split; [vm_compute; reflexivity|]. split; [vm_compute; reflexivity|]. split; [exact cut_no_huge|]. split; [vm_compute; discriminate|].
  split; [apply no_moovb_ok; vm_compute; reflexivity|]. split; [vm_compute; reflexivity|]. split; [vm_compute; repeat constructor|].
  split; [vm_compute; reflexivity|]. vm_compute. discriminate.
Qed.
