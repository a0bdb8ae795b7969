(** Theorems about failing writes: C08 (see properties.jsonl). *)

From Coq Require Import List NArith ZArith Bool Lia Arith String.
From Coq Require Import ZifyBool ZifyNat ZifyN.
From Verif Require Import Base BaseLemmas Utf Types Stream Parse Find Write TagSpec FileSpec ParseLemmas ReadFacts WriteState ExampleFile
  FailSpec FailProofs Modes.
Import ListNotations.
Local Open Scope list_scope.

(** * C08: a failed write does not modify the file *)

(** False: the second of two chunk offset tables has an unknown version; the first one has been changed
    before the error is noticed. *)
Definition c08_bad : atom := Atom false (id4 "stco") (raw [1; 0; 0; 0] ++ be 4 1 ++ be 4 5) [].
Definition c08_file : list atom :=
  [ex_ftyp; Atom false (id4 "moov") [] [ex_trak [ex_stco [1000]]; ex_trak [c08_bad]]; ex_mdat].
Theorem C08_tables_refuted : exists f items e,
  let w := write_tag 8192 2000 Checked items f in wr_res w = Err e /\ wr_file w <> f.
Proof. exists (render_all c08_file), ex_items, (EUnknownVersion 1). split; vm_compute; [reflexivity|discriminate]. Qed.
Print Assumptions C08_tables_refuted.

(** Proved for all byte strings and all tags: after an error the file has its old length, and every byte
    that is not an entry of what looks like a chunk offset table is unchanged.  (Stated for builds with
    overflow checks; without them the outcome is the same, see [C08_unchecked].)  What is missing: the
    entries, see the refutation. *)
Theorem C08_only_tables_partial : forall cap fuel items f pos e,
  blen f < 2 ^ 62 -> announced items < 2 ^ 61 ->
  let w := write_tag_to cap fuel Checked items f pos in
  wr_res w = Err e ->
  blen (wr_file w) = blen f /\
  forall p, ~ in_table f p -> nth_error (wr_file w) (N.to_nat p) = nth_error f (N.to_nat p).
Proof. intros cap fuel items f pos e L La w H. exact (failed_write cap fuel items f pos e L La H). Qed.
Print Assumptions C08_only_tables_partial.
Theorem C08_unchecked : forall cap fuel items f pos e,
  wr_res (write_tag_to cap fuel Checked items f pos) = Err e ->
  write_tag_to cap fuel Wrapping items f pos = write_tag_to cap fuel Checked items f pos.
Proof. intros cap fuel items f pos e H. apply write_modes. rewrite H. discriminate. Qed.
Print Assumptions C08_unchecked.

(** A file in which neither `stco` nor `co64` occurs is not modified at all. *)
Theorem C08_no_tables : forall cap fuel items f pos e,
  blen f < 2 ^ 62 -> announced items < 2 ^ 61 ->
  (forall q, slice f q 4 <> fc_bytes (id4 "stco") /\ slice f q 4 <> fc_bytes (id4 "co64")) ->
  let w := write_tag_to cap fuel Checked items f pos in
  wr_res w = Err e -> wr_file w = f.
Proof.
  intros cap fuel items f pos e L La N w H. destruct (failed_write cap fuel items f pos e L La H) as [Lg S]. fold w in Lg, S.
  assert (X : forall p, nth_error (wr_file w) p = nth_error f p).
  { intro p. rewrite <- (Nat2N.id p). apply S. intros (q & id & hd & sz & (_ & B & _) & I & _). destruct (N (q + 4)) as [N1 N2]. destruct I as [-> | ->]; contradiction. }
  clear -X. revert X. generalize (wr_file w). clear. intro g. revert f. induction g as [|a g IH]; intros [|b f] X; try reflexivity.
  - specialize (X 0%nat). discriminate X.
  - specialize (X 0%nat). discriminate X.
  - pose proof (X 0%nat) as X0. injection X0 as ->. f_equal. apply IH. intro p. exact (X (S p)).
Qed.
Print Assumptions C08_no_tables.

(** The two tables of the example start at 80 and 156; the write changes bytes 98 and 99, the end of the
    only entry of the first one. *)
Example C08_example :
  let f := render_all c08_file in let w := write_tag 8192 2000 Checked ex_items f in
  wr_res w = Err (EUnknownVersion 1) /\ box_at f 80 (id4 "stco") 8 20 /\ in_table f 99 /\ ~ in_table f 12 /\
  slice f 96 4 = be 4 1000 /\ slice (wr_file w) 96 4 = be 4 1251 /\ slice f 156 8 = be 4 20 ++ fc_bytes (id4 "stco").
Proof.
  cbv zeta. assert (B : box_at (render_all c08_file) 80 (id4 "stco") 8 20).
  { split; [vm_compute; discriminate|]. split; [vm_compute; reflexivity|]. right. split; [vm_compute; discriminate|]. split; [vm_compute; discriminate|]. split; vm_compute; reflexivity. }
  split; [vm_compute; reflexivity|]. split; [exact B|].
  split. { exists 80, (id4 "stco"), 8, 20. split; [exact B|]. split; [left; reflexivity|]. split; [lia|]. vm_compute. discriminate. }
  split. { intros (q & id & hd & sz & (_ & _ & H) & _ & R & _). lia. }
  split; [vm_compute; reflexivity|]. split; vm_compute; reflexivity.
Qed.
Example C08_no_tables_example :
  let f := render_all [ex_ftyp; ex_mdat] in
  (forall q, slice f q 4 <> fc_bytes (id4 "stco") /\ slice f q 4 <> fc_bytes (id4 "co64")) /\
  wr_res (write_tag 8192 2000 Checked ex_items f) = Err (EAtomNotFound (id4 "moov")).
Proof.
  cbv zeta. split; [|vm_compute; reflexivity]. intro q. set (f := render_all [ex_ftyp; ex_mdat]).
  assert (X : forall id, forallb (fun k => if list_eq_dec byte_dec (slice f (N.of_nat k) 4) (fc_bytes id) then false else true) (seq 0 33) = true -> slice f q 4 <> fc_bytes id).
  { intros id H E. rewrite forallb_forall in H. destruct (N.lt_ge_cases q 33) as [L|L].
    - specialize (H (N.to_nat q)). rewrite N2Nat.id, E in H. destruct (list_eq_dec byte_dec (fc_bytes id) (fc_bytes id)); [|contradiction].
      specialize (H ltac:(apply in_seq; lia)). discriminate H.
    - unfold slice in E. rewrite skipn_all2 in E; [destruct id; discriminate E|]. change (List.length f) with 32%nat. lia. }
  split; apply X; vm_compute; reflexivity.
Qed.
