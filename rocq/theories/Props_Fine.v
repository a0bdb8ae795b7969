(** Theorems about writing with an event for every system call: C62 (see properties.jsonl). *)

From Coq Require Import List NArith ZArith Bool Lia Arith String.
From Coq Require Import ZifyBool ZifyNat ZifyN.
From Verif Require Import Base BaseLemmas Utf Types Stream Parse Find Write TagSpec FileSpec WriteState ExampleFile WriteExample FailSpec FailProofs ScanFwd WriteAny CallsAny
  Fault FaultProofs Props_Write Props_Write2 Props_Any Props_Fault ReadIO IoDevice BufRead FineWrite FineProofs.
Import ListNotations.
Local Open Scope list_scope.

(** What the operating system and std guarantee: offsets are below 2^63, and no call asks for nothing. *)
Definition sound_calls (f : bytes) (pos : N) (sizes : list N) (last : N) : Prop :=
  blen f < 2 ^ 63 /\ pos < 2 ^ 63 /\ last <> 0 /\ Forall (fun n => n <> 0) sizes.

Lemma fine_coarse : forall ev rcap cap sizes last fuel m items f pos, sound_calls f pos sizes last ->
  exists ev', fine_write ev rcap cap sizes last fuel m items f pos = faulty_write ev' cap fuel m items f pos /\ (unbroken ev -> unbroken ev').
Proof.
  intros ev rcap cap sizes last fuel m items f pos (Lf & Lp & L0 & Fs).
  destruct (fine_is_faulty ev rcap cap sizes last fuel m items f pos Lf Lp L0 Fs) as (ev' & E & N). exists ev'. split; [exact E|].
  intros U c I. assert (X : nb ev).
  { unfold nb. destruct (existsb broken ev) eqn:X; [|reflexivity]. apply existsb_exists in X. destruct X as (e & J & B). destruct e; try discriminate. exfalso. exact (U _ J). }
  apply N in X. unfold nb in X. assert (Y : existsb broken ev' = true) by (apply existsb_exists; exists (Broken c); split; [exact I|reflexivity]). congruence.
Qed.

(** If no call fails then short and interrupted reads and writes, the capacities of the buffers, how the rest of the
    file is asked for, and that reader and writer move the same cursor make no difference. *)
Theorem C62_transparent : forall ev rcap cap sizes last fuel m items f pos, sound_calls f pos sizes last -> unbroken ev ->
  let g := fine_write ev rcap cap sizes last fuel m items f pos in
  let w := write_tag_to cap fuel m items f pos in
  fr_res g = Done (wr_res w) /\ fr_file g = wr_file w.
Proof.
  intros ev rcap cap sizes last fuel m items f pos S U g w. destruct (fine_coarse ev rcap cap sizes last fuel m items f pos S) as (ev' & E & N).
  unfold g. rewrite E. apply C49_transparent, N, U.
Qed.
Print Assumptions C62_transparent.

(** Whichever calls fail: that is reported, or the result is the same; and a success is one. *)
Theorem C62_reported : forall ev rcap cap sizes last fuel m items f pos, sound_calls f pos sizes last ->
  let g := fine_write ev rcap cap sizes last fuel m items f pos in
  let w := write_tag_to cap fuel m items f pos in
  (fr_res g = DeviceError \/ fr_res g = Done (wr_res w)) /\
  (fr_res g = Done (Ok tt) -> wr_res w = Ok tt /\ fr_file g = wr_file w).
Proof.
  intros ev rcap cap sizes last fuel m items f pos S g w. destruct (fine_coarse ev rcap cap sizes last fuel m items f pos S) as (ev' & E & N).
  unfold g. rewrite E. apply C49_reported.
Qed.
Print Assumptions C62_reported.

(** What a failure leaves behind. *)
Theorem C62_state : forall ev rcap cap sizes last fuel m items f pos, sound_calls f pos sizes last ->
  let g := fine_write ev rcap cap sizes last fuel m items f pos in
  let w := write_tag_to cap fuel m items f pos in
  interrupted (wr_ops w) f (fr_file g) \/
  exists made n p d rest k, wr_ops w = made ++ OSetLen n :: OWrite p d :: rest /\ fr_file g = write_at (run_ops made f) p (firstn k d).
Proof.
  intros ev rcap cap sizes last fuel m items f pos S g w. destruct (fine_coarse ev rcap cap sizes last fuel m items f pos S) as (ev' & E & N).
  unfold g. rewrite E. apply C50_state.
Qed.
Print Assumptions C62_state.

(** Everything in front of what looks like the first movie box is as before. *)
Theorem C62_front : forall ev rcap cap sizes last fuel items f pos lo, last <> 0 -> Forall (fun n => n <> 0) sizes -> pos < 2 ^ 63 ->
  blen f < 2 ^ 62 -> announced items < 2 ^ 61 -> no_huge_box f ->
  lo <= blen f -> (forall q, q < lo -> slice f (q + 4) 4 <> fc_bytes (id4 "moov")) ->
  firstn (N.to_nat lo) (fr_file (fine_write ev rcap cap sizes last fuel Checked items f pos)) = firstn (N.to_nat lo) f.
Proof.
  intros ev rcap cap sizes last fuel items f pos lo L0 Fs Lp Lf La Hh Lo Nm.
  assert (S : sound_calls f pos sizes last) by (split; [|repeat split; assumption]; assert (2 ^ 62 < 2 ^ 63) by (vm_compute; reflexivity); lia).
  destruct (fine_coarse ev rcap cap sizes last fuel Checked items f pos S) as (ev' & E & N).
  rewrite E. apply C50_front; assumption.
Qed.
Print Assumptions C62_front.

(** A reader with a buffer of 10 bytes, a writer with one of 16, bumpy calls. *)
Definition bumpy_calls : list event := List.concat (repeat [Fine 0; Again; Short 2; Fine 0; Short 1; Again] 40).
Example C62_transparent_example :
  let w := write_tag 16 1000 Checked ex_new_items (render_all ex_file) in
  let g := fine_write bumpy_calls 10 16 [5; 1] 32 1000 Checked ex_new_items (render_all ex_file) 0 in
  sound_calls (render_all ex_file) 0 [5; 1] 32 /\ unbroken bumpy_calls /\ wr_res w = Ok tt /\ fr_res g = Done (Ok tt) /\ fr_file g = wr_file w /\ fr_file g <> render_all ex_file.
Proof.
  intros w g. split; [|split].
  - split; [vm_compute; reflexivity|]. split; [vm_compute; reflexivity|]. split; [discriminate|]. repeat constructor; discriminate.
  - intros c H. assert (E : existsb is_broken bumpy_calls = true) by (apply existsb_exists; exists (Broken c); split; [exact H|reflexivity]).
    revert E. vm_compute. discriminate.
  - split; [vm_compute; reflexivity|]. split; [vm_compute; reflexivity|]. split; [vm_compute; reflexivity|]. vm_compute. discriminate.
Qed.

(** The same calls, of which one fails: either nothing is changed, or something in between is left behind. *)
Example C62_state_example :
  let f := render_all ex_file in
  let g k := fine_write (firstn k bumpy_calls ++ [Broken 0]) 10 16 [5; 1] 32 1000 Checked ex_new_items f 0 in
  let w := write_tag 16 1000 Checked ex_new_items f in
  (fr_res (g 100%nat) = DeviceError /\ fr_file (g 100%nat) = f) /\
  existsb (fun k => match fr_res (g k) with DeviceError => negb (bytes_eqb (fr_file (g k)) f) && negb (bytes_eqb (fr_file (g k)) (wr_file w)) | _ => false end) (seq 100 140) = true.
Proof. vm_compute. repeat split. Qed.

(** A cut file: the front stays. *)
Example C62_front_example :
  let g := fine_write (repeat (Fine 3) 90 ++ [Short 2; Broken 0; Broken 0]) 10 16 [] 32 1000 Checked ex_new_items cut_file 0 in
  blen cut_file < 2 ^ 62 /\ announced ex_new_items < 2 ^ 61 /\ no_huge_box cut_file /\ 27 <= blen cut_file /\
  (forall q, q < 27 -> slice cut_file (q + 4) 4 <> fc_bytes (id4 "moov")) /\
  fr_res g = DeviceError /\ firstn 27 (fr_file g) = firstn 27 cut_file /\ fr_file g <> cut_file.
Proof.
  intros g. split; [vm_compute; reflexivity|]. split; [vm_compute; reflexivity|]. split; [exact cut_no_huge|]. split; [vm_compute; discriminate|].
  split; [apply no_moovb_ok; vm_compute; reflexivity|]. split; [vm_compute; reflexivity|]. split; [vm_compute; reflexivity|]. vm_compute. discriminate.
Qed.
