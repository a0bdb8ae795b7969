(** Theorems about buffering readers: C58 (see properties.jsonl). *)

From Coq Require Import List NArith ZArith Bool Lia Arith String.
From Coq Require Import ZifyBool ZifyNat ZifyN.
From Verif Require Import Base BaseLemmas Utf Types Stream Parse Find Write TagSpec FileSpec ReadFacts ExampleFile WriteExample FailSpec Fault FaultProofs Samples
  ReadIO IoProofs IoCost IoDevice IoScan Props_Fault Props_IO BufRead BufProofs.
Import ListNotations.
Local Open Scope list_scope.

(** * C58: buffering makes no difference *)

(** [Tag::read_from] and the scan of [write_tag_to] through a buffer of [cap] bytes that is empty at the
    start: the outcome and the events not used. *)
Definition buffered_read (cap : N) (ev : list event) (fuel : nat) (m : mode) (f : bytes) : outcome tag * list event :=
  buf_run cap (io_read_tag_from fuel m) ev f (BReader 0 []).
Definition buffered_scan (cap : N) (ev : list event) (fuel : nat) (m : mode) (f : bytes) (p : N) : outcome (moov_bounds * N) * list event :=
  buf_run cap (io_scan fuel m) ev f (BReader p []).

(** What is reported, given the calls that were made and the result of reading from memory. *)
Definition reports {A} (ev : list event) (x : outcome A * list event) (r : res A) : Prop :=
  exists used, ev = used ++ snd x /\
    ((exists c, In (Broken c) used) /\ fst x = DeviceError \/ unbroken used /\ fst x = Done r).
Lemma reports_ok : forall {A} ev (x : outcome A * list event) r,
  (exists used, ev = used ++ snd x /\ fst x = if existsb broken used then DeviceError else Done r) -> reports ev x r.
Proof.
  intros A ev x r (used & E & R). exists used. split; [exact E|]. destruct (existsb broken used) eqn:B.
  - left. split; [apply broken_is, B|exact R].
  - right. split; [|exact R]. intros c I. assert (existsb broken used = true) by (apply broken_is; exists c; exact I). congruence.
Qed.

(** Whatever the capacity, and however the calls for the buffer are cut short, interrupted or fail: an error
    of the device is reported, and otherwise the result is that of reading from memory. *)
Theorem C58_read : forall cap ev fuel m f, blen f < 2 ^ 63 -> reports ev (buffered_read cap ev fuel m f) (read_tag fuel m f).
Proof.
  intros cap ev fuel m f L. apply reports_ok. rewrite <- read_run. apply buf_run_used; [exact L|]. apply stands_empty. reflexivity.
Qed.
Print Assumptions C58_read.
Theorem C58_scan : forall cap ev fuel m f p, blen f < 2 ^ 63 -> p < 2 ^ 63 ->
  reports ev (buffered_scan cap ev fuel m f p) (plain (scan fuel m f p)).
Proof.
  intros cap ev fuel m f p L P. apply reports_ok. rewrite <- scan_run. apply buf_run_used; [exact L|]. apply stands_empty. exact P.
Qed.
Print Assumptions C58_scan.

(** A caller's buffering reader at position [p], whatever is in its buffer already. *)
Theorem C58_started : forall cap ev fuel m f p held, blen f < 2 ^ 63 -> p + held < 2 ^ 63 -> blen (slice f p held) = held ->
  reports ev (buf_run cap (io_read_tag_from fuel m) ev f (BReader (p + held) (slice f p held))) (plain (read_tag_from fuel m f p)).
Proof.
  intros cap ev fuel m f p held L P H. apply reports_ok. rewrite <- (read_is fuel m f p). apply buf_run_used; [exact L|].
  unfold stands. cbn [br_pos br_buf]. rewrite H. split; [reflexivity|]. split; [reflexivity|exact P].
Qed.
Print Assumptions C58_started.

(** Chunk offset tables are read after moving, whatever is in the buffer. *)
Theorem C58_table : forall cap ev wide m s q f p held, blen f < 2 ^ 63 -> p + held < 2 ^ 63 -> blen (slice f p held) = held ->
  reports ev (buf_run cap (io_table_at wide m s q) ev f (BReader (p + held) (slice f p held)))
    (if q <? 2 ^ 63 then plain ((if wide then co64_parse m s else stco_parse m s) f q) else Err EIoSeek).
Proof.
  intros cap ev wide m s q f p held L P H. apply reports_ok.
  assert (W : two63 = 2 ^ 63) by reflexivity. rewrite <- W. rewrite <- (table_at_is wide m s q f p). apply buf_run_used; [exact L|].
  unfold stands. cbn [br_pos br_buf]. rewrite H. split; [reflexivity|]. split; [reflexivity|exact P].
Qed.
Print Assumptions C58_table.

(** [read_to_end] delivers the rest of the file, however much is asked for in each call. *)
Theorem C58_rest : forall ev f p held sizes last, blen f < 2 ^ 63 -> p + held < 2 ^ 63 -> blen (slice f p held) = held ->
  last <> 0 -> Forall (fun n => n <> 0) sizes ->
  reports ev (br_read_to_end sizes last f ev (BReader (p + held) (slice f p held))) (Ok (skipn (N.to_nat p) f)).
Proof.
  intros ev f p held sizes last L P H Z F. apply reports_ok. apply read_to_end_used; [exact L| |exact Z|exact F].
  unfold stands. cbn [br_pos br_buf]. rewrite H. split; [reflexivity|]. split; [reflexivity|exact P].
Qed.
Print Assumptions C58_rest.

(** So two buffers of different sizes on different devices agree unless a call fails. *)
Theorem C58_capacity : forall cap cap' ev ev' fuel m f, blen f < 2 ^ 63 -> unbroken ev -> unbroken ev' ->
  fst (buffered_read cap ev fuel m f) = fst (buffered_read cap' ev' fuel m f).
Proof.
  assert (X : forall cap ev fuel m f, blen f < 2 ^ 63 -> unbroken ev -> fst (buffered_read cap ev fuel m f) = Done (read_tag fuel m f)).
  { intros cap ev fuel m f L U. destruct (C58_read cap ev fuel m f L) as (used & E & [((c & I) & _)|(_ & R)]); [|exact R].
    exfalso. apply (U c). rewrite E. apply in_app_iff. now left. }
  intros. rewrite !X; auto.
Qed.
Print Assumptions C58_capacity.

Example C58_example :
  let f := sample_m4a in
  let ok := Done (read_tag 2000 Checked f) in
  (blen f <? 2 ^ 63) = true /\
  match read_tag 2000 Checked f with Ok t => blen (tg_atoms t) =? 32 | _ => false end = true /\
  fst (buffered_read 8192 [] 2000 Checked f) = ok /\
  fst (buffered_read 8192 (repeat (Short 10) 40 ++ [Again; Again]) 2000 Checked f) = ok /\
  fst (buffered_read 7 [Again; Short 2] 2000 Checked f) = ok /\
  fst (buffered_read 1 [] 2000 Checked f) = ok /\
  fst (buffered_read 0 [] 2000 Checked f) = ok /\
  fst (buffered_read 8192 [Fine 0; Broken 0] 2000 Checked f) = DeviceError.
Proof. vm_compute. repeat split. Qed.
Example C58_started_example :
  let f := raw [1; 2; 3] ++ render_all ex_file in
  (blen f <? 2 ^ 63) = true /\ blen (slice f 3 10) = 10 /\
  fst (buf_run 16 (io_read_tag_from 1000 Checked) [Short 0] f (BReader 13 (slice f 3 10))) = Done (read_tag 1000 Checked (render_all ex_file)) /\
  fst (br_read_to_end [1; 2] 3 (raw [1; 2; 3; 4; 5; 6; 7; 8; 9]) [Again; Short 0] (BReader 4 (raw [3; 4]))) = Done (Ok (raw [3; 4; 5; 6; 7; 8; 9])).
Proof. vm_compute. repeat split. Qed.
