(** Theorems about the reader operations of reading: C53 (failing devices), C54 (memory), C55 (number of
    operations), see properties.jsonl. *)

From Coq Require Import List NArith ZArith Bool Lia Arith String.
From Coq Require Import ZifyBool ZifyNat ZifyN.
From Verif Require Import Base BaseLemmas Utf Types Stream Parse Find Write TagSpec FileSpec ParseLemmas ReadProofs ReadFacts ExampleFile WriteExample FailSpec Fault FaultProofs Samples
  ReadIO IoProofs IoCost IoForward IoHang IoDevice IoWalk IoScan Props_Read Props_Any Props_Fault.
Import ListNotations.
Local Open Scope list_scope.

Lemma read_run : forall fuel m f, plain (run (io_read_tag_from fuel m) f 0) = read_tag fuel m f.
Proof. intros. unfold read_tag. rewrite (read_is fuel m f 0). destruct (read_tag_from fuel m f 0) as [[]| | |]; reflexivity. Qed.
Lemma scan_run : forall fuel m f p, plain (run (io_scan fuel m) f p) = plain (scan fuel m f p).
Proof. intros. now rewrite (scan_is fuel m f p). Qed.

(** * C53: devices that fail while reading *)

(** Reading, on a device on which the calls go as [ev] says: the outcome and the events not used. *)
Definition faulty_read (ev : list event) (fuel : nat) (m : mode) (f : bytes) : outcome tag * list event :=
  dev_run (io_read_tag_from fuel m) ev f 0.
Definition faulty_scan (ev : list event) (fuel : nat) (m : mode) (f : bytes) (p : N) : outcome (moov_bounds * N) * list event :=
  dev_run (io_scan fuel m) ev f p.

Lemma broken_is : forall l, existsb broken l = true <-> exists c, In (Broken c) l.
Proof.
  intro l. rewrite existsb_exists. split.
  - intros ([c|n| |c] & I & B); try discriminate. exists c. exact I.
  - intros (c & I). exists (Broken c). split; [exact I|reflexivity].
Qed.
Lemma used_report : forall {A} (x : IO A) ev f p (r : res A), plain (run x f p) = r ->
  exists used, ev = used ++ snd (dev_run x ev f p) /\
    ((exists c, In (Broken c) used) /\ fst (dev_run x ev f p) = DeviceError \/
     unbroken used /\ fst (dev_run x ev f p) = Done r).
Proof.
  intros A x ev f p r <-. destruct (dev_run_used x ev f p) as (used & E & R). exists used. split; [exact E|].
  destruct (existsb broken used) eqn:B.
  - left. split; [apply broken_is, B|exact R].
  - right. split; [|exact R]. intros c I. assert (existsb broken used = true) by (apply broken_is; exists c; exact I). congruence.
Qed.

(** The calls made are those of an initial part of the events.  If one of them fails, that is what is
    reported; otherwise the result is that of reading from memory. *)
Theorem C53_report : forall ev fuel m f, exists used,
  ev = used ++ snd (faulty_read ev fuel m f) /\
  ((exists c, In (Broken c) used) /\ fst (faulty_read ev fuel m f) = DeviceError \/
   unbroken used /\ fst (faulty_read ev fuel m f) = Done (read_tag fuel m f)).
Proof. intros. apply used_report, read_run. Qed.
Print Assumptions C53_report.
Theorem C53_scan : forall ev fuel m f p, exists used,
  ev = used ++ snd (faulty_scan ev fuel m f p) /\
  ((exists c, In (Broken c) used) /\ fst (faulty_scan ev fuel m f p) = DeviceError \/
   unbroken used /\ fst (faulty_scan ev fuel m f p) = Done (plain (scan fuel m f p))).
Proof. intros. apply used_report, scan_run. Qed.
Print Assumptions C53_scan.

(** Short and interrupted reads make no difference. *)
Theorem C53_transparent : forall ev fuel m f, unbroken ev -> fst (faulty_read ev fuel m f) = Done (read_tag fuel m f).
Proof.
  intros ev fuel m f U. destruct (C53_report ev fuel m f) as (used & E & [((c & I) & _)|(_ & R)]); [|exact R].
  exfalso. apply (U c). rewrite E. apply in_app_iff. now left.
Qed.
Print Assumptions C53_transparent.

(** Which calls are made does not depend on the device: when calls are neither short nor interrupted, the
    operations on the reader that reach the device are those of reading from memory, and any one of them
    that fails is reported. *)
Theorem C53_each_call : forall l fuel m f,
  fst (faulty_read (map (fun b : bool => if b then Broken 0 else Fine 0) l) fuel m f) =
  if existsb (fun b => b) (firstn (List.length (filter touches (asked (io_read_tag_from fuel m) f 0))) l)
  then DeviceError else Done (read_tag fuel m f).
Proof. intros. unfold faulty_read. rewrite <- read_run. apply dev_run_plan. Qed.
Print Assumptions C53_each_call.

(** Reading the sample file takes some hundred calls; the third one or the last one may fail. *)
Example C53_example :
  let f := sample_m4a in
  let k := List.length (filter touches (asked (io_read_tag_from 2000 Checked) f 0)) in
  match read_tag 2000 Checked f with Ok t => blen (tg_atoms t) =? 32 | _ => false end = true /\
  (100 <? N.of_nat k) = true /\
  fst (faulty_read [Fine 0; Again; Short 1; Fine 0; Broken 0] 2000 Checked f) = DeviceError /\
  fst (faulty_read (repeat (Fine 0) (k - 1) ++ [Broken 0]) 2000 Checked f) = DeviceError /\
  fst (faulty_read (repeat (Fine 0) k ++ [Broken 0]) 2000 Checked f) = Done (read_tag 2000 Checked f).
Proof. vm_compute. repeat split. Qed.

(** * C54: memory *)

(** The lengths of the byte buffers requested while reading, in order. *)
Definition buffers (fuel : nat) (m : mode) (f : bytes) : list N := vecs (asked (io_read_tag_from fuel m) f 0).

(** Whatever the bytes: no buffer is larger than the file, or it is the last one and reading fails. *)
Theorem C54_any_file : forall fuel m f,
  Forall (fun n => n <= blen f) (buffers fuel m f) \/
  exists l n, buffers fuel m f = l ++ [n] /\ Forall (fun k => k <= blen f) l /\ blen f < n /\
    (read_tag fuel m f = Err EIoEof \/ read_tag fuel m f = Panic PCapacity).
Proof.
  intros fuel m f. rewrite <- read_run. destruct (vecs_fit (io_read_tag_from fuel m) f 0) as [H|(l & n & E & F & L & R)]; [now left|].
  right. exists l, n. split; [exact E|split; [exact F|split; [exact L|destruct R as [-> | ->]; auto]]].
Qed.
Print Assumptions C54_any_file.
Theorem C54_success : forall fuel m f t, read_tag fuel m f = Ok t -> Forall (fun n => n <= blen f) (buffers fuel m f).
Proof.
  intros fuel m f t H. destruct (C54_any_file fuel m f) as [F|(l & n & _ & _ & _ & [R|R])]; [exact F|congruence..].
Qed.
Print Assumptions C54_success.

(** The last buffer is limited by nothing but the address space: a file of 16 bytes may ask for any number
    of bytes below 2^63. *)
Definition greedy_file (n : N) : bytes := be 4 1 ++ fc_bytes (id4 "ftyp") ++ be 8 (n + 16).
Theorem C54_refuted : forall n fuel m, 0 < n -> n < 2 ^ 63 ->
  blen (greedy_file n) = 16 /\ buffers fuel m (greedy_file n) = [n] /\ read_tag fuel m (greedy_file n) = Err EIoEof.
Proof.
  intros n fuel m P L. unfold greedy_file. set (f := be 4 1 ++ fc_bytes (id4 "ftyp") ++ be 8 (n + 16)).
  assert (Lf : blen f = 16) by (unfold f; rewrite !blen_app, !blen_be, blen_fc; reflexivity).
  split; [exact Lf|].
  assert (Sf : small f) by (unfold small; rewrite Lf; reflexivity).
  assert (S0 : sits f 0 f) by (exists [], []; split; [now rewrite app_nil_r|reflexivity]).
  assert (H : run io_parse_head f 0 = Ok (Head (Size true (n + 16)) (id4 "ftyp"), 16)).
  { assert (Q : parses parse_head f (Head (Size true (n + 16)) (id4 "ftyp"))).
    { unfold f, parse_head. eapply parses_bind; [apply parses_read_u32; reflexivity|].
      eapply parses_bind; [apply parses_read_exact; rewrite blen_fc; reflexivity|].
      cbv beta zeta. change (1 =? 1) with true. cbv iota. eapply parses_bind_r; [apply parses_read_u64; lia|apply parses_ret]. }
    rewrite (is_head f 0), (Q f 0 Sf S0), Lf. reflexivity. }
  assert (A : asked io_parse_head f 0 = [ORead 4; ORead 4; ORead 8]).
  { unfold io_parse_head. rewrite asked_bind.
    assert (R1 : run io_read_u32 f 0 = Ok (1, 4)).
    { rewrite (is_u32 f 0). apply (parses_read_u32 1 ltac:(reflexivity) f 0 Sf). exists [], (fc_bytes (id4 "ftyp") ++ be 8 (n + 16)). split; reflexivity. }
    rewrite R1, asked_bind.
    assert (R2 : run (io_read_exact 4) f 4 = Ok (fc_bytes (id4 "ftyp"), 8)).
    { rewrite (is_read 4 f 4). apply (parses_read_exact (fc_bytes (id4 "ftyp")) 4 ltac:(now rewrite blen_fc) f 4 Sf).
      exists (be 4 1), (be 8 (n + 16)). split; [reflexivity|apply blen_be]. }
    rewrite R2. cbv zeta. change (1 =? 1) with true. cbv iota. rewrite asked_bind.
    assert (R3 : run io_read_u64 f 8 = Ok (n + 16, 16)).
    { rewrite (is_u64 f 8). apply (parses_read_u64 (n + 16) ltac:(lia) f 8 Sf).
      exists (be 4 1 ++ fc_bytes (id4 "ftyp")), []. split; [unfold f; now rewrite app_nil_r, app_assoc|rewrite blen_app, blen_be, blen_fc; reflexivity]. }
    rewrite R3. reflexivity. }
  clearbody f.
  assert (C : content_len m (Size true (n + 16)) = Ok n).
  { unfold content_len. cbn [sz_ext sz_len]. rewrite sub64_ok by lia. f_equal. lia. }
  assert (V : perform (OReadVec n) f 16 = Err EIoEof).
  { cbn. rewrite (proj2 (N.leb_gt two63 n)) by (unfold two63; lia). unfold read_exact. rewrite (proj2 (N.eqb_neq n 0)) by lia.
    rewrite Lf, (proj2 (N.leb_gt (16 + n) 16)) by lia. reflexivity. }
  unfold buffers. rewrite <- read_run. unfold io_read_tag_from, io_ftyp_parse. rewrite !asked_bind, !run_bind, A, H. cbn [hd_fourcc hd_size].
  change (negb (fourcc_eqb (id4 "ftyp") FILETYPE)) with false. cbv iota. rewrite !asked_bind, !run_bind, C. cbn [io_lift run asked].
  unfold io_read_utf8. rewrite !asked_bind, !run_bind. unfold io_read_u8_vec. cbn [asked run]. rewrite V. split; reflexivity.
Qed.
Print Assumptions C54_refuted.

(** * C55: the number of operations *)

(** Operations asked of the reader, and operations plus bytes delivered. *)
Definition operations (fuel : nat) (m : mode) (f : bytes) : N := blen (asked (io_read_tag_from fuel m) f 0).
Definition effort (fuel : nat) (m : mode) (f : bytes) : N := work (io_read_tag_from fuel m) f 0.
Theorem C55_effort_counts : forall fuel m f, operations fuel m f <= effort fuel m f.
Proof. intros. apply asked_work. Qed.
Print Assumptions C55_effort_counts.

(** No bound in terms of the length of the file: one of 48 bytes is read successfully, with either kind of
    arithmetic, after more than 2^63 operations. *)
Theorem C55_refuted : blen loop_file = 48 /\ forall m fuel, 2 ^ 61 < N.of_nat fuel ->
  read_tag fuel m loop_file = Ok (Tag [] (AudioInfo None None None None None) []) /\ 2 ^ 63 <= operations fuel m loop_file.
Proof. split; [vm_compute; reflexivity|exact loop_reads]. Qed.
Print Assumptions C55_refuted.

(** That takes seeking backwards: otherwise there is a bound proportional to the length of the file. *)
Definition forwards (l : list io_op) : Prop := forall d, In (OSeekCur d) l -> (0 <= d)%Z.
Lemma forwards_ok : forall l, forwards l <-> forallb ahead l = true.
Proof.
  intro l. rewrite forallb_forall. split; intros H.
  - intros [n|n| |d|q|] I; try reflexivity. cbn. apply Z.leb_le, H, I.
  - intros d I. apply Z.leb_le, (H _ I).
Qed.
Theorem C55_forwards : forall fuel m f, blen f < 2 ^ 62 -> forwards (asked (io_read_tag_from fuel m) f 0) ->
  effort fuel m f <= 4 * blen f + 5.
Proof. intros fuel m f L F. apply forwards_ok in F. eapply (bnd_work f L); [apply (b_read f L m fuel 0); unfold two63; lia|exact F]. Qed.
Print Assumptions C55_forwards.
Theorem C55_forwards_scan : forall fuel m f p, blen f < 2 ^ 62 -> p <= blen f -> forwards (asked (io_scan fuel m) f p) ->
  work (io_scan fuel m) f p <= 4 * blen f + 5.
Proof. intros fuel m f p L P F. apply forwards_ok in F. eapply (bnd_work f L); [apply (b_scan f L m fuel p); unfold two63; lia|exact F]. Qed.
Print Assumptions C55_forwards_scan.

(** With overflow checks it takes a 64-bit size of 2^63 or more to seek backwards, and without them the
    operations are the same whenever the checks would have passed. *)
Theorem C55_no_huge_box : forall fuel f, blen f < 2 ^ 62 -> no_huge_box f -> effort fuel Checked f <= 4 * blen f + 5.
Proof.
  intros fuel f L H. apply C55_forwards; [exact L|]. apply forwards_ok. apply (w_read f L H fuel 0). reflexivity.
Qed.
Print Assumptions C55_no_huge_box.
Theorem C55_no_huge_box_scan : forall fuel f p, blen f < 2 ^ 62 -> p <= blen f -> no_huge_box f -> work (io_scan fuel Checked) f p <= 4 * blen f + 5.
Proof.
  intros fuel f p L P H. apply C55_forwards_scan; [exact L|exact P|]. apply forwards_ok. apply (w_scan f L H fuel p). unfold two63; lia.
Qed.
Print Assumptions C55_no_huge_box_scan.
Theorem C55_same_operations : forall fuel f, read_tag fuel Checked f <> Panic POverflow ->
  asked (io_read_tag_from fuel Wrapping) f 0 = asked (io_read_tag_from fuel Checked) f 0.
Proof.
  intros fuel f H. destruct (read_agrees fuel f 0) as [E|[_ E]]; [|exact E]. exfalso. apply H. rewrite <- read_run, E. reflexivity.
Qed.
Print Assumptions C55_same_operations.

(** Reading or scanning a well-formed file, followed by anything when reading, is bounded. *)
Theorem C55_well_formed : forall f g t fuel m, good_sizes f -> describes f t -> blen (render_all f ++ g) < 2 ^ 62 ->
  blen (render_all f) < N.of_nat fuel -> effort fuel m (render_all f ++ g) <= 4 * blen (render_all f ++ g) + 5.
Proof.
  intros f g t fuel m G D L Fu. apply C55_forwards; [exact L|]. apply forwards_ok, (described_forward f g t); assumption.
Qed.
Print Assumptions C55_well_formed.
Theorem C55_well_formed_scan : forall f t fuel m, good_sizes f -> describes f t -> blen (render_all f) < N.of_nat fuel ->
  work (io_scan fuel m) (render_all f) 0 <= 4 * blen (render_all f) + 5.
Proof.
  intros f t fuel m G D Fu. apply C55_forwards_scan; [apply G|lia|]. apply forwards_ok, (described_scan_forward f t); assumption.
Qed.
Print Assumptions C55_well_formed_scan.
(** The buffers of such a file together are bounded as well. *)
Theorem C54_well_formed : forall f g t fuel m, good_sizes f -> describes f t -> blen (render_all f ++ g) < 2 ^ 62 ->
  blen (render_all f) < N.of_nat fuel -> fold_right N.add 0 (buffers fuel m (render_all f ++ g)) <= 4 * blen (render_all f ++ g) + 5.
Proof.
  intros f g t fuel m G D L Fu. pose proof (C55_well_formed f g t fuel m G D L Fu) as W.
  destruct (vecs_total (io_read_tag_from fuel m) (render_all f ++ g) 0) as (l & r & E & _ & T & O). unfold buffers. rewrite E.
  destruct (read_described_tail f g t fuel m G D L Fu) as (q & R). rewrite <- (read_is fuel m (render_all f ++ g) 0) in R.
  rewrite (O _ R), app_nil_r. unfold effort in W. unfold total in T. lia.
Qed.
Print Assumptions C54_well_formed.

(** Reading the sample file never seeks backwards. *)
Example C55_example :
  let f := sample_m4a in
  forwards (asked (io_read_tag_from 2000 Checked) f 0) /\ blen f < 2 ^ 62 /\
  match read_tag 2000 Checked f with Ok t => blen (tg_atoms t) =? 32 | _ => false end = true /\
  (effort 2000 Checked f <=? 4 * blen f + 5) = true.
Proof. split; [apply forwards_ok; vm_compute; reflexivity|vm_compute; repeat split]. Qed.
Example C55_no_huge_example : no_huge_box (render_all ex_file) /\ effort 1000 Checked (render_all ex_file) = 673.
Proof. split; [apply no_hugeb_ok; vm_compute; reflexivity|vm_compute; reflexivity]. Qed.
Example C55_well_formed_example : good_sizes ex_file /\ describes ex_file ex_tag /\ operations 1000 Wrapping (render_all ex_file ++ [n2b 7]) = 173.
Proof. split; [exact ex_sizes|]. split; [exact ex_describes|]. vm_compute. reflexivity. Qed.
Example C54_example : buffers 1000 Checked (render_all ex_file) = [8; 5; 16; 4; 2; 1; 1; 8; 1] /\ buffers 5 Checked (greedy_file (2 ^ 40)) = [2 ^ 40].
Proof. split; vm_compute; reflexivity. Qed.
