(** Which bytes of a file reading looks at: C84 (see properties.jsonl and LookSpec). *)

From Coq Require Import List NArith ZArith Bool Lia Arith String.
From Coq Require Import ZifyBool ZifyNat ZifyN.
From Verif Require Import Base BaseLemmas Utf UtfLemmas Types Stream Parse Find Write TagSpec FileSpec ParseLemmas ReadProofs ReadMore ReadSpec ReadFacts.
From Verif Require Import EditSpec ChunkSpec FailSpec Fault ReadIO IoProofs IoCost IoForward IoWalk IoHang Reader ReaderProofs WPanicProofs LookSpec LookProofs LookScan ExampleFile Props_Read Props_Any.
Import ListNotations.
Local Open Scope list_scope.

(** For every file: another file of the same length with the same bytes where reading looks gives the same
    result, error or panic, and is looked at in the same places. *)
Theorem C84_depends : forall fuel m f g, blen g = blen f -> Forall (same_on f g) (looked (trail (io_read_tag_from fuel m) f 0)) ->
  read_tag fuel m g = read_tag fuel m f /\ trail (io_read_tag_from fuel m) g 0 = trail (io_read_tag_from fuel m) f 0.
Proof.
  intros fuel m f g L H. destruct (run_same (io_read_tag_from fuel m) f g 0 L H) as [R T]. split; [|exact T].
  unfold read_tag. rewrite <- (read_is fuel m g 0), <- (read_is fuel m f 0), R. reflexivity.
Qed.
Print Assumptions C84_depends.

(** For every file without atoms of 2^63 bytes or more, with overflow checks: one pass. Every byte up to where
    reading ends is read once, or passed once and never read. *)
Theorem C84_one_pass : forall fuel f, blen f < 2 ^ 62 -> no_huge_box f ->
  let l := trail (io_read_tag_from fuel Checked) f 0 in
  exists q, row 0 l q /\ (forall t s, read_tag_from fuel Checked f 0 = Ok (t, s) -> s = q) /\
    (forall i, i < q -> exists s, In s l /\ covers s i) /\
    (forall a s b i, l = a ++ s :: b -> covers s i -> forall s', In s' (a ++ b) -> ~ covers s' i) /\ total (looked l) <= blen f.
Proof.
  intros fuel f L H l. destruct (read_pass fuel Checked f 0) as (q & R & Q); [apply (w_read f L H fuel 0); reflexivity|].
  exists q. split; [exact R|]. rewrite (read_is fuel Checked f 0) in Q. split; [exact Q|].
  split; [intros i Hi; eapply row_each; [exact R|lia|exact Hi]|].
  split; [intros a s b i E C s'; eapply row_once; eassumption|].
  pose proof (row_total l 0 q (blen f) R (trail_in _ f 0)) as T. lia.
Qed.
Print Assumptions C84_one_pass.

(** For every well-formed file, followed by anything, in both build profiles: the same, and apart from the file
    type and the movie only the heads of the atoms between them are looked at. *)
Theorem C84_well_formed : forall fuel m f g, well_formed f -> blen (render_all f ++ g) < 2 ^ 62 -> blen (render_all f) < N.of_nat fuel ->
  let l := trail (io_read_tag_from fuel m) (render_all f ++ g) 0 in
  (exists q, row 0 l q) /\ exists k, movie_is f k /\ forall s i, In s (looked l) -> covers s i -> of_interest f k i.
Proof.
  intros fuel m f g (G & t & D) L Fu l. split.
  - destruct (read_pass fuel m (render_all f ++ g) 0) as (q & R & _); [exact (described_forward f g t fuel m G D L Fu)|]. exists q. exact R.
  - destruct (looked_described f g t fuel m G D L Fu) as (k & Mk & Fo). exists k. split; [exact Mk|]. intros s i Is. rewrite Forall_forall in Fo. exact (Fo s Is i).
Qed.
Print Assumptions C84_well_formed.

(** So the media data, and everything behind the movie, can be any bytes. *)
Theorem C84_any_media : forall fuel m f b, well_formed f -> blen (render_all f) < 2 ^ 62 -> blen (render_all f) < N.of_nat fuel ->
  blen b = blen (render_all f) -> (forall k i, movie_is f k -> of_interest f k i -> nth_error b (N.to_nat i) = nth_error (render_all f) (N.to_nat i)) ->
  read_tag fuel m b = read_tag fuel m (render_all f).
Proof.
  intros fuel m f b Wf L Fu Lb H. apply C84_depends; [exact Lb|]. pose proof (C84_well_formed fuel m f [] Wf) as K. rewrite app_nil_r in K.
  destruct (K L Fu) as (_ & k & Mk & Int). apply Forall_forall. intros s Is. unfold same_on. apply slice_ext. intros i Hi. apply (H k i Mk), (Int s i Is). unfold covers. lia.
Qed.
Print Assumptions C84_any_media.

(** The same for the scan before writing. *)
Theorem C84_scan : forall fuel m f g p, blen g = blen f -> Forall (same_on f g) (looked (trail (io_scan fuel m) f p)) ->
  scan fuel m g p = scan fuel m f p /\ trail (io_scan fuel m) g p = trail (io_scan fuel m) f p.
Proof.
  intros fuel m f g p L H. destruct (run_same (io_scan fuel m) f g p L H) as [R T]. split; [|exact T]. rewrite <- (scan_is fuel m g p), <- (scan_is fuel m f p). exact R.
Qed.
Print Assumptions C84_scan.
Theorem C84_scan_one_pass : forall fuel f p, blen f < 2 ^ 62 -> p <= blen f -> no_huge_box f ->
  let l := trail (io_scan fuel Checked) f p in
  exists q, row p l q /\ (forall t s, scan fuel Checked f p = Ok (t, s) -> s = q) /\
    (forall i, p <= i -> i < q -> exists s, In s l /\ covers s i) /\
    (forall a s b i, l = a ++ s :: b -> covers s i -> forall s', In s' (a ++ b) -> ~ covers s' i) /\ total (looked l) <= blen f - p.
Proof.
  intros fuel f p L P H l. destruct (scan_pass fuel Checked f p) as (q & R & Q); [apply (w_scan f L H fuel p); unfold two63; lia|].
  exists q. split; [exact R|]. rewrite (scan_is fuel Checked f p) in Q. split; [exact Q|].
  split; [intros i Hp Hi; eapply row_each; eassumption|].
  split; [intros a s b i E C s'; eapply row_once; eassumption|]. exact (row_total l p q (blen f) R (trail_in _ f p)).
Qed.
Print Assumptions C84_scan_one_pass.
Example C84_scan_example : let l := trail (io_scan 1000 Checked) (render_all ex_file) 0 in
  blen l = 80 /\ total (looked l) = 276 /\ last l (Stretch true 0 0) = Stretch false 798 799.
Proof. split; [vm_compute; reflexivity|split; vm_compute; reflexivity]. Qed.

(** The example file of 799 bytes: 500 bytes are looked at, the last stretch ends with the movie. The same file
    with other media data. *)
Definition c84_trail : list stretch := trail (io_read_tag_from 1000 Checked) (render_all ex_file) 0.
Definition c84_other : bytes := firstn 782 (render_all ex_file) ++ raw [99; 98; 97; 96; 95; 94; 93; 92] ++ skipn 790 (render_all ex_file).
Example C84_example : well_formed ex_file /\ movie_is ex_file 2 /\ no_huge_box (render_all ex_file) /\
  blen c84_trail = 166 /\ total (looked c84_trail) = 500 /\ last c84_trail (Stretch true 0 0) = Stretch false 773 774 /\
  blen (render_all ex_file) = 799 /\ start ex_file 3 = 774 /\ firstn 6 c84_trail =
    [Stretch true 0 4; Stretch true 4 8; Stretch true 8 16; Stretch true 16 20; Stretch true 20 24; Stretch false 24 27] /\
  c84_other <> render_all ex_file /\ blen c84_other = blen (render_all ex_file) /\ Forall (same_on (render_all ex_file) c84_other) (looked c84_trail).
Proof.
  split; [exact (conj ex_sizes (ex_intro _ _ ex_describes))|]. split; [eexists; split; reflexivity|]. split; [apply no_hugeb_ok; vm_compute; reflexivity|].
  do 6 (split; [vm_compute; reflexivity|]). split; [intro E; apply (f_equal (fun b => nth 785 b Byte.x00)) in E; vm_compute in E; discriminate E|]. split; [vm_compute; reflexivity|].
  apply Forall_forall. intros s Is.
  assert (X : forallb (fun s => bytes_eqb (slice c84_other (st_from s) (st_to s - st_from s)) (slice (render_all ex_file) (st_from s) (st_to s - st_from s))) (looked c84_trail) = true) by (vm_compute; reflexivity).
  rewrite forallb_forall in X. apply bytes_eqb_eq, X, Is.
Qed.

(** Without the assumption of [C84_one_pass] bytes are read again and again: in a file of 48 bytes with an atom of
    2^64 - 8 bytes. *)
Theorem C84_again_refuted : exists f a s b s' i, blen f = 48 /\ ~ no_huge_box f /\
  trail (io_read_tag_from 4 Checked) f 0 = a ++ s :: b /\ st_read s = true /\ st_read s' = true /\ covers s i /\ In s' b /\ covers s' i.
Proof.
  exists loop_file, (firstn 6 (trail (io_read_tag_from 4 Checked) loop_file 0)), (Stretch true 24 28), (skipn 7 (trail (io_read_tag_from 4 Checked) loop_file 0)), (Stretch true 24 28), 24.
  split; [vm_compute; reflexivity|]. split; [intro H; specialize (H 32); assert (X : field loop_file 32 4 = 1) by (vm_compute; reflexivity); specialize (H X); assert (Y : 32 + 16 <= blen loop_file) by (vm_compute; discriminate); specialize (H Y); vm_compute in H; discriminate H|].
  split; [vm_compute; reflexivity|]. split; [reflexivity|]. split; [reflexivity|]. split; [split; vm_compute; [discriminate|reflexivity]|].
  split; [vm_compute; do 5 right; left; reflexivity|]. split; vm_compute; [discriminate|reflexivity].
Qed.
Print Assumptions C84_again_refuted.
