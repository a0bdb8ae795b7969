(** Theorems about cut and extended files, dumping to failing devices and paths: C59 - C61 (see
    properties.jsonl). *)

From Coq Require Import List NArith ZArith Bool Lia Arith String.
From Coq Require Import ZifyBool ZifyNat ZifyN.
From Verif Require Import Base BaseLemmas Utf Types Stream Parse Find Write TagSpec FileSpec ParseLemmas ReadProofs ReadFacts ExampleFile WriteExample FailSpec Fault FaultProofs Samples
  ReadIO IoProofs IoCost IoDevice Props_Read Props_Write Props_Dump Props_Fault Props_IO BufRead BufProofs Props_Buf Extend FineWrite FineProofs Props_Fine Paths.
Import ListNotations.
Local Open Scope list_scope.

(** * C59: files that are cut short or go on *)

(** What is reported stays as it is when the file goes on, unless it is that the file ends too early or that there is
    no movie atom. *)
Theorem C59_longer : forall fuel m f g,
  read_tag fuel m f <> Err EIoEof -> read_tag fuel m f <> Err (EAtomNotFound (id4 "moov")) ->
  read_tag fuel m (f ++ g) = read_tag fuel m f.
Proof. exact read_longer. Qed.
Print Assumptions C59_longer.

(** Any part of a readable file from its start is reported as cut short, or is read as the same tag. *)
Theorem C59_cut : forall fuel m f t k, read_tag fuel m f = Ok t ->
  let r := read_tag fuel m (firstn k f) in
  r = Err EIoEof \/ r = Err (EAtomNotFound (id4 "moov")) \/ r = Ok t.
Proof.
  intros fuel m f t k H r. rewrite <- (firstn_skipn k f) in H.
  assert (D : r = Err EIoEof \/ r <> Err EIoEof) by (destruct r as [|[]| |]; (left; reflexivity) || (right; discriminate)).
  destruct D as [D|D]; [now left|].
  assert (D2 : r = Err (EAtomNotFound MOVIE) \/ r <> Err (EAtomNotFound MOVIE)).
  { destruct r as [|e| |]; try (right; discriminate). destruct e; try (right; discriminate).
    match goal with |- Err (EAtomNotFound ?i) = _ \/ _ => destruct (fourcc_eqb i MOVIE) eqn:E; [left; apply fourcc_eqb_eq in E; congruence|right; intros X; injection X as ->; revert E; vm_compute; discriminate] end. }
  destruct D2 as [D2|D2]; [right; left; exact D2|]. right. right. rewrite <- H. symmetry. apply read_longer; assumption.
Qed.
Print Assumptions C59_cut.

(** So two files that start alike are read alike if the part they share is readable. *)
Theorem C59_shared : forall fuel m f g h t, read_tag fuel m f = Ok t -> read_tag fuel m (f ++ g) = read_tag fuel m (f ++ h).
Proof. intros fuel m f g h t H. rewrite !read_longer; congruence. Qed.
Print Assumptions C59_shared.

(** The two exceptions: a file that ends early, and one whose movie atom is yet to come. *)
Example C59_example :
  let f := render_all ex_file in
  let r k := read_tag 1000 Checked (firstn k f) in
  match read_tag 1000 Checked f with Ok t => negb (blen (tg_atoms t) =? 0) | _ => false end = true /\
  r 3%nat = Err EIoEof /\ r 24%nat = Err (EAtomNotFound MOVIE) /\
  existsb (fun k => match r k with Ok _ => true | _ => false end) (seq 0 (List.length f)) = true /\
  read_tag 1000 Checked (f ++ raw [1; 2; 3]) = read_tag 1000 Checked f.
Proof. vm_compute. repeat split. Qed.

(** * C60: dumping to a device that fails *)

Lemma dev_write_used : forall ev d ev' l rest, dev_write ev d = (ev', l, rest) ->
  exists used, ev = used ++ ev' /\ (rest = [] <-> existsb broken used = false).
Proof.
  induction ev as [|e ev IH]; intros d ev' l rest H; cbn [dev_write] in H.
  - exists []. destruct d; injection H as <- <- <-; repeat split; reflexivity.
  - destruct d as [|x d]; [injection H as <- <- <-; exists []; repeat split; reflexivity|]. destruct e as [c|n| |c].
    + injection H as <- <- <-. exists [Fine c]. repeat split; reflexivity.
    + destruct (dev_write ev (skipn (S n) (x :: d))) as [[ev1 l1] rest1] eqn:E. injection H as <- <- <-.
      destruct (IH _ _ _ _ E) as (u & -> & B). exists (Short n :: u). split; [reflexivity|exact B].
    + destruct (IH _ _ _ _ H) as (u & -> & B). exists (Again :: u). split; [reflexivity|exact B].
    + injection H as <- <- <-. exists [Broken c]. split; [reflexivity|]. split; discriminate.
Qed.
Lemma dev_chunks_used : forall l ev ev' c ok, dev_chunks ev l = (ev', c, ok) ->
  exists used, ev = used ++ ev' /\ ok = negb (existsb broken used) /\
    if ok then c = List.concat l else exists rest, rest <> [] /\ List.concat l = c ++ rest.
Proof.
  induction l as [|d l IH]; intros ev ev' c ok H; cbn [dev_chunks] in H.
  - injection H as <- <- <-. exists []. repeat split.
  - destruct (dev_write ev d) as [[ev1 pieces] rest] eqn:E. destruct (dev_write_used _ _ _ _ _ E) as (u & Eu & Bu).
    destruct (dev_write_spec _ _ _ _ _ E) as (C & _). destruct rest as [|x rest].
    + destruct (dev_chunks ev1 l) as [[ev2 c2] ok2] eqn:E2. injection H as <- <- <-.
      destruct (IH _ _ _ _ E2) as (u2 & Eu2 & B2 & R). exists (u ++ u2). split; [rewrite <- app_assoc; congruence|].
      rewrite existsb_app, (proj1 Bu eq_refl). split; [exact B2|]. rewrite app_nil_r in C. cbn [List.concat].
      destruct ok2; [congruence|]. destruct R as (rest & N & R). exists rest. split; [exact N|]. rewrite <- app_assoc. congruence.
    + injection H as <- <- <-. exists u. split; [exact Eu|].
      assert (B : existsb broken u = true) by (destruct (existsb broken u); [reflexivity|]; discriminate (proj2 Bu eq_refl)).
      split; [now rewrite B|]. exists ((x :: rest) ++ List.concat l). split; [discriminate|]. cbn [List.concat]. rewrite app_assoc. congruence.
Qed.

(** If no call fails, everything is stored and the result is that of dumping to memory.  Otherwise that is reported,
    and what is stored is a proper initial part. *)
Theorem C60_report : forall ev m items,
  let d := faulty_dump ev m items in
  let whole := out (dump_tag_to m items) in
  exists used, ev = used ++ dp_left d /\
   (unbroken used /\ dp_res d = Done (snd (dump_tag_to m items)) /\ dp_content d = whole \/
    (exists c, In (Broken c) used) /\ dp_res d = DeviceError /\ exists rest, rest <> [] /\ whole = dp_content d ++ rest).
Proof.
  intros ev m items d whole. unfold d, faulty_dump. destruct (dev_chunks ev (fst (dump_tag_to m items))) as [[ev' c] ok] eqn:E.
  destruct (dev_chunks_used _ _ _ _ _ E) as (used & Eu & B & R). cbn [dp_left dp_res dp_content]. exists used. split; [exact Eu|].
  destruct ok.
  - left. split; [|split; [reflexivity|exact R]].
    intros x I. assert (existsb broken used = true) by (apply broken_is; exists x; exact I). rewrite H in B. discriminate.
  - right. split; [|split; [reflexivity|exact R]]. apply broken_is. destruct (existsb broken used); [reflexivity|discriminate].
Qed.
Print Assumptions C60_report.

(** Short and interrupted writes make no difference. *)
Theorem C60_transparent : forall ev m items, unbroken ev ->
  dp_res (faulty_dump ev m items) = Done (snd (dump_tag_to m items)) /\ dp_content (faulty_dump ev m items) = out (dump_tag_to m items).
Proof.
  intros ev m items U. destruct (C60_report ev m items) as (used & E & [(_ & R & C)|((c & I) & _)]); [split; assumption|].
  exfalso. apply (U c). rewrite E. apply in_app_iff. now left.
Qed.
Print Assumptions C60_transparent.

(** Whatever is left behind is not read as another tag. *)
Theorem C60_left : forall ev m m' items fuel,
  storable items -> items_fit items -> blen (out (dump_tag_to m items)) < 2 ^ 62 -> blen (out (dump_tag_to m items)) < N.of_nat fuel ->
  let r := read_tag fuel m' (dp_content (faulty_dump ev m items)) in
  r = Err EIoEof \/ r = Err (EAtomNotFound (id4 "moov")) \/ exists t, r = Ok t /\ tg_atoms t = items.
Proof.
  intros ev m m' items fuel S F L Fu r. destruct (C10_dump_read m m' items fuel S F L Fu) as (_ & H). cbv zeta in H.
  set (t := Tag _ _ _) in H.
  assert (P : exists k, dp_content (faulty_dump ev m items) = firstn k (out (dump_tag_to m items))).
  { destruct (C60_report ev m items) as (used & _ & [(_ & _ & C)|(_ & _ & rest & _ & C)]).
    - exists (List.length (out (dump_tag_to m items))). now rewrite firstn_all.
    - exists (List.length (dp_content (faulty_dump ev m items))). rewrite C. rewrite firstn_app, Nat.sub_diag, firstn_O, app_nil_r, firstn_all. reflexivity. }
  destruct P as (k & P). unfold r. rewrite P. destruct (C59_cut fuel m' _ t k H) as [X|[X|X]]; [tauto..|].
  right. right. exists t. split; [exact X|reflexivity].
Qed.
Print Assumptions C60_left.

(** Any proper initial part may be left behind. *)
Lemma dev_chunks_any : forall l k, (k < List.length (List.concat l))%nat ->
  exists ev, dev_chunks ev l = ([], firstn k (List.concat l), false).
Proof.
  induction l as [|d l IH]; intros k H; cbn [List.concat] in *; [cbn in H; lia|]. rewrite app_length in H.
  destruct (Nat.lt_ge_cases k (List.length d)) as [C|C].
  - rewrite firstn_app. replace (k - List.length d)%nat with 0%nat by lia. rewrite firstn_O, app_nil_r.
    destruct k as [|k].
    + exists [Broken 0]. cbn [dev_chunks]. destruct d as [|x d]; [cbn in C; lia|]. reflexivity.
    + exists [Short k; Broken 0]. cbn [dev_chunks]. destruct d as [|x d]; [cbn in C; lia|]. cbn [dev_write].
      assert (N : skipn (S k) (x :: d) <> []) by (intros X; apply (f_equal (@List.length byte)) in X; rewrite skipn_length in X; cbn [List.length] in *; lia).
      destruct (skipn (S k) (x :: d)) as [|y r]; [congruence|]. cbn [List.concat]. now rewrite app_nil_r.
  - destruct (IH (k - List.length d)%nat) as (ev & E); [lia|]. rewrite firstn_app, (firstn_all2 d) by lia.
    destruct d as [|x d].
    + exists ev. cbn [dev_chunks]. cbn [List.length] in E. assert (D : dev_write ev [] = (ev, [], [])) by (destruct ev; reflexivity). rewrite D, E. reflexivity.
    + exists (Fine 0 :: ev). cbn [dev_chunks dev_write]. rewrite E. cbn [List.concat]. now rewrite app_nil_r.
Qed.
Theorem C60_any_part : forall m items k, (k < List.length (out (dump_tag_to m items)))%nat ->
  exists ev, dp_res (faulty_dump ev m items) = DeviceError /\ dp_content (faulty_dump ev m items) = firstn k (out (dump_tag_to m items)).
Proof.
  intros m items k H. destruct (dev_chunks_any _ k H) as (ev & E). exists ev. unfold faulty_dump. rewrite E. split; reflexivity.
Qed.
Print Assumptions C60_any_part.

Example C60_example :
  let whole := out (dump_tag_to Checked ex_items) in
  let d := faulty_dump [Again; Short 2; Fine 0; Short 0; Short 0; Broken 0] Checked ex_items in
  storable ex_items /\ items_fit ex_items /\ (blen whole <? 2 ^ 62) = true /\
  dp_res d = DeviceError /\ dp_content d = firstn 6 whole /\
  faulty_dump [Again; Short 2; Again] Checked ex_items = Dumped (Done (Ok tt)) [] whole.
Proof. split; [exact ex_items_storable|]. split; [vm_compute; reflexivity|]. vm_compute. repeat split. Qed.
(** The third case of [C60_left]: the last value is empty and its locale is not written. *)
Example C60_left_example :
  let items := [AtomData (IFourcc TITLE) [DUtf8 []]] in
  let whole := out (dump_tag_to Checked items) in
  storable items /\ items_fit items /\
  match read_tag 1000 Checked (firstn (List.length whole - 4) whole) with Ok t => tg_atoms t = items | _ => False end.
Proof. split; [split; [repeat constructor; intros []|repeat constructor; discriminate]|]. split; vm_compute; reflexivity. Qed.

(** * C61: paths *)

Lemma put_same : forall s p c, put s p c p = Some c.
Proof. intros. unfold put. rewrite (proj2 (bytes_eqb_eq p p) eq_refl). reflexivity. Qed.
Lemma put_other : forall s p c q, q <> p -> put s p c q = s q.
Proof. intros s p c q N. unfold put. destruct (bytes_eqb q p) eqn:E; [apply bytes_eqb_eq in E; contradiction|reflexivity]. Qed.
Lemma unbroken_next : forall ev, unbroken ev -> exists e ev', next ev = (e, ev') /\ unbroken ev' /\ forall c, e <> Broken c.
Proof.
  intros [|e ev] U; cbn [next].
  - exists (Fine 0), []. split; [reflexivity|]. split; [exact U|discriminate].
  - exists e, ev. split; [reflexivity|]. split; [intros c I; apply (U c); now right|]. intros c ->. apply (U c). now left.
Qed.

(** Other files are never touched, whatever fails. *)
Theorem C61_others : forall s p q, q <> p ->
  (forall rcap cap sizes last ev fuel m items, snd (write_to_path rcap cap sizes last ev fuel m items s p) q = s q) /\
  (forall ev m items, snd (dump_to_path ev m items s p) q = s q).
Proof.
  intros s p q N. split.
  - intros rcap cap sizes last ev fuel m items. unfold write_to_path. destruct (next ev) as [[] ev']; try reflexivity;
      (destruct (s p); [|reflexivity]; destruct (fine_write _ _ _ _ _ _ _ _ _ _) as [r f']; apply put_other, N).
  - intros ev m items. unfold dump_to_path. destruct (next ev) as [[] ev']; try reflexivity;
      (destruct (faulty_dump _ _ _) as [r l d]; apply put_other, N).
Qed.
Print Assumptions C61_others.

(** A file that is not there is an error and is not created by writing. *)
Theorem C61_missing : forall s p, s p = None ->
  (forall cap ev fuel m, read_from_path cap ev fuel m s p = DeviceError) /\
  (forall rcap cap sizes last ev fuel m items, write_to_path rcap cap sizes last ev fuel m items s p = (DeviceError, s)).
Proof.
  intros s p H. split.
  - intros. unfold read_from_path. destruct (next ev) as [[] ev']; rewrite ?H; reflexivity.
  - intros. unfold write_to_path. destruct (next ev) as [[] ev']; rewrite ?H; reflexivity.
Qed.
Print Assumptions C61_missing.

(** If no call fails, the functions that take a path do to the content of the file what those on readers and
    writers do. *)
Theorem C61_content : forall s p f, s p = Some f -> blen f < 2 ^ 63 ->
  (forall cap ev fuel m, unbroken ev -> read_from_path cap ev fuel m s p = Done (read_tag fuel m f)) /\
  (forall rcap cap sizes last ev fuel m items, unbroken ev -> last <> 0 -> Forall (fun n => n <> 0) sizes ->
    let w := write_tag cap fuel m items f in
    let r := write_to_path rcap cap sizes last ev fuel m items s p in
    fst r = Done (wr_res w) /\ snd r p = Some (wr_file w)).
Proof.
  intros s p f H L. split.
  - intros cap ev fuel m U. unfold read_from_path. destruct (unbroken_next ev U) as (e & ev' & -> & U' & Ne).
    rewrite H. destruct (C58_read cap ev' fuel m f L) as (used & E & [((c & I) & _)|(_ & R)]).
    + exfalso. apply (U' c). rewrite E. apply in_app_iff. now left.
    + unfold buffered_read in R. rewrite R. destruct e; try reflexivity. exfalso. eapply Ne. reflexivity.
  - intros rcap cap sizes last ev fuel m items U L0 Fs w. unfold write_to_path. destruct (unbroken_next ev U) as (e & ev' & -> & U' & Ne). cbv zeta.
    rewrite H. assert (S : sound_calls f 0 sizes last) by (split; [exact L|]; split; [vm_compute; reflexivity|]; split; assumption).
    destruct (C62_transparent ev' rcap cap sizes last fuel m items f 0 S U') as [R1 R2]. cbv zeta in R1, R2.
    destruct (fine_write ev' rcap cap sizes last fuel m items f 0) as [r f']. cbn [fr_res fr_file] in R1, R2.
    destruct e; try (cbn [fst snd]; rewrite put_same; split; [exact R1|now rewrite R2]). exfalso. eapply Ne. reflexivity.
Qed.
Print Assumptions C61_content.

(** What is written to a path is read from it. *)
Theorem C61_write_read : forall rcap cap cap' sizes last ev ev' fuel m m' s p f t items,
  last <> 0 -> Forall (fun n => n <> 0) sizes ->
  s p = Some (render_all f) -> unbroken ev -> unbroken ev' -> updatable f items -> describes f t ->
  blen (render_all f) < N.of_nat fuel -> blen (render_all (update_file items f)) < N.of_nat fuel ->
  let w := write_to_path rcap cap sizes last ev fuel m items s p in
  fst w = Done (Ok tt) /\
  exists t', read_from_path cap' ev' fuel m' (snd w) p = Done (Ok t') /\ tg_atoms t' = items /\ tg_ftyp t' = tg_ftyp t /\ tg_info t' = tg_info t.
Proof.
  intros rcap cap cap' sizes last ev ev' fuel m m' s p f t items L0 Fs Hs U U' Up D Fu Fu' w.
  assert (L : blen (render_all f) < 2 ^ 63) by (pose proof (proj2 (proj1 (proj1 Up))) as X; lia).
  destruct (proj2 (C61_content s p _ Hs L) rcap cap sizes last ev fuel m items U L0 Fs) as [R1 R2]. fold w in R1, R2.
  destruct (write_ok cap fuel m f items Up Fu) as (ops & E & _). rewrite E in R1, R2. cbn [wr_res wr_file] in R1, R2.
  split; [exact R1|]. exists (Tag (tg_ftyp t) (tg_info t) items). split; [|repeat split].
  pose proof (proj2 (proj2 (proj2 Up))) as G'.
  assert (L' : blen (render_all (update_file items f)) < 2 ^ 63) by (pose proof (proj2 G') as X; lia).
  rewrite (proj1 (C61_content (snd w) p _ R2 L') cap' ev' fuel m' U'). f_equal.
  apply C15_read_returns_content; [exact G'|apply updated_describes; assumption|exact Fu'].
Qed.
Print Assumptions C61_write_read.
Theorem C61_dump_read : forall cap ev ev' fuel m m' s p items,
  storable items -> items_fit items -> unbroken ev -> unbroken ev' ->
  blen (out (dump_tag_to m items)) < 2 ^ 62 -> blen (out (dump_tag_to m items)) < N.of_nat fuel ->
  let w := dump_to_path ev m items s p in
  fst w = Done (Ok tt) /\ exists t, read_from_path cap ev' fuel m' (snd w) p = Done (Ok t) /\ tg_atoms t = items.
Proof.
  intros cap ev ev' fuel m m' s p items S F U U' L Fu w. destruct (C10_dump_read m m' items fuel S F L Fu) as (R & H). cbv zeta in H.
  assert (W : fst w = Done (Ok tt) /\ snd w p = Some (out (dump_tag_to m items))).
  { unfold w, dump_to_path. destruct (unbroken_next ev U) as (e & ev1 & -> & U1 & Ne).
    destruct (C60_transparent ev1 m items U1) as [A B]. destruct (faulty_dump ev1 m items) as [r l c]. cbn [dp_res dp_content] in A, B.
    destruct e; try (cbn [fst snd]; rewrite put_same; split; congruence). exfalso. eapply Ne. reflexivity. }
  destruct W as [W1 W2]. split; [exact W1|]. eexists. split.
  - rewrite (proj1 (C61_content (snd w) p _ W2 ltac:(lia)) cap ev' fuel m' U'). rewrite H. reflexivity.
  - reflexivity.
Qed.
Print Assumptions C61_dump_read.

(** A file that cannot be opened is left as it is. *)
Theorem C61_not_opened : forall s p c ev,
  (forall rcap cap sizes last fuel m items, write_to_path rcap cap sizes last (Broken c :: ev) fuel m items s p = (DeviceError, s)) /\
  (forall m items, dump_to_path (Broken c :: ev) m items s p = (DeviceError, s)) /\
  (forall cap fuel m, read_from_path cap (Broken c :: ev) fuel m s p = DeviceError).
Proof. intros. repeat split; reflexivity. Qed.
Print Assumptions C61_not_opened.

(** Dumping empties an existing file first: if writing fails, what was there is gone. *)
Lemma dump_some : forall m items, (0 < List.length (out (dump_tag_to m items)))%nat.
Proof. intros m items. unfold dump_tag_to, ftyp_write. cbn. lia. Qed.
Theorem C61_dump_keeps_refuted : forall m items s p old, s p = Some old ->
  exists ev, fst (dump_to_path ev m items s p) = DeviceError /\ snd (dump_to_path ev m items s p) p = Some [].
Proof.
  intros m items s p old _. destruct (C60_any_part m items 0) as (ev & R & C).
  { apply dump_some. }
  exists (Fine 0 :: ev). unfold dump_to_path. cbn [next]. destruct (faulty_dump ev m items) as [r l c]. cbn [dp_res dp_content fst snd] in *.
  rewrite put_same. split; [exact R|]. rewrite C. reflexivity.
Qed.
Print Assumptions C61_dump_keeps_refuted.

Example C61_example :
  let p := raw [97] in
  let s : file_system := put (put (fun _ => None) p (render_all ex_file)) (raw [98]) (raw [1; 2]) in
  let w := write_to_path 8192 8192 [40] 32 [Again; Short 3; Fine 9; Fine 2; Short 1] 1000 Checked ex_new_items s p in
  updatable ex_file ex_new_items /\ describes ex_file ex_tag /\
  s p = Some (render_all ex_file) /\ s (raw [99]) = None /\
  fst w = Done (Ok tt) /\ snd w (raw [98]) = Some (raw [1; 2]) /\
  match read_from_path 100 [Short 0; Again] 1000 Wrapping (snd w) p with Done (Ok t) => tg_atoms t = ex_new_items | _ => False end /\
  match read_from_path 100 [] 1000 Wrapping (snd (dump_to_path [Fine 0; Short 3] Checked ex_items s (raw [99]))) (raw [99]) with
  | Done (Ok t) => tg_atoms t = ex_items | _ => False end.
Proof. cbv zeta. split; [exact ex_updatable|]. split; [exact ex_describes|]. vm_compute. repeat split. Qed.
