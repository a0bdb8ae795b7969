(** Reading while other programs change the file: proofs for C96. *)

From Coq Require Import List NArith ZArith Bool Lia Arith String.
From Coq Require Import ZifyBool ZifyNat ZifyN.
From Verif Require Import Base BaseLemmas Utf UtfLemmas Types Stream Parse Find Write TagSpec FileSpec ParseLemmas ReadProofs ReadMore ReadSpec ReadFacts.
From Verif Require Import EditSpec ChunkSpec Fault ReadIO IoProofs IoCost IoWalk Reader ReaderProofs LookSpec LookProofs SharedRead.
From Verif Require WPanicProofs.
Import ListNotations.
Local Open Scope list_scope.
Local Open Scope io_scope.

Lemma shared_bind : forall {A B} (x : IO A) (k : A -> IO B) others f p,
  shared_run (io_bind x k) others f p =
  match shared_run x others f p with
  | (Ok (a, q), (o, g)) => shared_run (k a) o g q
  | (Err e, s) => (Err e, s) | (Panic q, s) => (Panic q, s) | (Fuel, s) => (Fuel, s)
  end.
Proof.
  intros A B x k. induction x as [[a|e|q|]|o c IH]; intros others f p; cbn [io_bind shared_run]; try reflexivity.
  destruct (perform o _ p) as [[a q]| | |]; try reflexivity. apply IH.
Qed.
Lemma shared_alone : forall {A} (x : IO A) f p, fst (shared_run x [] f p) = run x f p.
Proof.
  intros A x. induction x as [[a|e|q|]|o c IH]; intros f p; cbn [shared_run run]; try reflexivity.
  destruct (perform o f p) as [[a q]| | |]; try reflexivity. apply IH.
Qed.

(** An operation that does not ask for the length sees the bytes it reads, and nothing else. *)
Lemma perform_part : forall o b s p a q, match o with OSeekStart _ | OSeekEnd => False | _ => True end -> perform o b p = Ok (a, q) ->
  (forall x i, In x (looked (op_stretch o p q)) -> covers x i -> nth_error s (N.to_nat i) = nth_error b (N.to_nat i)) -> perform o s p = Ok (a, q).
Proof.
  assert (R : forall n b s p c q, read_exact n b p = Ok (c, q) ->
    (forall i, p <= i -> i < q -> nth_error s (N.to_nat i) = nth_error b (N.to_nat i)) -> read_exact n s p = Ok (c, q)).
  { intros n b s p c q H Sm. unfold read_exact in *. destruct (n =? 0) eqn:N0; [exact H|]. destruct (p + n <=? blen b) eqn:L; [|discriminate].
    injection H as <- <-. assert (Ls : p + n <= blen s).
    { specialize (Sm (p + n - 1) ltac:(lia) ltac:(lia)). assert (X : nth_error b (N.to_nat (p + n - 1)) <> None) by (apply nth_error_Some; unfold blen in L; lia).
      rewrite <- Sm in X. apply nth_error_Some in X. unfold blen. lia. }
    rewrite (proj2 (N.leb_le _ _) Ls). rewrite (WPanicProofs.slice_ext s b p n); [reflexivity|]. intros i Hi. apply Sm; lia. }
  intros o b s p a q O H Sm. destruct o as [n|n| |d|x|]; cbn [perform] in *; try contradiction; try exact H.
  - destruct (read_exact n b p) as [[c r]|e|x|] eqn:E; try discriminate. injection H as <- <-.
    rewrite (R n b s p c r E); [reflexivity|]. intros i H1 H2. apply (Sm (Stretch true p r) i); [left; reflexivity|split; assumption].
  - destruct (two63 <=? n); [discriminate|]. destruct (read_exact n b p) as [[c r]|e|x|] eqn:E; try discriminate. injection H as <- <-.
    rewrite (R n b s p c r E); [reflexivity|]. intros i H1 H2. apply (Sm (Stretch true p r) i); [left; reflexivity|split; assumption].
Qed.

Lemma after_more : forall n others s k, after (skipn n others) (after others s n) k = after others s (n + k).
Proof.
  unfold after. induction n as [|n IH]; intros others s k; cbn [skipn firstn fold_left Nat.add]; [reflexivity|].
  destruct others as [|g r]; [rewrite !firstn_nil; reflexivity|]. cbn [firstn fold_left skipn]. apply IH.
Qed.
Lemma after_turn : forall others s n, after (tl others) (match others with [] => s | t :: _ => t s end) n = after others s (S n).
Proof. intros [|g r] s n; unfold after; cbn [tl firstn fold_left]; [rewrite firstn_nil|]; reflexivity. Qed.
Lemma skipn_turn : forall {A} (l : list A) n, skipn n (tl l) = skipn (S n) l.
Proof. intros A [|g r] n; [destruct n; reflexivity|reflexivity]. Qed.

Lemma steps_trail : forall {A} (x : IO A) f p, trail x f p = List.concat (steps x f p).
Proof.
  intros A x f. induction x as [[a|e|q|]|o c IH]; intro p; cbn [trail steps List.concat]; try reflexivity.
  destruct (perform o f p) as [[a q]| | |]; try reflexivity. cbn [List.concat]. rewrite IH. reflexivity.
Qed.
Lemma steps_bind : forall {A B} (x : IO A) (k : A -> IO B) f p,
  steps (io_bind x k) f p = steps x f p ++ match run x f p with Ok (a, q) => steps (k a) f q | _ => [] end.
Proof.
  intros A B x k f. induction x as [[a|e|q|]|o c IH]; intro p; cbn [io_bind steps run]; try reflexivity.
  destruct (perform o f p) as [[a q]| | |]; try reflexivity. rewrite IH. reflexivity.
Qed.

Lemma sees_app : forall l r b others s, sees_same (l ++ r) b others s ->
  sees_same l b others s /\ sees_same r b (skipn (List.length l) others) (after others s (List.length l)).
Proof.
  intros l r b others s H. split; intros i z y j E.
  - apply (H i). rewrite nth_error_app1; [exact E|]. apply nth_error_Some. rewrite E. discriminate.
  - rewrite after_more. replace (List.length l + S i)%nat with (S (List.length l + i)) by lia. apply (H (List.length l + i)%nat).
    rewrite nth_error_app2 by lia. replace (List.length l + i - List.length l)%nat with i by lia. exact E.
Qed.

(** A program that does not ask for the length then does on the shared file what it does on [b] alone. *)
Lemma shared_exact : forall {A} (x : IO A) b others s p a q, stays x -> run x b p = Ok (a, q) -> sees_same (steps x b p) b others s ->
  shared_run x others s p = (Ok (a, q), (skipn (List.length (steps x b p)) others, after others s (List.length (steps x b p)))).
Proof.
  intros A x b. induction x as [[v|e|z|]|op c IH]; intros others s p a q S R H; cbn [shared_run run stays steps] in *; try discriminate.
  - injection R as <- <-. reflexivity.
  - destruct S as [O S]. destruct (perform op b p) as [[v r]| | |] eqn:P; try discriminate.
    set (s' := match others with [] => s | t :: _ => t s end) in *.
    assert (E1 : after others s 1 = s') by (unfold after, s'; destruct others; reflexivity).
    rewrite (perform_part op b s' p v r O P).
    + cbn [List.length]. rewrite (IH v (tl others) s' r a q (S v) R); [unfold s'; rewrite skipn_turn, after_turn; reflexivity|].
      intros i z y j E. unfold s'. rewrite after_turn. apply (H (Datatypes.S i)). exact E.
    + intros y j Iy Cy. rewrite <- E1. exact (H 0%nat _ y j eq_refl Iy Cy).
Qed.

(** The length is the one at the turn in which it is asked for. *)
Lemma shared_rest : forall m others s p, p <= blen (after others s 2) -> p < 2 ^ 62 ->
  shared_run (io_remaining_stream_len m) others s p = (Ok (blen (after others s 2) - p, p), (skipn 3 others, after others s 3)).
Proof.
  intros m others s p L1 L2.
  assert (E2 : after others s 2 = match tl others with [] => match others with [] => s | t :: _ => t s end | u :: _ => u (match others with [] => s | t :: _ => t s end) end) by (destruct others as [|? [|? ?]]; reflexivity).
  assert (E3 : after others s 3 = match tl (tl others) with [] => after others s 2 | u :: _ => u (after others s 2) end) by (destruct others as [|? [|? [|? ?]]]; reflexivity).
  revert L1 E2 E3. generalize (after others s 3), (after others s 2). intros s3 s2 L1 E2 E3.
  unfold io_remaining_stream_len, io_position, io_seek_end, io_seek_start. cbn [io_bind io_lift shared_run perform position].
  rewrite <- E2. cbn. unfold seek_end. cbn. rewrite sub64_ok by exact L1. cbn. rewrite <- E3. unfold seek_start.
  rewrite (proj2 (N.ltb_lt p two63)) by (unfold two63; lia). cbn. f_equal. f_equal. destruct others as [|? [|? [|? ?]]]; reflexivity.
Qed.

(** * Files that are described *)

Lemma start_step : forall f j a, nth_error f j = Some a -> start f (S j) = start f j + asize a.
Proof.
  intros f. induction f as [|x r IH]; intros [|j] a E; cbn [nth_error] in E; try discriminate.
  - injection E as ->. unfold start. cbn [firstn]. rewrite render_all_cons. change (render_all []) with (@nil byte). rewrite app_nil_r, blen_nil. reflexivity.
  - unfold start in *. cbn [firstn] in *. rewrite !render_all_cons, !blen_app. specialize (IH j a E). cbn [firstn] in IH. rewrite IH. lia.
Qed.
Lemma start_mono : forall f i j, (i <= j)%nat -> start f i <= start f j.
Proof.
  intros f. unfold start. induction f as [|x r IH]; intros [|i] [|j] L; cbn [firstn]; try lia; try (change (render_all []) with (@nil byte); rewrite blen_nil; lia).
  rewrite !render_all_cons, !blen_app. specialize (IH i j ltac:(lia)). lia.
Qed.
Lemma interest_end : forall f k i, of_interest f k i -> i < start f (S k).
Proof.
  intros f k i [H|[H|(j & a & Lj & E & H)]].
  - pose proof (start_mono f 1 (S k) ltac:(lia)). lia.
  - lia.
  - pose proof (start_mono f (S j) (S k) ltac:(lia)). pose proof (start_step f j a E). pose proof (asize_eq a). unfold head_size in H. unfold hlen in *. lia.
Qed.
Lemma one_movie : forall ft pre mv post k, a_id ft = id4 "ftyp" -> named_kids (id4 "moov") (pre ++ post) = [] -> movie_is (ft :: pre ++ mv :: post) k -> k = S (List.length pre).
Proof.
  intros ft pre mv post k If Nm (x & E & Ix). destruct k as [|k]; cbn [nth_error] in E; [injection E as ->; rewrite If in Ix; discriminate|]. f_equal.
  assert (No : ~ In x (pre ++ post)).
  { intro H. assert (X : In x (named_kids (id4 "moov") (pre ++ post))) by (apply filter_In; split; [exact H|apply is_named_eq; exact Ix]). rewrite Nm in X. exact X. }
  destruct (Nat.lt_trichotomy k (List.length pre)) as [L|[L|L]]; [|exact L|].
  - rewrite nth_error_app1 in E by exact L. apply nth_error_In in E. exfalso. apply No, in_or_app. left. exact E.
  - rewrite nth_error_app2 in E by lia. replace (k - List.length pre)%nat with (S (k - List.length pre - 1)) in E by lia. cbn [nth_error] in E. apply nth_error_In in E.
    exfalso. apply No, in_or_app. right. exact E.
Qed.

(** How long the file is does not matter to the search, if the movie starts inside. *)
Lemma find_len : forall m inner pre fuel len len' parsed k f p,
  forallb fits pre = true -> fits k = true -> named_kids (id4 "moov") pre = [] -> a_id k = id4 "moov" ->
  small f -> sits f p (render_all pre ++ render k) ->
  parsed + blen (render_all pre) < len -> parsed + blen (render_all pre) < len' -> len < 2 ^ 64 -> len' < 2 ^ 64 -> 
  run (io_find_moov fuel m inner len parsed) f p = run (io_find_moov fuel m inner len' parsed) f p /\
  steps (io_find_moov fuel m inner len parsed) f p = steps (io_find_moov fuel m inner len' parsed) f p.
Proof.
  intros m inner pre. induction pre as [|x r IH]; intros fuel len len' parsed k f p Fp Fk Np I Sm S L L' L64 L64';
    (destruct fuel as [|fuel]; [split; reflexivity|]); cbn [io_find_moov].
  - change (render_all []) with (@nil byte) in *. rewrite blen_nil in L, L'. rewrite (proj2 (N.leb_gt len parsed)), (proj2 (N.leb_gt len' parsed)) by lia.
    rewrite app_nil_l in S. pose proof S as S'. rewrite render_eq in S'. apply sits_app in S'. destruct S' as [Sh _].
    destruct (goes_head k Fk f p Sm Sh) as [Rn _]. rewrite !run_bind, !steps_bind, Rn. cbn [hd_fourcc hd_size head_of]. rewrite I.
    change (fourcc_eqb (id4 "moov") MOVIE) with true. split; reflexivity.
  - cbn [forallb] in Fp. apply andb_true_iff in Fp. destruct Fp as [Fx Fr]. rewrite blen_render_all_cons in L, L'.
    rewrite (proj2 (N.leb_gt len parsed)), (proj2 (N.leb_gt len' parsed)) by lia. rewrite render_all_cons, <- app_assoc in S. apply sits_app in S. destruct S as [Sx Sr].
    pose proof Sx as S'. rewrite render_eq in S'. apply sits_app in S'. destruct S' as [Sh _].
    destruct (goes_head x Fx f p Sm Sh) as [Rn _]. rewrite !run_bind, !steps_bind, Rn.
    cbn [hd_fourcc hd_size head_of sz_len size_of]. change MOVIE with (id4 "moov"). rewrite fourcc_eqb_named.
    cbn [named_kids filter] in Np. destruct (is_named (id4 "moov") x); [discriminate|].
    destruct (kid_goes_skip m x f p Sm Sx) as [Rs _]. rewrite blen_header in *. fold (hlen x) in *. rewrite !run_bind, !steps_bind, Rs, !run_bind, !steps_bind. cbn [steps io_lift].
    rewrite (add64_ok m parsed (asize x)) by (unfold two64; lia). cbn [run app io_lift].
    destruct (IH fuel len len' (parsed + asize x) k f (p + asize x) Fr Fk Np I Sm Sr ltac:(lia) ltac:(lia) L64 L64') as [-> ->]. split; reflexivity.
Qed.

(** If every operation sees what it would see in the file [f], and the movie starts inside the file at all times. *)
Theorem shared_seen : forall f t k fuel m others x, good_sizes f -> describes f t -> blen (render_all f) < N.of_nat fuel -> movie_is f k ->
  (forall n, start f k < blen (after others x n) /\ blen (after others x n) < 2 ^ 62) ->
  sees_same (steps (io_read_tag_from fuel m) (render_all f) 0) (render_all f) others x -> shared_read others fuel m x = Ok t.
Proof.
  intros f t k fuel m others x (F & Lf) D Fu Mk Ln Se.
  destruct (read_described_tail f [] t fuel m (conj F Lf) D ltac:(rewrite app_nil_r; exact Lf) Fu) as (q & R). rewrite app_nil_r, <- (read_is fuel m (render_all f) 0) in R.
  destruct D as (ft & pre & mv & post & E & Ift & W & C & Imv & Nm & M).
  assert (Ek : k = S (List.length pre)) by (apply (one_movie ft pre mv post); [exact Ift|exact Nm|rewrite <- E; exact Mk]).
  assert (Sk : start f k = asize ft + blen (render_all pre)).
  { rewrite E, Ek. unfold start. cbn [firstn]. rewrite firstn_app, firstn_all, Nat.sub_diag. cbn [firstn]. rewrite app_nil_r, render_all_cons, blen_app. reflexivity. }
  assert (Er : render_all f = render ft ++ (render_all pre ++ render mv) ++ render_all post) by (rewrite E, render_all_cons, render_all_app, render_all_cons, <- !app_assoc; reflexivity).
  rewrite E in F. cbn [forallb] in F. apply andb_true_iff in F. destruct F as [Fft F]. rewrite forallb_app in F. apply andb_true_iff in F.
  destruct F as [Fpre F]. cbn [forallb] in F. apply andb_true_iff in F. destruct F as [Fmv _].
  assert (Lr : blen (render_all f) = asize ft + blen (render_all pre) + asize mv + blen (render_all post)) by (rewrite Er, !blen_app; unfold asize; lia).
  pose proof (asize_pos mv) as Pm. set (b := render_all f) in *.
  assert (Sm : small b) by exact Lf.
  assert (Gf : run (io_ftyp_parse m) b 0 = Ok (tg_ftyp t, asize ft)).
  { apply (ftyp_goes_io m ft (tg_ftyp t)); auto. exists [], ((render_all pre ++ render mv) ++ render_all post). split; [exact Er|reflexivity]. }
  set (p := asize ft) in *. assert (Pp : p <= blen b) by lia.
  pose proof (proj1 (at_remaining m b p Pp Sm)) as Gr.
  unfold io_read_tag_from in R, Se. rewrite run_bind, Gf, run_bind, Gr, run_bind in R. rewrite steps_bind, Gf, steps_bind, Gr, steps_bind in Se.
  destruct (run (io_find_moov fuel m fuel (blen b - p) 0) b p) as [[r q']| | |] eqn:Rm; try discriminate. cbn in R. injection R as <- <-.
  assert (S3 : List.length (steps (io_remaining_stream_len m) b p) = 3%nat).
  { unfold io_remaining_stream_len. cbn. rewrite sub64_ok by exact Pp. cbn. unfold seek_start. rewrite (proj2 (N.ltb_lt p two63)) by (unfold two63; lia). reflexivity. }
  apply sees_app in Se. destruct Se as [Se1 Se]. apply sees_app in Se. destruct Se as [_ Se]. apply sees_app in Se. destruct Se as [Se _]. rewrite S3 in Se.
  unfold shared_read, io_read_tag_from. rewrite shared_bind, (shared_exact _ b others x 0 _ _ (stays_ftyp m) Gf Se1).
  set (n := List.length (steps (io_ftyp_parse m) b 0)) in *.
  destruct (Ln (n + 2)%nat) as [Ln1 Ln2]. rewrite shared_bind, shared_rest by (rewrite ?after_more; lia). rewrite after_more, shared_bind.
  assert (Sit : sits b p (render_all pre ++ render mv)) by (exists (render ft), (render_all post); split; [exact Er|reflexivity]).
  assert (Np : named_kids (id4 "moov") pre = []) by (unfold named_kids in *; rewrite filter_app in Nm; apply app_eq_nil in Nm; apply Nm).
  destruct (find_len m fuel pre fuel (blen b - p) (blen (after others x (n + 2)) - p) 0 mv b p Fpre Fmv Np Imv Sm Sit ltac:(lia) ltac:(lia) ltac:(lia) ltac:(lia)) as [Ru St].
  rewrite Rm in Ru. rewrite St in Se. symmetry in Ru.
  rewrite (shared_exact _ b _ _ p _ _ (stays_find m fuel _ fuel 0) Ru Se). cbn. reflexivity.
Qed.

(** If the others leave the bytes of interest alone. *)
Lemma keeping_after : forall inv others s n, keeping inv others -> inv s -> inv (after others s n).
Proof.
  intros inv others s n K. unfold after. revert s n. induction others as [|g r IH]; intros s [|n] I; cbn [firstn fold_left]; try exact I.
  inversion_clear K. apply IH; auto.
Qed.
Theorem shared_described : forall f t k fuel m others x, good_sizes f -> describes f t -> blen (render_all f) < N.of_nat fuel -> movie_is f k ->
  intact f k x -> keeping (intact f k) others -> (forall n, blen (after others x n) < 2 ^ 62) -> shared_read others fuel m x = Ok t.
Proof.
  intros f t k fuel m others x G D Fu Mk Ix K Ln. apply (shared_seen f t k fuel m others x G D Fu Mk).
  - intro n. pose proof (keeping_after _ others x n K Ix) as H. split; [|exact (Ln n)]. pose proof Mk as (mv & Emv & _).
    pose proof (start_step f k mv Emv) as Pm. pose proof (asize_pos mv). assert (Hi : of_interest f k (start f k)) by (right; left; lia).
    specialize (H _ Hi). assert (Ls : start f (S k) <= blen (render_all f)).
    { unfold start. rewrite <- (firstn_skipn (S k) f) at 2. rewrite render_all_app, blen_app. lia. }
    assert (X : nth_error (render_all f) (N.to_nat (start f k)) <> None) by (apply nth_error_Some; unfold blen in *; lia).
    rewrite <- H in X. apply nth_error_Some in X. unfold blen in *. lia.
  - destruct (looked_described f [] t fuel m G D ltac:(rewrite app_nil_r; apply G) Fu) as (k1 & Mk1 & Lo). rewrite app_nil_r, Forall_forall in Lo.
    assert (E1 : k1 = k).
    { destruct D as (ft & pre & mv & post & E & Ift & W & C & Imv & Nm & M). rewrite E in Mk, Mk1.
      rewrite (one_movie ft pre mv post k Ift Nm Mk). exact (one_movie ft pre mv post k1 Ift Nm Mk1). }
    subst k1. intros i z y j Ez Iy Cy. apply (keeping_after _ others x (S i) K Ix). apply (Lo y); [|exact Cy].
    rewrite steps_trail. apply filter_In in Iy. destruct Iy as [Iy Ry]. apply filter_In. split; [|exact Ry]. apply in_concat. exists z. split; [|exact Iy]. apply nth_error_In in Ez. exact Ez.
Qed.
