(** Which bytes of a file reading looks at: proofs for C84. *)

From Coq Require Import List NArith ZArith Bool Lia Arith String.
From Coq Require Import ZifyBool ZifyNat ZifyN.
From Verif Require Import Base BaseLemmas Utf UtfLemmas Types Stream Parse Find Write TagSpec FileSpec ParseLemmas ReadProofs ReadMore ReadSpec ReadFacts.
From Verif Require Import EditSpec ChunkSpec Fault ReadIO IoProofs IoCost IoWalk Reader ReaderProofs LookSpec.
Import ListNotations.
Local Open Scope list_scope.
Local Open Scope io_scope.

(** * Other bytes are not needed *)

Lemma read_exact_same : forall f g n p b q, blen g = blen f -> read_exact n f p = Ok (b, q) -> same_on f g (Stretch true p q) -> read_exact n g p = Ok (b, q).
Proof.
  intros f g n p b q L R Sm. unfold read_exact in *. destruct (n =? 0); [exact R|]. rewrite L. destruct (p + n <=? blen f); [|discriminate].
  injection R as <- <-. unfold same_on in Sm. cbn [st_from st_to] in Sm. replace (p + n - p) with n in Sm by lia. rewrite Sm. reflexivity.
Qed.
Lemma perform_same : forall o f g p, blen g = blen f ->
  match perform o f p with Ok (_, q) => Forall (same_on f g) (looked (op_stretch o p q)) | _ => True end -> perform o g p = perform o f p.
Proof.
  intros o f g p L H. destruct o as [n|n| |d|s|]; cbn [perform] in *.
  - destruct (read_exact n f p) as [[b q]|e|x|] eqn:E.
    + inversion_clear H. rewrite (read_exact_same f g n p b q L E) by assumption. reflexivity.
    + clear H. unfold read_exact in *. rewrite L. destruct (n =? 0); [discriminate|]. destruct (p + n <=? blen f); [discriminate|]. injection E as <-. reflexivity.
    + unfold read_exact in E. destruct (n =? 0); [discriminate|]. destruct (p + n <=? blen f); discriminate.
    + unfold read_exact in E. destruct (n =? 0); [discriminate|]. destruct (p + n <=? blen f); discriminate.
  - destruct (two63 <=? n); [reflexivity|]. destruct (read_exact n f p) as [[b q]|e|x|] eqn:E.
    + inversion_clear H. rewrite (read_exact_same f g n p b q L E) by assumption. reflexivity.
    + clear H. unfold read_exact in *. rewrite L. destruct (n =? 0); [discriminate|]. destruct (p + n <=? blen f); [discriminate|]. injection E as <-. reflexivity.
    + unfold read_exact in E. destruct (n =? 0); [discriminate|]. destruct (p + n <=? blen f); discriminate.
    + unfold read_exact in E. destruct (n =? 0); [discriminate|]. destruct (p + n <=? blen f); discriminate.
  - reflexivity.
  - reflexivity.
  - reflexivity.
  - unfold seek_end. rewrite L. reflexivity.
Qed.
Lemma run_same : forall {A} (x : IO A) f g p, blen g = blen f -> Forall (same_on f g) (looked (trail x f p)) ->
  run x g p = run x f p /\ trail x g p = trail x f p.
Proof.
  intros A x f g p L. revert p. induction x as [[a|e|q|]|o k IH]; intros p H; cbn [run trail] in *; try (split; reflexivity).
  assert (W : perform o g p = perform o f p).
  { apply perform_same; [exact L|]. destruct (perform o f p) as [[a q]| | |]; auto. unfold looked in H. rewrite filter_app in H. apply Forall_app in H. apply H. }
  rewrite W. destruct (perform o f p) as [[a q]| | |]; try (split; reflexivity).
  unfold looked in H. rewrite filter_app in H. apply Forall_app in H. destruct (IH a q (proj2 H)) as [-> ->]. split; reflexivity.
Qed.

(** * One pass *)

Lemma trail_bind : forall {A B} (x : IO A) (k : A -> IO B) f p,
  trail (io_bind x k) f p = trail x f p ++ match run x f p with Ok (a, q) => trail (k a) f q | _ => [] end.
Proof.
  intros A B x k f. induction x as [[a|e|q|]|o c IH]; intro p; cbn [io_bind trail run]; try reflexivity.
  destruct (perform o f p) as [[a q]| | |]; try reflexivity. rewrite IH, app_assoc. reflexivity.
Qed.
Lemma row_app : forall l r p q s, row p l q -> row q r s -> row p (l ++ r) s.
Proof. induction l as [|x l IH]; intros r p q s H K; cbn [row app] in *; [subst; exact K|]. destruct H as (H1 & H2 & H3). split; [exact H1|]. split; [exact H2|]. eapply IH; eassumption. Qed.
Lemma row_le : forall l p q, row p l q -> p <= q.
Proof. induction l as [|x l IH]; intros p q H; cbn [row] in H; [lia|]. destruct H as (H1 & H2 & H3). apply IH in H3. lia. Qed.
Lemma row_in : forall l p q s, row p l q -> In s l -> p <= st_from s /\ st_from s <= st_to s /\ st_to s <= q.
Proof.
  induction l as [|x l IH]; intros p q s H K; [destruct K|]. cbn [row] in H. destruct H as (H1 & H2 & H3). destruct K as [<-|K].
  - apply row_le in H3. lia.
  - apply (IH _ _ _ H3) in K. lia.
Qed.
Lemma perform_row : forall o f p a q, match o with OSeekStart _ | OSeekEnd => False | _ => True end -> ahead o = true -> perform o f p = Ok (a, q) -> row p (op_stretch o p q) q.
Proof.
  intros o f p a q O H E. destruct o as [n|n| |d|s|]; try contradiction; cbn [perform ahead op_stretch row st_from st_to] in *.
  - unfold read_exact in E. destruct (n =? 0); [injection E as <- <-; lia|]. destruct (p + n <=? blen f); [injection E as <- <-; lia|discriminate].
  - unfold read_exact in E. destruct (two63 <=? n); [discriminate|]. destruct (n =? 0); [injection E as <- <-; lia|]. destruct (p + n <=? blen f); [injection E as <- <-; lia|discriminate].
  - injection E as <- <-. reflexivity.
  - unfold seek_cur in E. destruct (_ && _) eqn:X; [injection E as <- <-|discriminate]. lia.
Qed.
(** [x], run from [p], goes over the file once, up to where it ends if it succeeds. *)
Definition pass {A} (x : IO A) (f : bytes) (p : N) : Prop :=
  exists q, row p (trail x f p) q /\ forall a s, run x f p = Ok (a, s) -> s = q.
Lemma pass_stays : forall {A} (x : IO A) f p, stays x -> forallb ahead (asked x f p) = true -> pass x f p.
Proof.
  intros A x f p. revert p. induction x as [[b|e|s|]|o k IH]; intros p S H; cbn [run trail] in *.
  - exists p. split; [reflexivity|]. cbn. intros a s E. injection E as <- <-. reflexivity.
  - exists p. split; [reflexivity|]. discriminate.
  - exists p. split; [reflexivity|]. discriminate.
  - exists p. split; [reflexivity|]. discriminate.
  - cbn [stays asked forallb] in *. destruct S as [O S]. apply andb_prop in H. destruct H as [H1 H2]. unfold pass. cbn [run trail].
    destruct (perform o f p) as [[b r]| | |] eqn:E; try (exists p; split; [reflexivity|discriminate]).
    destruct (IH b r (S b) H2) as (q & R & Q). exists q. split; [|exact Q]. eapply row_app; [eapply perform_row; eassumption|exact R].
Qed.
Lemma pass_bind : forall {A B} (x : IO A) (k : A -> IO B) f p, pass x f p -> (forall a q, run x f p = Ok (a, q) -> pass (k a) f q) -> pass (io_bind x k) f p.
Proof.
  intros A B x k f p (q & R & Q) K. unfold pass. rewrite trail_bind, run_bind. destruct (run x f p) as [[a s]| | |] eqn:E.
  - rewrite (Q a s eq_refl) in *. destruct (K a q eq_refl) as (q' & R' & Q'). exists q'. split; [|exact Q']. eapply row_app; eassumption.
  - exists q. rewrite app_nil_r. split; [exact R|discriminate].
  - exists q. rewrite app_nil_r. split; [exact R|discriminate].
  - exists q. rewrite app_nil_r. split; [exact R|discriminate].
Qed.
Lemma rest_trail : forall m f p, trail (io_remaining_stream_len m) f p = [] /\ forall a q, run (io_remaining_stream_len m) f p = Ok (a, q) -> q = p.
Proof.
  intros m f p. unfold io_remaining_stream_len. rewrite !trail_bind, !run_bind. cbn. destruct (sub64 m (blen f) p) as [n|e|x|]; cbn; try (split; [reflexivity|discriminate]).
  unfold seek_start. destruct (p <? two63); cbn; split; try reflexivity; try discriminate. intros a q E. injection E as <- <-. reflexivity.
Qed.
Lemma pass_rest : forall m f p, pass (io_remaining_stream_len m) f p.
Proof. intros m f p. destruct (rest_trail m f p) as [T Q]. exists p. rewrite T. split; [reflexivity|]. intros a s E. exact (Q a s E). Qed.
Theorem read_pass : forall fuel m f p, forallb ahead (asked (io_read_tag_from fuel m) f p) = true -> pass (io_read_tag_from fuel m) f p.
Proof.
  intros fuel m f p H. unfold io_read_tag_from in *. rewrite asked_bind, forallb_app in H. apply andb_prop in H. destruct H as [H1 H2].
  apply pass_bind; [apply pass_stays; [apply stays_ftyp|exact H1]|]. intros ft q Eq. rewrite Eq in H2. rewrite asked_bind, forallb_app in H2. apply andb_prop in H2. destruct H2 as [_ H2].
  apply pass_bind; [apply pass_rest|]. intros len q' Eq'. rewrite Eq' in H2. rewrite asked_bind, forallb_app in H2. apply andb_prop in H2. destruct H2 as [H2 _].
  apply pass_bind; [apply pass_stays; [apply stays_find|exact H2]|]. intros r q'' _. apply pass_stays; [exact I|reflexivity].
Qed.

(** Nothing is covered twice. *)
Lemma row_once : forall l a s b p q i, row p l q -> l = a ++ s :: b -> covers s i -> forall t, In t (a ++ b) -> ~ covers t i.
Proof.
  intros l. induction l as [|x l IH]; intros a s b p q i R E C t T D; [destruct a; discriminate|]. cbn [row] in R. destruct R as (R1 & R2 & R3).
  destruct a as [|y a]; cbn [app] in *; injection E as -> E.
  - subst b. apply (row_in _ _ _ _ R3) in T. unfold covers in *. lia.
  - destruct T as [<-|T]; [|eapply (IH a s b); eassumption]. assert (K : In s l) by (rewrite E; apply in_or_app; right; left; reflexivity).
    apply (row_in _ _ _ _ R3) in K. unfold covers in *. lia.
Qed.
Lemma row_each : forall l p q i, row p l q -> p <= i -> i < q -> exists s, In s l /\ covers s i.
Proof.
  induction l as [|x l IH]; intros p q i R P Q; cbn [row] in R; [lia|]. destruct R as (R1 & R2 & R3). destruct (N.ltb_spec i (st_to x)).
  - exists x. split; [left; reflexivity|]. unfold covers. lia.
  - destruct (IH _ _ i R3) as (s & S1 & S2); [lia|lia|]. exists s. split; [right; exact S1|exact S2].
Qed.
(** What is read is in the file. *)
Lemma trail_in : forall {A} (x : IO A) f p, Forall (fun s => st_from s = st_to s \/ st_to s <= blen f) (looked (trail x f p)).
Proof.
  intros A x f. induction x as [[b|e|s|]|o k IH]; intros p; cbn [trail]; try constructor.
  destruct (perform o f p) as [[b r]| | |] eqn:E; try constructor. unfold looked. rewrite filter_app. apply Forall_app. split; [|apply IH].
  destruct o as [n|n| |d|s|]; cbn [op_stretch filter st_read]; try apply Forall_nil; (apply Forall_cons; [|apply Forall_nil]); cbn [st_from st_to perform] in *.
  - unfold read_exact in E. destruct (n =? 0); [injection E as <- <-; left; reflexivity|]. destruct (N.leb_spec (p + n) (blen f)); [injection E as <- <-; right; lia|discriminate].
  - unfold read_exact in E. destruct (two63 <=? n); [discriminate|]. destruct (n =? 0); [injection E as <- <-; left; reflexivity|]. destruct (N.leb_spec (p + n) (blen f)); [injection E as <- <-; right; lia|discriminate].
Qed.
Lemma row_total : forall l p q n, row p l q -> Forall (fun s => st_from s = st_to s \/ st_to s <= n) (looked l) -> total (looked l) <= n - p.
Proof.
  induction l as [|x l IH]; intros p q n R F; cbn [looked filter row] in *; [cbn; lia|]. destruct R as (R1 & R2 & R3). destruct (st_read x) eqn:Ex.
  - inversion_clear F. cbn [total]. fold (looked l) in *. specialize (IH _ _ n R3 H0). lia.
  - specialize (IH _ _ n R3 F). fold (looked l). lia.
Qed.

(** * Well-formed files *)

Lemma goes_pass : forall {A} (x : IO A) f p v q, stays x -> goes_at x f p v q -> row p (trail x f p) q.
Proof. intros A x f p v q S [R H]. destruct (pass_stays x f p S H) as (s & W & Q). rewrite (Q v q R). exact W. Qed.
Lemma skip_blind : forall m h f p, looked (trail (io_skip_atom m h) f p) = [].
Proof.
  intros m h f p. unfold io_skip_atom. rewrite trail_bind. cbn [trail io_lift]. destruct (run (io_lift _) f p) as [[c q]| | |]; try reflexivity.
  cbn [app trail io_seek_cur]. destruct (perform _ f q) as [[a r]| | |]; reflexivity.
Qed.
Lemma looked_app : forall a b, looked (a ++ b) = looked a ++ looked b. Proof. intros. unfold looked. apply filter_app. Qed.

(** The search for the movie looks at the heads of the atoms in front of it and at the movie. *)
Lemma find_looked : forall m inner pre fuel len parsed k y f p,
  forallb fits pre = true -> fits k = true -> named_kids (id4 "moov") pre = [] -> a_id k = id4 "moov" ->
  kid_goes (io_moov_parse inner m (size_of k)) k y -> small f -> sits f p (render_all pre ++ render k) ->
  parsed + blen (render_all pre) + asize k <= len -> len < 2 ^ 64 -> (List.length pre < fuel)%nat ->
  Forall (fun s => (p + blen (render_all pre) <= st_from s /\ st_to s <= p + blen (render_all pre) + asize k) \/
            exists j a, nth_error pre j = Some a /\ p + start pre j <= st_from s /\ st_to s <= p + start pre j + hlen a)
    (looked (trail (io_find_moov fuel m inner len parsed) f p)).
Proof.
  intros m inner pre. induction pre as [|x r IH]; intros fuel len parsed k y f p Fp Fk Np I Py Sm S L L64 Fu;
    (destruct fuel as [|fuel]; [cbn in Fu; lia|]); cbn [io_find_moov].
  - cbn [render_all flat_map] in L. rewrite blen_nil in L. pose proof (asize_pos k).
    rewrite (proj2 (N.leb_gt len parsed)) by lia. change (render_all [] ++ render k) with (render k) in S. pose proof S as S'. rewrite render_eq in S'. apply sits_app in S'.
    destruct S' as [Sh _]. pose proof (goes_head k Fk f p Sm Sh) as Gh. rewrite blen_header in Gh. fold (hlen k) in Gh.
    pose proof (goes_pass _ _ _ _ _ stays_head Gh) as Rh. rewrite trail_bind. destruct Gh as [Rn _]. rewrite Rn.
    cbn [hd_fourcc hd_size head_of]. rewrite I. change (fourcc_eqb (id4 "moov") MOVIE) with true. cbv iota.
    pose proof (goes_pass _ _ _ _ _ (stays_moov inner m (size_of k)) (Py f p Sm S)) as Rm.
    pose proof (row_app _ _ _ _ _ Rh Rm) as R. change (render_all []) with (@nil byte). rewrite blen_nil.
    apply Forall_forall. intros s Is. apply filter_In in Is. destruct Is as [Is _]. left. apply (row_in _ _ _ _ R) in Is. lia.
  - cbn [forallb] in Fp. apply andb_true_iff in Fp. destruct Fp as [Fx Fr]. rewrite blen_render_all_cons in L. pose proof (asize_pos x).
    rewrite (proj2 (N.leb_gt len parsed)) by lia. rewrite render_all_cons, <- app_assoc in S. apply sits_app in S. destruct S as [Sx Sr].
    pose proof Sx as S'. rewrite render_eq in S'. apply sits_app in S'. destruct S' as [Sh _].
    pose proof (goes_head x Fx f p Sm Sh) as Gh. rewrite blen_header in Gh. fold (hlen x) in Gh.
    pose proof (goes_pass _ _ _ _ _ stays_head Gh) as Rh. rewrite trail_bind. destruct Gh as [Rn _]. rewrite Rn.
    cbn [hd_fourcc hd_size head_of sz_len size_of]. change MOVIE with (id4 "moov"). rewrite fourcc_eqb_named.
    cbn [named_kids filter] in Np. destruct (is_named (id4 "moov") x); [discriminate|].
    rewrite trail_bind. destruct (kid_goes_skip m x f p Sm Sx) as [Rs _]. rewrite Rs. rewrite trail_bind. cbn [trail io_lift].
    rewrite (add64_ok m parsed (asize x)) by (unfold two64; lia). cbn [run app].
    rewrite !looked_app, skip_blind, app_nil_l. apply Forall_app. split.
    + apply Forall_forall. intros s Is. apply filter_In in Is. destruct Is as [Is _]. right. exists 0%nat, x. split; [reflexivity|].
      apply (row_in _ _ _ _ Rh) in Is. change (start (x :: r) 0) with 0. lia.
    + specialize (IH fuel len (parsed + asize x) k y f (p + asize x) Fr Fk Np I Py Sm Sr ltac:(lia) L64 ltac:(cbn in Fu; lia)).
      rewrite blen_render_all_cons. eapply Forall_impl; [|exact IH]. cbv beta. intros s [Hs|(j & a & Ej & H1 & H2)]; [left; lia|right].
      exists (Datatypes.S j), a. split; [exact Ej|]. unfold start in *. cbn [firstn]. rewrite blen_render_all_cons. lia.
Qed.

Theorem looked_described : forall f g t fuel m, good_sizes f -> describes f t -> blen (render_all f ++ g) < 2 ^ 62 -> blen (render_all f) < N.of_nat fuel ->
  exists k, movie_is f k /\ Forall (fun s => forall i, covers s i -> of_interest f k i) (looked (trail (io_read_tag_from fuel m) (render_all f ++ g) 0)).
Proof.
  intros f g t fuel m (F & _) (ft & pre & mv & post & -> & Ift & W & C & Imv & Nm & M) Sm Fu.
  set (fb := render_all (ft :: pre ++ mv :: post) ++ g) in *.
  cbn [forallb] in F. apply andb_true_iff in F. destruct F as [Fft F]. rewrite forallb_app in F. apply andb_true_iff in F.
  destruct F as [Fpre F]. cbn [forallb] in F. apply andb_true_iff in F. destruct F as [Fmv Fpost].
  assert (E : fb = render ft ++ render_all pre ++ render mv ++ render_all post ++ g).
  { unfold fb. rewrite render_all_cons, render_all_app, render_all_cons, <- !app_assoc. reflexivity. }
  rewrite render_all_cons, render_all_app, render_all_cons, !blen_app in Fu.
  assert (Lf : blen fb = asize ft + blen (render_all pre) + asize mv + blen (render_all post) + blen g).
  { rewrite E, !blen_app. unfold asize. lia. }
  fold (asize ft) (asize mv) in Fu.
  assert (Fum : fuel_for fuel mv) by (unfold fuel_for; pose proof (asize_eq mv); lia).
  destruct (moov_kid_io fuel m mv _ _ Fmv Fum M) as (y & Py & _ & _).
  unfold named_kids in Nm. rewrite filter_app in Nm. apply app_eq_nil in Nm. destruct Nm as [Npre _].
  exists (S (List.length pre)). split.
  { exists mv. split; [|exact Imv]. cbn [nth_error]. rewrite nth_error_app2, Nat.sub_diag by lia. reflexivity. }
  assert (St1 : start (ft :: pre ++ mv :: post) 1 = asize ft) by (unfold start, asize; cbn [firstn]; rewrite render_all_cons; change (render_all []) with (@nil byte); rewrite app_nil_r; reflexivity).
  assert (Sp : forall j, (j <= List.length pre)%nat -> start (ft :: pre ++ mv :: post) (S j) = asize ft + start pre j).
  { intros j Lj. unfold start, asize. cbn [firstn]. rewrite render_all_cons, blen_app, firstn_app. replace (j - List.length pre)%nat with 0%nat by lia. cbn [firstn]. rewrite app_nil_r. reflexivity. }
  assert (Sa : start pre (List.length pre) = blen (render_all pre)) by (unfold start; rewrite firstn_all; reflexivity).
  assert (Se : start (ft :: pre ++ mv :: post) (S (S (List.length pre))) = asize ft + blen (render_all pre) + asize mv).
  { unfold start, asize. change (firstn (S (S (List.length pre))) (ft :: pre ++ mv :: post)) with (ft :: firstn (S (List.length pre)) (pre ++ mv :: post)). rewrite render_all_cons, blen_app, firstn_app, firstn_all2 by lia. replace (S (List.length pre) - List.length pre)%nat with 1%nat by lia. cbn [firstn].
    rewrite render_all_app, blen_app, render_all_cons. change (render_all []) with (@nil byte). rewrite app_nil_r. lia. }
  assert (Sit : sits fb 0 (render ft)) by (exists [], (render_all pre ++ render mv ++ render_all post ++ g); split; [rewrite E; reflexivity|reflexivity]).
  assert (Gf : goes_at (io_ftyp_parse m) fb 0 (tg_ftyp t) (0 + blen (render ft))) by (apply (ftyp_goes_io m ft (tg_ftyp t)); auto).
  assert (Gr : goes_at (io_remaining_stream_len m) fb (0 + blen (render ft)) (blen fb - (0 + blen (render ft))) (0 + blen (render ft))).
  { apply at_remaining; [fold (asize ft); lia|exact Sm]. }
  unfold io_read_tag_from. rewrite trail_bind. rewrite (proj1 Gf). rewrite trail_bind. rewrite (proj1 Gr). rewrite (proj1 (rest_trail m fb _)), app_nil_l. rewrite trail_bind.
  rewrite !looked_app. apply Forall_app. split; [|apply Forall_app; split].
  - apply Forall_forall. intros s Is i Ci. apply filter_In in Is. destruct Is as [Is _].
    apply (row_in _ _ _ _ (goes_pass _ _ _ _ _ (stays_ftyp m) Gf)) in Is. left. rewrite St1. change (start (ft :: pre ++ mv :: post) 0) with 0. unfold covers in Ci. fold (asize ft) in Is. lia.
  - rewrite N.add_0_l. fold (asize ft).
    assert (Fo : Forall (fun s => (asize ft + blen (render_all pre) <= st_from s /\ st_to s <= asize ft + blen (render_all pre) + asize mv) \/
       exists j a, nth_error pre j = Some a /\ asize ft + start pre j <= st_from s /\ st_to s <= asize ft + start pre j + hlen a)
       (looked (trail (io_find_moov fuel m fuel (blen fb - asize ft) 0) fb (asize ft)))).
    { apply (find_looked m fuel pre fuel (blen fb - asize ft) 0 mv y fb (asize ft)); auto.
      - exists (render ft), (render_all post ++ g). split; [rewrite E, <- !app_assoc; reflexivity|reflexivity].
      - lia.
      - lia.
      - pose proof (kids_count pre). unfold blen in *. lia. }
    eapply Forall_impl; [|exact Fo]. cbv beta. intros s [Hs|(j & a & Ej & H1 & H2)] i Ci; unfold covers in Ci; unfold of_interest; right.
    + left. rewrite Se, Sp, Sa by lia. lia.
    + right. exists (S j), a. assert (Lj : (j < List.length pre)%nat) by (apply nth_error_Some; rewrite Ej; discriminate).
      split; [lia|]. split; [cbn [nth_error]; rewrite nth_error_app1 by exact Lj; exact Ej|]. rewrite Sp by lia. unfold hlen in H2. unfold head_size. lia.
  - destruct (run _ fb _) as [[r q]| | |]; constructor.
Qed.
