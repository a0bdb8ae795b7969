(** Which bytes the scan of [write_tag_to] looks at: the file type atom, the heads of the other atoms, and the movies. For C97. *)

From Coq Require Import List NArith ZArith Bool Lia Arith String.
From Coq Require Import ZifyBool ZifyNat ZifyN.
From Verif Require Import Base BaseLemmas Utf UtfLemmas Types Stream Parse Find Write TagSpec TagLemmas FileSpec ParseLemmas ReadProofs ScanProofs Fault LastSpec ChunkSpec ReadIO IoProofs IoCost IoWalk IoScan
  ReaderProofs LookSpec LookProofs LookScan SharedScan.
Import ListNotations.
Local Open Scope list_scope.

(** The byte at [i] belongs to the file type atom (atom 0), to the head of another atom, or to a movie. *)
Definition scan_needs (f : list atom) (i : N) : Prop :=
  i < start f 1 \/ exists j a, (0 < j)%nat /\ nth_error f j = Some a /\ start f j <= i /\
    (i < start f j + head_size a \/ (a_id a = id4 "moov" /\ i < start f (S j))).

Lemma leaf_blind : forall m s f p, looked (trail (io_leaf_find m s) f p) = [].
Proof.
  intros m s f p. unfold io_leaf_find. rewrite trail_bind, looked_app.
  assert (B : looked (trail (io_find_bounds m s) f p) = []).
  { unfold io_find_bounds. rewrite trail_bind, looked_app. cbn [trail io_position run perform op_stretch]. cbn. destruct (sub64 m p (head_len s)); reflexivity. }
  rewrite B. destruct (run (io_find_bounds m s) f p) as [[b q]| | |]; try reflexivity. rewrite trail_bind, looked_app.
  assert (E : looked (trail (io_seek_to_end m b) f q) = []).
  { unfold io_seek_to_end. cbn [trail io_position io_bind perform]. cbn. destruct (bounds_end m b); cbn; try reflexivity. destruct (sub64 m _ q); cbn; try reflexivity. repeat match goal with |- context [match ?x with _ => _ end] => destruct x; try reflexivity end. }
  rewrite E. destruct (run (io_seek_to_end m b) f q) as [[? ?]| | |]; reflexivity.
Qed.

Section Looked.
  Context (fuel : nat) (m : mode) (f : bytes) (Sm : small f).
  Definition seen_at (p : N) (ks : list atom) (s : stretch) : Prop :=
    exists j a, nth_error ks j = Some a /\ p + start ks j <= st_from s /\ (st_to s <= p + start ks j + hlen a \/ (a_id a = id4 "moov" /\ st_to s <= p + start ks j + asize a)).
  Lemma body_looked : forall k s p, kfine f (io_top_fbody fuel m (head_of k) s) k -> sits f p (render k) ->
    Forall (fun t => a_id k = id4 "moov" /\ p <= st_from t /\ st_to t <= p + asize k) (looked (trail (io_top_fbody fuel m (head_of k) s) f (p + hlen k))).
  Proof.
    intros k s p K S. destruct (K p S) as (v & G). pose proof (goes_pass _ _ _ _ _ (stays_top fuel m (head_of k) s) G) as R. clear G K.
    destruct (is_named (id4 "moov") k) eqn:E1.
    - apply is_named_eq in E1. apply Forall_forall. intros t It. apply filter_In in It. destruct It as [It _]. apply (row_in _ _ _ _ R) in It. split; [exact E1|]. lia.
    - clear R. unfold io_top_fbody. cbn [hd_fourcc hd_size head_of]. change MOVIE with (id4 "moov"). change MEDIA_DATA with (id4 "mdat"). rewrite !fourcc_eqb_named, E1.
      destruct (is_named (id4 "mdat") k); rewrite trail_bind, looked_app; [rewrite leaf_blind|rewrite skip_blind]; destruct (run _ f (p + hlen k)) as [[? ?]| | |]; constructor.
  Qed.
  Lemma loop_looked : forall ks n limit parsed s p,
    forallb fits ks = true -> (forall k s, In k ks -> kfine f (io_top_fbody fuel m (head_of k) s) k) ->
    parsed + blen (render_all ks) = limit -> limit < 2 ^ 64 -> (List.length ks < n)%nat -> sits f p (render_all ks) ->
    Forall (seen_at p ks) (looked (trail (io_atom_loop n m (Ok limit) (io_top_fbody fuel m) parsed s) f p)).
  Proof.
    intros ks. induction ks as [|k r IH]; intros n limit parsed s p F B L L64 Fu H; (destruct n as [|n]; [cbn in Fu; lia|]); cbn [io_atom_loop]; rewrite trail_bind; cbn [trail io_lift run app].
    - change (render_all []) with (@nil byte) in L. rewrite blen_nil in L. rewrite (proj2 (N.ltb_ge parsed limit)) by lia. constructor.
    - cbn [forallb] in F. apply andb_true_iff in F. destruct F as [Fk Fr]. rewrite render_all_cons in H. apply sits_app in H. destruct H as [Sk Sr].
      rewrite blen_render_all_cons in *. pose proof (asize_pos k) as A8. fold (asize k) in Sr. rewrite (proj2 (N.ltb_lt parsed limit)) by lia.
      pose proof Sk as Sk'. rewrite render_eq in Sk'. apply sits_app in Sk'. destruct Sk' as [Sh _].
      pose proof (goes_head k Fk f p Sm Sh) as Gh. rewrite blen_header in Gh. fold (hlen k) in Gh. pose proof (goes_pass _ _ _ _ _ stays_head Gh) as Rh.
      rewrite trail_bind. destruct Gh as [Rn _]. rewrite Rn. rewrite trail_bind. destruct (B k s (or_introl eq_refl) p Sk) as (s1 & [R1 _]). rewrite R1.
      cbn [hd_size head_of sz_len size_of]. rewrite trail_bind. cbn [trail io_lift]. rewrite (add64_ok m parsed (asize k)) by (unfold two64; lia). cbn [run app].
      rewrite !looked_app. apply Forall_app. split; [|apply Forall_app; split].
      + apply Forall_forall. intros t It. apply filter_In in It. destruct It as [It _]. apply (row_in _ _ _ _ Rh) in It. exists 0%nat, k. split; [reflexivity|]. change (start (k :: r) 0) with 0. lia.
      + eapply Forall_impl; [|exact (body_looked k s p (B k s (or_introl eq_refl)) Sk)]. cbv beta. intros t (E & T1 & T2). exists 0%nat, k. split; [reflexivity|]. change (start (k :: r) 0) with 0. split; [lia|]. right. split; [exact E|lia].
      + specialize (IH n limit (parsed + asize k) s1 (p + asize k) Fr ltac:(intros; apply B; now right) ltac:(lia) L64 ltac:(cbn in Fu; lia) Sr).
        eapply Forall_impl; [|exact IH]. cbv beta. intros t (j & a & Ej & T1 & T2). exists (Datatypes.S j), a. split; [exact Ej|]. unfold start in *. cbn [firstn]. rewrite blen_render_all_cons. split; [lia|].
        destruct T2 as [T2|[E T2]]; [left; lia|right; split; [exact E|lia]].
  Qed.
End Looked.

Theorem scanned_needed : forall f fuel m i, outline f -> good_sizes f -> blen (render_all f) < N.of_nat fuel -> scanned fuel m (render_all f) i -> scan_needs f i.
Proof.
  intros f fuel m i (ft & u & rest & -> & Ift & W & C & Nm & M) (F & Sm) Fu (y & Iy & Cy).
  set (fb := render_all (ft :: rest)) in *. change (small fb) in Sm.
  cbn [forallb] in F. apply andb_true_iff in F. destruct F as [Fft F].
  assert (E : fb = render ft ++ render_all rest) by (unfold fb; now rewrite render_all_cons).
  assert (S : sits fb (asize ft) (render_all rest)) by (exists (render ft), []; rewrite app_nil_r; auto).
  assert (B : blen fb = asize ft + blen (render_all rest)) by (rewrite E, blen_app; reflexivity).
  assert (R : forall k, In k rest -> ready fuel k).
  { intros k X. split; [rewrite forallb_forall in F; apply F, X|]. unfold fuel_for. apply kid_in_size in X. rewrite asize_eq in X. lia. }
  assert (St1 : start (ft :: rest) 1 = asize ft) by (unfold start, asize; cbn [firstn]; rewrite render_all_cons; change (render_all []) with (@nil byte); rewrite app_nil_r; reflexivity).
  assert (Sp : forall j, start (ft :: rest) (Datatypes.S j) = asize ft + start rest j) by (intros j; unfold start, asize; cbn [firstn]; rewrite render_all_cons, blen_app; reflexivity).
  assert (K : forall k s, In k rest -> kfine fb (io_top_fbody fuel m (head_of k) s) k).
  { intros k s I. unfold io_top_fbody. cbn [hd_fourcc hd_size head_of]. change MOVIE with (id4 "moov"). change MEDIA_DATA with (id4 "mdat"). rewrite !fourcc_eqb_named.
    destruct (is_named (id4 "moov") k) eqn:E1.
    - apply kfine_bind_ret. apply is_named_eq in E1. apply moov_fine; [exact Sm|apply R, I|]. exact (in_named _ _ _ _ M I E1).
    - destruct (is_named (id4 "mdat") k); [apply kfine_bind_ret, leaf_fine, Sm|apply (kfine_skip m fb Sm)]. }
  pose proof (loop_looked fuel m fb Sm rest fuel (blen (render_all rest)) 0 (None, None) (asize ft) F K ltac:(lia)) as Lo.
  assert (Gf : goes_at (io_ftyp_parse m) fb 0 u (asize ft)).
  { eapply at_eq; [apply (ftyp_goes_io m ft u Fft Ift W C fb 0 Sm); exists [], (render_all rest); split; [exact E|reflexivity]|reflexivity|reflexivity]. }
  assert (Gr : goes_at (io_remaining_stream_len m) fb (asize ft) (blen (render_all rest)) (asize ft)).
  { eapply at_eq; [apply at_remaining; [lia|exact Sm]|lia|reflexivity]. }
  unfold io_scan in Iy. rewrite trail_bind, (proj1 Gf), trail_bind, (proj1 Gr), (proj1 (rest_trail m fb _)), app_nil_l, trail_bind, !looked_app in Iy. apply in_app_or in Iy. destruct Iy as [Iy|Iy].
  - apply filter_In in Iy. destruct Iy as [Iy _]. apply (row_in _ _ _ _ (goes_pass _ _ _ _ _ (stays_ftyp m) Gf)) in Iy. left. rewrite St1. unfold covers in Cy. lia.
  - apply in_app_or in Iy. destruct Iy as [Iy|Iy].
    + assert (Fo : Forall (seen_at (asize ft) rest) (looked (trail (io_atom_loop fuel m (Ok (blen (render_all rest))) (io_top_fbody fuel m) 0 (None, None)) fb (asize ft)))).
      { apply Lo; [|pose proof (kids_count rest) as Kc; unfold blen in Kc at 1; lia|exact S]. unfold small in Sm. assert (2 ^ 62 < 2 ^ 64) by reflexivity. lia. }
      rewrite Forall_forall in Fo. destruct (Fo y Iy) as (j & a & Ej & T1 & T2). unfold covers in Cy. right. exists (Datatypes.S j), a. split; [lia|]. split; [exact Ej|]. rewrite !Sp. split; [lia|].
      destruct T2 as [T2|[Ea T2]]; [left; unfold hlen in T2; unfold head_size; lia|right; split; [exact Ea|]].
      assert (start rest (Datatypes.S j) = start rest j + asize a); [|lia]. clear - Ej. unfold start. revert rest Ej. induction j as [|j IH]; intros [|x r] Ej; try discriminate; cbn [nth_error] in Ej.
      * injection Ej as ->. cbn [firstn]. rewrite blen_render_all_cons. lia.
      * change (firstn (Datatypes.S (Datatypes.S j)) (x :: r)) with (x :: firstn (Datatypes.S j) r). change (firstn (Datatypes.S j) (x :: r)) with (x :: firstn j r). rewrite !blen_render_all_cons, (IH r Ej). lia.
    + destruct (run _ fb (asize ft)) as [[v q]| | |]; try contradiction. destruct (fst v); contradiction.
Qed.
