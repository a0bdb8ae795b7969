(** What is read of items with UTF-16 text that have been written as the last thing of a movie. *)

From Coq Require Import List NArith ZArith Bool Lia Arith String.
From Coq Require Import ZifyBool ZifyNat ZifyN.
From Verif Require Import Base BaseLemmas Utf UtfLemmas Types Stream Parse Find Write TagSpec FileSpec ParseLemmas ReadSpec ReadFacts ReadProofs ReadTerm ScanProofs NewMeans UpdateMeans WriteBytes Utf16Proofs WOutSpec WOutPlan
  RepairSpec RepairProofs Props_Spill ReadBad SpillSpec SpillProofs SpillPlace SpillMain SpillRead FailProofs ParseLemmas.
Import ListNotations.
Local Open Scope list_scope.

(** The last child of a container: the loop ends with what its body returns. *)
Lemma kids_last : forall {S} m (body : head -> S -> R S) k x a fuel s s' r f p q,
  fits k = true -> a_kids k = x ++ [a] -> steps body x s s' -> small f -> sits f p (a_content k) ->
  atom_loop fuel m (content_len m (size_of k)) body (blen (a_pre k)) s f (p + blen (a_pre k)) = Ok (r, q) ->
  body (head_of a) s' f (p + blen (a_pre k) + blen (render_all x) + hlen a) = Ok (r, q) /\
  sits f (p + blen (a_pre k) + blen (render_all x)) (render a) /\ fits a = true.
Proof.
  intros S m body k x a fuel s s' r f p q F K St Sm H E. pose proof (fits_csize k F) as L64.
  pose proof (fits_kids k F) as Fk. rewrite K, forallb_app in Fk. apply andb_true_iff in Fk. destruct Fk as [Fx Fa]. cbn [forallb] in Fa. rewrite andb_true_r in Fa.
  rewrite content_len_of in E. unfold csize, a_content in *. rewrite K in *. rewrite render_all_app, render_all_cons in *. change (render_all []) with (@nil byte) in *.
  rewrite app_nil_r in *. apply sits_app in H. destruct H as [_ H].
  split; [|split; [|exact Fa]].
  - rewrite render_eq, app_assoc in H. apply sits_app in H. destruct H as [H _].
    pose proof (loop_last m body x fuel (blen (a_pre k ++ render_all x ++ render a)) (blen (a_pre k)) s s' r f (p + blen (a_pre k)) q _ (head_of a) Fx St Sm H (parses_head a Fa)) as X.
    cbn [hd_size head_of sz_len size_of] in X. rewrite blen_header in X. fold (hlen a) in X. pose proof (asize_pos a). apply X; [lia| |lia|exact E].
    rewrite !blen_app. unfold asize. lia.
  - apply sits_app in H. apply H.
Qed.

(** Children of other names are passed over. *)
Lemma others_meta : forall fuel m ks s, named_kids (id4 "ilst") ks = [] -> steps (meta_body fuel m) ks s s.
Proof.
  intros fuel m ks s. induction ks as [|k r IH]; intros N; [reflexivity|]. cbn [named_kids filter] in N. destruct (is_named (id4 "ilst") k) eqn:E; [discriminate|].
  exists s. split; [|apply IH, N]. unfold meta_body. cbn [hd_fourcc head_of]. change ITEM_LIST with (id4 "ilst"). rewrite fourcc_eqb_named, E. apply kid_skip_ret.
Qed.
Lemma others_udta : forall fuel m ks s, named_kids (id4 "meta") ks = [] -> steps (udta_body fuel m) ks s s.
Proof.
  intros fuel m ks s. induction ks as [|k r IH]; intros N; [reflexivity|]. cbn [named_kids filter] in N. destruct (is_named (id4 "meta") k) eqn:E; [discriminate|].
  exists s. split; [|apply IH, N]. unfold udta_body. cbn [hd_fourcc head_of]. change METADATA with (id4 "meta"). rewrite fourcc_eqb_named, E. apply kid_skip_ret.
Qed.

(** ** The containers *)

Section Last.
  Variables (fuel : nat) (m : mode) (f : bytes).
  Hypothesis Sm : small f.

  Lemma last_meta : forall k x a p o q, fits k = true -> version0 (a_pre k) -> a_kids k = x ++ [a] -> named_kids (id4 "ilst") x = [] -> a_id a = id4 "ilst" ->
    sits f p (a_content k) -> meta_parse fuel m (size_of k) f p = Ok (o, q) ->
    exists l, o = Some l /\ ilst_parse fuel m (size_of a) f (p + 4 + blen (render_all x) + hlen a) = Ok (l, q) /\ sits f (p + 4 + blen (render_all x)) (render a).
  Proof.
    intros k x a p o q F V K N I H E. unfold meta_parse in E. destruct (parses_version0 _ V) as (fl & _ & Pv). pose proof (blen_version0 _ V) as B4.
    pose proof H as H'. unfold a_content in H'. apply sits_app in H'. destruct H' as [H1 _].
    erewrite bind_ok in E by (apply (Pv f p Sm H1)). cbn [fst] in E. change (negb (0 =? 0)) with false in E. cbv iota in E. rewrite <- B4 in E.
    destruct (kids_last m (meta_body fuel m) k x a fuel None None o f p q F K (others_meta fuel m x None N) Sm H E) as (X & Sa & _). rewrite B4 in *.
    unfold meta_body in X. cbn [hd_fourcc hd_size head_of] in X. rewrite I in X. change (fourcc_eqb (id4 "ilst") ITEM_LIST) with true in X. cbv iota in X.
    apply bind_inv in X. destruct X as (l & p1 & X & Y). unfold ret in Y. injection Y as <- <-. exists l. split; [reflexivity|]. split; [exact X|exact Sa].
  Qed.
  Lemma last_udta : forall k x a p o q, fits k = true -> a_pre k = [] -> a_kids k = x ++ [a] -> named_kids (id4 "meta") x = [] -> a_id a = id4 "meta" ->
    sits f p (a_content k) -> udta_parse fuel m (size_of k) f p = Ok (o, q) ->
    exists l, o = Some l /\ meta_parse fuel m (size_of a) f (p + blen (render_all x) + hlen a) = Ok (l, q) /\ sits f (p + blen (render_all x)) (render a).
  Proof.
    intros k x a p o q F V K N I H E. unfold udta_parse in E.
    pose proof (kids_last m (udta_body fuel m) k x a fuel None None o f p q F K (others_udta fuel m x None N) Sm H) as Q. rewrite V in Q. change (blen []) with 0 in Q.
    rewrite !N.add_0_r in Q. destruct (Q E) as (X & Sa & _).
    unfold udta_body in X. cbn [hd_fourcc hd_size head_of] in X. rewrite I in X. change (fourcc_eqb (id4 "meta") METADATA) with true in X. cbv iota in X.
    apply bind_inv in X. destruct X as (l & p1 & X & Y). unfold ret in Y. injection Y as <- <-. exists l. split; [reflexivity|]. split; [exact X|exact Sa].
  Qed.
  Lemma last_moov : forall k x a p o q s, fits k = true -> a_pre k = [] -> a_kids k = x ++ [a] -> steps (moov_body fuel m) x (Moov None [] None) s -> a_id a = id4 "udta" ->
    sits f p (a_content k) -> moov_parse fuel m (size_of k) f p = Ok (o, q) ->
    exists l, mv_udta o = Some l /\ udta_parse fuel m (size_of a) f (p + blen (render_all x) + hlen a) = Ok (l, q) /\ sits f (p + blen (render_all x)) (render a).
  Proof.
    intros k x a p o q s F V K St I H E. unfold moov_parse in E.
    pose proof (kids_last m (moov_body fuel m) k x a fuel _ s o f p q F K St Sm H) as Q. rewrite V in Q. change (blen []) with 0 in Q.
    rewrite !N.add_0_r in Q. destruct (Q E) as (X & Sa & _).
    unfold moov_body in X. cbn [hd_fourcc hd_size head_of] in X. rewrite I in X. change (fourcc_eqb (id4 "udta") MOVIE_HEADER) with false in X.
    change (fourcc_eqb (id4 "udta") TRACK) with false in X. change (fourcc_eqb (id4 "udta") USER_DATA) with true in X. cbv iota in X.
    apply bind_inv in X. destruct X as (l & p1 & X & Y). unfold ret in Y. injection Y as <- <-. exists l. split; [reflexivity|]. split; [exact X|exact Sa].
  Qed.
End Last.

(** The movie up to its metadata is read without trouble. *)
Lemma front_steps : forall fuel m c a info items, fits (relist_moov c a) = true -> fuel_for fuel (relist_moov c a) -> alone c -> moov_means (relist_moov c a) info items ->
  exists s, steps (moov_body fuel m) (at_moov_pre c) (Moov None [] None) s.
Proof.
  intros fuel m c a info items F Fu (_ & _ & U1 & _) (_ & dur & auds & uo & (durs & Fd & _) & Ft & _). cbn [relist_moov a_kids] in Fd, Ft.
  rewrite named_app in Fd, Ft. apply Forall2_app_inv_l in Fd. destruct Fd as (d1 & d2 & Fd & _ & _). apply Forall2_app_inv_l in Ft. destruct Ft as (t1 & t2 & Ft & _ & _).
  destruct (moov_steps fuel m (at_moov_pre c) d1 t1 [] (Moov None [] None)) as (ts & u & St & _); auto.
  - intros k I. assert (I' : In k (a_kids (relist_moov c a))) by (cbn [relist_moov a_kids]; apply in_or_app; left; exact I). split; [eapply kid_fits|eapply fuel_kid]; eassumption.
  - rewrite U1. constructor.
  - eexists. exact St.
Qed.

Theorem last_never : forall fuel m c items t0 g t,
  describes (relist c (new_ilst (stand_ins items))) t0 -> good_sizes (relist c (new_ilst (stand_ins items))) -> alone c ->
  at_meta_post c = [] -> at_udta_post c = [] -> at_moov_post c = [] ->
  describable items -> Forall (fun a => ad_len a < 2 ^ 32) items -> lossy items ->
  let f := render_all (relist c (cut_list items)) ++ g in
  blen f < 2 ^ 62 -> blen f < N.of_nat fuel -> read_tag fuel m f = Ok t -> tg_atoms t <> items.
Proof.
  intros fuel m c items t0 g t De G0 Al Pm Pu Po D L32 Lo f Sm Fu R.
  destruct (lossy_or items) as [E|(pre & it & post & ds & s & r & Ei & P & A & F & Ne)]; [apply exact_not_lossy in E; contradiction|].
  pose proof (raw_list_front pre it post ds s r P A F) as [h Hg]. pose proof (list_front_len pre it post ds s r P A F) as Lf. rewrite <- Ei in Hg, Lf. rewrite <- all_bytes_raw in Hg.
  pose proof (Props_Spill.cut_good c items G0) as G. destruct De as (ft & dp & mv & dq & E & Ift & W & C & Imv & Nm & M).
  destruct (relist_parts c _ ft dp mv dq E Nm) as (-> & -> & -> & ->).
  set (x := cut_list items) in *. set (y := new_ilst (stand_ins items)) in *.
  destruct G as [Gf Gs]. destruct G0 as [G0 _]. unfold relist in Gf, G0. cbn [forallb] in Gf, G0. apply andb_true_iff in Gf, G0. destruct Gf as [Fft Gf], G0 as [_ G0]. rewrite forallb_app in Gf, G0.
  apply andb_true_iff in Gf, G0. destruct Gf as [Fpre Gf], G0 as [_ G0]. cbn [forallb] in Gf, G0. apply andb_true_iff in Gf, G0. destruct Gf as [Fmv _], G0 as [Fmv0 _].
  assert (Ef : f = render (at_ft c) ++ (render_all (at_pre c) ++ render (relist_moov c x)) ++ render_all (at_post c) ++ g).
  { unfold f, relist. rewrite render_all_cons, render_all_app, render_all_cons, <- !app_assoc. reflexivity. }
  assert (Sit : sits f (0 + blen (render (at_ft c))) (render_all (at_pre c) ++ render (relist_moov c x))).
  { exists (render (at_ft c)), (render_all (at_post c) ++ g). split; [exact Ef|reflexivity]. }
  assert (Lf' : blen f = asize (at_ft c) + blen (render_all (at_pre c)) + asize (relist_moov c x) + blen (render_all (at_post c)) + blen g).
  { rewrite Ef, !blen_app. unfold asize. lia. }
  unfold read_tag in R. destruct (read_tag_from fuel m f 0) as [[t' q]| | |] eqn:Rf; try discriminate. injection R as ->. unfold read_tag_from in Rf.
  erewrite bind_ok in Rf. 2:{ apply (ftyp_parses m (at_ft c) (tg_ftyp t0)); auto. exists [], ((render_all (at_pre c) ++ render (relist_moov c x)) ++ render_all (at_post c) ++ g). split; [exact Ef|reflexivity]. }
  rewrite N.add_0_l in *. fold (asize (at_ft c)) in Rf, Sit.
  erewrite bind_ok in Rf by (apply remaining_ok; [lia|exact Sm]).
  apply bind_inv in Rf. destruct Rf as (mo & p1 & Fm & Rt). unfold ret in Rt. injection Rt as <- _. cbn [tg_atoms].
  apply sits_app in Sit. destruct Sit as [Spre Smv]. pose proof Al as (N1 & _ & U1 & _ & M1 & _ & I1 & _).
  assert (Lk : (List.length (at_pre c) < fuel)%nat) by (apply enough_length; unfold enough; lia).
  assert (L1 : 0 + blen (render_all (at_pre c)) <= blen f - asize (at_ft c)) by lia.
  assert (L2 : blen f - asize (at_ft c) < 2 ^ 64) by (change (2 ^ 64) with (4 * 2 ^ 62); lia).
  rewrite (find_moov_prefix m fuel (at_pre c) fuel _ 0 f _ Fpre N1 Sm Spre L1 L2 Lk) in Fm.
  set (p := asize (at_ft c) + blen (render_all (at_pre c))) in *. destruct (fuel - List.length (at_pre c))%nat as [|fu] eqn:Q; [lia|]. cbn [find_moov] in Fm.
  destruct (_ <=? _); [discriminate Fm|]. erewrite bind_ok in Fm by (apply (ReadBad.head_at f p _ Sm Fmv Smv)). cbn [hd_fourcc hd_size head_of relist_moov a_id] in Fm.
  change (fourcc_eqb (id4 "moov") MOVIE) with true in Fm. cbv iota in Fm.
  assert (Ffor : fuel_for fuel (relist_moov c y)).
  { unfold fuel_for. assert (Z : asize (relist_moov c y) = asize (relist_moov c x)); [|pose proof (asize_eq (relist_moov c y)); lia].
    unfold relist_moov. rewrite !asize_eq. unfold hlen, csize, a_content. cbn [a_ext a_pre a_kids]. rewrite !render_all_app, !render_all_cons, !blen_app. unfold relist_udta.
    assert (Zx : blen (render x) = blen (render y)) by (pose proof (Props_Spill.cut_size items) as Z; unfold asize in Z; exact Z).
    fold (asize (Atom (at_udta c) (id4 "udta") [] (at_udta_pre c ++ relist_meta c x :: at_udta_post c))). fold (asize (Atom (at_udta c) (id4 "udta") [] (at_udta_pre c ++ relist_meta c y :: at_udta_post c))).
    rewrite !asize_eq. unfold hlen, csize, a_content. cbn [a_ext a_pre a_kids]. rewrite !render_all_app, !render_all_cons, !blen_app.
    fold (asize (relist_meta c x)) (asize (relist_meta c y)). unfold relist_meta. rewrite !asize_eq. unfold hlen, csize, a_content. cbn [a_ext a_pre a_kids].
    rewrite !render_all_app, !render_all_cons, !blen_app. lia. }
  destruct (front_steps fuel m c y _ _ Fmv0 Ffor Al M) as (ms & Ms).
  pose proof (sits_content _ _ _ Smv) as Cm. cbn [a_ext] in *.
  assert (Km : a_kids (relist_moov c x) = at_moov_pre c ++ [relist_udta c x]) by (cbn [relist_moov a_kids]; rewrite Po; reflexivity).
  destruct (last_moov fuel m f Sm (relist_moov c x) _ _ _ mo p1 ms Fmv eq_refl Km Ms eq_refl Cm Fm) as (u & Eu & Ru & Su).
  assert (Fud : fits (relist_udta c x) = true) by (apply (kid_fits (relist_moov c x) _ Fmv); rewrite Km; apply in_or_app; right; left; reflexivity).
  assert (Ku : a_kids (relist_udta c x) = at_udta_pre c ++ [relist_meta c x]) by (cbn [relist_udta a_kids]; rewrite Pu; reflexivity).
  destruct (last_udta fuel m f Sm (relist_udta c x) _ _ _ u p1 Fud eq_refl Ku M1 eq_refl (sits_content _ _ _ Su) Ru) as (e & -> & Re & Se).
  assert (Fme : fits (relist_meta c x) = true) by (apply (kid_fits (relist_udta c x) _ Fud); rewrite Ku; apply in_or_app; right; left; reflexivity).
  assert (Ke : a_kids (relist_meta c x) = at_meta_pre c ++ [x]) by (cbn [relist_meta a_kids]; rewrite Pm; reflexivity).
  assert (Ve : version0 (a_pre (relist_meta c x))).
  { cbn [relist_meta a_pre]. destruct M as (_ & dur & auds & uo & _ & _ & (us & Fus & _) & _). cbn [relist_moov a_kids] in Fus. rewrite named_app, named_this, U1 in Fus by reflexivity. cbn [app] in Fus.
    inversion Fus as [|? ? ? ? Hu _]; subst. destruct Hu as (_ & oo & (l & F2 & _) & _). cbn [relist_udta a_kids] in F2. rewrite named_app, named_this, M1 in F2 by reflexivity. cbn [app] in F2.
    inversion F2 as [|? ? ? ? He _]; subst. apply He. }
  destruct (last_meta fuel m f Sm (relist_meta c x) _ _ _ e p1 Fme Ve Ke I1 eq_refl (sits_content _ _ _ Se) Re) as (l & -> & Rl & Sl).
  unfold moov_atoms. rewrite Eu. cbn [ojoin]. pose proof (sits_content _ _ _ Sl) as Sc.
  assert (Ca : a_content x = firstn (SpillSpec.announced items) (all_bytes items)).
  { unfold a_content. cbn [x cut_list new_box a_pre a_kids]. change (render_all []) with (@nil byte). apply app_nil_r. }
  assert (Ln : csize x = list_len items).
  { unfold csize. rewrite Ca. pose proof (all_bytes_len items) as X. unfold blen, SpillSpec.announced in *. rewrite firstn_length. lia. }
  rewrite Ca, Hg in Sc. rewrite firstn_app, firstn_all2 in Sc by (unfold blen, SpillSpec.announced in *; lia). apply sits_app in Sc. destruct Sc as [Sc _].
  rewrite Ei. rewrite Ei in D, L32.
  assert (Cl : content_len m (size_of x) = Ok (nsum (map ad_len (pre ++ it :: post)))) by (rewrite content_len_of, Ln, <- list_len_is, Ei; reflexivity).
  assert (Lx : nsum (map ad_len (pre ++ it :: post)) < 2 ^ 62).
  { rewrite <- Ei, list_len_is, <- Ln. apply sits_len in Sl. fold (asize x) in Sl. rewrite asize_eq in Sl. lia. }
  exact (ilst_wrong fuel m pre it post ds s r (size_of x) f _ l p1 D L32 P A F Ne Sm Sc Fu Lx Cl Rl).
Qed.
