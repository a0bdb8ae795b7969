(** Reading a tidy file, continued: tracks, movie header, movie, file. *)

From Coq Require Import List NArith ZArith Bool Lia Arith String.
From Coq Require Import ZifyBool ZifyNat ZifyN.
From Verif Require Import Base BaseLemmas Utf UtfLemmas Types Stream Parse TagSpec FileSpec ParseLemmas ReadProofs ReadSpec ReadFacts ReadBad ReadErr TreeProofs TidySpec TidyProofs.
Import ListNotations.
Local Open Scope list_scope.
Ltac Zify.zify_post_hook ::= Z.div_mod_to_equations.

(** * Audio parameters *)

Lemma ds_exists : forall b, tidy_ds b -> exists ch rate, ds_means b ch rate.
Proof.
  intros b L. unfold tidy_ds in L. destruct b as [|x [|y r]]; cbn in L; try lia.
  destruct (ReadProofs.bits_ds x y r) as [E1 E2].
  exists (channel_config_of ((unbe [x; y] / 8) mod 16)), (sample_rate_of ((unbe [x; y] / 128) mod 16)). unfold ds_means.
  rewrite E1, E2. split; [cbn; lia|]. split; [apply rate_hz, N.mod_lt; discriminate|apply config_count, N.mod_lt; discriminate].
Qed.

Lemma dc_exists : forall b, tidy_dc b -> exists a, dc_means b a.
Proof.
  intros b (h & l & L & -> & G & One & T). set (mx := unbe (firstn 4 (skipn 5 h))). set (av := unbe (skipn 9 h)).
  destruct (tagged_desc 5 l) as [|d [|d' r]] eqn:E; [| |cbn in One; lia].
  - exists (Audio None None (Some mx) (Some av)), h, l. do 5 (split; [auto|]). rewrite E. split; reflexivity.
  - inversion T as [|? ? Td _]; subst. destruct (ds_exists _ Td) as (ch & rate & M).
    exists (Audio ch rate (Some mx) (Some av)), h, l. do 5 (split; [auto|]). rewrite E. exact M.
Qed.

Lemma es_exists : forall b, tidy_es b -> exists a, es_means b a.
Proof.
  intros b (h & l & L & -> & G & One & T).
  destruct (tagged_desc 4 l) as [|d [|d' r]] eqn:E; [| |cbn in One; lia].
  - eexists. exists h, l. do 3 (split; [auto|]). rewrite E. reflexivity.
  - inversion T as [|? ? Td _]; subst. destruct (dc_exists _ Td) as (a & M).
    exists a, h, l. do 3 (split; [auto|]). rewrite E. exact M.
Qed.

Lemma esds_decides : forall fuel m k, a_id k = id4 "esds" -> tidy_esds k ->
  (exists x, esds_means k x) \/ never (parse_esds fuel m mp4a_default (size_of k)) k.
Proof.
  intros fuel m k I (v & d & rest & L & G & C & T). destruct (version_dec v L) as [V|V].
  - destruct (N.eq_dec (b2n (d_tag d)) 3) as [D|D].
    + left. destruct (es_exists _ (T D)) as (x & M). exists x. split; [exact I|]. exists v, d, rest. auto 6.
    + right. intros f p w Sm S. apply sits_content in S. rewrite C in S. apply sits_app in S. destruct S as [Sv S].
      apply sits_app in S. destruct S as [S _]. rewrite render_desc_eq in S. apply sits_app in S. destruct S as [S _].
      unfold parse_esds. destruct (parses_version0 _ V) as (fl & _ & Pv). erewrite bind_ok by (apply (Pv f _ Sm Sv)). cbn [fst].
      change (negb (0 =? 0)) with false. cbv iota. destruct G as [W B].
      erewrite bind_ok by (apply (parses_desc_head _ _ _ W B f _ Sm S)). cbv beta iota.
      rewrite (proj2 (N.eqb_neq _ _)) by exact D. discriminate.
  - right. intros f p w Sm S. apply sits_content in S. rewrite C in S. apply sits_app in S. destruct S as [Sv _].
    unfold parse_esds. eapply version_never; eassumption.
Qed.

Lemma mp4a_decides : forall fuel m k, fits k = true -> tidy_mp4a k ->
  (exists x, mp4a_means k x) \/ never (mp4a_parse fuel m (size_of k)) k.
Proof.
  intros fuel m k F (L & e & rest & K & T).
  assert (Ie : In e (a_kids k)) by (rewrite K; left; reflexivity). pose proof (kid_fits _ _ F Ie) as Fe.
  assert (N : (is_named (id4 "esds") e = true -> never (parse_esds fuel m mp4a_default (size_of e)) e) -> never (mp4a_parse fuel m (size_of k)) k).
  { intros N f p v Sm S. unfold mp4a_parse. pose proof (sits_content _ _ _ S) as Sc. pose proof (sits_len _ _ _ Sc) as SL.
    unfold a_content in Sc. rewrite K in Sc. apply sits_app in Sc. destruct Sc as [_ Sc]. rewrite render_all_cons in Sc.
    apply sits_app in Sc. destruct Sc as [Se _].
    assert (Lp : blen (a_pre k) = 28) by (unfold blen; rewrite L; reflexivity). rewrite Lp in Se.
    unfold a_content in SL. rewrite blen_app, Lp in SL.
    rewrite (bind_ok _ _ _ _ _ _ (find_bounds_of m k f p)).
    erewrite bind_ok by (apply (seek_cur_ok f _ 28); [exact Sm|lia|lia]).
    erewrite bind_ok by (apply ReadBad.head_at; [exact Sm|exact Fe|exact Se]). cbn [hd_fourcc hd_size ParseLemmas.head_of].
    change ELEMENTARY_STREAM_DESCRIPTION with (id4 "esds"). rewrite fourcc_eqb_named. destruct (is_named (id4 "esds") e); [|discriminate].
    cbn [negb]. cbv iota. pose proof (fun w => N eq_refl f (p + ParseLemmas.hlen k + 28) w Sm Se) as X. unfold bind.
    destruct (parse_esds fuel m mp4a_default (size_of e) f (p + ParseLemmas.hlen k + 28 + ParseLemmas.hlen e)) as [[u q]|?|?|]; try discriminate.
    exfalso. apply (X _ eq_refl). }
  destruct (is_named (id4 "esds") e) eqn:E; [|right; apply N; discriminate].
  apply is_named_eq in E. destruct (esds_decides fuel m e E (T E)) as [(x & M)|M].
  - left. exists x. split; [exact L|]. exists e, rest. auto.
  - right. apply N. intros _. exact M.
Qed.

Lemma stsd_decides : forall fuel m k, fits k = true -> fuel_for fuel k -> tidy_stsd k ->
  (exists o, stsd_means k o) \/ never (stsd_parse fuel m (size_of k)) k.
Proof.
  intros fuel m k F Fu (L & T). destruct (take 4 (a_pre k)) as (v & n & E & Lv); [lia|].
  assert (Ln : List.length n = 4%nat) by (rewrite E, app_length in L; lia).
  destruct (version_dec v Lv) as [V|V].
  - destruct (child_decides (id4 "mp4a") m fuel (mp4a_parse fuel m) mp4a_means tidy_mp4a audio_of k F Fu T) as [(o & LC)|N].
    + intros x Fx Fux Tx. apply mp4a_decides; assumption.
    + intros x y Fx Fux Px. exists (mp4a_of y). split; [apply mp4a_kid; assumption|destruct y; reflexivity].
    + left. exists o. split; [|exact LC]. exists v, n. auto.
    + right. intros f p w Sm S. pose proof (N f p w Sm S) as Z. unfold stsd_parse. destruct (parses_version0 _ V) as (fl & _ & Pv).
      apply sits_content in S. unfold a_content in S. rewrite E in S. apply sits_app in S. destruct S as [S _].
      pose proof S as Sn. apply sits_app in Sn. destruct Sn as [Sv Sn].
      erewrite bind_ok by (apply (Pv f _ Sm Sv)). cbn [fst]. change (negb (0 =? 0)) with false. cbv iota.
      assert (Bn : blen n = 4) by (unfold blen; rewrite Ln; reflexivity).
      pose proof (parses_seek n 4 ltac:(rewrite Bn; reflexivity) f _ Sm Sn) as Sk. erewrite bind_ok by exact Sk.
      rewrite E, blen_app, Bn, (blen_version0 _ V) in Z. rewrite Bn, (blen_version0 _ V).
      replace (p + ParseLemmas.hlen k + 4 + 4) with (p + ParseLemmas.hlen k + (4 + 4)) by lia. exact Z.
  - right. intros f p w Sm S. apply sits_content in S. unfold a_content in S. rewrite E in S. apply sits_app in S. destruct S as [S _].
    apply sits_app in S. destruct S as [Sv _]. unfold stsd_parse.
    apply (version_never f _ w (fun _ => seek_cur 4 ;;; atom_loop fuel m (content_len m (size_of k)) (stsd_body fuel m) 8 None) _ Sm Sv Lv V).
Qed.

Lemma stbl_decides : forall fuel m k, fits k = true -> fuel_for fuel k -> tidy_stbl k ->
  (exists o, stbl_means k o) \/ never (stbl_parse fuel m (size_of k)) k.
Proof.
  intros fuel m k F Fu T. apply (box_decides (id4 "stsd") m fuel (stsd_parse fuel m) stsd_means tidy_stsd (option_map audio_of) k F Fu T).
  - intros x Fx Fux Tx. apply stsd_decides; assumption.
  - intros x y Fx Fux Px. apply stsd_kid; assumption.
Qed.
Lemma minf_decides : forall fuel m k, fits k = true -> fuel_for fuel k -> tidy_minf k ->
  (exists o, minf_means k o) \/ never (minf_parse fuel m (size_of k)) k.
Proof.
  intros fuel m k F Fu T. apply (box_decides (id4 "stbl") m fuel (stbl_parse fuel m) stbl_means tidy_stbl
    (fun y => join (option_map (option_map audio_of) y)) k F Fu T).
  - intros x Fx Fux Tx. apply stbl_decides; assumption.
  - intros x y Fx Fux Px. apply stbl_kid; assumption.
Qed.
Lemma mdia_decides : forall fuel m k, fits k = true -> fuel_for fuel k -> tidy_mdia k ->
  (exists o, mdia_means k o) \/ never (mdia_parse fuel m (size_of k)) k.
Proof.
  intros fuel m k F Fu T. apply (box_decides (id4 "minf") m fuel (minf_parse fuel m) minf_means tidy_minf
    (fun y => join (option_map (fun y => join (option_map (option_map audio_of) y)) y)) k F Fu T).
  - intros x Fx Fux Tx. apply minf_decides; assumption.
  - intros x y Fx Fux Px. apply minf_kid; assumption.
Qed.
Lemma trak_decides : forall fuel m k, fits k = true -> fuel_for fuel k -> tidy_trak k ->
  (exists o, trak_means k o) \/ never (trak_parse fuel m (size_of k)) k.
Proof.
  intros fuel m k F Fu T. apply (box_decides (id4 "mdia") m fuel (mdia_parse fuel m) mdia_means tidy_mdia
    (fun y => join (option_map (fun y => join (option_map (fun y => join (option_map (option_map audio_of) y)) y)) y)) k F Fu T).
  - intros x Fx Fux Tx. apply mdia_decides; assumption.
  - intros x y Fx Fux Px. apply mdia_kid; assumption.
Qed.

(** * The movie header *)

Lemma mvhd_stuck : forall m k, let b := a_content k in 4 <= blen b ->
  (field b 0 1 = 0 -> 20 <= blen b /\ forall v, mvhd_nanos m (field b 12 4) (field b 16 4) <> Ok v) ->
  (field b 0 1 = 1 -> 32 <= blen b /\ forall v, mvhd_nanos m (field b 20 4) (field b 24 8) <> Ok v) ->
  never (mvhd_parse m (size_of k)) k.
Proof.
  intros m k b L4 Z0 Z1 f p w Sm S. pose proof (sits_content _ _ _ S) as Sc. set (p0 := p + ParseLemmas.hlen k) in *. unfold mvhd_parse.
  erewrite bind_ok by apply find_bounds_of. fold p0. fold b in Sc.
  pose proof (sits_len _ _ _ Sc) as Lb. unfold small in Sm.
  assert (V : exists fl, parse_full_head f p0 = Ok ((field b 0 1, fl), p0 + 4)).
  { unfold parse_full_head. exists (slice f (p0 + 1) 3). erewrite bind_ok.
    2:{ pose proof (field_read f p0 b 0 1 1 read_u8 Sm Sc ltac:(lia) eq_refl eq_refl) as X. rewrite N.add_0_r in X. exact X. }
    erewrite bind_ok by (apply read_exact_in; lia). unfold ret. do 2 f_equal. lia. }
  destruct V as (fl & V). unfold bind at 1. rewrite V. cbn [fst].
  assert (Sk : forall d, d <= 16 -> seek_cur (Z.of_N d) f (p0 + 4) = Ok (tt, p0 + 4 + d)).
  { intros d D. unfold seek_cur. rewrite (proj2 (Z.leb_le _ _)), (proj2 (Z.ltb_lt _ _)) by (unfold two63; lia). cbn [andb]. do 2 f_equal. lia. }
  destruct (field b 0 1) as [|[q|q|]] eqn:E; try discriminate.
  - destruct (Z0 eq_refl) as [L N]. unfold bind at 2. change 8%Z with (Z.of_N 8) at 1. unfold bind at 1. rewrite Sk by lia.
    unfold bind at 1. replace (p0 + 4 + 8) with (p0 + 12) by lia.
    rewrite (field_read f p0 b 12 4 4 read_u32 Sm Sc) by (reflexivity || lia).
    unfold bind. replace (p0 + 12 + 4) with (p0 + 16) by lia.
    rewrite (field_read f p0 b 16 4 4 read_u32 Sm Sc) by (reflexivity || lia). unfold lift.
    destruct (mvhd_nanos m (field b 12 4) (field b 16 4)) as [v|?|?|]; try discriminate. exfalso. apply (N v eq_refl).
  - destruct (Z1 eq_refl) as [L N]. unfold bind at 2. change 16%Z with (Z.of_N 16) at 1. unfold bind at 1. rewrite Sk by lia.
    unfold bind at 1. replace (p0 + 4 + 16) with (p0 + 20) by lia.
    rewrite (field_read f p0 b 20 4 4 read_u32 Sm Sc) by (reflexivity || lia).
    unfold bind. replace (p0 + 20 + 4) with (p0 + 24) by lia.
    rewrite (field_read f p0 b 24 8 8 read_u64 Sm Sc) by (reflexivity || lia). unfold lift.
    destruct (mvhd_nanos m (field b 20 4) (field b 24 8)) as [v|?|?|]; try discriminate. exfalso. apply (N v eq_refl).
Qed.

Lemma nanos_decides : forall m t d, m = Checked \/ d * 1000000000 < 2 ^ 64 ->
  (exists n, nanos t d n) \/ forall v, mvhd_nanos m t d <> Ok v.
Proof.
  intros m t d H. destruct (N.eq_dec t 0) as [->|T].
  - right. intros v. unfold mvhd_nanos, mul64, div64, rbind. destruct (d * 1000000000 <? two64); [discriminate|]. destruct m; discriminate.
  - destruct (d * 1000000000 <? two64) eqn:E.
    + left. exists (d * 1000000000 / t). split; [exact T|]. split; [apply N.ltb_lt in E; exact E|reflexivity].
    + right. intros v. unfold mvhd_nanos, mul64, rbind. rewrite E. destruct H as [->|H]; [discriminate|].
      apply N.ltb_ge in E. unfold two64 in E. lia.
Qed.

Lemma mvhd_decides : forall m k, tidy_mvhd k -> m = Checked \/ short_mvhd k ->
  (exists d, mvhd_means k d) \/ never (mvhd_parse m (size_of k)) k.
Proof.
  intros m k (L4 & L0 & L1) Sh. unfold short_mvhd in Sh. unfold mvhd_means. cbv zeta. set (b := a_content k) in *.
  destruct (N.eq_dec (field b 0 1) 0) as [E0|E0].
  - destruct (nanos_decides m (field b 12 4) (field b 16 4)) as [(n & M)|M].
    + right. specialize (L0 E0). pose proof (field_lt b 16 4 ltac:(lia)) as X. change (256 ^ 4) with 4294967296 in X. lia.
    + left. exists n. left. auto.
    + right. apply mvhd_stuck; [exact L4|auto|]. fold b. intros E1. congruence.
  - destruct (N.eq_dec (field b 0 1) 1) as [E1|E1].
    + destruct (nanos_decides m (field b 20 4) (field b 24 8)) as [(n & M)|M].
      * destruct Sh as [Sh|Sh]; [left; exact Sh|right; apply Sh, E1].
      * left. exists n. right. auto.
      * right. apply mvhd_stuck; [exact L4|fold b; intros X; congruence|auto].
    + right. apply mvhd_stuck; [exact L4| |]; fold b; intros X; congruence.
Qed.

(** * The movie *)

Definition part_ok (k : atom) : Prop :=
  (a_id k = id4 "mvhd" -> exists d, mvhd_means k d) /\
  (a_id k = id4 "trak" -> exists o, trak_means k o) /\ (a_id k = id4 "udta" -> exists o, udta_means k o).

Lemma moov_decides : forall fuel m k, fits k = true -> fuel_for fuel k -> tidy_moov k ->
  m = Checked \/ Forall short_mvhd (named_kids (id4 "mvhd") (a_kids k)) ->
  (exists info items, moov_means k info items) \/ never (moov_parse fuel m (size_of k)) k.
Proof.
  intros fuel m k F Fu (Pre & Tm & Tt & Tu) Sh.
  assert (X : forall l, Forall part_ok l -> exists durs auds us, Forall2 mvhd_means (named_kids (id4 "mvhd") l) durs /\
    Forall2 trak_means (named_kids (id4 "trak") l) auds /\ Forall2 udta_means (named_kids (id4 "udta") l) us).
  { intros l H.
    destruct (named_means mvhd_means (id4 "mvhd") l) as (ds & Fd); [eapply Forall_impl; [|exact H]; intros z Z; apply Z|].
    destruct (named_means trak_means (id4 "trak") l) as (ms & Fm); [eapply Forall_impl; [|exact H]; intros z Z; apply Z|].
    destruct (named_means udta_means (id4 "udta") l) as (ns & Fn); [eapply Forall_impl; [|exact H]; intros z Z; apply Z|].
    exists ds, ms, ns. auto. }
  destruct (first_bad part_ok (fun z => forall s, never (moov_body fuel m (ParseLemmas.head_of z) s) z) (a_kids k)) as [G|(x & z & y & E & G & N)].
  - intros z Iz. assert (Fz : fits z = true) by (eapply kid_fits; eassumption). assert (Fuz : fuel_for fuel z) by (eapply fuel_kid; eassumption).
    unfold part_ok, moov_body. cbn [hd_fourcc hd_size ParseLemmas.head_of].
    destruct (is_named (id4 "mvhd") z) eqn:E1.
    { apply is_named_eq in E1. rewrite E1. change (fourcc_eqb (id4 "mvhd") MOVIE_HEADER) with true. cbv iota.
      destruct (mvhd_decides m z) as [V|V].
      - exact (named_in _ _ _ _ Tm Iz E1).
      - destruct Sh as [Sh|Sh]; [left; exact Sh|right]. exact (named_in short_mvhd _ _ _ Sh Iz E1).
      - left. split; [auto|]. split; discriminate.
      - right. intros s. apply never_bind, V. }
    destruct (is_named (id4 "trak") z) eqn:E2.
    { apply is_named_eq in E2. rewrite E2. change (fourcc_eqb (id4 "trak") MOVIE_HEADER) with false. change (fourcc_eqb (id4 "trak") TRACK) with true. cbv iota.
      destruct (trak_decides fuel m z Fz Fuz (named_in _ _ _ _ Tt Iz E2)) as [V|V].
      - left. split; [discriminate|]. split; [auto|discriminate].
      - right. intros s. apply never_bind, V. }
    destruct (is_named (id4 "udta") z) eqn:E3.
    { apply is_named_eq in E3. rewrite E3. change (fourcc_eqb (id4 "udta") MOVIE_HEADER) with false. change (fourcc_eqb (id4 "udta") TRACK) with false.
      change (fourcc_eqb (id4 "udta") USER_DATA) with true. cbv iota.
      destruct (udta_decides fuel m z Fz Fuz (named_in _ _ _ _ Tu Iz E3)) as [V|V].
      - left. split; [discriminate|]. split; [discriminate|auto].
      - right. intros s. apply never_bind, V. }
    left. split; [|split]; intros Z; apply is_named_eq in Z; congruence.
  - left. destruct (X _ G) as (durs & auds & us & Fd & Ft & Fus). do 2 eexists. split; [exact Pre|].
    exists (last_opt durs), auds, (last_opt us). split; [exists durs; auto|]. split; [exact Ft|]. split; [exists us; auto|]. split; reflexivity.
  - right. destruct (X _ G) as (durs & auds & us & Fd & Ft & Fus).
    assert (Ix : forall w, In w x -> In w (a_kids k)) by (intros w Iw; rewrite E; apply in_or_app; left; exact Iw).
    destruct (moov_steps fuel m x durs auds us (Moov None [] None)) as (ts & u & St & _ & _); auto.
    { intros w Iw. split; [eapply kid_fits|eapply fuel_kid]; eauto. }
    intros f p v Sm S. unfold moov_parse. pose proof (container_never m (moov_body fuel m) k x z y fuel _ _ F E St (N _) f p v Sm S) as Y.
    rewrite Pre, blen_nil, N.add_0_r in Y. exact Y.
Qed.

(** * The file *)

Lemma named_split : forall id l, named_kids id l = [] \/ exists x k y, l = x ++ k :: y /\ a_id k = id /\ named_kids id x = [].
Proof.
  intros id. induction l as [|k l [IH|(x & k' & y & -> & I & N)]]; [left; reflexivity| |]; unfold named_kids; cbn [filter]; destruct (is_named id k) eqn:E.
  - right. exists [], k, l. split; [reflexivity|]. split; [apply is_named_eq, E|reflexivity].
  - left. exact IH.
  - right. exists [], k, (x ++ k' :: y). split; [reflexivity|]. split; [apply is_named_eq, E|reflexivity].
  - right. exists (k :: x), k', y. split; [reflexivity|]. split; [exact I|]. unfold named_kids in *. cbn [filter]. rewrite E. exact N.
Qed.

(** Reading a tidy file fails, unless the file has a meaning. *)
Lemma tidy_decides : forall f m fuel, good_sizes f -> tidy f -> m = Checked \/ short_movie f ->
  blen (render_all f) < N.of_nat fuel ->
  (exists t, describes f t) \/ forall t, read_tag fuel m (render_all f) <> Ok t.
Proof.
  intros f m fuel G (One & T) Sh Fu. destruct f as [|ft rest].
  { right. intros t. change (render_all []) with (@nil byte). discriminate. }
  pose proof G as [F Sm]. cbn [forallb] in F. apply andb_true_iff in F. destruct F as [Fft Fr].
  assert (S : sits (render_all (ft :: rest)) 0 (render ft)) by (eexists [], _; split; reflexivity).
  assert (H : ftyp_parse m (render_all (ft :: rest)) 0 =
    (if negb (is_named (id4 "ftyp") ft) then fail ENoTag else c <- lift (content_len m (size_of ft)) ;; read_utf8 c) (render_all (ft :: rest)) (ParseLemmas.hlen ft)).
  { unfold ftyp_parse. erewrite bind_ok by (apply ReadBad.head_at; [exact Sm|exact Fft|exact S]). rewrite N.add_0_l.
    cbn [hd_fourcc hd_size ParseLemmas.head_of]. change FILETYPE with (id4 "ftyp"). rewrite fourcc_eqb_named. reflexivity. }
  destruct (is_named (id4 "ftyp") ft) eqn:I; cbn [negb] in H.
  2:{ right. intros t E. pose proof (read_rejects fuel m _ _ H) as X. congruence. }
  apply is_named_eq in I.
  destruct (dec8 (a_content ft)) as [s|] eqn:D.
  2:{ right. intros t E. rewrite (raises_lift _ _ _ _ _ (content_len_of m ft)) in H. apply sits_content in S. rewrite N.add_0_l in S.
      assert (X : ftyp_parse m (render_all (ft :: rest)) 0 = Err EUtf8).
      { rewrite H. apply (proj2 (utf8_read _ _ _ Sm S)). intros s Ws Es.
        assert (Y : dec8 (a_content ft) = Some s) by (apply dec8_correct; auto). congruence. }
      pose proof (read_rejects fuel m _ _ X) as Z. congruence. }
  apply dec8_correct in D. destruct D as [Ws Es]. symmetry in Es.
  assert (Nft : is_named (id4 "moov") ft = false) by (rewrite (id_neq ft _ (id4 "moov") I); [reflexivity|discriminate]).
  unfold at_most_one, named_kids in One, T. unfold short_movie, named_kids in Sh. cbn [filter] in One, T, Sh. rewrite Nft in One, T, Sh.
  fold (named_kids (id4 "moov") rest) in One, T, Sh.
  destruct (named_split (id4 "moov") rest) as [N|(x & k & y & -> & Ik & Nx)].
  { right. intros t E. destruct (ReadFacts.no_moov 0 fuel m [] ft s rest G I Ws Es N Fu) as [X _]. congruence. }
  assert (Ny : named_kids (id4 "moov") y = []).
  { unfold named_kids in *. rewrite filter_app in One. cbn [filter] in One. rewrite (proj2 (is_named_eq _ _) Ik), app_length in One.
    cbn [List.length] in One. destruct (filter _ y); [reflexivity|cbn in One; lia]. }
  assert (Nk : named_kids (id4 "moov") (x ++ k :: y) = [k]).
  { unfold named_kids in *. rewrite filter_app. cbn [filter]. rewrite (proj2 (is_named_eq _ _) Ik), Nx, Ny. reflexivity. }
  rewrite Nk in T, Sh. inversion T as [|? ? Tk _]; subst.
  rewrite forallb_app in Fr. apply andb_true_iff in Fr. destruct Fr as [Fx Fr]. cbn [forallb] in Fr. apply andb_true_iff in Fr. destruct Fr as [Fk _].
  set (fb := render_all (ft :: x ++ k :: y)) in *.
  assert (Eb : fb = render ft ++ render_all x ++ render k ++ render_all y).
  { unfold fb. rewrite render_all_cons, render_all_app, render_all_cons. reflexivity. }
  assert (Lf : blen fb = asize ft + blen (render_all x) + asize k + blen (render_all y)).
  { rewrite Eb, !blen_app. unfold asize. lia. }
  assert (Fuk : fuel_for fuel k) by (unfold fuel_for; pose proof (asize_eq k); lia).
  destruct (moov_decides fuel m k Fk Fuk Tk) as [(info & items & M)|N].
  { destruct Sh as [Sh|Sh]; [left; exact Sh|right]. inversion Sh; assumption. }
  - left. exists (Tag s info items), ft, x, k, y. do 5 (split; [auto|]). split; [|exact M].
    unfold named_kids in *. rewrite filter_app, Nx, Ny. reflexivity.
  - right. intros t. unfold read_tag, read_tag_from.
    assert (P : ftyp_parse m fb 0 = Ok (s, asize ft)).
    { pose proof (ftyp_parses m ft s Fft I Ws Es fb 0 Sm S) as X. rewrite N.add_0_l in X. exact X. }
    erewrite bind_ok by exact P. erewrite bind_ok by (apply remaining_ok; [lia|exact Sm]).
    assert (Sk : sits fb (asize ft) (render_all x ++ render k)).
    { exists (render ft), (render_all y). split; [rewrite Eb, <- !app_assoc; reflexivity|reflexivity]. }
    assert (Hm : find_moov fuel m fuel (blen fb - asize ft) 0 fb (asize ft) = moov_parse fuel m (size_of k) fb (asize ft + blen (render_all x) + ParseLemmas.hlen k)).
    { apply find_moov_at; auto; [lia|unfold small in Sm; lia|]. pose proof (kids_count x). unfold blen in *. lia. }
    unfold bind. rewrite Hm. apply sits_app in Sk. destruct Sk as [_ Sk].
    pose proof (fun v => N fb (asize ft + blen (render_all x)) v Sm Sk) as Y.
    destruct (moov_parse fuel m (size_of k) fb (asize ft + blen (render_all x) + ParseLemmas.hlen k)) as [[u q]|?|?|]; try discriminate.
    exfalso. apply (Y _ eq_refl).
Qed.
