(** Writing when containers occur several times; the counterparts of the proofs in WriteProofs.v and WriteMain.v. *)

From Coq Require Import List NArith ZArith Bool Lia Arith String.
From Coq Require Import ZifyBool ZifyNat ZifyN.
From Verif Require Import Base BaseLemmas Utf UtfLemmas Types Stream Parse Find Write TagSpec FileSpec ParseLemmas ReadProofs ReadSpec ReadFacts
  ReadBad ReadTerm NewMeans WriteBytes WriteState ScanProofs AdjustProofs FramesProofs WriteProofs WriteMain UpdateMeans EditSpec EditProofs RepairSpec LastSpec LastProofs.
Import ListNotations.
Local Open Scope list_scope.

(** * A shift by nothing *)

Lemma last_kid_id : forall id h k, of_last id (fun c => h c = c) k -> last_kid id h k = k.
Proof.
  intros id h k H. unfold last_kid. destruct (last_cases id (a_kids k)) as [N|(x & c & y & E & I & N)].
  - rewrite map_last_none by exact N. apply with_same.
  - pose proof (of_last_at _ _ _ _ _ _ H E I N) as Hc. cbv beta in Hc. rewrite E, map_last_at, Hc by assumption. rewrite <- E. apply with_same.
Qed.
Lemma move_stbl_0 : forall k, sound_stbl k -> move_stbl 0 k = k.
Proof.
  intros k [T1 T2]. unfold move_stbl. rewrite (last_kid_id (id4 "stco")), last_kid_id; [reflexivity| |].
  - eapply of_last_impl; [exact T2|]. intros c G. apply shift_table_0; [lia|exact G].
  - eapply of_last_impl; [exact T1|]. intros c G. apply shift_table_0; [lia|exact G].
Qed.
Lemma move_trak_0 : forall k, sound_trak k -> move_trak 0 k = k.
Proof.
  intros k G. apply last_kid_id. eapply of_last_impl; [exact G|]. intros c G2. apply last_kid_id. eapply of_last_impl; [exact G2|]. intros c2 G3.
  apply last_kid_id. eapply of_last_impl; [exact G3|]. apply move_stbl_0.
Qed.
Lemma move_traks_0 : forall ks, Forall sound_trak (named_kids (id4 "trak") ks) -> move_traks 0 ks = ks.
Proof. intros ks G. apply map_kids_id. intros c I E. apply move_trak_0. exact (named_in _ _ _ c G I E). Qed.

(** * Sizes *)

Lemma move_stbl_same : forall d k, sound_stbl k -> same_size k (move_stbl d k).
Proof.
  intros d k [T1 T2].
  assert (S1 : same_size k (last_kid (id4 "stco") (shift_table 4 d) k)).
  { apply last_kid_size. eapply of_last_impl; [exact T1|]. intros c G. apply shift_table_same; [lia|exact G]. }
  assert (S2 : same_size (last_kid (id4 "stco") (shift_table 4 d) k) (move_stbl d k)).
  { apply last_kid_size. eapply of_last_impl; [|intros c G; apply shift_table_same; [lia|exact G]]. apply of_last_named.
    unfold last_kid, with_kids. cbn [a_kids]. rewrite named_last_other by (discriminate || reflexivity). apply of_last_named. exact T2. }
  destruct S1 as (X1 & X2 & X3). destruct S2 as (Y1 & Y2 & Y3). split; [congruence|]. split; congruence.
Qed.
Lemma move_trak_same : forall d k, sound_trak k -> same_size k (move_trak d k).
Proof.
  intros d k G. apply last_kid_size. eapply of_last_impl; [exact G|]. intros c G2. apply last_kid_size. eapply of_last_impl; [exact G2|]. intros c2 G3.
  apply last_kid_size. eapply of_last_impl; [exact G3|]. intros c3 G4. apply move_stbl_same, G4.
Qed.
Lemma move_traks_size : forall d ks, Forall sound_trak (named_kids (id4 "trak") ks) -> blen (render_all (move_traks d ks)) = blen (render_all ks).
Proof. intros d ks H. apply map_kids_size. intros c I E. apply move_trak_same. exact (named_in _ _ _ c H I E). Qed.
Lemma last_moov_size : forall items d d' mv, sound_moov mv -> asize (last_moov items d mv) = asize (last_moov items d' mv).
Proof.
  intros items d d' mv G. unfold last_moov, sound_moov in *. destruct (split_last (id4 "udta") (a_kids mv)) as [[[x c] y]|] eqn:E.
  - apply split_last_some in E. destruct E as (E & _ & _). rewrite E in G. apply good_sub in G. destruct G as [G _].
    rewrite !asize_eq. unfold csize, a_content, hlen, with_kids. cbn [a_ext a_pre a_kids]. rewrite !render_all_app, !blen_app, !move_traks_size by exact G. reflexivity.
  - rewrite !asize_eq. unfold csize, a_content, hlen, with_kids. cbn [a_ext a_pre a_kids]. rewrite !render_all_app, !blen_app, !move_traks_size by exact G. reflexivity.
Qed.

Section LSites.
  Variables (m : mode) (items : list atom_data).
  Hypothesis Ex : exact_items items.

  Lemma meta_lsite : forall p me, p + asize me < 2 ^ 62 -> fits (last_meta items me) = true ->
    exists fs old nw, site m p me (last_meta items me) fs old nw (NIlst (hdlr_of me) items) /\
      meta_aims m (meta_at p me) (p + blen (prefix fs (blen old))) (blen old) /\
      updates p fs (blen old) = [bounds_of p me].
  Proof.
    intros p me Sm F. pose proof (asize_eq me) as Sz. unfold csize, a_content in Sz. rewrite blen_app in Sz.
    destruct (last_cases (id4 "ilst") (a_kids me)) as [N|(x & c & y & E & I & N2)].
    - exists [frame_of me (a_kids me) []], [], (render_all (missing_hdlr me ++ [new_ilst items])).
      unfold last_meta in *. rewrite (proj2 (split_last_none _ _) N) in *.
      assert (Fi : fits (new_ilst items) = true) by (eapply fits_kid; [exact F|apply in_or_app; right; apply in_or_app; right; left; reflexivity]).
      assert (E0 : framed [] [] = render_all []) by reflexivity.
      assert (E1 : framed [] (render_all (missing_hdlr me ++ [new_ilst items])) = render_all (missing_hdlr me ++ [new_ilst items])) by apply framed_nil.
      assert (K : a_kids me = a_kids me ++ [] ++ []) by (cbn [app]; rewrite app_nil_r; reflexivity).
      destruct (ilst_writes m items Ex me Fi) as [W L]. split; [|split].
      + split; [|split; [|split; [|split; [exact W|exact L]]]].
        * rewrite (framed_atom me (a_kids me) [] [] [] [] E0), <- K, with_same. reflexivity.
        * rewrite (framed_atom me _ _ _ _ _ E1), app_nil_r. reflexivity.
        * apply (fits_frame me _ _ _ _ _ E1); [rewrite app_nil_r; exact F|exact Logic.I].
      + left. cbn [meta_at eb_ilst eb_bounds]. rewrite last_of_none by exact N. split; [reflexivity|]. rewrite blen_nil. split; [|reflexivity].
        rewrite prefix_one. unfold bounds_end, bounds_of. cbn [b_pos b_size size_of sz_len]. rewrite Sz. rewrite add64_ok by (unfold two64; lia). f_equal. lia.
      + rewrite (updates_cons p me _ _ _ _ _ E0 K). reflexivity.
    - exists [frame_of me x y], (render c), (render_all (missing_hdlr me ++ [new_ilst items])).
      unfold last_meta in *. rewrite E in F |- *. rewrite split_last_at in * by assumption.
      assert (Fi : fits (new_ilst items) = true) by (eapply fits_kid; [exact F|]; apply in_or_app; right; apply in_or_app; right; left; reflexivity).
      assert (E0 : framed [] (render c) = render_all [c]) by (rewrite framed_nil; cbn [render_all flat_map]; rewrite app_nil_r; reflexivity).
      assert (E1 : framed [] (render_all (missing_hdlr me ++ [new_ilst items])) = render_all (missing_hdlr me ++ [new_ilst items])) by apply framed_nil.
      destruct (ilst_writes m items Ex me Fi) as [W L]. rewrite E, render_all_app, render_all_cons, !blen_app in Sz. fold (asize c) in Sz. split; [|split].
      + split; [|split; [|split; [|split; [exact W|exact L]]]].
        * rewrite (framed_atom me x [c] y [] (render c) E0). cbn [app]. rewrite <- E, with_same. reflexivity.
        * rewrite (framed_atom me _ _ _ _ _ E1), <- app_assoc. reflexivity.
        * apply (fits_frame me _ _ _ _ _ E1); [rewrite <- app_assoc; exact F|exact Logic.I].
      + right. cbn [meta_at eb_ilst]. rewrite E, last_of_only by assumption. eexists. split; [reflexivity|]. fold (asize c).
        rewrite prefix_one. unfold bounds_of, bounds_end, kids_pos. cbn [b_pos b_size size_of sz_len]. split; [lia|]. split; [|reflexivity].
        rewrite add64_ok by (unfold two64; lia). f_equal. lia.
      + rewrite (updates_cons p me x [c] y [] (render c) E0 E). reflexivity.
  Qed.

  Lemma udta_lsite : forall p u, p + asize u < 2 ^ 62 -> fits (last_udta items u) = true ->
    exists fs old nw new r, site m p u (last_udta items u) fs old nw new /\
      udta_aims m items (udta_at p u) (p + blen (prefix fs (blen old))) (blen old) new r /\ updates p fs (blen old) = r.
  Proof.
    intros p u Sm F. pose proof (asize_eq u) as Sz. unfold csize, a_content in Sz. rewrite blen_app in Sz.
    destruct (last_cases (id4 "meta") (a_kids u)) as [N|(x & c & y & E & I & N2)].
    - exists [frame_of u (a_kids u) []], [], (render_all [FileSpec.new_meta items]), (NMeta (NewMeta (Some meta_hdlr) items)), [bounds_of p u].
      unfold last_udta in *. rewrite (proj2 (split_last_none _ _) N) in *.
      assert (Fm : fits (FileSpec.new_meta items) = true) by (eapply fits_kid; [exact F|apply in_or_app; right; left; reflexivity]).
      assert (Fi : items_fit items).
      { apply ilst_items. apply fits_eq in Fm. destruct Fm as [_ Fm]. cbn in Fm. apply andb_true_iff in Fm. destruct Fm as [_ Fm].
        apply andb_true_iff in Fm. apply Fm. }
      assert (E0 : framed [] [] = render_all []) by reflexivity.
      assert (E1 : framed [] (render_all [FileSpec.new_meta items]) = render_all [FileSpec.new_meta items]) by apply framed_nil.
      assert (K : a_kids u = a_kids u ++ [] ++ []) by (cbn [app]; rewrite app_nil_r; reflexivity).
      assert (R : render_all [FileSpec.new_meta items] = render (FileSpec.new_meta items)) by (cbn [render_all flat_map]; apply app_nil_r).
      split; [|split].
      + split; [|split; [|split; [|split]]].
        * rewrite (framed_atom u (a_kids u) [] [] [] [] E0), <- K, with_same. reflexivity.
        * rewrite (framed_atom u _ _ _ _ _ E1), app_nil_r. reflexivity.
        * apply (fits_frame u _ _ _ _ _ E1); [rewrite app_nil_r; exact F|exact Logic.I].
        * rewrite R. apply meta_write_bytes; assumption.
        * rewrite R. cbn [new_atoms_len]. apply (meta_size_eq items Ex).
      + left. cbn [udta_at ub_meta ub_bounds]. rewrite last_of_none by exact N. split; [reflexivity|]. rewrite blen_nil. split; [|auto].
        rewrite prefix_one. unfold bounds_end, bounds_of. cbn [b_pos b_size size_of sz_len]. rewrite Sz. rewrite add64_ok by (unfold two64; lia). f_equal. lia.
      + rewrite (updates_cons p u _ _ _ _ _ E0 K). reflexivity.
    -
      assert (Sc : kids_pos p u + blen (render_all x) + asize c < 2 ^ 62).
      { rewrite E, render_all_app, render_all_cons, !blen_app in Sz. fold (asize c) in Sz. unfold kids_pos. lia. }
      unfold last_udta in *. rewrite E in F |- *. rewrite split_last_at in * by assumption.
      assert (Fc : fits (last_meta items c) = true) by (eapply fits_kid; [exact F|apply in_or_app; right; left; reflexivity]).
      destruct (meta_lsite _ c Sc Fc) as (fs & old & nw & (R & R' & P & W & L) & A & U).
      assert (E0 : framed fs old = render_all [c]) by (rewrite <- R; cbn [render_all flat_map]; rewrite app_nil_r; reflexivity).
      assert (E1 : framed fs nw = render_all [last_meta items c]) by (rewrite <- R'; cbn [render_all flat_map]; rewrite app_nil_r; reflexivity).
      exists (frame_of u x y :: fs), old, nw, (NIlst (hdlr_of c) items), [bounds_of p u; bounds_of (kids_pos p u + blen (render_all x)) c].
      split; [|split].
      + split; [|split; [|split; [|split; [exact W|exact L]]]].
        * rewrite (framed_atom u x [c] y fs old E0). cbn [app]. rewrite <- E, with_same. reflexivity.
        * rewrite (framed_atom u _ _ _ _ _ E1). reflexivity.
        * apply (fits_frame u _ _ _ _ _ E1); [exact F|exact P].
      + right. cbn [udta_at ub_meta ub_bounds]. rewrite E, last_of_only by assumption. eexists. split; [reflexivity|]. split; [|split].
        * rewrite prefix_cons. replace (p + (hlen u + blen (a_pre u) + blen (render_all x) + blen (prefix fs (blen old))))
            with (kids_pos p u + blen (render_all x) + blen (prefix fs (blen old))) by (unfold kids_pos; lia). exact A.
        * rewrite hdlr_found. reflexivity.
        * reflexivity.
      + rewrite (updates_cons p u x [c] y fs old E0 E), U. reflexivity.
  Qed.

  Lemma moov_lsite : forall p d mv, sound_moov mv -> p + asize mv < 2 ^ 62 -> fits (last_moov items d mv) = true -> 
    (- 2 ^ 62 < d < 2 ^ 62)%Z ->
    exists fs fsd old nw new r tail,
      render mv = framed fs old /\
      render (with_kids mv (move_traks d (a_kids mv))) = prefix fsd (blen old) ++ old ++ tail /\ blen tail = blen (suffix fs) /\
      render (last_moov items d mv) = prefix fsd (blen nw) ++ nw ++ suffix fs /\
      path_fits fsd (blen nw) /\ suffix fsd = suffix fs /\ blen (prefix fsd (blen old)) = blen (prefix fs (blen old)) /\
      writes (new_atoms_write m new) nw /\ new_atoms_len new = blen nw /\
      moov_aims m items (moov_at p mv) (p + blen (prefix fs (blen old))) (blen old) new r /\
      updates p fsd (blen old) = r.
  Proof.
    intros p d mv GT Sm F D. unfold sound_moov in GT. pose proof (asize_eq mv) as Sz. unfold csize, a_content in Sz. rewrite blen_app in Sz.
    assert (Sh : forall ks, Forall sound_trak (named_kids (id4 "trak") ks) -> blen (render_all (move_traks d ks)) = blen (render_all ks)).
    { intros ks H. apply map_kids_size. intros c I Ec. apply move_trak_same. eapply named_in; eassumption. }
    destruct (last_cases (id4 "udta") (a_kids mv)) as [N|(x & c & y & E & I & N2)].
    - exists [frame_of mv (a_kids mv) []], [frame_of mv (move_traks d (a_kids mv)) []], [], (render_all [FileSpec.new_udta items]),
        (NUdta (NewMeta (Some meta_hdlr) items)), [bounds_of p mv], [].
      unfold last_moov in *. rewrite (proj2 (split_last_none _ _) N) in *.
      assert (Fu : fits (FileSpec.new_udta items) = true) by (eapply fits_kid; [exact F|apply in_or_app; right; left; reflexivity]).
      assert (Fi : items_fit items).
      { apply ilst_items. apply fits_eq in Fu. destruct Fu as [_ Fu]. cbn [FileSpec.new_udta new_box a_kids forallb] in Fu. rewrite andb_true_r in Fu.
        apply fits_eq in Fu. destruct Fu as [_ Fm]. cbn [FileSpec.new_meta new_box a_kids forallb] in Fm. rewrite andb_true_r in Fm.
        apply andb_true_iff in Fm. apply Fm. }
      assert (E0 : framed [] [] = render_all []) by reflexivity.
      assert (E1 : framed [] (render_all [FileSpec.new_udta items]) = render_all [FileSpec.new_udta items]) by apply framed_nil.
      assert (K : a_kids mv = a_kids mv ++ [] ++ []) by (cbn [app]; rewrite app_nil_r; reflexivity).
      assert (R : render_all [FileSpec.new_udta items] = render (FileSpec.new_udta items)) by (cbn [render_all flat_map]; apply app_nil_r).
      repeat match goal with |- _ /\ _ => split end.
      + rewrite (framed_atom mv (a_kids mv) [] [] [] [] E0), <- K, with_same. reflexivity.
      + pose proof (framed_atom mv (move_traks d (a_kids mv)) [] [] [] [] E0) as X. cbn [app] in X. rewrite app_nil_r in X. rewrite <- X. reflexivity.
      + reflexivity.
      + pose proof (framed_atom mv (move_traks d (a_kids mv)) _ [] _ _ E1) as X. rewrite app_nil_r in X. rewrite <- X. reflexivity.
      + apply (fits_frame mv _ _ _ _ _ E1); [rewrite app_nil_r; exact F|exact Logic.I].
      + reflexivity.
      + rewrite !prefix_one, Sh by exact GT. reflexivity.
      + rewrite R. apply udta_write_bytes; assumption.
      + rewrite R. cbn [new_atoms_len]. apply (udta_size_eq items Ex).
      + left. cbn [moov_at vb_udta vb_bounds]. rewrite last_of_none by exact N. split; [reflexivity|]. rewrite blen_nil. split; [|auto].
        rewrite prefix_one. unfold bounds_end, bounds_of. cbn [b_pos b_size size_of sz_len]. rewrite Sz. rewrite add64_ok by (unfold two64; lia). f_equal. lia.
      + pose proof (updates_cons p mv _ _ _ _ _ E0 K) as X. cbn [updates] in X |- *. rewrite <- X. f_equal. f_equal. f_equal.
        cbn [width]. unfold frame_of. cbn [fr_ext fr_left fr_right]. rewrite !blen_app, Sh by exact GT. reflexivity.
    -
      assert (GT' := GT). rewrite E, named_app, named_cons in GT'.
      assert (Nt : is_named (id4 "trak") c = false).
      { destruct (is_named (id4 "trak") c) eqn:X; [apply is_named_eq in X; rewrite I in X; discriminate X|reflexivity]. }
      rewrite Nt in GT'. apply Forall_app in GT'. destruct GT' as [GTx GTy].
      assert (Sc : kids_pos p mv + blen (render_all x) + asize c < 2 ^ 62).
      { rewrite E, render_all_app, render_all_cons, !blen_app in Sz. fold (asize c) in Sz. unfold kids_pos. lia. }
      unfold last_moov in *. rewrite E in F |- *. rewrite split_last_at in * by assumption.
      assert (Fc : fits (last_udta items c) = true) by (eapply fits_kid; [exact F|apply in_or_app; right; left; reflexivity]).
      destruct (udta_lsite _ c Sc Fc) as (fs & old & nw & new & r & (R & R' & P & W & L) & A & U).
      assert (E0 : framed fs old = render_all [c]) by (rewrite <- R; cbn [render_all flat_map]; rewrite app_nil_r; reflexivity).
      assert (E1 : framed fs nw = render_all [last_udta items c]) by (rewrite <- R'; cbn [render_all flat_map]; rewrite app_nil_r; reflexivity).
      exists (frame_of mv x y :: fs), (frame_of mv (move_traks d x) y :: fs), old, nw, new, (bounds_of p mv :: r), (suffix fs ++ render_all (move_traks d y)).
      repeat match goal with |- _ /\ _ => split end.
      + rewrite (framed_atom mv x [c] y fs old E0). cbn [app]. rewrite <- E, with_same. reflexivity.
      + unfold move_traks at 1. rewrite map_kids_app. cbn [map_kids map]. rewrite Nt. fold (map_kids (id4 "trak") (move_trak d) y).
        fold (move_traks d x). fold (move_traks d y).
        pose proof (framed_atom mv (move_traks d x) [c] (move_traks d y) fs old E0) as X. cbn [app] in X. change (map_kids (id4 "trak") (move_trak d) x) with (move_traks d x).
        rewrite <- X. unfold framed. cbn [prefix suffix frame_of fr_ext fr_id fr_left fr_right]. rewrite (Sh y GTy). reflexivity.
      + cbn [suffix frame_of fr_right]. rewrite !blen_app, (Sh y GTy). reflexivity.
      + pose proof (framed_atom mv (move_traks d x) _ y fs nw E1) as X. cbn [app] in X. rewrite <- X. reflexivity.
      + apply (fits_frame mv _ _ _ _ _ E1); [exact F|exact P].
      + reflexivity.
      + rewrite !prefix_cons, (Sh x GTx). reflexivity.
      + exact W.
      + exact L.
      + right. cbn [moov_at vb_udta vb_bounds]. rewrite E, last_of_only by assumption. eexists _, r. split; [reflexivity|]. split; [|reflexivity].
        rewrite prefix_cons. replace (p + (hlen mv + blen (a_pre mv) + blen (render_all x) + blen (prefix fs (blen old))))
            with (kids_pos p mv + blen (render_all x) + blen (prefix fs (blen old))) by (unfold kids_pos; lia). exact A.
      + pose proof (updates_cons p mv x [c] y fs old E0 E) as X. cbn [updates] in X |- *. rewrite U in X. rewrite <- X.
        assert (Lf : blen (fr_left (frame_of mv (move_traks d x) y)) = blen (fr_left (frame_of mv x y))).
        { unfold frame_of. cbn [fr_left]. rewrite !blen_app, (Sh x GTx). reflexivity. }
        f_equal.
        * f_equal. f_equal. cbn [width]. rewrite Lf. reflexivity.
        * rewrite Lf. reflexivity.
  Qed.
End LSites.

(** * Writing *)

(** The file after writing to its last movie atom. *)
Definition llast (items : list atom_data) (ft : atom) (pre : list atom) (mv : atom) (post : list atom) : list atom :=
  (ft :: pre) ++ last_moov items (match named_kids (id4 "mdat") post with [] => 0%Z | _ => last_growth items mv end) mv :: post.

Theorem write_llast : forall cap fuel m items ft s pre mv post,
  a_id ft = id4 "ftyp" -> wf_ustr s = true -> a_content ft = enc8 s ->
  a_id mv = id4 "moov" -> Forall plain_moov (named_kids (id4 "moov") pre) -> named_kids (id4 "moov") post = [] -> plain_moov mv ->
  good_sizes (ft :: pre ++ mv :: post) -> sound_moov mv ->
  exact_items items -> good_sizes (llast items ft pre mv post) -> blen (render_all (ft :: pre ++ mv :: post)) < N.of_nat fuel ->
  exists ops, write_tag cap fuel m items (render_all (ft :: pre ++ mv :: post)) = WResult (Ok tt) (render_all (llast items ft pre mv post)) ops /\
    run_ops ops (render_all (ft :: pre ++ mv :: post)) = render_all (llast items ft pre mv post) /\ Forall (op_ge (blen (render_all (ft :: pre)))) ops.
Proof.
  intros cap fuel m items ft s pre mv post I Ws C J N1 N2 P G GM Ex G' Fu.
  destruct (scan_finds_last fuel m ft s pre mv post G Fu I Ws C J N1 N2 P) as (q & Sc). unfold llast in *.
  set (d := match named_kids (id4 "mdat") post with [] => 0%Z | _ => last_growth items mv end) in *.
  set (A := render_all (ft :: pre)) in *. set (T := render_all post).
  assert (Ef : render_all (ft :: pre ++ mv :: post) = A ++ render mv ++ T).
  { change (ft :: pre ++ mv :: post) with ((ft :: pre) ++ mv :: post). rewrite render_all_app, render_all_cons. reflexivity. }
  assert (Ef' : render_all ((ft :: pre) ++ last_moov items d mv :: post) = A ++ render (last_moov items d mv) ++ T).
  { rewrite render_all_app, render_all_cons. reflexivity. }
  destruct G as [F1 Sm]. destruct G' as [F1' Sm'].
  rewrite Ef in *. rewrite Ef' in *.
  assert (Fm : fits (last_moov items d mv) = true).
  { rewrite forallb_forall in F1'. apply F1'. apply in_or_app. right. left. reflexivity. }
  assert (Gr : (last_growth items mv = Z.of_N (asize (last_moov items d mv)) - Z.of_N (asize mv))%Z).
  { unfold last_growth. rewrite (last_moov_size items d 0 mv GM). reflexivity. }
  assert (Gb : (- 2 ^ 62 < last_growth items mv < 2 ^ 62)%Z).
  { rewrite Gr. rewrite !blen_app in Sm, Sm'. fold (asize mv) in Sm. fold (asize (last_moov items d mv)) in Sm'. lia. }
  assert (Db : (- 2 ^ 62 < d < 2 ^ 62)%Z) by (unfold d; destruct (named_kids (id4 "mdat") post); [lia|exact Gb]).
  assert (Sp : blen A + asize mv < 2 ^ 62) by (rewrite !blen_app in Sm; fold (asize mv) in Sm; lia).
  destruct (moov_lsite m items Ex (blen A) d mv GM Sp Fm Db)
    as (fs & fsd & old & nw & new & r & tail & R1 & R2 & R3 & R4 & R5 & R6 & R7 & R8 & R9 & R10 & R11).
  assert (W0 : width fs (blen old) = asize mv) by (unfold asize; rewrite R1, blen_framed; reflexivity).
  assert (Wd : width fsd (blen old) = asize mv) by (rewrite <- W0, !width_eq, R6, R7; reflexivity).
  assert (Wn : width fsd (blen nw) = asize (last_moov items d mv)).
  { unfold asize. rewrite R4, <- R6. change (prefix fsd (blen nw) ++ nw ++ suffix fsd) with (framed fsd nw). symmetry. apply blen_framed. }
  assert (Df : (last_growth items mv = Z.of_N (blen nw) - Z.of_N (blen old))%Z).
  { rewrite Gr, <- Wn, <- Wd, !width_eq, (blen_prefix fsd (blen nw) (blen old)). lia. }
  assert (L0 : blen A + blen (prefix fs (blen old)) + blen old <= blen (A ++ render mv ++ T)).
  { rewrite R1. unfold framed. rewrite !blen_app. lia. }
  assert (Ln : new_atoms_len new < 2 ^ 62).
  { rewrite R9. rewrite R4, !blen_app in Sm'. lia. }
  destruct (prepare_ok fuel m items _ _ _ q _ _ new r Sc R10 L0 Sm Ln) as (q' & Pr).
  assert (Mv : skipn (N.to_nat (blen A + blen (prefix fs (blen old)) + blen old)) (A ++ render mv ++ T) = suffix fs ++ T).
  { replace (A ++ render mv ++ T) with ((A ++ prefix fs (blen old) ++ old) ++ suffix fs ++ T).
    - apply skipn_app_at. rewrite !blen_app. lia.
    - rewrite R1. unfold framed. rewrite <- !app_assoc. reflexivity. }
  rewrite Mv, R9, <- Df in Pr. unfold write_tag, write_tag_to. rewrite Pr.
  assert (Run : tri (file_is (A ++ render mv ++ T) (blen A) (A ++ render mv ++ T))
    (execute cap m (Plan (moov_at (blen A) mv) (mdat_pos (ft :: pre ++ mv :: post)) (blen A + blen (prefix fs (blen old)))
       (blen A + blen (prefix fs (blen old)) + blen old) (last_growth items mv) r new (blen (A ++ render mv ++ T)) (suffix fs ++ T))) tt
    (file_is (A ++ render mv ++ T) (blen A) (A ++ render (last_moov items d mv) ++ T))).
  { unfold execute. cbn [pl_moov pl_mdat_pos pl_start pl_moved_start pl_diff pl_update pl_new pl_old_len pl_moved].
    eapply tri_bind.
    { change (b_pos (vb_bounds (moov_at (blen A) mv))) with (blen A). pose proof (mdat_behind ft pre mv post J) as MB. fold A in MB. rewrite MB.
      instantiate (1 := file_is (A ++ render mv ++ T) (blen A) (A ++ render (with_kids mv (move_traks d (a_kids mv))) ++ T)).
      pose proof GM as GT. unfold sound_moov in GT. unfold d. destruct (named_kids (id4 "mdat") post).
      - rewrite move_traks_0 by exact GT. rewrite with_same. apply tri_ret.
      - rewrite render_with_kids by (apply move_traks_size; exact GT).
        assert (Q : forall X, (A ++ header (a_ext mv) (a_id mv) (csize mv) ++ a_pre mv) ++ X ++ T =
          A ++ (header (a_ext mv) (a_id mv) (csize mv) ++ a_pre mv ++ X) ++ T) by (intro; rewrite <- !app_assoc; reflexivity).
        destruct (traks_last (A ++ render mv ++ T) (blen A) cap m (last_growth items mv) Gb (a_kids mv) (kids_pos (blen A) mv)
          (A ++ header (a_ext mv) (a_id mv) (csize mv) ++ a_pre mv) T GT) as [X _].
        + rewrite !blen_app, blen_header. unfold kids_pos, hlen. lia.
        + unfold kids_pos. lia.
        + rewrite Q, <- render_kids. exact Sm.
        + rewrite !Q, <- render_kids in X. exact X. }
    rewrite R2, <- R11.
    replace (blen A + blen (prefix fs (blen old))) with (blen (A ++ prefix fsd (blen nw))) by (rewrite blen_app, (blen_prefix fsd (blen nw) (blen old)), R7; reflexivity).
    assert (Sm2 : blen (A ++ prefix fsd (blen old) ++ old ++ tail ++ T) < 2 ^ 62).
    { rewrite !blen_app in *. rewrite R1 in Sm. unfold framed in Sm. rewrite !blen_app in Sm. lia. }
    eapply tri_bind.
    { eapply tri_weaken; [apply (tri_updates (A ++ render mv ++ T) (blen A) cap m (last_growth items mv) fsd
        (blen (A ++ prefix fsd (blen old) ++ old ++ tail ++ T)) (blen old) (blen nw) A (old ++ tail ++ T))| |].
      - lia.
      - lia.
      - exact R5.
      - exact Sm2.
      - lia.
      - rewrite Wn. rewrite !blen_app in Sm'. fold (asize (last_moov items d mv)) in Sm'. lia.
      - intros ->. cbn [updates] in R11. subst r. destruct R10 as [(_ & _ & _ & _ & X)|(u & r & _ & _ & X)]; discriminate X.
      - intros t H. apply file_log in H. rewrite <- !app_assoc in H. exact H.
      - intros t H. exact H. }
    eapply tri_weaken; [eapply (tri_finish (A ++ render mv ++ T) (blen A) cap m (last_growth items mv) (A ++ prefix fsd (blen nw)) old (suffix fs ++ T) (tail ++ T) nw new
       (blen A + blen (prefix fsd (blen old))) (blen (A ++ render mv ++ T)))| |].
    - rewrite blen_app. lia.
    - rewrite blen_app, (blen_prefix fsd (blen nw) (blen old)). lia.
    - rewrite !blen_app, R3. reflexivity.
    - exact R8.
    - exact Df.
    - rewrite R1. unfold framed. rewrite !blen_app, (blen_prefix fsd (blen nw) (blen old)), R7. lia.
    - rewrite !blen_app, (blen_prefix fsd (blen nw) (blen old)), R7. rewrite R1 in Sm. unfold framed in Sm. rewrite !blen_app in Sm. lia.
    - rewrite R4, !blen_app in Sm'. rewrite !blen_app. lia.
    - intros t H. rewrite <- !app_assoc. exact H.
    - intros t H. rewrite R4. rewrite <- !app_assoc. rewrite <- !app_assoc in H. exact H. }
  assert (St : file_is (A ++ render mv ++ T) (blen A) (A ++ render mv ++ T) (Wst (A ++ render mv ++ T) 0 [] [])).
  { exists [], (A ++ render mv ++ T). split; [apply st_init|reflexivity]. }
  destruct (Run _ St) as (s1 & E1 & (x & y & H1 & X)). rewrite E1. destruct H1 as [H1 B1].
  destruct (tri_flush _ _ x y s1 H1) as (s2 & E2 & H2). rewrite E2.
  pose proof (stf_file _ _ _ _ _ H2) as Fl. rewrite X in Fl. destruct H2 as [(_ & O & Op & _) _].
  exists (w_ops s2). rewrite Fl in *. split; [reflexivity|]. split; [exact O|exact Op].
Qed.

