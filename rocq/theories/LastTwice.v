(** Writing twice when containers occur several times. *)

From Coq Require Import List NArith ZArith Bool Lia Arith String.
From Coq Require Import ZifyBool ZifyNat ZifyN.
From Verif Require Import Base BaseLemmas Utf UtfLemmas Types Stream Parse Find Write TagSpec FileSpec ParseLemmas ReadProofs ReadSpec ReadFacts
  NewMeans WriteBytes ScanProofs AdjustProofs WriteProofs WriteMain UpdateMeans UpdateTwice OffsetProofs RepairSpec LastSpec LastProofs LastWrite LastMeans.
Import ListNotations.
Local Open Scope list_scope.

Lemma map_last_comp : forall id g h k ks, (forall c, a_id (h c) = a_id c) -> (forall x c y, ks = x ++ c :: y -> a_id c = id -> named_kids id y = [] -> g (h c) = k c) ->
  map_last id g (map_last id h ks) = map_last id k ks.
Proof.
  intros id g h k ks Hi H. destruct (last_cases id ks) as [N|(x & c & y & -> & I & N)]; [rewrite (map_last_none id h), !map_last_none by exact N; reflexivity|].
  rewrite (map_last_at id h) by assumption. rewrite map_last_at by (rewrite ?Hi; assumption). rewrite map_last_at by assumption. rewrite (H x c y eq_refl I N). reflexivity.
Qed.
Lemma last_kid_comp : forall id g h k a, (forall c, a_id (h c) = a_id c) -> of_last id (fun c => g (h c) = k c) a -> last_kid id g (last_kid id h a) = last_kid id k a.
Proof.
  intros id g h k a Hi H. unfold last_kid, with_kids. cbn [a_ext a_id a_pre a_kids]. f_equal. apply map_last_comp; [exact Hi|].
  intros x c y E I N. exact (of_last_at _ _ _ _ _ _ H E I N).
Qed.
Lemma map_last_swap : forall i1 i2 g h ks, i1 <> i2 -> (forall c, a_id (g c) = a_id c) -> (forall c, a_id (h c) = a_id c) ->
  map_last i1 g (map_last i2 h ks) = map_last i2 h (map_last i1 g ks).
Proof.
  intros i1 i2 g h ks D G H.
  destruct (last_cases i2 ks) as [N2|(x & c & y & -> & I & N)].
  - rewrite (map_last_none i2 h ks), (map_last_none i2 h (map_last i1 g ks)); [reflexivity|rewrite named_last_other by auto; exact N2|exact N2].
  - destruct (last_cases i1 (x ++ c :: y)) as [N1|(z & u & w & E & J & M)].
    + rewrite (map_last_none i1 g (x ++ c :: y)) by exact N1. apply map_last_none. rewrite named_last_other by auto. exact N1.
    + assert (Nw : named_kids i1 (x ++ c :: y) = named_kids i1 z ++ [u]) by (rewrite E; apply named_end; assumption).
      apply app_split in E. destruct E as [(-> & -> & ->)|[(v & -> & ->)|(v & -> & ->)]].
      * congruence.
      * rewrite (map_last_at i2 h) by assumption. replace (x ++ h c :: v ++ u :: w) with ((x ++ h c :: v) ++ u :: w) by (rewrite <- app_assoc; reflexivity).
        rewrite map_last_at by assumption. replace (x ++ c :: v ++ u :: w) with ((x ++ c :: v) ++ u :: w) by (rewrite <- app_assoc; reflexivity).
        rewrite map_last_at by assumption. rewrite <- !app_assoc. cbn [app]. rewrite map_last_at; [reflexivity|exact I|].
        rewrite named_two in N. destruct N as [N1 N2]. rewrite named_other in N2 by congruence. rewrite named_two, named_other by (rewrite G; congruence). split; assumption.
      * rewrite (map_last_at i2 h) by assumption. rewrite <- !app_assoc. cbn [app].
        rewrite named_two in M. destruct M as [M1 M2]. rewrite named_other in M2 by congruence.
        rewrite map_last_at; [|exact J|rewrite named_two, named_other by (rewrite H; congruence); split; assumption].
        rewrite map_last_at; [|exact J|rewrite named_two, named_other by congruence; split; assumption].
        replace (z ++ g u :: v ++ c :: y) with ((z ++ g u :: v) ++ c :: y) by (rewrite <- app_assoc; reflexivity). rewrite map_last_at by assumption. rewrite <- app_assoc. reflexivity.
Qed.
Lemma last_kid_swap : forall i1 i2 g h a, i1 <> i2 -> (forall c, a_id (g c) = a_id c) -> (forall c, a_id (h c) = a_id c) ->
  last_kid i1 g (last_kid i2 h a) = last_kid i2 h (last_kid i1 g a).
Proof. intros i1 i2 g h a D G H. unfold last_kid, with_kids. cbn [a_ext a_id a_pre a_kids]. f_equal. apply map_last_swap; assumption. Qed.

Lemma move_stbl_add : forall d e k, sound_stbl k -> move_stbl e (move_stbl d k) = move_stbl (d + e) k.
Proof.
  intros d e k [T1 T2]. unfold move_stbl. rewrite (last_kid_swap (id4 "stco") (id4 "co64")) by (discriminate || reflexivity).
  rewrite (last_kid_comp (id4 "stco") _ _ (shift_table 4 (d + e))); [|reflexivity|].
  - apply last_kid_comp; [reflexivity|]. apply of_last_named. unfold last_kid, with_kids. cbn [a_kids]. rewrite named_last_other by (discriminate || reflexivity).
    intros l c E. apply shift_table_add; [lia|]. exact (proj1 (of_last_named _ _ k) T2 l c E).
  - eapply of_last_impl; [exact T1|]. intros c T. apply shift_table_add; [lia|exact T].
Qed.
Lemma move_trak_add : forall d e k, sound_trak k -> move_trak e (move_trak d k) = move_trak (d + e) k.
Proof.
  intros d e k G. unfold move_trak. apply last_kid_comp; [reflexivity|]. eapply of_last_impl; [exact G|]. intros c Gc.
  apply last_kid_comp; [reflexivity|]. eapply of_last_impl; [exact Gc|]. intros c2 G2. apply last_kid_comp; [reflexivity|]. eapply of_last_impl; [exact G2|]. intros c3 G3. apply move_stbl_add, G3.
Qed.
Lemma move_traks_add : forall d e ks, Forall sound_trak (named_kids (id4 "trak") ks) -> move_traks e (move_traks d ks) = move_traks (d + e) ks.
Proof. intros d e ks G. apply map_kids_comp; [reflexivity|]. intros c I E. apply move_trak_add. exact (named_in _ _ _ c G I E). Qed.

Lemma last_new_meta : forall a b, same_heads a b -> last_meta b (FileSpec.new_meta a) = FileSpec.new_meta b.
Proof. intros a b [H _]. change (last_meta b (FileSpec.new_meta a)) with (Atom (a_ext (FileSpec.new_meta a)) (id4 "meta") (zeros 4) [new_hdlr; new_ilst b]). rewrite H. reflexivity. Qed.
Lemma last_new_udta : forall a b, same_heads a b -> last_udta b (FileSpec.new_udta a) = FileSpec.new_udta b.
Proof.
  intros a b H. change (last_udta b (FileSpec.new_udta a)) with (Atom (a_ext (FileSpec.new_udta a)) (id4 "udta") [] [last_meta b (FileSpec.new_meta a)]).
  rewrite last_new_meta by exact H. rewrite (proj2 H). reflexivity.
Qed.
Lemma last_meta_twice : forall a b me, last_meta b (last_meta a me) = last_meta b me.
Proof.
  intros a b me.
  assert (R : forall x y, named_kids (id4 "ilst") y = [] -> named_kids (id4 "hdlr") (x ++ y) = named_kids (id4 "hdlr") (a_kids me) ->
    last_meta b (with_kids me (x ++ missing_hdlr me ++ [new_ilst a] ++ y)) = with_kids me (x ++ missing_hdlr me ++ [new_ilst b] ++ y)).
  { intros x y Ny Nh. unfold last_meta. change (a_kids (with_kids me (x ++ missing_hdlr me ++ [new_ilst a] ++ y))) with (x ++ missing_hdlr me ++ new_ilst a :: y).
    rewrite app_assoc, split_last_at by (reflexivity || exact Ny).
    assert (M : missing_hdlr (with_kids me (x ++ missing_hdlr me ++ [new_ilst a] ++ y)) = []).
    { unfold missing_hdlr at 1. unfold with_kids. cbn [a_kids].
      assert (N : named_kids (id4 "hdlr") (x ++ missing_hdlr me ++ [new_ilst a] ++ y) <> []).
      { rewrite named_app in Nh. unfold missing_hdlr. destruct (named_kids (id4 "hdlr") (a_kids me)) eqn:E.
        - rewrite !named_app. intro X. apply app_eq_nil in X. destruct X as [_ X]. apply app_eq_nil in X. destruct X as [X _]. discriminate X.
        - cbn [app]. rewrite named_app, named_other by discriminate. rewrite Nh. discriminate. }
      destruct (named_kids (id4 "hdlr") (x ++ missing_hdlr me ++ [new_ilst a] ++ y)); [contradiction|reflexivity]. }
    rewrite M. unfold with_kids. cbn [a_ext a_id a_pre app]. rewrite <- app_assoc. reflexivity. }
  destruct (last_cases (id4 "ilst") (a_kids me)) as [N|(x & c & y & E & I & N)].
  - assert (Ea : forall z, last_meta z me = with_kids me (a_kids me ++ missing_hdlr me ++ [new_ilst z] ++ [])).
    { intro z. unfold last_meta. rewrite (proj2 (split_last_none _ _) N), app_nil_r. reflexivity. }
    rewrite !Ea. apply R; [reflexivity|rewrite app_nil_r; reflexivity].
  - assert (Ea : forall z, last_meta z me = with_kids me (x ++ missing_hdlr me ++ [new_ilst z] ++ y)).
    { intro z. unfold last_meta. rewrite E, split_last_at by assumption. reflexivity. }
    rewrite !Ea. apply R; [exact N|]. rewrite E, !named_app, named_other by (rewrite I; discriminate). reflexivity.
Qed.
Lemma last_udta_twice : forall a b u, same_heads a b -> last_udta b (last_udta a u) = last_udta b u.
Proof.
  intros a b u H. destruct (last_cases (id4 "meta") (a_kids u)) as [N|(x & c & y & E & I & N)].
  - assert (Ea : forall z, last_udta z u = with_kids u (a_kids u ++ [FileSpec.new_meta z])).
    { intro z. unfold last_udta. rewrite (proj2 (split_last_none _ _) N). reflexivity. }
    rewrite !Ea. unfold last_udta. change (a_kids (with_kids u (a_kids u ++ [FileSpec.new_meta a]))) with (a_kids u ++ FileSpec.new_meta a :: []).
    rewrite split_last_at by reflexivity. rewrite last_new_meta by exact H. reflexivity.
  - assert (Ea : forall z, last_udta z u = with_kids u (x ++ last_meta z c :: y)).
    { intro z. unfold last_udta. rewrite E, split_last_at by assumption. reflexivity. }
    rewrite !Ea. unfold last_udta. change (a_kids (with_kids u (x ++ last_meta a c :: y))) with (x ++ last_meta a c :: y).
    rewrite split_last_at by (rewrite ?last_meta_id; assumption). rewrite last_meta_twice. reflexivity.
Qed.
Lemma last_moov_twice : forall a b d e mv, same_heads a b -> sound_moov mv -> last_moov b e (last_moov a d mv) = last_moov b (d + e) mv.
Proof.
  intros a b d e mv H GT. unfold sound_moov in GT. destruct (last_cases (id4 "udta") (a_kids mv)) as [N|(x & c & y & E & I & N)].
  - assert (Ea : forall z w, last_moov z w mv = with_kids mv (move_traks w (a_kids mv) ++ [FileSpec.new_udta z])).
    { intros z w. unfold last_moov. rewrite (proj2 (split_last_none _ _) N). reflexivity. }
    rewrite !Ea. unfold last_moov. change (a_kids (with_kids mv (move_traks d (a_kids mv) ++ [FileSpec.new_udta a]))) with (move_traks d (a_kids mv) ++ FileSpec.new_udta a :: []).
    rewrite split_last_at by reflexivity. rewrite last_new_udta, move_traks_add by assumption. reflexivity.
  - assert (Ea : forall z w, last_moov z w mv = with_kids mv (move_traks w x ++ last_udta z c :: y)).
    { intros z w. unfold last_moov. rewrite E, split_last_at by assumption. reflexivity. }
    assert (Gx : Forall sound_trak (named_kids (id4 "trak") x)) by (rewrite E in GT; apply good_sub in GT; apply GT).
    rewrite !Ea. unfold last_moov. change (a_kids (with_kids mv (move_traks d x ++ last_udta a c :: y))) with (move_traks d x ++ last_udta a c :: y).
    rewrite split_last_at by (rewrite ?last_udta_id; assumption). rewrite last_udta_twice, move_traks_add by assumption. reflexivity.
Qed.
Theorem last_twice : forall a b f, same_heads a b -> outline f -> sound_tables f -> last_file b (last_file a f) = last_file b f.
Proof.
  intros a b f H O S. destruct (outline_parts f O) as (ft & s & pre & mv & post & -> & I & W & C & J & N1 & N2 & P). pose proof (sound_at _ _ _ _ J N2 S) as G.
  rewrite (last_at a ft pre mv post J N2), (last_at b ft pre mv post J N2). unfold llast. cbn [app]. rewrite last_at by (rewrite ?last_moov_id; assumption). unfold llast.
  rewrite last_moov_twice by assumption. apply (f_equal (fun z => (ft :: pre) ++ last_moov b z mv :: post)).
  destruct (named_kids (id4 "mdat") post); [reflexivity|]. unfold last_growth at 2. rewrite last_moov_twice by assumption.
  unfold last_growth. fold (asize (last_moov a 0 mv)). fold (asize (last_moov b 0 mv)). fold (asize mv).
  set (g := (Z.of_N (asize (last_moov a 0 mv)) - Z.of_N (asize mv))%Z).
  fold (asize (last_moov b (g + 0) mv)). fold (asize (last_moov a g mv)).
  rewrite (last_moov_size b (g + 0) 0 mv G), (last_moov_size a g 0 mv G). unfold g. lia.
Qed.
