(** The media data when items with UTF-16 text are written, and what is read then. *)

From Coq Require Import List NArith ZArith Bool Lia Arith String.
From Coq Require Import ZifyBool ZifyNat ZifyN.
From Verif Require Import Base BaseLemmas Utf UtfLemmas Types Stream Parse Find Write TagSpec FileSpec ParseLemmas ReadSpec ReadFacts ScanProofs UpdateMeans UpdateTwice AdjustProofs WriteProofs WriteMain
  EditSpec EditProofs OffsetProofs RepairSpec RepairProofs SpillSpec SpillPlace.
Import ListNotations.
Local Open Scope list_scope.

(** * Chunks *)

(** As [chunks_update], for a movie that differs from the updated one in nothing but what is of the same size. *)
Theorem chunks_like : forall items ft pre mv post M,
  let d := match named_kids (id4 "mdat") post with [] => 0%Z | _ => growth items mv end in
  a_id ft = id4 "ftyp" -> a_id mv = id4 "moov" -> named_kids (id4 "moov") (pre ++ post) = [] ->
  editable (ft :: pre ++ mv :: post) -> in_reach items (ft :: pre ++ mv :: post) -> one_sided (ft :: pre ++ mv :: post) -> tracks_first (ft :: pre ++ mv :: post) ->
  a_id M = id4 "moov" -> moov_tables M = moov_tables (update_moov items d mv) -> asize M = asize (update_moov items d mv) ->
  chunks_kept (ft :: pre ++ mv :: post) (ft :: pre ++ M :: post).
Proof.
  intros items ft pre mv post M d I J N E R S T JM TM SM.  pose proof (editable_moov _ _ _ _ J E) as G.
  pose proof (front_in_range items ft pre mv post I J N G R) as FR. fold d in FR.
  assert (Bk : kid_tables (back_kids mv) = []).
  { unfold back_kids. destruct (split_on (id4 "udta") (a_kids mv)) as [[[x u] y]|] eqn:Sp; [|reflexivity]. apply split_on_some in Sp. destruct Sp as (Sp & Iu & _).
    unfold kid_tables. rewrite (T mv x u y); [reflexivity| |exact J|exact Sp|exact Iu]. right. apply in_or_app. right. left. reflexivity. }
  intros i j o n (tb & Hi & Hj) (x & md & y & Ed & Im & Lo & Hi2).
  change (ft :: pre ++ mv :: post) with ((ft :: pre) ++ mv :: post) in *. change (ft :: pre ++ M :: post) with ((ft :: pre) ++ M :: post).
  rewrite file_tables_at in Hi by assumption.
  assert (Hi' : nth_error (file_tables ((ft :: pre) ++ M :: post)) i = Some (shift_pair d tb)).
  { rewrite file_tables_at by assumption. rewrite TM, update_moov_tables, Bk, app_nil_r. apply map_nth_error.
    rewrite moov_tables_parts, Bk, app_nil_r in Hi. exact Hi. }
  assert (Ok : table_ok tb).
  { pose proof (kid_tables_ok (a_kids mv) (proj1 G)) as K. rewrite Forall_forall in K. apply K. apply nth_error_In in Hi. exact Hi. }
  assert (Ir : in_range d tb) by (rewrite Forall_forall in FR; apply FR; apply nth_error_In in Hi; exact Hi).
  exists (Z.to_N (Z.of_N o + d)). split.
  - exists (shift_pair d tb). split; [exact Hi'|]. destruct tb as [w a]. unfold shift_pair. cbn [fst snd]. rewrite offsets_shift by apply Ok.
    erewrite map_nth_error by exact Hj. f_equal. apply shift_entry_in. unfold in_range in Ir. rewrite Forall_forall in Ir. apply (Ir o). apply nth_error_In in Hj. exact Hj.
  - specialize (S (ft :: pre) mv post eq_refl J).
    assert (Md : named_kids (id4 "mdat") [md] = [md]) by (rewrite named_this by exact Im; reflexivity).
    apply app_split in Ed. destruct Ed as [(_ & X & _)|[(z & -> & ->)|(z & Ex & ->)]].
    + subst md. rewrite J in Im. discriminate Im.
    + (* behind the movie *)
      assert (Np : named_kids (id4 "mdat") (z ++ md :: y) <> []).
      { rewrite named_app, named_this by exact Im. intro X. apply app_eq_nil in X. destruct X as [_ X]. discriminate X. }
      assert (Ed : d = growth items mv) by (unfold d; destruct (named_kids (id4 "mdat") (z ++ md :: y)); [contradiction|reflexivity]).
      rewrite !render_all_app, !render_all_cons in *. rewrite !blen_app in *.
      set (A := render ft ++ render_all pre) in *. set (P := render_all (z ++ md :: y)) in *.
      assert (Gr : (d = Z.of_N (blen (render M)) - Z.of_N (blen (render mv)))%Z).
      { rewrite Ed at 1. unfold growth. fold (asize (update_moov items 0 mv)). rewrite (update_moov_size items 0 d mv G). unfold asize in SM |- *. rewrite <- SM. reflexivity. }
      assert (LA : blen A = blen (render ft) + blen (render_all pre)) by (unfold A; apply blen_app). rewrite !(app_assoc A). rewrite !slice_app_r by (rewrite blen_app; lia). f_equal. rewrite !blen_app. lia.
    + (* in front of it *)
      assert (Np : named_kids (id4 "mdat") (ft :: pre) <> []).
      { rewrite Ex, named_app, named_this by exact Im. intro X. apply app_eq_nil in X. destruct X as [_ X]. discriminate X. }
      destruct S as [S|S]; [contradiction|]. assert (Ed : d = 0%Z) by (unfold d; rewrite S; reflexivity).
      assert (L : o + n <= blen (render_all (x ++ md :: z))).
      { rewrite !render_all_app, !render_all_cons, !blen_app in *. change (blen (render_all [])) with 0 in Hi2. lia. }
      rewrite Ex. rewrite !(render_all_app (x ++ md :: z)). rewrite Ed, Z.add_0_r, N2Z.id. rewrite !slice_app_l by exact L. reflexivity.
Qed.

Lemma relist_tables : forall c a a', moov_tables (relist_moov c a) = moov_tables (relist_moov c a').
Proof. intros c a a'. unfold moov_tables, under. cbn [relist_moov a_kids]. rewrite !named_app, !named_other by discriminate. reflexivity. Qed.

Lemma chunks_cut : forall f s mv items c a, shell f s mv -> editable f -> update_file items f = relist c (new_ilst items) -> asize a = asize (new_ilst items) ->
  in_reach items f -> one_sided f -> tracks_first f -> chunks_kept f (relist c a).
Proof.
  intros f s mv items c a (ft & pre & post & -> & I & _ & _ & J & N & _) E L Sa R O T. rewrite (update_at items ft pre mv post I J N) in L.
  cbn [app] in L. symmetry in L. destruct (relist_parts c (new_ilst items) ft pre _ post L N) as (-> & -> & Em & ->). unfold relist.
  apply (chunks_like items (at_ft c) (at_pre c) mv (at_post c) (relist_moov c a)); try assumption; [reflexivity| |]; rewrite Em; [apply relist_tables|apply relist_size, Sa].
Qed.

(** * A file that has been written can be written again *)

Lemma shell_update_editable : forall items f s mv, shell f s mv -> editable f -> in_reach items f -> editable (update_file items f).
Proof.
  intros items f s mv (ft & pre & post & -> & I & _ & _ & J & N & _) E R. pose proof (editable_moov _ _ _ _ J E) as G.
  pose proof (front_in_range items ft pre mv post I J N G R) as FR. rewrite moov_tables_parts in FR. apply Forall_app in FR. destruct FR as [FR _].
  rewrite (update_at items ft pre mv post I J N). unfold editable. cbn [app]. rewrite named_other by (rewrite I; discriminate).
  apply named_two in N. destruct N as [N1 N2]. rewrite named_app, N1, named_this by (rewrite update_moov_id; exact J). rewrite N2. cbn [app].
  constructor; [|constructor]. apply good_moov_update; assumption.
Qed.

Lemma bare_child : forall id h (P : atom -> Prop) a, (forall k, a_id (h k) = a_id k) -> (forall k, P k -> P (h k)) -> bare id P a -> bare id P (map_child id h a).
Proof.
  intros id h P a Hi Hp [B F]. split; [exact B|]. unfold map_child, with_kids. cbn [a_kids]. rewrite named_map_same by exact Hi. induction F; constructor; auto.
Qed.
Lemma bare_shift : forall d a, bare_trak a -> bare_trak (shift_trak d a).
Proof.
  intros d a. apply bare_child; [reflexivity|]. intros b. apply bare_child; [reflexivity|]. intros e. apply bare_child; [reflexivity|]. intros k X. exact X.
Qed.
Lemma bare_update : forall items u, bare_udta u -> bare_udta (update_udta items u).
Proof.
  intros items u [B F]. unfold update_udta. destruct (split_on (id4 "meta") (a_kids u)) as [[[x e] y]|] eqn:E.
  - apply split_on_some in E. destruct E as (E & I & Nx). split; [exact B|]. unfold with_kids. cbn [a_kids]. rewrite E in F. rewrite named_app, named_this in F by exact I. apply Forall_app in F. destruct F as [F1 F2].
    inversion F2 as [|? ? V F3]; subst. rewrite named_app, named_this by (unfold update_meta; destruct (split_on _ _) as [[[? ?] ?]|]; exact I). apply Forall_app. split; [exact F1|]. constructor; [|exact F3].
    unfold update_meta. destruct (split_on _ _) as [[[? ?] ?]|]; exact V.
  - split; [exact B|]. unfold with_kids. cbn [a_kids]. rewrite named_app. apply Forall_app. split; [exact F|]. cbn. constructor; [|constructor]. exists (zeros 3). split; reflexivity.
Qed.
Lemma shell_update : forall items f s mv, shell f s mv -> exists mv', shell (update_file items f) s mv'.
Proof.
  intros items f s mv (ft & pre & post & -> & I & Us & Cf & J & N & P & T & U). rewrite (update_at items ft pre mv post I J N).
  set (d := match named_kids (id4 "mdat") post with [] => 0%Z | _ => growth items mv end). clearbody d.
  exists (update_moov items d mv), ft, pre, post. split; [reflexivity|]. do 3 (split; [assumption|]). split; [rewrite update_moov_id; exact J|]. split; [exact N|].
  assert (Sh : forall l, Forall bare_trak (named_kids (id4 "trak") l) -> Forall bare_trak (named_kids (id4 "trak") (shift_traks d l))).
  { intros l F. unfold shift_traks. rewrite named_map_same by reflexivity. induction F; constructor; auto using bare_shift. }
  assert (Su : forall l, named_kids (id4 "udta") (shift_traks d l) = named_kids (id4 "udta") l) by (intros l; unfold shift_traks; apply named_map_other; [discriminate|reflexivity]).
  unfold update_moov. destruct (split_on (id4 "udta") (a_kids mv)) as [[[x u] y]|] eqn:E; unfold with_kids; cbn [a_pre a_kids]; (split; [exact P|]).
  - apply split_on_some in E. destruct E as (E & Iu & Nx). rewrite E in T, U. rewrite named_app, named_other in T by (rewrite Iu; discriminate). rewrite named_app, named_this in U by exact Iu.
    apply Forall_app in T, U. destruct T as [T1 T2], U as [U1 U2]. inversion U2 as [|? ? Bu U3]; subst. split.
    + rewrite named_app, named_other by (rewrite update_udta_id, Iu; discriminate). apply Forall_app. split; [apply Sh, T1|exact T2].
    + rewrite named_app, Su, named_this by (rewrite update_udta_id; exact Iu). apply Forall_app. split; [exact U1|]. constructor; [apply bare_update, Bu|exact U3].
  - split.
    + rewrite named_app. apply Forall_app. split; [apply Sh, T|constructor].
    + rewrite named_app, Su. apply Forall_app. split; [exact U|]. cbn. constructor; [|constructor]. split; [reflexivity|]. cbn. constructor; [|constructor]. exists (zeros 3). split; reflexivity.
Qed.
