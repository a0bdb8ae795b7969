(** The tables that count, before and after writing. *)

From Coq Require Import List NArith ZArith Bool Lia Arith String.
From Coq Require Import ZifyBool ZifyNat ZifyN.
From Verif Require Import Base BaseLemmas Utf UtfLemmas Types TagSpec FileSpec ParseLemmas ReadSpec ReadProofs ReadFacts NewMeans
  ScanProofs AdjustProofs WriteProofs WriteMain UpdateMeans UpdateTwice EditSpec EditProofs OffsetProofs LastSpec LastProofs LastWrite LastMeans LastSize LiveSpec.
Import ListNotations.
Local Open Scope list_scope.

Lemma in_last_none : forall id g a, named_kids id (a_kids a) = [] -> in_last id g a = [].
Proof. intros id g a N. unfold in_last. rewrite N. reflexivity. Qed.
Lemma in_last_at : forall id g a x c y, a_kids a = x ++ c :: y -> a_id c = id -> named_kids id y = [] -> in_last id g a = g c.
Proof. intros id g a x c y E I N. unfold in_last. rewrite E, end_named by assumption. reflexivity. Qed.

(** * Tables that count are the ones that are changed *)

Lemma in_last_ok : forall id (P : atom -> Prop) g a, (forall c, P c <-> Forall table_ok (g c)) -> (of_last id P a <-> Forall table_ok (in_last id g a)).
Proof.
  intros id P g a H. destruct (last_cases id (a_kids a)) as [N|(x & c & y & E & I & N)].
  - rewrite in_last_none by exact N. unfold of_last. rewrite (proj2 (split_last_none _ _) N). split; intro; [constructor|exact Logic.I].
  - rewrite (in_last_at id g a x c y E I N). unfold of_last. rewrite E, split_last_at by assumption. apply H.
Qed.
Lemma one_table : forall w c, w = 4%nat \/ w = 8%nat -> (good_table w c <-> Forall table_ok [(w, c)]).
Proof.
  intros w c W. split.
  - intro H. constructor; [|constructor]. split; [cbn [fst]; lia|exact H].
  - intro F. inversion F as [|? ? [_ H] _]; subst. exact H.
Qed.
Lemma live_stbl_ok : forall a, sound_stbl a <-> Forall table_ok (live_stbl a).
Proof.
  intro a. unfold sound_stbl, live_stbl. rewrite Forall_app.
  rewrite (in_last_ok (id4 "stco") (good_table 4) (fun c => [(4%nat, c)]) a) by (intro; apply one_table; auto).
  rewrite (in_last_ok (id4 "co64") (good_table 8) (fun c => [(8%nat, c)]) a) by (intro; apply one_table; auto). reflexivity.
Qed.
Lemma live_trak_ok : forall a, sound_trak a <-> Forall table_ok (live_trak a).
Proof. intro a. apply in_last_ok. intro b. apply in_last_ok. intro c. apply in_last_ok. apply live_stbl_ok. Qed.
Lemma forall_flat : forall {A B} (P : B -> Prop) (g : A -> list B) l, Forall P (flat_map g l) <-> Forall (fun a => Forall P (g a)) l.
Proof. intros. apply Forall_flat_map. Qed.
Lemma live_kids_ok : forall ks, Forall sound_trak (named_kids (id4 "trak") ks) <-> Forall table_ok (flat_map live_trak (named_kids (id4 "trak") ks)).
Proof.
  intro ks. rewrite forall_flat. split; intro H; (eapply Forall_impl; [|exact H]); intros c; apply live_trak_ok.
Qed.
Lemma live_tables_at : forall x mv y, a_id mv = id4 "moov" -> named_kids (id4 "moov") y = [] -> live_tables (x ++ mv :: y) = live_moov mv.
Proof. intros x mv y J N. unfold live_tables. rewrite end_named by assumption. reflexivity. Qed.

(** Soundness of the tables, said with the tables. *)
Theorem sound_live : forall f, sound_tables f <-> Forall table_ok (live_tables f).
Proof.
  intro f. unfold sound_tables. destruct (last_cases (id4 "moov") f) as [N|(x & mv & y & -> & J & N)].
  - unfold live_tables. rewrite (proj2 (split_last_none _ _) N), N. split; intro; [constructor|exact Logic.I].
  - rewrite split_last_at, live_tables_at by assumption. apply live_kids_ok.
Qed.

(** * After writing *)

Lemma in_last_map : forall id g h p a, (forall c, a_id (h c) = a_id c) -> (forall c, g (h c) = map p (g c)) -> in_last id g (last_kid id h a) = map p (in_last id g a).
Proof.
  intros id g h p a Hi H. unfold last_kid. destruct (last_cases id (a_kids a)) as [N|(x & c & y & E & I & N)].
  - rewrite map_last_none, with_same by exact N. rewrite in_last_none by exact N. reflexivity.
  - rewrite E, map_last_at by assumption. rewrite (in_last_at id g (with_kids a (x ++ h c :: y)) x (h c) y), (in_last_at id g a x c y); try assumption; try reflexivity; [apply H|].
    rewrite Hi. exact I.
Qed.
Lemma in_last_other : forall id id' g h a, id <> id' -> (forall c, a_id (h c) = a_id c) -> in_last id g (last_kid id' h a) = in_last id g a.
Proof. intros id id' g h a D H. unfold in_last, last_kid, with_kids. cbn [a_kids]. rewrite named_last_other by assumption. reflexivity. Qed.
Lemma live_stbl_move : forall d a, live_stbl (move_stbl d a) = map (shift_pair d) (live_stbl a).
Proof.
  intros d a. unfold live_stbl, move_stbl. rewrite map_app. f_equal.
  - rewrite in_last_other by (discriminate || reflexivity). apply in_last_map; reflexivity.
  - rewrite (in_last_map (id4 "co64") _ _ (shift_pair d)) by reflexivity. rewrite in_last_other by (discriminate || reflexivity). reflexivity.
Qed.
Lemma live_trak_move : forall d a, live_trak (move_trak d a) = map (shift_pair d) (live_trak a).
Proof.
  intros d a. apply in_last_map; [reflexivity|]. intro b. apply in_last_map; [reflexivity|]. intro c. apply in_last_map; [reflexivity|]. apply live_stbl_move.
Qed.
Lemma live_kids_move : forall d ks, flat_map live_trak (named_kids (id4 "trak") (move_traks d ks)) = map (shift_pair d) (flat_map live_trak (named_kids (id4 "trak") ks)).
Proof.
  intros d ks. unfold move_traks. rewrite named_map_same by reflexivity. induction (named_kids (id4 "trak") ks) as [|c r IH]; [reflexivity|].
  cbn [map flat_map]. rewrite map_app, IH, live_trak_move. reflexivity.
Qed.

(** The children in front of and behind the last user data. *)
Definition fore (mv : atom) : list atom := match split_last (id4 "udta") (a_kids mv) with Some (x, _, _) => x | None => a_kids mv end.
Definition aft (mv : atom) : list atom := match split_last (id4 "udta") (a_kids mv) with Some (_, _, y) => y | None => [] end.
Lemma live_moov_parts : forall mv, live_moov mv = flat_map live_trak (named_kids (id4 "trak") (fore mv)) ++ flat_map live_trak (named_kids (id4 "trak") (aft mv)).
Proof.
  intro mv. unfold live_moov, fore, aft. destruct (split_last (id4 "udta") (a_kids mv)) as [[[x u] y]|] eqn:E; [|symmetry; apply app_nil_r].
  apply split_last_some in E. destruct E as (E & I & _). rewrite E, named_app, named_other, flat_map_app by (rewrite I; discriminate). reflexivity.
Qed.
Lemma live_moov_last : forall items d mv, live_moov (last_moov items d mv) =
  map (shift_pair d) (flat_map live_trak (named_kids (id4 "trak") (fore mv))) ++ flat_map live_trak (named_kids (id4 "trak") (aft mv)).
Proof.
  intros items d mv. unfold live_moov, last_moov, fore, aft. destruct (split_last (id4 "udta") (a_kids mv)) as [[[x u] y]|] eqn:E; unfold with_kids; cbn [a_kids].
  - apply split_last_some in E. destruct E as (E & I & _). rewrite named_app, named_other, flat_map_app, live_kids_move by (rewrite last_udta_id, I; discriminate). reflexivity.
  - rewrite named_app, flat_map_app, live_kids_move. reflexivity.
Qed.

(** By how much the offsets are changed. *)
Definition moved (items : list atom_data) (mv : atom) (post : list atom) : Z := match named_kids (id4 "mdat") post with [] => 0%Z | _ => last_growth items mv end.
Lemma moved_growth : forall items ft pre mv post, a_id mv = id4 "moov" -> named_kids (id4 "moov") post = [] -> sound_moov mv ->
  (Z.of_N (blen (render_all (last_file items (ft :: pre ++ mv :: post)))) - Z.of_N (blen (render_all (ft :: pre ++ mv :: post))))%Z = last_growth items mv.
Proof.
  intros items ft pre mv post J N G. rewrite (last_at items ft pre mv post J N). unfold llast. set (d := match named_kids (id4 "mdat") post with [] => 0%Z | _ => last_growth items mv end).
  change (ft :: pre ++ mv :: post) with ((ft :: pre) ++ mv :: post). rewrite !render_all_app, !render_all_cons, !blen_app. unfold last_growth.
  fold (asize (last_moov items d mv)) (asize (last_moov items 0 mv)). rewrite (last_moov_size items d 0 mv G). lia.
Qed.
Lemma moved_range : forall items ft pre mv post, a_id mv = id4 "moov" -> named_kids (id4 "moov") post = [] -> sound_moov mv ->
  live_reach items (ft :: pre ++ mv :: post) -> Forall (in_range (moved items mv post)) (live_moov mv).
Proof.
  intros items ft pre mv post J N G R. unfold moved. destruct (named_kids (id4 "mdat") post) eqn:E.
  - eapply Forall_impl; [|apply live_kids_ok, G]. apply in_range_0.
  - assert (M : mdat_follows (ft :: pre ++ mv :: post)) by (exists (ft :: pre), mv, post; rewrite E; repeat split; [exact J|discriminate]).
    apply R in M. rewrite moved_growth in M by assumption. change (ft :: pre ++ mv :: post) with ((ft :: pre) ++ mv :: post) in M. rewrite live_tables_at in M by assumption. exact M.
Qed.

(** The tables stay sound. *)
Theorem last_sound : forall items f, outline f -> sound_tables f -> live_reach items f -> sound_tables (last_file items f).
Proof.
  intros items f O S R. destruct (outline_parts f O) as (ft & s & pre & mv & post & -> & _ & _ & _ & J & _ & N2 & _). pose proof (sound_at _ _ _ _ J N2 S) as G.
  pose proof (moved_range items ft pre mv post J N2 G R) as M. apply sound_live. rewrite (last_at items ft pre mv post J N2). unfold llast. fold (moved items mv post).
  rewrite live_tables_at by (rewrite ?last_moov_id; assumption). rewrite live_moov_last. apply live_kids_ok in G. fold (live_moov mv) in G.
  rewrite live_moov_parts in M, G. apply Forall_app in M, G. apply Forall_app. split; [|apply G]. destruct M as [M _], G as [G _].
  apply Forall_forall. intros t I. apply in_map_iff in I. destruct I as (c & <- & I). rewrite Forall_forall in M, G. apply table_shift_ok; auto.
Qed.

(** The chunks stay addressed. *)
Theorem last_chunks : forall items f t, describes f t -> sound_tables f -> live_reach items f -> one_sided f -> tracks_before f -> live_kept f (last_file items f).
Proof.
  intros items f t (ft & pre & mv & post & Ef & I & _ & _ & J & N & _) So R S T. subst f. apply named_two in N. destruct N as [N1 N2]. pose proof (sound_at _ _ _ _ J N2 So) as G.
  pose proof (moved_range items ft pre mv post J N2 G R) as FR.
  assert (Bk : flat_map live_trak (named_kids (id4 "trak") (aft mv)) = []).
  { unfold aft. destruct (split_last (id4 "udta") (a_kids mv)) as [[[x u] y]|] eqn:Sp; [|reflexivity]. apply split_last_some in Sp. destruct Sp as (Sp & Iu & Nu).
    rewrite (T mv x u y); [reflexivity| |exact J|exact Sp|exact Iu|exact Nu]. right. apply in_or_app. right. left. reflexivity. }
  rewrite (last_at items ft pre mv post J N2). unfold llast. fold (moved items mv post). set (d := moved items mv post) in *.
  intros i j o n (tb & Hi & Hj) (x & md & y & Ed & Im & Lo & Hi2).
  change (ft :: pre ++ mv :: post) with ((ft :: pre) ++ mv :: post) in *.
  rewrite live_tables_at in Hi by assumption.
  assert (Hi' : nth_error (live_tables ((ft :: pre) ++ last_moov items d mv :: post)) i = Some (shift_pair d tb)).
  { rewrite live_tables_at by (rewrite ?last_moov_id; assumption). rewrite live_moov_last, Bk, app_nil_r. apply map_nth_error.
    rewrite live_moov_parts, Bk, app_nil_r in Hi. exact Hi. }
  assert (Ok : table_ok tb) by (pose proof (proj1 (live_kids_ok (a_kids mv)) G) as K; rewrite Forall_forall in K; apply K; apply nth_error_In in Hi; exact Hi).
  assert (Ir : in_range d tb) by (rewrite Forall_forall in FR; apply FR; apply nth_error_In in Hi; exact Hi).
  exists (Z.to_N (Z.of_N o + d)). split.
  - exists (shift_pair d tb). split; [exact Hi'|]. destruct tb as [w a]. unfold shift_pair. cbn [fst snd]. rewrite offsets_shift by apply Ok.
    erewrite map_nth_error by exact Hj. f_equal. apply shift_entry_in. unfold in_range in Ir. rewrite Forall_forall in Ir. apply (Ir o). apply nth_error_In in Hj. exact Hj.
  - specialize (S (ft :: pre) mv post eq_refl J).
    apply app_split in Ed. destruct Ed as [(_ & X & _)|[(z & -> & ->)|(z & Ex & ->)]].
    + subst md. rewrite J in Im. discriminate Im.
    + assert (Np : named_kids (id4 "mdat") (z ++ md :: y) <> []).
      { rewrite named_app, named_this by exact Im. intro X. apply app_eq_nil in X. destruct X as [_ X]. discriminate X. }
      assert (Ed : d = last_growth items mv) by (unfold d, moved; destruct (named_kids (id4 "mdat") (z ++ md :: y)); [contradiction|reflexivity]).
      rewrite !render_all_app, !render_all_cons in *. rewrite !blen_app in *.
      set (A := render ft ++ render_all pre) in *. set (P := render_all (z ++ md :: y)) in *.
      assert (Gr : (d = Z.of_N (blen (render (last_moov items d mv))) - Z.of_N (blen (render mv)))%Z).
      { rewrite Ed at 1. unfold last_growth. fold (asize (last_moov items 0 mv)). rewrite (last_moov_size items 0 d mv G). reflexivity. }
      assert (LA : blen A = blen (render ft) + blen (render_all pre)) by (unfold A; apply blen_app). rewrite !(app_assoc A). rewrite !slice_app_r by (rewrite blen_app; lia). f_equal. rewrite !blen_app. lia.
    + assert (Np : named_kids (id4 "mdat") (ft :: pre) <> []).
      { rewrite Ex, named_app, named_this by exact Im. intro X. apply app_eq_nil in X. destruct X as [_ X]. discriminate X. }
      destruct S as [S|S]; [contradiction|]. assert (Ed : d = 0%Z) by (unfold d, moved; rewrite S; reflexivity).
      assert (L : o + n <= blen (render_all (x ++ md :: z))).
      { rewrite !render_all_app, !render_all_cons, !blen_app in *. change (blen (render_all [])) with 0 in Hi2. lia. }
      rewrite Ex. rewrite !(render_all_app (x ++ md :: z)). rewrite Ed, Z.add_0_r, N2Z.id. rewrite !slice_app_l by exact L. reflexivity.
Qed.
