(** Movie headers and sample entries in all their layouts. *)

From Coq Require Import List NArith ZArith Bool Lia Arith String.
From Coq Require Import ZifyBool ZifyNat ZifyN.
From Verif Require Import Base BaseLemmas Utf UtfLemmas Types Stream Parse TagSpec FileSpec ParseLemmas ReadProofs ReadSpec ReadFacts.
Import ListNotations.
Local Open Scope list_scope.
Ltac Zify.zify_post_hook ::= Z.div_mod_to_equations.

(** * Exchanging the movie header *)

Lemma last_opt_mid : forall {A} (a b : list A) x, last_opt (a ++ x :: b) = match last_opt b with Some y => Some y | None => Some x end.
Proof.
  intros A a b x. unfold last_opt. rewrite fold_left_app. cbn [fold_left]. rewrite last_fold. reflexivity.
Qed.

Lemma named_mid : forall i x k y, named_kids i (x ++ k :: y) = named_kids i x ++ (if is_named i k then [k] else []) ++ named_kids i y.
Proof. intros. unfold named_kids. rewrite filter_app. cbn [filter]. destruct (is_named i k); reflexivity. Qed.

Lemma header_exchange : forall ft pre e x mh y post t mh' d,
  describes (ft :: pre ++ Atom e (id4 "moov") [] (x ++ mh :: y) :: post) t ->
  named_kids (id4 "mvhd") y = [] -> a_id mh = id4 "mvhd" -> a_id mh' = id4 "mvhd" -> mvhd_means mh' d ->
  describes (ft :: pre ++ Atom e (id4 "moov") [] (x ++ mh' :: y) :: post)
            (Tag (tg_ftyp t) (with_duration d (tg_info t)) (tg_atoms t)).
Proof.
  intros ft pre e x mh y post t mh' d D Ny I I' M. pose proof (named_moov _ _ D) as (mv & Nm & MM).
  destruct D as (ft2 & pre2 & mv2 & post2 & E & Ift & W & C & _). injection E as <- E2.
  set (mo := Atom e (id4 "moov") [] (x ++ mh :: y)) in *.
  change (ft :: pre ++ mo :: post) with ((ft :: pre) ++ mo :: post) in Nm. rewrite named_mid in Nm.
  change (is_named (id4 "moov") mo) with true in Nm. cbv iota in Nm.
  destruct (named_kids (id4 "moov") (ft :: pre)) as [|? l] eqn:E3; [|injection Nm as _ Nm; apply app_eq_nil in Nm; destruct Nm as [_ Nm]; discriminate].
  cbn [app] in Nm. injection Nm as <- Nm. cbn [named_kids filter] in E3.
  destruct (is_named (id4 "moov") ft); [discriminate|].
  destruct MM as (_ & dur & auds & uo & (ds & Fd & ->) & Ft & (us & Fu & ->) & Ei & Ea).
  cbn [a_kids mo] in *.
  exists ft, pre, (Atom e (id4 "moov") [] (x ++ mh' :: y)), post. cbn [tg_ftyp tg_info tg_atoms].
  do 5 (split; [assumption || reflexivity|]). split; [unfold named_kids in *; rewrite filter_app, E3, Nm; reflexivity|].
  rewrite named_mid in *. rewrite (id_neq mh _ (id4 "trak") I) in Ft by discriminate. rewrite (id_neq mh _ (id4 "udta") I) in Fu by discriminate.
  rewrite (proj2 (is_named_eq _ _) I), Ny in Fd. cbn [app] in *. apply Forall2_app_inv_l in Fd. destruct Fd as (d1 & d2 & Fx & Fm & ->).
  split; [reflexivity|]. exists (Some d), auds, (last_opt us). split; [|split; [|split; [|split]]].
  - exists (d1 ++ [d]). cbn [a_kids]. rewrite named_mid, (proj2 (is_named_eq _ _) I'), Ny. split; [|rewrite last_opt_app; reflexivity].
    apply Forall2_app; [exact Fx|]. constructor; [exact M|constructor].
  - cbn [a_kids]. rewrite named_mid, (id_neq mh' _ (id4 "trak") I') by discriminate. exact Ft.
  - exists us. cbn [a_kids]. rewrite named_mid, (id_neq mh' _ (id4 "udta") I') by discriminate. split; [exact Fu|reflexivity].
  - rewrite Ei. destruct (first_some auds); reflexivity.
  - exact Ea.
Qed.

(** * Sample entries *)

Lemma box_last : forall {A} id (P : atom -> option A -> Prop) a o, box id P a o ->
  match last_opt (named_kids id (a_kids a)) with Some k => P k o | None => o = None end.
Proof.
  intros A id P a o (_ & oo & (l & F & ->) & ->). pose proof (last_forall2 _ _ _ F) as L.
  destruct (last_opt (named_kids id (a_kids a))), (last_opt l); try contradiction; [exact L|reflexivity].
Qed.

Lemma trak_entry : forall k o, trak_means k o ->
  match sample_entry k with Some a => exists x, mp4a_means a x /\ o = Some x | None => o = None end.
Proof.
  intros k o H. unfold sample_entry. cbn [last_at].
  apply box_last in H. destruct (last_opt (named_kids (id4 "mdia") (a_kids k))) as [k1|]; [|exact H].
  apply box_last in H. destruct (last_opt (named_kids (id4 "minf") (a_kids k1))) as [k2|]; [|exact H].
  apply box_last in H. destruct (last_opt (named_kids (id4 "stbl") (a_kids k2))) as [k3|]; [|exact H].
  apply box_last in H. destruct (last_opt (named_kids (id4 "stsd") (a_kids k3))) as [k4|]; [|exact H].
  destruct H as (_ & (l & F & ->)). pose proof (last_forall2 _ _ _ F) as L.
  destruct (last_opt (named_kids (id4 "mp4a") (a_kids k4))), (last_opt l); try contradiction; [|reflexivity].
  eexists. split; [exact L|reflexivity].
Qed.

Lemma mp4a_det : forall k a b, fits k = true -> small (render k) -> mp4a_means k a -> mp4a_means k b -> a = b.
Proof.
  intros k a b F Sm A B.
  assert (Fu : fuel_for (S (N.to_nat (csize k))) k) by (unfold fuel_for; lia).
  assert (S : sits (render k) 0 (render k)) by (exists [], []; rewrite app_nil_r; split; reflexivity).
  pose proof (mp4a_kid _ Checked k a F Fu A _ _ Sm S) as X. pose proof (mp4a_kid _ Checked k b F Fu B _ _ Sm S) as Y.
  rewrite X in Y. injection Y as Y1 Y2 Y3 Y4. destruct a, b. cbn in *. congruence.
Qed.

Lemma other_tagged : forall t x d y, Forall (other_tag t) (x ++ y) -> b2n (d_tag d) = t -> tagged_desc t (x ++ d :: y) = [d].
Proof.
  intros t x d y F E. apply Forall_app in F. destruct F as [Fx Fy].
  assert (N : forall l, Forall (other_tag t) l -> tagged_desc t l = []).
  { intros l Fl. apply tagged_none. apply Forall_impl with (2 := Fl). intros ? [_ H]. exact H. }
  rewrite tagged_app, (N x Fx). unfold tagged_desc. cbn [filter app]. rewrite (proj2 (N.eqb_eq _ _) E).
  fold (tagged_desc t y). rewrite (N y Fy). reflexivity.
Qed.
Lemma other_good : forall t x d y, Forall (other_tag t) (x ++ y) -> good_desc d -> Forall good_desc (x ++ d :: y).
Proof.
  intros t x d y F G. apply Forall_app in F. destruct F as [Fx Fy]. apply Forall_app. split; [|constructor; [exact G|]].
  - apply Forall_impl with (2 := Fx). intros ? [H _]. exact H.
  - apply Forall_impl with (2 := Fy). intros ? [H _]. exact H.
Qed.

Lemma layout_means : forall l mx av ds ch rate e, good_layout l mx av ds -> mx < 2 ^ 32 -> av < 2 ^ 32 -> ds_means ds ch rate ->
  mp4a_means (Atom e (id4 "mp4a") (ly_entry l) (ly_kids l mx av ds)) (Audio ch rate (Some mx) (Some av)).
Proof.
  intros l mx av ds ch rate e (L1 & L2 & L3 & L4 & Fe & Fd & G5 & G4 & G3) Hm Ha D.
  split; [exact L1|]. exists (ly_esds l mx av ds), (ly_atoms l). split; [reflexivity|]. split; [reflexivity|].
  exists (n2b 0 :: ly_flags l), (ly_es_desc l mx av ds), (ly_rest l).
  split; [exists (ly_flags l); split; [exact L2|reflexivity]|]. split; [reflexivity|]. split; [exact G3|].
  split; [unfold a_content, ly_esds; cbn [a_pre a_kids render_all flat_map]; rewrite app_nil_r; reflexivity|].
  exists (ly_es l), (ly_es_before l ++ ly_dc_desc l mx av ds :: ly_es_behind l). split; [exact L3|]. split; [reflexivity|].
  split; [eapply other_good; eassumption|]. rewrite (other_tagged 4 _ (ly_dc_desc l mx av ds) _ Fe eq_refl).
  exists (ly_dc l ++ be 4 mx ++ be 4 av), (ly_dc_before l ++ ly_ds_desc l ds :: ly_dc_behind l).
  split; [rewrite !app_length, L4, !be_length; reflexivity|]. split; [reflexivity|].
  split; [eapply other_good; eassumption|]. cbn [au_max au_avg au_channels au_rate].
  split; [|split].
  - do 1 f_equal. rewrite skipn_app, (skipn_all2 (ly_dc l)) by lia. rewrite L4. cbn [Nat.sub skipn app].
    rewrite firstn_app, firstn_all2 by (rewrite be_length; lia). rewrite be_length, Nat.sub_diag, firstn_O, app_nil_r.
    symmetry. apply unbe_be, Hm.
  - do 1 f_equal. rewrite skipn_app, (skipn_all2 (ly_dc l)) by lia. rewrite L4. cbn [Nat.sub app].
    rewrite skipn_app, (skipn_all2 (be 4 mx)) by (rewrite be_length; lia). rewrite be_length. cbn [Nat.sub skipn app].
    symmetry. apply unbe_be, Ha.
  - rewrite (other_tagged 5 _ (ly_ds_desc l ds) _ Fd eq_refl). exact D.
Qed.
