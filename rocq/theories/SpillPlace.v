(** The place of the item list in a file that has been written. *)

From Coq Require Import List NArith ZArith Bool Lia Arith String.
From Coq Require Import ZifyBool ZifyNat ZifyN.
From Verif Require Import Base BaseLemmas Utf UtfLemmas Types TagSpec FileSpec ParseLemmas ReadSpec ReadFacts ScanProofs UpdateMeans UpdateTwice AdjustProofs WriteProofs WriteMain
  EditSpec EditProofs OffsetProofs RepairSpec RepairProofs SpillSpec.
Import ListNotations.
Local Open Scope list_scope.

(** * The bytes around the list *)

Lemma mid_bytes : forall ext id p x a y, exists X, forall a', asize a' = asize a ->
  render (Atom ext id p (x ++ a' :: y)) = X ++ render a' ++ render_all y.
Proof.
  intros ext id p x a y. exists (header ext id (csize (Atom ext id p (x ++ a :: y))) ++ p ++ render_all x). intros a' E.
  rewrite render_eq. cbn [a_ext a_id a_content a_pre a_kids]. unfold a_content. cbn [a_pre a_kids].
  assert (C : csize (Atom ext id p (x ++ a' :: y)) = csize (Atom ext id p (x ++ a :: y))).
  { pose proof (render_mid ext id p x a' a y E) as R. rewrite !asize_eq in R. unfold hlen in R. cbn [a_ext] in R. lia. }
  rewrite C, render_all_app, render_all_cons, <- !app_assoc. reflexivity.
Qed.
Lemma relist_bytes : forall c a, exists X, forall a', asize a' = asize a -> render_all (relist c a') = X ++ render a' ++ behind c.
Proof.
  intros c a.
  destruct (mid_bytes (at_meta c) (id4 "meta") (at_meta_head c) (at_meta_pre c) a (at_meta_post c)) as [X1 H1].
  destruct (mid_bytes (at_udta c) (id4 "udta") [] (at_udta_pre c) (relist_meta c a) (at_udta_post c)) as [X2 H2].
  destruct (mid_bytes (at_moov c) (id4 "moov") [] (at_moov_pre c) (relist_udta c a) (at_moov_post c)) as [X3 H3].
  exists (render_all (at_ft c :: at_pre c) ++ X3 ++ X2 ++ X1). intros a' E.
  assert (E1 : asize (relist_meta c a') = asize (relist_meta c a)) by (apply render_mid, E).
  assert (E2 : asize (relist_udta c a') = asize (relist_udta c a)) by (apply render_mid, E1).
  change (relist c a') with ((at_ft c :: at_pre c) ++ relist_moov c a' :: at_post c).
  rewrite render_all_app, render_all_cons.
  assert (R3 : render (relist_moov c a') = X3 ++ render (relist_udta c a') ++ render_all (at_moov_post c)) by exact (H3 _ E2).
  assert (R2 : render (relist_udta c a') = X2 ++ render (relist_meta c a') ++ render_all (at_udta_post c)) by exact (H2 _ E1).
  assert (R1 : render (relist_meta c a') = X1 ++ render a' ++ render_all (at_meta_post c)) by exact (H1 _ E).
  rewrite (render_all_cons (relist_moov c a')), R3, R2, R1.
  unfold behind. rewrite <- !app_assoc. reflexivity.
Qed.

(** * There is such a place *)

Lemma meta_place : forall a, exists x y, forall j, update_meta j a = Atom (a_ext a) (a_id a) (a_pre a) (x ++ new_ilst j :: y).
Proof.
  intros a. unfold update_meta, with_kids. destruct (split_on (id4 "ilst") (a_kids a)) as [[[x o] y]|].
  - exists (x ++ missing_hdlr a), y. intros j. rewrite <- !app_assoc. reflexivity.
  - exists (a_kids a ++ missing_hdlr a), []. intros j. rewrite <- !app_assoc. reflexivity.
Qed.
Definition same_list (i j : list atom_data) : Prop := asize (new_ilst j) = asize (new_ilst i).
Lemma meta_head_same : forall i j, same_list i j -> a_ext (new_meta j) = a_ext (new_meta i).
Proof.
  intros i j H. unfold new_meta, new_box. cbn [a_ext]. unfold same_list, asize in H. rewrite !blen_app, !render_all_cons, !blen_app, H. reflexivity.
Qed.
Lemma new_meta_size : forall i j, same_list i j -> asize (new_meta j) = asize (new_meta i).
Proof.
  intros i j H. pose proof (meta_head_same i j H) as E. rewrite !asize_eq. unfold hlen. rewrite E. f_equal. unfold csize, a_content, new_meta, new_box. cbn [a_pre a_kids].
  unfold same_list, asize in H. rewrite !blen_app, !render_all_cons, !blen_app, H. reflexivity.
Qed.
Lemma udta_head_same : forall i j, same_list i j -> a_ext (new_udta j) = a_ext (new_udta i).
Proof.
  intros i j H. pose proof (new_meta_size i j H) as E. unfold new_udta, new_box. cbn [a_ext app]. unfold asize in E. rewrite !render_all_cons, !blen_app, E. reflexivity.
Qed.
Lemma udta_place : forall i u, bare_udta u -> Forall (fun k => a_id k = id4 "meta") (named_kids (id4 "meta") (a_kids u)) ->
  exists x e h x' y' y, forall j, same_list i j -> update_udta j u = Atom (a_ext u) (a_id u) [] (x ++ Atom e (id4 "meta") h (x' ++ new_ilst j :: y') :: y).
Proof.
  intros i u [P _] _. unfold update_udta, with_kids. rewrite P. destruct (split_on (id4 "meta") (a_kids u)) as [[[x o] y]|] eqn:S.
  - apply split_on_some in S. destruct S as (_ & I & _). destruct (meta_place o) as (x' & y' & H). rewrite I in H. exists x, (a_ext o), (a_pre o), x', y', y. intros j _. rewrite H. reflexivity.
  - exists (a_kids u), (a_ext (new_meta i)), (zeros 4), [new_hdlr], [], []. intros j H. rewrite <- (meta_head_same i j H). reflexivity.
Qed.
Lemma moov_place : forall i d mv, a_id mv = id4 "moov" -> a_pre mv = [] -> Forall bare_udta (named_kids (id4 "udta") (a_kids mv)) ->
  exists x3 u x2 e h x1 y1 y2 y3, forall j, same_list i j ->
    update_moov j d mv = Atom (a_ext mv) (id4 "moov") [] (x3 ++ Atom u (id4 "udta") [] (x2 ++ Atom e (id4 "meta") h (x1 ++ new_ilst j :: y1) :: y2) :: y3).
Proof.
  intros i d mv I P U. unfold update_moov, with_kids. rewrite I, P. destruct (split_on (id4 "udta") (a_kids mv)) as [[[x o] y]|] eqn:S.
  - apply split_on_some in S. destruct S as (S & Io & _). rewrite S, named_app, named_this in U by exact Io. apply Forall_app in U. destruct U as [_ U]. inversion U as [|? ? Uo _]; subst.
    destruct (udta_place i o Uo) as (x2 & e & h & x1 & y1 & y2 & H).
    { apply Forall_forall. intros k K. apply filter_In in K. apply is_named_eq, K. }
    rewrite Io in H. exists (shift_traks d x), (a_ext o), x2, e, h, x1, y1, y2, y. intros j Sj. rewrite (H j Sj). reflexivity.
  - exists (shift_traks d (a_kids mv)), (a_ext (new_udta i)), [], (a_ext (new_meta i)), (zeros 4), [new_hdlr], [], [], []. intros j Sj.
    rewrite <- (udta_head_same i j Sj), <- (meta_head_same i j Sj). reflexivity.
Qed.
Lemma place_of : forall i f s mv, shell f s mv -> exists c, forall j, same_list i j -> update_file j f = relist c (new_ilst j).
Proof.
  intros i f s mv (ft & pre & post & -> & I & _ & _ & J & N & P & _ & U).
  set (d := match named_kids (id4 "mdat") post with [] => 0%Z | _ => growth i mv end).
  destruct (moov_place i d mv J P U) as (x3 & u & x2 & e & h & x1 & y1 & y2 & y3 & H).
  exists (Place ft pre post (a_ext mv) x3 y3 u x2 y2 e h x1 y1 false [] []). intros j Sj.
  rewrite (update_at j ft pre mv post I J N). assert (Ed : match named_kids (id4 "mdat") post with [] => 0%Z | _ => growth j mv end = d).
  { unfold d. destruct (named_kids (id4 "mdat") post); [reflexivity|]. unfold growth. destruct (moov_place i 0 mv J P U) as (z3 & zu & z2 & ze & zh & z1 & w1 & w2 & w3 & Z).
    assert (R : same_list i i) by reflexivity. rewrite (Z j Sj), (Z i R). do 2 f_equal. apply render_mid, render_mid, render_mid, Sj. }
  rewrite Ed, (H j Sj). reflexivity.
Qed.

(** * and only one *)

Lemma mid_one : forall id x k y x' k' y', x ++ k :: y = x' ++ k' :: y' -> a_id k = id -> a_id k' = id -> named_kids id x = [] -> named_kids id y = [] -> x = x' /\ k = k' /\ y = y'.
Proof.
  intros id x k y x' k' y' E I I' N1 N2. apply app_split in E. destruct E as [(-> & -> & ->)|[(z & _ & E)|(z & E & _)]]; [auto| |].
  - rewrite E, named_app, named_this in N2 by exact I'. apply app_eq_nil in N2. destruct N2 as [_ N2]. discriminate N2.
  - rewrite E, named_app, named_this in N1 by exact I'. apply app_eq_nil in N1. destruct N1 as [_ N1]. discriminate N1.
Qed.

Definition single (mv : atom) : Prop := only_child (id4 "udta") good_udta mv.
Lemma single_update : forall items d mv, single mv -> single (update_moov items d mv).
Proof.
  intros items d mv [O F]. unfold single, only_child, update_moov. destruct (split_on (id4 "udta") (a_kids mv)) as [[[x u] y]|] eqn:E; unfold with_kids; cbn [a_kids].
  - apply split_on_some in E. destruct E as (E & I & Nx). rewrite E in *.
    assert (Ns : named_kids (id4 "udta") (shift_traks d x) = []) by (unfold shift_traks; rewrite named_map_other by (discriminate || reflexivity); exact Nx).
    split.
    + unfold at_most_one in *. rewrite named_app, named_this in * by (rewrite ?update_udta_id; exact I). rewrite Ns. rewrite Nx in O. exact O.
    + rewrite named_app, named_this in * by (rewrite ?update_udta_id; exact I). rewrite Ns. rewrite Nx in F. cbn [app] in *. inversion F; subst. constructor; [apply good_udta_update|]; assumption.
  - apply split_on_empty in E. assert (Ns : named_kids (id4 "udta") (shift_traks d (a_kids mv)) = []) by (unfold shift_traks; rewrite named_map_other by (discriminate || reflexivity); exact E).
    split.
    + unfold at_most_one. rewrite named_app, Ns. cbn. lia.
    + rewrite named_app, Ns. cbn. constructor; [apply good_new_udta|constructor].
Qed.

(** Nothing of the names of the containers is beside them. *)
Definition alone (c : place) : Prop :=
  named_kids (id4 "moov") (at_pre c) = [] /\ named_kids (id4 "moov") (at_post c) = [] /\
  named_kids (id4 "udta") (at_moov_pre c) = [] /\ named_kids (id4 "udta") (at_moov_post c) = [] /\
  named_kids (id4 "meta") (at_udta_pre c) = [] /\ named_kids (id4 "meta") (at_udta_post c) = [] /\
  named_kids (id4 "ilst") (at_meta_pre c) = [] /\ named_kids (id4 "ilst") (at_meta_post c) = [].
Lemma single_alone : forall c a, a_id a = id4 "ilst" -> single (relist_moov c a) -> named_kids (id4 "moov") (at_pre c ++ at_post c) = [] -> alone c.
Proof.
  intros c a I [O F] N. apply named_two in N. destruct N as [N1 N2]. cbn [relist_moov a_kids] in O, F. destruct (one_mid _ _ (relist_udta c a) _ O eq_refl) as [U1 U2].
  rewrite named_app, named_this in F by reflexivity. apply Forall_app in F. destruct F as [_ F]. inversion F as [|u l [H1 H2] _]; subst. cbn [relist_udta a_kids] in H1, H2.
  destruct (one_mid _ _ (relist_meta c a) _ H1 eq_refl) as [M1 M2]. rewrite named_app, named_this in H2 by reflexivity. apply Forall_app in H2. destruct H2 as [_ H2]. inversion H2 as [|e l K _]; subst.
  unfold good_meta in K. cbn [relist_meta a_kids] in K. destruct (one_mid _ _ a _ K I) as [I1 I2]. repeat split; assumption.
Qed.
Lemma relist_one : forall c a c' a', alone c -> a_id a = id4 "ilst" -> a_id a' = id4 "ilst" -> relist c a = relist c' a' ->
  a = a' /\ (forall b, relist c b = relist c' b) /\ behind c = behind c'.
Proof.
  intros c a c' a' (N1 & N2 & U1 & U2 & M1 & M2 & I1 & I2) I I' E. unfold relist in E. injection E as Ef E.
  destruct (mid_one (id4 "moov") _ _ _ _ _ _ E eq_refl eq_refl N1 N2) as (E1 & E2 & E3). unfold relist_moov in E2. injection E2 as E4 E2.
  destruct (mid_one (id4 "udta") _ _ _ _ _ _ E2 eq_refl eq_refl U1 U2) as (E5 & E6 & E7). unfold relist_udta in E6. injection E6 as E8 E6.
  destruct (mid_one (id4 "meta") _ _ _ _ _ _ E6 eq_refl eq_refl M1 M2) as (E9 & E10 & E11). unfold relist_meta in E10. injection E10 as E12 E13 E10.
  destruct (mid_one (id4 "ilst") _ _ _ _ _ _ E10 I I' I1 I2) as (E14 & E15 & E16).
  split; [exact E15|]. unfold behind, relist, relist_moov, relist_udta, relist_meta. rewrite Ef, E1, E3, E4, E5, E7, E8, E9, E11, E12, E13, E14, E16. split; reflexivity.
Qed.

(** The place of a list of the announced length. *)
Lemma lies_alone : forall i c f s mv, shell f s mv -> editable f -> update_file i f = relist c (new_ilst i) -> alone c.
Proof.
  intros i c f s mv (ft & pre & post & -> & I & _ & _ & J & N & _) E L. pose proof (editable_moov _ _ _ _ J E) as [_ G].
  rewrite (update_at i ft pre mv post I J N) in L. cbn [app] in L. symmetry in L. set (d := match named_kids (id4 "mdat") post with [] => 0%Z | _ => growth i mv end) in L.
  destruct (relist_parts c (new_ilst i) ft pre _ post L N) as (-> & -> & Em & ->). apply (single_alone c (new_ilst i) eq_refl); [|exact N]. rewrite <- Em. apply single_update, G.
Qed.
Lemma lies_all : forall i c f s mv, shell f s mv -> editable f -> update_file i f = relist c (new_ilst i) ->
  forall j, same_list i j -> update_file j f = relist c (new_ilst j).
Proof.
  intros i c f s mv Sh E L j Sj. destruct (place_of i f s mv Sh) as (c' & H). pose proof (lies_alone i c f s mv Sh E L) as A.
  assert (R : same_list i i) by reflexivity. pose proof (H i R) as Hi. rewrite L in Hi. destruct (relist_one c (new_ilst i) c' (new_ilst i) A eq_refl eq_refl Hi) as (_ & X & _). rewrite (H j Sj), X. reflexivity.
Qed.

(** * Nothing but the list is different *)

Lemma edit_list : forall f c a a', a_id (at_ft c) = id4 "ftyp" -> a_id a = id4 "ilst" -> a_id a' = id4 "ilst" -> alone c -> file_edit f (relist c a) -> file_edit f (relist c a').
Proof.
  intros f c a a' Ft I I' (N1 & N2 & U1 & U2 & M1 & M2 & I1 & I2) (x & mv & mv' & y & -> & E & J & [(S1 & S2 & S3) (k & Ek & O)]).
  assert (E0 : at_ft c :: at_pre c = x /\ relist_moov c a = mv' /\ at_post c = y).
  { unfold relist in E. destruct x as [|h x]; cbn [app] in E; injection E as Eh E; [exfalso; rewrite <- Eh, Ft, J in S2; discriminate S2|].
    subst h. destruct (mid_one (id4 "moov") _ _ _ _ _ _ E eq_refl) as (-> & -> & ->); auto. congruence. }
  destruct E0 as (<- & <- & <-). exists (at_ft c :: at_pre c), mv, (relist_moov c a'), (at_post c). split; [reflexivity|]. split; [reflexivity|]. split; [exact J|].
  split; [split; [exact S1|split; [exact S2|exact S3]]|]. exists k. split; [exact Ek|]. cbn [relist_moov a_kids] in *.
  destruct O as [(x & u & u' & y & -> & E1 & Iu & [(T1 & T2 & T3) O])|(Nu & u & E1 & Iu)].
  2: { right. split; [exact Nu|]. change (k ++ [u]) with (k ++ u :: []) in E1. destruct (mid_one (id4 "udta") _ _ _ _ _ _ E1 eq_refl Iu U1 U2) as (-> & _ & ->). eexists. split; [reflexivity|reflexivity]. }
  left. destruct (mid_one (id4 "udta") _ _ _ _ _ _ E1 eq_refl) as (<- & <- & <-); try assumption; [congruence|]. clear E1.
  exists (at_moov_pre c), u, (relist_udta c a'), (at_moov_post c). split; [reflexivity|]. split; [reflexivity|]. split; [exact Iu|]. split; [split; [exact T1|split; [exact T2|exact T3]]|].
  cbn [relist_udta a_kids] in *. destruct O as [(x & e & e' & y & Eu & E1 & Ie & [(V1 & V2 & V3) O])|(Ne & e & E1 & Ie)].
  2: { right. split; [exact Ne|]. change (a_kids u ++ [e]) with (a_kids u ++ e :: []) in E1. destruct (mid_one (id4 "meta") _ _ _ _ _ _ E1 eq_refl Ie M1 M2) as (-> & _ & ->). eexists. split; [reflexivity|reflexivity]. }
  left. destruct (mid_one (id4 "meta") _ _ _ _ _ _ E1 eq_refl) as (<- & <- & <-); try assumption; [congruence|]. clear E1.
  exists (at_udta_pre c), e, (relist_meta c a'), (at_udta_post c). split; [exact Eu|]. split; [reflexivity|]. split; [exact Ie|]. split; [split; [exact V1|split; [exact V2|exact V3]]|].
  cbn [relist_meta a_kids] in *. destruct O as (x & old & hd & il & y & E1 & E2 & Ii & Ho & Hh). rewrite app_assoc in E2.
  destruct (mid_one (id4 "ilst") _ _ _ _ _ _ E2 I Ii I1 I2) as (-> & _ & ->). exists x, old, hd, a', y.
  split; [exact E1|]. split; [rewrite <- app_assoc; reflexivity|]. split; [exact I'|]. split; [exact Ho|exact Hh].
Qed.

(** * Writing twice *)

Lemma shell_twice : forall i j f s mv, same_heads i j -> shell f s mv -> editable f -> update_file j (update_file i f) = update_file j f.
Proof.
  intros i j f s mv H (ft & pre & post & -> & I & _ & _ & J & N & _) E. pose proof (editable_moov _ _ _ _ J E) as G.
  rewrite (update_at i ft pre mv post I J N). cbn [app]. rewrite update_at by (rewrite ?update_moov_id; assumption).
  rewrite (update_at j ft pre mv post I J N). rewrite update_moov_twice by assumption. apply (f_equal (fun z => (ft :: pre) ++ update_moov j z mv :: post)).
  destruct (named_kids (id4 "mdat") post); [reflexivity|]. unfold growth at 2. rewrite update_moov_twice by assumption.
  unfold growth. fold (asize (update_moov i 0 mv)). fold (asize (update_moov j 0 mv)). fold (asize mv).
  set (g := (Z.of_N (asize (update_moov i 0 mv)) - Z.of_N (asize mv))%Z).
  fold (asize (update_moov j (g + 0) mv)). fold (asize (update_moov i g mv)).
  rewrite (update_moov_size j (g + 0) 0 mv G), (update_moov_size i g 0 mv G). unfold g. lia.
Qed.
