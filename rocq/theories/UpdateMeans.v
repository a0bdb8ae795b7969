(** What the updated file means. *)

From Coq Require Import List NArith ZArith Bool Lia Arith String.
From Coq Require Import ZifyBool ZifyNat ZifyN.
From Verif Require Import Base BaseLemmas Utf UtfLemmas Types TagSpec FileSpec ParseLemmas ReadProofs ReadFacts NewMeans
  ScanProofs AdjustProofs WriteProofs WriteMain.
Import ListNotations.
Local Open Scope list_scope.

Lemma named_other : forall id k r, a_id k <> id -> named_kids id (k :: r) = named_kids id r.
Proof.
  intros id k r H. rewrite named_cons. destruct (is_named id k) eqn:E; [|reflexivity]. apply is_named_eq in E. contradiction.
Qed.
Lemma named_this : forall id k r, a_id k = id -> named_kids id (k :: r) = k :: named_kids id r.
Proof. intros id k r H. rewrite named_cons, (proj2 (is_named_eq id k) H). reflexivity. Qed.

(** Changing children keeps names. *)
Lemma named_map_other : forall id id' h ks, id <> id' -> (forall c, a_id (h c) = a_id c) ->
  named_kids id (map_kids id' h ks) = named_kids id ks.
Proof.
  intros id id' h ks D H. induction ks as [|k r IH]; [reflexivity|]. cbn [map_kids map]. fold (map_kids id' h r). rewrite !named_cons, IH.
  destruct (is_named id' k) eqn:E; [|reflexivity]. apply is_named_eq in E.
  assert (is_named id (h k) = false) as -> by (destruct (is_named id (h k)) eqn:X; [apply is_named_eq in X; rewrite H in X; congruence|reflexivity]).
  assert (is_named id k = false) as -> by (destruct (is_named id k) eqn:X; [apply is_named_eq in X; congruence|reflexivity]). reflexivity.
Qed.
Lemma named_map_same : forall id h ks, (forall c, a_id (h c) = a_id c) -> named_kids id (map_kids id h ks) = map h (named_kids id ks).
Proof.
  intros id h ks H. induction ks as [|k r IH]; [reflexivity|]. cbn [map_kids map]. fold (map_kids id h r). rewrite !named_cons, IH.
  destruct (is_named id k) eqn:E; [|rewrite E; reflexivity]. apply is_named_eq in E.
  rewrite (proj2 (is_named_eq id (h k))) by (rewrite H; exact E). reflexivity.
Qed.
Lemma forall2_map : forall {A B} (P Q : A -> B -> Prop) (h : A -> A) l r, (forall a b, P a b -> Q (h a) b) -> Forall2 P l r -> Forall2 Q (map h l) r.
Proof. intros A B P Q h l r H F. induction F; constructor; auto. Qed.

(** * Tracks *)

Lemma box_map : forall {A} id (P : atom -> option A -> Prop) h a o, (forall c, a_id (h c) = a_id c) -> (forall c x, P c x -> P (h c) x) ->
  box id P a o -> box id P (map_child id h a) o.
Proof.
  intros A id P h a o Hi H (Pre & oo & (l & F & E) & J). split; [exact Pre|]. exists oo. split; [|exact J]. exists l. split; [|exact E].
  unfold map_child, with_kids. cbn [a_kids]. rewrite named_map_same by exact Hi. eapply forall2_map; [|exact F]. exact H.
Qed.
Lemma map_child_id_kept : forall id h a, a_id (map_child id h a) = a_id a. Proof. reflexivity. Qed.
Lemma shift_stbl_means : forall d a o, stbl_means a o -> stbl_means (shift_stbl d a) o.
Proof.
  intros d a o (Pre & oo & (l & F & E) & J). split; [exact Pre|]. exists oo. split; [|exact J]. exists l. split; [|exact E].
  unfold shift_stbl, map_child, with_kids. cbn [a_kids]. rewrite !named_map_other; try discriminate; try (intro; reflexivity). exact F.
Qed.
Lemma shift_trak_means : forall d a o, trak_means a o -> trak_means (shift_trak d a) o.
Proof.
  intros d a o H. unfold shift_trak. apply box_map; [intro; reflexivity| |exact H]. intros c x Hc.
  apply box_map; [intro; reflexivity| |exact Hc]. intros c2 x2 H2. apply box_map; [intro; reflexivity| |exact H2].
  intros c3 x3 H3. apply shift_stbl_means, H3.
Qed.

(** * Metadata *)

Lemma missing_other : forall id me, id <> id4 "hdlr" -> named_kids id (missing_hdlr me) = [].
Proof.
  intros id me D. unfold missing_hdlr. destruct (named_kids (id4 "hdlr") (a_kids me)); [|reflexivity].
  apply named_other. intro X. apply D. rewrite <- X. reflexivity.
Qed.
Lemma update_meta_means : forall items me, describable items -> good_meta me -> version0 (a_pre me) -> meta_means (update_meta items me) (Some items).
Proof.
  intros items me Di G V. assert (X : ilst_means (new_ilst items) items) by apply new_ilst_means, Di.
  assert (R : forall x y, named_kids (id4 "ilst") x = [] -> named_kids (id4 "ilst") y = [] ->
    meta_means (with_kids me (x ++ missing_hdlr me ++ [new_ilst items] ++ y)) (Some items)).
  { intros x y Nx Ny. split; [exact V|]. exists [items]. split; [|reflexivity]. unfold with_kids. cbn [a_kids].
    rewrite !named_app, Nx, missing_other by discriminate. cbn [app]. rewrite named_this by reflexivity. rewrite Ny. repeat constructor; apply X. }
  unfold update_meta. destruct (split_one (id4 "ilst") (a_kids me) G) as [N|(x & c & y & E & I & N1 & N2)].
  - rewrite split_on_none by exact N. specialize (R (a_kids me) [] N eq_refl). rewrite app_nil_r in R. exact R.
  - rewrite E, split_on_at by assumption. apply R; assumption.
Qed.
Lemma update_meta_id : forall items me, a_id (update_meta items me) = a_id me.
Proof. intros. unfold update_meta. destruct (split_on (id4 "ilst") (a_kids me)) as [[[x c] y]|]; reflexivity. Qed.
Lemma update_udta_id : forall items u, a_id (update_udta items u) = a_id u.
Proof. intros. unfold update_udta. destruct (split_on (id4 "meta") (a_kids u)) as [[[x c] y]|]; reflexivity. Qed.
Lemma update_moov_id : forall items d u, a_id (update_moov items d u) = a_id u.
Proof. intros. unfold update_moov. destruct (split_on (id4 "udta") (a_kids u)) as [[[x c] y]|]; reflexivity. Qed.

Lemma update_udta_means : forall items u, describable items -> good_udta u -> plain_udta u -> udta_means (update_udta items u) (Some items).
Proof.
  intros items u Di [G1 G2] [P1 P2].
  assert (R : forall x y k, named_kids (id4 "meta") x = [] -> named_kids (id4 "meta") y = [] -> a_id k = id4 "meta" -> meta_means k (Some items) ->
    udta_means (with_kids u (x ++ k :: y)) (Some items)).
  { intros x y k Nx Ny I M. split; [exact P1|]. exists (Some (Some items)). split; [|reflexivity]. exists [Some items]. split; [|reflexivity].
    unfold with_kids. cbn [a_kids]. rewrite named_app, Nx. cbn [app]. rewrite named_this by exact I. rewrite Ny. repeat constructor; apply M. }
  unfold update_udta. destruct (split_one (id4 "meta") (a_kids u) G1) as [N|(x & c & y & E & I & N1 & N2)].
  - rewrite split_on_none by exact N. apply R; [exact N|reflexivity|reflexivity|apply new_meta_means, Di].
  - rewrite E, split_on_at by assumption. assert (In c (a_kids u)) as Ic by (rewrite E; apply in_or_app; right; left; reflexivity).
    apply R; [exact N1|exact N2|rewrite update_meta_id; exact I|]. apply update_meta_means; [exact Di| |].
    + exact (named_in _ _ _ c G2 Ic I).
    + exact (named_in _ _ _ c P2 Ic I).
Qed.

Lemma update_moov_means : forall items d mv info old, describable items -> good_moov mv -> moov_means mv info old ->
  moov_means (update_moov items d mv) info items.
Proof.
  intros items d mv info old Di [GT [G1 G2]] M. pose proof (moov_plain _ _ _ M) as (_ & _ & PU).
  destruct M as (Pre & dur & auds & uo & (dl & D1 & D2) & T & (ul & U1 & U2) & -> & _).
  assert (R : forall x u y, named_kids (id4 "mvhd") (x ++ y) = named_kids (id4 "mvhd") (a_kids mv) ->
    named_kids (id4 "trak") (x ++ y) = named_kids (id4 "trak") (a_kids mv) ->
    named_kids (id4 "udta") x = [] -> named_kids (id4 "udta") y = [] -> a_id u = id4 "udta" -> udta_means u (Some items) ->
    moov_means (with_kids mv (shift_traks d x ++ u :: y)) (info_of dur (first_some auds)) items).
  { intros x u y Nm Nt Nx Ny I Mu.
    assert (N : forall id, id <> id4 "trak" -> id <> id4 "udta" -> named_kids id (shift_traks d x ++ u :: y) = named_kids id (x ++ y)).
    { intros id A B. rewrite !named_app, named_other by congruence. f_equal. apply named_map_other; [exact A|reflexivity]. }
    split; [exact Pre|]. exists dur, auds, (Some (Some items)).
    split; [exists dl; split; [|exact D2]; unfold with_kids; cbn [a_kids]; rewrite N, Nm by discriminate; exact D1|].
    split; [|split; [|split; reflexivity]].
    - unfold with_kids. cbn [a_kids]. rewrite named_app, named_other by (rewrite I; discriminate).
      unfold shift_traks. rewrite named_map_same by reflexivity.
      rewrite named_app in Nt. rewrite <- Nt in T. apply Forall2_app_inv_l in T. destruct T as (l1 & l2 & T1 & T2 & ->).
      apply Forall2_app; [|exact T2]. eapply forall2_map; [|exact T1]. apply shift_trak_means.
    - exists [Some items]. split; [|reflexivity]. unfold with_kids. cbn [a_kids]. rewrite named_app.
      unfold shift_traks. rewrite (named_map_other (id4 "udta")), Nx by (discriminate || reflexivity). cbn [app]. rewrite named_this by exact I. rewrite Ny.
      constructor; [exact Mu|constructor]. }
  unfold update_moov. destruct (split_one (id4 "udta") (a_kids mv) G1) as [N|(x & c & y & E & I & N1 & N2)].
  - rewrite split_on_none by exact N. apply R; rewrite ?app_nil_r; try reflexivity; [exact N|apply new_udta_means, Di].
  - rewrite E in R. rewrite E, split_on_at by assumption. assert (In c (a_kids mv)) as Ic by (rewrite E; apply in_or_app; right; left; reflexivity).
    apply R; try assumption.
    + rewrite !named_app, named_other by (rewrite I; discriminate). reflexivity.
    + rewrite !named_app, named_other by (rewrite I; discriminate). reflexivity.
    + rewrite update_udta_id. exact I.
    + apply update_udta_means; [exact Di|exact (named_in _ _ _ c G2 Ic I)|exact (named_in _ _ _ c PU Ic I)].
Qed.

Lemma editable_moov : forall ft pre mv post, a_id mv = id4 "moov" -> editable (ft :: pre ++ mv :: post) -> good_moov mv.
Proof.
  intros ft pre mv post J E. unfold editable in E. rewrite Forall_forall in E. apply E, filter_In. split; [|apply is_named_eq, J].
  right. apply in_or_app. right. left. reflexivity.
Qed.

Theorem update_describes : forall items f t, describable items -> editable f -> describes f t ->
  describes (update_file items f) (Tag (tg_ftyp t) (tg_info t) items).
Proof.
  intros items f t Di E (ft & pre & mv & post & -> & I & W & C & J & N & M).
  rewrite (update_at items ft pre mv post I J N). eexists ft, pre, _, post. cbn [tg_ftyp tg_info tg_atoms].
  split; [reflexivity|]. do 3 (split; [assumption|]). split; [rewrite update_moov_id; exact J|]. split; [exact N|].
  eapply update_moov_means; [exact Di|eapply editable_moov; eassumption|exact M].
Qed.
