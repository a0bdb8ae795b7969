(** The updated file satisfies the specification of [EditSpec]. *)

From Coq Require Import List NArith ZArith Bool Lia Arith String.
From Coq Require Import ZifyBool ZifyNat ZifyN.
From Verif Require Import Base BaseLemmas Utf UtfLemmas Types TagSpec FileSpec ParseLemmas ReadProofs ReadFacts NewMeans
  ScanProofs AdjustProofs WriteProofs WriteMain UpdateMeans UpdateTwice EditSpec.
Import ListNotations.
Local Open Scope list_scope.

(** * Sizes *)

Lemma render_occupies : forall a, fits a = true -> occupies (render a) a.
Proof.
  fix IH 1. intros [e id pre kids] H. cbn [fits] in H. apply andb_true_iff in H. destruct H as [S F].
  assert (T : tiles (flat_map render kids) kids).
  { revert F. clear S. induction kids as [|k r IHr]; intro F; [constructor|]. cbn [forallb] in F. apply andb_true_iff in F. destruct F as [Fk Fr].
    cbn [flat_map]. constructor; [apply IH; exact Fk|apply IHr; exact Fr]. }
  clear F. cbn [render]. destruct e; cbn [header] in *.
  - rewrite <- !app_assoc. apply occ_long; [apply be_length|apply unbe_be; lia|apply be_length| |exact T].
    rewrite unbe_be; [rewrite blen_app; lia|]. change (256 ^ N.of_nat 8) with (2 ^ 64). lia.
  - rewrite <- !app_assoc. apply occ_short; [apply be_length| |exact T].
    rewrite unbe_be; [rewrite blen_app; lia|]. change (256 ^ N.of_nat 4) with (2 ^ 32). lia.
Qed.
Lemma render_tiles : forall f, forallb fits f = true -> tiles (render_all f) f.
Proof.
  induction f as [|k r IH]; intro H; [constructor|]. cbn [forallb] in H. apply andb_true_iff in H. destruct H as [A B].
  rewrite render_all_cons. constructor; [apply render_occupies, A|apply IH, B].
Qed.
(** Conversely the bytes determine the tree up to where children start; such a tree has the bytes of [render]. *)
Lemma occupies_render : forall a b, occupies b a -> b = render a
with tiles_render : forall l b, tiles b l -> b = render_all l.
Proof.
  - intros a b H. destruct H as [size id pre kids body L U T|one size id pre kids body L0 U0 L U T]; cbn [render]; apply tiles_render in T; subst body;
      fold (render_all kids); cbn [header]; rewrite <- !app_assoc.
    + do 1 f_equal. rewrite <- (be_unbe size), L, U. f_equal. rewrite blen_app. lia.
    + rewrite <- (be_unbe one), L0, U0. do 2 f_equal. rewrite <- (be_unbe size), L, U. f_equal. f_equal. rewrite blen_app. lia.
  - intros l b H. destruct H as [|x a y r O T]; [reflexivity|]. rewrite render_all_cons. apply occupies_render in O. apply tiles_render in T. subst. reflexivity.
Qed.

(** * What is kept *)

Lemma same_box_refl : forall a, same_box a a. Proof. repeat split. Qed.
Lemma with_kids_box : forall a k, same_box a (with_kids a k). Proof. repeat split. Qed.
Lemma except_map : forall id (R : atom -> atom -> Prop) h ks, (forall c, In c ks -> a_id c = id -> R c (h c)) -> except id R ks (map_kids id h ks).
Proof.
  intros id R h ks H. induction ks as [|k r IH]; [constructor|]. cbn [map_kids map]. constructor.
  - destruct (is_named id k) eqn:E; [|left; reflexivity]. apply is_named_eq in E. right. split; [exact E|]. apply H; [left; reflexivity|exact E].
  - apply IH. intros. apply H; [right|]; assumption.
Qed.
Lemma except_same : forall id R ks, except id R ks ks.
Proof. intros id R ks. induction ks; constructor; auto. Qed.
Lemma except_app : forall id R a a' b b', except id R a a' -> except id R b b' -> except id R (a ++ b) (a' ++ b').
Proof. intros. apply Forall2_app; assumption. Qed.
Lemma inside_map : forall id (R : atom -> atom -> Prop) h a, (forall c, In c (a_kids a) -> a_id c = id -> R c (h c)) -> inside id R a (map_child id h a).
Proof. intros id R h a H. split; [apply with_kids_box|]. apply except_map, H. Qed.

Lemma table_edit_shift : forall w d a, (0 < w)%nat -> good_table w a -> table_edit a (shift_table w d a).
Proof.
  intros w d a W G. destruct (G) as (K & v & offs & V & E & L & F).
  assert (F' : Forall (fun o => o < 2 ^ (8 * N.of_nat w)) offs) by (eapply Forall_impl; [|exact F]; cbv beta; tauto).
  rewrite (shift_table_pre d w a v offs W V E F'). repeat split; cbn [a_pre].
  - rewrite E, !blen_app, !flat_be_blen, blen_map. lia.
  - rewrite E, !app_assoc. destruct V as (fl & Lf & ->).
    assert (L8 : List.length ((n2b 0 :: fl) ++ be 4 (blen offs)) = 8%nat) by (rewrite app_length, be_length; cbn [List.length]; lia).
    rewrite !firstn_app, L8. reflexivity.
Qed.
Lemma stbl_edit_shift : forall d a, good_stbl a -> stbl_edit a (shift_stbl d a).
Proof.
  intros d a (_ & _ & T1 & T2). split; [repeat split|]. unfold shift_stbl, map_child, with_kids. cbn [a_kids].
  revert T1 T2. generalize (a_kids a) as ks. induction ks as [|k r IH]; intros T1 T2; [constructor|].
  rewrite named_cons in T1, T2. cbn [map_kids map]. constructor.
  - destruct (is_named (id4 "co64") k) eqn:C.
    + apply is_named_eq in C. assert (X : is_named (id4 "stco") (shift_table 8 d k) = false).
      { destruct (is_named (id4 "stco") (shift_table 8 d k)) eqn:X; [|reflexivity]. apply is_named_eq in X. change (a_id (shift_table 8 d k)) with (a_id k) in X. rewrite C in X. discriminate X. }
      rewrite X. right. split; [right; exact C|]. apply table_edit_shift; [lia|]. inversion T2; assumption.
    + destruct (is_named (id4 "stco") k) eqn:S; [|left; reflexivity]. apply is_named_eq in S. right. split; [left; exact S|].
      apply table_edit_shift; [lia|]. inversion T1; assumption.
  - apply IH; [destruct (is_named (id4 "stco") k)|destruct (is_named (id4 "co64") k)]; try assumption; inversion T1; inversion T2; assumption.
Qed.
Lemma trak_edit_shift : forall d a, good_trak a -> trak_edit a (shift_trak d a).
Proof.
  intros d a [_ G]. apply inside_map. intros c I E. destruct (named_in _ _ _ c G I E) as [_ G2].
  apply inside_map. intros c2 I2 E2. destruct (named_in _ _ _ c2 G2 I2 E2) as [_ G3].
  apply inside_map. intros c3 I3 E3. apply stbl_edit_shift. exact (named_in _ _ _ c3 G3 I3 E3).
Qed.
Lemma traks_edit_shift : forall d ks, Forall good_trak (named_kids (id4 "trak") ks) -> except (id4 "trak") trak_edit ks (shift_traks d ks).
Proof. intros d ks G. apply except_map. intros c I E. apply trak_edit_shift. exact (named_in _ _ _ c G I E). Qed.

Lemma missing_cases : forall me, missing_hdlr me = [] \/ exists h, missing_hdlr me = [h] /\ a_id h = id4 "hdlr" /\ named_kids (id4 "hdlr") (a_kids me) = [].
Proof. intro me. unfold missing_hdlr. destruct (named_kids (id4 "hdlr") (a_kids me)); [right; eexists; repeat split|left; reflexivity]. Qed.
Lemma meta_edit_update : forall items me, meta_edit me (update_meta items me).
Proof.
  intros items me. unfold update_meta. destruct (split_on (id4 "ilst") (a_kids me)) as [[[x c] y]|] eqn:E.
  - apply split_on_some in E. destruct E as (E & I & _). split; [apply with_kids_box|]. exists x, [c], (missing_hdlr me), (new_ilst items), y.
    split; [exact E|]. split; [reflexivity|]. split; [reflexivity|]. split; [right; exists c; split; [reflexivity|exact I]|apply missing_cases].
  - split; [apply with_kids_box|]. exists (a_kids me), [], (missing_hdlr me), (new_ilst items), [].
    split; [cbn [app]; rewrite app_nil_r; reflexivity|]. split; [reflexivity|]. split; [reflexivity|]. split; [left; reflexivity|apply missing_cases].
Qed.
Lemma split_on_empty : forall id l, split_on id l = None -> named_kids id l = [].
Proof.
  intros id. induction l as [|a r IH]; intro H; [reflexivity|]. cbn [split_on] in H. rewrite named_cons. destruct (is_named id a); [discriminate|].
  apply IH. destruct (split_on id r) as [[[? ?] ?]|]; [discriminate|reflexivity].
Qed.
Lemma udta_edit_update : forall items u, udta_edit u (update_udta items u).
Proof.
  intros items u. unfold update_udta. destruct (split_on (id4 "meta") (a_kids u)) as [[[x c] y]|] eqn:E.
  - apply split_on_some in E. destruct E as (E & I & _). split; [apply with_kids_box|]. left. exists x, c, (update_meta items c), y.
    split; [exact E|]. split; [reflexivity|]. split; [exact I|apply meta_edit_update].
  - apply split_on_empty in E. split; [apply with_kids_box|]. right. split; [exact E|]. exists (new_meta items). split; reflexivity.
Qed.
Lemma moov_edit_update : forall items d mv, good_moov mv -> moov_edit mv (update_moov items d mv).
Proof.
  intros items d mv [GT _]. unfold update_moov. destruct (split_on (id4 "udta") (a_kids mv)) as [[[x u] y]|] eqn:E.
  - apply split_on_some in E. destruct E as (E & I & _). split; [apply with_kids_box|]. exists (shift_traks d x ++ u :: y). split.
    + rewrite E in *. apply good_sub in GT. apply except_app; [apply traks_edit_shift, GT|apply except_same].
    + left. exists (shift_traks d x), u, (update_udta items u), y. split; [reflexivity|]. split; [reflexivity|]. split; [exact I|apply udta_edit_update].
  - apply split_on_empty in E. split; [apply with_kids_box|]. exists (shift_traks d (a_kids mv)). split; [apply traks_edit_shift, GT|].
    right. split; [unfold shift_traks; rewrite named_map_other by (discriminate || reflexivity); exact E|]. exists (new_udta items). split; reflexivity.
Qed.
Lemma file_edit_update : forall items f t, describes f t -> editable f -> file_edit f (update_file items f).
Proof.
  intros items f t (ft & pre & mv & post & -> & I & _ & _ & J & N & _) E. pose proof (editable_moov _ _ _ _ J E) as G.
  rewrite (update_at items ft pre mv post I J N). eexists (ft :: pre), mv, _, post. split; [reflexivity|]. split; [reflexivity|].
  split; [exact J|]. apply moov_edit_update, G.
Qed.
(** In particular media data is kept. *)
Lemma file_edit_others : forall id f g, id <> id4 "moov" -> file_edit f g -> named_kids id f = named_kids id g.
Proof.
  intros id f g D (x & mv & mv' & y & -> & -> & J & [(_ & K & _) _]). rewrite !named_app, !named_other; [reflexivity| |]; congruence.
Qed.

(** * Chunk offsets *)

Lemma offsets_shift : forall w d a, (0 < w)%nat -> good_table w a -> offsets (w, shift_table w d a) = map (shift_entry w d) (offsets (w, a)).
Proof.
  intros w d a W G. destruct (G) as (K & v & offs & V & E & L & F).
  assert (F' : Forall (fun o => o < 2 ^ (8 * N.of_nat w)) offs) by (eapply Forall_impl; [|exact F]; cbv beta; tauto).
  rewrite (shift_table_pre d w a v offs W V E F'). unfold offsets. cbn [fst snd a_pre]. rewrite E.
  rewrite !entries_of; auto. apply Forall_forall. intros o I. apply in_map_iff in I. destruct I as (o' & <- & _). apply shift_entry_lt.
Qed.

Definition shift_pair (d : Z) (t : nat * atom) : nat * atom := (fst t, shift_table (fst t) d (snd t)).

Lemma stbl_tables_shift : forall d a, stbl_tables (shift_stbl d a) = map (shift_pair d) (stbl_tables a).
Proof.
  intros d a. unfold stbl_tables, shift_stbl, map_child, with_kids. cbn [a_kids].
  rewrite map_app, !map_map. unfold shift_pair. cbn [fst snd]. f_equal.
  - rewrite named_map_same by reflexivity. rewrite named_map_other by (discriminate || reflexivity). rewrite map_map. reflexivity.
  - rewrite named_map_other by (discriminate || reflexivity). rewrite named_map_same by reflexivity. rewrite map_map. reflexivity.
Qed.
Lemma flat_map_map : forall {A B C D} (h : C -> A) (g : A -> list B) (g' : C -> list D) (s : D -> B) l,
  (forall c, g (h c) = map s (g' c)) -> flat_map g (map h l) = map s (flat_map g' l).
Proof. intros A B C D h g g' s l H. induction l as [|c r IH]; [reflexivity|]. cbn [map flat_map]. rewrite H, IH, map_app. reflexivity. Qed.
Lemma under_map : forall id g h s a, (forall c, a_id (h c) = a_id c) -> (forall c, g (h c) = map s (g c)) ->
  under id g (map_child id h a) = map s (under id g a).
Proof.
  intros id g h s a Hi H. unfold under, map_child, with_kids. cbn [a_kids]. rewrite named_map_same by exact Hi. apply flat_map_map, H.
Qed.
Definition trak_tables : atom -> list (nat * atom) := under (id4 "mdia") (under (id4 "minf") (under (id4 "stbl") stbl_tables)).
Lemma trak_tables_shift : forall d a, trak_tables (shift_trak d a) = map (shift_pair d) (trak_tables a).
Proof. intros d a. repeat (apply under_map; [reflexivity|intro]). apply stbl_tables_shift. Qed.
Definition kid_tables (ks : list atom) : list (nat * atom) := flat_map trak_tables (named_kids (id4 "trak") ks).
Lemma kid_tables_shift : forall d ks, kid_tables (shift_traks d ks) = map (shift_pair d) (kid_tables ks).
Proof. intros d ks. unfold kid_tables, shift_traks. rewrite named_map_same by reflexivity. apply flat_map_map, trak_tables_shift. Qed.
Lemma kid_tables_app : forall x y, kid_tables (x ++ y) = kid_tables x ++ kid_tables y.
Proof. intros. unfold kid_tables. rewrite named_app. apply flat_map_app. Qed.
Lemma kid_tables_other : forall k r, a_id k <> id4 "trak" -> kid_tables (k :: r) = kid_tables r.
Proof. intros. unfold kid_tables. rewrite named_other by assumption. reflexivity. Qed.
Lemma moov_tables_kids : forall mv, moov_tables mv = kid_tables (a_kids mv). Proof. reflexivity. Qed.

(** The tables in front of the user data, and those behind. *)
Definition front_kids (mv : atom) : list atom := match split_on (id4 "udta") (a_kids mv) with Some (x, _, _) => x | None => a_kids mv end.
Definition back_kids (mv : atom) : list atom := match split_on (id4 "udta") (a_kids mv) with Some (_, _, y) => y | None => [] end.
Lemma moov_tables_parts : forall mv, moov_tables mv = kid_tables (front_kids mv) ++ kid_tables (back_kids mv).
Proof.
  intro mv. rewrite moov_tables_kids. unfold front_kids, back_kids. destruct (split_on (id4 "udta") (a_kids mv)) as [[[x u] y]|] eqn:E.
  - apply split_on_some in E. destruct E as (-> & I & _). rewrite kid_tables_app, kid_tables_other by (rewrite I; discriminate). reflexivity.
  - symmetry. apply app_nil_r.
Qed.
Lemma update_moov_tables : forall items d mv,
  moov_tables (update_moov items d mv) = map (shift_pair d) (kid_tables (front_kids mv)) ++ kid_tables (back_kids mv).
Proof.
  intros items d mv. rewrite moov_tables_kids. unfold update_moov, front_kids, back_kids. destruct (split_on (id4 "udta") (a_kids mv)) as [[[x u] y]|] eqn:E;
    unfold with_kids; cbn [a_kids]; rewrite kid_tables_app, kid_tables_shift, kid_tables_other; try reflexivity.
  - apply split_on_some in E. destruct E as (_ & I & _). rewrite update_udta_id, I. discriminate.
  - discriminate.
Qed.
Lemma file_tables_at : forall ft pre mv post, a_id ft = id4 "ftyp" -> a_id mv = id4 "moov" -> named_kids (id4 "moov") (pre ++ post) = [] ->
  file_tables ((ft :: pre) ++ mv :: post) = moov_tables mv.
Proof.
  intros ft pre mv post I J N. unfold file_tables. cbn [app]. rewrite named_other by (rewrite I; discriminate). apply named_two in N. destruct N as [N1 N2].
  rewrite named_app, N1, named_this by exact J. rewrite N2. cbn [app flat_map]. apply app_nil_r.
Qed.

(** Tables of good movies are good. *)
Definition table_ok (t : nat * atom) : Prop := (0 < fst t)%nat /\ good_table (fst t) (snd t).
Lemma under_all : forall id g (P : nat * atom -> Prop) a, (forall c, In c (a_kids a) -> a_id c = id -> Forall P (g c)) -> Forall P (under id g a).
Proof.
  intros id g P a H. unfold under. apply Forall_forall. intros t I. apply in_flat_map in I. destruct I as (c & I & J). apply filter_In in I. destruct I as [I E].
  apply is_named_eq in E. specialize (H c I E). rewrite Forall_forall in H. apply H, J.
Qed.
Lemma trak_tables_ok : forall a, good_trak a -> Forall table_ok (trak_tables a).
Proof.
  intros a [_ G]. apply under_all. intros c I E. destruct (named_in _ _ _ c G I E) as [_ G2].
  apply under_all. intros c2 I2 E2. destruct (named_in _ _ _ c2 G2 I2 E2) as [_ G3].
  apply under_all. intros c3 I3 E3. destruct (named_in _ _ _ c3 G3 I3 E3) as (_ & _ & T1 & T2).
  unfold stbl_tables. apply Forall_app. split; apply Forall_forall; intros t J; apply in_map_iff in J; destruct J as (k & <- & J); (split; [cbn [fst]; lia|]);
    cbn [fst snd]; [rewrite Forall_forall in T1; apply T1, J|rewrite Forall_forall in T2; apply T2, J].
Qed.
Lemma kid_tables_ok : forall ks, Forall good_trak (named_kids (id4 "trak") ks) -> Forall table_ok (kid_tables ks).
Proof.
  intros ks G. unfold kid_tables. induction G as [|c r H _ IH]; [constructor|]. cbn [flat_map]. apply Forall_app. split; [apply trak_tables_ok, H|exact IH].
Qed.

Lemma displacement_growth : forall items ft pre mv post, a_id ft = id4 "ftyp" -> a_id mv = id4 "moov" -> named_kids (id4 "moov") (pre ++ post) = [] ->
  good_moov mv -> displacement items (ft :: pre ++ mv :: post) = growth items mv.
Proof.
  intros items ft pre mv post I J N G. unfold displacement. rewrite (update_at items ft pre mv post I J N).
  change (ft :: pre ++ mv :: post) with ((ft :: pre) ++ mv :: post). rewrite !render_all_app, !render_all_cons, !blen_app.
  set (d := match named_kids (id4 "mdat") post with [] => 0%Z | _ => growth items mv end). unfold growth.
  fold (asize (update_moov items d mv)). fold (asize (update_moov items 0 mv)). rewrite (update_moov_size items d 0 mv G). fold (asize mv). lia.
Qed.
