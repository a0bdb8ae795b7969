(** What the file says after writing when containers occur several times. *)

From Coq Require Import List NArith ZArith Bool Lia Arith String.
From Coq Require Import ZifyBool ZifyNat ZifyN.
From Verif Require Import Base BaseLemmas Utf UtfLemmas Types Stream Parse Find Write TagSpec FileSpec ParseLemmas ReadProofs ReadSpec ReadFacts
  NewMeans WriteBytes ScanProofs AdjustProofs WriteProofs WriteMain UpdateMeans UpdateTwice EditSpec EditProofs OffsetProofs RepairSpec LastSpec LastProofs LastWrite.
Import ListNotations.
Local Open Scope list_scope.

Lemma last_opt_end : forall {A} (l : list A) x, last_opt (l ++ [x]) = Some x.
Proof. intros A l x. induction l as [|a l IH]; [reflexivity|]. cbn [app last_opt]. destruct l; [reflexivity|exact IH]. Qed.

(** [named] with the last one apart. *)
Lemma named_end : forall id x c y, a_id c = id -> named_kids id y = [] -> named_kids id (x ++ c :: y) = named_kids id x ++ [c].
Proof. intros id x c y I N. rewrite named_app, named_this, N by exact I. reflexivity. Qed.

Lemma child_last : forall {A} id (P : atom -> A -> Prop) a x c c' y o v, last_child id P a o -> a_kids a = x ++ c :: y -> a_id c = id -> named_kids id y = [] ->
  a_id c' = id -> P c' v -> forall b, a_kids b = x ++ c' :: y -> last_child id P b (Some v).
Proof.
  intros A id P a x c c' y o v (l & F & _) E I N I' H b Eb. rewrite E, named_end in F by assumption. apply Forall2_app_inv_l in F. destruct F as (l1 & l2 & F1 & _ & _).
  exists (l1 ++ [v]). rewrite Eb, named_end by assumption. split; [apply Forall2_app; [exact F1|repeat constructor; exact H]|]. symmetry. apply last_opt_end.
Qed.
Lemma child_new : forall {A} id (P : atom -> A -> Prop) a o c v, last_child id P a o -> a_id c = id -> P c v -> forall b, a_kids b = a_kids a ++ [c] -> last_child id P b (Some v).
Proof.
  intros A id P a o c v (l & F & _) I H b Eb. exists (l ++ [v]). rewrite Eb, named_end by (reflexivity || exact I). split; [apply Forall2_app; [exact F|repeat constructor; exact H]|].
  symmetry. apply last_opt_end.
Qed.

(** * Tracks *)

Lemma box_last_map : forall {A} id (P : atom -> option A -> Prop) h a o, (forall c, a_id (h c) = a_id c) -> (forall c x, P c x -> P (h c) x) ->
  box id P a o -> box id P (last_kid id h a) o.
Proof.
  intros A id P h a o Hi H (Pre & oo & (l & F & E) & J). split; [exact Pre|]. exists oo. split; [|exact J]. exists l. split; [|exact E].
  unfold last_kid, with_kids. cbn [a_kids]. destruct (last_cases id (a_kids a)) as [N|(x & c & y & K & I & N)]; [rewrite map_last_none by exact N; exact F|].
  rewrite K in F |- *. rewrite map_last_at by assumption. rewrite named_end in F by assumption. rewrite named_end; [|rewrite Hi; exact I|exact N].
  apply Forall2_app_inv_l in F. destruct F as (l1 & l2 & F1 & F2 & ->). apply Forall2_app; [exact F1|]. inversion F2 as [|? ? ? ? Hc F3]; subst. constructor; [apply H, Hc|exact F3].
Qed.
Lemma move_stbl_means : forall d a o, stbl_means a o -> stbl_means (move_stbl d a) o.
Proof.
  intros d a o (Pre & oo & (l & F & E) & J). split; [exact Pre|]. exists oo. split; [|exact J]. exists l. split; [|exact E].
  unfold move_stbl, last_kid, with_kids. cbn [a_kids]. rewrite !named_last_other; try discriminate; try (intro; reflexivity). exact F.
Qed.
Lemma move_trak_means : forall d a o, trak_means a o -> trak_means (move_trak d a) o.
Proof.
  intros d a o H. unfold move_trak. apply box_last_map; [intro; reflexivity| |exact H]. intros c x Hc.
  apply box_last_map; [intro; reflexivity| |exact Hc]. intros c2 x2 H2. apply box_last_map; [intro; reflexivity| |exact H2].
  intros c3 x3 H3. apply move_stbl_means, H3.
Qed.

(** * Metadata *)

Lemma last_meta_id : forall items me, a_id (last_meta items me) = a_id me.
Proof. intros. unfold last_meta. destruct (split_last (id4 "ilst") (a_kids me)) as [[[x c] y]|]; reflexivity. Qed.
Lemma last_udta_id : forall items u, a_id (last_udta items u) = a_id u.
Proof. intros. unfold last_udta. destruct (split_last (id4 "meta") (a_kids u)) as [[[x c] y]|]; reflexivity. Qed.
Lemma last_moov_id : forall items d u, a_id (last_moov items d u) = a_id u.
Proof. intros. unfold last_moov. destruct (split_last (id4 "udta") (a_kids u)) as [[[x c] y]|]; reflexivity. Qed.

Lemma last_meta_means : forall items me o, describable items -> meta_means me o -> meta_means (last_meta items me) (Some items).
Proof.
  intros items me o Di (V & l & F & _). assert (X : ilst_means (new_ilst items) items) by apply new_ilst_means, Di.
  assert (R : forall x y l1, Forall2 ilst_means (named_kids (id4 "ilst") x) l1 -> named_kids (id4 "ilst") y = [] ->
    meta_means (with_kids me (x ++ missing_hdlr me ++ [new_ilst items] ++ y)) (Some items)).
  { intros x y l1 Fx Ny. split; [exact V|]. exists (l1 ++ [items]). split; [|symmetry; apply last_opt_end]. unfold with_kids. cbn [a_kids].
    rewrite !named_app, missing_other by discriminate. cbn [app]. rewrite named_this by reflexivity. rewrite Ny. apply Forall2_app; [exact Fx|]. repeat constructor; apply X. }
  unfold last_meta. destruct (split_last (id4 "ilst") (a_kids me)) as [[[x c] y]|] eqn:E.
  - apply split_last_some in E. destruct E as (E & I & N). rewrite E, named_end in F by assumption. apply Forall2_app_inv_l in F. destruct F as (l1 & l2 & F1 & _ & _).
    exact (R x y l1 F1 N).
  - specialize (R (a_kids me) [] l F eq_refl). rewrite app_nil_r in R. exact R.
Qed.
Lemma last_udta_means : forall items u o, describable items -> udta_means u o -> udta_means (last_udta items u) (Some items).
Proof.
  intros items u o Di (Pre & oo & L & _).
  assert (R : forall b, a_pre b = [] -> last_child (id4 "meta") meta_means b (Some (Some items)) -> udta_means b (Some items)).
  { intros b Pb Lb. split; [exact Pb|]. exists (Some (Some items)). split; [exact Lb|reflexivity]. }
  unfold last_udta. destruct (split_last (id4 "meta") (a_kids u)) as [[[x c] y]|] eqn:E.
  - apply split_last_some in E. destruct E as (E & I & N). apply R; [exact Pre|].
    pose proof L as (l & F & _). rewrite E, named_end in F by assumption. apply Forall2_app_inv_l in F. destruct F as (l1 & l2 & _ & F2 & _). inversion F2 as [|? oc ? ? Hc _]; subst.
    apply (child_last (id4 "meta") meta_means u x c (last_meta items c) y oo (Some items) L E I N); [rewrite last_meta_id; exact I|eapply last_meta_means; eassumption|reflexivity].
  - apply R; [exact Pre|]. apply (child_new (id4 "meta") meta_means u oo (FileSpec.new_meta items) (Some items) L); [reflexivity|apply new_meta_means, Di|reflexivity].
Qed.
Lemma last_moov_means : forall items d mv info old, describable items -> moov_means mv info old -> moov_means (last_moov items d mv) info items.
Proof.
  intros items d mv info old Di (Pre & dur & auds & uo & (dl & D1 & D2) & T & U & -> & _).
  assert (R : forall x u y, named_kids (id4 "mvhd") (x ++ y) = named_kids (id4 "mvhd") (a_kids mv) ->
    named_kids (id4 "trak") (x ++ y) = named_kids (id4 "trak") (a_kids mv) ->
    (exists l, Forall2 udta_means (named_kids (id4 "udta") x) l) -> named_kids (id4 "udta") y = [] -> a_id u = id4 "udta" -> udta_means u (Some items) ->
    moov_means (with_kids mv (move_traks d x ++ u :: y)) (info_of dur (first_some auds)) items).
  { intros x u y Nm Nt (lx & Fx) Ny I Mu.
    assert (N : forall id, id <> id4 "trak" -> id <> id4 "udta" -> named_kids id (move_traks d x ++ u :: y) = named_kids id (x ++ y)).
    { intros id A B. rewrite !named_app, named_other by congruence. f_equal. apply named_map_other; [exact A|reflexivity]. }
    split; [exact Pre|]. exists dur, auds, (Some (Some items)).
    split; [exists dl; split; [|exact D2]; unfold with_kids; cbn [a_kids]; rewrite N, Nm by discriminate; exact D1|].
    split; [|split; [|split; reflexivity]].
    - unfold with_kids. cbn [a_kids]. rewrite named_app, named_other by (rewrite I; discriminate).
      unfold move_traks. rewrite named_map_same by reflexivity.
      rewrite named_app in Nt. rewrite <- Nt in T. apply Forall2_app_inv_l in T. destruct T as (l1 & l2 & T1 & T2 & ->).
      apply Forall2_app; [|exact T2]. eapply forall2_map; [|exact T1]. apply move_trak_means.
    - exists (lx ++ [Some items]). split; [|symmetry; apply last_opt_end]. unfold with_kids. cbn [a_kids]. rewrite named_app.
      unfold move_traks. rewrite (named_map_other (id4 "udta")) by (discriminate || reflexivity). rewrite named_this by exact I. rewrite Ny.
      apply Forall2_app; [exact Fx|]. constructor; [exact Mu|constructor]. }
  destruct U as (ul & U & _). unfold last_moov. destruct (split_last (id4 "udta") (a_kids mv)) as [[[x c] y]|] eqn:E.
  - apply split_last_some in E. destruct E as (E & I & N). rewrite E, named_end in U by assumption. apply Forall2_app_inv_l in U. destruct U as (l1 & l2 & U1 & U2 & _).
    inversion U2 as [|? oc ? ? Hc _]; subst. rewrite E in R. apply R.
    + rewrite !named_app, named_other by (rewrite I; discriminate). reflexivity.
    + rewrite !named_app, named_other by (rewrite I; discriminate). reflexivity.
    + exists l1. exact U1.
    + exact N.
    + rewrite last_udta_id. exact I.
    + eapply last_udta_means; eassumption.
  - apply R; rewrite ?app_nil_r; try reflexivity; [exists ul; exact U|apply new_udta_means, Di].
Qed.

(** * Files *)

Lemma last_at : forall items ft pre mv post, a_id mv = id4 "moov" -> named_kids (id4 "moov") post = [] -> last_file items (ft :: pre ++ mv :: post) = llast items ft pre mv post.
Proof. intros items ft pre mv post J N. unfold last_file. change (ft :: pre ++ mv :: post) with ((ft :: pre) ++ mv :: post). rewrite split_last_at by assumption. reflexivity. Qed.

Lemma outline_parts : forall f, outline f -> exists ft s pre mv post, f = ft :: pre ++ mv :: post /\ a_id ft = id4 "ftyp" /\ wf_ustr s = true /\ a_content ft = enc8 s /\
  a_id mv = id4 "moov" /\ Forall plain_moov (named_kids (id4 "moov") pre) /\ named_kids (id4 "moov") post = [] /\ plain_moov mv.
Proof.
  intros f (ft & s & rest & -> & I & W & C & N & B). destruct (last_cases (id4 "moov") rest) as [E|(pre & mv & post & -> & J & Np)]; [contradiction|].
  exists ft, s, pre, mv, post. rewrite named_end in B by assumption. apply Forall_app in B. destruct B as [B1 B2]. inversion B2; subst. repeat (split; [assumption || reflexivity|]). assumption.
Qed.
Lemma sound_at : forall ft pre mv post, a_id mv = id4 "moov" -> named_kids (id4 "moov") post = [] -> sound_tables (ft :: pre ++ mv :: post) -> sound_moov mv.
Proof. intros ft pre mv post J N H. unfold sound_tables in H. change (ft :: pre ++ mv :: post) with ((ft :: pre) ++ mv :: post) in H. rewrite split_last_at in H by assumption. exact H. Qed.

Theorem last_written : forall cap fuel m items f, outline f -> sound_tables f -> good_sizes f -> exact_items items -> good_sizes (last_file items f) ->
  blen (render_all f) < N.of_nat fuel -> exists ops, write_tag cap fuel m items (render_all f) = WResult (Ok tt) (render_all (last_file items f)) ops.
Proof.
  intros cap fuel m items f O S G Ex G' Fu. destruct (outline_parts f O) as (ft & s & pre & mv & post & -> & I & W & C & J & N1 & N2 & P).
  rewrite (last_at items ft pre mv post J N2) in *. destruct (write_llast cap fuel m items ft s pre mv post I W C J N1 N2 P G (sound_at _ _ _ _ J N2 S) Ex G' Fu) as (ops & H & _).
  exists ops. exact H.
Qed.

Lemma described_outline : forall f t, describes f t -> outline f.
Proof.
  intros f t (ft & pre & mv & post & -> & I & W & C & J & N & M). exists ft, (tg_ftyp t), (pre ++ mv :: post). split; [reflexivity|]. do 3 (split; [assumption|]).
  apply named_two in N. destruct N as [N1 N2]. rewrite named_app, named_this, N1, N2 by exact J. split; [discriminate|]. constructor; [|constructor].
  exact (moov_plain _ _ _ M).
Qed.
Theorem last_describes : forall items f t, describable items -> describes f t -> describes (last_file items f) (Tag (tg_ftyp t) (tg_info t) items).
Proof.
  intros items f t Di (ft & pre & mv & post & -> & I & W & C & J & N & M). pose proof N as N'. apply named_two in N'. destruct N' as [_ N2].
  rewrite (last_at items ft pre mv post J N2). eexists ft, pre, _, post. cbn [tg_ftyp tg_info tg_atoms].
  split; [reflexivity|]. do 3 (split; [assumption|]). split; [rewrite last_moov_id; exact J|]. split; [exact N|].
  eapply last_moov_means; [exact Di|exact M].
Qed.

(** * Nothing occurs twice *)

Lemma split_last_one : forall id l, at_most_one id l -> split_last id l = split_on id l.
Proof.
  intros id l O. destruct (split_one id l O) as [N|(x & c & y & -> & I & N1 & N2)].
  - rewrite split_on_none, (proj2 (split_last_none id l) N) by exact N. reflexivity.
  - rewrite split_on_at, split_last_at by assumption. reflexivity.
Qed.
Lemma map_last_one : forall id h l, at_most_one id l -> map_last id h l = map_kids id h l.
Proof.
  intros id h l O. destruct (split_one id l O) as [N|(x & c & y & -> & I & N1 & N2)].
  - rewrite map_last_none, map_kids_none by exact N. reflexivity.
  - rewrite map_last_at, map_kids_one by assumption. reflexivity.
Qed.
Lemma only_of_last : forall id (P : atom -> Prop) k, only_child id P k -> of_last id P k.
Proof.
  intros id P k [_ F]. apply of_last_named. intros l c E. rewrite E in F. apply Forall_app in F. destruct F as [_ F]. inversion F; assumption.
Qed.
Lemma good_stbl_sound : forall k, good_stbl k -> sound_stbl k.
Proof. intros k (O1 & O2 & T1 & T2). split; apply only_of_last; split; assumption. Qed.
Lemma good_trak_sound : forall k, good_trak k -> sound_trak k.
Proof.
  intros k G. apply only_of_last in G. eapply of_last_impl; [exact G|]. intros c Gc. apply only_of_last in Gc. eapply of_last_impl; [exact Gc|]. intros c2 G2.
  apply only_of_last in G2. eapply of_last_impl; [exact G2|]. apply good_stbl_sound.
Qed.
Lemma good_moov_sound : forall k, good_moov k -> sound_moov k.
Proof. intros k [G _]. eapply Forall_impl; [|exact G]. apply good_trak_sound. Qed.

Lemma map_kids_ext : forall id g h ks, (forall c, In c ks -> a_id c = id -> g c = h c) -> map_kids id g ks = map_kids id h ks.
Proof. intros id g h ks H. apply map_ext_in. intros c I. destruct (is_named id c) eqn:E; [apply H; [exact I|apply is_named_eq, E]|reflexivity]. Qed.
Lemma move_stbl_one : forall d k, good_stbl k -> move_stbl d k = shift_stbl d k.
Proof.
  intros d k (O1 & O2 & _). unfold move_stbl, shift_stbl, last_kid, map_child, with_kids. cbn [a_ext a_id a_pre a_kids]. f_equal.
  rewrite (map_last_one (id4 "stco")) by exact O1. rewrite map_last_one.
  - apply map_kids_comm; [discriminate| |]; intros c _ E; exact E.
  - unfold at_most_one. rewrite named_map_other by (discriminate || reflexivity). exact O2.
Qed.
Lemma last_kid_one : forall id g h k, only_child id (fun c => g c = h c) k -> last_kid id g k = map_child id h k.
Proof. intros id g h k [O F]. unfold last_kid, map_child. rewrite map_last_one by exact O. f_equal. apply map_kids_ext. intros c I E. exact (named_in _ _ _ c F I E). Qed.
Lemma move_trak_one : forall d k, good_trak k -> move_trak d k = shift_trak d k.
Proof.
  intros d k G. apply last_kid_one. eapply only_impl; [exact G|]. intros c Gc. apply last_kid_one. eapply only_impl; [exact Gc|]. intros c2 G2.
  apply last_kid_one. eapply only_impl; [exact G2|]. intros c3 G3. apply move_stbl_one, G3.
Qed.
Lemma move_traks_one : forall d ks, Forall good_trak (named_kids (id4 "trak") ks) -> move_traks d ks = shift_traks d ks.
Proof. intros d ks G. apply map_kids_ext. intros c I E. apply move_trak_one. exact (named_in _ _ _ c G I E). Qed.
Lemma last_meta_one : forall items me, good_meta me -> last_meta items me = update_meta items me.
Proof. intros items me G. unfold last_meta, update_meta. rewrite split_last_one by exact G. reflexivity. Qed.
Lemma last_udta_one : forall items u, good_udta u -> last_udta items u = update_udta items u.
Proof.
  intros items u [G1 G2]. unfold last_udta, update_udta. rewrite split_last_one by exact G1. destruct (split_on (id4 "meta") (a_kids u)) as [[[x c] y]|] eqn:E; [|reflexivity].
  apply split_on_some in E. destruct E as (E & I & _). rewrite last_meta_one; [reflexivity|]. eapply named_in; [exact G2| |exact I]. rewrite E. apply in_or_app. right. left. reflexivity.
Qed.
Lemma last_moov_one : forall items d mv, good_moov mv -> last_moov items d mv = update_moov items d mv.
Proof.
  intros items d mv [GT [G1 G2]]. unfold last_moov, update_moov. rewrite split_last_one by exact G1. destruct (split_on (id4 "udta") (a_kids mv)) as [[[x c] y]|] eqn:E.
  - apply split_on_some in E. destruct E as (E & I & _). rewrite last_udta_one; [|eapply named_in; [exact G2| |exact I]; rewrite E; apply in_or_app; right; left; reflexivity].
    rewrite move_traks_one; [reflexivity|]. rewrite E in GT. apply good_sub in GT. apply GT.
  - rewrite move_traks_one by exact GT. reflexivity.
Qed.
Lemma last_file_one : forall items f, at_most_one (id4 "moov") f -> editable f -> last_file items f = update_file items f.
Proof.
  intros items f O E. unfold last_file, update_file. rewrite split_last_one by exact O. destruct (split_on (id4 "moov") f) as [[[x mv] y]|] eqn:Es; [|reflexivity].
  apply split_on_some in Es. destruct Es as (Es & J & _). assert (G : good_moov mv) by (eapply named_in; [exact E| |exact J]; rewrite Es; apply in_or_app; right; left; reflexivity).
  unfold last_growth, growth. rewrite !(last_moov_one items _ mv G). reflexivity.
Qed.
Lemma editable_sound : forall f, editable f -> sound_tables f.
Proof.
  intros f E. unfold sound_tables. destruct (split_last (id4 "moov") f) as [[[x mv] y]|] eqn:Es; [|exact Logic.I]. apply split_last_some in Es. destruct Es as (Es & J & _).
  apply good_moov_sound. eapply named_in; [exact E| |exact J]. rewrite Es. apply in_or_app. right. left. reflexivity.
Qed.

(** * What is kept *)

Lemma except_last : forall id (R : atom -> atom -> Prop) h ks, (forall x c y, ks = x ++ c :: y -> a_id c = id -> named_kids id y = [] -> R c (h c)) -> except id R ks (map_last id h ks).
Proof.
  intros id R h ks H. destruct (last_cases id ks) as [N|(x & c & y & -> & I & N)]; [rewrite map_last_none by exact N; apply except_same|].
  rewrite map_last_at by assumption. apply except_app; [apply except_same|]. constructor; [right; split; [exact I|exact (H x c y eq_refl I N)]|apply except_same].
Qed.
Lemma inside_last : forall id (R : atom -> atom -> Prop) h a, of_last id (fun c => R c (h c)) a -> inside id R a (last_kid id h a).
Proof. intros id R h a H. split; [apply with_kids_box|]. apply except_last. intros x c y E I N. exact (of_last_at _ _ _ _ _ _ H E I N). Qed.
Lemma stbl_edit_move : forall d a, sound_stbl a -> stbl_edit a (move_stbl d a).
Proof.
  intros d a [T1 T2]. split; [repeat split|]. unfold move_stbl, last_kid, with_kids. cbn [a_kids].
  set (R := fun c c' : atom => c = c' \/ ((a_id c = id4 "stco" \/ a_id c = id4 "co64") /\ table_edit c c')).
  assert (Same : forall l, Forall2 R l l) by (intro l; induction l; constructor; [left; reflexivity|assumption]).
  destruct (last_cases (id4 "stco") (a_kids a)) as [N|(x & c & y & E & I & N)].
  - rewrite (map_last_none (id4 "stco")) by exact N. destruct (last_cases (id4 "co64") (a_kids a)) as [M|(x2 & c2 & y2 & E2 & I2 & M)]; [rewrite map_last_none by exact M; apply Same|].
    pose proof (of_last_at _ _ _ _ _ _ T2 E2 I2 M) as G. rewrite E2, map_last_at by assumption. apply Forall2_app; [apply Same|]. constructor; [|apply Same].
    right. split; [right; exact I2|]. apply table_edit_shift; [lia|exact G].
  - pose proof (of_last_at _ _ _ _ _ _ T1 E I N) as G. rewrite E, (map_last_at (id4 "stco")) by assumption.
    assert (Rc : R c (shift_table 4 d c)) by (right; split; [left; exact I|apply table_edit_shift; [lia|exact G]]).
    set (c' := shift_table 4 d c) in *. assert (I' : a_id c' = id4 "stco") by exact I.
    assert (T2' : forall l z, named_kids (id4 "co64") (x ++ c' :: y) = l ++ [z] -> good_table 8 z).
    { rewrite named_app, named_other by (rewrite I'; discriminate). intros l z Z. apply (proj1 (of_last_named _ _ a) T2 l z). rewrite E, named_app, named_other by (rewrite I; discriminate). exact Z. }
    destruct (last_cases (id4 "co64") (x ++ c' :: y)) as [M|(x2 & c2 & y2 & E2 & I2 & M)].
    + rewrite map_last_none by exact M. apply Forall2_app; [apply Same|]. constructor; [exact Rc|apply Same].
    + assert (G2 : good_table 8 c2) by (apply (T2' (named_kids (id4 "co64") x2)); rewrite E2; apply named_end; assumption).
      assert (R2 : R c2 (shift_table 8 d c2)) by (right; split; [right; exact I2|apply table_edit_shift; [lia|exact G2]]).
      rewrite E2, map_last_at by assumption. apply app_split in E2. destruct E2 as [(-> & X & ->)|[(z & -> & ->)|(z & -> & ->)]].
      * rewrite X in I'. rewrite I2 in I'. discriminate I'.
      * rewrite <- app_assoc. apply Forall2_app; [apply Same|]. cbn [app]. constructor; [exact Rc|]. apply Forall2_app; [apply Same|]. constructor; [exact R2|apply Same].
      * rewrite <- app_assoc. cbn [app]. apply Forall2_app; [apply Same|]. constructor; [exact R2|]. apply Forall2_app; [apply Same|]. constructor; [exact Rc|apply Same].
Qed.
Lemma trak_edit_move : forall d a, sound_trak a -> trak_edit a (move_trak d a).
Proof.
  intros d a G. apply inside_last. eapply of_last_impl; [exact G|]. intros c Gc. apply inside_last. eapply of_last_impl; [exact Gc|]. intros c2 G2.
  apply inside_last. eapply of_last_impl; [exact G2|]. intros c3 G3. apply stbl_edit_move, G3.
Qed.
Lemma traks_edit_move : forall d ks, Forall sound_trak (named_kids (id4 "trak") ks) -> except (id4 "trak") trak_edit ks (move_traks d ks).
Proof. intros d ks G. apply except_map. intros c I E. apply trak_edit_move. exact (named_in _ _ _ c G I E). Qed.
Lemma meta_edit_last : forall items me, meta_edit me (last_meta items me).
Proof.
  intros items me. unfold last_meta. destruct (split_last (id4 "ilst") (a_kids me)) as [[[x c] y]|] eqn:E.
  - apply split_last_some in E. destruct E as (E & I & _). split; [apply with_kids_box|]. exists x, [c], (missing_hdlr me), (new_ilst items), y.
    split; [exact E|]. split; [reflexivity|]. split; [reflexivity|]. split; [right; exists c; split; [reflexivity|exact I]|apply missing_cases].
  - split; [apply with_kids_box|]. exists (a_kids me), [], (missing_hdlr me), (new_ilst items), [].
    split; [cbn [app]; rewrite app_nil_r; reflexivity|]. split; [reflexivity|]. split; [reflexivity|]. split; [left; reflexivity|apply missing_cases].
Qed.
Lemma udta_edit_last : forall items u, udta_edit u (last_udta items u).
Proof.
  intros items u. unfold last_udta. destruct (split_last (id4 "meta") (a_kids u)) as [[[x c] y]|] eqn:E.
  - apply split_last_some in E. destruct E as (E & I & _). split; [apply with_kids_box|]. left. exists x, c, (last_meta items c), y.
    split; [exact E|]. split; [reflexivity|]. split; [exact I|apply meta_edit_last].
  - apply split_last_none in E. split; [apply with_kids_box|]. right. split; [exact E|]. exists (FileSpec.new_meta items). split; reflexivity.
Qed.
Lemma moov_edit_last : forall items d mv, sound_moov mv -> moov_edit mv (last_moov items d mv).
Proof.
  intros items d mv GT. unfold sound_moov in GT. unfold last_moov. destruct (split_last (id4 "udta") (a_kids mv)) as [[[x u] y]|] eqn:E.
  - apply split_last_some in E. destruct E as (E & I & _). split; [apply with_kids_box|]. exists (move_traks d x ++ u :: y). split.
    + rewrite E in *. apply good_sub in GT. apply except_app; [apply traks_edit_move, GT|apply except_same].
    + left. exists (move_traks d x), u, (last_udta items u), y. split; [reflexivity|]. split; [reflexivity|]. split; [exact I|apply udta_edit_last].
  - apply split_last_none in E. split; [apply with_kids_box|]. exists (move_traks d (a_kids mv)). split; [apply traks_edit_move, GT|].
    right. split; [unfold move_traks; rewrite named_map_other by (discriminate || reflexivity); exact E|]. exists (FileSpec.new_udta items). split; reflexivity.
Qed.
Lemma file_edit_last : forall items f, outline f -> sound_tables f -> file_edit f (last_file items f).
Proof.
  intros items f O S. destruct (outline_parts f O) as (ft & s & pre & mv & post & -> & I & W & C & J & N1 & N2 & P).
  rewrite (last_at items ft pre mv post J N2). eexists (ft :: pre), mv, _, post. split; [reflexivity|]. split; [reflexivity|].
  split; [exact J|]. apply moov_edit_last, (sound_at _ _ _ _ J N2 S).
Qed.
