(** Updating twice. *)

From Coq Require Import List NArith ZArith Bool Lia Arith String.
From Coq Require Import ZifyBool ZifyNat ZifyN.
From Verif Require Import Base BaseLemmas Utf UtfLemmas Types TagSpec FileSpec ParseLemmas ReadProofs ReadFacts NewMeans
  ScanProofs AdjustProofs WriteProofs WriteMain UpdateMeans.
Import ListNotations.
Local Open Scope list_scope.

(** * Shifts add up *)

Lemma shift_entry_lt : forall w d o, shift_entry w d o < 2 ^ (8 * N.of_nat w).
Proof.
  intros w d o. unfold shift_entry.
  assert (P : (0 < 2 ^ (8 * Z.of_nat w))%Z) by (apply Z.pow_pos_nonneg; lia).
  pose proof (Z.mod_pos_bound (Z.of_N o + d) _ P) as [A B].
  assert (E : (2 ^ (8 * Z.of_nat w))%Z = Z.of_N (2 ^ (8 * N.of_nat w))) by (rewrite N2Z.inj_pow; f_equal; lia).
  rewrite E in *. lia.
Qed.
Lemma shift_entry_add : forall w d e o, shift_entry w e (shift_entry w d o) = shift_entry w (d + e) o.
Proof.
  intros w d e o. unfold shift_entry. assert (P : (0 < 2 ^ (8 * Z.of_nat w))%Z) by (apply Z.pow_pos_nonneg; lia).
  pose proof (Z.mod_pos_bound (Z.of_N o + d) _ P). rewrite Z2N.id by lia. rewrite Zplus_mod_idemp_l. f_equal. f_equal. lia.
Qed.
Lemma shift_table_add : forall w d e k, (0 < w)%nat -> good_table w k -> shift_table w e (shift_table w d k) = shift_table w (d + e) k.
Proof.
  intros w d e k W (K & v & offs & V & E & L & F).
  assert (F' : Forall (fun o => o < 2 ^ (8 * N.of_nat w)) offs) by (eapply Forall_impl; [|exact F]; cbv beta; tauto).
  rewrite (shift_table_pre d w k v offs W V E F'), (shift_table_pre (d + e) w k v offs W V E F').
  rewrite (shift_table_pre e w _ v (map (shift_entry w d) offs) W V); cbn [a_pre a_ext a_id a_kids].
  - rewrite map_map. f_equal. rewrite blen_map. do 3 f_equal. apply map_ext. intro o. apply shift_entry_add.
  - rewrite blen_map. reflexivity.
  - apply Forall_forall. intros o I. apply in_map_iff in I. destruct I as (o' & <- & _). apply shift_entry_lt.
Qed.
Lemma map_kids_comp : forall id g h k ks, (forall c, a_id (h c) = a_id c) -> (forall c, In c ks -> a_id c = id -> g (h c) = k c) ->
  map_kids id g (map_kids id h ks) = map_kids id k ks.
Proof.
  intros id g h k ks Hi H. induction ks as [|c r IH]; [reflexivity|]. cbn [map_kids map]. fold (map_kids id h r). fold (map_kids id k r).
  fold (map_kids id g (map_kids id h r)). rewrite IH by (intros; apply H; [right|]; assumption). f_equal.
  destruct (is_named id c) eqn:E; [|rewrite E; reflexivity]. apply is_named_eq in E.
  rewrite (proj2 (is_named_eq id (h c))) by (rewrite Hi; exact E). apply H; [left; reflexivity|exact E].
Qed.
Lemma map_child_comp : forall id g h k a, (forall c, a_id (h c) = a_id c) -> (forall c, In c (a_kids a) -> a_id c = id -> g (h c) = k c) ->
  map_child id g (map_child id h a) = map_child id k a.
Proof. intros id g h k a Hi H. unfold map_child, with_kids. cbn [a_ext a_id a_pre a_kids]. f_equal. apply map_kids_comp; assumption. Qed.
Lemma map_child_swap : forall i1 i2 g h a, i1 <> i2 -> (forall c, a_id (g c) = a_id c) -> (forall c, a_id (h c) = a_id c) ->
  map_child i1 g (map_child i2 h a) = map_child i2 h (map_child i1 g a).
Proof.
  intros i1 i2 g h a D G H. unfold map_child, with_kids. cbn [a_ext a_id a_pre a_kids]. f_equal. apply map_kids_comm; [exact D| |]; intros; congruence.
Qed.
Lemma shift_stbl_add : forall d e k, good_stbl k -> shift_stbl e (shift_stbl d k) = shift_stbl (d + e) k.
Proof.
  intros d e k (_ & _ & T1 & T2). unfold shift_stbl.
  rewrite (map_child_swap (id4 "co64") (id4 "stco")) by (discriminate || reflexivity).
  rewrite (map_child_comp (id4 "co64") _ _ (shift_table 8 (d + e))); [|reflexivity|].
  - apply map_child_comp; [reflexivity|]. intros c I E. apply shift_table_add; [lia|].
    eapply named_in; [|exact I|exact E]. unfold map_child, with_kids. cbn [a_kids]. rewrite named_map_other by (discriminate || reflexivity). exact T1.
  - intros c I E. apply shift_table_add; [lia|]. exact (named_in _ _ _ c T2 I E).
Qed.
Lemma shift_trak_add : forall d e k, good_trak k -> shift_trak e (shift_trak d k) = shift_trak (d + e) k.
Proof.
  intros d e k [_ G]. unfold shift_trak. apply map_child_comp; [reflexivity|]. intros c I E. destruct (named_in _ _ _ c G I E) as [_ G2].
  apply map_child_comp; [reflexivity|]. intros c2 I2 E2. destruct (named_in _ _ _ c2 G2 I2 E2) as [_ G3].
  apply map_child_comp; [reflexivity|]. intros c3 I3 E3. apply shift_stbl_add. exact (named_in _ _ _ c3 G3 I3 E3).
Qed.
Lemma shift_traks_add : forall d e ks, Forall good_trak (named_kids (id4 "trak") ks) -> shift_traks e (shift_traks d ks) = shift_traks (d + e) ks.
Proof. intros d e ks G. apply map_kids_comp; [reflexivity|]. intros c I E. apply shift_trak_add. exact (named_in _ _ _ c G I E). Qed.

(** * The item list *)

Definition same_heads (a b : list atom_data) : Prop :=
  a_ext (new_meta a) = a_ext (new_meta b) /\ a_ext (new_udta a) = a_ext (new_udta b).

Lemma update_new_meta : forall a b, same_heads a b -> update_meta b (new_meta a) = new_meta b.
Proof. intros a b [H _]. change (update_meta b (new_meta a)) with (Atom (a_ext (new_meta a)) (id4 "meta") (zeros 4) [new_hdlr; new_ilst b]). rewrite H. reflexivity. Qed.
Lemma update_new_udta : forall a b, same_heads a b -> update_udta b (new_udta a) = new_udta b.
Proof.
  intros a b H. change (update_udta b (new_udta a)) with (Atom (a_ext (new_udta a)) (id4 "udta") [] [update_meta b (new_meta a)]).
  rewrite update_new_meta by exact H. rewrite (proj2 H). reflexivity.
Qed.
Lemma named_two : forall id x y, named_kids id (x ++ y) = [] <-> named_kids id x = [] /\ named_kids id y = [].
Proof. intros. rewrite named_app. split; [apply app_eq_nil|intros [-> ->]; reflexivity]. Qed.

Lemma update_meta_twice : forall a b me, good_meta me -> update_meta b (update_meta a me) = update_meta b me.
Proof.
  intros a b me G.
  assert (R : forall x y, named_kids (id4 "ilst") x = [] -> named_kids (id4 "hdlr") (x ++ y) = named_kids (id4 "hdlr") (a_kids me) ->
    update_meta b (with_kids me (x ++ missing_hdlr me ++ [new_ilst a] ++ y)) = with_kids me (x ++ missing_hdlr me ++ [new_ilst b] ++ y)).
  { intros x y Nx Nh. unfold update_meta. change (a_kids (with_kids me (x ++ missing_hdlr me ++ [new_ilst a] ++ y))) with (x ++ missing_hdlr me ++ new_ilst a :: y).
    rewrite app_assoc, split_on_at; [|reflexivity|rewrite named_app, Nx, missing_other by discriminate; reflexivity].
    assert (M : missing_hdlr (with_kids me (x ++ missing_hdlr me ++ [new_ilst a] ++ y)) = []).
    { unfold missing_hdlr at 1. unfold with_kids. cbn [a_kids].
      assert (N : named_kids (id4 "hdlr") (x ++ missing_hdlr me ++ [new_ilst a] ++ y) <> []).
      { rewrite named_app in Nh. unfold missing_hdlr. destruct (named_kids (id4 "hdlr") (a_kids me)) eqn:E.
        - rewrite !named_app. intro X. apply app_eq_nil in X. destruct X as [_ X]. apply app_eq_nil in X. destruct X as [X _]. discriminate X.
        - cbn [app]. rewrite named_app, named_other by discriminate. rewrite Nh. discriminate. }
      destruct (named_kids (id4 "hdlr") (x ++ missing_hdlr me ++ [new_ilst a] ++ y)); [contradiction|reflexivity]. }
    rewrite M. unfold with_kids. cbn [a_ext a_id a_pre app]. rewrite <- app_assoc. reflexivity. }
  destruct (split_one (id4 "ilst") (a_kids me) G) as [N|(x & c & y & E & I & N1 & N2)].
  - assert (Ea : forall z, update_meta z me = with_kids me (a_kids me ++ missing_hdlr me ++ [new_ilst z] ++ [])).
    { intro z. unfold update_meta. rewrite split_on_none, app_nil_r by exact N. reflexivity. }
    rewrite !Ea. apply R; [exact N|rewrite app_nil_r; reflexivity].
  - assert (Ea : forall z, update_meta z me = with_kids me (x ++ missing_hdlr me ++ [new_ilst z] ++ y)).
    { intro z. unfold update_meta. rewrite E, split_on_at by assumption. reflexivity. }
    rewrite !Ea. apply R; [exact N1|]. rewrite E, !named_app, named_other by (rewrite I; discriminate). reflexivity.
Qed.
Lemma update_udta_twice : forall a b u, same_heads a b -> good_udta u -> update_udta b (update_udta a u) = update_udta b u.
Proof.
  intros a b u H [G1 G2]. destruct (split_one (id4 "meta") (a_kids u) G1) as [N|(x & c & y & E & I & N1 & N2)].
  - assert (Ea : forall z, update_udta z u = with_kids u (a_kids u ++ [new_meta z])).
    { intro z. unfold update_udta. rewrite split_on_none by exact N. reflexivity. }
    rewrite !Ea. unfold update_udta. change (a_kids (with_kids u (a_kids u ++ [new_meta a]))) with (a_kids u ++ new_meta a :: []).
    rewrite split_on_at by (reflexivity || exact N). rewrite update_new_meta by exact H. reflexivity.
  - assert (Ea : forall z, update_udta z u = with_kids u (x ++ update_meta z c :: y)).
    { intro z. unfold update_udta. rewrite E, split_on_at by assumption. reflexivity. }
    rewrite !Ea. unfold update_udta. change (a_kids (with_kids u (x ++ update_meta a c :: y))) with (x ++ update_meta a c :: y).
    rewrite split_on_at by (rewrite ?update_meta_id; assumption). rewrite update_meta_twice; [reflexivity|].
    apply (named_in _ _ _ c G2); [rewrite E; apply in_or_app; right; left; reflexivity|exact I].
Qed.
Lemma update_moov_twice : forall a b d e mv, same_heads a b -> good_moov mv -> update_moov b e (update_moov a d mv) = update_moov b (d + e) mv.
Proof.
  intros a b d e mv H [GT [G1 G2]]. destruct (split_one (id4 "udta") (a_kids mv) G1) as [N|(x & c & y & E & I & N1 & N2)].
  - assert (Ea : forall z w, update_moov z w mv = with_kids mv (shift_traks w (a_kids mv) ++ [new_udta z])).
    { intros z w. unfold update_moov. rewrite split_on_none by exact N. reflexivity. }
    rewrite !Ea. unfold update_moov. change (a_kids (with_kids mv (shift_traks d (a_kids mv) ++ [new_udta a]))) with (shift_traks d (a_kids mv) ++ new_udta a :: []).
    rewrite split_on_at; [|reflexivity|unfold shift_traks; rewrite named_map_other by (discriminate || reflexivity); exact N].
    rewrite update_new_udta, shift_traks_add by assumption. reflexivity.
  - assert (Ea : forall z w, update_moov z w mv = with_kids mv (shift_traks w x ++ update_udta z c :: y)).
    { intros z w. unfold update_moov. rewrite E, split_on_at by assumption. reflexivity. }
    assert (Gx : Forall good_trak (named_kids (id4 "trak") x)) by (rewrite E in GT; apply good_sub in GT; apply GT).
    rewrite !Ea. unfold update_moov. change (a_kids (with_kids mv (shift_traks d x ++ update_udta a c :: y))) with (shift_traks d x ++ update_udta a c :: y).
    rewrite split_on_at; [|rewrite update_udta_id; exact I|unfold shift_traks; rewrite named_map_other by (discriminate || reflexivity); exact N1].
    rewrite update_udta_twice, shift_traks_add; [reflexivity|exact Gx|exact H|].
    apply (named_in _ _ _ c G2); [rewrite E; apply in_or_app; right; left; reflexivity|exact I].
Qed.

Theorem update_twice : forall a b f, same_heads a b -> (exists t, describes f t) -> editable f -> update_file b (update_file a f) = update_file b f.
Proof.
  intros a b f H (t & ft & pre & mv & post & -> & I & _ & _ & J & N & _) E. pose proof (editable_moov _ _ _ _ J E) as G.
  rewrite (update_at a ft pre mv post I J N). cbn [app]. rewrite update_at by (rewrite ?update_moov_id; assumption).
  rewrite (update_at b ft pre mv post I J N). rewrite update_moov_twice by assumption. apply (f_equal (fun z => (ft :: pre) ++ update_moov b z mv :: post)).
  destruct (named_kids (id4 "mdat") post); [reflexivity|]. unfold growth at 2. rewrite update_moov_twice by assumption.
  unfold growth. fold (asize (update_moov a 0 mv)). fold (asize (update_moov b 0 mv)). fold (asize mv).
  set (g := (Z.of_N (asize (update_moov a 0 mv)) - Z.of_N (asize mv))%Z).
  fold (asize (update_moov b (g + 0) mv)). fold (asize (update_moov a g mv)).
  rewrite (update_moov_size b (g + 0) 0 mv G), (update_moov_size a g 0 mv G). unfold g. lia.
Qed.

(** Tags below 4 GiB. *)
Lemma small_heads : forall a, blen (render (new_udta a)) < 2 ^ 32 -> a_ext (new_meta a) = false /\ a_ext (new_udta a) = false.
Proof.
  intros a H. assert (E : blen (render (new_udta a)) = (if a_ext (new_udta a) then 16 else 8) + blen (render (new_meta a))).
  { fold (asize (new_udta a)). rewrite asize_eq. unfold csize, a_content, hlen. cbn [new_udta new_box a_pre a_kids app render_all flat_map].
    rewrite app_nil_r. reflexivity. }
  assert (E2 : blen (render (new_meta a)) = (if a_ext (new_meta a) then 16 else 8) + blen (zeros 4 ++ render_all [new_hdlr; new_ilst a])).
  { fold (asize (new_meta a)). rewrite asize_eq. reflexivity. }
  split.
  - unfold new_meta, new_box. cbn [a_ext]. apply N.leb_gt. destruct (a_ext (new_udta a)), (a_ext (new_meta a)); lia.
  - unfold new_udta, new_box. cbn [a_ext]. apply N.leb_gt. cbn [app render_all flat_map]. rewrite app_nil_r.
    destruct (a_ext (new_udta a)), (a_ext (new_meta a)); lia.
Qed.
Lemma small_same : forall a b, blen (render (new_udta a)) < 2 ^ 32 -> blen (render (new_udta b)) < 2 ^ 32 -> same_heads a b.
Proof. intros a b A B. apply small_heads in A, B. destruct A, B. split; congruence. Qed.
