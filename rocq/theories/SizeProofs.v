(** Sizes of updated files. *)

From Coq Require Import List NArith ZArith Bool Lia Arith String.
From Coq Require Import ZifyBool ZifyNat ZifyN.
From Verif Require Import Base BaseLemmas Utf Types Parse TagSpec TagLemmas FileSpec ReadSpec ParseLemmas ReadProofs ReadFacts
  Write WriteBytes ScanProofs AdjustProofs WriteProofs WriteMain UpdateMeans UpdateTwice EditSpec EditProofs StoreSpec StoreProofs.
Import ListNotations.
Local Open Scope list_scope.

(** Everything fits in a file smaller than 4 GiB. *)
Lemma small_fits : forall n a, (List.length (render a) <= n)%nat -> asize a < 2 ^ 32 -> fits a = true.
Proof.
  induction n as [|n IH]; intros a L S.
  - exfalso. pose proof (asize_pos a) as P. unfold asize, blen in P. lia.
  - apply fits_eq. rewrite asize_eq in S. split.
    + unfold hlen in S. change (2 ^ 64) with 18446744073709551616. change (2 ^ 32) with 4294967296 in *. destruct (a_ext a); lia.
    + apply forallb_forall. intros k J. pose proof (kid_in_size _ _ J) as K.
      assert (X : asize k < asize a). { rewrite (asize_eq a). pose proof (hlen_pos a). unfold csize, a_content. rewrite blen_app. lia. }
      apply IH; [|unfold csize, a_content in S; rewrite blen_app in S; lia].
      unfold asize, blen in X. lia.
Qed.
Lemma small_good : forall g, blen (render_all g) < 2 ^ 32 -> good_sizes g.
Proof.
  intros g L. split; [|change (2 ^ 62) with 4611686018427387904; change (2 ^ 32) with 4294967296 in L; lia].
  apply forallb_forall. intros k J. apply (small_fits (List.length (render k))); [auto|]. apply kid_in_size in J. lia.
Qed.

Lemma asize_with_kids : forall a k, asize (with_kids a k) + blen (render_all (a_kids a)) = asize a + blen (render_all k).
Proof. intros a k. rewrite !asize_eq. unfold csize, a_content, hlen, with_kids. cbn [a_ext a_pre a_kids]. rewrite !blen_app. destruct (a_ext a); lia. Qed.
Lemma asize_new_hdlr : asize new_hdlr = 33. Proof. reflexivity. Qed.
Lemma missing_size : forall a, blen (render_all (missing_hdlr a)) <= 33.
Proof. intro a. unfold missing_hdlr. destruct (named_kids (id4 "hdlr") (a_kids a)); [apply N.le_refl|vm_compute; discriminate]. Qed.
Lemma render_one : forall k, blen (render_all [k]) = asize k.
Proof. intro k. cbn [render_all flat_map]. rewrite app_nil_r. reflexivity. Qed.
Lemma new_box_small : forall id pre kids, asize (new_box id pre kids) <= blen pre + blen (render_all kids) + (if 2 ^ 32 <=? blen pre + blen (render_all kids) + 8 then 16 else 8).
Proof.
  intros id pre kids. rewrite asize_eq. unfold csize, a_content, hlen, new_box. cbn [a_ext a_pre a_kids]. rewrite blen_app.
  destruct (2 ^ 32 <=? blen pre + blen (render_all kids) + 8); lia.
Qed.

(** The old item list, if any, is replaced; at most three containers are added. *)
Definition list_size (o : option atom) : N := match o with Some il => asize il | None => 0 end.
Definition ilst_of_meta (me : atom) : option atom := last_opt (named_kids (id4 "ilst") (a_kids me)).
Definition ilst_of_udta (u : atom) : option atom :=
  match last_opt (named_kids (id4 "meta") (a_kids u)) with Some me => ilst_of_meta me | None => None end.
Definition ilst_of_moov (mv : atom) : option atom :=
  match last_opt (named_kids (id4 "udta") (a_kids mv)) with Some u => ilst_of_udta u | None => None end.

Lemma only_named : forall id x c y, a_id c = id -> named_kids id x = [] -> named_kids id y = [] -> last_opt (named_kids id (x ++ c :: y)) = Some c.
Proof. intros id x c y I N1 N2. rewrite named_app, N1, named_this, N2 by exact I. reflexivity. Qed.

Lemma update_meta_size : forall items me, good_meta me ->
  asize (update_meta items me) + list_size (ilst_of_meta me) <= asize me + 33 + asize (new_ilst items).
Proof.
  intros items me G. pose proof (missing_size me) as M. unfold update_meta, ilst_of_meta.
  destruct (split_one _ _ G) as [N|(x & c & y & E & I & N1 & N2)].
  - rewrite split_on_none by exact N. rewrite N. cbn [last_opt fold_left list_size].
    pose proof (asize_with_kids me (a_kids me ++ missing_hdlr me ++ [new_ilst items])) as A. rewrite !render_all_app, !blen_app, render_one in A. lia.
  - rewrite E, split_on_at by assumption. rewrite only_named by assumption. cbn [list_size].
    pose proof (asize_with_kids me (x ++ missing_hdlr me ++ [new_ilst items] ++ y)) as A. rewrite E in A.
    rewrite !render_all_app, render_all_cons, !blen_app, render_one in A. fold (asize c) in A. lia.
Qed.
Lemma new_meta_size : forall items, asize (FileSpec.new_meta items) <= asize (new_ilst items) + 53.
Proof.
  intro items. unfold FileSpec.new_meta. pose proof (new_box_small (id4 "meta") (zeros 4) [new_hdlr; new_ilst items]) as B.
  rewrite blen_render_all_cons, render_one, asize_new_hdlr in B. change (blen (zeros 4)) with 4 in B.
  destruct (2 ^ 32 <=? _) in B; lia.
Qed.
Lemma new_udta_size : forall items, asize (FileSpec.new_udta items) <= asize (new_ilst items) + 69.
Proof.
  intro items. unfold FileSpec.new_udta. pose proof (new_box_small (id4 "udta") [] [FileSpec.new_meta items]) as B. pose proof (new_meta_size items) as M.
  rewrite render_one, blen_nil in B. destruct (2 ^ 32 <=? _) in B; lia.
Qed.
Lemma update_udta_size : forall items u, good_udta u ->
  asize (update_udta items u) + list_size (ilst_of_udta u) <= asize u + 53 + asize (new_ilst items).
Proof.
  intros items u [O G]. unfold update_udta, ilst_of_udta. destruct (split_one _ _ O) as [N|(x & c & y & E & I & N1 & N2)].
  - rewrite split_on_none by exact N. rewrite N. cbn [last_opt fold_left list_size]. pose proof (new_meta_size items).
    pose proof (asize_with_kids u (a_kids u ++ [FileSpec.new_meta items])) as A. rewrite !render_all_app, !blen_app, render_one in A. lia.
  - rewrite E, split_on_at by assumption. rewrite only_named by assumption.
    rewrite E, named_app, N1, named_this, N2 in G by exact I. inversion G as [|? ? Gc _]; subst.
    pose proof (update_meta_size items c Gc) as Mc.
    pose proof (asize_with_kids u (x ++ update_meta items c :: y)) as A. rewrite E in A.
    rewrite !render_all_app, !render_all_cons, !blen_app in A. fold (asize c) (asize (update_meta items c)) in A. lia.
Qed.
Lemma update_moov_size : forall items d mv, good_moov mv ->
  asize (update_moov items d mv) + list_size (ilst_of_moov mv) <= asize mv + 69 + asize (new_ilst items).
Proof.
  intros items d mv (T & O & G). unfold update_moov, ilst_of_moov. destruct (split_one _ _ O) as [N|(x & c & y & E & I & N1 & N2)].
  - rewrite split_on_none by exact N. rewrite N. cbn [last_opt fold_left list_size]. pose proof (new_udta_size items).
    pose proof (asize_with_kids mv (shift_traks d (a_kids mv) ++ [FileSpec.new_udta items])) as A.
    rewrite !render_all_app, !blen_app, render_one, shift_traks_size in A by exact T. lia.
  - rewrite E, split_on_at by assumption. rewrite only_named by assumption.
    rewrite E, named_app, N1, named_this, N2 in G by exact I. inversion G as [|? ? Gc _]; subst.
    rewrite E, named_app in T. apply Forall_app in T. destruct T as [T _].
    pose proof (update_udta_size items c Gc) as Mc.
    pose proof (asize_with_kids mv (shift_traks d x ++ update_udta items c :: y)) as A. rewrite E in A.
    rewrite !render_all_app, !render_all_cons, !blen_app, shift_traks_size in A by exact T. fold (asize c) (asize (update_udta items c)) in A. lia.
Qed.

Theorem update_file_size : forall items f t, describes f t -> editable f ->
  blen (render_all (update_file items f)) + list_size (item_list f) <= blen (render_all f) + 69 + asize (new_ilst items).
Proof.
  intros items f t D E. destruct (named_moov f t D) as (mv0 & Nm & _).
  destruct D as (ft & pre & mv & post & -> & I & _ & _ & J & N & M). pose proof (editable_moov ft pre mv post J E) as G.
  assert (mv0 = mv). { rewrite named_other in Nm by (rewrite I; discriminate). apply named_two in N. destruct N as [N1 N2]. rewrite named_app, N1, named_this, N2 in Nm by exact J. cbn [app] in Nm. congruence. }
  subst mv0. unfold item_list. cbn [last_at]. rewrite Nm. change (last_opt [mv]) with (Some mv). cbv iota.
  fold (ilst_of_meta mv). rewrite (update_at items ft pre mv post I J N). set (d := match named_kids (id4 "mdat") post with [] => 0%Z | _ => growth items mv end).
  pose proof (update_moov_size items d mv G) as S. unfold ilst_of_moov, ilst_of_udta, ilst_of_meta in S.
  change (ft :: pre ++ mv :: post) with ((ft :: pre) ++ mv :: post).
  try change (ft :: pre ++ update_moov items d mv :: post) with ((ft :: pre) ++ update_moov items d mv :: post).
  rewrite !render_all_app, !render_all_cons, !blen_app. fold (asize mv) (asize (update_moov items d mv)).
  destruct (last_opt (named_kids (id4 "udta") (a_kids mv))) as [u|]; [|lia].
  destruct (last_opt (named_kids (id4 "meta") (a_kids u))) as [me|]; lia.
Qed.
Print Assumptions update_file_size.

(** * Items read from a list are not larger than the list *)

Definition total (l : list atom_data) : N := nsum (map ad_len l).
Lemma total_cons : forall a l, total (a :: l) = ad_len a + total l. Proof. reflexivity. Qed.
Lemma nsum_app : forall x y, nsum (x ++ y) = nsum x + nsum y.
Proof. induction x as [|a x IH]; intro y; [reflexivity|]. unfold nsum in *. cbn [app fold_right]. rewrite IH. lia. Qed.
Lemma total_add : forall l a, total (ilst_add l a) <= total l + ad_len a.
Proof.
  induction l as [|o r IH]; intro a; cbn [ilst_add]; [rewrite total_cons; lia|]. destruct (ident_eqb (ad_ident a) (ad_ident o)) eqn:E.
  - rewrite !total_cons. unfold ad_len. cbn [ad_ident ad_data]. rewrite map_app, nsum_app. destruct (ad_ident o), (ad_ident a); lia.
  - rewrite !total_cons. specialize (IH a). lia.
Qed.
Lemma total_merged : forall l r, merged l r -> total r <= total l.
Proof.
  intros l r M. rewrite (merged_det _ _ _ M (merged_fold l)). assert (X : forall l s, total (fold_left ilst_add l s) <= total s + total l).
  { clear. induction l as [|a l IH]; intro s; cbn [fold_left]; [lia|]. rewrite total_cons. specialize (IH (ilst_add s a)). pose proof (total_add s a). lia. }
  specialize (X l []). unfold total at 2 in X. cbn in X. lia.
Qed.
Definition sizes (l : list atom) : N := nsum (map asize l).
Lemma three_kinds : forall i1 i2 i3 ks, i1 <> i2 -> i1 <> i3 -> i2 <> i3 ->
  sizes (named_kids i1 ks) + sizes (named_kids i2 ks) + sizes (named_kids i3 ks) <= blen (render_all ks).
Proof.
  intros i1 i2 i3 ks D12 D13 D23. induction ks as [|k r IH]; [apply N.le_refl|]. rewrite blen_render_all_cons, !named_cons. unfold sizes in *.
  destruct (is_named i1 k) eqn:E1; destruct (is_named i2 k) eqn:E2; destruct (is_named i3 k) eqn:E3; try (apply is_named_eq in E1); try (apply is_named_eq in E2);
    try (apply is_named_eq in E3); try congruence; cbn [map nsum fold_right] in *; unfold nsum in *; lia.
Qed.
Lemma data_sizes : forall ks ds, Forall2 data_means ks ds -> Forall (fun d => units d = 0) ds -> nsum (map (fun d => 16 + data_len d) ds) <= sizes ks.
Proof.
  intros ks ds F U. induction F as [|k d ks ds (_ & loc & L & C) F IH]; [apply N.le_refl|]. inversion U; subst. specialize (IH H2). unfold sizes, nsum in *. cbn [map fold_right].
  rewrite asize_eq. unfold csize. rewrite C. pose proof (payload_len d) as P. pose proof (hlen_pos k).
  assert (8 <= hlen k) by (unfold hlen; destruct (a_ext k); lia).
  unfold blen in *. cbn [List.length]. rewrite !app_length, L, be_length. lia.
Qed.
Lemma text_sizes : forall ks s x, Forall2 text_means ks s -> last_opt s = Some x -> 12 + blen (enc8 x) <= sizes ks.
Proof.
  intros ks s x F. revert x. induction F as [|k y ks s (_ & v & (fl & Lf & ->) & C) F IH]; intros x E; [discriminate E|].
  rewrite last_opt_cons in E. unfold sizes, nsum in *. cbn [map fold_right]. destruct (last_opt s) as [z|].
  - injection E as <-. specialize (IH z eq_refl). lia.
  - injection E as <-. rewrite asize_eq. unfold csize. rewrite C. assert (8 <= hlen k) by (unfold hlen; destruct (a_ext k); lia).
    unfold blen in *. rewrite app_length. cbn [List.length]. rewrite Lf. lia.
Qed.
Lemma item_size : forall a i, item_means a i -> Forall (fun d => units d = 0) (ad_data i) -> ad_len i <= asize a.
Proof.
  intros a i (Pre & ds & ms & ns & D & M & Na & _ & ->) U. cbn [ad_data] in U. pose proof (data_sizes _ _ D U) as S.
  pose proof (three_kinds (id4 "data") (id4 "mean") (id4 "name") (a_kids a)) as K. specialize (K ltac:(discriminate) ltac:(discriminate) ltac:(discriminate)).
  rewrite asize_eq. unfold csize, a_content. rewrite Pre. cbn [app]. assert (8 <= hlen a) by (unfold hlen; destruct (a_ext a); lia).
  unfold ad_len, item_name. cbn [ad_data ad_ident]. destruct (last_opt ms) as [x|] eqn:E1; [|lia]. destruct (last_opt ns) as [y|] eqn:E2; [|lia].
  pose proof (text_sizes _ _ _ M E1). pose proof (text_sizes _ _ _ Na E2). destruct (fourcc_dec (a_id a) (id4 "----")); lia.
Qed.
Lemma real_sizes : forall ks l, Forall2 item_means (filter (fun k => negb (is_named (id4 "free") k)) ks) l ->
  Forall (fun i => Forall (fun d => units d = 0) (ad_data i)) l -> total l <= blen (render_all ks).
Proof.
  induction ks as [|k r IH]; intros l F U; cbn [filter] in F.
  - inversion F; subst. apply N.le_refl.
  - rewrite blen_render_all_cons. destruct (negb (is_named (id4 "free") k)).
    + inversion F; subst. inversion U; subst. rewrite total_cons. pose proof (item_size _ _ H1 H2). specialize (IH _ H3 H4). lia.
    + specialize (IH _ F U). lia.
Qed.

Lemma new_ilst_size : forall items, storable items -> asize (new_ilst items) <= total items + 16.
Proof.
  intros items S. unfold new_ilst. pose proof (new_box_small (id4 "ilst") [] (map item_atom items)) as B.
  rewrite ilst_content, blen_nil in B by (apply storable_exact; exact S). unfold total. destruct (2 ^ 32 <=? _) in B; lia.
Qed.
Lemma new_ilst_small : forall items, storable items -> total items + 8 < 2 ^ 32 -> asize (new_ilst items) = total items + 8.
Proof.
  intros items S L. unfold new_ilst. rewrite <- (new_box_size (id4 "ilst") [] (map item_atom items) (total items)).
  - unfold size_from. cbn [sz_len]. change (2 ^ 32) with 4294967296 in L. destruct (4294967295 <? total items + 8) eqn:E; lia.
  - cbn [app]. rewrite ilst_content by (apply storable_exact; exact S). reflexivity.
Qed.
Lemma every_unit : forall l r, merged l r -> no_utf16 r -> Forall (fun i => Forall (fun d => units d = 0) (ad_data i)) l.
Proof.
  intros l r M U. pose proof (merged_values _ _ M) as P. apply Forall_forall. intros i J. apply Forall_forall. intros d K.
  assert (X : In (ad_ident i, d) (every_value l)). { unfold every_value. apply in_flat_map. exists i. split; [exact J|]. apply in_map, K. }
  apply (Permutation.Permutation_in _ (Permutation.Permutation_sym P)) in X. apply in_flat_map in X. destruct X as (a & Ja & X). apply in_map_iff in X.
  destruct X as (d' & Ed & Kd). injection Ed as _ ->. unfold no_utf16 in U. rewrite Forall_forall in U. specialize (U a Ja). rewrite Forall_forall in U.
  specialize (U d Kd). unfold units. destruct d; try reflexivity. rewrite (U _ eq_refl). reflexivity.
Qed.

(** What was read from a file takes at most as much space as the old item list. *)
Theorem read_total : forall f t, describes f t -> no_utf16 (tg_atoms t) ->
  match item_list f with Some il => total (tg_atoms t) + 8 <= asize il | None => tg_atoms t = [] end.
Proof.
  intros f t D U. pose proof (item_list_means f t D) as M. destruct (item_list f) as [il|]; [|exact M].
  destruct M as (P & l & F & Mg). pose proof (real_sizes _ _ F (every_unit _ _ Mg U)) as S. pose proof (total_merged _ _ Mg).
  rewrite asize_eq. pose proof (hlen_pos il). unfold csize, a_content. rewrite P. cbn [app]. lia.
Qed.

(** Every storable list of items can be written when the result is smaller than 4 GiB. *)
Theorem small_updatable : forall f t items, describes f t -> good_sizes f -> editable f -> storable items ->
  blen (render_all f) + total items + 85 < 2 ^ 32 -> updatable f items.
Proof.
  intros f t items D G E S L. split; [split; [exact G|exists t; exact D]|]. split; [exact E|]. split; [exact S|]. apply small_good.
  pose proof (update_file_size items f t D E). pose proof (new_ilst_size items S). lia.
Qed.
(** Metadata read from a file can be written back. *)
Theorem read_updatable : forall f t, describes f t -> editable f -> no_utf16 (tg_atoms t) ->
  blen (render_all f) + 77 < 2 ^ 32 -> updatable f (tg_atoms t) /\ blen (render_all (update_file (tg_atoms t) f)) <= blen (render_all f) + 77.
Proof.
  intros f t D E U L. pose proof (read_storable f t D U) as S.
  pose proof (update_file_size (tg_atoms t) f t D E) as B. pose proof (read_total f t D U) as R.
  assert (X : blen (render_all (update_file (tg_atoms t) f)) <= blen (render_all f) + 77).
  { destruct (item_list f) as [il|] eqn:I; cbn [list_size] in B.
    - assert (asize il <= blen (render_all f)).
      { destruct (named_moov f t D) as (mv & N & _). unfold item_list in I. cbn [last_at] in I. rewrite N in I. change (last_opt [mv]) with (Some mv) in I. cbv iota in I.
        destruct (last_opt (named_kids (id4 "udta") (a_kids mv))) as [u|] eqn:I1; [|discriminate I].
        destruct (last_opt (named_kids (id4 "meta") (a_kids u))) as [me|] eqn:I2; [|discriminate I].
        apply last_in in I, I1, I2. unfold named_kids in *. apply filter_In in I, I1, I2. destruct I as [I _], I1 as [I1 _], I2 as [I2 _].
        assert (In mv f) by (apply (proj1 (filter_In (is_named (id4 "moov")) mv f)); rewrite N; left; reflexivity).
        assert (Y : forall a k, In k (a_kids a) -> asize k <= asize a).
        { clear. intros a k J. apply kid_in_size in J. rewrite (asize_eq a). unfold csize, a_content. rewrite blen_app. lia. }
        apply Y in I, I1, I2. apply kid_in_size in H. lia. }
      rewrite new_ilst_small in B by (try exact S; lia). lia.
    - rewrite R in *. change (asize (new_ilst [])) with 8 in B. lia. }
  split; [|exact X]. split; [split; [apply small_good; lia|exists t; exact D]|]. split; [exact E|]. split; [exact S|]. apply small_good. lia.
Qed.
Print Assumptions read_updatable.
