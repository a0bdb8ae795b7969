(** Sizes of updated files with repeated containers. *)

From Coq Require Import List NArith ZArith Bool Lia Arith String.
From Coq Require Import ZifyBool ZifyNat ZifyN.
From Verif Require Import Base BaseLemmas Utf Types Parse TagSpec TagLemmas FileSpec ReadSpec ParseLemmas ReadProofs ReadFacts
  Write WriteBytes ScanProofs AdjustProofs WriteProofs WriteMain UpdateMeans UpdateTwice EditSpec EditProofs StoreSpec StoreProofs SizeProofs
  LastSpec LastProofs LastWrite LastMeans.
Import ListNotations.
Local Open Scope list_scope.

Lemma end_named : forall id x c y, a_id c = id -> named_kids id y = [] -> last_opt (named_kids id (x ++ c :: y)) = Some c.
Proof. intros id x c y I N. rewrite named_end by assumption. apply ParseLemmas.last_opt_app. Qed.

Lemma last_meta_size : forall items me, asize (last_meta items me) + list_size (ilst_of_meta me) <= asize me + 33 + asize (new_ilst items).
Proof.
  intros items me. pose proof (missing_size me) as M. unfold last_meta, ilst_of_meta. destruct (last_cases (id4 "ilst") (a_kids me)) as [N|(x & c & y & E & I & N)].
  - rewrite (proj2 (split_last_none _ _) N), N. cbn [last_opt fold_left list_size].
    pose proof (asize_with_kids me (a_kids me ++ missing_hdlr me ++ [new_ilst items])) as A. rewrite !render_all_app, !blen_app, render_one in A. lia.
  - rewrite E, split_last_at, end_named by assumption. cbn [list_size].
    pose proof (asize_with_kids me (x ++ missing_hdlr me ++ [new_ilst items] ++ y)) as A. rewrite E in A.
    rewrite !render_all_app, render_all_cons, !blen_app, render_one in A. fold (asize c) in A. lia.
Qed.
Lemma last_udta_size : forall items u, asize (last_udta items u) + list_size (ilst_of_udta u) <= asize u + 53 + asize (new_ilst items).
Proof.
  intros items u. unfold last_udta, ilst_of_udta. destruct (last_cases (id4 "meta") (a_kids u)) as [N|(x & c & y & E & I & N)].
  - rewrite (proj2 (split_last_none _ _) N), N. cbn [last_opt fold_left list_size]. pose proof (new_meta_size items).
    pose proof (asize_with_kids u (a_kids u ++ [FileSpec.new_meta items])) as A. rewrite !render_all_app, !blen_app, render_one in A. lia.
  - rewrite E, split_last_at, end_named by assumption. pose proof (last_meta_size items c) as Mc.
    pose proof (asize_with_kids u (x ++ last_meta items c :: y)) as A. rewrite E in A.
    rewrite !render_all_app, !render_all_cons, !blen_app in A. fold (asize c) (asize (last_meta items c)) in A. lia.
Qed.
Lemma last_moov_room : forall items d mv, sound_moov mv -> asize (last_moov items d mv) + list_size (ilst_of_moov mv) <= asize mv + 69 + asize (new_ilst items).
Proof.
  intros items d mv T. unfold sound_moov in T. unfold last_moov, ilst_of_moov. destruct (last_cases (id4 "udta") (a_kids mv)) as [N|(x & c & y & E & I & N)].
  - rewrite (proj2 (split_last_none _ _) N), N. cbn [last_opt fold_left list_size]. pose proof (new_udta_size items).
    pose proof (asize_with_kids mv (move_traks d (a_kids mv) ++ [FileSpec.new_udta items])) as A.
    rewrite !render_all_app, !blen_app, render_one, move_traks_size in A by exact T. lia.
  - rewrite E, split_last_at, end_named by assumption. rewrite E, named_app in T. apply Forall_app in T. destruct T as [T _]. pose proof (last_udta_size items c) as Mc.
    pose proof (asize_with_kids mv (move_traks d x ++ last_udta items c :: y)) as A. rewrite E in A.
    rewrite !render_all_app, !render_all_cons, !blen_app, move_traks_size in A by exact T. fold (asize c) (asize (last_udta items c)) in A. lia.
Qed.
Theorem last_file_size : forall items f t, describes f t -> sound_tables f ->
  blen (render_all (last_file items f)) + list_size (item_list f) <= blen (render_all f) + 69 + asize (new_ilst items).
Proof.
  intros items f t D So. destruct (named_moov f t D) as (mv0 & Nm & _).
  destruct D as (ft & pre & mv & post & -> & I & _ & _ & J & N & M). pose proof N as N'. apply named_two in N'. destruct N' as [N1 N2]. pose proof (sound_at ft pre mv post J N2 So) as G.
  assert (mv0 = mv). { rewrite named_other in Nm by (rewrite I; discriminate). rewrite named_app, N1, named_this, N2 in Nm by exact J. cbn [app] in Nm. congruence. }
  subst mv0. unfold item_list. cbn [ReadSpec.last_at]. rewrite Nm. change (last_opt [mv]) with (Some mv). cbv iota.
  rewrite (last_at items ft pre mv post J N2). unfold llast. set (d := match named_kids (id4 "mdat") post with [] => 0%Z | _ => last_growth items mv end).
  pose proof (last_moov_room items d mv G) as S. unfold ilst_of_moov, ilst_of_udta, ilst_of_meta in S.
  change (ft :: pre ++ mv :: post) with ((ft :: pre) ++ mv :: post). rewrite !render_all_app, !render_all_cons, !blen_app. fold (asize mv) (asize (last_moov items d mv)).
  destruct (last_opt (named_kids (id4 "udta") (a_kids mv))) as [u|]; [|lia].
  destruct (last_opt (named_kids (id4 "meta") (a_kids u))) as [me|]; lia.
Qed.

(** Room for any storable items. *)
Lemma last_small : forall f t items, describes f t -> sound_tables f -> storable items -> blen (render_all f) + total items + 85 < 2 ^ 32 ->
  good_sizes (last_file items f) /\ blen (render_all (last_file items f)) <= blen (render_all f) + total items + 85.
Proof.
  intros f t items D So S L. pose proof (last_file_size items f t D So). pose proof (new_ilst_size items S).
  split; [apply small_good|]; lia.
Qed.
(** Room for the items that are in the file. *)
Lemma last_read : forall f t, describes f t -> sound_tables f -> no_utf16 (tg_atoms t) -> blen (render_all f) + 77 < 2 ^ 32 ->
  storable (tg_atoms t) /\ good_sizes (last_file (tg_atoms t) f) /\ blen (render_all (last_file (tg_atoms t) f)) <= blen (render_all f) + 77.
Proof.
  intros f t D So U L. pose proof (read_storable f t D U) as S. split; [exact S|].
  pose proof (last_file_size (tg_atoms t) f t D So) as B. pose proof (read_total f t D U) as R.
  assert (X : blen (render_all (last_file (tg_atoms t) f)) <= blen (render_all f) + 77); [|split; [apply small_good; lia|exact X]].
  destruct (item_list f) as [il|] eqn:I; cbn [list_size] in B.
  - assert (asize il <= blen (render_all f)).
    { destruct (named_moov f t D) as (mv & N & _). unfold item_list in I. cbn [ReadSpec.last_at] in I. rewrite N in I. change (last_opt [mv]) with (Some mv) in I. cbv iota in I.
      destruct (last_opt (named_kids (id4 "udta") (a_kids mv))) as [u|] eqn:I1; [|discriminate I].
      destruct (last_opt (named_kids (id4 "meta") (a_kids u))) as [me|] eqn:I2; [|discriminate I].
      apply last_in in I, I1, I2. unfold named_kids in *. apply filter_In in I, I1, I2. destruct I as [I _], I1 as [I1 _], I2 as [I2 _].
      assert (In mv f) by (apply (proj1 (filter_In (is_named (id4 "moov")) mv f)); rewrite N; left; reflexivity).
      assert (Y : forall a k, In k (a_kids a) -> asize k <= asize a).
      { clear. intros a k J. apply kid_in_size in J. rewrite (asize_eq a). unfold csize, a_content. rewrite blen_app. lia. }
      apply Y in I, I1, I2. apply kid_in_size in H. lia. }
    rewrite new_ilst_small in B by (try exact S; lia). lia.
  - rewrite R in *. change (asize (new_ilst [])) with 8 in B. lia.
Qed.
