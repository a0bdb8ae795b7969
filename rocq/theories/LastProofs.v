(** The new file when containers occur several times: proofs for LastSpec.v.  They follow AdjustProofs.v, WriteProofs.v, WriteMain.v and UpdateMeans.v. *)

From Coq Require Import List NArith ZArith Bool Lia Arith String.
From Coq Require Import ZifyBool ZifyNat ZifyN.
From Verif Require Import Base BaseLemmas Utf UtfLemmas Types Stream Parse Find Write TagSpec FileSpec ParseLemmas ReadProofs ReadSpec ReadFacts
  ReadBad ReadTerm NewMeans WriteBytes WriteState ScanProofs AdjustProofs FramesProofs WriteProofs WriteMain UpdateMeans EditSpec EditProofs RepairSpec LastSpec.
Import ListNotations.
Local Open Scope list_scope.

(** * The last of a name *)

Lemma split_last_none : forall id l, split_last id l = None <-> named_kids id l = [].
Proof.
  intros id. induction l as [|a r IH]; [split; reflexivity|]. cbn [split_last]. rewrite named_cons. destruct (split_last id r) as [[[x b] y]|].
  - split; [discriminate|]. intro H. destruct (is_named id a); [discriminate|]. apply IH in H. discriminate H.
  - destruct IH as [IH _]. specialize (IH eq_refl). destruct (is_named id a); [split; discriminate|]. rewrite IH. split; reflexivity.
Qed.
Lemma split_last_some : forall id l x c y, split_last id l = Some (x, c, y) -> l = x ++ c :: y /\ a_id c = id /\ named_kids id y = [].
Proof.
  intros id. induction l as [|a r IH]; intros x c y H; [discriminate|]. cbn [split_last] in H. destruct (split_last id r) as [[[x' b] y']|] eqn:E.
  - injection H as <- <- <-. destruct (IH _ _ _ eq_refl) as (-> & I & N). repeat split; assumption.
  - destruct (is_named id a) eqn:Ea; [|discriminate]. injection H as <- <- <-. split; [reflexivity|]. split; [apply is_named_eq, Ea|]. apply split_last_none, E.
Qed.
Lemma split_last_at : forall id x c y, a_id c = id -> named_kids id y = [] -> split_last id (x ++ c :: y) = Some (x, c, y).
Proof.
  intros id x c y I N. induction x as [|k r IH]; cbn [split_last app].
  - rewrite (proj2 (split_last_none id y) N), (proj2 (is_named_eq id c) I). reflexivity.
  - rewrite IH. reflexivity.
Qed.
Lemma last_cases : forall id ks, named_kids id ks = [] \/ exists x c y, ks = x ++ c :: y /\ a_id c = id /\ named_kids id y = [].
Proof.
  intros id ks. destruct (split_last id ks) as [[[x c] y]|] eqn:E; [right; exists x, c, y; apply split_last_some, E|left; apply split_last_none, E].
Qed.
Lemma map_last_none : forall id h ks, named_kids id ks = [] -> map_last id h ks = ks.
Proof. intros id h ks N. unfold map_last. rewrite (proj2 (split_last_none id ks) N). reflexivity. Qed.
Lemma map_last_at : forall id h x c y, a_id c = id -> named_kids id y = [] -> map_last id h (x ++ c :: y) = x ++ h c :: y.
Proof. intros id h x c y I N. unfold map_last. rewrite split_last_at by assumption. reflexivity. Qed.
Lemma of_last_at : forall id P a x c y, of_last id P a -> a_kids a = x ++ c :: y -> a_id c = id -> named_kids id y = [] -> P c.
Proof. intros id P a x c y H E I N. unfold of_last in H. rewrite E, split_last_at in H by assumption. exact H. Qed.
Lemma of_last_impl : forall id (P Q : atom -> Prop) k, of_last id P k -> (forall c, P c -> Q c) -> of_last id Q k.
Proof. intros id P Q k H K. unfold of_last in *. destruct (split_last id (a_kids k)) as [[[x c] y]|]; [apply K, H|exact Logic.I]. Qed.

Lemma map_last_size : forall id h ks, (forall x c y, ks = x ++ c :: y -> a_id c = id -> named_kids id y = [] -> same_size c (h c)) ->
  blen (render_all (map_last id h ks)) = blen (render_all ks).
Proof.
  intros id h ks H. destruct (last_cases id ks) as [N|(x & c & y & -> & I & N)]; [rewrite map_last_none by exact N; reflexivity|].
  rewrite map_last_at by assumption. rewrite !render_all_app, !render_all_cons, !blen_app. destruct (H x c y eq_refl I N) as (S & _). unfold asize in S. rewrite S. reflexivity.
Qed.
Lemma last_kid_size : forall id h k, of_last id (fun c => same_size c (h c)) k -> same_size k (last_kid id h k).
Proof. intros id h k H. apply with_kids_size, map_last_size. intros x c y E I N. exact (of_last_at _ _ _ _ _ _ H E I N). Qed.
Lemma last_of_map_last : forall {Y} (g : N -> atom -> Y) id id' h ks q acc, id <> id' ->
  (forall x c y, ks = x ++ c :: y -> a_id c = id' -> named_kids id' y = [] -> same_size c (h c)) ->
  last_of g id q (map_last id' h ks) acc = last_of g id q ks acc.
Proof.
  intros Y g id id' h ks q acc D H. destruct (last_cases id' ks) as [N|(x & c & y & -> & I & N)]; [rewrite map_last_none by exact N; reflexivity|].
  rewrite map_last_at by assumption. destruct (H x c y eq_refl I N) as (S & J & _). rewrite !last_of_app. cbn [last_of]. rewrite S.
  assert (is_named id (h c) = false) as -> by (destruct (is_named id (h c)) eqn:X; [apply is_named_eq in X; congruence|reflexivity]).
  assert (is_named id c = false) as -> by (destruct (is_named id c) eqn:X; [apply is_named_eq in X; congruence|reflexivity]). reflexivity.
Qed.
(** Changing the last atom of another name keeps those of this one. *)
Lemma named_last_other : forall id id' h ks, id <> id' -> (forall c, a_id (h c) = a_id c) -> named_kids id (map_last id' h ks) = named_kids id ks.
Proof.
  intros id id' h ks D H. destruct (last_cases id' ks) as [N|(x & c & y & -> & I & N)]; [rewrite map_last_none by exact N; reflexivity|].
  rewrite map_last_at by assumption. rewrite !named_app, !named_other; [reflexivity|congruence|rewrite H; congruence].
Qed.
Lemma of_last_named : forall id P a, of_last id P a <-> (forall l c, named_kids id (a_kids a) = l ++ [c] -> P c).
Proof.
  intros id P a. unfold of_last. destruct (split_last id (a_kids a)) as [[[x c] y]|] eqn:E.
  - apply split_last_some in E. destruct E as (-> & I & N). rewrite named_app, named_this, N by exact I. split.
    + intros H l c' E. apply app_inj_tail in E. destruct E as [_ <-]. exact H.
    + intro H. apply (H _ c eq_refl).
  - apply split_last_none in E. rewrite E. split; [intros _ [|? l] c X; discriminate X|intros _; exact Logic.I].
Qed.

(** * Patches *)

Section LPatch.
  Variables (f0 : bytes) (lo : N) (cap : N) (m : mode) (diff : Z).
  Hypothesis D : (- 2 ^ 62 < diff < 2 ^ 62)%Z.
  Local Notation patches := (patches f0 lo).

  Lemma patch_last : forall {Y} id (g : N -> atom -> Y) (act : Y -> W unit) h p k,
    of_last id (fun c => forall q, patches (act (g q c)) q c (h c) /\ same_size c (h c)) k ->
    patches (match last_of g id (kids_pos p k) (a_kids k) None with Some y => act y | None => wret tt end) p k (last_kid id h k).
  Proof.
    intros Y id g act h p k H A B LA Lo Sm.
    assert (Ms : blen (render_all (map_last id h (a_kids k))) = blen (render_all (a_kids k))).
    { apply map_last_size. intros x c y E I N. apply (of_last_at _ _ _ _ _ _ H E I N 0). }
    assert (Rm : render (last_kid id h k) = header (a_ext k) (a_id k) (csize k) ++ a_pre k ++ render_all (map_last id h (a_kids k))).
    { apply render_with_kids, Ms. }
    destruct (last_cases id (a_kids k)) as [N|(x & c & y & E & I & N)].
    - rewrite last_of_none by exact N. rewrite Rm, map_last_none by exact N. rewrite <- render_kids. apply tri_ret.
    - pose proof (of_last_at _ _ _ _ _ _ H E I N) as Hc. cbv beta in Hc. rewrite E. rewrite last_of_only by assumption. rewrite Rm. rewrite E. rewrite map_last_at by assumption.
      pose (A' := A ++ header (a_ext k) (a_id k) (csize k) ++ a_pre k ++ render_all x).
      pose (B' := render_all y ++ B).
      assert (E1 : A ++ render k ++ B = A' ++ render c ++ B').
      { unfold A', B'. rewrite render_kids, E, render_all_app, render_all_cons, <- !app_assoc. reflexivity. }
      assert (E2 : A ++ (header (a_ext k) (a_id k) (csize k) ++ a_pre k ++ render_all (x ++ h c :: y)) ++ B = A' ++ render (h c) ++ B').
      { unfold A', B'. rewrite render_all_app, render_all_cons, <- !app_assoc. reflexivity. }
      rewrite E1 in *. rewrite E2.
      assert (LA' : blen A' = kids_pos p k + blen (render_all x)).
      { unfold A', kids_pos, hlen. rewrite !blen_app, blen_header. lia. }
      apply Hc; [exact LA'| |exact Sm]. unfold kids_pos. lia.
  Qed.

  Lemma stbl_last : forall k p, sound_stbl k -> patches (adjust_stbl cap m diff (stbl_at p k)) p k (move_stbl diff k) /\ same_size k (move_stbl diff k).
  Proof.
    intros k p [T1 T2].
    pose (k1 := last_kid (id4 "stco") (shift_table 4 diff) k).
    assert (S1 : of_last (id4 "stco") (fun c => same_size c (shift_table 4 diff c)) k).
    { eapply of_last_impl; [exact T1|]. intros c G. apply shift_table_same; [lia|exact G]. }
    assert (Z1 : same_size k k1) by (apply last_kid_size, S1).
    assert (N2 : named_kids (id4 "co64") (a_kids k1) = named_kids (id4 "co64") (a_kids k)) by (apply named_last_other; [discriminate|reflexivity]).
    assert (G2 : of_last (id4 "co64") (good_table 8) k1).
    { apply of_last_named. rewrite N2. apply of_last_named. exact T2. }
    assert (P1 : patches (match sb_stco (stbl_at p k) with Some b => adjust_table cap m false diff b | None => wret tt end) p k k1).
    { apply (patch_last (id4 "stco") bounds_of (adjust_table cap m false diff)). eapply of_last_impl; [exact T1|]. intros c G q.
      split; [apply (table_patches f0 lo cap m diff D false); exact G|apply shift_table_same; [lia|exact G]]. }
    assert (Lk : last_of bounds_of (id4 "co64") (kids_pos p k) (a_kids k) None = last_of bounds_of (id4 "co64") (kids_pos p k1) (a_kids k1) None).
    { unfold k1, last_kid at 2, with_kids. cbn [a_kids]. rewrite last_of_map_last; [reflexivity|discriminate|]. intros x c y E I N. exact (of_last_at _ _ _ _ _ _ S1 E I N). }
    assert (P2 : patches (match sb_co64 (stbl_at p k) with Some b => adjust_table cap m true diff b | None => wret tt end) p k1 (move_stbl diff k)).
    { cbn [stbl_at sb_co64]. rewrite Lk. apply (patch_last (id4 "co64") bounds_of (adjust_table cap m true diff)).
      eapply of_last_impl; [exact G2|]. intros c G q. split; [apply (table_patches f0 lo cap m diff D true); exact G|apply shift_table_same; [lia|exact G]]. }
    split.
    - intros A B LA Lo Sm. unfold adjust_stbl. eapply tri_bind; [apply P1; assumption|]. apply P2; try assumption.
      unfold small in *. rewrite !blen_app in *. destruct Z1 as [Z1 _]. unfold asize in Z1. rewrite Z1. exact Sm.
    - destruct (last_kid_size (id4 "co64") (shift_table 8 diff) k1) as (X1 & X2 & X3).
      + eapply of_last_impl; [exact G2|]. intros c G. apply shift_table_same; [lia|exact G].
      + change (move_stbl diff k) with (last_kid (id4 "co64") (shift_table 8 diff) k1). destruct Z1 as (Y1 & Y2 & Y3). split; [rewrite X1; exact Y1|]. split; congruence.
  Qed.

  Lemma box_last : forall {X Y} id (g : N -> atom -> Y) (sub : X -> option Y) (mk : N -> atom -> X) (act : Y -> W unit) h k p,
    (forall q c, sub (mk q c) = last_of g id (kids_pos q c) (a_kids c) None) ->
    of_last id (fun c => forall q, patches (act (g q c)) q c (h c) /\ same_size c (h c)) k ->
    patches (opt_act act (sub (mk p k))) p k (last_kid id h k) /\ same_size k (last_kid id h k).
  Proof.
    intros X Y id g sub mk act h k p E H. split.
    - rewrite E. apply patch_last, H.
    - apply last_kid_size. eapply of_last_impl; [exact H|]. intros c Hc. apply (Hc 0).
  Qed.

  Lemma trak_last : forall k, sound_trak k -> forall p,
    patches (opt_act (adjust_stbl cap m diff) (trak_stbl (trak_at p k))) p k (move_trak diff k) /\ same_size k (move_trak diff k).
  Proof.
    intros k G p.
    pose (act_n := fun n => opt_act (adjust_stbl cap m diff) (nb_stbl n)).
    pose (act_d := fun d => opt_act act_n (db_minf d)).
    assert (X : opt_act (adjust_stbl cap m diff) (trak_stbl (trak_at p k)) = opt_act act_d (tb_mdia (trak_at p k))).
    { unfold trak_stbl, act_d, act_n. destruct (tb_mdia (trak_at p k)) as [d|]; [|reflexivity]. cbn [opt_act].
      destruct (db_minf d); reflexivity. }
    rewrite X. unfold move_trak. apply (box_last (id4 "mdia") mdia_at tb_mdia trak_at act_d); [reflexivity|].
    eapply of_last_impl; [exact G|]. clear - D. intros k G p. apply (box_last (id4 "minf") minf_at db_minf mdia_at act_n); [reflexivity|].
    eapply of_last_impl; [exact G|]. clear - D. intros k G p. apply (box_last (id4 "stbl") stbl_at nb_stbl minf_at); [reflexivity|].
    eapply of_last_impl; [exact G|]. clear - D. intros k G p. apply stbl_last, G.
  Qed.

  Lemma traks_last : forall ks q A B, Forall sound_trak (named_kids (id4 "trak") ks) -> blen A = q -> lo <= q ->
    small (A ++ render_all ks ++ B) ->
    tri (file_is f0 lo (A ++ render_all ks ++ B)) (adjust_traks cap m diff (all_of trak_at (id4 "trak") q ks)) tt
        (file_is f0 lo (A ++ render_all (move_traks diff ks) ++ B)) /\
    blen (render_all (move_traks diff ks)) = blen (render_all ks).
  Proof.
    induction ks as [|k r IH]; intros q A B G LA Lo Sm; [split; [apply tri_ret|reflexivity]|].
    rewrite named_cons in G. unfold move_traks in *. cbn [all_of map_kids map]. fold (map_kids (id4 "trak") (move_trak diff) r).
    rewrite !render_all_cons, <- !app_assoc in *. destruct (is_named (id4 "trak") k).
    - inversion G as [|? ? Gk Gr]; subst. destruct (trak_last k Gk (blen A)) as [P (Sz & _)].
      assert (Sm' : small ((A ++ render (move_trak diff k)) ++ render_all r ++ B)).
      { unfold small in *. rewrite !blen_app in *. unfold asize in Sz. rewrite Sz. lia. }
      destruct (IH (blen A + asize k) (A ++ render (move_trak diff k)) B Gr) as [T L]; [rewrite blen_app; unfold asize in Sz; rewrite Sz; reflexivity|lia|exact Sm'|].
      split.
      + cbn [app adjust_traks]. eapply tri_bind; [apply P; [reflexivity|exact Lo|exact Sm]|]. rewrite <- !app_assoc in T. exact T.
      + rewrite !blen_app, L. unfold asize in Sz. rewrite Sz. reflexivity.
    - destruct (IH (q + asize k) (A ++ render k) B G) as [T L]; [rewrite blen_app, LA; reflexivity|lia|rewrite <- app_assoc; exact Sm|].
      split; [|rewrite !blen_app, L; reflexivity]. cbn [app]. rewrite <- !app_assoc in T. exact T.
  Qed.
End LPatch.
