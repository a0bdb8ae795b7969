(** Numbers outside the movie atom that address bytes of the file: proofs for C83. *)

From Coq Require Import List NArith ZArith Bool Lia Arith String.
From Coq Require Import ZifyBool ZifyNat ZifyN.
From Verif Require Import Base BaseLemmas Utf UtfLemmas Types TagSpec FileSpec ParseLemmas ReadProofs ReadFacts NewMeans
  ScanProofs AdjustProofs WriteProofs WriteMain UpdateMeans UpdateTwice EditSpec EditProofs OffsetProofs ChunkSpec ChunkProofs FragSpec.
Import ListNotations.
Local Open Scope list_scope.

(** The bytes of atom [k]. *)
Lemma atom_at : forall h k x, nth_error h k = Some x ->
  render_all h = render_all (firstn k h) ++ render x ++ render_all (skipn (S k) h) /\ start h (S k) = start h k + blen (render x).
Proof.
  intros h. induction h as [|a h IH]; intros [|k] x E; try discriminate E.
  - injection E as ->. split; [reflexivity|]. unfold start. cbn [firstn]. rewrite render_all_cons. cbn. rewrite app_nil_r. reflexivity.
  - cbn [nth_error] in E. apply IH in E. destruct E as [E1 E2]. split.
    + cbn [firstn skipn]. rewrite !render_all_cons, E1, <- app_assoc. reflexivity.
    + unfold start in *. cbn [firstn]. rewrite !render_all_cons, !blen_app. cbn [firstn] in E2. rewrite E2. lia.
Qed.
Lemma atom_slice : forall h k x p n, nth_error h k = Some x -> start h k <= p -> p + n <= start h (S k) ->
  slice (render_all h) p n = slice (render x) (p - start h k) n.
Proof.
  intros h k x p n E P1 P2. destruct (atom_at h k x E) as [F1 F2]. rewrite F1, slice_app_r by exact P1. fold (start h k). apply slice_app_l. lia.
Qed.

Section At.
Variables (items : list atom_data) (ft : atom) (pre : list atom) (mv : atom) (post : list atom).
Hypothesis I : a_id ft = id4 "ftyp".
Hypothesis J : a_id mv = id4 "moov".
Hypothesis N1 : named_kids (id4 "moov") (pre ++ post) = [].
Let f := ft :: pre ++ mv :: post.
Let m := S (List.length pre).
Let g := update_file items f.

Lemma not_m : forall k a, nth_error f k = Some a -> a_id a <> id4 "moov" -> k <> m.
Proof.
  intros k a E Na ->. destruct (proj2 (movie_m ft pre mv post I J N1 m) eq_refl) as (x & E' & Ix). unfold f in E. rewrite E in E'. injection E' as <-. contradiction.
Qed.
Lemma atom_same : forall k a, nth_error f k = Some a -> a_id a <> id4 "moov" -> nth_error g k = Some a.
Proof.
  intros k a E Na. pose proof (not_m k a E Na) as Nk. unfold g, f. rewrite (update_at items ft pre mv post I J N1). unfold f in E.
  change (ft :: pre ++ mv :: post) with ((ft :: pre) ++ mv :: post) in E. assert (Em : m = List.length (ft :: pre)) by reflexivity. destruct (lt_dec k m) as [Lk|Lk].
  - rewrite nth_error_app1 in * by (rewrite <- Em; exact Lk). exact E.
  - rewrite nth_error_app2 in * by (rewrite <- Em; lia). rewrite <- Em in *. destruct (k - m)%nat as [|q] eqn:K; [lia|]. exact E.
Qed.
Lemma behind_m : forall k, behind f k <-> (m < k)%nat.
Proof.
  intros k. unfold behind, f. split; [intros (q & Q & L); apply (movie_m ft pre mv post I J N1) in Q; unfold m; lia|]. intros L. exists m. split; [apply (movie_m ft pre mv post I J N1); reflexivity|exact L].
Qed.
Hypothesis G : good_moov mv.
Lemma start_of : forall k a, nth_error f k = Some a -> a_id a <> id4 "moov" ->
  (behind f k /\ (Z.of_N (start g k) = Z.of_N (start f k) + displacement items f)%Z) \/ (~ behind f k /\ start g k = start f k).
Proof.
  intros k a E Na. pose proof (not_m k a E Na) as Nk. rewrite !behind_m. unfold g, f. rewrite (disp items ft pre mv post I J N1 G). destruct (lt_dec m k) as [L|L].
  - left. split; [exact L|]. apply (start_back items ft pre mv post I J N1 G k L).
  - right. split; [exact L|]. apply (start_front items ft pre mv post I J N1 k). unfold m in *. lia.
Qed.
End At.

Theorem others_same : forall items f t, describes f t -> forall k a, nth_error f k = Some a -> a_id a <> id4 "moov" -> nth_error (update_file items f) k = Some a.
Proof. intros items f t (ft & pre & mv & post & -> & I & _ & _ & J & N & _). exact (atom_same items ft pre mv post I J N). Qed.
Theorem others_start : forall items f t, describes f t -> editable f -> forall k a, nth_error f k = Some a -> a_id a <> id4 "moov" ->
  (behind f k /\ (Z.of_N (start (update_file items f) k) = Z.of_N (start f k) + displacement items f)%Z) \/ (~ behind f k /\ start (update_file items f) k = start f k).
Proof. intros items f t (ft & pre & mv & post & -> & I & _ & _ & J & N & _) E. exact (start_of items ft pre mv post I J N (editable_moov _ _ _ _ J E)). Qed.
