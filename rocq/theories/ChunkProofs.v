(** Exactly which chunk offsets still point to the same place: proofs for C74. *)

From Coq Require Import List NArith ZArith Bool Lia Arith String.
From Coq Require Import ZifyBool ZifyNat ZifyN.
From Verif Require Import Base BaseLemmas Utf UtfLemmas Types TagSpec FileSpec ParseLemmas ReadProofs ReadFacts NewMeans
  ScanProofs AdjustProofs WriteProofs WriteMain UpdateMeans UpdateTwice EditSpec EditProofs OffsetProofs ChunkSpec.
Import ListNotations.
Local Open Scope list_scope.

Section At.
Variables (items : list atom_data) (ft : atom) (pre : list atom) (mv : atom) (post : list atom).
Hypothesis I : a_id ft = id4 "ftyp".
Hypothesis J : a_id mv = id4 "moov".
Hypothesis N1 : named_kids (id4 "moov") (pre ++ post) = [].
Let f := ft :: pre ++ mv :: post.
Let m := S (List.length pre).

Lemma f_split : f = (ft :: pre) ++ mv :: post. Proof. reflexivity. Qed.
Lemma m_is : m = List.length (ft :: pre). Proof. reflexivity. Qed.
Lemma no_moov : forall x, In x (pre ++ post) -> a_id x <> id4 "moov".
Proof.
  intros x Hx E. assert (X : In x (named_kids (id4 "moov") (pre ++ post))) by (apply filter_In; split; [exact Hx|apply is_named_eq, E]).
  rewrite N1 in X. destruct X.
Qed.
Lemma movie_m : forall k, movie_is f k <-> k = m.
Proof.
  intros k. split.
  - intros (x & E & Ix). destruct (Nat.lt_trichotomy k m) as [L|[->|L]]; [|reflexivity|]; exfalso.
    + rewrite f_split, nth_error_app1 in E by (rewrite <- m_is; exact L). apply nth_error_In in E. destruct E as [<-|E]; [rewrite I in Ix; discriminate Ix|].
      apply (no_moov x); [apply in_or_app; left; exact E|exact Ix].
    + rewrite f_split, nth_error_app2 in E by (rewrite <- m_is; lia). rewrite <- m_is in E. destruct (k - m)%nat as [|q] eqn:K; [lia|]. cbn [nth_error] in E. apply nth_error_In in E.
      apply (no_moov x); [apply in_or_app; right; exact E|exact Ix].
  - intros ->. exists mv. split; [|exact J]. rewrite f_split, m_is, nth_error_app2 by lia. rewrite Nat.sub_diag. reflexivity.
Qed.
Lemma moov_in : forall x, In x f -> a_id x = id4 "moov" -> x = mv.
Proof.
  intros x Hx E. unfold f in Hx. destruct Hx as [<-|Hx]; [rewrite I in E; discriminate E|]. apply in_app_or in Hx. destruct Hx as [Hx|[<-|Hx]]; [exfalso|reflexivity|exfalso]; apply (no_moov x); auto; apply in_or_app; auto.
Qed.
Lemma follows_iff : mdat_follows f <-> named_kids (id4 "mdat") post <> [].
Proof.
  split.
  - intros (x & v & y & E & Jv & N). assert (Ev : v = mv) by (apply moov_in; [rewrite E; apply in_or_app; right; left; reflexivity|exact Jv]). subst v.
    rewrite f_split in E. apply app_split in E. destruct E as [(_ & _ & <-)|[(z & _ & E)|(z & E & _)]]; [exact N|exfalso|exfalso].
    + apply (no_moov mv); [apply in_or_app; right; rewrite E; apply in_or_app; right; left; reflexivity|exact J].
    + assert (X : In mv (ft :: pre)) by (rewrite E; apply in_or_app; right; left; reflexivity). destruct X as [X|X]; [rewrite <- X, I in J; discriminate J|].
      apply (no_moov mv); [apply in_or_app; left; exact X|exact J].
  - intros N. exists (ft :: pre), mv, post. repeat split; [exact J|exact N].
Qed.
Lemma early_iff : forall i, early f i <-> (i < List.length (kid_tables (front_kids mv)))%nat.
Proof.
  intros i. split.
  - intros (v & a & b & Hv & Jv & E & Na & Hb & L). apply moov_in in Hv; [|exact Jv]. subst v. unfold front_kids. rewrite moov_tables_kids in L. cbn [a_kids with_kids] in L.
    destruct (split_on (id4 "udta") (a_kids mv)) as [[[x u] y]|] eqn:Sp.
    + apply split_on_some in Sp. destruct Sp as (Sp & Iu & Nx). destruct Hb as [->|(u' & r & -> & Iu')].
      * exfalso. rewrite app_nil_r in E. rewrite E in Sp. rewrite Sp, named_app, named_this in Na by exact Iu. apply app_eq_nil in Na. destruct Na as [_ Na]. discriminate Na.
      * rewrite E in Sp. apply app_split in Sp. destruct Sp as [(-> & _ & _)|[(z & Ez & _)|(z & Ez & _)]]; [exact L|exfalso|exfalso].
        -- rewrite Ez, named_app, named_this in Nx by exact Iu'. apply app_eq_nil in Nx. destruct Nx as [_ Nx]. discriminate Nx.
        -- rewrite Ez, named_app, named_this in Na by exact Iu. apply app_eq_nil in Na. destruct Na as [_ Na]. discriminate Na.
    + apply split_on_empty in Sp. destruct Hb as [->|(u' & r & -> & Iu')]; [rewrite app_nil_r in E; rewrite E; exact L|exfalso].
      rewrite E, named_app, named_this in Sp by exact Iu'. apply app_eq_nil in Sp. destruct Sp as [_ Sp]. discriminate Sp.
  - intros L. unfold front_kids in L. exists mv. destruct (split_on (id4 "udta") (a_kids mv)) as [[[x u] y]|] eqn:Sp.
    + apply split_on_some in Sp. destruct Sp as (Sp & Iu & Nx). exists x, (u :: y). split; [rewrite f_split; apply in_or_app; right; left; reflexivity|].
      split; [exact J|]. split; [exact Sp|]. split; [exact Nx|]. split; [right; exists u, y; auto|]. rewrite moov_tables_kids. exact L.
    + apply split_on_empty in Sp. exists (a_kids mv), []. split; [rewrite f_split; apply in_or_app; right; left; reflexivity|].
      split; [exact J|]. split; [symmetry; apply app_nil_r|]. split; [exact Sp|]. split; [left; reflexivity|]. rewrite moov_tables_kids. exact L.
Qed.

Hypothesis G : good_moov mv.
Let d := match named_kids (id4 "mdat") post with [] => 0%Z | _ => growth items mv end.
Let g := update_file items f.
Lemma g_is : g = (ft :: pre) ++ update_moov items d mv :: post.
Proof. exact (update_at items ft pre mv post I J N1). Qed.
Lemma disp : displacement items f = growth items mv.
Proof. exact (displacement_growth items ft pre mv post I J N1 G). Qed.

Lemma start_front : forall k, (k <= m)%nat -> start g k = start f k.
Proof. intros k L. unfold start. rewrite g_is, f_split, !firstn_app, <- m_is. replace (k - m)%nat with 0%nat by lia. reflexivity. Qed.
Lemma start_back : forall k, (m < k)%nat -> (Z.of_N (start g k) = Z.of_N (start f k) + growth items mv)%Z.
Proof.
  intros k L. unfold start. rewrite g_is, f_split, !firstn_app, <- m_is. destruct (k - m)%nat as [|q] eqn:K; [lia|]. cbn [firstn].
  rewrite !render_all_app, !render_all_cons, !blen_app. unfold growth.
  fold (asize (update_moov items 0 mv)). rewrite (update_moov_size items 0 d mv G). unfold asize. lia.
Qed.

(** The new entries. *)
Lemma front_entry : forall i j t o, (i < List.length (kid_tables (front_kids mv)))%nat -> nth_error (file_tables f) i = Some t -> nth_error (offsets t) j = Some o ->
  nth_error (file_tables g) i = Some (shift_pair d t) /\ nth_error (offsets (shift_pair d t)) j = Some (shift_entry (fst t) d o) /\ table_ok t.
Proof.
  intros i j t o L Hi Hj. rewrite f_split, file_tables_at in Hi by assumption. 
  assert (Ok : table_ok t).
  { pose proof (kid_tables_ok (a_kids mv) (proj1 G)) as K. rewrite Forall_forall in K. apply K. apply nth_error_In in Hi. exact Hi. }
  rewrite moov_tables_parts, nth_error_app1 in Hi by exact L.
  split; [|split; [|exact Ok]].
  - rewrite g_is, file_tables_at by (rewrite ?update_moov_id; assumption). rewrite update_moov_tables, nth_error_app1 by (rewrite map_length; exact L). apply map_nth_error, Hi.
  - destruct t as [w a]. unfold shift_pair. cbn [fst snd]. rewrite offsets_shift by apply Ok. apply map_nth_error, Hj.
Qed.
Lemma back_entry : forall i t, ~ (i < List.length (kid_tables (front_kids mv)))%nat -> nth_error (file_tables f) i = Some t -> nth_error (file_tables g) i = Some t.
Proof.
  intros i t L Hi. rewrite f_split, file_tables_at in Hi by assumption. rewrite moov_tables_parts, nth_error_app2 in Hi by lia.
  rewrite g_is, file_tables_at by (rewrite ?update_moov_id; assumption). rewrite update_moov_tables, nth_error_app2; rewrite map_length; [exact Hi|lia].
Qed.
Lemma table_width_ok : forall t j o, table_ok t -> nth_error (offsets t) j = Some o -> (Z.of_N o < 2 ^ (8 * Z.of_nat (fst t)))%Z.
Proof.
  intros t j o Ok Hj. pose proof (in_range_0 t Ok) as R. unfold in_range in R. rewrite Forall_forall in R. apply nth_error_In in Hj. specialize (R o Hj). cbv beta in R. rewrite Z.add_0_r in R. apply R.
Qed.
Lemma in_post : forall k o n, inside f k o n -> (m < k)%nat -> named_kids (id4 "mdat") post <> [].
Proof.
  intros k o n (md & E & Im & _) L. rewrite f_split, nth_error_app2, <- m_is in E by (rewrite <- m_is; lia). destruct (k - m)%nat as [|q] eqn:K; [lia|]. cbn [nth_error] in E.
  apply nth_error_In in E. intro X. assert (Y : In md (named_kids (id4 "mdat") post)) by (apply filter_In; split; [exact E|apply is_named_eq, Im]). rewrite X in Y. destruct Y.
Qed.
Lemma not_movie : forall k o n, inside f k o n -> k <> m.
Proof.
  intros k o n (md & E & Im & _) ->. destruct (proj2 (movie_m m) eq_refl) as (x & E' & Ix). rewrite E in E'. injection E' as <-. rewrite Im in Ix. discriminate Ix.
Qed.

Lemma entry_kept : forall i j o k n, entry f i j o -> inside f k o n ->
  exists t o', nth_error (file_tables f) i = Some t /\ entry g i j o' /\ (forall o2, entry g i j o2 -> o2 = o') /\ (same_place f g k o o' <-> stays f items i (fst t) k o).
Proof.
  intros i j o k n (t & Hi & Hj) In. exists t. pose proof (not_movie k o n In) as Nk. pose proof (in_post k o n In) as Po.
  destruct In as (md & Ek & Im & S1 & S2). unfold stays. rewrite disp.
  destruct (lt_dec i (List.length (kid_tables (front_kids mv)))) as [L|L].
  - destruct (front_entry i j t o L Hi Hj) as (Hi' & Hj' & Ok). pose proof (table_width_ok t j o Ok Hj) as W. exists (shift_entry (fst t) d o).
    split; [exact Hi|]. split; [exists (shift_pair d t); auto|]. split; [intros o2 (t2 & A & B); rewrite Hi' in A; injection A as <-; rewrite Hj' in B; injection B as <-; reflexivity|].
    unfold same_place, shift_entry. set (r := (2 ^ (8 * Z.of_nat (fst t)))%Z) in *. assert (Pr : (0 < r)%Z) by (apply Z.pow_pos_nonneg; lia).
    pose proof (Z.mod_pos_bound (Z.of_N o + d) r Pr) as B. rewrite Z2N.id by lia.
    destruct (lt_dec m k) as [Lk|Lk].
    + assert (Ed : d = growth items mv) by (unfold d; destruct (named_kids (id4 "mdat") post); [exfalso; apply Po; auto|reflexivity]).
      pose proof (start_back k Lk) as Sb. rewrite Sb. rewrite <- Ed in *. split.
      * intros E. split; [|intros X; exfalso; apply X, early_iff, L]. intros _ _. split; [intros _; lia|]. intros (q & Q & Lq). apply movie_m in Q. lia.
      * intros (X & _). destruct X as [X _]; [apply follows_iff, Po, Lk|apply early_iff, L|]. specialize (X (ex_intro _ m (conj (proj2 (movie_m m) eq_refl) Lk))).
        rewrite Z.mod_small by lia. lia.
    + assert (Lk' : (k < m)%nat) by lia. rewrite start_front by lia. split.
      * intros E. split; [|intros X; exfalso; apply X, early_iff, L]. intros F _. apply follows_iff in F. split; [intros (q & Q & Lq); apply movie_m in Q; lia|]. intros _.
        assert (Ed : d = growth items mv) by (unfold d; destruct (named_kids (id4 "mdat") post); [contradiction|reflexivity]). rewrite <- Ed.
        assert (E' : ((Z.of_N o + d) mod r = Z.of_N o)%Z) by lia. replace d with ((Z.of_N o + d) - Z.of_N o)%Z by lia. rewrite Zminus_mod, E', (Z.mod_small (Z.of_N o)) by lia. rewrite Z.sub_diag. apply Z.mod_0_l. lia.
      * intros (X & _). enough (E' : ((Z.of_N o + d) mod r = Z.of_N o)%Z) by lia.
        assert (D0 : (d mod r = 0)%Z).
        { unfold d. destruct (named_kids (id4 "mdat") post) eqn:Ep; [apply Z.mod_0_l; lia|]. apply X; [apply follows_iff; rewrite Ep; discriminate|apply early_iff, L|]. exists m. split; [now apply movie_m|exact Lk']. }
        rewrite Zplus_mod, D0, Z.add_0_r, Zmod_mod, Z.mod_small by lia. reflexivity.
  - pose proof (back_entry i t L Hi) as Hi'. exists o. split; [exact Hi|]. split; [exists t; auto|]. split; [intros o2 (t2 & A & B); rewrite Hi' in A; injection A as <-; rewrite Hj in B; injection B as <-; reflexivity|].
    unfold same_place. destruct (lt_dec m k) as [Lk|Lk].
    + rewrite (start_back k Lk). split.
      * intros E. split; [intros _ X; exfalso; apply L, early_iff, X|]. intros _ _. lia.
      * intros (_ & X). rewrite X; [lia|intro Y; apply L, early_iff, Y|]. exists m. split; [now apply movie_m|exact Lk].
    + rewrite start_front by lia. split; [|intros _; reflexivity]. intros _. split; [intros _ X; exfalso; apply L, early_iff, X|]. intros _ (q & Q & Lq). apply movie_m in Q. lia.
Qed.

Lemma mdat_same : forall k md, nth_error f k = Some md -> a_id md = id4 "mdat" -> nth_error g k = Some md.
Proof.
  intros k md Ek Im. assert (Nk : k <> m).
  { intros ->. destruct (proj2 (movie_m m) eq_refl) as (x & E' & Ix). rewrite Ek in E'. injection E' as <-. rewrite Im in Ix. discriminate Ix. }
  rewrite g_is. rewrite f_split in Ek. destruct (lt_dec k m) as [Lk|Lk].
  - rewrite nth_error_app1 in * by (rewrite <- m_is; exact Lk). exact Ek.
  - rewrite nth_error_app2 in * by (rewrite <- m_is; lia). rewrite <- m_is in *. destruct (k - m)%nat as [|q] eqn:K; [lia|]. exact Ek.
Qed.
(** The bytes of atom [k] are the same. *)
Lemma same_bytes : forall k o o' n, inside f k o n -> same_place f g k o o' -> slice (render_all g) o' n = slice (render_all f) o n.
Proof.
  intros k o o' n In SP. pose proof (not_movie k o n In) as Nk. destruct In as (md & Ek & Im & S1 & S2). unfold same_place in SP.
  assert (At : forall h x, nth_error h k = Some x -> render_all h = render_all (firstn k h) ++ render x ++ render_all (skipn (S k) h) /\ start h (S k) = start h k + blen (render x)).
  { clear. intros h. revert k. induction h as [|a h IH]; intros [|k] x E; try discriminate E.
    - injection E as ->. split; [reflexivity|]. unfold start. cbn [firstn]. rewrite render_all_cons. cbn. rewrite app_nil_r. reflexivity.
    - cbn [nth_error] in E. apply IH in E. destruct E as [E1 E2]. split.
      + cbn [firstn skipn]. rewrite !render_all_cons, E1, <- app_assoc. reflexivity.
      + unfold start in *. cbn [firstn]. rewrite !render_all_cons, !blen_app. cbn [firstn] in E2. rewrite E2. lia. }
  pose proof (mdat_same k md Ek Im) as Eg.
  destruct (At f md Ek) as [F1 F2]. destruct (At g md Eg) as [G1 G2].
  assert (Hf : forall h, render_all h = render_all (firstn k h) ++ render md ++ render_all (skipn (S k) h) -> forall p, start h k <= p -> p + n <= start h k + blen (render md) ->
     slice (render_all h) p n = slice (render md) (p - start h k) n).
  { intros h E p P1 P2. rewrite E, slice_app_r by exact P1. fold (start h k). apply slice_app_l. lia. }
  rewrite (Hf g G1 o') by lia. rewrite (Hf f F1 o) by lia. f_equal. lia.
Qed.
End At.

Theorem chunk_exact : forall items f t, describes f t -> editable f -> forall i j o k n, entry f i j o -> inside f k o n ->
  exists t o', nth_error (file_tables f) i = Some t /\ entry (update_file items f) i j o' /\ (forall o2, entry (update_file items f) i j o2 -> o2 = o') /\
    (same_place f (update_file items f) k o o' <-> stays f items i (fst t) k o).
Proof.
  intros items f t (ft & pre & mv & post & -> & I & _ & _ & J & N & _) E. exact (entry_kept items ft pre mv post I J N (editable_moov _ _ _ _ J E)).
Qed.
Theorem chunk_bytes : forall items f t, describes f t -> editable f -> forall k o o' n, inside f k o n -> same_place f (update_file items f) k o o' ->
  slice (render_all (update_file items f)) o' n = slice (render_all f) o n.
Proof.
  intros items f t (ft & pre & mv & post & -> & I & _ & _ & J & N & _) E. exact (same_bytes items ft pre mv post I J N).
Qed.
Theorem media_same : forall items f t, describes f t -> forall k md, nth_error f k = Some md -> a_id md = id4 "mdat" -> nth_error (update_file items f) k = Some md.
Proof. intros items f t (ft & pre & mv & post & -> & I & _ & _ & J & N & _). exact (mdat_same items ft pre mv post I J N). Qed.
