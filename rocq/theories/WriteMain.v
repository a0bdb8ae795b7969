(** The main theorem on writing. *)

From Coq Require Import List NArith ZArith Bool Lia Arith String.
From Coq Require Import ZifyBool ZifyNat ZifyN.
From Verif Require Import Base BaseLemmas Utf UtfLemmas Types Stream Parse Find Write TagSpec FileSpec ParseLemmas ReadProofs ReadSpec ReadFacts
  ReadBad ReadTerm WriteBytes WriteState ScanProofs AdjustProofs FramesProofs WriteProofs.
Import ListNotations.
Local Open Scope list_scope.

(** * A shift by nothing *)

Lemma shift_entry_0 : forall w o, o < 2 ^ (8 * N.of_nat w) -> shift_entry w 0 o = o.
Proof.
  intros w o H. unfold shift_entry. rewrite Z.add_0_r, Z.mod_small; [lia|]. split; [lia|].
  replace (2 ^ (8 * Z.of_nat w))%Z with (Z.of_N (2 ^ (8 * N.of_nat w))) by (rewrite N2Z.inj_pow; f_equal; lia). lia.
Qed.
Lemma map_kids_id : forall id h ks, (forall c, In c ks -> a_id c = id -> h c = c) -> map_kids id h ks = ks.
Proof.
  intros id h ks. induction ks as [|k r IH]; intros H; [reflexivity|]. cbn [map_kids map]. fold (map_kids id h r).
  rewrite IH by (intros; apply H; [right|]; assumption). f_equal.
  destruct (is_named id k) eqn:E; [|reflexivity]. apply H; [left; reflexivity|apply is_named_eq, E].
Qed.
Lemma map_child_id : forall id h k, (forall c, In c (a_kids k) -> a_id c = id -> h c = c) -> map_child id h k = k.
Proof. intros id h k H. unfold map_child. rewrite map_kids_id by exact H. apply with_same. Qed.
Lemma shift_table_0 : forall w k, (0 < w)%nat -> good_table w k -> shift_table w 0 k = k.
Proof.
  intros w k W (K & v & offs & V & E & L & F).
  assert (F' : Forall (fun o => o < 2 ^ (8 * N.of_nat w)) offs) by (eapply Forall_impl; [|exact F]; cbv beta; tauto).
  rewrite (shift_table_pre 0 w k v offs W V E F'). replace (map (shift_entry w 0) offs) with offs.
  - rewrite <- E. destruct k. reflexivity.
  - rewrite <- (map_id offs) at 1. apply map_ext_in. intros o I. symmetry. apply shift_entry_0. rewrite Forall_forall in F'. apply F', I.
Qed.
Lemma shift_stbl_0 : forall k, good_stbl k -> shift_stbl 0 k = k.
Proof.
  intros k (_ & _ & T1 & T2). unfold shift_stbl. rewrite (map_child_id (id4 "co64")), map_child_id; [reflexivity| |].
  - intros c I E. apply shift_table_0; [lia|]. eapply named_in; eassumption.
  - intros c I E. apply shift_table_0; [lia|]. eapply named_in; eassumption.
Qed.
Lemma shift_trak_0 : forall k, good_trak k -> shift_trak 0 k = k.
Proof.
  intros k [_ G]. apply map_child_id. intros c I E. destruct (named_in _ _ _ c G I E) as [_ G2].
  apply map_child_id. intros c2 I2 E2. destruct (named_in _ _ _ c2 G2 I2 E2) as [_ G3].
  apply map_child_id. intros c3 I3 E3. apply shift_stbl_0. exact (named_in _ _ _ c3 G3 I3 E3).
Qed.
Lemma shift_traks_0 : forall ks, Forall good_trak (named_kids (id4 "trak") ks) -> shift_traks 0 ks = ks.
Proof. intros ks G. apply map_kids_id. intros c I E. apply shift_trak_0. exact (named_in _ _ _ c G I E). Qed.

(** * Sizes *)

Lemma shift_traks_size : forall d ks, Forall good_trak (named_kids (id4 "trak") ks) ->
  blen (render_all (shift_traks d ks)) = blen (render_all ks).
Proof.
  intros d ks H. apply map_kids_size. intros c I E. pose proof (named_in _ _ _ c H I E) as [O1 G].
  apply map_child_size. intros c2 I2 E2. pose proof (named_in _ _ _ c2 G I2 E2) as [O2 G2].
  apply map_child_size. intros c3 I3 E3. pose proof (named_in _ _ _ c3 G2 I3 E3) as [O3 G3].
  apply map_child_size. intros c4 I4 E4. pose proof (named_in _ _ _ c4 G3 I4 E4) as (O4 & O5 & T1 & T2).
  assert (S2 : same_size c4 (map_child (id4 "co64") (shift_table 8 d) c4)).
  { apply map_child_size. intros c5 I5 E5. apply shift_table_same; [lia|]. exact (named_in _ _ _ c5 T2 I5 E5). }
  assert (S1 : same_size (map_child (id4 "co64") (shift_table 8 d) c4) (shift_stbl d c4)).
  { apply map_child_size. intros c5 I5 E5. apply shift_table_same; [lia|].
    unfold map_child, with_kids in I5. cbn [a_kids] in I5.
    eapply named_in; [|exact I5|exact E5].
    rewrite named_map; [exact T1|discriminate|]. intros c6 I6 E6. apply shift_table_same; [lia|]. exact (named_in _ _ _ c6 T2 I6 E6). }
  destruct S1 as (X1 & X2 & X3). destruct S2 as (Y1 & Y2 & Y3). split; [congruence|]. split; congruence.
Qed.
Lemma good_sub : forall id (P : atom -> Prop) x y, Forall P (named_kids id (x ++ y)) -> Forall P (named_kids id x) /\ Forall P (named_kids id y).
Proof. intros id P x y H. rewrite named_app in H. apply Forall_app. exact H. Qed.
Lemma split_on_some : forall id l x c y, split_on id l = Some (x, c, y) -> l = x ++ c :: y /\ a_id c = id /\ named_kids id x = [].
Proof.
  intros id l. induction l as [|k r IH]; intros x c y H; [discriminate|]. cbn [split_on] in H. destruct (is_named id k) eqn:E.
  - injection H as <- <- <-. split; [reflexivity|]. split; [apply is_named_eq, E|reflexivity].
  - destruct (split_on id r) as [[[x' c'] y']|]; [|discriminate]. injection H as <- <- <-. destruct (IH _ _ _ eq_refl) as (-> & I & N).
    split; [reflexivity|]. split; [exact I|]. rewrite named_cons, E. exact N.
Qed.
Lemma update_moov_size : forall items d d' mv, good_moov mv -> asize (update_moov items d mv) = asize (update_moov items d' mv).
Proof.
  intros items d d' mv [G _]. unfold update_moov. destruct (split_on (id4 "udta") (a_kids mv)) as [[[x c] y]|] eqn:E.
  - apply split_on_some in E. destruct E as (E & _ & _). rewrite E in G. apply good_sub in G. destruct G as [G _].
    rewrite !asize_eq. unfold csize, a_content, hlen, with_kids. cbn [a_ext a_pre a_kids]. rewrite !render_all_app, !blen_app, !shift_traks_size by exact G. reflexivity.
  - rewrite !asize_eq. unfold csize, a_content, hlen, with_kids. cbn [a_ext a_pre a_kids]. rewrite !render_all_app, !blen_app, !shift_traks_size by exact G. reflexivity.
Qed.

(** * The position of the media data *)

Lemma last_of_ge : forall id ks q acc b, last_of bounds_of id q ks acc = Some b -> named_kids id ks <> [] -> q <= b_pos b.
Proof.
  intros id. induction ks as [|k r IH]; intros q acc b H N; [contradiction|]. cbn [last_of] in H. rewrite named_cons in N.
  destruct (named_kids id r) eqn:E.
  - rewrite last_of_none in H by exact E. destruct (is_named id k); [|contradiction]. injection H as <-. cbn [bounds_of b_pos]. lia.
  - specialize (IH _ _ _ H). assert (q + asize k <= b_pos b) by (apply IH; discriminate). lia.
Qed.
Lemma last_of_lt : forall id ks q acc b, last_of bounds_of id q ks acc = Some b -> named_kids id ks <> [] -> b_pos b < q + blen (render_all ks).
Proof.
  intros id. induction ks as [|k r IH]; intros q acc b H N; [contradiction|]. cbn [last_of] in H. rewrite named_cons in N.
  rewrite blen_render_all_cons. pose proof (asize_pos k). destruct (named_kids id r) eqn:E.
  - rewrite last_of_none in H by exact E. destruct (is_named id k); [|contradiction]. injection H as <-. cbn [bounds_of b_pos]. lia.
  - specialize (IH _ _ _ H). assert (b_pos b < q + asize k + blen (render_all r)) by (apply IH; discriminate). lia.
Qed.
Lemma mdat_behind : forall ft pre mv post, a_id mv = id4 "moov" ->
  (blen (render_all (ft :: pre)) <? mdat_pos (ft :: pre ++ mv :: post)) = match named_kids (id4 "mdat") post with [] => false | _ => true end.
Proof.
  intros ft pre mv post J. unfold mdat_pos. rewrite last_of_app. cbn [last_of].
  assert (Nm : is_named (id4 "mdat") mv = false).
  { destruct (is_named (id4 "mdat") mv) eqn:X; [apply is_named_eq in X; rewrite J in X; discriminate X|reflexivity]. }
  rewrite Nm, blen_render_all_cons. destruct (named_kids (id4 "mdat") post) as [|k r] eqn:E.
  - rewrite last_of_none by exact E. apply N.ltb_ge. destruct (last_of bounds_of (id4 "mdat") (asize ft) pre None) as [b|] eqn:L; [|lia].
    destruct (named_kids (id4 "mdat") pre) eqn:E2; [rewrite last_of_none in L by exact E2; discriminate|].
    apply last_of_lt in L; [lia|rewrite E2; discriminate].
  - destruct (last_of_some bounds_of (id4 "mdat") post (asize ft + blen (render_all pre) + asize mv)
      (last_of bounds_of (id4 "mdat") (asize ft) pre None)) as (b & L); [rewrite E; discriminate|].
    rewrite L. apply last_of_ge in L; [|rewrite E; discriminate]. pose proof (asize_pos mv). apply N.ltb_lt. lia.
Qed.

(** * Writing *)

Lemma update_at : forall items ft pre mv post, a_id ft = id4 "ftyp" -> a_id mv = id4 "moov" -> named_kids (id4 "moov") (pre ++ post) = [] ->
  update_file items (ft :: pre ++ mv :: post) =
  (ft :: pre) ++ update_moov items (match named_kids (id4 "mdat") post with [] => 0%Z | _ => growth items mv end) mv :: post.
Proof.
  intros items ft pre mv post I J N. unfold update_file. change (ft :: pre ++ mv :: post) with ((ft :: pre) ++ mv :: post).
  rewrite split_on_at; [reflexivity|exact J|]. rewrite named_cons. rewrite named_app in N. apply app_eq_nil in N. destruct N as [N _].
  destruct (is_named (id4 "moov") ft) eqn:X; [apply is_named_eq in X; rewrite I in X; discriminate X|exact N].
Qed.

Definition laid_out (f : list atom) (ft : atom) (pre : list atom) (mv : atom) (post : list atom) : Prop :=
  f = ft :: pre ++ mv :: post /\ a_id ft = id4 "ftyp" /\ (exists s, wf_ustr s = true /\ a_content ft = enc8 s) /\
  a_id mv = id4 "moov" /\ named_kids (id4 "moov") (pre ++ post) = [] /\ plain_moov mv.

Lemma skipn_app_at : forall {A} (a b : list A) n, n = blen a -> skipn (N.to_nat n) (a ++ b) = b.
Proof. intros A a b n ->. rewrite to_nat_blen, skipn_app, skipn_all, Nat.sub_diag. reflexivity. Qed.

(** The file after writing to its last movie atom. *)
Definition update_last (items : list atom_data) (ft : atom) (pre : list atom) (mv : atom) (post : list atom) : list atom :=
  (ft :: pre) ++ update_moov items (match named_kids (id4 "mdat") post with [] => 0%Z | _ => growth items mv end) mv :: post.

Theorem write_last : forall cap fuel m items ft s pre mv post,
  a_id ft = id4 "ftyp" -> wf_ustr s = true -> a_content ft = enc8 s ->
  a_id mv = id4 "moov" -> Forall plain_moov (named_kids (id4 "moov") pre) -> named_kids (id4 "moov") post = [] -> plain_moov mv ->
  good_sizes (ft :: pre ++ mv :: post) -> good_moov mv ->
  exact_items items -> good_sizes (update_last items ft pre mv post) -> blen (render_all (ft :: pre ++ mv :: post)) < N.of_nat fuel ->
  exists ops, write_tag cap fuel m items (render_all (ft :: pre ++ mv :: post)) = WResult (Ok tt) (render_all (update_last items ft pre mv post)) ops /\
    run_ops ops (render_all (ft :: pre ++ mv :: post)) = render_all (update_last items ft pre mv post) /\ Forall (op_ge (blen (render_all (ft :: pre)))) ops.
Proof.
  intros cap fuel m items ft s pre mv post I Ws C J N1 N2 P G GM Ex G' Fu.
  destruct (scan_finds_last fuel m ft s pre mv post G Fu I Ws C J N1 N2 P) as (q & Sc). unfold update_last in *.
  set (d := match named_kids (id4 "mdat") post with [] => 0%Z | _ => growth items mv end) in *.
  set (A := render_all (ft :: pre)) in *. set (T := render_all post).
  assert (Ef : render_all (ft :: pre ++ mv :: post) = A ++ render mv ++ T).
  { change (ft :: pre ++ mv :: post) with ((ft :: pre) ++ mv :: post). rewrite render_all_app, render_all_cons. reflexivity. }
  assert (Ef' : render_all ((ft :: pre) ++ update_moov items d mv :: post) = A ++ render (update_moov items d mv) ++ T).
  { rewrite render_all_app, render_all_cons. reflexivity. }
  destruct G as [F1 Sm]. destruct G' as [F1' Sm'].
  rewrite Ef in *. rewrite Ef' in *.
  assert (Fm : fits (update_moov items d mv) = true).
  { rewrite forallb_forall in F1'. apply F1'. apply in_or_app. right. left. reflexivity. }
  assert (Gr : (growth items mv = Z.of_N (asize (update_moov items d mv)) - Z.of_N (asize mv))%Z).
  { unfold growth. rewrite (update_moov_size items d 0 mv GM). reflexivity. }
  assert (Gb : (- 2 ^ 62 < growth items mv < 2 ^ 62)%Z).
  { rewrite Gr. rewrite !blen_app in Sm, Sm'. fold (asize mv) in Sm. fold (asize (update_moov items d mv)) in Sm'. lia. }
  assert (Db : (- 2 ^ 62 < d < 2 ^ 62)%Z) by (unfold d; destruct (named_kids (id4 "mdat") post); [lia|exact Gb]).
  assert (Sp : blen A + asize mv < 2 ^ 62) by (rewrite !blen_app in Sm; fold (asize mv) in Sm; lia).
  destruct (moov_site m items Ex (blen A) d mv GM Sp Fm Db)
    as (fs & fsd & old & nw & new & r & tail & R1 & R2 & R3 & R4 & R5 & R6 & R7 & R8 & R9 & R10 & R11).
  assert (W0 : width fs (blen old) = asize mv) by (unfold asize; rewrite R1, blen_framed; reflexivity).
  assert (Wd : width fsd (blen old) = asize mv) by (rewrite <- W0, !width_eq, R6, R7; reflexivity).
  assert (Wn : width fsd (blen nw) = asize (update_moov items d mv)).
  { unfold asize. rewrite R4, <- R6. change (prefix fsd (blen nw) ++ nw ++ suffix fsd) with (framed fsd nw). symmetry. apply blen_framed. }
  assert (Df : (growth items mv = Z.of_N (blen nw) - Z.of_N (blen old))%Z).
  { rewrite Gr, <- Wn, <- Wd, !width_eq, (blen_prefix fsd (blen nw) (blen old)). lia. }
  assert (L0 : blen A + blen (prefix fs (blen old)) + blen old <= blen (A ++ render mv ++ T)).
  { rewrite R1. unfold framed. rewrite !blen_app. lia. }
  assert (Ln : new_atoms_len new < 2 ^ 62).
  { rewrite R9. rewrite R4, !blen_app in Sm'. lia. }
  destruct (prepare_ok fuel m items _ _ _ q _ _ new r Sc R10 L0 Sm Ln) as (q' & Pr).
  assert (Mv : skipn (N.to_nat (blen A + blen (prefix fs (blen old)) + blen old)) (A ++ render mv ++ T) = suffix fs ++ T).
  { replace (A ++ render mv ++ T) with ((A ++ prefix fs (blen old) ++ old) ++ suffix fs ++ T).
    - apply skipn_app_at. rewrite !blen_app. lia.
    - rewrite R1. unfold framed. rewrite <- !app_assoc. reflexivity. }
  rewrite Mv, R9, <- Df in Pr. unfold write_tag, write_tag_to. rewrite Pr.
  assert (Run : tri (file_is (A ++ render mv ++ T) (blen A) (A ++ render mv ++ T))
    (execute cap m (Plan (moov_at (blen A) mv) (mdat_pos (ft :: pre ++ mv :: post)) (blen A + blen (prefix fs (blen old)))
       (blen A + blen (prefix fs (blen old)) + blen old) (growth items mv) r new (blen (A ++ render mv ++ T)) (suffix fs ++ T))) tt
    (file_is (A ++ render mv ++ T) (blen A) (A ++ render (update_moov items d mv) ++ T))).
  { unfold execute. cbn [pl_moov pl_mdat_pos pl_start pl_moved_start pl_diff pl_update pl_new pl_old_len pl_moved].
    eapply tri_bind.
    { change (b_pos (vb_bounds (moov_at (blen A) mv))) with (blen A). pose proof (mdat_behind ft pre mv post J) as MB. fold A in MB. rewrite MB.
      instantiate (1 := file_is (A ++ render mv ++ T) (blen A) (A ++ render (with_kids mv (shift_traks d (a_kids mv))) ++ T)).
      destruct GM as [GT _]. unfold d. destruct (named_kids (id4 "mdat") post).
      - rewrite shift_traks_0 by exact GT. rewrite with_same. apply tri_ret.
      - rewrite render_with_kids by (apply shift_traks_size; exact GT).
        assert (Q : forall X, (A ++ header (a_ext mv) (a_id mv) (csize mv) ++ a_pre mv) ++ X ++ T =
          A ++ (header (a_ext mv) (a_id mv) (csize mv) ++ a_pre mv ++ X) ++ T) by (intro; rewrite <- !app_assoc; reflexivity).
        destruct (traks_patch (A ++ render mv ++ T) (blen A) cap m (growth items mv) Gb (a_kids mv) (kids_pos (blen A) mv)
          (A ++ header (a_ext mv) (a_id mv) (csize mv) ++ a_pre mv) T GT) as [X _].
        + rewrite !blen_app, blen_header. unfold kids_pos, hlen. lia.
        + unfold kids_pos. lia.
        + rewrite Q, <- render_kids. exact Sm.
        + rewrite !Q, <- render_kids in X. exact X. }
    rewrite R2, <- R11.
    replace (blen A + blen (prefix fs (blen old))) with (blen (A ++ prefix fsd (blen nw))) by (rewrite blen_app, (blen_prefix fsd (blen nw) (blen old)), R7; reflexivity).
    assert (Sm2 : blen (A ++ prefix fsd (blen old) ++ old ++ tail ++ T) < 2 ^ 62).
    { rewrite !blen_app in *. rewrite R1 in Sm. unfold framed in Sm. rewrite !blen_app in Sm. lia. }
    eapply tri_bind.
    { eapply tri_weaken; [apply (tri_updates (A ++ render mv ++ T) (blen A) cap m (growth items mv) fsd
        (blen (A ++ prefix fsd (blen old) ++ old ++ tail ++ T)) (blen old) (blen nw) A (old ++ tail ++ T))| |].
      - lia.
      - lia.
      - exact R5.
      - exact Sm2.
      - lia.
      - rewrite Wn. rewrite !blen_app in Sm'. fold (asize (update_moov items d mv)) in Sm'. lia.
      - intros ->. cbn [updates] in R11. subst r. destruct R10 as [(_ & _ & _ & _ & X)|(u & r & _ & _ & X)]; discriminate X.
      - intros t H. apply file_log in H. rewrite <- !app_assoc in H. exact H.
      - intros t H. exact H. }
    eapply tri_weaken; [eapply (tri_finish (A ++ render mv ++ T) (blen A) cap m (growth items mv) (A ++ prefix fsd (blen nw)) old (suffix fs ++ T) (tail ++ T) nw new
       (blen A + blen (prefix fsd (blen old))) (blen (A ++ render mv ++ T)))| |].
    - rewrite blen_app. lia.
    - rewrite blen_app, (blen_prefix fsd (blen nw) (blen old)). lia.
    - rewrite !blen_app, R3. reflexivity.
    - exact R8.
    - exact Df.
    - rewrite R1. unfold framed. rewrite !blen_app, (blen_prefix fsd (blen nw) (blen old)), R7. lia.
    - rewrite !blen_app, (blen_prefix fsd (blen nw) (blen old)), R7. rewrite R1 in Sm. unfold framed in Sm. rewrite !blen_app in Sm. lia.
    - rewrite R4, !blen_app in Sm'. rewrite !blen_app. lia.
    - intros t H. rewrite <- !app_assoc. exact H.
    - intros t H. rewrite R4. rewrite <- !app_assoc. rewrite <- !app_assoc in H. exact H. }
  assert (St : file_is (A ++ render mv ++ T) (blen A) (A ++ render mv ++ T) (Wst (A ++ render mv ++ T) 0 [] [])).
  { exists [], (A ++ render mv ++ T). split; [apply st_init|reflexivity]. }
  destruct (Run _ St) as (s1 & E1 & (x & y & H1 & X)). rewrite E1. destruct H1 as [H1 B1].
  destruct (tri_flush _ _ x y s1 H1) as (s2 & E2 & H2). rewrite E2.
  pose proof (stf_file _ _ _ _ _ H2) as Fl. rewrite X in Fl. destruct H2 as [(_ & O & Op & _) _].
  exists (w_ops s2). rewrite Fl in *. split; [reflexivity|]. split; [exact O|exact Op].
Qed.

Theorem write_main : forall cap fuel m items f ft pre mv post, laid_out f ft pre mv post -> good_sizes f -> good_moov mv ->
  exact_items items -> good_sizes (update_file items f) -> blen (render_all f) < N.of_nat fuel ->
  exists ops, write_tag cap fuel m items (render_all f) = WResult (Ok tt) (render_all (update_file items f)) ops /\
    run_ops ops (render_all f) = render_all (update_file items f) /\ Forall (op_ge (blen (render_all (ft :: pre)))) ops.
Proof.
  intros cap fuel m items f ft pre mv post (-> & I & (s & Ws & C) & J & N & P) G GM Ex G' Fu.
  pose proof (update_at items ft pre mv post I J N) as Eu. rewrite Eu in *.
  rewrite named_app in N. apply app_eq_nil in N. destruct N as [N1 N2].
  apply (write_last cap fuel m items ft s pre mv post); try assumption. rewrite N1. constructor.
Qed.

(** The same for files that mean something. *)
Lemma described_laid_out : forall f t, describes f t -> exists ft pre mv post, laid_out f ft pre mv post /\ forall items, updatable f items -> good_moov mv.
Proof.
  intros f t (ft & pre & mv & post & -> & I & W & C & J & N & M). exists ft, pre, mv, post. split.
  - repeat split; eauto; eapply moov_plain; eassumption.
  - intros items (_ & E & _). unfold editable in E. rewrite Forall_forall in E. apply E, filter_In. split; [|apply is_named_eq, J].
    right. apply in_or_app. right. left. reflexivity.
Qed.
