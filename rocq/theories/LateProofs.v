(** Writing as planned to a file that others have changed in front of the movie or behind it. *)

From Coq Require Import List NArith ZArith Bool Lia Arith String.
From Coq Require Import ZifyBool ZifyNat ZifyN.
From Verif Require Import Base BaseLemmas Utf UtfLemmas Types Stream Parse Find Write TagSpec FileSpec ParseLemmas ReadProofs ReadSpec ReadFacts
  ReadBad ReadTerm NewMeans WriteBytes WriteState ScanProofs AdjustProofs FramesProofs WriteProofs WriteMain UpdateMeans EditSpec EditProofs RepairSpec LastSpec LastProofs LastWrite
  Interfere InterfereProofs.
Import ListNotations.
Local Open Scope list_scope.

(** [tri_finish] of FramesProofs.v, whatever is behind the old item list. *)
Lemma tri_finish_any : forall f0 lo cap m diff P O T T' nw new lim old, lo <= blen P -> lim <= blen P ->
  writes (new_atoms_write m new) nw -> (diff = Z.of_N (blen nw) - Z.of_N (blen O))%Z -> old = blen (P ++ O ++ T) ->
  blen (P ++ O ++ T) < 2 ^ 62 -> blen (P ++ nw ++ T) < 2 ^ 62 ->
  tri (log_is f0 lo (P ++ O ++ T') lim)
    ((n <== wlift (addi m (as_i64 old) diff) ;; file_set_len (i_as_u64 n)) =;;
     bw_seek_start (blen P) =;;
     bw_out cap (new_atoms_write m new) =;;
     (q <== wlift (addi m (as_i64 (blen P + blen O)) diff) ;; bw_seek_start (i_as_u64 q)) =;;
     bw_write cap T =;;
     bw_flush) tt (file_is f0 lo (P ++ nw ++ T)).
Proof.
  intros f0 lo cap m diff P O T T' nw new lim old Lo Lim [W1 W2] E -> S1 S2. intros s (x & y & H & X & Lx). revert s H.
  change (tri (st f0 lo x y)
    ((n <== wlift (addi m (as_i64 (blen (P ++ O ++ T))) diff) ;; file_set_len (i_as_u64 n)) =;;
     bw_seek_start (blen P) =;;
     bw_out cap (new_atoms_write m new) =;;
     (q <== wlift (addi m (as_i64 (blen P + blen O)) diff) ;; bw_seek_start (i_as_u64 q)) =;;
     bw_write cap T =;;
     bw_flush) tt (file_is f0 lo (P ++ nw ++ T))).
  rewrite !blen_app in *.
  assert (A1 : addi m (as_i64 (blen P + (blen O + blen T))) diff = Ok (Z.of_N (blen P + (blen nw + blen T)))).
  { rewrite as_i64_small by (unfold two63; lia). rewrite addi_ok by (unfold two63; lia). f_equal. lia. }
  assert (A2 : addi m (as_i64 (blen P + blen O)) diff = Ok (Z.of_N (blen P + blen nw))).
  { rewrite as_i64_small by (unfold two63; lia). rewrite addi_ok by (unfold two63; lia). f_equal. lia. }
  assert (I1 : forall n, n < 2 ^ 63 -> i_as_u64 (Z.of_N n) = n) by (intros n Hn; unfold i_as_u64, two64; lia).
  pose (n := blen P + (blen nw + blen T)).
  assert (Y : exists y0, P = x ++ y0 /\ y = y0 ++ O ++ T').
  { exists (skipn (List.length x) P). pose proof (f_equal (firstn (List.length x)) X) as X1. rewrite firstn_app, firstn_all, Nat.sub_diag in X1.
    cbn [firstn] in X1. rewrite app_nil_r in X1. rewrite firstn_app in X1.
    assert (Hl : (List.length x - List.length P)%nat = 0%nat) by (unfold blen in *; lia).
    rewrite Hl in X1. cbn [firstn] in X1. rewrite app_nil_r in X1.
    assert (Px : P = x ++ skipn (List.length x) P) by (rewrite X1 at 1; symmetry; apply firstn_skipn).
    split; [exact Px|]. rewrite Px in X at 1. rewrite <- app_assoc in X. apply app_inv_head in X. exact X. }
  destruct Y as (y0 & EP & Ey).
  assert (Sp : exists z1 z2, set_length y (n - blen x) = y0 ++ z1 ++ z2 /\ blen z1 = blen nw /\ blen z2 = blen T).
  { pose (z := set_length (O ++ T') (blen nw + blen T)).
    exists (firstn (List.length nw) z), (skipn (List.length nw) z). rewrite firstn_skipn.
    assert (Lz : blen z = blen nw + blen T) by apply blen_set_length.
    split; [|split].
    - rewrite Ey. replace (n - blen x) with (blen y0 + (blen nw + blen T)).
      + apply set_length_app.
      + unfold n. rewrite EP, blen_app. lia.
    - unfold blen in *. rewrite firstn_length. lia.
    - unfold blen in *. rewrite skipn_length. lia. }
  destruct Sp as (z1 & z2 & Ez & L1 & L2). unfold out in W1.
  eapply tri_bind.
  { eapply tri_lift; [exact A1|]. rewrite I1 by lia. apply (tri_set_len f0 lo n x y); unfold n, two63; lia. }
  rewrite Ez. eapply tri_bind.
  { apply (tri_seek f0 lo (blen P) x (y0 ++ z1 ++ z2) P (z1 ++ z2)); [rewrite EP, <- app_assoc; reflexivity|reflexivity|unfold two63; lia]. }
  eapply tri_bind.
  { eapply tri_weaken; [apply (tri_out f0 lo cap (new_atoms_write m new) tt P z2 z1 W2); [rewrite W1; exact L1|exact Lo]|intros s H; apply H|].
    intros s H. rewrite W1 in H. exact H. }
  eapply tri_bind.
  { eapply tri_lift; [exact A2|]. rewrite I1 by lia.
    apply (tri_seek f0 lo (blen P + blen nw) (P ++ nw) z2 (P ++ nw) (z2 ++ [])); [rewrite app_nil_r; reflexivity|rewrite blen_app; reflexivity|unfold two63; lia]. }
  eapply tri_bind.
  { eapply tri_weaken; [apply (tri_write f0 lo cap (P ++ nw) [] z2 T L2); rewrite blen_app; lia|intros s H; apply H|intros s H; exact H]. }
  eapply tri_weaken; [apply tri_flush|intros s H; exact H|]. intros s H. eexists _, _. split; [exact H|].
  rewrite app_nil_r, <- app_assoc. reflexivity.
Qed.

Lemma updates_behind : forall fs p n, Forall (fun b => p <= b_pos b) (updates p fs n).
Proof.
  induction fs as [|r fs IH]; intros p n; [constructor|]. cbn [updates]. constructor; [apply N.le_refl|]. eapply Forall_impl; [|apply IH]. intros b H. cbn beta in H. lia.
Qed.

Theorem late_llast : forall cap fuel m items ft s pre mv post A' T',
  a_id ft = id4 "ftyp" -> wf_ustr s = true -> a_content ft = enc8 s ->
  a_id mv = id4 "moov" -> Forall plain_moov (named_kids (id4 "moov") pre) -> named_kids (id4 "moov") post = [] -> plain_moov mv ->
  good_sizes (ft :: pre ++ mv :: post) -> sound_moov mv ->
  exact_items items -> good_sizes (llast items ft pre mv post) -> blen (render_all (ft :: pre ++ mv :: post)) < N.of_nat fuel ->
  blen A' = blen (render_all (ft :: pre)) -> blen (A' ++ render mv ++ T') < 2 ^ 62 ->
  exists p q, prepare fuel m items (render_all (ft :: pre ++ mv :: post)) 0 = Ok (p, q) /\
    (let a := blen (render_all (ft :: pre)) in
     pl_moov p = moov_at a mv /\ a + asize mv < 2 ^ 62 /\ Forall (fun b => a <= b_pos b) (pl_update p) /\ a <= pl_start p /\
     (forall n, addi m (as_i64 (pl_old_len p)) (pl_diff p) = Ok n -> a <= i_as_u64 n) /\
     (forall n, addi m (as_i64 (pl_moved_start p)) (pl_diff p) = Ok n -> a <= i_as_u64 n) /\ a <= pl_moved_start p) /\
    late cap m p (A' ++ render mv ++ T') =
      SResult (Ok tt) (A' ++ render (last_moov items (match named_kids (id4 "mdat") post with [] => 0%Z | _ => last_growth items mv end) mv) ++ render_all post).
Proof.
  intros cap fuel m items ft s pre mv post A' T' I Ws C J N1 N2 P G GM Ex G' Fu LA Sm3.
  destruct (scan_finds_last fuel m ft s pre mv post G Fu I Ws C J N1 N2 P) as (q & Sc). unfold llast in *.
  set (d := match named_kids (id4 "mdat") post with [] => 0%Z | _ => last_growth items mv end) in *.
  set (A := render_all (ft :: pre)) in *. set (T := render_all post).
  assert (Ef : render_all (ft :: pre ++ mv :: post) = A ++ render mv ++ T).
  { change (ft :: pre ++ mv :: post) with ((ft :: pre) ++ mv :: post). rewrite render_all_app, render_all_cons. reflexivity. }
  assert (Ef' : render_all ((ft :: pre) ++ last_moov items d mv :: post) = A ++ render (last_moov items d mv) ++ T).
  { rewrite render_all_app, render_all_cons. reflexivity. }
  destruct G as [F1 Sm]. destruct G' as [F1' Sm'].
  rewrite Ef in *. rewrite Ef' in *.
  assert (Fm : fits (last_moov items d mv) = true).
  { rewrite forallb_forall in F1'. apply F1'. apply in_or_app. right. left. reflexivity. }
  assert (Gr : (last_growth items mv = Z.of_N (asize (last_moov items d mv)) - Z.of_N (asize mv))%Z).
  { unfold last_growth. rewrite (last_moov_size items d 0 mv GM). reflexivity. }
  assert (Gb : (- 2 ^ 62 < last_growth items mv < 2 ^ 62)%Z).
  { rewrite Gr. rewrite !blen_app in Sm, Sm'. fold (asize mv) in Sm. fold (asize (last_moov items d mv)) in Sm'. lia. }
  assert (Db : (- 2 ^ 62 < d < 2 ^ 62)%Z) by (unfold d; destruct (named_kids (id4 "mdat") post); [lia|exact Gb]).
  assert (Sp : blen A + asize mv < 2 ^ 62) by (rewrite !blen_app in Sm; fold (asize mv) in Sm; lia).
  destruct (moov_lsite m items Ex (blen A) d mv GM Sp Fm Db)
    as (fs & fsd & old & nw & new & r & tail & R1 & R2 & R3 & R4 & R5 & R6 & R7 & R8 & R9 & R10 & R11).
  assert (W0 : width fs (blen old) = asize mv) by (unfold asize; rewrite R1, blen_framed; reflexivity).
  assert (Wd : width fsd (blen old) = asize mv) by (rewrite <- W0, !width_eq, R6, R7; reflexivity).
  assert (Wn : width fsd (blen nw) = asize (last_moov items d mv)).
  { unfold asize. rewrite R4, <- R6. change (prefix fsd (blen nw) ++ nw ++ suffix fsd) with (framed fsd nw). symmetry. apply blen_framed. }
  assert (Df : (last_growth items mv = Z.of_N (blen nw) - Z.of_N (blen old))%Z).
  { rewrite Gr, <- Wn, <- Wd, !width_eq, (blen_prefix fsd (blen nw) (blen old)). lia. }
  assert (L0 : blen A + blen (prefix fs (blen old)) + blen old <= blen (A ++ render mv ++ T)).
  { rewrite R1. unfold framed. rewrite !blen_app. lia. }
  assert (Ln : new_atoms_len new < 2 ^ 62).
  { rewrite R9. rewrite R4, !blen_app in Sm'. lia. }
  destruct (prepare_ok fuel m items _ _ _ q _ _ new r Sc R10 L0 Sm Ln) as (q' & Pr).
  assert (Mv : skipn (N.to_nat (blen A + blen (prefix fs (blen old)) + blen old)) (A ++ render mv ++ T) = suffix fs ++ T).
  { replace (A ++ render mv ++ T) with ((A ++ prefix fs (blen old) ++ old) ++ suffix fs ++ T).
    - apply skipn_app_at. rewrite !blen_app. lia.
    - rewrite R1. unfold framed. rewrite <- !app_assoc. reflexivity. }
  rewrite Mv, R9, <- Df in Pr. eexists _, q'. split; [exact Pr|]. split.
  { cbv zeta. fold A. cbn [pl_moov pl_update pl_start pl_old_len pl_diff pl_moved_start]. split; [reflexivity|]. split; [exact Sp|]. split; [rewrite <- R11; apply updates_behind|]. split; [lia|].
    assert (B1 : blen (A ++ render mv ++ T) = blen A + (blen (prefix fs (blen old)) + blen old + blen (suffix fs)) + blen T) by (rewrite R1; unfold framed; rewrite !blen_app; lia).
    assert (I1 : forall n, n < 2 ^ 63 -> i_as_u64 (Z.of_N n) = n) by (intros n Hn; unfold i_as_u64, two64; lia).
    assert (K : forall x n, blen A + blen old <= x -> x < 2 ^ 62 -> addi m (as_i64 x) (last_growth items mv) = Ok n -> blen A <= i_as_u64 n).
    { intros x n Hx Lx. rewrite as_i64_small by (unfold two63; lia). rewrite addi_ok by (unfold two63; lia). intros E. injection E as <-.
      replace (Z.of_N x + last_growth items mv)%Z with (Z.of_N (x - blen old + blen nw)) by lia. assert (blen nw < 2 ^ 62) by (rewrite <- R9; exact Ln). rewrite I1 by lia. lia. }
    split; [intros n; apply K; lia|]. split; [intros n; apply K; lia|lia]. }
  unfold late.
  fold A in LA. set (F0 := A' ++ render mv ++ T') in *.
  assert (Run : tri (file_is F0 (blen A) F0)
    (execute cap m (Plan (moov_at (blen A) mv) (mdat_pos (ft :: pre ++ mv :: post)) (blen A + blen (prefix fs (blen old)))
       (blen A + blen (prefix fs (blen old)) + blen old) (last_growth items mv) r new (blen (A ++ render mv ++ T)) (suffix fs ++ T))) tt
    (file_is F0 (blen A) (A' ++ render (last_moov items d mv) ++ T))).
  { unfold execute. cbn [pl_moov pl_mdat_pos pl_start pl_moved_start pl_diff pl_update pl_new pl_old_len pl_moved].
    eapply tri_bind.
    { change (b_pos (vb_bounds (moov_at (blen A) mv))) with (blen A). pose proof (mdat_behind ft pre mv post J) as MB. fold A in MB. rewrite MB.
      instantiate (1 := file_is F0 (blen A) (A' ++ render (with_kids mv (move_traks d (a_kids mv))) ++ T')).
      pose proof GM as GT. unfold sound_moov in GT. unfold d. destruct (named_kids (id4 "mdat") post).
      - rewrite move_traks_0 by exact GT. rewrite with_same. apply tri_ret.
      - rewrite render_with_kids by (apply move_traks_size; exact GT).
        assert (Q : forall X, (A' ++ header (a_ext mv) (a_id mv) (csize mv) ++ a_pre mv) ++ X ++ T' =
          A' ++ (header (a_ext mv) (a_id mv) (csize mv) ++ a_pre mv ++ X) ++ T') by (intro; rewrite <- !app_assoc; reflexivity).
        destruct (traks_last F0 (blen A) cap m (last_growth items mv) Gb (a_kids mv) (kids_pos (blen A) mv)
          (A' ++ header (a_ext mv) (a_id mv) (csize mv) ++ a_pre mv) T' GT) as [X _].
        + rewrite !blen_app, blen_header, LA. unfold kids_pos, hlen. lia.
        + unfold kids_pos. lia.
        + rewrite Q, <- render_kids. exact Sm3.
        + rewrite !Q, <- render_kids in X. exact X. }
    rewrite R2, <- R11, <- LA.
    replace (blen A' + blen (prefix fs (blen old))) with (blen (A' ++ prefix fsd (blen nw))) by (rewrite blen_app, (blen_prefix fsd (blen nw) (blen old)), R7; reflexivity).
    assert (Sm2 : blen (A' ++ prefix fsd (blen old) ++ old ++ tail ++ T') < 2 ^ 62).
    { unfold F0 in Sm3. rewrite !blen_app in *. rewrite R1 in Sm3. unfold framed in Sm3. rewrite !blen_app in Sm3. lia. }
    eapply tri_bind.
    { eapply tri_weaken; [apply (tri_updates F0 (blen A') cap m (last_growth items mv) fsd
        (blen (A' ++ prefix fsd (blen old) ++ old ++ tail ++ T')) (blen old) (blen nw) A' (old ++ tail ++ T'))| |].
      - lia.
      - lia.
      - exact R5.
      - exact Sm2.
      - lia.
      - rewrite Wn. rewrite !blen_app in Sm'. fold (asize (last_moov items d mv)) in Sm'. lia.
      - intros ->. cbn [updates] in R11. subst r. destruct R10 as [(_ & _ & _ & _ & X)|(u & r & _ & _ & X)]; discriminate X.
      - intros t H. apply file_log in H. rewrite <- !app_assoc in H. exact H.
      - intros t H. exact H. }
    eapply tri_weaken; [eapply (tri_finish_any F0 (blen A') cap m (last_growth items mv) (A' ++ prefix fsd (blen nw)) old (suffix fs ++ T) (tail ++ T') nw new
       (blen A' + blen (prefix fsd (blen old))) (blen (A ++ render mv ++ T)))| |].
    - rewrite blen_app. lia.
    - rewrite blen_app, (blen_prefix fsd (blen nw) (blen old)). lia.
    - exact R8.
    - exact Df.
    - rewrite R1. unfold framed. rewrite !blen_app, (blen_prefix fsd (blen nw) (blen old)), R7. lia.
    - rewrite !blen_app, (blen_prefix fsd (blen nw) (blen old)), R7. rewrite R1 in Sm. unfold framed in Sm. rewrite !blen_app in Sm. lia.
    - rewrite R4, !blen_app in Sm'. rewrite !blen_app. lia.
    - intros t H. rewrite <- !app_assoc. exact H.
    - intros t H. rewrite R4. rewrite <- !app_assoc. rewrite <- !app_assoc in H. exact H. }
  assert (St : file_is F0 (blen A) F0 (Wst F0 0 [] [])).
  { exists [], F0. split; [apply st_init|reflexivity]. }
  destruct (Run _ St) as (s1 & E1 & (x & y & H1 & X)). rewrite E1. destruct H1 as [H1 B1].
  destruct (tri_flush _ _ x y s1 H1) as (s2 & E2 & H2). rewrite E2.
  pose proof (stf_file _ _ _ _ _ H2) as Fl. rewrite X in Fl. rewrite Fl. reflexivity.
Qed.
