(** Writing as planned to a file to which another tag has been written meanwhile. *)

From Coq Require Import List NArith ZArith Bool Lia Arith String.
From Coq Require Import ZifyBool ZifyNat ZifyN.
From Verif Require Import Base BaseLemmas Utf UtfLemmas Types Stream Parse Find Write TagSpec FileSpec ParseLemmas ReadProofs ReadSpec ReadFacts
  ReadBad ReadTerm NewMeans WriteBytes WriteState ScanProofs AdjustProofs FramesProofs WriteProofs WriteMain UpdateMeans EditSpec EditProofs RepairSpec LastSpec LastProofs LastWrite LastMeans LastTwice
  LiveSpec LiveProofs Interfere InterfereProofs LateProofs.
Import ListNotations.
Local Open Scope list_scope.

(** * The tracks are where they were *)

Lemma last_of_like : forall {Y} (G : N -> atom -> Y) id ks ks',
  Forall2 (fun a b => asize b = asize a /\ a_id b = a_id a /\ (a_id a = id -> forall q, G q b = G q a)) ks ks' -> forall q acc, last_of G id q ks' acc = last_of G id q ks acc.
Proof.
  intros Y G id ks ks' H. induction H as [|a b r r' (S & I & E) _ IH]; intros q acc; [reflexivity|]. cbn [last_of]. rewrite S.
  assert (Nm : is_named id b = is_named id a) by (unfold is_named; rewrite I; reflexivity). rewrite Nm.
  destruct (is_named id a) eqn:X; [apply is_named_eq in X; rewrite (E X)|]; apply IH.
Qed.
Lemma like_refl : forall {Y} (G : N -> atom -> Y) id ks, Forall2 (fun a b => asize b = asize a /\ a_id b = a_id a /\ (a_id a = id -> forall q, G q b = G q a)) ks ks.
Proof. intros Y G id ks. induction ks; constructor; auto. Qed.
Lemma last_of_map : forall {Y} (G : N -> atom -> Y) id id' h a,
  of_last id (fun c => same_size c (h c) /\ (a_id c = id' -> forall q, G q (h c) = G q c)) a -> forall q acc, last_of G id' q (map_last id h (a_kids a)) acc = last_of G id' q (a_kids a) acc.
Proof.
  intros Y G id id' h a H. apply last_of_like. destruct (last_cases id (a_kids a)) as [N|(x & c & y & E & I & N)].
  - rewrite map_last_none by exact N. apply like_refl.
  - destruct (of_last_at _ _ _ _ _ _ H E I N) as ((S1 & S2 & _) & S3). rewrite E, map_last_at by assumption. apply Forall2_app; [apply like_refl|]. constructor; [auto|apply like_refl].
Qed.
Lemma bounds_same : forall q k k', same_size k k' -> bounds_of q k' = bounds_of q k.
Proof. intros q k k' (A & _ & C). unfold bounds_of, size_of. rewrite A, C. reflexivity. Qed.
Lemma kids_pos_last : forall p id h a, kids_pos p (last_kid id h a) = kids_pos p a. Proof. reflexivity. Qed.

Lemma stbl_at_move : forall d k, sound_stbl k -> forall p, stbl_at p (move_stbl d k) = stbl_at p k.
Proof.
  intros d k So p. pose proof (move_stbl_same d k So) as Sm. destruct So as [T1 T2].
  assert (T2' : of_last (id4 "co64") (good_table 8) (last_kid (id4 "stco") (shift_table 4 d) k)).
  { apply of_last_named. unfold last_kid, with_kids. cbn [a_kids]. rewrite named_last_other by (discriminate || reflexivity). apply of_last_named. exact T2. }
  assert (K : forall id', last_of bounds_of id' (kids_pos p k) (a_kids (move_stbl d k)) None = last_of bounds_of id' (kids_pos p k) (a_kids k) None).
  { intros id'. unfold move_stbl. unfold last_kid at 1. cbn [with_kids a_kids]. rewrite last_of_map.
    - unfold last_kid. cbn [with_kids a_kids]. apply last_of_map. eapply of_last_impl; [exact T1|]. intros c Gc. pose proof (shift_table_same d 4 c ltac:(lia) Gc) as S. split; [exact S|]. intros _ q. apply bounds_same, S.
    - eapply of_last_impl; [exact T2'|]. intros c Gc. pose proof (shift_table_same d 8 c ltac:(lia) Gc) as S. split; [exact S|]. intros _ q. apply bounds_same, S. }
  unfold stbl_at. rewrite (bounds_same p _ _ Sm). change (kids_pos p (move_stbl d k)) with (kids_pos p k). rewrite !K. reflexivity.
Qed.
Lemma trak_at_move : forall d k, sound_trak k -> forall p, trak_at p (move_trak d k) = trak_at p k.
Proof.
  intros d k So p. pose proof (move_trak_same d k So) as Sm. unfold trak_at. rewrite (bounds_same p _ _ Sm). f_equal.
  unfold move_trak. unfold last_kid at 1 2. cbn [with_kids a_kids]. change (kids_pos p (with_kids k _)) with (kids_pos p k).
  apply last_of_map. eapply of_last_impl; [exact So|]. intros c G2.
  assert (S2 : same_size c (last_kid (id4 "minf") (last_kid (id4 "stbl") (move_stbl d)) c)).
  { apply last_kid_size. eapply of_last_impl; [exact G2|]. intros c2 G3. apply last_kid_size. eapply of_last_impl; [exact G3|]. intros c3 G4. apply move_stbl_same, G4. }
  split; [exact S2|]. intros _ q. unfold mdia_at. rewrite (bounds_same q _ _ S2). f_equal. unfold last_kid at 1 2. cbn [with_kids a_kids]. change (kids_pos q (with_kids c _)) with (kids_pos q c).
  apply last_of_map. eapply of_last_impl; [exact G2|]. intros c2 G3.
  assert (S3 : same_size c2 (last_kid (id4 "stbl") (move_stbl d) c2)).
  { apply last_kid_size. eapply of_last_impl; [exact G3|]. intros c3 G4. apply move_stbl_same, G4. }
  split; [exact S3|]. intros _ q2. unfold minf_at. rewrite (bounds_same q2 _ _ S3). f_equal. unfold last_kid at 1 2. cbn [with_kids a_kids]. change (kids_pos q2 (with_kids c2 _)) with (kids_pos q2 c2).
  apply last_of_map. eapply of_last_impl; [exact G3|]. intros c3 G4. split; [apply move_stbl_same, G4|]. intros _ q3. apply stbl_at_move, G4.
Qed.
Lemma traks_at_move : forall d ks q, Forall sound_trak (named_kids (id4 "trak") ks) -> all_of trak_at (id4 "trak") q (move_traks d ks) = all_of trak_at (id4 "trak") q ks.
Proof.
  intros d. induction ks as [|k r IH]; intros q H; [reflexivity|]. rewrite named_cons in H. unfold move_traks in *. cbn [map_kids map all_of]. fold (map_kids (id4 "trak") (move_trak d) r).
  destruct (is_named (id4 "trak") k) eqn:X.
  - inversion H as [|? ? Hk Hr]; subst. destruct (move_trak_same d k Hk) as (S & I & _). assert (Nm : is_named (id4 "trak") (move_trak d k) = true) by (unfold is_named in *; rewrite I; exact X).
    rewrite Nm, S, (trak_at_move d k Hk), (IH _ Hr). reflexivity.
  - rewrite X, (IH _ H). reflexivity.
Qed.
Lemma all_of_app : forall {Y} (G : N -> atom -> Y) id x y q, all_of G id q (x ++ y) = all_of G id q x ++ all_of G id (q + blen (render_all x)) y.
Proof.
  intros Y G id. induction x as [|k r IH]; intros y q; [cbn [app all_of render_all flat_map]; rewrite blen_nil, N.add_0_r; reflexivity|].
  cbn [app all_of]. rewrite IH, <- app_assoc, render_all_cons, blen_app. fold (asize k). rewrite N.add_assoc. reflexivity.
Qed.
Lemma all_of_none : forall {Y} (G : N -> atom -> Y) id ks q, named_kids id ks = [] -> all_of G id q ks = [].
Proof.
  intros Y G id. induction ks as [|k r IH]; intros q H; [reflexivity|]. rewrite named_cons in H. cbn [all_of]. destruct (is_named id k); [discriminate H|]. apply IH, H.
Qed.
Lemma sound_moved : forall d ks, Forall sound_trak (named_kids (id4 "trak") ks) -> Forall (in_range d) (flat_map live_trak (named_kids (id4 "trak") ks)) ->
  Forall sound_trak (named_kids (id4 "trak") (move_traks d ks)).
Proof.
  intros d ks H R. apply live_kids_ok. rewrite live_kids_move. apply live_kids_ok in H. apply Forall_map. rewrite Forall_forall in *. intros t I. apply OffsetProofs.table_shift_ok; auto.
Qed.

(** * The frames are determined by the movie *)

Lemma app_same : forall (a b c d : bytes), blen a = blen c -> a ++ b = c ++ d -> a = c /\ b = d.
Proof.
  intros a b c d L E. assert (La : List.length a = List.length c) by (unfold blen in L; lia). clear L. revert c La E. induction a as [|x a IH]; intros [|y c] La E; try discriminate La; [split; [reflexivity|exact E]|].
  cbn [app] in E. injection E as -> E. injection La as La. destruct (IH c La E) as [-> ->]. split; reflexivity.
Qed.
Lemma frames_same : forall fs fs' p n, updates p fs n = updates p fs' n -> prefix fs n = prefix fs' n -> forall k, prefix fs k = prefix fs' k /\ width fs k = width fs' k.
Proof.
  induction fs as [|r s IH]; intros [|r' s'] p n U P k; try discriminate U; [split; reflexivity|].
  cbn [updates] in U. injection U as Ue Uw Us. cbn [prefix] in P |- *. cbn [width] in Uw |- *. rewrite Ue in *.
  assert (Hh : blen (header (fr_ext r') (fr_id r) (blen (fr_left r) + width s n + blen (fr_right r))) = blen (header (fr_ext r') (fr_id r') (blen (fr_left r') + width s' n + blen (fr_right r')))) by (rewrite !blen_header; reflexivity).
  destruct (app_same _ _ _ _ Hh P) as [Ph Pt].
  assert (Ei : fr_id r = fr_id r').
  { clear -Ph. unfold header in Ph. destruct (fr_ext r').
    - apply app_inv_head in Ph. apply app_same in Ph; [|rewrite !blen_fc; reflexivity]. rewrite <- (fourcc_of_bytes_fc (fr_id r)), (proj1 Ph). apply fourcc_of_bytes_fc.
    - apply app_same in Ph; [|rewrite !blen_be; reflexivity]. rewrite <- (fourcc_of_bytes_fc (fr_id r)), (proj2 Ph). apply fourcc_of_bytes_fc. }
  assert (S : fr_left r = fr_left r' /\ prefix s n = prefix s' n /\ updates (p + fr_head (fr_ext r') + blen (fr_left r)) s n = updates (p + fr_head (fr_ext r') + blen (fr_left r)) s' n /\ width s n = width s' n).
  { destruct s as [|q s]; destruct s' as [|q' s']; try discriminate Us.
    - cbn [prefix width updates] in *. rewrite !app_nil_r in Pt. auto.
    - assert (Lr : blen (fr_left r) = blen (fr_left r')) by (cbn [updates] in Us; injection Us as X _ _ _; lia).
      destruct (app_same _ _ _ _ Lr Pt) as [A B]. rewrite <- A in Us. split; [exact A|]. split; [exact B|]. split; [exact Us|]. cbn [updates] in Us. injection Us as _ W _. exact W. }
  destruct S as (S1 & S2 & S3 & S4). destruct (IH s' _ n S3 S2 k) as [K1 K2]. rewrite <- S1 in *. rewrite S4 in Uw.
  assert (Er : blen (fr_right r) = blen (fr_right r')) by lia. rewrite K1, K2, Ei, Er. split; reflexivity.
Qed.

Lemma aims_same : forall m a b v s o n r s' o' n' r', moov_aims m a v s o n r -> moov_aims m b v s' o' n' r' -> s = s' /\ o = o' /\ r = r'.
Proof.
  intros m a b v s o n r s' o' n' r' [(U & E & O & _ & R)|(u & q & U & A & R)] [(U' & E' & O' & _ & R')|(u' & q' & U' & A' & R')]; rewrite U in U'; try discriminate U'.
  - rewrite E in E'. injection E' as <-. subst. auto.
  - injection U' as <-. destruct A as [(V & E & O & _ & Q)|(e & V & A & _ & Q)]; destruct A' as [(V' & E' & O' & _ & Q')|(e' & V' & A' & _ & Q')]; rewrite V in V'; try discriminate V'.
    + rewrite E in E'. injection E' as <-. subst. auto.
    + injection V' as <-. destruct A as [(I & E & O)|(z & I & E & _ & O)]; destruct A' as [(I' & E' & O')|(z' & I' & E' & _ & O')]; rewrite I in I'; try discriminate I'.
      * rewrite E in E'. injection E' as <-. subst. auto.
      * injection I' as <-. subst. auto.
Qed.

(** * The steps of the writer *)

Section Stale.
  Variables (f0 : bytes) (lo cap : N) (m : mode) (diff : Z).
  Lemma tri_head_any : forall lim (e : bool) id n n' z A B, lo <= blen A -> (Z.of_N n' = Z.of_N n + diff)%Z ->
    (if e then True else fr_head e + n' < 2 ^ 32) ->
    blen (A ++ header e id z ++ B) < 2 ^ 62 -> n < 2 ^ 62 -> n' < 2 ^ 62 ->
    tri (log_is f0 lo (A ++ header e id z ++ B) lim) (update_atom cap m diff (Bounds (blen A) (Size e (fr_head e + n)))) tt
        (log_is f0 lo (A ++ header e id n' ++ B) (blen A + fr_head e)).
  Proof.
    intros lim e id n n' z A B Lo E F Sm S S'. apply tri_exists. intros x y X.
    assert (L : (addi m (as_i64 (fr_head e + n)) diff = Ok (Z.of_N (fr_head e + n')))%Z).
    { rewrite !blen_app, blen_header in Sm. unfold fr_head in *. rewrite as_i64_small by (unfold two63; destruct e; lia).
      rewrite addi_ok by (unfold two63; destruct e; lia). f_equal. destruct e; lia. }
    unfold update_atom. cbn [b_pos b_size sz_ext sz_len]. eapply tri_lift; [exact L|]. unfold header, fr_head in *. destruct e.
    - rewrite <- !app_assoc in *. rewrite !blen_app, !blen_be, blen_fc in Sm.
      eapply tri_bind; [apply (tri_seek f0 lo (blen A) x y A (be 4 1 ++ fc_bytes id ++ be 8 (z + 16) ++ B)); [exact X|reflexivity|unfold two63; lia]|].
      eapply tri_bind; [eapply tri_weaken; [apply (tri_write f0 lo cap A (fc_bytes id ++ be 8 (z + 16) ++ B) (be 4 1) (be32 1)); [reflexivity|exact Lo]|intros s H; apply H|intros s H; exact H]|].
      eapply tri_bind; [apply (tri_seek_cur f0 lo 4 (A ++ be32 1) (fc_bytes id) (be 8 (z + 16) ++ B)); [reflexivity|]|].
      + unfold be32. rewrite !blen_app, blen_be, blen_fc. unfold two63. lia.
      + eapply tri_weaken; [apply (tri_write f0 lo cap ((A ++ be32 1) ++ fc_bytes id) B (be 8 (z + 16)) (be64 (i_as_u64 (Z.of_N (16 + n')))))| |].
        * unfold be64. rewrite !blen_be. reflexivity.
        * rewrite !blen_app. lia.
        * intros s H. apply H.
        * intros s H. eexists _, _. split; [exact H|]. split.
          -- unfold be32, be64. rewrite <- !app_assoc. do 5 f_equal. unfold i_as_u64, two64. lia.
          -- unfold be32, be64. rewrite !blen_app, !blen_be, blen_fc. lia.
    - rewrite <- !app_assoc in *. eapply tri_weaken; [apply (tri_patch f0 lo cap (blen A) (blen A + 4) A (be 4 (z + 8)) (be32 (i_as_u32 (Z.of_N (8 + n')))) (fc_bytes id ++ B) x y)| |].
      + exact Lo.
      + unfold be32. rewrite !blen_be. reflexivity.
      + unfold two63. lia.
      + reflexivity.
      + unfold be32. rewrite blen_be. reflexivity.
      + exact X.
      + intros s H. exact H.
      + intros s (u & v & H & Eu & Lu). exists u, v. split; [exact H|]. split; [|lia]. rewrite Eu. unfold be32. do 3 f_equal.
        unfold i_as_u32, two32. lia.
  Qed.

  (** The sizes in the file do not matter, they are not read again. *)
  Lemma tri_updates_any : forall fs lim n n' k A B, lo <= blen A -> (Z.of_N n' = Z.of_N n + diff)%Z -> path_fits fs n' ->
    blen (A ++ prefix fs k ++ B) < 2 ^ 62 -> width fs n < 2 ^ 62 -> width fs n' < 2 ^ 62 -> (fs = [] -> lim <= blen A) ->
    tri (log_is f0 lo (A ++ prefix fs k ++ B) lim) (update_all cap m diff (updates (blen A) fs n)) tt
        (log_is f0 lo (A ++ prefix fs n' ++ B) (blen A + blen (prefix fs n))).
  Proof.
    induction fs as [|r s IH]; intros lim n n' k A B Lo E F Sm W W' L1; cbn [updates update_all].
    - cbn [prefix app] in *. rewrite blen_nil, N.add_0_r in *. intros st (x & y & H & X & L). exists st. split; [reflexivity|].
      exists x, y. split; [exact H|]. split; [exact X|]. specialize (L1 eq_refl). lia.
    - destruct F as [F Fs]. cbn [prefix width] in *. rewrite <- !app_assoc in *.
      pose (c := blen (fr_left r) + width s n + blen (fr_right r)). pose (c' := blen (fr_left r) + width s n' + blen (fr_right r)).
      fold c. fold c'.
      assert (Ws : (Z.of_N (width s n') = Z.of_N (width s n) + diff)%Z).
      { rewrite (width_eq s n), (width_eq s n'), (blen_prefix s n' n). lia. }
      replace (fr_head (fr_ext r) + blen (fr_left r) + width s n + blen (fr_right r)) with (fr_head (fr_ext r) + c) by (unfold c; lia).
      eapply tri_bind.
      + apply (tri_head_any lim (fr_ext r) (fr_id r) c c'); [exact Lo|unfold c, c'; lia| | |unfold c; lia|unfold c'; lia].
        * destruct (fr_ext r); [exact I|]. unfold c'. unfold fr_head in *. lia.
        * exact Sm.
      + assert (Hd : forall z, blen (A ++ header (fr_ext r) (fr_id r) z ++ fr_left r) = blen A + fr_head (fr_ext r) + blen (fr_left r)).
        { intro z. rewrite !blen_app, blen_header. unfold fr_head. lia. }
        specialize (IH (blen A + fr_head (fr_ext r) + blen (fr_left r)) n n' k (A ++ header (fr_ext r) (fr_id r) c' ++ fr_left r) B).
        rewrite Hd in IH. rewrite <- !app_assoc in IH. eapply tri_weaken; [apply IH| |].
        * lia.
        * exact E.
        * exact Fs.
        * rewrite !blen_app, !blen_header in *. exact Sm.
        * lia.
        * lia.
        * intros _. lia.
        * intros t (x & y & H & X & L). exists x, y. split; [exact H|]. split; [exact X|]. lia.
        * intros t (x & y & H & X & L). exists x, y. split; [exact H|]. split; [exact X|]. rewrite !blen_app, blen_header. unfold fr_head in L. lia.
  Qed.
End Stale.

(** [tri_finish_any] of LateProofs.v, whatever is behind the sizes. *)
Lemma tri_finish_rest : forall f0 lo cap m diff P o R T nw new lim old, lo <= blen P -> lim <= blen P ->
  writes (new_atoms_write m new) nw -> (diff = Z.of_N (blen nw) - Z.of_N o)%Z -> old = blen P + o + blen T ->
  blen P + o + blen T < 2 ^ 62 -> blen (P ++ nw ++ T) < 2 ^ 62 ->
  tri (log_is f0 lo (P ++ R) lim)
    ((n <== wlift (addi m (as_i64 old) diff) ;; file_set_len (i_as_u64 n)) =;;
     bw_seek_start (blen P) =;;
     bw_out cap (new_atoms_write m new) =;;
     (q <== wlift (addi m (as_i64 (blen P + o)) diff) ;; bw_seek_start (i_as_u64 q)) =;;
     bw_write cap T =;;
     bw_flush) tt (file_is f0 lo (P ++ nw ++ T)).
Proof.
  intros f0 lo cap m diff P o R T nw new lim old Lo Lim [W1 W2] E -> S1 S2. intros s (x & y & H & X & Lx). revert s H.
  change (tri (st f0 lo x y)
    ((n <== wlift (addi m (as_i64 (blen P + o + blen T)) diff) ;; file_set_len (i_as_u64 n)) =;;
     bw_seek_start (blen P) =;;
     bw_out cap (new_atoms_write m new) =;;
     (q <== wlift (addi m (as_i64 (blen P + o)) diff) ;; bw_seek_start (i_as_u64 q)) =;;
     bw_write cap T =;;
     bw_flush) tt (file_is f0 lo (P ++ nw ++ T))).
  rewrite !blen_app in *.
  assert (A1 : addi m (as_i64 (blen P + o + blen T)) diff = Ok (Z.of_N (blen P + (blen nw + blen T)))).
  { rewrite as_i64_small by (unfold two63; lia). rewrite addi_ok by (unfold two63; lia). f_equal. lia. }
  assert (A2 : addi m (as_i64 (blen P + o)) diff = Ok (Z.of_N (blen P + blen nw))).
  { rewrite as_i64_small by (unfold two63; lia). rewrite addi_ok by (unfold two63; lia). f_equal. lia. }
  assert (I1 : forall n, n < 2 ^ 63 -> i_as_u64 (Z.of_N n) = n) by (intros n Hn; unfold i_as_u64, two64; lia).
  pose (n := blen P + (blen nw + blen T)).
  assert (Y : exists y0, P = x ++ y0 /\ y = y0 ++ R).
  { exists (skipn (List.length x) P). pose proof (f_equal (firstn (List.length x)) X) as X1. rewrite firstn_app, firstn_all, Nat.sub_diag in X1.
    cbn [firstn] in X1. rewrite app_nil_r in X1. rewrite firstn_app in X1.
    assert (Hl : (List.length x - List.length P)%nat = 0%nat) by (unfold blen in *; lia).
    rewrite Hl in X1. cbn [firstn] in X1. rewrite app_nil_r in X1.
    assert (Px : P = x ++ skipn (List.length x) P) by (rewrite X1 at 1; symmetry; apply firstn_skipn).
    split; [exact Px|]. rewrite Px in X at 1. rewrite <- app_assoc in X. apply app_inv_head in X. exact X. }
  destruct Y as (y0 & EP & Ey).
  assert (Sp : exists z1 z2, set_length y (n - blen x) = y0 ++ z1 ++ z2 /\ blen z1 = blen nw /\ blen z2 = blen T).
  { pose (z := set_length R (blen nw + blen T)).
    exists (firstn (List.length nw) z), (skipn (List.length nw) z). rewrite firstn_skipn.
    assert (Lz : blen z = blen nw + blen T) by apply blen_set_length.
    split; [|split].
    - rewrite Ey. replace (n - blen x) with (blen y0 + (blen nw + blen T)).
      + apply set_length_app.
      + unfold n. rewrite EP, blen_app. lia.
    - unfold blen in *. rewrite firstn_length. lia.
    - unfold blen in *. rewrite skipn_length. lia. }
  destruct Sp as (z1 & z2 & Ez & L1 & L2). unfold out in W1.
  eapply tri_bind.
  { eapply tri_lift; [exact A1|]. rewrite I1 by lia. apply (tri_set_len f0 lo n x y); unfold n, two63; lia. }
  rewrite Ez. eapply tri_bind.
  { apply (tri_seek f0 lo (blen P) x (y0 ++ z1 ++ z2) P (z1 ++ z2)); [rewrite EP, <- app_assoc; reflexivity|reflexivity|unfold two63; lia]. }
  eapply tri_bind.
  { eapply tri_weaken; [apply (tri_out f0 lo cap (new_atoms_write m new) tt P z2 z1 W2); [rewrite W1; exact L1|exact Lo]|intros s H; apply H|].
    intros s H. rewrite W1 in H. exact H. }
  eapply tri_bind.
  { eapply tri_lift; [exact A2|]. rewrite I1 by lia.
    apply (tri_seek f0 lo (blen P + blen nw) (P ++ nw) z2 (P ++ nw) (z2 ++ [])); [rewrite app_nil_r; reflexivity|rewrite blen_app; reflexivity|unfold two63; lia]. }
  eapply tri_bind.
  { eapply tri_weaken; [apply (tri_write f0 lo cap (P ++ nw) [] z2 T L2); rewrite blen_app; lia|intros s H; apply H|intros s H; exact H]. }
  eapply tri_weaken; [apply tri_flush|intros s H; exact H|]. intros s H. eexists _, _. split; [exact H|].
  rewrite app_nil_r, <- app_assoc. reflexivity.
Qed.

(** * What fits stays fitting *)

Lemma fits_same : forall k k', same_size k k' -> forallb fits (a_kids k) = true -> forallb fits (a_kids k') = true -> hlen k' = hlen k -> fits k = true -> fits k' = true.
Proof.
  intros k k' (S & _ & E) _ F' H F. rewrite !asize_eq, H in S. apply fits_eq. apply fits_eq in F. destruct F as [F _]. rewrite E. assert (C : csize k' = csize k) by lia. rewrite C. split; [exact F|exact F'].
Qed.
Lemma fits_last_kid : forall id h k, of_last id (fun c => same_size c (h c) /\ (fits c = true -> fits (h c) = true)) k -> fits k = true -> fits (last_kid id h k) = true.
Proof.
  intros id h k H F. pose proof F as F0. apply fits_eq in F0. destruct F0 as [_ F0].
  apply (fits_same k); [apply last_kid_size; eapply of_last_impl; [exact H|]; intros c Hc; apply Hc|exact F0| |reflexivity|exact F].
  unfold last_kid. cbn [with_kids a_kids]. destruct (last_cases id (a_kids k)) as [N|(x & c & y & E & I & N)]; [rewrite map_last_none by exact N; exact F0|].
  destruct (of_last_at _ _ _ _ _ _ H E I N) as [_ Hc]. rewrite E, map_last_at by assumption. rewrite E, forallb_app in F0. rewrite forallb_app. apply andb_true_iff in F0. destruct F0 as [F1 F2].
  cbn [forallb] in F2 |- *. apply andb_true_iff in F2. destruct F2 as [F2 F3]. rewrite F1, F3, (Hc F2). reflexivity.
Qed.
Lemma fits_table : forall w d k, (0 < w)%nat -> good_table w k -> fits k = true -> fits (shift_table w d k) = true.
Proof.
  intros w d k W G F. apply (fits_same k); [apply shift_table_same; assumption| | |reflexivity|exact F]; destruct G as [K _]; [|unfold shift_table; cbn [a_kids]]; rewrite K; reflexivity.
Qed.
Lemma fits_stbl : forall d k, sound_stbl k -> fits k = true -> fits (move_stbl d k) = true.
Proof.
  intros d k [T1 T2] F. unfold move_stbl. apply fits_last_kid.
  - eapply of_last_impl; [|intros c G; split; [apply shift_table_same; [lia|exact G]|apply fits_table; [lia|exact G]]]. apply of_last_named.
    unfold last_kid, with_kids. cbn [a_kids]. rewrite named_last_other by (discriminate || reflexivity). apply of_last_named. exact T2.
  - apply fits_last_kid; [|exact F]. eapply of_last_impl; [exact T1|]. intros c G. split; [apply shift_table_same; [lia|exact G]|apply fits_table; [lia|exact G]].
Qed.
Lemma fits_trak : forall d k, sound_trak k -> fits k = true -> fits (move_trak d k) = true.
Proof.
  intros d k G. apply fits_last_kid. eapply of_last_impl; [exact G|]. intros c G2.
  assert (S : forall c, of_last (id4 "stbl") sound_stbl c -> same_size c (last_kid (id4 "stbl") (move_stbl d) c)) by (intros e Ge; apply last_kid_size; eapply of_last_impl; [exact Ge|]; intros c3 G4; apply move_stbl_same, G4).
  split; [apply last_kid_size; eapply of_last_impl; [exact G2|]; exact S|]. apply fits_last_kid. eapply of_last_impl; [exact G2|]. intros c2 G3. split; [apply S, G3|].
  apply fits_last_kid. eapply of_last_impl; [exact G3|]. intros c3 G4. split; [apply move_stbl_same, G4|apply fits_stbl, G4].
Qed.
Lemma fits_traks : forall d ks, Forall sound_trak (named_kids (id4 "trak") ks) -> forallb fits ks = true -> forallb fits (move_traks d ks) = true.
Proof.
  intros d. induction ks as [|k r IH]; intros H F; [reflexivity|]. rewrite named_cons in H. unfold move_traks in *. cbn [map_kids map forallb] in *. fold (map_kids (id4 "trak") (move_trak d) r).
  apply andb_true_iff in F. destruct F as [F1 F2]. destruct (is_named (id4 "trak") k).
  - inversion H; subst. rewrite fits_trak, IH by assumption. reflexivity.
  - rewrite F1, IH by assumption. reflexivity.
Qed.

(** The new movie: the children in front of the user data and the others. *)
Definition behind (items : list atom_data) (mv : atom) : list atom :=
  match split_last (id4 "udta") (a_kids mv) with Some (_, u, y) => last_udta items u :: y | None => [FileSpec.new_udta items] end.
Lemma last_moov_parts : forall items d mv, last_moov items d mv = with_kids mv (move_traks d (fore mv) ++ behind items mv).
Proof. intros items d mv. unfold last_moov, fore, behind. destruct (split_last (id4 "udta") (a_kids mv)) as [[[x u] y]|]; reflexivity. Qed.
Lemma fore_sound : forall mv, sound_moov mv -> Forall sound_trak (named_kids (id4 "trak") (fore mv)).
Proof.
  intros mv G. unfold sound_moov, fore in *. destruct (split_last (id4 "udta") (a_kids mv)) as [[[x u] y]|] eqn:E; [|exact G].
  apply split_last_some in E. destruct E as (E & _ & _). rewrite E in G. apply good_sub in G. apply G.
Qed.
Lemma fore_traks : forall mv q, named_kids (id4 "trak") (aft mv) = [] -> all_of trak_at (id4 "trak") q (a_kids mv) = all_of trak_at (id4 "trak") q (fore mv).
Proof.
  intros mv q H. unfold fore, aft in *. destruct (split_last (id4 "udta") (a_kids mv)) as [[[x u] y]|] eqn:E; [|reflexivity].
  apply split_last_some in E. destruct E as (E & I & _). rewrite E, all_of_app, (all_of_none _ _ (u :: y)), app_nil_r; [reflexivity|]. rewrite named_other by (rewrite I; discriminate). exact H.
Qed.
Lemma fits_moov : forall items d d' mv, sound_moov mv -> forallb fits (a_kids mv) = true -> fits (last_moov items d mv) = true -> fits (last_moov items d' mv) = true.
Proof.
  intros items d d' mv G Fk F. pose proof (fore_sound mv G) as GF. pose proof F as F0. apply fits_eq in F0. destruct F0 as [_ F0]. rewrite last_moov_parts in F0. cbn [with_kids a_kids] in F0. rewrite forallb_app in F0. apply andb_true_iff in F0. destruct F0 as [_ F1].
  assert (F2 : forallb fits (fore mv) = true).
  { unfold fore. destruct (split_last (id4 "udta") (a_kids mv)) as [[[x u] y]|] eqn:E; [|exact Fk]. apply split_last_some in E. destruct E as (E & _ & _). rewrite E, forallb_app in Fk. apply andb_true_iff in Fk. apply Fk. }
  apply fits_eq. apply fits_eq in F. destruct F as [F _].
  assert (C : csize (last_moov items d' mv) = csize (last_moov items d mv)).
  { rewrite !last_moov_parts. unfold csize, a_content. cbn [with_kids a_pre a_kids]. rewrite !blen_app, !render_all_app, !blen_app, !move_traks_size by exact GF. reflexivity. }
  rewrite C. assert (X : a_ext (last_moov items d' mv) = a_ext (last_moov items d mv)) by (rewrite !last_moov_parts; reflexivity). rewrite X. split; [exact F|]. rewrite last_moov_parts. cbn [with_kids a_kids]. rewrite forallb_app, F1, fits_traks by assumption. reflexivity.
Qed.

Theorem late_second : forall cap fuel m a b ft s pre mv post,
  a_id ft = id4 "ftyp" -> wf_ustr s = true -> a_content ft = enc8 s ->
  a_id mv = id4 "moov" -> Forall plain_moov (named_kids (id4 "moov") pre) -> named_kids (id4 "moov") post = [] -> plain_moov mv ->
  good_sizes (ft :: pre ++ mv :: post) -> sound_moov mv ->
  exact_items a -> good_sizes (llast a ft pre mv post) -> exact_items b -> good_sizes (llast b ft pre mv post) -> blen (render_all (ft :: pre ++ mv :: post)) < N.of_nat fuel ->
  blen (render_all (ft :: pre ++ mv :: post)) < 2 ^ 61 -> blen (render_all (llast a ft pre mv post)) < 2 ^ 61 -> blen (render_all (llast b ft pre mv post)) < 2 ^ 61 ->
  named_kids (id4 "trak") (aft mv) = [] -> Forall (in_range (moved b mv post)) (live_moov mv) ->
  exists p q, prepare fuel m a (render_all (ft :: pre ++ mv :: post)) 0 = Ok (p, q) /\
    late cap m p (render_all (llast b ft pre mv post)) =
      SResult (Ok tt) (render_all (ft :: pre ++ last_moov a (moved a mv post + moved b mv post) mv :: post)).
Proof.
  intros cap fuel m a b ft s pre mv post I Ws C J N1 N2 P G GM Exa Ga Exb Gb Fu S61 Sa61 Sb61 Nt Rb.
  destruct (scan_finds_last fuel m ft s pre mv post G Fu I Ws C J N1 N2 P) as (q & Sc). unfold llast in *.
  fold (moved a mv post) in *. fold (moved b mv post) in *. set (d := (moved a mv post + moved b mv post)%Z).
  set (A := render_all (ft :: pre)). set (T := render_all post).
  assert (Ef : forall x, render_all (ft :: pre ++ x :: post) = A ++ render x ++ T).
  { intro x. change (ft :: pre ++ x :: post) with ((ft :: pre) ++ x :: post). rewrite render_all_app, render_all_cons. reflexivity. }
  assert (Ef' : forall x, render_all ((ft :: pre) ++ x :: post) = A ++ render x ++ T) by exact Ef.
  destruct G as [F1 Sm]. destruct Ga as [F1a Sma]. destruct Gb as [F1b Smb].
  rewrite ?Ef, ?Ef' in *.
  assert (Fk : forallb fits (a_kids mv) = true).
  { assert (Fm : fits mv = true) by (rewrite forallb_forall in F1; apply F1; right; apply in_or_app; right; left; reflexivity). apply fits_eq in Fm. apply Fm. }
  assert (Fa : fits (last_moov a d mv) = true).
  { apply (fits_moov a (moved a mv post)); [exact GM|exact Fk|]. rewrite forallb_forall in F1a. apply F1a. apply in_or_app. right. left. reflexivity. }
  assert (Fb : fits (last_moov b d mv) = true).
  { apply (fits_moov b (moved b mv post)); [exact GM|exact Fk|]. rewrite forallb_forall in F1b. apply F1b. apply in_or_app. right. left. reflexivity. }
  assert (Za : asize (last_moov a (moved a mv post) mv) = asize (last_moov a d mv)) by (apply last_moov_size, GM).
  assert (Zb : asize (last_moov b (moved b mv post) mv) = asize (last_moov b d mv)) by (apply last_moov_size, GM).
  assert (Gra : (last_growth a mv = Z.of_N (asize (last_moov a d mv)) - Z.of_N (asize mv))%Z) by (unfold last_growth; rewrite (last_moov_size a d 0 mv GM); reflexivity).
  assert (Grb : (last_growth b mv = Z.of_N (asize (last_moov b d mv)) - Z.of_N (asize mv))%Z) by (unfold last_growth; rewrite (last_moov_size b d 0 mv GM); reflexivity).
  rewrite !blen_app in S61, Sa61, Sb61. fold (asize mv) in S61. fold (asize (last_moov a (moved a mv post) mv)) in Sa61. fold (asize (last_moov b (moved b mv post) mv)) in Sb61. rewrite Za in Sa61. rewrite Zb in Sb61.
  assert (Bga : (- 2 ^ 61 < last_growth a mv < 2 ^ 61)%Z) by lia.
  assert (Bgb : (- 2 ^ 61 < last_growth b mv < 2 ^ 61)%Z) by lia.
  assert (Db : (- 2 ^ 62 < d < 2 ^ 62)%Z) by (unfold d, moved; destruct (named_kids (id4 "mdat") post); lia).
  assert (Sp : blen A + asize mv < 2 ^ 62) by lia.
  destruct (moov_lsite m a Exa (blen A) d mv GM Sp Fa Db)
    as (fs & fsd & old & nw & new & r & tail & R1 & R2 & R3 & R4 & R5 & R6 & R7 & R8 & R9 & R10 & R11).
  destruct (moov_lsite m b Exb (blen A) d mv GM Sp Fb Db)
    as (fsb & fsdb & oldb & nwb & newb & rb & tailb & Q1 & Q2 & Q3 & Q4 & Q5 & Q6 & Q7 & Q8 & Q9 & Q10 & Q11).
  destruct (aims_same _ _ _ _ _ _ _ _ _ _ _ _ R10 Q10) as (X1 & X2 & X3).
  assert (Pf : prefix fsd (blen nwb) = prefix fsdb (blen nwb)).
  { apply (frames_same fsd fsdb (blen A) (blen old)); [rewrite R11, X3, X2; symmetry; exact Q11|].
    rewrite R2 in Q2. apply app_same in Q2; [|rewrite R7, Q7; lia]. rewrite X2 at 2. apply Q2. }
  rewrite <- Pf in Q4. clear Pf.
  assert (W0 : width fs (blen old) = asize mv) by (unfold asize; rewrite R1, blen_framed; reflexivity).
  assert (Wd : width fsd (blen old) = asize mv) by (rewrite <- W0, !width_eq, R6, R7; reflexivity).
  assert (Wn : width fsd (blen nw) = asize (last_moov a d mv)).
  { unfold asize. rewrite R4, <- R6. change (prefix fsd (blen nw) ++ nw ++ suffix fsd) with (framed fsd nw). symmetry. apply blen_framed. }
  assert (Df : (last_growth a mv = Z.of_N (blen nw) - Z.of_N (blen old))%Z).
  { rewrite Gra, <- Wn, <- Wd, !width_eq, (blen_prefix fsd (blen nw) (blen old)). lia. }
  assert (L0 : blen A + blen (prefix fs (blen old)) + blen old <= blen (A ++ render mv ++ T)).
  { rewrite R1. unfold framed. rewrite !blen_app. lia. }
  assert (Ln : new_atoms_len new < 2 ^ 62).
  { rewrite R9. assert (B : asize (last_moov a d mv) = blen (prefix fsd (blen nw)) + (blen nw + blen (suffix fs))) by (unfold asize; rewrite R4, !blen_app; reflexivity). lia. }
  destruct (prepare_ok fuel m a _ _ _ q _ _ new r Sc R10 L0 Sm Ln) as (q' & Pr).
  assert (Mv : skipn (N.to_nat (blen A + blen (prefix fs (blen old)) + blen old)) (A ++ render mv ++ T) = suffix fs ++ T).
  { replace (A ++ render mv ++ T) with ((A ++ prefix fs (blen old) ++ old) ++ suffix fs ++ T).
    - apply skipn_app_at. rewrite !blen_app. lia.
    - rewrite R1. unfold framed. rewrite <- !app_assoc. reflexivity. }
  rewrite Mv, R9, <- Df in Pr. eexists _, q'. split; [exact Pr|].
  unfold late. rewrite ?Ef, ?Ef'. fold A.
  set (F0 := A ++ render (last_moov b (moved b mv post) mv) ++ T).
  assert (Run : tri (file_is F0 (blen A) F0)
    (execute cap m (Plan (moov_at (blen A) mv) (mdat_pos (ft :: pre ++ mv :: post)) (blen A + blen (prefix fs (blen old)))
       (blen A + blen (prefix fs (blen old)) + blen old) (last_growth a mv) r new (blen (A ++ render mv ++ T)) (suffix fs ++ T))) tt
    (file_is F0 (blen A) (A ++ render (last_moov a d mv) ++ T))).
  { unfold execute. cbn [pl_moov pl_mdat_pos pl_start pl_moved_start pl_diff pl_update pl_new pl_old_len pl_moved].
    eapply tri_bind.
    { change (b_pos (vb_bounds (moov_at (blen A) mv))) with (blen A). pose proof (mdat_behind ft pre mv post J) as MB. fold A in MB. rewrite MB.
      instantiate (1 := file_is F0 (blen A) (A ++ render (last_moov b d mv) ++ T)).
      pose proof (fore_sound mv GM) as GF. pose proof (move_traks_size (moved b mv post) (fore mv) GF) as Sz1. 
      unfold d, F0. rewrite live_moov_parts in Rb. apply Forall_app in Rb. destruct Rb as [Rb _].
      assert (Tk : moved a mv post = last_growth a mv -> tri (file_is (A ++ render (last_moov b (moved b mv post) mv) ++ T) (blen A) (A ++ render (last_moov b (moved b mv post) mv) ++ T))
        (adjust_traks cap m (last_growth a mv) (vb_trak (moov_at (blen A) mv))) tt
        (file_is (A ++ render (last_moov b (moved b mv post) mv) ++ T) (blen A) (A ++ render (last_moov b (moved a mv post + moved b mv post) mv) ++ T))).
      { intros Em. rewrite Em. cbn [moov_at vb_trak]. rewrite fore_traks by exact Nt. rewrite <- (traks_at_move (moved b mv post)) by exact GF.
        set (lm := last_moov b (moved b mv post) mv).
        destruct (traks_last (A ++ render lm ++ T) (blen A) cap m (last_growth a mv) ltac:(lia) (move_traks (moved b mv post) (fore mv)) (kids_pos (blen A) mv)
          (A ++ header (a_ext mv) (a_id mv) (csize lm) ++ a_pre mv) (render_all (behind b mv) ++ T)) as [X _].
        - apply sound_moved; [exact GF|exact Rb].
        - rewrite !blen_app, blen_header. unfold kids_pos, hlen. lia.
        - unfold kids_pos. lia.
        - unfold small. apply N.le_lt_trans with (blen (A ++ render lm ++ T)); [|unfold lm; exact Smb].
          apply N.eq_le_incl. unfold lm at 2. rewrite render_eq, last_moov_parts. cbn [with_kids a_ext a_id]. unfold a_content at 1. cbn [with_kids a_pre a_kids]. rewrite render_all_app, !blen_app, !blen_header. lia.
        - rewrite move_traks_add in X by exact GF.
          assert (Y : forall e, csize (last_moov b e mv) = csize lm).
          { intro e. unfold lm. rewrite !last_moov_parts. unfold csize, a_content. cbn [with_kids a_pre a_kids]. rewrite !blen_app, !render_all_app, !blen_app, !move_traks_size by exact GF. reflexivity. }
          assert (Z : forall e, (A ++ header (a_ext mv) (a_id mv) (csize lm) ++ a_pre mv) ++ render_all (move_traks e (fore mv)) ++ render_all (behind b mv) ++ T = A ++ render (last_moov b e mv) ++ T).
          { intro e. rewrite render_eq, Y, last_moov_parts. unfold a_content. cbn [with_kids a_ext a_id a_pre a_kids]. rewrite render_all_app, <- !app_assoc. reflexivity. }
          rewrite !Z in X. rewrite (Z.add_comm (last_growth a mv)). exact X. }
      unfold moved in *. destruct (named_kids (id4 "mdat") post); [apply tri_ret|apply Tk; reflexivity]. }
    rewrite Q4, <- R11.
    replace (blen A + blen (prefix fs (blen old))) with (blen (A ++ prefix fsd (blen nw))) by (rewrite blen_app, (blen_prefix fsd (blen nw) (blen old)), R7; reflexivity).
    assert (Sm2 : blen (A ++ prefix fsd (blen nwb) ++ nwb ++ suffix fsb ++ T) < 2 ^ 62).
    { assert (B : asize (last_moov b d mv) = blen (prefix fsd (blen nwb)) + (blen nwb + blen (suffix fsb))) by (unfold asize; rewrite Q4, !blen_app; reflexivity). rewrite !blen_app. lia. }
    eapply tri_bind.
    { eapply tri_weaken; [apply (tri_updates_any F0 (blen A) cap m (last_growth a mv) fsd
        (blen (A ++ prefix fsd (blen nwb) ++ nwb ++ suffix fsb ++ T)) (blen old) (blen nw) (blen nwb) A (nwb ++ suffix fsb ++ T))| |].
      - lia.
      - lia.
      - exact R5.
      - exact Sm2.
      - lia.
      - lia.
      - intros ->. cbn [updates] in R11. subst r. destruct R10 as [(_ & _ & _ & _ & X)|(u & r & _ & _ & X)]; discriminate X.
      - intros t H. apply file_log in H. rewrite <- !app_assoc in H. exact H.
      - intros t H. exact H. }
    assert (B : asize (last_moov a d mv) = blen (prefix fsd (blen nw)) + (blen nw + blen (suffix fs))) by (unfold asize; rewrite R4, !blen_app; reflexivity).
    assert (B0 : asize mv = blen (prefix fs (blen old)) + (blen old + blen (suffix fs))) by (unfold asize; rewrite R1; unfold framed; rewrite !blen_app; reflexivity).
    eapply tri_weaken; [eapply (tri_finish_rest F0 (blen A) cap m (last_growth a mv) (A ++ prefix fsd (blen nw)) (blen old) (nwb ++ suffix fsb ++ T) (suffix fs ++ T) nw new
       (blen A + blen (prefix fsd (blen old))) (blen (A ++ render mv ++ T)))| |].
    - rewrite blen_app. lia.
    - rewrite blen_app, (blen_prefix fsd (blen nw) (blen old)). lia.
    - exact R8.
    - exact Df.
    - rewrite R1. unfold framed. rewrite !blen_app, (blen_prefix fsd (blen nw) (blen old)), R7. lia.
    - rewrite !blen_app, (blen_prefix fsd (blen nw) (blen old)), R7. lia.
    - rewrite !blen_app. lia.
    - intros t H. rewrite <- !app_assoc. exact H.
    - intros t H. rewrite R4. rewrite <- !app_assoc. rewrite <- !app_assoc in H. exact H. }
  assert (St : file_is F0 (blen A) F0 (Wst F0 0 [] [])).
  { exists [], F0. split; [apply st_init|reflexivity]. }
  destruct (Run _ St) as (s1 & E1 & (x & y & H1 & X)). rewrite E1. destruct H1 as [H1 B1].
  destruct (tri_flush _ _ x y s1 H1) as (s2 & E2 & H2). rewrite E2.
  pose proof (stf_file _ _ _ _ _ H2) as Fl. rewrite X in Fl. rewrite Fl. rewrite ?Ef. reflexivity.
Qed.
