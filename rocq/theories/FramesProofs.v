(** The way down to the place where the new atoms go, and the size fields on it. *)

From Coq Require Import List NArith ZArith Bool Lia Arith String.
From Coq Require Import ZifyBool ZifyNat ZifyN.
From Verif Require Import Base BaseLemmas Utf UtfLemmas Types Stream Parse Find Write TagSpec FileSpec ParseLemmas ReadProofs ReadSpec ReadFacts
  WriteBytes WriteState ScanProofs AdjustProofs.
Import ListNotations.
Local Open Scope list_scope.

(** * Frames *)

(** A container around something: its content in front and behind. *)
Record frame := Frame { fr_ext : bool; fr_id : fourcc; fr_left : bytes; fr_right : bytes }.
Definition fr_head (e : bool) : N := if e then 16 else 8.

Fixpoint width (fs : list frame) (n : N) : N :=
  match fs with
  | [] => n
  | r :: s => fr_head (fr_ext r) + blen (fr_left r) + width s n + blen (fr_right r)
  end.
Fixpoint prefix (fs : list frame) (n : N) : bytes :=
  match fs with
  | [] => []
  | r :: s => header (fr_ext r) (fr_id r) (blen (fr_left r) + width s n + blen (fr_right r)) ++ fr_left r ++ prefix s n
  end.
Fixpoint suffix (fs : list frame) : bytes :=
  match fs with
  | [] => []
  | r :: s => suffix s ++ fr_right r
  end.
Definition framed (fs : list frame) (b : bytes) : bytes := prefix fs (blen b) ++ b ++ suffix fs.

Fixpoint updates (p : N) (fs : list frame) (n : N) : list bounds :=
  match fs with
  | [] => []
  | r :: s => Bounds p (Size (fr_ext r) (width fs n)) :: updates (p + fr_head (fr_ext r) + blen (fr_left r)) s n
  end.
Fixpoint path_fits (fs : list frame) (n : N) : Prop :=
  match fs with
  | [] => True
  | r :: s => (if fr_ext r then width fs n < 2 ^ 64 else width fs n < 2 ^ 32) /\ path_fits s n
  end.

Lemma blen_prefix : forall fs n n', blen (prefix fs n) = blen (prefix fs n').
Proof. induction fs as [|r s IH]; intros n n'; [reflexivity|]. cbn [prefix]. rewrite !blen_app, !blen_header, (IH n n'). reflexivity. Qed.
Lemma width_eq : forall fs n, width fs n = blen (prefix fs n) + n + blen (suffix fs).
Proof.
  induction fs as [|r s IH]; intros n; cbn [width prefix suffix]; [rewrite !blen_nil; lia|].
  rewrite !blen_app, blen_header, IH. unfold fr_head. lia.
Qed.
Lemma blen_framed : forall fs b, blen (framed fs b) = width fs (blen b).
Proof. intros. unfold framed. rewrite !blen_app, width_eq. lia. Qed.
Lemma framed_cons : forall r s b,
  framed (r :: s) b = header (fr_ext r) (fr_id r) (blen (fr_left r ++ framed s b ++ fr_right r)) ++ fr_left r ++ framed s b ++ fr_right r.
Proof.
  intros. unfold framed at 1. cbn [prefix suffix]. rewrite <- !app_assoc. f_equal.
  - f_equal. rewrite !blen_app, blen_framed. lia.
  - unfold framed. rewrite <- !app_assoc. reflexivity.
Qed.
Lemma framed_nil : forall b, framed [] b = b.
Proof. intros. unfold framed. cbn [prefix suffix app]. apply app_nil_r. Qed.

(** An atom with a hole among its children. *)
Definition frame_of (k : atom) (x y : list atom) : frame :=
  Frame (a_ext k) (a_id k) (a_pre k ++ render_all x) (render_all y).
Lemma framed_atom : forall k x mid y s b, framed s b = render_all mid ->
  framed (frame_of k x y :: s) b = render (with_kids k (x ++ mid ++ y)).
Proof.
  intros k x mid y s b E. rewrite framed_cons, E, render_eq. unfold with_kids, a_content, frame_of. cbn [fr_ext fr_id fr_left fr_right a_ext a_id a_pre a_kids].
  unfold csize, a_content. cbn [a_pre a_kids]. rewrite !render_all_app, <- !app_assoc. reflexivity.
Qed.
Lemma fits_frame : forall k x mid y s b, framed s b = render_all mid -> fits (with_kids k (x ++ mid ++ y)) = true ->
  path_fits s (blen b) -> path_fits (frame_of k x y :: s) (blen b).
Proof.
  intros k x mid y s b E F P. split; [|exact P]. rewrite <- blen_framed, (framed_atom k x mid y s b E).
  apply fits_eq in F. destruct F as [F _]. fold (asize (with_kids k (x ++ mid ++ y))). rewrite asize_eq. unfold hlen, csize in *.
  unfold frame_of. cbn [fr_ext]. change (a_ext (with_kids k (x ++ mid ++ y))) with (a_ext k) in *. destruct (a_ext k); lia.
Qed.

(** * Size fields *)

Section Update.
  Variables (f0 : bytes) (lo : N) (cap : N) (m : mode) (diff : Z).
  Hypothesis D : (- 2 ^ 62 < diff < 2 ^ 62)%Z.

  (** The logical file is [F]; the cursor is at most at [lim]. *)
  Definition log_is (F : bytes) (lim : N) (s : wst) : Prop :=
    exists x y, st f0 lo x y s /\ x ++ y = F /\ blen x <= lim.

  Lemma file_log : forall F s, file_is f0 lo F s -> log_is F (blen F) s.
  Proof. intros F s (x & y & [H _] & E). exists x, y. split; [exact H|]. split; [exact E|]. rewrite <- E, blen_app. lia. Qed.

  Lemma tri_exists : forall {A} F lim (c : W A) v Q, (forall x y, x ++ y = F -> tri (st f0 lo x y) c v Q) -> tri (log_is F lim) c v Q.
  Proof. intros A F lim c v Q H s (x & y & S & E & _). apply (H x y E s S). Qed.

  Lemma tri_patch : forall p q A o n B x y, lo <= blen A -> blen o = blen n -> blen (A ++ o ++ B) < two63 ->
    p = blen A -> q = blen A + blen n -> x ++ y = A ++ o ++ B ->
    tri (st f0 lo x y) (bw_seek_start p =;; bw_write cap n) tt (log_is (A ++ n ++ B) q).
  Proof.
    intros p q A o n B x y Lo L Sm Hp Hq E. rewrite !blen_app in Sm.
    eapply tri_bind; [apply (tri_seek f0 lo p x y A (o ++ B)); [exact E|exact Hp|lia]|].
    eapply tri_weaken; [apply (tri_write f0 lo cap A B o n L Lo)|intros s H; apply H|].
    intros s H. exists (A ++ n), B. split; [exact H|]. split; [rewrite <- app_assoc; reflexivity|]. rewrite blen_app. lia.
  Qed.

  Lemma tri_head : forall lim (e : bool) id n n' A B, lo <= blen A ->
    (Z.of_N n' = Z.of_N n + diff)%Z -> (if e then True else n' + 8 < 2 ^ 32) ->
    blen (A ++ header e id n ++ B) < 2 ^ 62 -> n < 2 ^ 62 -> n' < 2 ^ 62 ->
    tri (log_is (A ++ header e id n ++ B) lim) (update_atom cap m diff (Bounds (blen A) (Size e (fr_head e + n)))) tt
        (log_is (A ++ header e id n' ++ B) (blen A + fr_head e)).
  Proof.
    intros lim e id n n' A B Lo E F Sm S S'. apply tri_exists. intros x y X.
    assert (L : (addi m (as_i64 (fr_head e + n)) diff = Ok (Z.of_N (fr_head e + n')))%Z).
    { rewrite !blen_app, blen_header in Sm. unfold fr_head in *. rewrite as_i64_small by (unfold two63; destruct e; lia).
      rewrite addi_ok by (unfold two63; destruct e; lia). f_equal. destruct e; lia. }
    unfold update_atom. cbn [b_pos b_size sz_ext sz_len]. eapply tri_lift; [exact L|]. unfold header, fr_head in *. destruct e.
    - rewrite <- !app_assoc in *. rewrite !blen_app, !blen_be, blen_fc in Sm.
      eapply tri_bind; [apply (tri_seek f0 lo (blen A) x y A (be 4 1 ++ fc_bytes id ++ be 8 (n + 16) ++ B)); [exact X|reflexivity|unfold two63; lia]|].
      eapply tri_bind; [eapply tri_weaken; [apply (tri_write f0 lo cap A (fc_bytes id ++ be 8 (n + 16) ++ B) (be 4 1) (be32 1)); [reflexivity|exact Lo]|intros s H; apply H|intros s H; exact H]|].
      eapply tri_bind; [apply (tri_seek_cur f0 lo 4 (A ++ be32 1) (fc_bytes id) (be 8 (n + 16) ++ B)); [reflexivity|]|].
      + unfold be32. rewrite !blen_app, blen_be, blen_fc. unfold two63. lia.
      + eapply tri_weaken; [apply (tri_write f0 lo cap ((A ++ be32 1) ++ fc_bytes id) B (be 8 (n + 16)) (be64 (i_as_u64 (Z.of_N (16 + n')))))| |].
        * unfold be64. rewrite !blen_be. reflexivity.
        * rewrite !blen_app. lia.
        * intros s H. apply H.
        * intros s H. eexists _, _. split; [exact H|]. split.
          -- unfold be32, be64. rewrite <- !app_assoc. do 5 f_equal. unfold i_as_u64, two64. lia.
          -- unfold be32, be64. rewrite !blen_app, !blen_be, blen_fc. lia.
    - rewrite <- !app_assoc in *. eapply tri_weaken; [apply (tri_patch (blen A) (blen A + 4) A (be 4 (n + 8)) (be32 (i_as_u32 (Z.of_N (8 + n')))) (fc_bytes id ++ B) x y)| |].
      + exact Lo.
      + unfold be32. rewrite !blen_be. reflexivity.
      + unfold two63. lia.
      + reflexivity.
      + unfold be32. rewrite blen_be. reflexivity.
      + exact X.
      + intros s H. exact H.
      + intros s (u & v & H & Eu & Lu). exists u, v. split; [exact H|]. split; [|lia]. rewrite Eu. unfold be32. do 3 f_equal.
        unfold i_as_u32, two32. lia.
  Qed.

  Lemma tri_updates : forall fs lim n n' A B, lo <= blen A -> (Z.of_N n' = Z.of_N n + diff)%Z -> path_fits fs n' ->
    blen (A ++ prefix fs n ++ B) < 2 ^ 62 -> width fs n < 2 ^ 62 -> width fs n' < 2 ^ 62 -> (fs = [] -> lim <= blen A) ->
    tri (log_is (A ++ prefix fs n ++ B) lim) (update_all cap m diff (updates (blen A) fs n)) tt
        (log_is (A ++ prefix fs n' ++ B) (blen A + blen (prefix fs n))).
  Proof.
    induction fs as [|r s IH]; intros lim n n' A B Lo E F Sm W W' L1; cbn [updates update_all].
    - cbn [prefix app] in *. rewrite blen_nil, N.add_0_r in *. intros st (x & y & H & X & L). exists st. split; [reflexivity|].
      exists x, y. split; [exact H|]. split; [exact X|]. specialize (L1 eq_refl). lia.
    - destruct F as [F Fs]. cbn [prefix width] in *. rewrite <- !app_assoc in *.
      pose (c := blen (fr_left r) + width s n + blen (fr_right r)). pose (c' := blen (fr_left r) + width s n' + blen (fr_right r)).
      fold c. fold c'. fold c in Sm.
      assert (Ws : (Z.of_N (width s n') = Z.of_N (width s n) + diff)%Z).
      { rewrite (width_eq s n), (width_eq s n'), (blen_prefix s n' n). lia. }
      replace (fr_head (fr_ext r) + blen (fr_left r) + width s n + blen (fr_right r)) with (fr_head (fr_ext r) + c) by (unfold c; lia).
      eapply tri_bind.
      + apply (tri_head lim (fr_ext r) (fr_id r) c c'); [exact Lo|unfold c, c'; lia| | |unfold c; lia|unfold c'; lia].
        * destruct (fr_ext r); [exact I|]. unfold c'. unfold fr_head in F. lia.
        * exact Sm.
      + assert (Hd : forall z, blen (A ++ header (fr_ext r) (fr_id r) z ++ fr_left r) = blen A + fr_head (fr_ext r) + blen (fr_left r)).
        { intro z. rewrite !blen_app, blen_header. unfold fr_head. lia. }
        specialize (IH (blen A + fr_head (fr_ext r) + blen (fr_left r)) n n' (A ++ header (fr_ext r) (fr_id r) c' ++ fr_left r) B).
        rewrite Hd in IH. rewrite <- !app_assoc in IH. eapply tri_weaken; [apply IH| |].
        * lia.
        * exact E.
        * exact Fs.
        * rewrite !blen_app, !blen_header in *. exact Sm.
        * lia.
        * lia.
        * intros _. lia.
        * intros t (x & y & H & X & L). exists x, y. split; [exact H|]. split; [exact X|]. lia.
        * intros t (x & y & H & X & L). exists x, y. split; [exact H|]. split; [exact X|]. rewrite !blen_app, blen_header. unfold fr_head in L. lia.
  Qed.
End Update.

(** * The last steps *)

Lemma tri_finish : forall f0 lo cap m diff P O T T' nw new lim old, lo <= blen P -> lim <= blen P -> blen T' = blen T ->
  writes (new_atoms_write m new) nw -> (diff = Z.of_N (blen nw) - Z.of_N (blen O))%Z -> old = blen (P ++ O ++ T) ->
  blen (P ++ O ++ T) < 2 ^ 62 -> blen (P ++ nw ++ T) < 2 ^ 62 ->
  tri (log_is f0 lo (P ++ O ++ T') lim)
    ((n <== wlift (addi m (as_i64 old) diff) ;; file_set_len (i_as_u64 n)) =;;
     bw_seek_start (blen P) =;;
     bw_out cap (new_atoms_write m new) =;;
     (q <== wlift (addi m (as_i64 (blen P + blen O)) diff) ;; bw_seek_start (i_as_u64 q)) =;;
     bw_write cap T =;;
     bw_flush) tt (file_is f0 lo (P ++ nw ++ T)).
Proof.
  intros f0 lo cap m diff P O T T' nw new lim old Lo Lim LT [W1 W2] E -> S1 S2. intros s (x & y & H & X & Lx). revert s H.
  change (tri (st f0 lo x y)
    ((n <== wlift (addi m (as_i64 (blen (P ++ O ++ T))) diff) ;; file_set_len (i_as_u64 n)) =;;
     bw_seek_start (blen P) =;;
     bw_out cap (new_atoms_write m new) =;;
     (q <== wlift (addi m (as_i64 (blen P + blen O)) diff) ;; bw_seek_start (i_as_u64 q)) =;;
     bw_write cap T =;;
     bw_flush) tt (file_is f0 lo (P ++ nw ++ T))).
  rewrite !blen_app in *.
  assert (A1 : addi m (as_i64 (blen P + (blen O + blen T))) diff = Ok (Z.of_N (blen P + (blen nw + blen T)))).
  { rewrite as_i64_small by (unfold two63; lia). rewrite addi_ok by (unfold two63; lia). f_equal. lia. }
  assert (A2 : addi m (as_i64 (blen P + blen O)) diff = Ok (Z.of_N (blen P + blen nw))).
  { rewrite as_i64_small by (unfold two63; lia). rewrite addi_ok by (unfold two63; lia). f_equal. lia. }
  assert (I1 : forall n, n < 2 ^ 63 -> i_as_u64 (Z.of_N n) = n) by (intros n Hn; unfold i_as_u64, two64; lia).
  pose (n := blen P + (blen nw + blen T)).
  assert (Y : exists y0, P = x ++ y0 /\ y = y0 ++ O ++ T').
  { exists (skipn (List.length x) P). pose proof (f_equal (firstn (List.length x)) X) as X1. rewrite firstn_app, firstn_all, Nat.sub_diag in X1.
    cbn [firstn] in X1. rewrite app_nil_r in X1. rewrite firstn_app in X1.
    assert (Hl : (List.length x - List.length P)%nat = 0%nat) by (unfold blen in *; lia).
    rewrite Hl in X1. cbn [firstn] in X1. rewrite app_nil_r in X1.
    assert (Px : P = x ++ skipn (List.length x) P) by (rewrite X1 at 1; symmetry; apply firstn_skipn).
    split; [exact Px|]. rewrite Px in X at 1. rewrite <- app_assoc in X. apply app_inv_head in X. exact X. }
  destruct Y as (y0 & EP & Ey).
  assert (Sp : exists z1 z2, set_length y (n - blen x) = y0 ++ z1 ++ z2 /\ blen z1 = blen nw /\ blen z2 = blen T).
  { pose (z := set_length (O ++ T') (blen nw + blen T)).
    exists (firstn (List.length nw) z), (skipn (List.length nw) z). rewrite firstn_skipn.
    assert (Lz : blen z = blen nw + blen T) by apply blen_set_length.
    split; [|split].
    - rewrite Ey. replace (n - blen x) with (blen y0 + (blen nw + blen T)).
      + apply set_length_app.
      + unfold n. rewrite EP, blen_app. lia.
    - unfold blen in *. rewrite firstn_length. lia.
    - unfold blen in *. rewrite skipn_length. lia. }
  destruct Sp as (z1 & z2 & Ez & L1 & L2). unfold out in W1.
  eapply tri_bind.
  { eapply tri_lift; [exact A1|]. rewrite I1 by lia. apply (tri_set_len f0 lo n x y); unfold n, two63; lia. }
  rewrite Ez. eapply tri_bind.
  { apply (tri_seek f0 lo (blen P) x (y0 ++ z1 ++ z2) P (z1 ++ z2)); [rewrite EP, <- app_assoc; reflexivity|reflexivity|unfold two63; lia]. }
  eapply tri_bind.
  { eapply tri_weaken; [apply (tri_out f0 lo cap (new_atoms_write m new) tt P z2 z1 W2); [rewrite W1; exact L1|exact Lo]|intros s H; apply H|].
    intros s H. rewrite W1 in H. exact H. }
  eapply tri_bind.
  { eapply tri_lift; [exact A2|]. rewrite I1 by lia.
    apply (tri_seek f0 lo (blen P + blen nw) (P ++ nw) z2 (P ++ nw) (z2 ++ [])); [rewrite app_nil_r; reflexivity|rewrite blen_app; reflexivity|unfold two63; lia]. }
  eapply tri_bind.
  { eapply tri_weaken; [apply (tri_write f0 lo cap (P ++ nw) [] z2 T L2); rewrite blen_app; lia|intros s H; apply H|intros s H; exact H]. }
  eapply tri_weaken; [apply tri_flush|intros s H; exact H|]. intros s H. eexists _, _. split; [exact H|].
  rewrite app_nil_r, <- app_assoc. reflexivity.
Qed.
