(** Reading through a buffer while other programs change the file: proofs for C96. *)

From Coq Require Import List NArith ZArith Bool Lia Arith String.
From Coq Require Import ZifyBool ZifyNat ZifyN.
From Verif Require Import Base BaseLemmas Utf UtfLemmas Types Stream Parse Find Write TagSpec FileSpec ParseLemmas ReadProofs ReadMore ReadSpec ReadFacts.
From Verif Require Import EditSpec ChunkSpec Fault ReadIO IoProofs IoCost IoWalk Reader ReaderProofs LookSpec LookProofs SharedRead SharedReadProofs SharedBuf.
From Verif Require WPanicProofs BufProofs.
Import ListNotations.
Local Open Scope list_scope.
Local Open Scope io_scope.

Lemma nth_skipn : forall {A} n (l : list A) k, nth_error (skipn n l) k = nth_error l (n + k).
Proof. induction n as [|n IH]; intros [|x l] k; cbn; auto. destruct k; reflexivity. Qed.
Lemma nth_firstn : forall {A} n (l : list A) k, (k < n)%nat -> nth_error (firstn n l) k = nth_error l k.
Proof. induction n as [|n IH]; intros [|x l] [|k] H; cbn; try lia; auto. apply IH. lia. Qed.
Lemma nth_slice : forall f p n j, j < n -> nth_error (slice f p n) (N.to_nat j) = nth_error f (N.to_nat (p + j)).
Proof. intros f p n j H. unfold slice. rewrite nth_firstn by lia. rewrite nth_skipn. f_equal. lia. Qed.
Lemma list_same : forall {A} (l r : list A), List.length l = List.length r -> (forall k, (k < List.length l)%nat -> nth_error l k = nth_error r k) -> l = r.
Proof.
  induction l as [|x l IH]; intros [|y r] L H; cbn in L; try lia; [reflexivity|]. f_equal.
  - specialize (H 0%nat ltac:(cbn; lia)). cbn in H. congruence.
  - apply IH; [lia|]. intros k Hk. apply (H (S k)). cbn. lia.
Qed.
Lemma slice_two : forall b p l n, l <= n -> slice b p l ++ slice b (p + l) (n - l) = slice b p n.
Proof.
  intros b p l n H. unfold slice. replace (N.to_nat (p + l)) with (N.to_nat l + N.to_nat p)%nat by lia.
  assert (X : forall (c : bytes) i j, firstn i c ++ firstn j (skipn i c) = firstn (i + j) c).
  { induction c as [|y c IH]; intros [|i] j; cbn; try reflexivity; [destruct j; reflexivity|]. now rewrite IH. }
  replace (N.to_nat n) with (N.to_nat l + N.to_nat (n - l))%nat by lia. rewrite <- X. f_equal. f_equal.
  assert (Y : forall i j (c : bytes), skipn (i + j) c = skipn i (skipn j c)).
  { intros i j. revert i. induction j as [|j IHj]; intros i c; [rewrite Nat.add_0_r; reflexivity|]. rewrite Nat.add_succ_r. destruct c as [|y c]; [rewrite !skipn_nil; reflexivity|]. cbn [skipn]. apply IHj. }
  apply Y.
Qed.

Lemma tl_skipn : forall {A} n (l : list A), tl (skipn n l) = skipn (S n) l.
Proof. induction n as [|n IH]; intros [|x l]; try reflexivity. cbn [skipn] in *. apply IH. Qed.

Section Path.
  Variables (b : bytes) (Q : N -> Prop) (others : list (bytes -> bytes)) (x0 : bytes) (cap : N).
  Hypothesis Lb : blen b < 2 ^ 62.
  Hypothesis Ag : forall n i, Q i -> nth_error (after others x0 n) (N.to_nat i) = nth_error b (N.to_nat i).

  (** The reader stands at [p]; what matters in the buffer is as in [b]. *)
  Definition ready (s : sbuf) (p : N) : Prop :=
    (exists n, sb_others s = skipn n others /\ sb_file s = after others x0 n) /\ sb_pos s = p + blen (sb_buf s) /\ p < two63 /\
    forall j, j < blen (sb_buf s) -> Q (p + j) -> nth_error (sb_buf s) (N.to_nat j) = nth_error b (N.to_nat (p + j)).

  Lemma turn_on : forall s, (exists n, sb_others s = skipn n others /\ sb_file s = after others x0 n) ->
    exists n, sb_others (sb_turn s) = skipn n others /\ sb_file (sb_turn s) = after others x0 n.
  Proof.
    intros s (n & E1 & E2). exists (S n). unfold sb_turn. cbn [sb_others sb_file]. rewrite E1, E2. split.
    - apply tl_skipn.
    - rewrite <- Nat.add_1_r, <- after_more. unfold after at 3. destruct (skipn n others); reflexivity.
  Qed.

  Lemma sys_read_on : forall s p n, ready s p -> sb_buf s = [] -> n <> 0 -> Q p -> p < blen b ->
    exists x g k t, sb_sys_read s n = (x, t) /\ x = slice g p k /\ x <> [] /\ blen x <= n /\ (forall i, Q i -> nth_error g (N.to_nat i) = nth_error b (N.to_nat i)) /\
      sb_pos t = p + blen x /\ sb_buf t = [] /\ (exists n, sb_others t = skipn n others /\ sb_file t = after others x0 n).
  Proof.
    intros s p n (On & P & _ & _) B N0 Qp Lp. rewrite B, blen_nil, N.add_0_r in P. destruct (turn_on s On) as (j & J1 & J2).
    unfold sb_sys_read. set (most := match sb_short s with [] => n | k :: _ => N.min n (N.max 1 k) end).
    assert (M : 1 <= most /\ most <= n) by (unfold most; destruct (sb_short s); lia).
    assert (Lg : p < blen (after others x0 j)).
    { pose proof (Ag j p Qp) as A. assert (X : nth_error b (N.to_nat p) <> None) by (apply nth_error_Some; unfold blen in Lp; lia). rewrite <- A in X. apply nth_error_Some in X. unfold blen. lia. }
    do 4 eexists. split; [reflexivity|]. cbn [sb_pos sb_buf sb_others sb_file sb_turn]. rewrite P. split; [reflexivity|].
    change (match sb_others s with [] => sb_file s | g :: _ => g (sb_file s) end) with (sb_file (sb_turn s)). rewrite J2.
    assert (Le : blen (slice (after others x0 j) p most) = N.min most (blen (after others x0 j) - p)) by apply BufProofs.slice_len.
    split; [intro E; rewrite E, blen_nil in Le; lia|]. split; [lia|]. split; [intros i; apply Ag|]. split; [reflexivity|]. split; [exact B|]. exists j. split; [exact J1|reflexivity].
  Qed.
  Lemma agrees_slice : forall g p k, (forall i, Q i -> nth_error g (N.to_nat i) = nth_error b (N.to_nat i)) -> (forall i, p <= i -> i < p + blen (slice g p k) -> Q i) ->
    slice g p k = slice b p (blen (slice g p k)).
  Proof. intros g p k A H. rewrite (BufProofs.slice_of g p k) at 1. apply WPanicProofs.slice_ext. intros i Hi. apply A, H; lia. Qed.

  (** What agrees with [b] is not longer. *)
  Lemma agrees_len : forall x p, x <> [] -> (forall j, j < blen x -> nth_error x (N.to_nat j) = nth_error b (N.to_nat (p + j))) -> p + blen x <= blen b.
  Proof.
    intros x p Nx H. assert (Px : blen x <> 0) by (destruct x; [contradiction|unfold blen; cbn; lia]).
    specialize (H (blen x - 1) ltac:(lia)). assert (X : nth_error x (N.to_nat (blen x - 1)) <> None) by (apply nth_error_Some; unfold blen in *; lia).
    rewrite H in X. apply nth_error_Some in X. unfold blen in *. lia.
  Qed.
  Lemma agrees_nth : forall g p k j, (forall i, Q i -> nth_error g (N.to_nat i) = nth_error b (N.to_nat i)) -> j < blen (slice g p k) -> Q (p + j) ->
    nth_error (slice g p k) (N.to_nat j) = nth_error b (N.to_nat (p + j)).
  Proof. intros g p k j A H Qj. rewrite <- (A _ Qj). apply nth_slice. rewrite BufProofs.slice_len in H. lia. Qed.

  Lemma read_on_buf : forall s p n, ready s p -> n <> 0 -> (forall i, p <= i -> i < p + n -> Q i) -> p < blen b ->
    exists x t, sb_read cap s n = (x, t) /\ x <> [] /\ blen x <= n /\ x = slice b p (blen x) /\ p + blen x <= blen b /\ ready t (p + blen x).
  Proof.
    intros s p n R N0 H L. assert (P63 : 2 ^ 62 < two63) by reflexivity. unfold sb_read. destruct (sb_buf s) as [|c r] eqn:B.
    - assert (Qp : Q p) by (apply H; lia). destruct (cap <=? n) eqn:C.
      + destruct (sys_read_on s p n R B N0 Qp ltac:(lia)) as (x & g & k & t & E & Ex & Nx & Lx & A & P & Bt & On). exists x, t. split; [exact E|]. split; [exact Nx|]. split; [exact Lx|].
        split; [rewrite Ex; apply agrees_slice; [exact A|]; intros i H1 H2; apply H; [exact H1|rewrite <- Ex in H2; lia]|].
        assert (Le : p + blen x <= blen b) by (apply agrees_len; [exact Nx|]; intros j Hj; rewrite Ex in Hj |- *; apply agrees_nth; [exact A|exact Hj|apply H; [lia|rewrite <- Ex in Hj; lia]]).
        split; [exact Le|]. split; [exact On|]. rewrite Bt, blen_nil. split; [lia|]. split; [lia|]. intros j Hj. lia.
      + destruct (sys_read_on s p cap R B ltac:(lia) Qp ltac:(lia)) as (x & g & k & t & E & Ex & Nx & Lx & A & P & Bt & On). rewrite E.
        set (d := firstn (N.to_nat n) x). assert (Ld : blen d = N.min n (blen x)) by (unfold d, blen; rewrite firstn_length; lia).
        assert (Ed : d = slice g p (N.min n k)) by (unfold d; rewrite Ex; apply BufProofs.slice_firstn).
        assert (Px : blen x <> 0) by (destruct x; [contradiction|unfold blen; cbn; lia]).
        assert (Nd : d <> []) by (intro E0; rewrite E0, blen_nil in Ld; lia).
        assert (Le : p + blen d <= blen b) by (apply agrees_len; [exact Nd|]; intros j Hj; rewrite Ed in Hj |- *; apply agrees_nth; [exact A|exact Hj|apply H; [lia|rewrite <- Ed in Hj; lia]]).
        do 2 eexists. split; [reflexivity|]. split; [exact Nd|]. split; [lia|].
        split; [rewrite Ed; apply agrees_slice; [exact A|]; intros i H1 H2; apply H; [exact H1|rewrite <- Ed in H2; lia]|]. split; [exact Le|].
        assert (Lr : blen (skipn (N.to_nat n) x) = blen x - n) by (unfold blen; rewrite skipn_length; lia).
        split; [exact On|]. cbn [sb_pos sb_buf]. rewrite Lr. split; [lia|]. split; [lia|]. intros j Hj Qj.
        rewrite nth_skipn. replace (N.to_nat n + N.to_nat j)%nat with (N.to_nat (n + j)) by lia. rewrite <- (A _ Qj). replace (p + blen d + j) with (p + (n + j)) by lia.
        rewrite Ex. apply nth_slice. rewrite Ex, BufProofs.slice_len in Hj. lia.
    - destruct R as (On & P & Lp & Bu). rewrite B in Bu, P. set (d := firstn (N.to_nat n) (c :: r)).
      assert (Ld : blen d = N.min n (blen (c :: r))) by (unfold d, blen; rewrite firstn_length; lia). assert (Lc : blen (c :: r) <> 0) by (unfold blen; cbn; lia).
      assert (Nd : d <> []) by (intro E0; rewrite E0, blen_nil in Ld; lia).
      assert (Ag' : forall j, j < blen d -> nth_error d (N.to_nat j) = nth_error b (N.to_nat (p + j))).
      { intros j Hj. rewrite <- Bu; [|lia|apply H; lia]. apply nth_firstn. lia. }
      pose proof (agrees_len d p Nd Ag') as Le.
      do 2 eexists. split; [reflexivity|]. split; [exact Nd|]. split; [lia|]. split; [|split; [exact Le|]].
      + apply list_same; [pose proof (BufProofs.slice_len b p (blen d)); unfold blen in *; lia|]. intros j Hj.
        replace j with (N.to_nat (N.of_nat j)) by lia. rewrite nth_slice by (unfold blen; lia). apply Ag'. unfold blen. lia.
      + assert (Lr : blen (skipn (N.to_nat n) (c :: r)) = blen (c :: r) - n) by (unfold blen; rewrite skipn_length; lia).
        split; [exact On|]. cbn [sb_pos sb_buf]. rewrite Lr. split; [lia|]. split; [lia|]. intros j Hj Qj. rewrite nth_skipn.
        replace (N.to_nat n + N.to_nat j)%nat with (N.to_nat (n + j)) by lia. replace (p + blen d + j) with (p + (n + j)) in * by lia. apply Bu; [lia|exact Qj].
  Qed.
  Lemma loop_on : forall k s p n got, ready s p -> n <= N.of_nat k -> (forall i, p <= i -> i < p + n -> Q i) -> (n <> 0 -> p + n <= blen b) ->
    exists t, sb_loop k cap s n got = (Ok (got ++ slice b p n), t) /\ ready t (p + n).
  Proof.
    induction k as [|k IH]; intros s p n got R Lk H L; cbn [sb_loop]; destruct (n =? 0) eqn:N0.
    - assert (n = 0) by lia. subst n. rewrite N.add_0_r. exists s. unfold slice. cbn [N.to_nat firstn]. rewrite app_nil_r. auto.
    - lia.
    - assert (n = 0) by lia. subst n. rewrite N.add_0_r. exists s. unfold slice. cbn [N.to_nat firstn]. rewrite app_nil_r. auto.
    - destruct (read_on_buf s p n R ltac:(lia) H ltac:(specialize (L ltac:(lia)); lia)) as (x & t & E & Nx & Lx & Ex & _ & Rt). rewrite E.
      assert (Px : 1 <= blen x) by (destruct x; [contradiction|unfold blen; cbn; lia]).
      destruct (IH t (p + blen x) (n - blen x) (got ++ x) Rt ltac:(lia) ltac:(intros; apply H; lia) ltac:(intro; specialize (L ltac:(lia)); lia)) as (u & Eu & Ru).
      destruct x as [|c r]; [contradiction|]. exists u. rewrite Eu. split; [|replace (p + n) with (p + blen (c :: r) + (n - blen (c :: r))) by lia; exact Ru].
      f_equal. f_equal. rewrite <- app_assoc. f_equal. rewrite Ex at 1. apply slice_two. exact Lx.
  Qed.
  Lemma sys_seek_on : forall s t, (exists n, sb_others s = skipn n others /\ sb_file s = after others x0 n) -> (0 <= t < Z.of_N two63)%Z ->
    exists u, sb_sys_seek s t = (Ok (Z.to_N t), u) /\ ready u (Z.to_N t).
  Proof.
    intros s t On H. unfold sb_sys_seek. rewrite (proj2 (Z.leb_le 0 t)), (proj2 (Z.ltb_lt t (Z.of_N two63))) by lia. cbn [andb]. eexists. split; [reflexivity|].
    split; [exact (turn_on s On)|]. cbn [sb_pos sb_buf]. rewrite blen_nil. split; [lia|]. split; [lia|]. intros j Hj. lia.
  Qed.
  Lemma seek_cur_on : forall s p d, ready s p -> (0 <= Z.of_N p + d < Z.of_N two63)%Z ->
    exists u, sb_seek_cur s d = (Ok (Z.to_N (Z.of_N p + d)), u) /\ ready u (Z.to_N (Z.of_N p + d)).
  Proof.
    intros s p d (On & P & Lp & _) H. unfold sb_seek_cur. destruct (_ <=? _)%Z.
    - replace (Z.of_N (sb_pos s) + (d - Z.of_N (blen (sb_buf s))))%Z with (Z.of_N p + d)%Z by lia. now apply sys_seek_on.
    - replace (Z.of_N (sb_pos s) - Z.of_N (blen (sb_buf s)))%Z with (Z.of_N p) by lia. destruct (sys_seek_on s (Z.of_N p) On ltac:(lia)) as (u & E & (Ou & _)). rewrite E.
      rewrite N2Z.id. now apply sys_seek_on.
  Qed.
  Lemma op_on : forall o s p a q, match o with OSeekStart _ | OSeekEnd => False | _ => True end -> ready s p -> perform o b p = Ok (a, q) ->
    (forall y i, In y (looked (op_stretch o p q)) -> covers y i -> Q i) -> exists t, sb_op cap o s = (Ok a, t) /\ ready t q.
  Proof.
    intros o s p a q O R P H. assert (Rd : forall n c r, read_exact n b p = Ok (c, r) -> (forall y i, In y [Stretch true p r] -> covers y i -> Q i) ->
      exists t, sb_loop (N.to_nat n) cap s n [] = (Ok c, t) /\ ready t r).
    { intros n c r E K. unfold read_exact in E. destruct (loop_on (N.to_nat n) s p n [] R ltac:(lia)) as (t & Et & Rt).
      - intros i H1 H2. apply (K (Stretch true p r) i); [left; reflexivity|]. destruct (n =? 0) eqn:N0; [lia|]. destruct (p + n <=? blen b); [|discriminate]. injection E as _ <-. split; assumption.
      - intro N0. rewrite (proj2 (N.eqb_neq n 0) N0) in E. destruct (p + n <=? blen b) eqn:L; [lia|discriminate].
      - exists t. rewrite Et. cbn [app]. destruct (n =? 0) eqn:N0.
        + injection E as <- <-. assert (n = 0) by lia. subst n. rewrite N.add_0_r in Rt. split; [reflexivity|exact Rt].
        + destruct (p + n <=? blen b); [|discriminate]. injection E as <- <-. split; [reflexivity|exact Rt]. }
    destruct o as [n|n| |d|x|]; try contradiction; cbn [perform sb_op op_stretch looked filter st_read] in *.
    - destruct (read_exact n b p) as [[c r]|e|x|] eqn:E; try discriminate. injection P as <- <-. destruct (Rd n c r E H) as (t & -> & Rt). exists t. split; [reflexivity|exact Rt].
    - destruct (two63 <=? n); [discriminate|]. destruct (read_exact n b p) as [[c r]|e|x|] eqn:E; try discriminate. injection P as <- <-. destruct (Rd n c r E H) as (t & -> & Rt). exists t. split; [reflexivity|exact Rt].
    - cbn in P. injection P as <- <-. pose proof R as (_ & _ & Lp & _). destruct (seek_cur_on s p 0 R ltac:(lia)) as (u & E & Ru). rewrite E. exists u. rewrite Z.add_0_r, N2Z.id in *. split; [reflexivity|exact Ru].
    - unfold seek_cur in P. destruct ((0 <=? Z.of_N p + d)%Z && (Z.of_N p + d <? Z.of_N two63)%Z) eqn:X; [|discriminate]. injection P as <- <-.
      destruct (seek_cur_on s p d R ltac:(lia)) as (u & E & Ru). rewrite E. exists u. split; [reflexivity|exact Ru].
  Qed.
  Lemma stays_on : forall {A} (x : IO A) s p a q, stays x -> ready s p -> run x b p = Ok (a, q) ->
    (forall y i, In y (looked (trail x b p)) -> covers y i -> Q i) -> exists t, sb_run cap x s = (Ok a, t) /\ ready t q.
  Proof.
    intros A x. induction x as [[v|e|z|]|op c IH]; intros s p a q S R E H; cbn [sb_run run stays trail] in *; try discriminate.
    - injection E as <- <-. exists s. auto.
    - destruct S as [O S]. destruct (perform op b p) as [[v r]| | |] eqn:P; try discriminate.
      destruct (op_on op s p v r O R P) as (t & Et & Rt); [intros y i Iy; apply H; rewrite looked_app; apply in_or_app; left; exact Iy|].
      rewrite Et. apply (IH v t r a q (S v) Rt E). intros y i Iy. apply H. rewrite looked_app. apply in_or_app. right. exact Iy.
  Qed.
  Lemma rest_on : forall m s p, ready s p -> (forall n, p <= blen (after others x0 n) /\ blen (after others x0 n) < 2 ^ 62) ->
    exists n t, sb_run cap (io_remaining_stream_len m) s = (Ok (blen (after others x0 n) - p), t) /\ ready t p.
  Proof.
    intros m s p R L. assert (P63 : 2 ^ 62 < two63) by reflexivity. pose proof R as (_ & _ & Lp & _).
    destruct (seek_cur_on s p 0 R ltac:(lia)) as (u & E1 & Ru). rewrite Z.add_0_r, N2Z.id in E1, Ru.
    destruct Ru as (Ou & _). destruct (turn_on u Ou) as (n & _ & Fn). destruct (L n) as [L1 L2].
    destruct (sys_seek_on u (Z.of_N (blen (after others x0 n))) Ou ltac:(lia)) as (v & E2 & (Ov & _)).
    destruct (sys_seek_on v (Z.of_N p) Ov ltac:(lia)) as (w & E3 & Rw). rewrite N2Z.id in E2, E3, Rw.
    assert (O1 : sb_op cap OPosition s = (Ok (APos p), u)) by (cbn [sb_op]; rewrite E1; reflexivity).
    assert (O2 : sb_op cap OSeekEnd u = (Ok (APos (blen (after others x0 n))), v)) by (cbn [sb_op]; rewrite Fn, E2; reflexivity).
    assert (O3 : sb_op cap (OSeekStart p) v = (Ok (APos p), w)) by (cbn [sb_op]; rewrite E3; reflexivity).
    exists n, w. split; [|exact Rw]. unfold io_remaining_stream_len, io_position, io_seek_end, io_seek_start.
    cbn -[sb_op]. rewrite O1. cbn -[sb_op]. rewrite O2. cbn -[sb_op]. rewrite sub64_ok by exact L1. cbn -[sb_op]. rewrite O3. reflexivity.
  Qed.
End Path.

(** * Without others *)

Section Alone.
  Variables (b : bytes) (cap : N).
  Hypothesis Lb : blen b < 2 ^ 62.
  Definition alone (s : sbuf) (p : N) : Prop := ready b (fun _ => True) [] b s p.
  Lemma alone_after : forall n i, True -> nth_error (after [] b n) (N.to_nat i) = nth_error b (N.to_nat i).
  Proof. intros n i _. unfold after. rewrite firstn_nil. reflexivity. Qed.
  Lemma alone_file : forall s p, alone s p -> sb_file s = b /\ sb_others s = [].
  Proof. intros s p ((n & E1 & E2) & _). rewrite E1, E2. unfold after. rewrite firstn_nil, skipn_nil. split; reflexivity. Qed.
  Lemma loop_eof : forall k s p n got, alone s p -> n <> 0 -> blen b < p + n -> n <= N.of_nat k -> exists t, sb_loop k cap s n got = (Err EIoEof, t).
  Proof.
    induction k as [|k IH]; intros s p n got R N0 L Lk; [lia|]. cbn [sb_loop]. rewrite (proj2 (N.eqb_neq n 0) N0). destruct (N.lt_ge_cases p (blen b)) as [Lp|Lp].
    - destruct (read_on_buf b (fun _ => True) [] b cap Lb alone_after s p n R N0 (fun _ _ _ => I) Lp) as (x & t & E & Nx & Lx & _ & Le & Rt). rewrite E.
      assert (Px : 1 <= blen x) by (destruct x; [contradiction|unfold blen; cbn; lia]). destruct x as [|c r]; [contradiction|].
      apply (IH t (p + blen (c :: r)) (n - blen (c :: r)) _ Rt); lia.
    - destruct (alone_file s p R) as [Ef Eo]. destruct R as (_ & P & _ & Bu). unfold sb_read. destruct (sb_buf s) as [|c r] eqn:B.
      + assert (X : forall n', exists t, sb_sys_read s n' = ([], t)).
        { intro n'. unfold sb_sys_read. cbn [sb_turn sb_file sb_pos]. rewrite Eo, Ef, P, blen_nil, N.add_0_r.
          match goal with |- context [slice b p ?q] => assert (Z : slice b p q = []) end; [|rewrite Z; eexists; reflexivity].
          unfold slice. rewrite skipn_all2 by (unfold blen in Lp; lia). apply firstn_nil. }
        destruct (cap <=? n); [destruct (X n) as (t & ->)|destruct (X cap) as (t & ->)]; [|rewrite firstn_nil]; eexists; reflexivity.
      + exfalso. specialize (Bu 0 ltac:(unfold blen; cbn; lia) I). cbn in Bu. symmetry in Bu. rewrite N.add_0_r in Bu. assert (X : nth_error b (N.to_nat p) <> None) by (rewrite Bu; discriminate). apply nth_error_Some in X. unfold blen in Lp. lia.
  Qed.
  Lemma alone_on : forall s p, alone s p -> exists n, sb_others s = skipn n [] /\ sb_file s = after [] b n. Proof. intros s p R. apply R. Qed.
  Lemma alone_seek : forall s p t, alone s p -> match sb_sys_seek s t with (Ok q, u) => (0 <= t < Z.of_N two63)%Z /\ q = Z.to_N t /\ alone u q | (Err e, _) => ~ (0 <= t < Z.of_N two63)%Z /\ e = EIoSeek | _ => False end.
  Proof.
    intros s p t R. destruct ((0 <=? t) && (t <? Z.of_N two63))%Z eqn:X.
    - destruct (sys_seek_on b (fun _ => True) [] b cap Lb alone_after s t (alone_on s p R) ltac:(lia)) as (u & -> & Ru). split; [lia|]. split; [reflexivity|exact Ru].
    - unfold sb_sys_seek. rewrite X. split; [lia|reflexivity].
  Qed.
  Lemma op_alone : forall o s p, alone s p -> match perform o b p with
    | Ok (a, q) => exists t, sb_op cap o s = (Ok a, t) /\ alone t q
    | Err e => exists t, sb_op cap o s = (Err e, t)
    | Panic x => exists t, sb_op cap o s = (Panic x, t)
    | Fuel => exists t, sb_op cap o s = (Fuel, t)
    end.
  Proof.
    intros o s p R. assert (St : match o with OSeekStart _ | OSeekEnd => False | _ => True end -> forall a q, perform o b p = Ok (a, q) -> exists t, sb_op cap o s = (Ok a, t) /\ alone t q).
    { intros O a q P. apply (op_on b (fun _ => True) [] b cap Lb alone_after o s p a q O R P). auto. }
    assert (Eof : forall n, (forall c q, read_exact n b p <> Ok (c, q)) -> n <> 0 /\ read_exact n b p = Err EIoEof /\ exists t, sb_loop (N.to_nat n) cap s n [] = (Err EIoEof, t)).
    { intros n Nr. unfold read_exact in *. destruct (n =? 0) eqn:N0; [exfalso; eapply Nr; reflexivity|]. destruct (p + n <=? blen b) eqn:L; [exfalso; eapply Nr; reflexivity|].
      split; [lia|]. split; [reflexivity|]. apply (loop_eof (N.to_nat n) s p n [] R); lia. }
    destruct o as [n|n| |d|x|].
    - cbn [perform] in *. destruct (read_exact n b p) as [[c q]|e|x|] eqn:E; [exact (St I _ _ eq_refl)|..]; destruct (Eof n ltac:(intros c q X; rewrite E in X; discriminate X)) as (_ & Er & t & Et); rewrite E in Er; try discriminate.
      injection Er as ->. cbn [sb_op]. rewrite Et. eexists. reflexivity.
    - cbn [perform] in *. destruct (two63 <=? n) eqn:Big; [cbn [sb_op]; rewrite Big; eexists; reflexivity|].
      destruct (read_exact n b p) as [[c q]|e|x|] eqn:E; [exact (St I _ _ eq_refl)|..]; destruct (Eof n ltac:(intros c q X; rewrite E in X; discriminate X)) as (_ & Er & t & Et); rewrite E in Er; try discriminate.
      injection Er as ->. cbn [sb_op]. rewrite Big, Et. eexists. reflexivity.
    - cbn [perform position] in *. exact (St I _ _ eq_refl).
    - destruct (perform (OSeekCur d) b p) as [[a q]|e|x|] eqn:E; [exact (St I _ _ eq_refl)|..]; cbn [perform] in E; unfold seek_cur in E;
        destruct ((0 <=? Z.of_N p + d)%Z && (Z.of_N p + d <? Z.of_N two63)%Z) eqn:X; try discriminate. injection E as <-. cbn [sb_op]. unfold sb_seek_cur. pose proof R as (_ & P & Lp & _). destruct (- Z.of_N two63 <=? d - Z.of_N (blen (sb_buf s)))%Z.
      + replace (Z.of_N (sb_pos s) + (d - Z.of_N (blen (sb_buf s))))%Z with (Z.of_N p + d)%Z by lia. pose proof (alone_seek s p (Z.of_N p + d) R) as A.
        destruct (sb_sys_seek s (Z.of_N p + d)) as [[q|e|y|] u]; [lia| |contradiction|contradiction]. destruct A as [_ ->]. eexists. reflexivity.
      + replace (Z.of_N (sb_pos s) - Z.of_N (blen (sb_buf s)))%Z with (Z.of_N p) by lia. pose proof (alone_seek s p (Z.of_N p) R) as A.
        destruct (sb_sys_seek s (Z.of_N p)) as [[q|e|y|] u]; [|exfalso; lia|contradiction|contradiction]. destruct A as (_ & -> & Ru). rewrite N2Z.id in *.
        pose proof (alone_seek u p (Z.of_N p + d) Ru) as A. destruct (sb_sys_seek u (Z.of_N p + d)) as [[q|e|y|] v]; [lia| |contradiction|contradiction]. destruct A as [_ ->]. eexists. reflexivity.
    - cbn [perform]. unfold seek_start. cbn [sb_op]. pose proof (alone_seek s p (Z.of_N x) R) as A. destruct (x <? two63) eqn:X; destruct (sb_sys_seek s (Z.of_N x)) as [[q|e|y|] u]; try contradiction; try lia.
      + destruct A as (_ & -> & Ru). rewrite N2Z.id in *. exists u. split; [reflexivity|exact Ru].
      + destruct A as [_ ->]. eexists. reflexivity.
    - cbn [perform]. unfold seek_end. cbn [sb_op]. assert (Ef : sb_file (sb_turn s) = b) by (destruct (alone_file s p R) as [Ef Eo]; unfold sb_turn; cbn [sb_file]; rewrite Eo; exact Ef). rewrite Ef.
      pose proof (alone_seek s p (Z.of_N (blen b)) R) as A. assert (P63 : 2 ^ 62 < two63) by reflexivity. destruct (sb_sys_seek s (Z.of_N (blen b))) as [[q|e|y|] u]; try contradiction; try lia.
      destruct A as (_ & -> & Ru). rewrite N2Z.id in *. exists u. split; [reflexivity|exact Ru].
  Qed.
  Theorem run_alone : forall {A} (x : IO A) s p, alone s p -> fst (sb_run cap x s) = match run x b p with Ok (a, _) => Ok a | Err e => Err e | Panic q => Panic q | Fuel => Fuel end.
  Proof.
    intros A x. induction x as [[v|e|z|]|op c IH]; intros s p R; cbn [sb_run run]; try reflexivity. pose proof (op_alone op s p R) as H.
    destruct (perform op b p) as [[a q]|e|y|].
    - destruct H as (t & -> & Rt). exact (IH a t q Rt).
    - destruct H as (t & ->). reflexivity.
    - destruct H as (t & ->). reflexivity.
    - destruct H as (t & ->). reflexivity.
  Qed.
End Alone.

Lemma sb_bind : forall {A B} cap (x : IO A) (k : A -> IO B) s,
  sb_run cap (io_bind x k) s = match sb_run cap x s with (Ok a, t) => sb_run cap (k a) t | (Err e, t) => (Err e, t) | (Panic q, t) => (Panic q, t) | (Fuel, t) => (Fuel, t) end.
Proof.
  intros A B cap x k. induction x as [[a|e|q|]|o c IH]; intros s; cbn [io_bind sb_run]; try reflexivity.
  destruct (sb_op cap o s) as [[a| | |] t]; try reflexivity. apply IH.
Qed.

Theorem path_described : forall f t k cap short fuel m others x, good_sizes f -> describes f t -> blen (render_all f) < N.of_nat fuel -> movie_is f k ->
  intact f k x -> keeping (intact f k) others -> (forall n, blen (after others x n) < 2 ^ 62) -> shared_read_path others short cap fuel m x = Ok t.
Proof.
  intros f t k cap short fuel m others x G D Fu Mk Ix K Ln. pose proof G as (F & Lf).
  destruct (looked_described f [] t fuel m G D ltac:(rewrite app_nil_r; exact Lf) Fu) as (k1 & Mk1 & Lo). rewrite app_nil_r, Forall_forall in Lo.
  destruct (read_described_tail f [] t fuel m G D ltac:(rewrite app_nil_r; exact Lf) Fu) as (q & R). rewrite app_nil_r, <- (read_is fuel m (render_all f) 0) in R.
  destruct D as (ft & pre & mv & post & E & Ift & W & C & Imv & Nm & M).
  assert (Ek : k = S (List.length pre)) by (apply (one_movie ft pre mv post); [exact Ift|exact Nm|rewrite <- E; exact Mk]).
  assert (Ek1 : k1 = k) by (rewrite Ek; apply (one_movie ft pre mv post); [exact Ift|exact Nm|rewrite <- E; exact Mk1]). subst k1.
  assert (Sk : start f k = asize ft + blen (render_all pre)).
  { rewrite E, Ek. unfold start. cbn [firstn]. rewrite firstn_app, firstn_all, Nat.sub_diag. cbn [firstn]. rewrite app_nil_r, render_all_cons, blen_app. reflexivity. }
  assert (Er : render_all f = render ft ++ (render_all pre ++ render mv) ++ render_all post) by (rewrite E, render_all_cons, render_all_app, render_all_cons, <- !app_assoc; reflexivity).
  assert (Ef : nth_error f k = Some mv) by (rewrite E, Ek; cbn [nth_error]; rewrite nth_error_app2, Nat.sub_diag by lia; reflexivity).
  pose proof (start_step f k mv Ef) as Pk. pose proof (asize_pos mv) as Pm.
  rewrite E in F. cbn [forallb] in F. apply andb_true_iff in F. destruct F as [Fft F]. rewrite forallb_app in F. apply andb_true_iff in F.
  destruct F as [Fpre F]. cbn [forallb] in F. apply andb_true_iff in F. destruct F as [Fmv _].
  assert (Lr : blen (render_all f) = asize ft + blen (render_all pre) + asize mv + blen (render_all post)) by (rewrite Er, !blen_app; unfold asize; lia).
  assert (Ag : forall n i, of_interest f k i -> nth_error (after others x n) (N.to_nat i) = nth_error (render_all f) (N.to_nat i)).
  { intros n i Hi. exact (keeping_after _ others x n K Ix i Hi). }
  assert (Lm : forall n, start f k < blen (after others x n)).
  { intro n. assert (Hi : of_interest f k (start f k)) by (right; left; lia). specialize (Ag n _ Hi).
    assert (X : nth_error (render_all f) (N.to_nat (start f k)) <> None) by (apply nth_error_Some; unfold blen in *; lia). rewrite <- Ag in X. apply nth_error_Some in X. unfold blen. lia. }
  set (b := render_all f) in *. assert (Sm : small b) by exact Lf.
  assert (Gf : run (io_ftyp_parse m) b 0 = Ok (tg_ftyp t, asize ft)).
  { apply (ftyp_goes_io m ft (tg_ftyp t)); auto. exists [], ((render_all pre ++ render mv) ++ render_all post). split; [exact Er|reflexivity]. }
  set (p := asize ft) in *. assert (Pp : p <= blen b) by lia.
  pose proof (proj1 (at_remaining m b p Pp Sm)) as Gr.
  unfold io_read_tag_from in R, Lo. rewrite run_bind, Gf, run_bind, Gr, run_bind in R. rewrite trail_bind, Gf, trail_bind, Gr, trail_bind in Lo.
  destruct (run (io_find_moov fuel m fuel (blen b - p) 0) b p) as [[r q']| | |] eqn:Rm; try discriminate. cbn in R. injection R as <- <-.
  rewrite !looked_app in Lo. unfold shared_read_path, io_read_tag_from. rewrite sb_bind.
  assert (R0 : ready b (of_interest f k) others x (SBuf others x 0 [] short) 0).
  { split; [exists 0%nat; split; reflexivity|]. split; [reflexivity|]. split; [reflexivity|]. intros j Hj. change (blen (sb_buf (SBuf others x 0 [] short))) with 0 in Hj. lia. }
  destruct (stays_on b (of_interest f k) others x cap Lf Ag _ _ 0 _ _ (stays_ftyp m) R0 Gf) as (s1 & -> & R1).
  { intros y i Iy. apply (Lo y). apply in_or_app. left. exact Iy. }
  rewrite sb_bind. destruct (rest_on b (of_interest f k) others x cap Lf Ag m s1 p R1) as (n & s2 & -> & R2).
  { intro n. specialize (Lm n). specialize (Ln n). lia. }
  rewrite sb_bind. specialize (Lm n). specialize (Ln n).
  assert (Sit : sits b p (render_all pre ++ render mv)) by (exists (render ft), (render_all post); split; [exact Er|reflexivity]).
  assert (Np : named_kids (id4 "moov") pre = []) by (unfold named_kids in *; rewrite filter_app in Nm; apply app_eq_nil in Nm; apply Nm).
  destruct (find_len m fuel pre fuel (blen b - p) (blen (after others x n) - p) 0 mv b p Fpre Fmv Np Imv Sm Sit ltac:(lia) ltac:(lia) ltac:(lia) ltac:(lia)) as [Ru St].
  rewrite Rm in Ru. symmetry in Ru.
  destruct (stays_on b (of_interest f k) others x cap Lf Ag _ _ p _ _ (stays_find m fuel (blen (after others x n) - p) fuel 0) R2 Ru) as (s3 & -> & _).
  { intros y i Iy. apply (Lo y). rewrite (proj1 (rest_trail m b p)). apply in_or_app. right. apply in_or_app. right. apply in_or_app. left.
    rewrite steps_trail in Iy |- *. rewrite St. exact Iy. }
  reflexivity.
Qed.
