(** The scan of the writer on a file that others change: proofs for C97. *)

From Coq Require Import List NArith ZArith Bool Lia Arith String.
From Coq Require Import ZifyBool ZifyNat ZifyN.
From Verif Require Import Base BaseLemmas Utf Types Stream Parse Find Write Fault ReadIO IoProofs IoCost Reader ReaderProofs LookSpec LookProofs FineWrite
  SharedRead SharedReadProofs SharedBuf SharedBufProofs Interfere SharedScan.
From Verif Require WPanicProofs BufProofs FineProofs.
Import ListNotations.
Local Open Scope list_scope.

Section Scan.
  Variables (b : bytes) (Q : N -> Prop) (others : list (bytes -> bytes)) (cap : N).
  Hypothesis Lb : blen b < 2 ^ 62.
  Hypothesis Ag : forall n i, Q i -> nth_error (after others b n) (N.to_nat i) = nth_error b (N.to_nat i).
  Hypothesis Le : forall n, blen (after others b n) = blen b.
  Notation good := (ready b Q others b).

  Lemma any_on : forall o s p a q, good s p -> perform o b p = Ok (a, q) ->
    (forall y i, In y (looked (op_stretch o p q)) -> covers y i -> Q i) -> exists t, sb_op cap o s = (Ok a, t) /\ good t q.
  Proof.
    intros o s p a q R P H. destruct o as [n|n| |d|x|]; try (apply (op_on b Q others b cap Lb Ag _ s p a q); [exact I|assumption..]).
    - cbn [perform] in P. unfold seek_start in P. destruct (x <? two63) eqn:X; [|discriminate]. injection P as <- <-.
      destruct (sys_seek_on b Q others b cap Lb Ag s (Z.of_N x) (proj1 R) ltac:(lia)) as (u & E & Ru). cbn [sb_op]. rewrite E, N2Z.id in *. exists u. split; [reflexivity|exact Ru].
    - cbn [perform] in P. unfold seek_end in P. injection P as <- <-. assert (P63 : 2 ^ 62 < two63) by reflexivity.
      destruct (turn_on others b s (proj1 R)) as (n & _ & Fn). cbn [sb_op]. rewrite Fn, Le.
      destruct (sys_seek_on b Q others b cap Lb Ag s (Z.of_N (blen b)) (proj1 R) ltac:(lia)) as (u & E & Ru). rewrite E, N2Z.id in *. exists u. split; [reflexivity|exact Ru].
  Qed.
  Lemma run_on : forall {A} (x : IO A) s p a q, good s p -> run x b p = Ok (a, q) ->
    (forall y i, In y (looked (trail x b p)) -> covers y i -> Q i) -> exists t, sb_run cap x s = (Ok a, t) /\ good t q.
  Proof.
    intros A x. induction x as [[v|e|z|]|op c IH]; intros s p a q R E H; cbn [sb_run run trail] in *; try discriminate.
    - injection E as <- <-. exists s. auto.
    - destruct (perform op b p) as [[v r]| | |] eqn:P; try discriminate.
      destruct (any_on op s p v r R P) as (t & Et & Rt); [intros y i Iy; apply H; rewrite looked_app; apply in_or_app; left; exact Iy|].
      rewrite Et. apply (IH v t r a q Rt E). intros y i Iy. apply H. rewrite looked_app. apply in_or_app. right. exact Iy.
  Qed.

  Lemma slice_all : forall p n, blen b <= p + n -> slice b p n = skipn (N.to_nat p) b.
  Proof. intros p n L. unfold slice. apply firstn_all2. rewrite skipn_length. unfold blen in L. lia. Qed.
  Lemma to_end_on : forall q, (forall i, q <= i -> Q i) -> forall k sizes last s got, good s (q + blen got) -> sb_buf s = [] -> got = slice b q (blen got) ->
    last <> 0 -> Forall (fun n => n <> 0) sizes -> blen b - (q + blen got) < N.of_nat k ->
    exists t n, sb_to_end k sizes last s got = (Ok (skipn (N.to_nat q) b), t) /\ sb_others t = skipn n others /\ sb_file t = after others b n.
  Proof.
    intros q Hq. induction k as [|k IH]; intros sizes last s got R B Eg Nl Ns Lk.
    - lia.
    - cbn [sb_to_end]. destruct (match sizes with [] => (last, []) | n :: r => (n, r) end) as [n r] eqn:En.
      assert (Hn : n <> 0 /\ Forall (fun n => n <> 0) r) by (destruct sizes; injection En as <- <-; [auto|inversion Ns; auto]).
      destruct Hn as [Nn Nr]. destruct (N.lt_ge_cases (q + blen got) (blen b)) as [Lp|Lp].
      + destruct (sys_read_on b Q others b Lb Ag s (q + blen got) n R B Nn (Hq (q + blen got) ltac:(lia)) Lp) as (x & g & j & t & E & Ex & Nx & Lx & A & P & Bt & On). rewrite E.
        assert (Ax : forall i, i < blen x -> nth_error x (N.to_nat i) = nth_error b (N.to_nat (q + blen got + i))).
        { intros i Hi. rewrite Ex in Hi |- *. apply (agrees_nth b Q others b Lb Ag g (q + blen got) j i A Hi). apply Hq. lia. }
        pose proof (agrees_len b Q others b Lb Ag x (q + blen got) Nx Ax) as Lx2.
        assert (Ex2 : x = slice b (q + blen got) (blen x)).
        { apply list_same; [pose proof (BufProofs.slice_len b (q + blen got) (blen x)); unfold blen in *; lia|]. intros i Hi.
          replace i with (N.to_nat (N.of_nat i)) by lia. rewrite nth_slice by (unfold blen; lia). apply Ax. unfold blen. lia. }
        assert (P63 : 2 ^ 62 < two63) by reflexivity. assert (Px : 1 <= blen x) by (destruct x; [contradiction|unfold blen; cbn; lia]).
        assert (La : blen (got ++ x) = blen got + blen x) by apply blen_app.
        destruct x as [|c y]; [contradiction|]. apply (IH r last t (got ++ c :: y)); try assumption.
        * rewrite La. split; [exact On|]. rewrite Bt, blen_nil. split; [lia|]. split; [lia|]. intros i Hi. lia.
        * rewrite La. rewrite <- (slice_two b q (blen got)) by lia. replace (blen got + blen (c :: y) - blen got) with (blen (c :: y)) by lia. rewrite <- Eg, <- Ex2. reflexivity.
        * rewrite La. lia.
      + destruct R as (On & P & _). rewrite B, blen_nil, N.add_0_r in P. destruct (turn_on others b s On) as (j & J1 & J2).
        unfold sb_sys_read. cbv zeta. assert (Ps : sb_pos (sb_turn s) = q + blen got) by exact P.
        match goal with |- context [slice (sb_file (sb_turn s)) (sb_pos (sb_turn s)) ?w] => assert (Z : slice (sb_file (sb_turn s)) (sb_pos (sb_turn s)) w = []) end.
        { unfold slice. rewrite skipn_all2; [apply firstn_nil|]. rewrite J2, Ps. pose proof (Le j). unfold blen in *. lia. }
        rewrite Z. do 2 eexists. split; [rewrite Eg, slice_all by lia; reflexivity|]. cbn [sb_others sb_file]. split; [exact J1|exact J2].
  Qed.
End Scan.

(** * What locating looks at, and where it ends *)

Definition quiet {A} (x : IO A) : Prop := forall f p, trail x f p = [].
Lemma quiet_bind : forall {A B} (x : IO A) (k : A -> IO B), quiet x -> (forall a, quiet (k a)) -> quiet (io_bind x k).
Proof. intros A B x k H K f p. rewrite trail_bind, H. destruct (run x f p) as [[a q]| | |]; [apply K|reflexivity..]. Qed.
Lemma quiet_lift : forall {A} (r : res A), quiet (io_lift r). Proof. intros A r f p. reflexivity. Qed.
Lemma quiet_ret : forall {A} (a : A), quiet (io_ret a). Proof. intros A a f p. reflexivity. Qed.
Ltac quiet1 := repeat match goal with
  | |- quiet (io_bind _ _) => apply quiet_bind; [|intro]
  | |- quiet (io_lift _) => apply quiet_lift
  | |- quiet (io_ret _) => apply quiet_ret
  | |- quiet (if ?c then _ else _) => destruct c
  | |- quiet (match ?c with _ => _ end) => destruct c
  end.
Lemma locate_trail : forall fuel m items f p, trail (io_locate fuel m items) f p = trail (io_scan fuel m) f p.
Proof.
  intros fuel m items f p. unfold io_locate. rewrite trail_bind. destruct (run (io_scan fuel m) f p) as [[sc q]| | |]; rewrite <- (app_nil_r (trail (io_scan fuel m) f p)) at 2; f_equal.
  cbv zeta. match goal with |- trail ?x f q = [] => assert (X : quiet x); [|apply X] end. quiet1.
  - intros g r. cbn. destruct (seek_end g r) as [[? ?]| | |]; reflexivity.
  - intros g r. unfold io_seek_start. cbn [trail]. destruct (perform _ g r) as [[? ?]| | |]; reflexivity.
Qed.
Definition ends_at (x : IO plan) : Prop := forall f r p q, run x f r = Ok (p, q) -> pl_moved_start p = q.
Lemma ends_bind : forall {A} (x : IO A) k, (forall a, ends_at (k a)) -> ends_at (io_bind x k).
Proof. intros A x k H f r p q E. rewrite ReaderProofs.run_bind in E. destruct (run x f r) as [[a s]| | |]; try discriminate. exact (H a f s p q E). Qed.
Lemma locate_ends : forall fuel m items, ends_at (io_locate fuel m items).
Proof.
  intros fuel m items. unfold io_locate. apply ends_bind. intro sc. cbv zeta. apply ends_bind. intros [[s0 m0] d0]. apply ends_bind. intro d1. apply ends_bind. intro d2.
  apply ends_bind. intro diff. apply ends_bind. intro old. apply ends_bind. intro ml. destruct (two63 <=? ml); [intros f r p q E; discriminate E|].
  intros f r p q E. rewrite ReaderProofs.run_bind in E. unfold io_seek_start in E. cbn [run perform] in E. unfold seek_start in E.
  destruct (snd d2 <? two63); [|discriminate]. cbn in E. injection E as <- <-. reflexivity.
Qed.

(** * The writer *)

Theorem full_is_shared : forall others short rcap cap sizes last calls fuel m items f p e, blen f < 2 ^ 62 -> last <> 0 -> Forall (fun n => n <> 0) sizes -> blen f < N.of_nat calls ->
  prepare fuel m items f 0 = Ok (p, e) ->
  keeping (fun x => blen x = blen f /\ forall i, scanned fuel m f i \/ pl_moved_start p <= i -> nth_error x (N.to_nat i) = nth_error f (N.to_nat i)) others ->
  exists n, full_write others short rcap cap sizes last calls fuel m items f = shared_write (skipn n others) cap fuel m items (after others f n) /\
    prepare fuel m items (after others f n) 0 = Ok (p, e).
Proof.
  intros others short rcap cap sizes last calls fuel m items f p e Lf Nl Ns Lc P K.
  rewrite FineProofs.locate_is in P. destruct (run (io_locate fuel m items) f 0) as [[pl q]| | |] eqn:R; try discriminate. cbn [FineProofs.moved_too] in P. injection P as <- <-.
  pose proof (locate_ends fuel m items f 0 pl q R) as Eq. cbn [with_moved pl_moved_start] in K. rewrite Eq in K.
  set (Q := fun i => scanned fuel m f i \/ q <= i).
  assert (In0 : blen f = blen f /\ forall i, scanned fuel m f i \/ q <= i -> nth_error f (N.to_nat i) = nth_error f (N.to_nat i)) by auto.
  assert (Af : forall n, blen (after others f n) = blen f /\ forall i, Q i -> nth_error (after others f n) (N.to_nat i) = nth_error f (N.to_nat i)).
  { intro n. exact (keeping_after _ others f n K In0). }
  assert (Ag : forall n i, Q i -> nth_error (after others f n) (N.to_nat i) = nth_error f (N.to_nat i)) by (intros n; apply Af).
  assert (Le : forall n, blen (after others f n) = blen f) by (intro n; apply Af).
  assert (R0 : ready f Q others f (SBuf others f 0 [] short) 0).
  { split; [exists 0%nat; split; reflexivity|]. split; [reflexivity|]. split; [reflexivity|]. intros j Hj. change (blen (sb_buf (SBuf others f 0 [] short))) with 0 in Hj. lia. }
  destruct (run_on f Q others rcap Lf Ag Le _ _ 0 _ _ R0 R) as (s & Es & Rs).
  { intros y i Iy Cy. left. rewrite locate_trail in Iy. exists y. split; assumption. }
  unfold full_write. rewrite Es. destruct Rs as (On & Ps & Lq & Bu). unfold sb_read_to_end.
  assert (Nth : forall j, j < blen (sb_buf s) -> nth_error (sb_buf s) (N.to_nat j) = nth_error f (N.to_nat (q + j))) by (intros j Hj; apply Bu; [exact Hj|right; lia]).
  assert (Lbuf : sb_buf s <> [] -> q + blen (sb_buf s) <= blen f) by (intro Nb; exact (agrees_len f Q others f Lf Ag (sb_buf s) q Nb Nth)).
  assert (P63 : 2 ^ 62 < two63) by reflexivity.
  assert (Lp : q + blen (sb_buf s) < two63).
  { destruct (sb_buf s) as [|c r]; [cbn; change (blen (@nil byte)) with 0; lia|]. specialize (Lbuf ltac:(discriminate)). lia. }
  destruct (to_end_on f Q others Lf Ag Le q ltac:(intros i Hi; right; exact Hi) calls sizes last (SBuf (sb_others s) (sb_file s) (sb_pos s) [] (sb_short s)) (sb_buf s)) as (t & n & Et & Ot & Ft); auto; try lia.
  - split; [exact On|]. cbn [sb_pos sb_buf]. rewrite blen_nil. split; [lia|]. split; [exact Lp|]. intros j Hj. lia.
  - destruct (sb_buf s) as [|c r] eqn:B; [reflexivity|]. specialize (Lbuf ltac:(discriminate)).
    apply list_same; [pose proof (BufProofs.slice_len f q (blen (c :: r))); unfold blen in *; lia|]. intros j Hj.
    replace j with (N.to_nat (N.of_nat j)) by lia. rewrite nth_slice by (unfold blen; lia). apply Nth. unfold blen. lia.
  - rewrite Et, Ot, Ft. exists n. unfold shared_write, shared_execute. rewrite FineProofs.locate_is.
    destruct (run_same (io_locate fuel m items) f (after others f n) 0 (Le n)) as [Rn _].
    { apply Forall_forall. intros y Iy. rewrite locate_trail in Iy. unfold same_on. apply WPanicProofs.slice_ext. intros i Hi. apply Ag. left. exists y. split; [exact Iy|]. unfold covers. lia. }
    rewrite Rn, R. cbn [FineProofs.moved_too].
    assert (Em : skipn (N.to_nat q) (after others f n) = skipn (N.to_nat q) f).
    { apply list_same; [rewrite !skipn_length; specialize (Le n); unfold blen in Le; lia|]. intros j _. rewrite !nth_skipn.
      replace (N.to_nat q + j)%nat with (N.to_nat (q + N.of_nat j)) by lia. apply Ag. right. lia. }
    rewrite Em, (Le n). split; reflexivity.
Qed.
