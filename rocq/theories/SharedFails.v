(** A scan that fails does not notice the others either: proofs for C97. *)

From Coq Require Import List NArith ZArith Bool Lia Arith String.
From Coq Require Import ZifyBool ZifyNat ZifyN.
From Verif Require Import Base BaseLemmas Utf UtfLemmas Types Stream Parse Find Write Fault ReadIO IoProofs BufRead LookSpec LookProofs SharedRead SharedReadProofs SharedBuf SharedBufProofs FineWrite
  Interfere InterfereProofs SharedScan SharedScanProofs.
From Verif Require BufProofs FineProofs.
Import ListNotations.
Local Open Scope list_scope.

Section Fails.
  Variables (b : bytes) (Q : N -> Prop) (others : list (bytes -> bytes)) (cap : N).
  Hypothesis Lb : blen b < 2 ^ 62.
  Hypothesis Ag : forall n i, Q i -> nth_error (after others b n) (N.to_nat i) = nth_error b (N.to_nat i).
  Hypothesis Le : forall n, blen (after others b n) = blen b.
  Notation good := (ready b Q others b).

  (** What is in the buffer has been in the file. *)
  Definition kept (s : sbuf) : Prop :=
    (exists n, sb_others s = skipn n others /\ sb_file s = after others b n) /\ (sb_buf s <> [] -> sb_pos s <= blen b).

  Lemma kept_sys_read : forall s n x t, kept s -> sb_buf s = [] -> n <> 0 -> sb_sys_read s n = (x, t) ->
    kept t /\ sb_buf t = [] /\ sb_pos t = sb_pos s + blen x /\ blen x <= n.
  Proof.
    intros s n x t [On _] B N0 E. unfold sb_sys_read in E. cbv zeta in E. injection E as <- <-. destruct (turn_on others b s On) as (k & K1 & K2).
    cbn [sb_others sb_file sb_pos sb_buf]. unfold kept. cbn [sb_others sb_file sb_pos sb_buf]. split; [|split; [exact B|split; [reflexivity|]]].
    - split; [exists k; split; assumption|]. change (sb_buf (sb_turn s)) with (sb_buf s). rewrite B. intros X. contradiction.
    - rewrite BufProofs.slice_len. destruct (sb_short s); lia.
  Qed.
  Lemma sys_read_within : forall s n x t, kept s -> sb_sys_read s n = (x, t) -> x <> [] -> sb_pos s + blen x <= blen b.
  Proof.
    intros s n x t [On _] E Nx. destruct (turn_on others b s On) as (k & K1 & K2).
    assert (X : exists most, x = slice (sb_file (sb_turn s)) (sb_pos s) most) by (unfold sb_sys_read in E; cbv zeta in E; injection E as <- <-; eexists; reflexivity). destruct X as (most & ->). rewrite K2 in Nx |- *.
    match type of Nx with ?y <> [] => assert (Z : blen y <> 0) by (destruct y; [contradiction|unfold blen; cbn; lia]) end. rewrite BufProofs.slice_len, Le in Z |- *. lia.
  Qed.
  Lemma kept_read : forall s p n x t, kept s -> sb_pos s = p + blen (sb_buf s) -> n <> 0 -> sb_read cap s n = (x, t) ->
    kept t /\ sb_pos t = p + blen x + blen (sb_buf t) /\ blen x <= n /\ (x <> [] -> p + blen x <= blen b).
  Proof.
    intros s p n x t K P N0 E. unfold sb_read in E. destruct (sb_buf s) as [|c r] eqn:B.
    - rewrite blen_nil, N.add_0_r in P. destruct (cap <=? n) eqn:C.
      + destruct (kept_sys_read s n x t K B N0 E) as (K1 & K2 & K3 & K4). rewrite K2, blen_nil. split; [exact K1|]. split; [lia|]. split; [exact K4|]. intro Nx. rewrite <- P. exact (sys_read_within s n x t K E Nx).
      + destruct (sb_sys_read s cap) as [y u] eqn:Y. injection E as <- <-. destruct (kept_sys_read s cap y u K B ltac:(lia) Y) as ([K1 _] & K2 & K3 & K4).
        cbn [sb_pos sb_buf]. assert (Ly : blen (firstn (N.to_nat n) y) + blen (skipn (N.to_nat n) y) = blen y) by (rewrite <- blen_app, firstn_skipn; reflexivity).
        assert (Lf : blen (firstn (N.to_nat n) y) <= n) by (unfold blen; rewrite firstn_length; lia).
        assert (Wi : y <> [] -> sb_pos u <= blen b) by (intro Ny; rewrite K3; exact (sys_read_within s cap y u K Y Ny)).
        split; [split; [exact K1|]; cbn [sb_pos sb_buf]; intro X; apply Wi; intros ->; apply X, skipn_nil|]. split; [lia|]. split; [exact Lf|].
        intro X. assert (y <> []) by (intros ->; apply X, firstn_nil). specialize (Wi H). lia.
    - destruct K as [On Wi]. rewrite B in Wi. specialize (Wi ltac:(discriminate)). injection E as <- <-. cbn [sb_pos sb_buf].
      assert (Ly : blen (firstn (N.to_nat n) (c :: r)) + blen (skipn (N.to_nat n) (c :: r)) = blen (c :: r)) by (rewrite <- blen_app, firstn_skipn; reflexivity).
      assert (Lf : blen (firstn (N.to_nat n) (c :: r)) <= n) by (unfold blen; rewrite firstn_length; lia).
      split; [split; [exact On|]; cbn [sb_pos sb_buf]; intros _; exact Wi|]. split; [lia|]. split; [exact Lf|]. intros _. lia.
  Qed.
  Lemma kept_loop : forall k s p n got, kept s -> sb_pos s = p + blen (sb_buf s) -> kept (snd (sb_loop k cap s n got)) /\
    (n <> 0 -> blen b < p + n -> n <= N.of_nat k -> fst (sb_loop k cap s n got) = Err EIoEof).
  Proof.
    induction k as [|k IH]; intros s p n got K P; cbn [sb_loop]; destruct (n =? 0) eqn:N0; try (split; [exact K|lia]).
    destruct (sb_read cap s n) as [x t] eqn:E. destruct (kept_read s p n x t K P ltac:(lia) E) as (K1 & K2 & K3 & K4). destruct x as [|c r]; [split; [exact K1|reflexivity]|].
    specialize (K4 ltac:(discriminate)). assert (1 <= blen (c :: r)) by (unfold blen; cbn; lia). destruct (IH t (p + blen (c :: r)) (n - blen (c :: r)) (got ++ c :: r) K1 K2) as [I1 I2]. split; [exact I1|]. intros. apply I2; lia.
  Qed.
  Lemma kept_seek : forall s t, kept s -> kept (snd (sb_sys_seek s t)) .
  Proof.
    intros s t [On Wi]. pose proof (turn_on others b s On) as T. unfold sb_sys_seek. destruct (_ && _)%bool; (split; [exact T|]); cbn [snd sb_buf sb_pos sb_turn]; [intro X; contradiction|exact Wi].
  Qed.
  Lemma kept_seek_cur : forall s d, kept s -> kept (snd (sb_seek_cur s d)).
  Proof.
    intros s d K. unfold sb_seek_cur. cbv zeta. destruct (_ <=? _)%Z; [apply kept_seek, K|]. pose proof (kept_seek s (Z.of_N (sb_pos s) - Z.of_N (blen (sb_buf s)))%Z K) as K1.
    destruct (sb_sys_seek s _) as [[q|e|x|] t]; cbn [snd] in *; try exact K1. apply kept_seek, K1.
  Qed.
  Lemma kept_op : forall o s p, kept s -> sb_pos s = p + blen (sb_buf s) -> kept (snd (sb_op cap o s)).
  Proof.
    assert (An : forall B (f : B -> answer) (z : res B * sbuf), snd (sb_answer f z) = snd z) by (intros B f [[a|e|q|] t]; reflexivity).
    intros o s p K P. destruct o as [n|n| |d|q|]; cbn [sb_op]; try rewrite An; try (apply kept_seek_cur, K); try (apply kept_seek, K); [eapply kept_loop; eassumption|].
    destruct (two63 <=? n); [exact K|]. rewrite An. eapply kept_loop; eassumption.
  Qed.
  Lemma op_off : forall o s p, good s p -> kept s -> match perform o b p with
    | Ok _ => True
    | Err e => fst (sb_op cap o s) = Err e
    | Panic x => fst (sb_op cap o s) = Panic x
    | Fuel => fst (sb_op cap o s) = Fuel
    end.
  Proof.
    intros o s p (On & P & Lp & _) K.
    assert (Rd : forall n, match read_exact n b p with Ok _ => True | Err e => fst (sb_loop (N.to_nat n) cap s n []) = Err e | _ => False end).
    { intro n. unfold read_exact. destruct (n =? 0) eqn:N0; [exact I|]. destruct (p + n <=? blen b) eqn:L; [exact I|]. apply (kept_loop (N.to_nat n) s p n [] K P); lia. }
    assert (Sk : forall u t, ~ (0 <= t < Z.of_N two63)%Z -> fst (sb_sys_seek u t) = Err EIoSeek).
    { intros u t H. unfold sb_sys_seek. destruct ((0 <=? t)%Z && (t <? Z.of_N two63)%Z)%bool eqn:X; [lia|reflexivity]. }
    assert (An : forall B (f : B -> answer) (z : res B * sbuf) e, fst z = Err e -> fst (sb_answer f z) = Err e) by (intros B f [[a|e'|q|] t] e X; cbn in *; congruence).
    destruct o as [n|n| |d|x|]; cbn [perform].
    - specialize (Rd n). destruct (read_exact n b p) as [[c q]|e|x|]; try contradiction; [exact I|]. apply An, Rd.
    - cbn [sb_op]. destruct (two63 <=? n); [reflexivity|]. specialize (Rd n). destruct (read_exact n b p) as [[c q]|e|x|]; try contradiction; [exact I|]. apply An, Rd.
    - exact I.
    - unfold seek_cur. destruct ((0 <=? Z.of_N p + d)%Z && (Z.of_N p + d <? Z.of_N two63)%Z)%bool eqn:X; [exact I|]. cbn [sb_op]. apply An. unfold sb_seek_cur. cbv zeta. destruct (- Z.of_N two63 <=? d - Z.of_N (blen (sb_buf s)))%Z; [apply Sk; lia|].
      replace (Z.of_N (sb_pos s) - Z.of_N (blen (sb_buf s)))%Z with (Z.of_N p) by lia. destruct (sys_seek_on b Q others b cap Lb Ag s (Z.of_N p) On ltac:(lia)) as (u & E & _). rewrite E, N2Z.id. apply Sk. lia.
    - unfold seek_start. destruct (x <? two63) eqn:X; [exact I|]. cbn [sb_op]. apply An, Sk. lia.
    - exact I.
  Qed.
  (** A program that fails on [b] fails likewise, whatever the others do to bytes it did not look at before. *)
  Lemma run_off : forall {A} (x : IO A) s p, good s p -> kept s -> (forall y i, In y (looked (trail x b p)) -> covers y i -> Q i) ->
    kept (snd (sb_run cap x s)) /\ match run x b p with Ok _ => True | Err e => fst (sb_run cap x s) = Err e | Panic z => fst (sb_run cap x s) = Panic z | Fuel => fst (sb_run cap x s) = Fuel end.
  Proof.
    intros A x. induction x as [[v|e|z|]|op c IH]; intros s p R K H; cbn [sb_run run trail] in *; auto.
    pose proof (op_off op s p R K) as F. pose proof (kept_op op s p K (proj1 (proj2 R))) as Ko. destruct (perform op b p) as [[v r]|e|z|] eqn:P.
    - destruct (any_on b Q others cap Lb Ag Le op s p v r R P) as (t & Et & Rt); [intros y i Iy; apply H; rewrite looked_app; apply in_or_app; left; exact Iy|].
      rewrite Et in *. apply (IH v t r Rt Ko). intros y i Iy. apply H. rewrite looked_app. apply in_or_app. right. exact Iy.
    - destruct (sb_op cap op s) as [q t]. cbn [fst snd] in *. subst q. auto.
    - destruct (sb_op cap op s) as [q t]. cbn [fst snd] in *. subst q. auto.
    - destruct (sb_op cap op s) as [q t]. cbn [fst snd] in *. subst q. auto.
  Qed.
End Fails.
