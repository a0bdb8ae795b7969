(** A buffering reader answers every operation as the file itself does. *)

From Coq Require Import List NArith ZArith Bool Lia Arith.
From Coq Require Import ZifyBool ZifyNat ZifyN.
From Verif Require Import Base BaseLemmas Utf Types Stream Parse Find Write ReadProofs Fault ReadIO IoProofs IoCost ReadTerm IoDevice BufRead.
Import ListNotations.

Lemma slice_len : forall f p n, blen (slice f p n) = N.min n (blen f - p).
Proof. intros. unfold slice, blen. rewrite firstn_length, skipn_length. lia. Qed.
Lemma slice_firstn : forall f p k n, firstn (N.to_nat n) (slice f p k) = slice f p (N.min n k).
Proof. intros. unfold slice. rewrite firstn_firstn. f_equal. lia. Qed.
Lemma slice_skip : forall f p k n, skipn (N.to_nat n) (slice f p k) = slice f (p + n) (k - n).
Proof. intros. unfold slice. rewrite skipn_firstn_comm, skipn_skipn. f_equal; [lia|f_equal; lia]. Qed.
Lemma slice_of : forall f p n, slice f p n = slice f p (blen (slice f p n)).
Proof.
  intros. rewrite slice_len. destruct (N.le_gt_cases n (blen f - p)) as [L|L]; [f_equal; lia|].
  unfold slice. rewrite !firstn_all2; [reflexivity|rewrite skipn_length; unfold blen in *; lia ..].
Qed.
Lemma slice_none : forall f p, slice f p 0 = [].
Proof. reflexivity. Qed.

(** The buffer [b] stands for position [p]. *)
Definition stands (f : bytes) (b : breader) (p : N) : Prop :=
  p + blen (br_buf b) = br_pos b /\ br_buf b = slice f p (blen (br_buf b)) /\ br_pos b < two63.
Lemma stands_empty : forall f q, q < two63 -> stands f (BReader q []) q.
Proof. intros f q L. unfold stands. cbn [br_pos br_buf]. change (blen []) with 0. split; [lia|]. split; [reflexivity|exact L]. Qed.

Definition effort_left (f : bytes) (ev : list event) (b : breader) : N := blen ev + blen (br_buf b) + (blen f - br_pos b).

Lemma sys_read_spec : forall ev f q n, n <> 0 ->
  match sys_read ev f q n with
  | (Got x, ev') => exists used, ev = used ++ ev' /\ existsb broken used = false /\ blen ev' <= blen ev /\
                      x = slice f q (blen x) /\ blen x <= n /\ (x = [] -> blen f <= q)
  | (Interrupted, ev') => ev = Again :: ev'
  | (Failed, ev') => exists c, ev = Broken c :: ev'
  end.
Proof.
  intros ev f q n N0. destruct ev as [|[c|j| |c] ev]; cbn [sys_read].
  - exists []. repeat split; [lia|apply slice_of|rewrite slice_len; lia|]. intro E. apply (f_equal blen) in E. rewrite slice_len in E. change (blen []) with 0 in E. lia.
  - exists [Fine c]. rewrite blen_cons. repeat split; [lia|apply slice_of|rewrite slice_len; lia|]. intro E. apply (f_equal blen) in E. rewrite slice_len in E. change (blen []) with 0 in E. lia.
  - exists [Short j]. rewrite blen_cons. repeat split; [lia|apply slice_of|rewrite slice_len; lia|]. intro E. apply (f_equal blen) in E. rewrite slice_len in E. change (blen []) with 0 in E. lia.
  - reflexivity.
  - exists c. reflexivity.
Qed.

Lemma br_read_spec : forall cap f ev b p n, blen f < two63 -> n <> 0 -> stands f b p ->
  match br_read cap f ev b n with
  | (Got x, ev', b') => exists used, ev = used ++ ev' /\ existsb broken used = false /\
                      x = slice f p (blen x) /\ blen x <= n /\ (x = [] -> blen f <= p) /\ stands f b' (p + blen x) /\
                      (x <> [] -> effort_left f ev' b' < effort_left f ev b)
  | (Interrupted, ev', b') => ev = Again :: ev' /\ b' = b
  | (Failed, ev', b') => exists c, ev = Broken c :: ev'
  end.
Proof.
  intros cap f ev b p n Lf N0 (S1 & S2 & S3). unfold br_read. destruct (br_buf b) as [|y r] eqn:Eb.
  - change (blen []) with 0 in S1. assert (p = br_pos b) by lia. subst p. destruct (N.leb_spec cap n) as [C|C].
    + pose proof (sys_read_spec ev f (br_pos b) n N0) as H. destruct (sys_read ev f (br_pos b) n) as [[x| |] ev'].
      * destruct H as (used & E & U & Le & X & Ln & Z). exists used. repeat (split; [assumption|]).
        assert (B : blen x <= blen f - br_pos b) by (rewrite X, slice_len; lia). split.
        -- apply stands_empty. destruct (N.eq_dec (blen x) 0); lia.
        -- intro X0. unfold effort_left. cbn [br_buf br_pos]. rewrite Eb. change (blen []) with 0. assert (blen x <> 0) by (destruct x; [congruence|rewrite blen_cons; lia]). lia.
      * split; [exact H|reflexivity].
      * exact H.
    + assert (C0 : cap <> 0) by lia. pose proof (sys_read_spec ev f (br_pos b) cap C0) as H. destruct (sys_read ev f (br_pos b) cap) as [[x| |] ev'].
      * destruct H as (used & E & U & Le & X & Ln & Z). exists used. repeat (split; [assumption|]).
        assert (B : blen x <= blen f - br_pos b) by (rewrite X, slice_len; lia).
        assert (F : firstn (N.to_nat n) x = slice f (br_pos b) (N.min n (blen x))) by (rewrite X at 1; apply slice_firstn).
        assert (K : skipn (N.to_nat n) x = slice f (br_pos b + n) (blen x - n)) by (rewrite X at 1; apply slice_skip).
        assert (Fl : blen (firstn (N.to_nat n) x) = N.min n (blen x)) by (rewrite F, slice_len; lia).
        assert (Kl : blen (skipn (N.to_nat n) x) = blen x - n) by (rewrite K, slice_len; lia).
        split; [rewrite Fl; exact F|]. split; [lia|]. split.
        { intro E0. apply Z. rewrite E0 in Fl. change (blen []) with 0 in Fl. destruct x; [reflexivity|]. rewrite blen_cons in Fl. lia. }
        split.
        -- unfold stands. cbn [br_buf br_pos]. rewrite Fl, Kl. split; [lia|]. split; [|destruct (N.eq_dec (blen x) 0); lia].
           destruct (N.le_gt_cases n (blen x)) as [L|L]; [rewrite K; f_equal; lia|]. rewrite K. replace (blen x - n) with 0 by lia. reflexivity.
        -- intro X0. unfold effort_left. cbn [br_buf br_pos]. rewrite Eb, Kl. change (blen []) with 0.
           assert (blen (firstn (N.to_nat n) x) <> 0) by (destruct (firstn (N.to_nat n) x); [congruence|rewrite blen_cons; lia]). lia.
      * split; [exact H|reflexivity].
      * exact H.
  - rewrite <- Eb in *. unfold effort_left. cbn [br_buf br_pos]. set (w := br_buf b) in *. assert (W0 : blen w <> 0) by (rewrite Eb, blen_cons; lia). clearbody w. exists []. split; [reflexivity|]. split; [reflexivity|].
    assert (B : blen w <= blen f - p) by (rewrite S2 at 1; rewrite slice_len; lia).
    assert (F : firstn (N.to_nat n) w = slice f p (N.min n (blen w))) by (rewrite S2 at 1; apply slice_firstn).
    assert (K : skipn (N.to_nat n) w = slice f (p + n) (blen w - n)) by (rewrite S2 at 1; apply slice_skip).
    assert (Fl : blen (firstn (N.to_nat n) w) = N.min n (blen w)) by (rewrite F, slice_len; lia).
    assert (Kl : blen (skipn (N.to_nat n) w) = blen w - n) by (rewrite K, slice_len; lia).
    split; [rewrite Fl; exact F|]. split; [lia|]. split; [intro E0; rewrite E0 in Fl; change (blen []) with 0 in Fl; lia|]. split.
    + unfold stands. cbn [br_buf br_pos]. rewrite Fl, Kl. split; [lia|]. split; [|exact S3].
      destruct (N.le_gt_cases n (blen w)) as [L|L]; [rewrite K; f_equal; lia|]. rewrite K. replace (blen w - n) with 0 by lia. reflexivity.
    + intro X0. rewrite Kl. lia.
Qed.

Lemma br_loop_spec : forall cap f k ev b p n got, blen f < two63 -> stands f b p -> effort_left f ev b < N.of_nat k ->
  let '(r, ev', b') := br_loop k cap f ev b n got in
  exists used, ev = used ++ ev' /\
    if existsb broken used then r = DeviceError
    else if n =? 0 then r = Done (Ok got) /\ stands f b' p
    else if p + n <=? blen f then r = Done (Ok (got ++ slice f p n)) /\ stands f b' (p + n)
    else r = Done (Err EIoEof).
Proof.
  intros cap f. induction k as [|k IH]; intros ev b p n got Lf S K; [lia|]. cbn [br_loop]. destruct (N.eqb_spec n 0) as [->|N0].
  - exists []. split; [reflexivity|]. cbn [existsb]. auto.
  - pose proof (br_read_spec cap f ev b p n Lf N0 S) as H. destruct (br_read cap f ev b n) as [[[x| |] ev1] b1].
    + destruct H as (u & E & U & X & Ln & Z & S1 & D). destruct x as [|y r].
      * exists u. split; [exact E|]. rewrite U. specialize (Z eq_refl). destruct (N.leb_spec (p + n) (blen f)); [lia|reflexivity].
      * set (x := y :: r) in *. assert (X0 : blen x <> 0) by (unfold x; rewrite blen_cons; lia). specialize (D ltac:(discriminate)). clearbody x.
        specialize (IH ev1 b1 (p + blen x) (n - blen x) (got ++ x) Lf S1 ltac:(lia)).
        destruct (br_loop k cap f ev1 b1 (n - blen x) (got ++ x)) as [[r' ev'] b']. destruct IH as (u2 & E2 & R). exists (u ++ u2).
        split; [rewrite <- app_assoc, <- E2; exact E|]. rewrite existsb_app, U. cbn [orb]. destruct (existsb broken u2); [exact R|].
        assert (B : blen x <= blen f - p) by (rewrite X, slice_len; lia).
        destruct (N.eqb_spec (n - blen x) 0) as [Zn|Zn].
        -- destruct R as [-> S']. destruct (N.leb_spec (p + n) (blen f)) as [L|L]; [|lia]. assert (En : n = blen x) by lia. rewrite En. rewrite <- X. auto.
        -- replace (p + blen x + (n - blen x)) with (p + n) in R by lia. destruct (N.leb_spec (p + n) (blen f)) as [L|L]; [|exact R].
           destruct R as [-> S']. split; [|exact S']. rewrite <- app_assoc. do 3 f_equal. rewrite X at 1. rewrite <- slice_split by exact Ln. reflexivity.
    + destruct H as [-> ->]. specialize (IH ev1 b p n got Lf S). unfold effort_left in *. rewrite blen_cons in K. specialize (IH ltac:(lia)).
      destruct (br_loop k cap f ev1 b n got) as [[r' ev'] b']. destruct IH as (u2 & E2 & R). exists (Again :: u2). split; [cbn [app]; congruence|].
      cbn [existsb broken orb]. destruct (N.eqb_spec n 0); [lia|]. exact R.
    + destruct H as (c & ->). exists [Broken c]. split; reflexivity.
Qed.
Lemma br_exact_spec : forall cap f ev b p n, blen f < two63 -> stands f b p ->
  let '(r, ev', b') := br_read_exact cap f ev b n in
  exists used, ev = used ++ ev' /\
    if existsb broken used then r = DeviceError
    else match read_exact n f p with
         | Ok (x, q) => r = Done (Ok x) /\ stands f b' q
         | Err e => r = Done (Err e)
         | _ => False
         end.
Proof.
  intros cap f ev b p n Lf S. unfold br_read_exact.
  assert (K : effort_left f ev b < N.of_nat (br_enough f ev b)) by (unfold effort_left, br_enough, blen in *; lia).
  pose proof (br_loop_spec cap f (br_enough f ev b) ev b p n [] Lf S K) as H. destruct (br_loop _ cap f ev b n []) as [[r ev'] b'].
  destruct H as (u & E & R). exists u. split; [exact E|]. destruct (existsb broken u); [exact R|]. unfold read_exact.
  destruct (n =? 0); [exact R|]. destruct (p + n <=? blen f); exact R.
Qed.

Lemma dev_seek_used : forall ev, exists used, ev = used ++ fst (dev_seek ev) /\ snd (dev_seek ev) = negb (existsb broken used).
Proof. intros [|e ev]; [exists []; split; reflexivity|]. exists [e]. destruct e; split; reflexivity. Qed.
Lemma br_seek_spec : forall f ev b p d, blen f < two63 -> stands f b p ->
  let '(r, ev') := br_seek_cur ev b d in
  exists used, ev = used ++ ev' /\
    if existsb broken used then r = DeviceError
    else r = Done (if ((0 <=? Z.of_N p + d) && (Z.of_N p + d <? Z.of_N two63))%Z then Ok (Z.to_N (Z.of_N p + d)) else Err EIoSeek).
Proof.
  intros f ev b p d Lf (S1 & S2 & S3). unfold br_seek_cur. destruct (Z.leb_spec (- Z.of_N two63) (d - Z.of_N (blen (br_buf b)))) as [C|C].
  - unfold sys_seek_cur. destruct (dev_seek_used ev) as (u & E & U). destruct (dev_seek ev) as [ev' ok]. cbn [fst snd] in *.
    replace (Z.of_N (br_pos b) + (d - Z.of_N (blen (br_buf b))))%Z with (Z.of_N p + d)%Z by lia.
    destruct ok; exists u; (split; [exact E|]); destruct (existsb broken u); try discriminate; reflexivity.
  - unfold sys_seek_cur. destruct (dev_seek_used ev) as (u & E & U). destruct (dev_seek ev) as [ev1 ok]. cbn [fst snd] in *.
    destruct ok; [|exists u; split; [exact E|]; destruct (existsb broken u); [reflexivity|discriminate]].
    assert (X : ((0 <=? Z.of_N (br_pos b) + - Z.of_N (blen (br_buf b))) && (Z.of_N (br_pos b) + - Z.of_N (blen (br_buf b)) <? Z.of_N two63))%Z = true) by (apply andb_true_iff; lia).
    rewrite X. destruct (dev_seek_used ev1) as (u1 & E1 & U1). destruct (dev_seek ev1) as [ev' ok']. cbn [fst snd] in *.
    replace (Z.of_N (Z.to_N (Z.of_N (br_pos b) + - Z.of_N (blen (br_buf b)))) + d)%Z with (Z.of_N p + d)%Z by lia.
    destruct ok'; exists (u ++ u1); (split; [rewrite <- app_assoc, <- E1; exact E|]); rewrite existsb_app; destruct (existsb broken u), (existsb broken u1); try discriminate; reflexivity.
Qed.

(** Every operation. *)
Lemma br_op_spec : forall cap o f ev b p, blen f < two63 -> stands f b p ->
  let '(r, ev', b') := br_op cap o ev f b in
  exists used, ev = used ++ ev' /\
    if existsb broken used then r = DeviceError
    else match perform o f p with
         | Ok (a, q) => r = Done (Ok a) /\ stands f b' q
         | Err e => r = Done (Err e)
         | Panic x => r = Done (Panic x)
         | Fuel => False
         end.
Proof.
  intros cap o f ev b p Lf S. pose proof S as (S1 & S2 & S3). destruct o as [n|n| |d|q|]; cbn [br_op perform].
  - pose proof (br_exact_spec cap f ev b p n Lf S) as H. destruct (br_read_exact cap f ev b n) as [[r ev'] b']. destruct H as (u & E & R).
    destruct (existsb broken u) eqn:U.
    + rewrite R. exists u. split; [exact E|]. rewrite U. reflexivity.
    + destruct (read_exact n f p) as [[x q]|e|x|]; try contradiction; [destruct R as [-> S']|rewrite R]; exists u; (split; [exact E|]); rewrite U; auto.
  - destruct (two63 <=? n) eqn:C.
    + exists []. split; reflexivity.
    + pose proof (br_exact_spec cap f ev b p n Lf S) as H. destruct (br_read_exact cap f ev b n) as [[r ev'] b']. destruct H as (u & E & R).
      destruct (existsb broken u) eqn:U.
      * rewrite R. exists u. split; [exact E|]. rewrite U. reflexivity.
      * destruct (read_exact n f p) as [[x q]|e|x|]; try contradiction; [destruct R as [-> S']|rewrite R]; exists u; (split; [exact E|]); rewrite U; auto.
  - pose proof (br_seek_spec f ev b p 0 Lf S) as H. destruct (br_seek_cur ev b 0) as [r ev']. destruct H as (u & E & R). unfold position.
    assert (X : ((0 <=? Z.of_N p + 0) && (Z.of_N p + 0 <? Z.of_N two63))%Z = true) by (apply andb_true_iff; lia). rewrite X in R.
    replace (Z.to_N (Z.of_N p + 0)) with p in R by lia.
    destruct (existsb broken u) eqn:U; rewrite R; exists u; (split; [exact E|]); rewrite U; [reflexivity|]. split; [reflexivity|]. apply stands_empty. lia.
  - pose proof (br_seek_spec f ev b p d Lf S) as H. destruct (br_seek_cur ev b d) as [r ev']. destruct H as (u & E & R). unfold seek_cur. cbv zeta.
    destruct (existsb broken u) eqn:U; [rewrite R; exists u; split; [exact E|]; rewrite U; reflexivity|].
    destruct ((0 <=? Z.of_N p + d) && (Z.of_N p + d <? Z.of_N two63))%Z eqn:X; rewrite R; exists u; (split; [exact E|]); rewrite U; [|reflexivity].
    split; [reflexivity|]. apply stands_empty. apply andb_true_iff in X. lia.
  - unfold sys_seek, seek_start. destruct (dev_seek_used ev) as (u & E & U). destruct (dev_seek ev) as [ev' ok]. cbn [fst snd] in *.
    destruct ok; [|exists u; split; [exact E|]; destruct (existsb broken u); [reflexivity|discriminate]].
    destruct (q <? two63) eqn:X; exists u; (split; [exact E|]); destruct (existsb broken u); try discriminate; [|reflexivity]. split; [reflexivity|]. apply stands_empty. lia.
  - unfold sys_seek, seek_end. destruct (dev_seek_used ev) as (u & E & U). destruct (dev_seek ev) as [ev' ok]. cbn [fst snd] in *.
    destruct ok; [|exists u; split; [exact E|]; destruct (existsb broken u); [reflexivity|discriminate]].
    exists u; (split; [exact E|]); destruct (existsb broken u); try discriminate. split; [reflexivity|]. apply stands_empty, Lf.
Qed.

(** Every program. *)
Theorem buf_run3_used : forall {A} cap (x : IO A) ev f b p, blen f < two63 -> stands f b p ->
  let '(r, ev', b') := buf_run3 cap x ev f b in
  exists used, ev = used ++ ev' /\
    if existsb broken used then r = DeviceError
    else r = Done (plain (run x f p)) /\ match run x f p with Ok (_, q) => stands f b' q | _ => True end.
Proof.
  intros A cap x. induction x as [r|o k IH]; intros ev f b p Lf S; cbn [buf_run3 run].
  - exists []. split; [reflexivity|]. cbn [existsb]. destruct r; split; try reflexivity; try exact I. exact S.
  - pose proof (br_op_spec cap o f ev b p Lf S) as H. destruct (br_op cap o ev f b) as [[r ev'] b']. destruct H as (u & E & R).
    destruct (existsb broken u) eqn:U; [rewrite R; exists u; split; [exact E|]; rewrite U; reflexivity|].
    destruct (perform o f p) as [[a q]|e|y|]; try contradiction.
    + destruct R as [-> S']. specialize (IH a ev' f b' q Lf S'). destruct (buf_run3 cap (k a) ev' f b') as [[r2 ev2] b2]. destruct IH as (u2 & E2 & R2).
      exists (u ++ u2). split; [rewrite <- app_assoc, <- E2; exact E|].
      rewrite existsb_app, U. exact R2.
    + rewrite R. exists u. split; [exact E|]. rewrite U. split; [reflexivity|exact I].
    + rewrite R. exists u. split; [exact E|]. rewrite U. split; [reflexivity|exact I].
Qed.
Theorem buf_run_used : forall {A} cap (x : IO A) ev f b p, blen f < two63 -> stands f b p ->
  exists used, ev = used ++ snd (buf_run cap x ev f b) /\
    fst (buf_run cap x ev f b) = if existsb broken used then DeviceError else Done (plain (run x f p)).
Proof.
  intros A cap x ev f b p Lf S. pose proof (buf_run3_used cap x ev f b p Lf S) as H. unfold buf_run.
  destruct (buf_run3 cap x ev f b) as [[r ev'] b']. destruct H as (u & E & R). exists u. split; [exact E|]. cbn [fst]. destruct (existsb broken u); tauto.
Qed.

(** [read_to_end] delivers the rest of the file. *)
Lemma to_end_spec : forall f last, blen f < two63 -> last <> 0 -> forall k sizes ev q got, Forall (fun n => n <> 0) sizes -> blen ev + (blen f - q) < N.of_nat k ->
  exists used, ev = used ++ snd (br_to_end k sizes last f ev q got) /\
    fst (br_to_end k sizes last f ev q got) = if existsb broken used then DeviceError else Done (Ok (got ++ skipn (N.to_nat q) f)).
Proof.
  intros f last Lf L0. induction k as [|k IH]; intros sizes ev q got F K; [lia|]. cbn [br_to_end].
  assert (X : exists n r, (match sizes with [] => (last, []) | n :: r => (n, r) end) = (n, r) /\ n <> 0 /\ Forall (fun n => n <> 0) r).
  { destruct F as [|n r N0 F]; [exists last, []|exists n, r]; repeat split; auto. }
  destruct X as (n & r & -> & N0 & F'). pose proof (sys_read_spec ev f q n N0) as H. destruct (sys_read ev f q n) as [[x| |] ev1].
  - destruct H as (u & E & U & Le & Xs & Ln & Z). destruct x as [|y w].
    + exists u. split; [exact E|]. rewrite U. cbn [fst]. rewrite skipn_all2 by (specialize (Z eq_refl); unfold blen in Z; lia). now rewrite app_nil_r.
    + set (x := y :: w) in *. assert (X0 : blen x <> 0) by (unfold x; rewrite blen_cons; lia). clearbody x.
      assert (B : blen x <= blen f - q) by (rewrite Xs, slice_len; lia).
      destruct (IH r ev1 (q + blen x) (got ++ x) F' ltac:(lia)) as (u2 & E2 & R). exists (u ++ u2). split; [rewrite <- app_assoc, <- E2; exact E|].
      rewrite existsb_app, U, R. cbn [orb]. destruct (existsb broken u2); [reflexivity|]. rewrite <- app_assoc. do 3 f_equal.
      rewrite (slice_skipn f q (blen x)) by lia. rewrite <- Xs. reflexivity.
  - subst ev. rewrite blen_cons in K. destruct (IH r ev1 q got F' ltac:(lia)) as (u2 & E2 & R). exists (Again :: u2). split; [cbn [app]; congruence|exact R].
  - destruct H as (c & ->). exists [Broken c]. split; reflexivity.
Qed.
Theorem read_to_end_used : forall f b p sizes last ev, blen f < two63 -> stands f b p -> last <> 0 -> Forall (fun n => n <> 0) sizes ->
  exists used, ev = used ++ snd (br_read_to_end sizes last f ev b) /\
    fst (br_read_to_end sizes last f ev b) = if existsb broken used then DeviceError else Done (Ok (skipn (N.to_nat p) f)).
Proof.
  intros f b p sizes last ev Lf (S1 & S2 & S3) L0 F. unfold br_read_to_end.
  destruct (to_end_spec f last Lf L0 (br_enough f ev b) sizes ev (br_pos b) (br_buf b) F) as (u & E & R); [unfold br_enough, blen; lia|].
  exists u. split; [exact E|]. rewrite R. destruct (existsb broken u); [reflexivity|]. do 2 f_equal.
  destruct (N.eq_dec (blen (br_buf b)) 0) as [Z|Z].
  - destruct (br_buf b); [|rewrite blen_cons in Z; lia]. change (blen []) with 0 in S1. cbn [app]. do 2 f_equal. lia.
  - assert (B : blen (br_buf b) <= blen f - p) by (rewrite S2 at 1; rewrite slice_len; lia).
    rewrite (slice_skipn f p (blen (br_buf b))) by lia. rewrite <- S2. do 3 f_equal. lia.
Qed.

(** The programs for chunk offset tables. *)
Lemma many_is : forall x r, (forall f p, run x f p = r f p) -> forall k f p, run (io_read_many k x) f p = read_many k r f p.
Proof.
  intros x r H. induction k as [|k IH]; intros f p; [reflexivity|]. cbn [io_read_many read_many]. rewrite run_bind, H. unfold bind at 1.
  destruct (r f p) as [[a q]|e|y|]; try reflexivity. rewrite run_bind, IH. unfold bind. destruct (read_many k r f q) as [[l q']|e|y|]; reflexivity.
Qed.
Lemma table_is : forall w x r, (forall f p, run x f p = r f p) -> forall m s f p, run (io_table_parse w x m s) f p = table_parse w r m s f p.
Proof.
  intros w x r H m s f p. unfold io_table_parse, table_parse. rewrite run_bind, (is_full f p). unfold bind at 1.
  destruct (parse_full_head f p) as [[vf q]|e|y|]; try reflexivity. destruct (fst vf); [|reflexivity].
  rewrite run_bind, (is_u32 f q). unfold bind at 1. destruct (read_u32 f q) as [[n q1]|e|y|]; try reflexivity.
  rewrite run_bind. unfold bind at 1. destruct (content_len m s) as [c|e|y|]; try reflexivity. cbn [io_lift run lift].
  destruct (negb _); [reflexivity|]. rewrite run_bind. unfold bind at 1. cbn [io_position run perform position get_pos].
  rewrite run_bind, (many_is x r H). unfold bind. destruct (read_many (N.to_nat n) r f q1) as [[l q2]|e|y|]; reflexivity.
Qed.
Lemma table_at_is : forall wide m s q f p, plain (run (io_table_at wide m s q) f p) =
  if q <? two63 then plain ((if wide then co64_parse m s else stco_parse m s) f q) else Err EIoSeek.
Proof.
  intros wide m s q f p. unfold io_table_at. rewrite run_bind. cbn [io_seek_start run perform]. unfold seek_start. destruct (q <? two63); [|reflexivity].
  f_equal. destruct wide; apply table_is; intros; [apply is_u64|apply is_u32].
Qed.
