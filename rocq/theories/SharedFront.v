(** Others that edit what is in front of the movie while the writer writes: proofs for C97.
    The run with the others is the one without them on the file in which everything has been edited already. *)

From Coq Require Import List NArith ZArith Bool Lia Arith String.
From Coq Require Import ZifyBool ZifyNat ZifyN.
From Verif Require Import Base BaseLemmas Utf UtfLemmas Types Stream Parse Find Write Fault ReadIO IoProofs BufRead Interfere InterfereProofs InterfereFront SharedBufProofs.
From Verif Require ReaderProofs BufProofs IoCost IoDevice.
Import ListNotations.
Local Open Scope list_scope.

(** [g] does [h] to the first [k] bytes and nothing else. *)
Definition edits (k : N) (g h : bytes -> bytes) : Prop := forall a r, blen a = k -> blen (h a) = k /\ g (a ++ r) = h a ++ r.

Section Both.
  Variables (k : N) (Z : bytes).
  Hypothesis LZ : blen Z = k.

  Definition alike (A : bytes) (v w : wst) : Prop :=
    (exists R, w_file v = A ++ R /\ w_file w = Z ++ R) /\ w_cur v = w_cur w /\ w_buf v = w_buf w /\ (w_buf w = [] \/ k <= w_cur w).
  Definition two (s : xst) (w : wst) : Prop :=
    exists A hs, blen A = k /\ Forall2 (edits k) (x_others s) hs /\ fold_left (fun x h => h x) hs A = Z /\ alike A (x_w s) w.
  Definition any : wst -> Prop := fun _ => True.
  Definition beyond (w : wst) : Prop := k <= w_cur w.
  Definition both {A} (P : wst -> Prop) (c : X A) (d : W A) (Q : wst -> Prop) (R : A -> Prop) : Prop :=
    forall s w, two s w -> P w -> fst (c s) = fst (d w) /\ two (snd (c s)) (snd (d w)) /\ match fst (d w) with Ok a => Q (snd (d w)) /\ R a | _ => True end.
  Definition blind {A} (P : wst -> Prop) (op : W A) (Q : wst -> Prop) (R : A -> Prop) : Prop :=
    forall B v w, blen B = k -> alike B v w -> P w ->
      fst (op v) = fst (op w) /\ alike B (snd (op v)) (snd (op w)) /\ match fst (op w) with Ok a => Q (snd (op w)) /\ R a | _ => True end.

  Lemma turn_two : forall s w, two s w -> two (x_turn s) w.
  Proof.
    intros [v o] w (A & hs & LA & F & E & Al). unfold x_turn. cbn [x_others x_w] in *. destruct F as [|g h o hs G F]; [exists A, []; split; [exact LA|]; split; [apply Forall2_nil|]; split; [exact E|exact Al]|].
    destruct Al as ((R & E1 & E2) & Al). destruct (G A R LA) as [L1 G1]. exists (h A), hs. split; [exact L1|]. split; [exact F|]. split; [exact E|].
    split; [|exact Al]. exists R. cbn [x_w with_file w_file]. rewrite E1. split; [exact G1|exact E2].
  Qed.
  Lemma both_run : forall {A} P (op : W A) Q R, blind P op Q R -> both P (x_run op) op Q R.
  Proof.
    intros A P op Q R H s w (B & hs & LB & F & E & Al) Pw. destruct (H B (x_w s) w LB Al Pw) as (H1 & H2 & H3). unfold x_run. destruct (op (x_w s)) as [r v]. cbn [fst snd] in *.
    split; [exact H1|]. split; [|exact H3]. exists B, hs. auto.
  Qed.
  Lemma both_call : forall {A} P (op : W A) Q R, blind P op Q R -> both P (x_call op) op Q R.
  Proof. intros A P op Q R H s w T Pw. unfold x_call. exact (both_run P op Q R H (x_turn s) w (turn_two s w T) Pw). Qed.
  Lemma both_ret : forall {A} P (a : A) (R : A -> Prop), R a -> both P (xret A a) (wret a) P R.
  Proof. intros A P a R H s w T Pw. cbn. auto. Qed.
  Lemma both_lift : forall {A} P (r : res A), both P (xlift A r) (wlift r) P (fun a => r = Ok a).
  Proof. intros A P r s w T Pw. cbn. destruct r; auto. Qed.
  Lemma both_bind : forall {A B} P Q S (R : A -> Prop) (R' : B -> Prop) (c : X A) d (e : A -> X B) g,
    both P c d Q R -> (forall a, R a -> both Q (e a) (g a) S R') -> both P (xbind A B c e) (wbind d g) S R'.
  Proof.
    intros A B P Q S R R' c d e g H K s w T Pw. destruct (H s w T Pw) as (H1 & H2 & H3). unfold xbind, wbind. destruct (c s) as [r s1], (d w) as [r' w1]. cbn [fst snd] in *. subst r'.
    destruct r as [a|x|x|]; cbn [fst snd]; auto. destruct H3 as [H3 H4]. exact (K a H4 s1 w1 H2 H3).
  Qed.
  Lemma both_weak : forall {A} (P P' Q Q' : wst -> Prop) (R R' : A -> Prop) c d, both P c d Q R -> (forall w, P' w -> P w) -> (forall w, Q w -> Q' w) -> (forall a, R a -> R' a) -> both P' c d Q' R'.
  Proof. intros A P P' Q Q' R R' c d H A1 A2 A3 s w T Pw. destruct (H s w T (A1 w Pw)) as (H1 & H2 & H3). split; [exact H1|]. split; [exact H2|]. destruct (fst (d w)); auto. destruct H3. auto. Qed.

  (** * The operations *)
  Lemma write_both : forall A R p d, blen A = k -> k <= p -> exists S, write_at (A ++ R) p d = A ++ S /\ write_at (Z ++ R) p d = Z ++ S.
  Proof.
    intros A R p d LA Lp. unfold write_at. assert (X : forall F, blen F = k -> firstn (N.to_nat p) ((F ++ R) ++ zeros (p - blen (F ++ R))) ++ d ++ skipn (N.to_nat (p + blen d)) (F ++ R) =
      F ++ firstn (N.to_nat p - N.to_nat k) (R ++ zeros (p - (k + blen R))) ++ d ++ skipn (N.to_nat (p + blen d) - N.to_nat k) R).
    { intros F LF. rewrite <- app_assoc, firstn_app, firstn_all2 by (unfold blen in LF; lia). rewrite <- app_assoc. f_equal. rewrite blen_app, LF.
      replace (List.length F) with (N.to_nat k) by (unfold blen in LF; lia). f_equal. f_equal. rewrite skipn_app, skipn_all2 by (unfold blen in LF; lia).
      replace (List.length F) with (N.to_nat k) by (unfold blen in LF; lia). reflexivity. }
    eexists. split; [exact (X A LA)|exact (X Z LZ)].
  Qed.
  Lemma length_both : forall A R n, blen A = k -> k <= n -> exists S, set_length (A ++ R) n = A ++ S /\ set_length (Z ++ R) n = Z ++ S.
  Proof.
    intros A R n LA Ln. unfold set_length. assert (X : forall F, blen F = k -> firstn (N.to_nat n) (F ++ R) ++ zeros (n - blen (F ++ R)) = F ++ firstn (N.to_nat n - N.to_nat k) R ++ zeros (n - (k + blen R))).
    { intros F LF. rewrite firstn_app, firstn_all2 by (unfold blen in LF; lia). rewrite <- app_assoc, blen_app, LF. replace (List.length F) with (N.to_nat k) by (unfold blen in LF; lia). reflexivity. }
    eexists. split; [exact (X A LA)|exact (X Z LZ)].
  Qed.
  Lemma blind_os : forall d, blind beyond (os_write d) beyond (fun _ => True).
  Proof.
    intros d B v w LB ((R & E1 & E2) & Ec & Eb & Ob) Pw. unfold beyond in *. unfold os_write. destruct d as [|c d]; cbn [fst snd]; [repeat split; auto; exists R; auto|].
    split; [reflexivity|]. destruct (write_both B R (w_cur w) (c :: d) LB Pw) as (S & S1 & S2). split; [|split; [cbn; lia|exact I]].
    split; [exists S; cbn [w_file]; rewrite E1, E2, Ec; auto|]. cbn [w_cur w_buf]. rewrite Ec. split; [reflexivity|]. split; [exact Eb|]. right. lia.
  Qed.
  Lemma blind_flush : blind any bw_flush (fun w => w_buf w = []) (fun _ => True) /\ blind beyond bw_flush (fun w => w_buf w = [] /\ beyond w) (fun _ => True).
  Proof.
    assert (K : forall B v w, blen B = k -> alike B v w -> fst (bw_flush v) = Ok tt /\ fst (bw_flush w) = Ok tt /\ alike B (snd (bw_flush v)) (snd (bw_flush w)) /\ w_buf (snd (bw_flush w)) = [] /\ w_cur w <= w_cur (snd (bw_flush w))).
    { intros B v w LB Al. pose proof Al as ((R & E1 & E2) & Ec & Eb & Ob). unfold bw_flush. rewrite Eb. destruct (w_buf w) as [|c d] eqn:Bw.
      - cbn. repeat split; auto; [exists R; auto|lia].
      - destruct Ob as [Ob|Ob]; [discriminate|]. destruct (blind_os (c :: d) B v w LB Al Ob) as (H1 & H2 & H3 & _). destruct (os_write (c :: d) v) as [r v1] eqn:Ev, (os_write (c :: d) w) as [r' w1] eqn:Ew.
        cbn [fst snd] in *. unfold os_write in Ev, Ew. injection Ev as <- <-. injection Ew as <- <-. destruct H2 as (H4 & H5 & _). cbn [fst snd w_file w_cur w_buf] in *. repeat split; auto. lia. }
    split; intros B v w LB Al Pw; destruct (K B v w LB Al) as (K1 & K2 & K3 & K4 & K5); rewrite K1, K2; (split; [reflexivity|]; split; [exact K3|]); auto. unfold beyond in *. split; [|exact I]. split; [exact K4|lia].
  Qed.
  Lemma both_flush : both any x_flush bw_flush (fun w => w_buf w = []) (fun _ => True) /\ both beyond x_flush bw_flush (fun w => w_buf w = [] /\ beyond w) (fun _ => True).
  Proof.
    assert (K : forall P Q, blind P bw_flush Q (fun _ => True) -> both P x_flush bw_flush Q (fun _ => True)).
    { intros P Q H s w T Pw. unfold x_flush. destruct (w_buf (x_w s)); [apply (both_run _ _ _ _ H); auto|apply (both_call _ _ _ _ H); auto]. }
    split; apply K, blind_flush.
  Qed.
  Lemma two_buf : forall s w, two s w -> w_buf (x_w s) = w_buf w.
  Proof. intros s w (A & hs & _ & _ & _ & (_ & _ & E & _)). exact E. Qed.
  Lemma both_write : forall cap d, both beyond (x_write cap d) (bw_write cap d) beyond (fun _ => True).
  Proof.
    intros cap d s w T Pw. unfold x_write, bw_write. rewrite (two_buf s w T).
    assert (X : exists s1 w1, (if cap <? blen (w_buf w) + blen d then snd (x_flush s) else s) = s1 /\ (if cap <? blen (w_buf w) + blen d then snd (bw_flush w) else w) = w1 /\ two s1 w1 /\ beyond w1).
    { destruct (_ <? _); [|exists s, w; auto]. destruct (proj2 both_flush s w T Pw) as (H1 & H2 & H3). do 2 eexists. split; [reflexivity|]. split; [reflexivity|]. split; [exact H2|].
      rewrite (proj1 (flush_empties w)) in H3. apply H3. }
    destruct X as (s1 & w1 & -> & -> & T1 & P1). cbv zeta. destruct (cap <=? blen d).
    - apply (both_call _ _ _ _ (blind_os d)); auto.
    - cbn [fst snd]. split; [reflexivity|]. destruct T1 as (A & hs & LA & F & E & ((R & E1 & E2) & Ec & Eb & Ob)). split; [|split; [exact P1|exact I]].
      exists A, hs. split; [exact LA|]. split; [exact F|]. split; [exact E|]. split; [exists R; auto|]. cbn [x_w w_cur w_buf]. rewrite Eb. repeat split; auto.
  Qed.
  Lemma both_then : forall P Q (go : W unit), blind (fun w => w_buf w = [] /\ P w) go Q (fun _ => True) -> (both P x_flush bw_flush (fun w => w_buf w = [] /\ P w) (fun _ => True)) ->
    both P (xbind _ _ x_flush (fun _ => x_run (wbind bw_flush (fun _ => go)))) (wbind bw_flush (fun _ => go)) Q (fun _ => True).
  Proof.
    intros P Q go H K s w T Pw. destruct (K s w T Pw) as (H1 & H2 & H3). destruct (flush_empties w) as [F1 F2].
    assert (Ew : wbind bw_flush (fun _ => go) w = go (snd (bw_flush w))) by (clear - F1; unfold wbind; destruct (bw_flush w) as [r w1]; cbn [fst snd] in *; subst r; reflexivity).
    rewrite Ew. rewrite F1 in H1, H3. destruct H3 as [H3 _]. unfold xbind. destruct (x_flush s) as [r s1]. cbn [fst snd] in *. subst r.
    pose proof (both_run _ _ _ _ H s1 _ H2 H3) as R. unfold x_run in *. pose proof (two_buf s1 _ H2) as Eb. rewrite F2 in Eb. unfold wbind. rewrite (flush_nil _ Eb). exact R.
  Qed.
  Lemma both_seek : forall q, k <= q -> both any (x_seek q) (bw_seek_start q) beyond (fun _ => True).
  Proof.
    intros q Lq. unfold x_seek, bw_seek_start. apply both_then.
    - intros B v w LB ((R & E1 & E2) & Ec & Eb & Ob) [Pw _]. destruct (q <? two63); cbn [fst snd]; (split; [reflexivity|]).
      + split; [|split; [exact Lq|exact I]]. split; [exists R; auto|]. cbn [w_cur w_buf]. split; [reflexivity|]. split; [exact Eb|]. left. exact Pw.
      + split; [|exact I]. split; [exists R; auto|]. auto.
    - eapply both_weak; [exact (proj1 both_flush)|auto| |auto]. intros w Hw. split; [exact Hw|exact I].
  Qed.
  Lemma both_seek_cur : forall d, (0 <= d)%Z -> both beyond (x_seek_cur d) (bw_seek_cur d) beyond (fun _ => True).
  Proof.
    intros d Ld. unfold x_seek_cur, bw_seek_cur. apply both_then; [|exact (proj2 both_flush)].
    intros B v w LB ((R & E1 & E2) & Ec & Eb & Ob) [Pw Bw]. unfold beyond in *. cbv zeta. rewrite Ec. destruct (_ && _)%bool; cbn [fst snd]; (split; [reflexivity|]).
    - split; [|cbn [w_cur]; split; [lia|exact I]]. split; [exists R; auto|]. cbn [w_cur w_buf]. split; [reflexivity|]. split; [exact Eb|]. left. exact Pw.
    - split; [|exact I]. split; [exists R; auto|]. auto.
  Qed.
  Lemma both_set_len : forall n, k <= n -> both any (x_set_len n) (file_set_len n) any (fun _ => True).
  Proof.
    intros n Ln. apply both_call. intros B v w LB ((R & E1 & E2) & Ec & Eb & Ob) _. unfold file_set_len. destruct (n <? two63); cbn [fst snd]; (split; [reflexivity|]); (split; [|unfold any; auto]).
    - destruct (length_both B R n LB Ln) as (S & S1 & S2). split; [exists S; cbn [w_file]; rewrite E1, E2; auto|]. auto.
    - split; [exists R; auto|]. auto.
  Qed.

  (** Reading behind the first [k] bytes. *)
  Fixpoint reads {A} (x : IO A) : Prop := match x with Stop _ => True | Ask (ORead _) c => forall a, reads (c a) | Ask OPosition c => forall a, reads (c a) | Ask _ _ => False end.
  Lemma reads_bind : forall {A B} (x : IO A) (c : A -> IO B), reads x -> (forall a, reads (c a)) -> reads (io_bind x c).
  Proof. intros A B x c. induction x as [[a|e|q|]|o d IH]; intros H K; cbn [io_bind reads] in *; auto. destruct o; try contradiction; intro a; apply IH; auto. Qed.
  Lemma reads_run : forall {A} (x : IO A) B R p, blen B = k -> k <= p -> reads x -> run x (B ++ R) p = run x (Z ++ R) p.
  Proof.
    intros A x. induction x as [[a|e|q|]|o c IH]; intros B R p LB Lp H; cbn [run reads] in *; try reflexivity. destruct o as [n|n| |d|y|]; try contradiction; cbn [perform].
    - assert (X : forall F, blen F = k -> slice (F ++ R) p n = slice R (p - k) n).
      { intros F LF. unfold slice. rewrite skipn_app, skipn_all2 by (unfold blen in LF; lia). replace (N.to_nat p - List.length F)%nat with (N.to_nat (p - k)) by (unfold blen in LF; lia). reflexivity. }
      unfold read_exact. rewrite !blen_app, LB, LZ, (X B LB), (X Z LZ). destruct (n =? 0); [apply IH; auto|]. destruct (p + n <=? k + blen R); [|reflexivity]. apply IH; auto. lia.
    - apply IH; auto.
  Qed.
  Lemma reads_table : forall w rd m sz, reads rd -> reads (io_table_parse w rd m sz).
  Proof.
    intros w rd m sz H. unfold io_table_parse. apply reads_bind; [cbn; auto|]. intro vf. destruct (fst vf); [|exact I]. apply reads_bind; [cbn; auto|]. intro e. apply reads_bind; [exact I|]. intro c.
    destruct (negb _); [exact I|]. apply reads_bind; [cbn; auto|]. intro tp. apply reads_bind; [|intro; exact I]. generalize (N.to_nat e). induction n as [|n IH]; [exact I|].
    cbn [io_read_many]. apply reads_bind; [exact H|]. intro a. apply reads_bind; [exact IH|intro; exact I].
  Qed.
  Lemma both_table : forall m wide sz q, k <= q -> both any (x_table m wide sz q) (w_table m wide sz q) any (fun t => k <= fst t).
  Proof.
    intros m wide sz q Lq. apply both_call. intros B v w LB Al _. pose proof Al as ((R & E1 & E2) & Ec & Eb & Ob). unfold w_table, w_read.
    destruct (q <? two63) eqn:Q63; [|cbn [fst snd]; auto].
    assert (Eq : IoDevice.plain ((if wide then co64_parse m sz else stco_parse m sz) (w_file v) q) = IoDevice.plain ((if wide then co64_parse m sz else stco_parse m sz) (w_file w) q)).
    { pose proof (BufProofs.table_at_is wide m sz q (w_file v) q) as T1. pose proof (BufProofs.table_at_is wide m sz q (w_file w) q) as T2. rewrite Q63 in T1, T2. rewrite <- T1, <- T2. f_equal.
      unfold io_table_at. rewrite !ReaderProofs.run_bind. cbn [io_seek_start run perform]. unfold seek_start. rewrite Q63, E1, E2. destruct wide; apply reads_run; auto; apply reads_table; cbn; auto. }
    assert (Tp : forall t q', (if wide then co64_parse m sz else stco_parse m sz) (w_file w) q = Ok (t, q') -> q <= fst t) by (intros t q' X0; destruct wide; eapply (table_parse_pos Z); exact X0).
    destruct ((if wide then co64_parse m sz else stco_parse m sz) (w_file v) q) as [[t q1]|e1|p1|], ((if wide then co64_parse m sz else stco_parse m sz) (w_file w) q) as [[t' q2]|e2|p2|];
      cbn in Eq; try discriminate; cbn [fst snd]; try (injection Eq as <-); auto. split; [reflexivity|]. split; [exact Al|]. unfold any. split; [exact I|]. specialize (Tp t q2 eq_refl). lia.
  Qed.

  Lemma both_execute : forall cap m p, safe_plan Z m p -> both any (x_execute cap m p) (w_execute cap m p) any (fun _ => True).
  Proof.
    intros cap m p Sp. destruct Sp as (St & Su & S1 & S2 & S3). rewrite LZ in *.
    assert (W1 : forall {A} (c : X A) d R P, both P c d beyond R -> both P c d any R) by (intros; eapply both_weak; eauto; unfold any; auto).
    assert (W0 : forall {A} (c : X A) d R Q, both any c d Q R -> both beyond c d Q R) by (intros; eapply both_weak; eauto; unfold any; auto).
    assert (CH : forall l, both beyond (g_chunks X xret xbind (x_write cap) l) (g_chunks W (@wret) (@wbind) (bw_write cap) l) beyond (fun _ => True)).
    { induction l as [|d l IH]; [apply both_ret; exact I|]. eapply both_bind; [apply both_write|intros ? ?; exact IH]. }
    assert (OF : forall wide diff l, both beyond (g_offsets X xret xbind xlift (x_write cap) m wide diff l) (g_offsets W (@wret) (@wbind) (@wlift) (bw_write cap) m wide diff l) beyond (fun _ => True)).
    { intros wide diff. induction l as [|co l IH]; [apply both_ret; exact I|]. eapply both_bind; [apply both_lift|]. intros v _. eapply both_bind; [apply both_write|intros ? ?; exact IH]. }
    assert (TA : forall wide diff b, safe_bounds Z m b -> both any (g_table X xret xbind xlift (x_write cap) x_seek x_flush x_table m wide diff b)
       (g_table W (@wret) (@wbind) (@wlift) (bw_write cap) bw_seek_start bw_flush w_table m wide diff b) any (fun _ => True)).
    { intros wide diff b Sb. eapply both_bind; [apply both_lift|]. intros cp Ec. pose proof (Sb cp Ec) as Lc. rewrite LZ in Lc. eapply both_bind; [apply both_table, Lc|]. intros t Ht.
      eapply both_bind; [apply both_seek, Ht|]. intros ? ?. eapply both_bind; [apply OF|]. intros ? ?. eapply both_weak; [apply (proj2 both_flush)|auto| |auto]. unfold any. auto. }
    assert (TR : forall diff l, Forall (fun t => forall sb, trak_stbl t = Some sb -> safe_stbl Z m sb) l ->
      both any (g_traks X xret xbind xlift (x_write cap) x_seek x_flush x_table m diff l) (g_traks W (@wret) (@wbind) (@wlift) (bw_write cap) bw_seek_start bw_flush w_table m diff l) any (fun _ => True)).
    { intros diff. induction l as [|t l IH]; intros H; [apply both_ret; exact I|]. inversion H as [|? ? Ht Hl]; subst. eapply both_bind; [|intros ? ?; apply IH, Hl].
      instantiate (1 := fun _ => True). destruct (trak_stbl t) as [sb|]; [|apply both_ret; exact I]. destruct (Ht sb eq_refl) as [H1 H2].
      eapply both_bind with (R := fun _ => True) (Q := any); [destruct (sb_stco sb); [apply TA, H1; reflexivity|apply both_ret; exact I]|]. intros ? ?. destruct (sb_co64 sb); [apply TA, H2; reflexivity|apply both_ret; exact I]. }
    assert (UP : forall diff l, Forall (fun b => k <= b_pos b) l -> both any (g_update_all X xret xbind xlift (x_write cap) x_seek x_seek_cur m diff l)
       (g_update_all W (@wret) (@wbind) (@wlift) (bw_write cap) bw_seek_start bw_seek_cur m diff l) any (fun _ => True)).
    { intros diff. induction l as [|b l IH]; intros H; [apply both_ret; exact I|]. inversion H as [|? ? Hb Hl]; subst. eapply both_bind; [|intros ? ?; apply IH, Hl].
      eapply both_bind; [apply both_lift|]. intros n _. apply W1. eapply both_bind; [apply both_seek, Hb|]. intros ? ?. destruct (sz_ext (b_size b)); [|apply both_write].
      eapply both_bind; [apply both_write|]. intros ? ?. eapply both_bind; [apply both_seek_cur; lia|]. intros ? ?. apply both_write. }
    unfold x_execute, w_execute, g_execute. eapply both_bind with (R := fun _ => True) (Q := any); [destruct (_ <? _); [apply TR, St|apply both_ret; exact I]|]. intros ? ?.
    eapply both_bind; [apply UP, Su|]. intros ? ?.
    eapply both_bind; [eapply both_bind; [apply both_lift|intros n En; apply both_set_len, S2, En]|]. intros ? ?.
    apply W1. eapply both_bind; [apply both_seek, S1|]. intros ? ?. eapply both_bind; [eapply both_bind; [apply CH|intros ? ?; apply both_lift]|]. intros ? ?.
    eapply both_bind; [eapply both_bind; [apply both_lift|intros q Eq; apply W0, both_seek, S3, Eq]|]. intros ? ?.
    eapply both_bind; [apply both_write|]. intros ? ?. eapply both_weak; [apply (proj2 both_flush)|auto| |auto]. intros w Hw. apply Hw.
  Qed.
End Both.

Lemma edits_len : forall k o hs a, Forall2 (edits k) o hs -> blen a = k -> blen (fold_left (fun x h => h x) hs a) = k.
Proof. intros k o hs a F. revert a. induction F as [|g h o hs G F IH]; intros a L; [exact L|]. cbn [fold_left]. apply IH. exact (proj1 (G a [] L)). Qed.
Lemma edits_rest : forall k o hs a r, Forall2 (edits k) o hs -> blen a = k -> rest o (a ++ r) = fold_left (fun x h => h x) hs a ++ r.
Proof.
  intros k o hs a r F. revert a. induction F as [|g h o hs G F IH]; intros a L; [reflexivity|]. destruct (G a r L) as [L1 E1]. unfold rest in *. cbn [fold_left]. rewrite E1. apply IH, L1.
Qed.

(** Writing with others that edit the first bytes is writing to the edited file. *)
Theorem front_late : forall k others hs cap fuel m items a r p q, Forall2 (edits k) others hs -> blen a = k ->
  prepare fuel m items (a ++ r) 0 = Ok (p, q) -> (forall F, blen F = k -> safe_plan F m p) ->
  shared_write others cap fuel m items (a ++ r) = late cap m p (fold_left (fun x h => h x) hs a ++ r).
Proof.
  intros k others hs cap fuel m items a r p q F L P Sp. set (Z := fold_left (fun x h => h x) hs a). assert (LZ : blen Z = k) by (apply (edits_len k others hs a F L)).
  unfold shared_write. rewrite P.
  assert (T0 : two k Z (Xst (Wst (a ++ r) 0 [] []) others) (Wst (Z ++ r) 0 [] [])).
  { exists a, hs. split; [exact L|]. split; [exact F|]. split; [reflexivity|]. split; [exists r; split; reflexivity|]. cbn. auto. }
  destruct (both_execute k Z LZ cap m p (Sp Z LZ) _ _ T0 I) as (E & T & _). unfold late. rewrite program_is_execute in E, T.
  destruct (x_execute cap m p (Xst (Wst (a ++ r) 0 [] []) others)) as [x s]. destruct (execute cap m p (Wst (Z ++ r) 0 [] [])) as [x' w]. cbn [fst snd] in E, T. subst x'.
  destruct (proj1 (both_flush k Z LZ) s w T I) as (_ & T2 & _). destruct (x_flush s) as [r1 s1], (bw_flush w) as [r2 w2]. cbn [snd] in T2. f_equal.
  destruct T2 as (A & hs2 & LA & F2 & E2 & ((R & E3 & E4) & _)). rewrite E3, E4, <- E2. apply (edits_rest k); assumption.
Qed.
