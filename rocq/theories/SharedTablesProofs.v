(** Others that edit what is in front of the movie while the writer works, also while it reads tables: proofs for C97. *)

From Coq Require Import List NArith ZArith Bool Lia Arith String.
From Coq Require Import ZifyBool ZifyNat ZifyN.
From Verif Require Import Base BaseLemmas Utf UtfLemmas Types Stream Parse Find Write Fault ReadIO IoProofs BufRead LookSpec LookProofs SharedRead SharedReadProofs SharedBuf SharedBufProofs FineWrite
  Interfere InterfereProofs InterfereFront SharedScan SharedScanProofs SharedFront SharedTables.
From Verif Require ReaderProofs BufProofs IoCost IoDevice FineProofs FailProofs WPanicProofs FailProofs.
Import ListNotations.
Local Open Scope list_scope.
Notation room := FineProofs.room.
Notation idle := FineProofs.idle.
Notation width := FailProofs.width.

(** * The length of the file while tables are adjusted *)
Lemma w_flush_room : forall L j w, room L j w -> room L j (snd (bw_flush w)) /\ w_buf (snd (bw_flush w)) = [].
Proof.
  intros L j [f c b o] [R1 R2]. cbn in R1, R2. unfold bw_flush, os_write. cbn [w_buf w_file w_cur]. destruct b as [|x y]; cbn [snd w_buf]; (split; [|reflexivity]); unfold FineProofs.room; cbn [w_file w_cur w_buf].
  - split; [exact R1|]. exact R2.
  - change (blen (@nil byte)) with 0. split; [rewrite FineProofs.write_at_len by lia; exact R1|lia].
Qed.
Lemma w_write_room : forall L j cap d w, room L (blen d + j) w -> room L j (snd (bw_write cap d w)).
Proof.
  intros L j cap d w R. unfold bw_write. cbv zeta. set (s1 := if cap <? blen (w_buf w) + blen d then snd (bw_flush w) else w).
  assert (S : room L (blen d + j) s1 /\ (cap <= blen d -> w_buf s1 = [])).
  { unfold s1. destruct (cap <? blen (w_buf w) + blen d) eqn:E; [destruct (w_flush_room L (blen d + j) w R); auto|]. split; [exact R|]. intro C. destruct (w_buf w) as [|x y]; [reflexivity|]. unfold blen in *. cbn [List.length] in *. lia. }
  destruct S as [[S1 S2] S3]. destruct (cap <=? blen d) eqn:C.
  - specialize (S3 ltac:(lia)). rewrite S3, blen_nil in S2. unfold os_write. destruct d as [|x y]; cbn [snd]; unfold FineProofs.room; cbn [w_file w_cur w_buf].
    + rewrite S3, blen_nil in *. split; [exact S1|]. lia.
    + rewrite S3, blen_nil. split; [rewrite FineProofs.write_at_len by lia; exact S1|lia].
  - cbn [snd]. unfold FineProofs.room. cbn [w_file w_cur w_buf]. rewrite blen_app. split; [exact S1|lia].
Qed.
Lemma w_seek_room : forall L q j w a w', idle L w -> q + j <= L -> bw_seek_start q w = (Ok a, w') -> room L j w'.
Proof.
  intros L q j [f c b o] a w' [R1 R2] Lq E. cbn in R1, R2. subst b. unfold bw_seek_start, wbind, bw_flush, os_write in E. cbn in E. destruct (q <? two63); [|discriminate]. injection E as <- <-.
  unfold FineProofs.room. cbn [w_file w_cur w_buf]. rewrite blen_nil. split; [exact R1|lia].
Qed.
Lemma w_table_room : forall m wide sz q w t w', w_table m wide sz q w = (Ok t, w') -> w' = w /\ fst t + width wide * blen (snd t) <= blen (w_file w).
Proof.
  intros m wide sz q w t w' E. unfold w_table, w_read in E. destruct (q <? two63); [|discriminate].
  destruct ((if wide then co64_parse m sz else stco_parse m sz) (w_file w) q) as [[t' q']|e|y|] eqn:P; try discriminate. injection E as -> <-. split; [reflexivity|].
  assert (T : fst t = q + 8 /\ content_len m sz = Ok (8 + width wide * N.of_nat (List.length (snd t))) /\ q + 8 + width wide * N.of_nat (List.length (snd t)) <= blen (w_file w)).
  { destruct wide.
    - eapply FineProofs.table_inv_any; [|exact P]. intros p v p' R. apply FailProofs.read_u64_inv in R. destruct R as (-> & _ & R). unfold FailProofs.width. lia.
    - eapply FineProofs.table_inv_any; [|exact P]. intros p v p' R. apply FailProofs.read_u32_inv in R. destruct R as (-> & _ & R). unfold FailProofs.width. lia. }
  unfold blen at 1. lia.
Qed.

(** * What a table looks at *)
Lemma reads_from : forall {A} (x : IO A) f p, reads x -> Forall (fun s => p <= st_from s) (looked (trail x f p)).
Proof.
  intros A x f. induction x as [r|o c IH]; intros p H; [constructor|]. cbn [trail reads] in *. destruct o as [n|n| |d|y|]; try contradiction; cbn [perform].
  - destruct (read_exact n f p) as [[b q]|e|z|] eqn:E; [|constructor..]. assert (Lq : p <= q) by (unfold read_exact in E; destruct (n =? 0); [injection E as _ <-; lia|]; destruct (_ <=? _); [injection E as _ <-; lia|discriminate]).
    rewrite looked_app. apply Forall_app. split; [cbn; repeat constructor; cbn; lia|]. eapply Forall_impl; [|apply IH, H]. cbv beta. intros s Hs. lia.
  - cbn. apply IH, H.
Qed.
Lemma table_from : forall wide m sz q f p, Forall (fun s => q <= st_from s) (looked (trail (io_table_at wide m sz q) f p)).
Proof.
  intros wide m sz q f p. unfold io_table_at. rewrite trail_bind, looked_app. apply Forall_app. cbn [io_seek_start trail run perform]. unfold seek_start. destruct (q <? two63); [|split; constructor].
  cbn [app]. split; [constructor|]. apply reads_from. destruct wide; apply reads_table; cbn; auto.
Qed.
Lemma cut2 : forall {A B} (R : A -> B -> Prop) n l r, Forall2 R l r -> Forall2 R (firstn n l) (firstn n r) /\ Forall2 R (skipn n l) (skipn n r).
Proof.
  intros A B R. induction n as [|n IH]; intros l r H; [split; [constructor|exact H]|]. destruct H as [|x y l r H F]; [split; constructor|]. destruct (IH l r F) as [I1 I2]. split; [constructor; assumption|exact I2].
Qed.

Section Follow.
  Variables (k : N) (Z : bytes).
  Hypothesis LZ : blen Z = k.
  Variables (L : N).
  Hypothesis LL : L < 2 ^ 62.

  (** If the run without others succeeds, the one with them does the same. *)
  Definition follow {A} (P : wst -> Prop) (c : Y A) (d : W A) (Q : wst -> Prop) (R : A -> Prop) : Prop :=
    forall s sh w a w', two k Z s w -> P w -> d w = (Ok a, w') -> exists s' sh', c (s, sh) = (Ok a, (s', sh')) /\ two k Z s' w' /\ Q w' /\ R a.
  Lemma follow_up : forall {A} (P Q : wst -> Prop) (R : A -> Prop) c d, both k Z P c d Q R -> follow P (up c) d Q R.
  Proof.
    intros A P Q R c d H s sh w a w' T Pw E. destruct (H s w T Pw) as (H1 & H2 & H3). rewrite E in H1, H2, H3. cbn [fst snd] in H1, H2, H3. unfold up. cbn [fst snd]. destruct (c s) as [r x]. cbn [fst snd] in *. subst r.
    exists x, sh. split; [reflexivity|]. split; [exact H2|exact H3].
  Qed.
  (** With what is known about the run without others. *)
  Lemma follow_also : forall {A} (P Q Q' : wst -> Prop) (R R' : A -> Prop) c d, follow P c d Q R -> (forall w a w', P w -> d w = (Ok a, w') -> Q' w' /\ R' a) -> follow P c d (fun w => Q w /\ Q' w) (fun a => R a /\ R' a).
  Proof.
    intros A P Q Q' R R' c d H K s sh w a w' T Pw E. destruct (H s sh w a w' T Pw E) as (s' & sh' & H1 & H2 & H3 & H4). destruct (K w a w' Pw E) as [K1 K2]. exists s', sh'. auto.
  Qed.
  Lemma follow_ret : forall {A} P (a : A) (R : A -> Prop), R a -> follow P (yret A a) (wret a) P R.
  Proof. intros A P a R H s sh w b w' T Pw E. injection E as <- <-. exists s, sh. cbn. auto. Qed.
  Lemma follow_lift : forall {A} P (r : res A), follow P (ylift A r) (wlift r) P (fun a => r = Ok a).
  Proof. intros A P r s sh w b w' T Pw E. injection E as -> <-. exists s, sh. cbn. auto. Qed.
  Lemma follow_bind : forall {A B} P Q S (R : A -> Prop) (R' : B -> Prop) (c : Y A) d (e : A -> Y B) g,
    follow P c d Q R -> (forall a, R a -> follow Q (e a) (g a) S R') -> follow P (ybind A B c e) (wbind d g) S R'.
  Proof.
    intros A B P Q S R R' c d e g H K s sh w b w' T Pw E. unfold wbind in E. destruct (d w) as [r w1] eqn:D. destruct r as [a|x|x|]; try discriminate.
    destruct (H s sh w a w1 T Pw D) as (s1 & sh1 & H1 & H2 & H3 & H4). unfold ybind. rewrite H1. exact (K a H4 s1 sh1 w1 b w' H2 H3 E).
  Qed.
  Lemma follow_weak : forall {A} (P P' Q Q' : wst -> Prop) (R R' : A -> Prop) c d, follow P c d Q R -> (forall w, P' w -> P w) -> (forall w, Q w -> Q' w) -> (forall a, R a -> R' a) -> follow P' c d Q' R'.
  Proof. intros A P P' Q Q' R R' c d H A1 A2 A3 s sh w a w' T Pw E. destruct (H s sh w a w' T (A1 w Pw) E) as (s' & sh' & H1 & H2 & H3 & H4). exists s', sh'. auto. Qed.

  Lemma follow_table : forall rcap m wide sz q, k <= q -> follow (idle L) (y_table rcap m wide sz q) (w_table m wide sz q) (idle L) (fun t => k <= fst t /\ fst t + width wide * blen (snd t) <= L).
  Proof.
    intros rcap m wide sz q Lq s sh w t w' (A & hs & LA & F & E & ((R & E1 & E2) & Al)) [I1 I2] D. pose proof (w_table_room m wide sz q w t w' D) as (-> & Lt).
    unfold w_table, w_read in D. destruct (q <? two63) eqn:Q63; [|discriminate].
    assert (Tp : forall q', (if wide then co64_parse m sz else stco_parse m sz) (w_file w) q = Ok (t, q') -> q <= fst t) by (intros q' X0; destruct wide; eapply (table_parse_pos Z); exact X0).
    assert (Rn : exists q', run (io_table_at wide m sz q) (A ++ R) 0 = Ok (t, q')).
    { pose proof (BufProofs.table_at_is wide m sz q (w_file w) 0) as T2. rewrite Q63 in T2.
      assert (Eq : run (io_table_at wide m sz q) (A ++ R) 0 = run (io_table_at wide m sz q) (Z ++ R) 0).
      { unfold io_table_at. rewrite !ReaderProofs.run_bind. cbn [io_seek_start run perform]. unfold seek_start. rewrite Q63. destruct wide; apply (reads_run k Z LZ); auto; apply reads_table; cbn; auto. }
      rewrite Eq, <- E2. destruct ((if wide then co64_parse m sz else stco_parse m sz) (w_file w) q) as [[t' q']|e|z|]; try discriminate. injection D as ->.
      destruct (run (io_table_at wide m sz q) (w_file w) 0) as [[x y]|e|z|]; try discriminate T2. injection T2 as ->. eauto. }
    destruct Rn as (q' & Rn). assert (Lb : blen (A ++ R) < 2 ^ 62) by (rewrite E2, blen_app, LZ in I1; rewrite blen_app, LA; lia).
    assert (Af : forall n, after (x_others s) (A ++ R) n = fold_left (fun x h => h x) (firstn n hs) A ++ R) by (intro n; exact (edits_rest k _ _ A R (proj1 (cut2 (edits k) n _ _ F)) LA)).
    assert (Lf : forall n, blen (fold_left (fun x h => h x) (firstn n hs) A) = k) by (intro n; exact (edits_len k _ _ A (proj1 (cut2 (edits k) n _ _ F)) LA)).
    assert (Ag : forall n i, k <= i -> nth_error (after (x_others s) (A ++ R) n) (N.to_nat i) = nth_error (A ++ R) (N.to_nat i)).
    { intros n i Hi. rewrite Af. specialize (Lf n). rewrite !nth_error_app2 by (unfold blen in *; lia). f_equal. unfold blen in *. lia. }
    assert (Le : forall n, blen (after (x_others s) (A ++ R) n) = blen (A ++ R)) by (intro n; rewrite Af, !blen_app, Lf, LA; reflexivity).
    assert (R0 : ready (A ++ R) (fun i => k <= i) (x_others s) (A ++ R) (SBuf (x_others s) (A ++ R) 0 [] sh) 0).
    { split; [exists 0%nat; split; reflexivity|]. split; [reflexivity|]. split; [reflexivity|]. intros j Hj. change (blen (sb_buf (SBuf (x_others s) (A ++ R) 0 [] sh))) with 0 in Hj. lia. }
    destruct (run_on (A ++ R) (fun i => k <= i) (x_others s) rcap Lb Ag Le (io_table_at wide m sz q) _ 0 t q' R0 Rn) as (u & Eu & (n & On & Fn) & _).
    { intros y i Iy Cy. pose proof (table_from wide m sz q (A ++ R) 0) as Fr. rewrite Forall_forall in Fr. specialize (Fr y Iy). unfold covers in Cy. lia. }
    unfold y_table. cbn [fst snd]. rewrite E1, Eu. do 2 eexists. split; [reflexivity|]. split; [|split; [split; assumption|]].
    - exists (fold_left (fun x h => h x) (firstn n hs) A), (skipn n hs). split; [apply Lf|]. cbn [x_others x_w]. split; [rewrite On; exact (proj2 (cut2 (edits k) n _ _ F))|].
      split; [rewrite <- fold_left_app, firstn_skipn; exact E|]. split; [exists R; unfold with_file; cbn [w_file]; rewrite Fn, Af; auto|exact Al].
    - split; [|rewrite <- I1; exact Lt]. destruct ((if wide then co64_parse m sz else stco_parse m sz) (w_file w) q) as [[t' q2]|e|z|] eqn:X; try discriminate. injection D as ->. specialize (Tp q2 eq_refl). lia.
  Qed.

  Lemma follow_execute : forall rcap cap m p, safe_plan Z m p -> follow (fun w => idle L w) (y_execute rcap cap m p) (w_execute cap m p) any (fun _ => True).
  Proof.
    intros rcap cap m p Sp. destruct Sp as (St & Su & S1 & S2 & S3). rewrite LZ in *.
    set (yw := fun d => up (x_write cap d)). set (ys := fun q => up (x_seek q)). set (yc := fun d => up (x_seek_cur d)). set (yf := up x_flush). set (yl := fun n => up (x_set_len n)).
    assert (FW : forall d, follow (beyond k) (yw d) (bw_write cap d) (beyond k) (fun _ => True)) by (intro d; apply follow_up, (both_write k Z LZ)).
    assert (FS : forall q, k <= q -> follow any (ys q) (bw_seek_start q) (beyond k) (fun _ => True)) by (intros q H; apply follow_up, (both_seek k Z LZ q H)).
    assert (FC : forall d, (0 <= d)%Z -> follow (beyond k) (yc d) (bw_seek_cur d) (beyond k) (fun _ => True)) by (intros d H; apply follow_up, (both_seek_cur k Z LZ d H)).
    assert (FF : follow (beyond k) yf bw_flush any (fun _ => True)) by (eapply follow_weak; [apply follow_up, (proj2 (both_flush k Z LZ))|auto|unfold any; auto|auto]).
    assert (FL : forall n, k <= n -> follow any (yl n) (file_set_len n) any (fun _ => True)) by (intros n H; apply follow_up, (both_set_len k Z LZ n H)).
    assert (W1 : forall {A} (c : Y A) d R P, follow P c d (beyond k) R -> follow P c d any R) by (intros; eapply follow_weak; eauto; unfold any; auto).
    assert (W0 : forall {A} (c : Y A) d R Q, follow any c d Q R -> follow (beyond k) c d Q R) by (intros; eapply follow_weak; eauto; unfold any; auto).
    assert (CH : forall l, follow (beyond k) (g_chunks Y yret ybind yw l) (g_chunks W (@wret) (@wbind) (bw_write cap) l) (beyond k) (fun _ => True)).
    { induction l as [|d l IH]; [apply follow_ret; exact I|]. eapply follow_bind; [apply FW|intros ? ?; exact IH]. }
    assert (OF : forall (wide : bool) diff l, follow (fun w => beyond k w /\ room L (width wide * blen l) w) (g_offsets Y yret ybind ylift yw m wide diff l) (g_offsets W (@wret) (@wbind) (@wlift) (bw_write cap) m wide diff l)
      (fun w => beyond k w /\ room L 0 w) (fun _ => True)).
    { intros wide diff. induction l as [|co l IH]; [eapply follow_weak; [apply (follow_ret (fun w => beyond k w /\ room L (width wide * blen (@nil N)) w) tt (fun _ => True) I)|auto| |auto]; intros w [B1 B2]; split; [exact B1|]; change (blen (@nil N)) with 0 in B2; rewrite N.mul_0_r in B2; exact B2|].
      eapply follow_bind; [apply follow_lift|]. intros v _. eapply follow_bind; [|intros ? ?; exact IH].
      set (d := if wide then be64 (i_as_u64 v) else be32 (i_as_u32 v)). assert (Ld : blen d = width wide) by (destruct wide; reflexivity).
      instantiate (1 := fun _ => True). eapply follow_weak with (P := fun w => beyond k w /\ room L (blen d + width wide * blen l) w) (Q := fun w => beyond k w /\ room L (width wide * blen l) w) (R := fun a => True /\ True).
      - apply (follow_also _ (beyond k) (room L (width wide * blen l)) (fun _ => True) (fun _ => True)); [eapply follow_weak; [apply FW|intros w [B _]; exact B|auto|auto]|]. intros w a w' [_ R] E. split; [|exact I]. pose proof (w_write_room L (width wide * blen l) cap d w R) as X. rewrite E in X. exact X.
      - intros w [B1 B2]. split; [exact B1|]. replace (blen d + width wide * blen l) with (width wide * blen (co :: l)); [exact B2|]. rewrite Ld. unfold blen. cbn [List.length]. lia.
      - auto.
      - auto. }
    assert (TA : forall wide diff b, safe_bounds Z m b -> follow (idle L) (g_table Y yret ybind ylift yw ys yf (y_table rcap) m wide diff b)
       (g_table W (@wret) (@wbind) (@wlift) (bw_write cap) bw_seek_start bw_flush w_table m wide diff b) (idle L) (fun _ => True)).
    { intros wide diff b Sb. eapply follow_bind; [apply follow_lift|]. intros cp Ec. pose proof (Sb cp Ec) as Lc. rewrite LZ in Lc. eapply follow_bind; [apply follow_table, Lc|]. intros t [Ht Hr].
      eapply follow_bind with (Q := fun w => beyond k w /\ room L (width wide * blen (snd t)) w) (R := fun a => True /\ True).
      { apply (follow_also _ (beyond k) (room L (width wide * blen (snd t))) (fun _ => True) (fun _ => True)); [eapply follow_weak; [apply FS, Ht|unfold any; auto|auto|auto]|]. intros w a w' Iw E. split; [|exact I]. exact (w_seek_room L (fst t) _ w a w' Iw Hr E). }
      intros ? ?. eapply follow_bind; [apply OF|]. intros ? ?. eapply follow_weak with (P := fun w => beyond k w /\ room L 0 w) (Q := fun w => any w /\ idle L w) (R := fun a => True /\ True); [|auto|intros w [_ X]; exact X|auto].
      apply (follow_also _ any (idle L) (fun _ => True) (fun _ => True)); [eapply follow_weak; [apply FF|intros w [X _]; exact X|auto|auto]|]. intros w a9 w' [_ R] E. split; [|exact I]. destruct (w_flush_room L 0 w R) as [X1 X2]. rewrite E in X1, X2. split; [exact (proj1 X1)|exact X2]. }
    assert (TR : forall diff l, Forall (fun t => forall sb, trak_stbl t = Some sb -> safe_stbl Z m sb) l ->
      follow (idle L) (g_traks Y yret ybind ylift yw ys yf (y_table rcap) m diff l) (g_traks W (@wret) (@wbind) (@wlift) (bw_write cap) bw_seek_start bw_flush w_table m diff l) (idle L) (fun _ => True)).
    { intros diff. induction l as [|t l IH]; intros H; [apply follow_ret; exact I|]. inversion H as [|? ? Ht Hl]; subst. eapply follow_bind; [|intros ? ?; apply IH, Hl].
      instantiate (1 := fun _ => True). destruct (trak_stbl t) as [sb|]; [|apply follow_ret; exact I]. destruct (Ht sb eq_refl) as [H1 H2].
      eapply follow_bind with (R := fun _ => True) (Q := idle L); [destruct (sb_stco sb); [apply TA, H1; reflexivity|apply follow_ret; exact I]|]. intros ? ?. destruct (sb_co64 sb); [apply TA, H2; reflexivity|apply follow_ret; exact I]. }
    assert (UP : forall diff l, Forall (fun b => k <= b_pos b) l -> follow any (g_update_all Y yret ybind ylift yw ys yc m diff l)
       (g_update_all W (@wret) (@wbind) (@wlift) (bw_write cap) bw_seek_start bw_seek_cur m diff l) any (fun _ => True)).
    { intros diff. induction l as [|b l IH]; intros H; [apply follow_ret; exact I|]. inversion H as [|? ? Hb Hl]; subst. eapply follow_bind; [|intros ? ?; apply IH, Hl].
      eapply follow_bind; [apply follow_lift|]. intros n _. apply W1. eapply follow_bind; [apply FS, Hb|]. intros ? ?. destruct (sz_ext (b_size b)); [|apply FW].
      eapply follow_bind; [apply FW|]. intros ? ?. eapply follow_bind; [apply FC; lia|]. intros ? ?. apply FW. }
    unfold y_execute, w_execute, g_execute. fold yw ys yc yf yl.
    eapply follow_bind with (R := fun _ => True) (Q := any); [eapply follow_weak with (Q := idle L) (P := idle L) (R := fun _ => True); [destruct (_ <? _); [apply TR, St|apply follow_ret; exact I]|auto|unfold any; auto|auto]|]. intros ? ?.
    eapply follow_bind; [apply UP, Su|]. intros ? ?.
    eapply follow_bind; [eapply follow_bind; [apply follow_lift|intros n En; apply FL, S2, En]|]. intros ? ?.
    apply W1. eapply follow_bind; [apply FS, S1|]. intros ? ?. eapply follow_bind; [eapply follow_bind; [apply CH|intros ? ?; apply follow_lift]|]. intros ? ?.
    eapply follow_bind; [eapply follow_bind; [apply follow_lift|intros q Eq; apply W0, FS, S3, Eq]|]. intros ? ?.
    eapply follow_bind; [apply FW|]. intros ? ?. eapply follow_weak; [apply follow_up, (proj2 (both_flush k Z LZ))|auto| |auto]. intros w Hw. apply Hw.
  Qed.
End Follow.

(** * The writer *)

(** If writing to the file in which everything has been edited succeeds, writing with the others does the same. *)
Theorem whole_late : forall k others hs short rcap cap m p a r f', Forall2 (edits k) others hs -> blen a = k -> blen (a ++ r) < 2 ^ 62 -> (forall F, blen F = k -> safe_plan F m p) ->
  late cap m p (fold_left (fun x h => h x) hs a ++ r) = SResult (Ok tt) f' -> whole_execute others short rcap cap m p (a ++ r) = SResult (Ok tt) f'.
Proof.
  intros k others hs short rcap cap m p a r f' F L Lb Sp H. set (Z := fold_left (fun x h => h x) hs a) in *. assert (LZ : blen Z = k) by (apply (edits_len k others hs a F L)).
  assert (T0 : two k Z (Xst (Wst (a ++ r) 0 [] []) others) (Wst (Z ++ r) 0 [] [])).
  { exists a, hs. split; [exact L|]. split; [exact F|]. split; [reflexivity|]. split; [exists r; split; reflexivity|]. cbn. auto. }
  unfold late in H. destruct (execute cap m p (Wst (Z ++ r) 0 [] [])) as [x w] eqn:E. assert (x = Ok tt) by (destruct (bw_flush w); injection H as -> _; reflexivity). subst x. rewrite <- program_is_execute in E.
  rewrite blen_app, L in Lb. assert (Il : idle (blen (Z ++ r)) (Wst (Z ++ r) 0 [] [])) by (split; reflexivity).
  destruct (follow_execute k Z LZ (blen (Z ++ r)) ltac:(rewrite blen_app, LZ; exact Lb) rcap cap m p (Sp Z LZ) _ short _ tt w T0 Il E) as (s & sh & Es & T & _). unfold whole_execute. rewrite Es.
  destruct (proj1 (both_flush k Z LZ) s w T I) as (_ & T2 & _). destruct (x_flush s) as [r1 s1], (bw_flush w) as [r2 w2]. cbn [snd] in T2. injection H as <-. f_equal.
  destruct T2 as (A & hs2 & LA & F2 & E2 & ((R & E3 & E4) & _)). rewrite E3, E4, <- E2. apply (edits_rest k); assumption.
Qed.

(** Reading does not notice the others, as in [full_is_shared]. *)
Theorem whole_reads : forall others short rcap cap sizes last calls fuel m items f p e, blen f < 2 ^ 62 -> last <> 0 -> Forall (fun n => n <> 0) sizes -> blen f < N.of_nat calls ->
  prepare fuel m items f 0 = Ok (p, e) ->
  keeping (fun x => blen x = blen f /\ forall i, scanned fuel m f i \/ pl_moved_start p <= i -> nth_error x (N.to_nat i) = nth_error f (N.to_nat i)) others ->
  exists n sh, whole_write others short rcap cap sizes last calls fuel m items f = whole_execute (skipn n others) sh rcap cap m p (after others f n).
Proof.
  intros others short rcap cap sizes last calls fuel m items f p e Lf Nl Ns Lc P K.
  rewrite FineProofs.locate_is in P. destruct (run (io_locate fuel m items) f 0) as [[pl q]| | |] eqn:R; try discriminate. cbn [FineProofs.moved_too] in P. injection P as <- <-.
  pose proof (locate_ends fuel m items f 0 pl q R) as Eq. cbn [with_moved pl_moved_start] in K. rewrite Eq in K.
  set (Q := fun i => scanned fuel m f i \/ q <= i).
  assert (In0 : blen f = blen f /\ forall i, scanned fuel m f i \/ q <= i -> nth_error f (N.to_nat i) = nth_error f (N.to_nat i)) by auto.
  assert (Af : forall n, blen (after others f n) = blen f /\ forall i, Q i -> nth_error (after others f n) (N.to_nat i) = nth_error f (N.to_nat i)).
  { intro n. exact (keeping_after _ others f n K In0). }
  assert (Ag : forall n i, Q i -> nth_error (after others f n) (N.to_nat i) = nth_error f (N.to_nat i)) by (intros n; apply Af).
  assert (Le : forall n, blen (after others f n) = blen f) by (intro n; apply Af).
  assert (R0 : ready f Q others f (SBuf others f 0 [] short) 0).
  { split; [exists 0%nat; split; reflexivity|]. split; [reflexivity|]. split; [reflexivity|]. intros j Hj. change (blen (sb_buf (SBuf others f 0 [] short))) with 0 in Hj. lia. }
  destruct (run_on f Q others rcap Lf Ag Le _ _ 0 _ _ R0 R) as (s & Es & Rs).
  { intros y i Iy Cy. left. rewrite locate_trail in Iy. exists y. split; assumption. }
  unfold whole_write. rewrite Es. destruct Rs as (On & Ps & Lq & Bu). unfold sb_read_to_end.
  assert (Nth : forall j, j < blen (sb_buf s) -> nth_error (sb_buf s) (N.to_nat j) = nth_error f (N.to_nat (q + j))) by (intros j Hj; apply Bu; [exact Hj|right; lia]).
  assert (Lbuf : sb_buf s <> [] -> q + blen (sb_buf s) <= blen f) by (intro Nb; exact (agrees_len f Q others f Lf Ag (sb_buf s) q Nb Nth)).
  assert (P63 : 2 ^ 62 < two63) by reflexivity.
  assert (Lp : q + blen (sb_buf s) < two63).
  { destruct (sb_buf s) as [|c r]; [cbn; change (blen (@nil byte)) with 0; lia|]. specialize (Lbuf ltac:(discriminate)). lia. }
  destruct (to_end_on f Q others Lf Ag Le q ltac:(intros i Hi; right; exact Hi) calls sizes last (SBuf (sb_others s) (sb_file s) (sb_pos s) [] (sb_short s)) (sb_buf s)) as (t & n & Et & Ot & Ft); auto; try lia.
  - split; [exact On|]. cbn [sb_pos sb_buf]. rewrite blen_nil. split; [lia|]. split; [exact Lp|]. intros j Hj. lia.
  - destruct (sb_buf s) as [|c r] eqn:B; [reflexivity|]. specialize (Lbuf ltac:(discriminate)).
    apply list_same; [pose proof (BufProofs.slice_len f q (blen (c :: r))); unfold blen in *; lia|]. intros j Hj.
    replace j with (N.to_nat (N.of_nat j)) by lia. rewrite nth_slice by (unfold blen; lia). apply Nth. unfold blen. lia.
  - rewrite Et, Ot, Ft. exists n, (sb_short t). reflexivity.
Qed.
