(** Whatever others do behind a place in front of the movie and whenever they do it: the writer does not touch what is in front of it. *)

From Coq Require Import List NArith ZArith Bool Lia Arith String.
From Coq Require Import ZifyBool ZifyNat ZifyN.
From Verif Require Import Base BaseLemmas Utf UtfLemmas Types Stream Parse Find Write Fault TagSpec FileSpec FailProofs ParseLemmas ReadProofs ReadSpec ReadFacts
  ReadBad ReadTerm NewMeans WriteBytes WriteState ScanProofs AdjustProofs FramesProofs WriteProofs WriteMain UpdateMeans EditSpec EditProofs RepairSpec LastSpec LastProofs LastWrite
  Interfere InterfereProofs.
Import ListNotations.
Local Open Scope list_scope.

(** A change that keeps the bytes [F] at the beginning. *)
Definition keeps (F : bytes) (g : bytes -> bytes) : Prop := forall x, exists y, g (F ++ x) = F ++ y.

Section Front.
  Context (F : bytes).
  Let k := blen F.

  Lemma first_front : forall n (y : bytes), k <= n -> firstn (N.to_nat n) (F ++ y) = F ++ firstn (N.to_nat n - List.length F) y.
  Proof. intros n y H. rewrite firstn_app, firstn_all2; [reflexivity|]. unfold k, blen in H. lia. Qed.
  Lemma write_front : forall y p d, k <= p -> exists z, write_at (F ++ y) p d = F ++ z.
  Proof. intros y p d H. unfold write_at. rewrite <- app_assoc, first_front by exact H. rewrite <- app_assoc. eexists. reflexivity. Qed.
  Lemma length_front : forall y n, k <= n -> exists z, set_length (F ++ y) n = F ++ z.
  Proof. intros y n H. unfold set_length. rewrite first_front by exact H. rewrite <- app_assoc. eexists. reflexivity. Qed.

  Definition fr (s : xst) : Prop :=
    (exists y, w_file (x_w s) = F ++ y) /\ Forall (keeps F) (x_others s) /\ (w_buf (x_w s) = [] \/ k <= w_cur (x_w s)).
  Definition fp (s : xst) : Prop := fr s /\ k <= w_cur (x_w s).
  Definition hold {A} (P : xst -> Prop) (c : X A) (Q : xst -> Prop) (R : A -> Prop) : Prop :=
    forall s, P s -> match c s with (Ok a, s') => Q s' /\ R a | (_, s') => fr s' end.

  Lemma hold_bind : forall {A B} P Q S (R : A -> Prop) (R' : B -> Prop) (c : X A) (d : A -> X B),
    hold P c Q R -> (forall a, R a -> hold Q (d a) S R') -> hold P (xbind A B c d) S R'.
  Proof.
    intros A B P Q S R R' c d H K s Hs. specialize (H s Hs). unfold xbind. destruct (c s) as [[a|e|q|] s']; try exact H. destruct H as [H1 H2]. exact (K a H2 s' H1).
  Qed.
  Lemma hold_ret : forall {A} P (a : A) (R : A -> Prop), R a -> hold P (xret A a) P R.
  Proof. intros A P a R H s Hs. split; assumption. Qed.
  Lemma hold_lift : forall {A} (P : xst -> Prop) (r : res A), (forall s, P s -> fr s) -> hold P (xlift A r) P (fun a => r = Ok a).
  Proof. intros A P r H s Hs. unfold xlift. destruct r; auto. Qed.
  Lemma hold_weak : forall {A} (P P' Q Q' : xst -> Prop) (R R' : A -> Prop) c, hold P c Q R -> (forall s, P' s -> P s) -> (forall s, Q s -> Q' s) -> (forall a, R a -> R' a) -> hold P' c Q' R'.
  Proof. intros A P P' Q Q' R R' c H A1 A2 A3 s Hs. specialize (H s (A1 s Hs)). destruct (c s) as [[a|e|q|] s']; try exact H. destruct H. auto. Qed.
  Lemma fp_fr : forall s, fp s -> fr s. Proof. intros s H. apply H. Qed.

  Lemma turn_front : forall s, fr s -> fr (x_turn s) /\ w_cur (x_w (x_turn s)) = w_cur (x_w s) /\ w_buf (x_w (x_turn s)) = w_buf (x_w s).
  Proof.
    intros [w [|g r]] (Hf & Ho & Hb); cbn in *; [repeat split; assumption|]. destruct Hf as (y & E). inversion Ho as [|? ? Kg Kr]; subst.
    destruct (Kg y) as (z & Ez). repeat split; cbn; auto. exists z. rewrite E. exact Ez.
  Qed.
  Lemma flush_front : hold fr x_flush fr (fun _ => True) /\ hold fp x_flush fp (fun _ => True).
  Proof.
    assert (K : forall s, fr s -> exists s', x_flush s = (Ok tt, s') /\ fr s' /\ w_cur (x_w s) <= w_cur (x_w s') /\ w_buf (x_w s') = []).
    { intros s H. unfold x_flush. destruct (w_buf (x_w s)) eqn:E.
      - unfold x_run. rewrite (flush_nil _ E). eexists. split; [reflexivity|]. split; [destruct s; exact H|]. split; [apply N.le_refl|exact E].
      - destruct (turn_front s H) as (H1 & C & Bf). unfold x_call, x_run. destruct (x_turn s) as [w o]. cbn [x_w x_others] in *.
        destruct H1 as ((y & Ey) & Ho & Hb). unfold bw_flush, os_write. rewrite Bf, E. cbn [x_w x_others w_file w_cur w_buf w_ops].
        eexists. split; [reflexivity|]. cbn [x_w x_others w_file w_cur w_buf w_ops]. split; [|split; [lia|reflexivity]]. split; [|split; [exact Ho|left; reflexivity]].
        cbn [x_w w_file] in *. rewrite Ey. apply write_front. cbn [x_w] in Hb. destruct Hb as [Hb|Hb]; [rewrite Bf, E in Hb; discriminate|exact Hb]. }
    split; intros s H.
    - destruct (K s H) as (s' & -> & H' & _). auto.
    - destruct (K s (fp_fr s H)) as (s' & -> & H' & C & _). destruct H as [_ H]. split; [split; [exact H'|lia]|exact I].
  Qed.
  Lemma flush_buf : forall s, w_buf (x_w (snd (x_flush s))) = [].
  Proof.
    intros s. unfold x_flush. destruct (w_buf (x_w s)) eqn:E.
    - unfold x_run. rewrite (flush_nil _ E). exact E.
    - unfold x_call, x_run, bw_flush. destruct (os_write _ _) as [r w]. reflexivity.
  Qed.
  Lemma write_hold : forall cap d, hold fp (x_write cap d) fp (fun _ => True).
  Proof.
    intros cap d s H. unfold x_write.
    assert (H1 : fp (if cap <? blen (w_buf (x_w s)) + blen d then snd (x_flush s) else s)).
    { destruct (_ <? _); [|exact H]. pose proof (proj2 flush_front s H) as X0. destruct (x_flush s) as [[u|e|q|] s'] eqn:E; [exact (proj1 X0)| | |].
      all: unfold x_flush, x_call, x_run, bw_flush, os_write in E; destruct (w_buf (x_w s)); repeat (destruct (w_buf _)); discriminate E. }
    revert H1. generalize (if cap <? blen (w_buf (x_w s)) + blen d then snd (x_flush s) else s). clear s H. intros s H.
    destruct (cap <=? blen d).
    - destruct H as [H C]. destruct (turn_front s H) as (H1 & C1 & Bf). unfold x_call, x_run. destruct (x_turn s) as [w o]. cbn [x_w x_others] in *.
      destruct H1 as ((y & Ey) & Ho & Hb). cbn [x_w x_others] in *. unfold os_write. destruct d as [|b d].
      + split; [|exact I]. split; [|cbn [x_w]; lia]. split; [exists y; exact Ey|]. split; assumption.
      + split; [|exact I]. split; [|cbn [x_w w_cur]; lia]. split; [cbn [x_w w_file]; rewrite Ey; apply write_front; lia|]. split; [exact Ho|]. right. cbn [x_w w_cur]. lia.
    - split; [|exact I]. destruct H as [(Hf & Ho & Hb) C]. split; [|exact C]. split; [exact Hf|]. split; [exact Ho|]. right. exact C.
  Qed.
  Lemma seek_hold : forall q, k <= q -> hold fr (x_seek q) fp (fun _ => True).
  Proof.
    intros q Hq s H. unfold x_seek, xbind. pose proof (proj1 flush_front s H) as X0. pose proof (flush_buf s) as Bf. destruct (x_flush s) as [[u|e|p|] s']; try exact X0.
    destruct X0 as [(Hf & Ho & Hb) _]. cbn [snd] in Bf. unfold x_run. rewrite (run_seek q (x_w s') Bf). destruct (q <? two63).
    - split; [|exact I]. split; [|exact Hq]. split; [exact Hf|]. split; [exact Ho|]. left. reflexivity.
    - split; [exact Hf|]. split; [exact Ho|exact Hb].
  Qed.
  Lemma seek_hold_p : forall q, k <= q -> hold fp (x_seek q) fp (fun _ => True).
  Proof. intros q Hq s H. apply seek_hold; [exact Hq|apply fp_fr, H]. Qed.
  Lemma seek_cur_hold : forall d, (0 <= d)%Z -> hold fp (x_seek_cur d) fp (fun _ => True).
  Proof.
    intros d Hd s H. unfold x_seek_cur, xbind. pose proof (proj2 flush_front s H) as X0. pose proof (flush_buf s) as Bf. destruct (x_flush s) as [[u|e|p|] s']; try exact X0.
    destruct X0 as [[(Hf & Ho & Hb) C] _]. cbn [snd] in Bf. unfold x_run, bw_seek_cur, wbind. rewrite (flush_nil _ Bf). destruct (_ && _)%bool.
    - split; [|exact I]. split; [|cbn [x_w w_cur]; lia]. split; [exact Hf|]. split; [exact Ho|]. left. exact Bf.
    - split; [exact Hf|]. split; [exact Ho|exact Hb].
  Qed.
  Lemma set_len_hold : forall n, k <= n -> hold fr (x_set_len n) fr (fun _ => True).
  Proof.
    intros n Hn s H. destruct (turn_front s H) as ((Hf & Ho & Hb) & _). unfold x_set_len, x_call, x_run, file_set_len. destruct (n <? two63).
    - split; [|exact I]. destruct Hf as (y & Ey). split; [cbn [x_w w_file]; rewrite Ey; apply length_front, Hn|]. split; assumption.
    - split; [exact Hf|]. split; assumption.
  Qed.
  Lemma full_head_inv : forall f p v p', parse_full_head f p = Ok (v, p') -> p <= p'.
  Proof.
    intros f p v p' H. unfold parse_full_head in H. apply bind_inv in H. destruct H as (a & p1 & E1 & H). apply bind_inv in H. destruct H as (b & p2 & E2 & H).
    injection H as <- <-. unfold read_u8 in E1. apply bind_inv in E1. destruct E1 as (c & p3 & E1 & E3). injection E3 as <- <-. apply read_exact_inv in E1, E2. lia.
  Qed.
  Lemma table_parse_pos : forall w rd m sz f q t q', table_parse w rd m sz f q = Ok (t, q') -> q <= fst t.
  Proof.
    intros w rd m sz f q t q' H. unfold table_parse in H. apply bind_inv in H. destruct H as (vf & p1 & E1 & H). apply full_head_inv in E1.
    destruct (fst vf); [|discriminate]. apply bind_inv in H. destruct H as (n & p2 & E2 & H). apply read_u32_inv in E2. apply bind_inv in H. destruct H as (c & p3 & E3 & H).
    apply lift_inv in E3. destruct E3 as [_ ->]. destruct (negb _); [discriminate|]. apply bind_inv in H. destruct H as (tp & p4 & E4 & H). unfold position in E4. injection E4 as <- <-.
    apply bind_inv in H. destruct H as (l & p5 & _ & H). injection H as <- _. cbn [fst]. lia.
  Qed.
  Lemma table_hold : forall m wide sz q, k <= q -> hold fr (x_table m wide sz q) fr (fun t => k <= fst t).
  Proof.
    intros m wide sz q Hq s H. destruct (turn_front s H) as (H1 & _). unfold x_table, x_call, x_run, w_table, w_read. destruct (q <? two63); [|destruct (x_turn s); exact H1].
    assert (T : forall t q', (if wide then co64_parse m sz else stco_parse m sz) (w_file (x_w (x_turn s))) q = Ok (t, q') -> q <= fst t)
      by (intros t q' X0; destruct wide; eapply table_parse_pos; exact X0).
    destruct ((if wide then co64_parse m sz else stco_parse m sz) (w_file (x_w (x_turn s))) q) as [[t q']|e|p|]; destruct (x_turn s); try exact H1.
    split; [exact H1|]. specialize (T t q' eq_refl). lia.
  Qed.

  (** The places the plan goes to are behind [F]. *)
  Definition safe_bounds (m : mode) (b : bounds) : Prop := forall cp, content_pos m b = Ok cp -> k <= cp.
  Definition safe_stbl (m : mode) (sb : stbl_bounds) : Prop :=
    (forall b, sb_stco sb = Some b -> safe_bounds m b) /\ (forall b, sb_co64 sb = Some b -> safe_bounds m b).
  Definition safe_plan (m : mode) (p : plan) : Prop :=
    Forall (fun t => forall sb, trak_stbl t = Some sb -> safe_stbl m sb) (vb_trak (pl_moov p)) /\
    Forall (fun b => k <= b_pos b) (pl_update p) /\ k <= pl_start p /\
    (forall n, addi m (as_i64 (pl_old_len p)) (pl_diff p) = Ok n -> k <= i_as_u64 n) /\
    (forall q, addi m (as_i64 (pl_moved_start p)) (pl_diff p) = Ok q -> k <= i_as_u64 q).

  Lemma execute_hold : forall cap m p, safe_plan m p -> hold fr (x_execute cap m p) fr (fun _ => True).
  Proof.
    intros cap m p (St & Su & S1 & S2 & S3).
    assert (W1 : forall {A} (c : X A) R, hold fr c fp R -> hold fr c fr R) by (intros; eapply hold_weak; eauto using fp_fr).
    assert (CH : forall l, hold fp (g_chunks X xret xbind (x_write cap) l) fp (fun _ => True)).
    { induction l as [|d l IH]; [apply hold_ret; exact I|]. eapply hold_bind; [apply write_hold|intros ? ?; exact IH]. }
    assert (OF : forall wide diff l, hold fp (g_offsets X xret xbind xlift (x_write cap) m wide diff l) fp (fun _ => True)).
    { intros wide diff. induction l as [|co l IH]; [apply hold_ret; exact I|]. eapply hold_bind; [apply hold_lift, fp_fr|]. intros v _. eapply hold_bind; [apply write_hold|intros ? ?; exact IH]. }
    assert (TA : forall wide diff b, safe_bounds m b -> hold fr (g_table X xret xbind xlift (x_write cap) x_seek x_flush x_table m wide diff b) fr (fun _ => True)).
    { intros wide diff b Sb. eapply hold_bind; [apply hold_lift; auto|]. intros cp Ec. eapply hold_bind; [apply table_hold, Sb, Ec|]. intros t Ht.
      eapply hold_bind; [apply seek_hold, Ht|]. intros ? ?. eapply hold_bind; [apply OF|]. intros ? ?. eapply hold_weak; [apply (proj2 flush_front)|auto|apply fp_fr|auto]. }
    assert (TR : forall diff l, Forall (fun t => forall sb, trak_stbl t = Some sb -> safe_stbl m sb) l ->
      hold fr (g_traks X xret xbind xlift (x_write cap) x_seek x_flush x_table m diff l) fr (fun _ => True)).
    { intros diff. induction l as [|t l IH]; intros H; [apply hold_ret; exact I|]. inversion H as [|? ? Ht Hl]; subst. eapply hold_bind; [|intros ? ?; apply IH, Hl].
      instantiate (1 := fun _ => True). destruct (trak_stbl t) as [sb|]; [|apply hold_ret; exact I]. destruct (Ht sb eq_refl) as [H1 H2].
      eapply hold_bind with (R := fun _ => True); [destruct (sb_stco sb); [apply TA, H1; reflexivity|apply hold_ret; exact I]|]. intros ? ?. destruct (sb_co64 sb); [apply TA, H2; reflexivity|apply hold_ret; exact I]. }
    assert (UP : forall diff l, Forall (fun b => k <= b_pos b) l -> hold fr (g_update_all X xret xbind xlift (x_write cap) x_seek x_seek_cur m diff l) fr (fun _ => True)).
    { intros diff. induction l as [|b l IH]; intros H; [apply hold_ret; exact I|]. inversion H as [|? ? Hb Hl]; subst. eapply hold_bind; [|intros ? ?; apply IH, Hl].
      eapply hold_bind; [apply hold_lift; auto|]. intros n _. apply W1. eapply hold_bind; [apply seek_hold, Hb|]. intros ? ?. destruct (sz_ext (b_size b)); [|apply write_hold].
      eapply hold_bind; [apply write_hold|]. intros ? ?. eapply hold_bind; [apply seek_cur_hold; lia|]. intros ? ?. apply write_hold. }
    unfold x_execute, g_execute. eapply hold_bind with (R := fun _ => True); [destruct (_ <? _); [apply TR, St|apply hold_ret; exact I]|]. intros ? ?.
    eapply hold_bind; [apply UP, Su|]. intros ? ?.
    eapply hold_bind; [eapply hold_bind; [apply hold_lift; auto|intros n En; apply set_len_hold, S2, En]|]. intros ? ?.
    apply W1. eapply hold_bind; [apply seek_hold, S1|]. intros ? ?. eapply hold_bind; [eapply hold_bind; [apply CH|intros ? ?; apply hold_lift, fp_fr]|]. intros ? ?.
    eapply hold_bind; [eapply hold_bind; [apply hold_lift, fp_fr|intros q Eq; apply seek_hold_p, S3, Eq]|]. intros ? ?.
    eapply hold_bind; [apply write_hold|]. intros ? ?. apply (proj2 flush_front).
  Qed.

  Lemma rest_front : forall others f, Forall (keeps F) others -> (exists y, f = F ++ y) -> exists y, rest others f = F ++ y.
  Proof.
    induction others as [|g r IH]; intros f H Hf; [exact Hf|]. inversion H; subst. apply IH; [assumption|]. destruct Hf as (y & ->). auto.
  Qed.
  Lemma shared_front : forall others cap fuel m items y p q, Forall (keeps F) others ->
    prepare fuel m items (F ++ y) 0 = Ok (p, q) -> safe_plan m p -> exists z, sr_file (shared_write others cap fuel m items (F ++ y)) = F ++ z.
  Proof.
    intros others cap fuel m items y p q Ho P Sp. unfold shared_write. rewrite P.
    assert (H0 : fr (Xst (Wst (F ++ y) 0 [] []) others)) by (split; [exists y; reflexivity|]; split; [exact Ho|left; reflexivity]).
    pose proof (execute_hold cap m p Sp _ H0) as H1. destruct (x_execute cap m p (Xst (Wst (F ++ y) 0 [] []) others)) as [r s].
    assert (H2 : fr s) by (destruct r; try exact H1; apply H1). pose proof (proj1 flush_front s H2) as H3. destruct (x_flush s) as [r' s'].
    assert (H4 : fr s') by (destruct r'; try exact H3; apply H3). cbn [sr_file]. apply rest_front; apply H4.
  Qed.
End Front.

(** The tables of a movie are behind its beginning. *)
Lemma last_of_in : forall {Y} (g : N -> atom -> Y) id (P : Y -> Prop) ks q acc y, (forall z, acc = Some z -> P z) ->
  (forall p c, q <= p -> p + asize c <= q + blen (render_all ks) -> P (g p c)) -> last_of g id q ks acc = Some y -> P y.
Proof.
  intros Y g id P. induction ks as [|c r IH]; intros q acc y Ha Hg H; [apply Ha, H|]. cbn [last_of] in H. rewrite render_all_cons, blen_app in Hg. fold (asize c) in Hg.
  eapply IH; [| |exact H].
  - intros z Ez. destruct (is_named id c); [|apply Ha, Ez]. injection Ez as <-. apply Hg; lia.
  - intros p c' H1 H2. apply Hg; lia.
Qed.
Lemma all_of_in : forall {Y} (g : N -> atom -> Y) id (P : Y -> Prop) ks q,
  (forall p c, q <= p -> p + asize c <= q + blen (render_all ks) -> P (g p c)) -> Forall P (all_of g id q ks).
Proof.
  intros Y g id P. induction ks as [|c r IH]; intros q Hg; [constructor|]. cbn [all_of]. rewrite render_all_cons, blen_app in Hg. fold (asize c) in Hg. apply Forall_app. split.
  - destruct (is_named id c); [|constructor]. constructor; [apply Hg; lia|constructor].
  - apply IH. intros p c' H1 H2. apply Hg; lia.
Qed.
Lemma kids_within : forall p c, kids_pos p c + blen (render_all (a_kids c)) = p + asize c.
Proof. intros p c. rewrite asize_eq. unfold kids_pos, csize, a_content. rewrite blen_app. lia. Qed.

Lemma safe_moov : forall F m mv, blen F + asize mv < 2 ^ 62 ->
  Forall (fun t => forall sb, trak_stbl t = Some sb -> safe_stbl F m sb) (vb_trak (moov_at (blen F) mv)).
Proof.
  intros F m mv L.
  assert (B : forall p c, blen F <= p -> p + asize c <= blen F + asize mv -> safe_bounds F m (bounds_of p c)).
  { intros p c H1 H2 cp E. unfold content_pos, bounds_of in E. cbn [b_pos b_size] in E. rewrite head_len_of in E. pose proof (hlen_pos c). rewrite asize_eq in H2.
    rewrite add64_ok in E by (unfold two64; lia). injection E as <-. lia. }
  cbn [moov_at vb_trak]. apply all_of_in. intros p c H1 H2. rewrite kids_within in H2. intros sb E.
  assert (H3 : blen F <= p) by (unfold kids_pos in H1; lia). unfold trak_stbl, trak_at in E. cbn [tb_mdia] in E.
  destruct (last_of mdia_at _ _ _ _) as [d|] eqn:Ed; [|discriminate]. revert sb E.
  apply (last_of_in mdia_at (id4 "mdia") (fun d => forall sb, match db_minf d with Some n => nb_stbl n | None => None end = Some sb -> safe_stbl F m sb) (a_kids c) (kids_pos p c) None); [discriminate| |exact Ed].
  intros p1 c1 I1 I2 sb. rewrite kids_within in I2. cbn [mdia_at db_minf]. destruct (last_of minf_at _ _ _ _) as [n|] eqn:En; [|discriminate]. revert sb.
  apply (last_of_in minf_at (id4 "minf") (fun n => forall sb, nb_stbl n = Some sb -> safe_stbl F m sb) (a_kids c1) (kids_pos p1 c1) None); [discriminate| |exact En].
  intros p2 c2 J1 J2 sb Es. rewrite kids_within in J2. cbn [minf_at nb_stbl] in Es. unfold kids_pos in I1, J1.
  apply (last_of_in stbl_at (id4 "stbl") (safe_stbl F m) (a_kids c2) (kids_pos p2 c2) None); [discriminate| |exact Es].
  intros p3 c3 K1 K2. rewrite kids_within in K2. unfold kids_pos in K1. split; intros b; cbn [stbl_at sb_stco sb_co64]; intros Eb.
  - apply (last_of_in bounds_of (id4 "stco") (safe_bounds F m) (a_kids c3) (kids_pos p3 c3) None); [discriminate| |exact Eb]. intros p4 c4 L1 L2. rewrite kids_within in L2. unfold kids_pos in L1. apply B; lia.
  - apply (last_of_in bounds_of (id4 "co64") (safe_bounds F m) (a_kids c3) (kids_pos p3 c3) None); [discriminate| |exact Eb]. intros p4 c4 L1 L2. rewrite kids_within in L2. unfold kids_pos in L1. apply B; lia.
Qed.
