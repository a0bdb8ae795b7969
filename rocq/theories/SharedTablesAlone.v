(** Without others the writer of [SharedTables.v] does what that of the other theorems does, whatever the outcome: proofs for C97. *)

From Coq Require Import List NArith ZArith Bool Lia Arith String.
From Coq Require Import ZifyBool ZifyNat ZifyN.
From Verif Require Import Base BaseLemmas Utf UtfLemmas Types Stream Parse Find Write Fault ReadIO IoProofs BufRead LookSpec LookProofs SharedRead SharedReadProofs SharedBuf SharedBufProofs FineWrite
  Interfere InterfereProofs InterfereFront SharedScan SharedScanProofs SharedFront SharedTables SharedTablesProofs.
From Verif Require ReaderProofs BufProofs IoCost IoDevice FineProofs FailProofs WPanicProofs FailProofs.
Import ListNotations.
Local Open Scope list_scope.

(** Reading alone leaves the file as it is. *)
Lemma keep_alone : forall {A} cap (x : IO A) s, sb_others s = [] -> sb_others (snd (sb_run cap x s)) = [] /\ sb_file (snd (sb_run cap x s)) = sb_file s.
Proof.
  assert (Rd : forall s n, sb_others s = [] -> sb_others (snd (sb_sys_read s n)) = [] /\ sb_file (snd (sb_sys_read s n)) = sb_file s) by (intros [o f p b h] n E; cbn in *; subst o; auto).
  assert (Sk : forall s t, sb_others s = [] -> sb_others (snd (sb_sys_seek s t)) = [] /\ sb_file (snd (sb_sys_seek s t)) = sb_file s) by (intros [o f p b h] t E; unfold sb_sys_seek; destruct (_ && _)%bool; cbn in *; subst o; auto).
  assert (Br : forall cap s n, sb_others s = [] -> sb_others (snd (sb_read cap s n)) = [] /\ sb_file (snd (sb_read cap s n)) = sb_file s).
  { intros cap s n E. unfold sb_read. destruct (sb_buf s); [|cbn; auto]. destruct (cap <=? n); [apply Rd, E|]. specialize (Rd s cap E). destruct (sb_sys_read s cap). cbn in *. auto. }
  assert (Lo : forall cap k s n got, sb_others s = [] -> sb_others (snd (sb_loop k cap s n got)) = [] /\ sb_file (snd (sb_loop k cap s n got)) = sb_file s).
  { intros cap. induction k as [|k IH]; intros s n got E; cbn [sb_loop]; (destruct (n =? 0); [cbn; auto|]); [cbn; auto|]. specialize (Br cap s n E). destruct (sb_read cap s n) as [x t]. cbn [snd] in Br. destruct Br as [B1 B2].
    destruct x; [cbn; auto|]. destruct (IH t (n - blen (b :: x)) (got ++ b :: x) B1) as [I1 I2]. rewrite B2 in I2. auto. }
  assert (Cu : forall s d, sb_others s = [] -> sb_others (snd (sb_seek_cur s d)) = [] /\ sb_file (snd (sb_seek_cur s d)) = sb_file s).
  { intros s d E. unfold sb_seek_cur. cbv zeta. destruct (_ <=? _)%Z; [apply Sk, E|]. pose proof (Sk s (Z.of_N (sb_pos s) - Z.of_N (blen (sb_buf s)))%Z E) as [S1 S2]. destruct (sb_sys_seek s _) as [[q|e|x|] t]; cbn [snd] in *; auto.
    destruct (Sk t (Z.of_N q + d)%Z S1) as [S3 S4]. rewrite S2 in S4. auto. }
  assert (An : forall B (f : B -> answer) (z : res B * sbuf), snd (sb_answer f z) = snd z) by (intros B f [[a|e|q|] t]; reflexivity).
  intros A cap x. induction x as [r|o c IH]; intros s E; cbn [sb_run]; [auto|].
  assert (Op : sb_others (snd (sb_op cap o s)) = [] /\ sb_file (snd (sb_op cap o s)) = sb_file s).
  { destruct o as [n|n| |d|q|]; cbn [sb_op]; try rewrite An; auto. destruct (two63 <=? n); [cbn; auto|]. rewrite An. auto. }
  destruct (sb_op cap o s) as [[a|e|q|] t]; cbn [snd] in Op; auto. destruct Op as [O1 O2]. destruct (IH a t O1) as [I1 I2]. rewrite O2 in I2. auto.
Qed.

Section Solo.
  Variable L : N.
  Hypothesis LL : L < 2 ^ 62.

  (** Both do the same. *)
  Definition solo {A} (P : wst -> Prop) (c : Y A) (d : W A) (Q : wst -> Prop) (R : A -> Prop) : Prop :=
    forall sh w, P w -> exists sh', c (Xst w [], sh) = (fst (d w), (Xst (snd (d w)) [], sh')) /\ forall a, fst (d w) = Ok a -> Q (snd (d w)) /\ R a.
  Definition calm {A} (c : X A) : Prop := forall w, x_others (snd (c (Xst w []))) = [].

  Lemma calm_run : forall {A} (op : W A), calm (x_run op). Proof. intros A op w. unfold x_run. cbn. destruct (op w). reflexivity. Qed.
  Lemma calm_call : forall {A} (op : W A), calm (x_call op). Proof. intros A op w. unfold x_call, x_run. cbn. destruct (op w). reflexivity. Qed.
  Lemma calm_flush : calm x_flush. Proof. intro w. unfold x_flush. destruct (w_buf (x_w (Xst w []))); [apply calm_run|apply calm_call]. Qed.
  Lemma calm_then : forall {A B} (c : X A) (k : A -> X B), calm c -> (forall a, calm (k a)) -> calm (xbind A B c k).
  Proof. intros A B c k H K w. unfold xbind. specialize (H w). destruct (c (Xst w [])) as [[a|e|q|] [w1 o]]; cbn in H; subst o; try reflexivity. apply K. Qed.
  Lemma calm_write : forall cap d, calm (x_write cap d).
  Proof.
    intros cap d w. unfold x_write. pose proof (calm_flush w) as F. destruct (_ <? _); cbn [x_w].
    - destruct (x_flush (Xst w [])) as [r [w1 o]]. cbn in F. subst o. cbn [snd]. destruct (cap <=? blen d); [apply calm_call|reflexivity].
    - destruct (cap <=? blen d); [apply calm_call|reflexivity].
  Qed.
  Lemma calm_seek : forall q, calm (x_seek q). Proof. intro q. apply calm_then; [apply calm_flush|intros; apply calm_run]. Qed.
  Lemma calm_seek_cur : forall d, calm (x_seek_cur d). Proof. intro q. apply calm_then; [apply calm_flush|intros; apply calm_run]. Qed.

  Lemma solo_up : forall {A} (P Q : wst -> Prop) (R : A -> Prop) (c : X A) d, xw c d -> calm c -> (forall w a w', P w -> d w = (Ok a, w') -> Q w' /\ R a) -> solo P (up c) d Q R.
  Proof.
    intros A P Q R c d H C K sh w Pw. destruct (H (Xst w []) w eq_refl) as [H1 H2]. specialize (C w). unfold up. cbn [fst snd]. destruct (c (Xst w [])) as [r [w1 o]]. cbn [fst snd x_others] in *. subst o.
    cbn in H2. subst w1 r. exists sh. split; [reflexivity|]. intros a E. apply (K w a); [exact Pw|]. destruct (d w). cbn in *. subst. reflexivity.
  Qed.
  Lemma solo_ret : forall {A} P (a : A) (R : A -> Prop), R a -> solo P (yret A a) (wret a) P R.
  Proof. intros A P a R H sh w Pw. exists sh. split; [reflexivity|]. cbn. intros b E. injection E as <-. auto. Qed.
  Lemma solo_lift : forall {A} P (r : res A), solo P (ylift A r) (wlift r) P (fun a => r = Ok a).
  Proof. intros A P r sh w Pw. exists sh. split; [reflexivity|]. cbn. auto. Qed.
  Lemma solo_bind : forall {A B} P Q S (R : A -> Prop) (R' : B -> Prop) (c : Y A) d (e : A -> Y B) g,
    solo P c d Q R -> (forall a, R a -> solo Q (e a) (g a) S R') -> solo P (ybind A B c e) (wbind d g) S R'.
  Proof.
    intros A B P Q S R R' c d e g H K sh w Pw. destruct (H sh w Pw) as (sh1 & E & N). unfold ybind, wbind. rewrite E. destruct (d w) as [r w1]. cbn [fst snd] in *.
    destruct r as [a|x|x|]; [|exists sh1; split; [reflexivity|intros ? X; discriminate X]..]. destruct (N a eq_refl) as [N1 N2]. exact (K a N2 sh1 w1 N1).
  Qed.
  Lemma solo_weak : forall {A} (P P' Q Q' : wst -> Prop) (R R' : A -> Prop) c d, solo P c d Q R -> (forall w, P' w -> P w) -> (forall w, Q w -> Q' w) -> (forall a, R a -> R' a) -> solo P' c d Q' R'.
  Proof. intros A P P' Q Q' R R' c d H A1 A2 A3 sh w Pw. destruct (H sh w (A1 w Pw)) as (sh' & E & N). exists sh'. split; [exact E|]. intros a X. destruct (N a X). auto. Qed.

  Lemma solo_table : forall rcap m wide sz q, solo (idle L) (y_table rcap m wide sz q) (w_table m wide sz q) (idle L) (fun t => fst t + width wide * blen (snd t) <= L).
  Proof.
    intros rcap m wide sz q sh w [I1 I2]. unfold y_table. cbn [fst snd x_others x_w].
    set (s0 := SBuf [] (w_file w) 0 [] sh). pose proof (keep_alone rcap (io_table_at wide m sz q) s0 eq_refl) as [K1 K2].
    assert (R : fst (sb_run rcap (io_table_at wide m sz q) s0) = match run (io_table_at wide m sz q) (w_file w) 0 with Ok (a, _) => Ok a | Err e => Err e | Panic q => Panic q | Fuel => Fuel end).
    { apply (run_alone (w_file w) rcap ltac:(lia) _ s0 0). split; [exists 0%nat; split; reflexivity|]. split; [reflexivity|]. split; [reflexivity|]. intros j Hj. change (blen (sb_buf s0)) with 0 in Hj. lia. }
    pose proof (BufProofs.table_at_is wide m sz q (w_file w) 0) as T.
    assert (D : w_table m wide sz q w = (match run (io_table_at wide m sz q) (w_file w) 0 with Ok (a, _) => Ok a | Err e => Err e | Panic q => Panic q | Fuel => Fuel end, w)).
    { unfold w_table, w_read. destruct (q <? two63).
      - destruct (run (io_table_at wide m sz q) (w_file w) 0) as [[a y]|e|z|]; destruct ((if wide then co64_parse m sz else stco_parse m sz) (w_file w) q) as [[a' y']|e'|z'|]; cbn in T; try discriminate; try (injection T as <-); reflexivity.
      - destruct (run (io_table_at wide m sz q) (w_file w) 0) as [[a y]|e|z|]; cbn in T; try discriminate. injection T as ->. reflexivity. }
    destruct (sb_run rcap (io_table_at wide m sz q) s0) as [r t]. cbn [fst snd] in *. exists (sb_short t). rewrite D. cbn [fst snd]. rewrite K1, K2, R. split; [destruct w; reflexivity|].
    intros a E. split; [split; assumption|]. rewrite E in D. destruct (w_table_room m wide sz q w a w D) as [_ X]. lia.
  Qed.

  Lemma solo_execute : forall rcap cap m p, solo (idle L) (y_execute rcap cap m p) (w_execute cap m p) any (fun _ => True).
  Proof.
    intros rcap cap m p.
    set (yw := fun d => up (x_write cap d)). set (ys := fun q => up (x_seek q)). set (yc := fun d => up (x_seek_cur d)). set (yf := up x_flush). set (yl := fun n => up (x_set_len n)).
    assert (FW : forall d, solo any (yw d) (bw_write cap d) any (fun _ => True)) by (intro d; apply solo_up; [apply xw_write|apply calm_write|unfold any; auto]).
    assert (FS : forall q, solo any (ys q) (bw_seek_start q) any (fun _ => True)) by (intro q; apply solo_up; [apply xw_seek|apply calm_seek|unfold any; auto]).
    assert (FC : forall d, solo any (yc d) (bw_seek_cur d) any (fun _ => True)) by (intro d; apply solo_up; [apply xw_seek_cur|apply calm_seek_cur|unfold any; auto]).
    assert (FF : solo any yf bw_flush any (fun _ => True)) by (apply solo_up; [apply xw_flush|apply calm_flush|unfold any; auto]).
    assert (FL : forall n, solo any (yl n) (file_set_len n) any (fun _ => True)) by (intro n; apply solo_up; [apply xw_call|apply calm_call|unfold any; auto]).
    assert (CH : forall l, solo any (g_chunks Y yret ybind yw l) (g_chunks W (@wret) (@wbind) (bw_write cap) l) any (fun _ => True)).
    { induction l as [|d l IH]; [apply solo_ret; exact I|]. eapply solo_bind; [apply FW|intros ? ?; exact IH]. }
    assert (OF : forall (wide : bool) diff l, solo (room L (width wide * blen l)) (g_offsets Y yret ybind ylift yw m wide diff l) (g_offsets W (@wret) (@wbind) (@wlift) (bw_write cap) m wide diff l) (room L 0) (fun _ => True)).
    { intros wide diff. induction l as [|co l IH].
      - change (blen (@nil N)) with 0. rewrite N.mul_0_r. apply (solo_ret (room L 0) tt (fun _ => True)). exact I.
      - eapply solo_bind; [apply solo_lift|]. intros v _. eapply solo_bind with (R := fun _ => True); [|intros ? ?; exact IH].
        set (d := if wide then be64 (i_as_u64 v) else be32 (i_as_u32 v)). assert (Ld : blen d = width wide) by (destruct wide; reflexivity).
        apply solo_up; [apply xw_write|apply calm_write|]. intros w a w' R E. split; [|exact I].
        pose proof (w_write_room L (width wide * blen l) cap d w) as X. rewrite E in X. apply X. replace (blen d + width wide * blen l) with (width wide * blen (co :: l)); [exact R|]. rewrite Ld. unfold blen. cbn [List.length]. lia. }
    assert (TA : forall wide diff b, solo (idle L) (g_table Y yret ybind ylift yw ys yf (y_table rcap) m wide diff b)
       (g_table W (@wret) (@wbind) (@wlift) (bw_write cap) bw_seek_start bw_flush w_table m wide diff b) (idle L) (fun _ => True)).
    { intros wide diff b. eapply solo_bind; [apply solo_lift|]. intros cp _. eapply solo_bind; [apply solo_table|]. intros t Ht.
      eapply solo_bind with (Q := room L (width wide * blen (snd t))) (R := fun _ => True); [apply solo_up; [apply xw_seek|apply calm_seek|]; intros w a w' Iw E; split; [exact (w_seek_room L (fst t) _ w a w' Iw Ht E)|exact I]|].
      intros ? ?. eapply solo_bind; [apply OF|]. intros ? ?. apply solo_up; [apply xw_flush|apply calm_flush|]. intros w a9 w' R E. split; [|exact I].
      destruct (w_flush_room L 0 w R) as [X1 X2]. rewrite E in X1, X2. split; [exact (proj1 X1)|exact X2]. }
    assert (TR : forall diff l, solo (idle L) (g_traks Y yret ybind ylift yw ys yf (y_table rcap) m diff l) (g_traks W (@wret) (@wbind) (@wlift) (bw_write cap) bw_seek_start bw_flush w_table m diff l) (idle L) (fun _ => True)).
    { intros diff. induction l as [|t l IH]; [apply solo_ret; exact I|]. eapply solo_bind with (R := fun _ => True) (Q := idle L); [|intros ? ?; exact IH].
      destruct (trak_stbl t) as [sb|]; [|apply solo_ret; exact I].
      eapply solo_bind with (R := fun _ => True) (Q := idle L); [destruct (sb_stco sb); [apply TA|apply solo_ret; exact I]|]. intros ? ?. destruct (sb_co64 sb); [apply TA|apply solo_ret; exact I]. }
    assert (UP : forall diff l, solo any (g_update_all Y yret ybind ylift yw ys yc m diff l) (g_update_all W (@wret) (@wbind) (@wlift) (bw_write cap) bw_seek_start bw_seek_cur m diff l) any (fun _ => True)).
    { intros diff. induction l as [|b l IH]; [apply solo_ret; exact I|]. eapply solo_bind with (R := fun _ => True) (Q := any); [|intros ? ?; exact IH].
      eapply solo_bind; [apply solo_lift|]. intros n _. eapply solo_bind; [apply FS|]. intros ? ?. destruct (sz_ext (b_size b)); [|apply FW].
      eapply solo_bind; [apply FW|]. intros ? ?. eapply solo_bind; [apply FC|]. intros ? ?. apply FW. }
    unfold y_execute, w_execute, g_execute. fold yw ys yc yf yl.
    eapply solo_bind with (R := fun _ => True) (Q := any); [eapply solo_weak with (Q := idle L) (P := idle L) (R := fun _ => True); [destruct (_ <? _); [apply TR|apply solo_ret; exact I]|auto|unfold any; auto|auto]|]. intros ? ?.
    eapply solo_bind; [apply UP|]. intros ? ?.
    eapply solo_bind; [eapply solo_bind; [apply solo_lift|intros n _; apply FL]|]. intros ? ?.
    eapply solo_bind; [apply FS|]. intros ? ?. eapply solo_bind; [eapply solo_bind; [apply CH|intros ? ?; apply solo_lift]|]. intros ? ?.
    eapply solo_bind; [eapply solo_bind; [apply solo_lift|intros q _; apply FS]|]. intros ? ?.
    eapply solo_bind; [apply FW|]. intros ? ?. apply FF.
  Qed.
End Solo.

(** Writing as planned. *)
Theorem whole_alone : forall short rcap cap m p f, blen f < 2 ^ 62 -> whole_execute [] short rcap cap m p f = late cap m p f.
Proof.
  intros short rcap cap m p f Lf. destruct (solo_execute (blen f) Lf rcap cap m p short (Wst f 0 [] []) (conj eq_refl eq_refl)) as (sh & E & _).
  unfold whole_execute, late. rewrite E, <- program_is_execute. destruct (w_execute cap m p (Wst f 0 [] [])) as [r w]. cbn [fst snd].
  destruct (xw_flush (Xst w []) w eq_refl) as [_ S]. pose proof (calm_flush w) as C. destruct (x_flush (Xst w [])) as [r1 [w1 o]], (bw_flush w) as [r2 w2]. cbn in S, C. subst o. cbn in S. subst w1. reflexivity.
Qed.
