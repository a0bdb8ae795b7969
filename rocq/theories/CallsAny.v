(** The system calls of a write to an arbitrary byte string, whatever the outcome. *)

From Coq Require Import List NArith ZArith Bool Lia Arith String.
From Coq Require Import ZifyBool ZifyNat ZifyN.
From Verif Require Import Base BaseLemmas Utf Types Stream Parse Find Write TagSpec FileSpec ParseLemmas ReadFacts WriteBytes WriteState FailSpec FailProofs ScanFwd WriteAny.
Import ListNotations.
Local Open Scope list_scope.

Section Kept.
  Context (f : bytes) (lo : N).

  Definition kept (s : wst) : Prop := run_ops (w_ops s) f = w_file s /\ Forall (op_ge lo) (w_ops s) /\ (w_buf s = [] \/ lo <= w_cur s).
  Definition behind (s : wst) : Prop := kept s /\ lo <= lc s.
  (** Whatever happens the calls are fine; [Q] holds if it succeeds. *)
  Definition k3 {A} (P : wst -> Prop) (c : W A) (Q : wst -> Prop) : Prop :=
    forall s r s', P s -> c s = (r, s') -> kept s' /\ (forall a, r = Ok a -> Q s').

  Lemma k3_bind : forall {A B} P Q R (c : W A) (k : A -> W B), k3 P c Q -> (forall a, k3 Q (k a) R) -> k3 P (wbind c k) R.
  Proof.
    intros A B P Q R c k C K s r s' HP H. unfold wbind in H. destruct (c s) as [r1 s1] eqn:E. destruct (C s r1 s1 HP E) as [X Y].
    destruct r1 as [a|e|q|]; try (injection H as <- <-; split; [exact X|intros a; discriminate]). eapply K; [apply (Y a eq_refl)|exact H].
  Qed.
  Lemma k3_weak : forall {A} (P P' Q Q' : wst -> Prop) (c : W A), k3 P c Q -> (forall s, P' s -> P s) -> (forall s, Q s -> Q' s) -> k3 P' c Q'.
  Proof. intros A P P' Q Q' c C H1 H2 s r s' HP E. destruct (C s r s' (H1 s HP) E) as [X Y]. split; [exact X|]. intros a Ea. apply H2, (Y a Ea). Qed.
  Lemma k3_lift : forall {A} (P : wst -> Prop) (r : res A), (forall s, P s -> kept s) -> k3 P (wlift r) P.
  Proof. intros A P r K s r' s' HP H. injection H as <- <-. split; [apply K, HP|intros a _; exact HP]. Qed.
  Lemma k3_ret : forall {A} (P : wst -> Prop) (a : A), (forall s, P s -> kept s) -> k3 P (wret a) P.
  Proof. intros A P a K s r s' HP H. injection H as <- <-. split; [apply K, HP|intros b _; exact HP]. Qed.
  Lemma behind_kept : forall s, behind s -> kept s. Proof. intros s H. apply H. Qed.

  Lemma snoc_run : forall ops o, run_ops (ops ++ [o]) f = apply_op (run_ops ops f) o.
  Proof. intros. unfold run_ops. apply fold_left_app. Qed.

  Lemma flush_kept : forall s, kept s -> exists s', bw_flush s = (Ok tt, s') /\ kept s' /\ w_buf s' = [] /\ w_cur s' = lc s.
  Proof.
    intros s (O & G & B). unfold bw_flush, os_write, lc. destruct (w_buf s) as [|x l] eqn:E; eexists; (split; [reflexivity|]); unfold kept; cbn [w_cur w_buf w_ops w_file].
    - rewrite blen_nil. repeat split; auto. lia.
    - destruct B as [B|B]; [discriminate|]. split; [|split; reflexivity]. split; [rewrite snoc_run, O; reflexivity|]. split; [|left; reflexivity].
      apply Forall_app. split; [exact G|]. repeat constructor. exact B.
  Qed.
  Lemma k3_flush : k3 kept bw_flush kept.
  Proof. intros s r s' K H. destruct (flush_kept s K) as (s1 & E & K1 & _). rewrite E in H. injection H as <- <-. split; [exact K1|intros a _; exact K1]. Qed.
  Lemma k3_write : forall cap d, k3 behind (bw_write cap d) behind.
  Proof.
    intros cap d s r s' [K L] H. unfold bw_write in H.
    set (t := if cap <? blen (w_buf s) + blen d then snd (bw_flush s) else s) in *.
    assert (T : kept t /\ lc t = lc s /\ (cap <= blen d -> d <> [] -> w_buf t = [])).
    { unfold t. destruct (flush_kept s K) as (s1 & E & K1 & B & C). destruct (cap <? blen (w_buf s) + blen d) eqn:Ec.
      - rewrite E. cbn [snd]. split; [exact K1|]. split; [unfold lc in *; rewrite B, blen_nil; lia|intros; exact B].
      - split; [exact K|]. split; [reflexivity|]. intros X _. apply blen_0. lia. }
    destruct T as ((O & G & B) & Lc & X). clearbody t. destruct (cap <=? blen d) eqn:Ec.
    - unfold os_write in H. destruct d as [|x l].
      + injection H as <- <-. assert (behind t) by (split; [split; auto|lia]). split; [split; auto|intros a _; assumption].
      + specialize (X ltac:(lia) ltac:(discriminate)). unfold lc in Lc. rewrite X, blen_nil in Lc. injection H as <- <-.
        assert (Bh : behind (Wst (write_at (w_file t) (w_cur t) (x :: l)) (w_cur t + blen (x :: l)) (w_buf t) (w_ops t ++ [OWrite (w_cur t) (x :: l)]))).
        { split; [|unfold lc in *; cbn [w_cur w_buf]; lia]. split; [cbn [w_ops w_file]; rewrite snoc_run, O; reflexivity|]. cbn [w_ops w_buf]. split; [|left; exact X].
          apply Forall_app. split; [exact G|]. repeat constructor. unfold lc in L. cbn [op_ge]. lia. }
        split; [apply Bh|intros a _; exact Bh].
    - injection H as <- <-. assert (Bh : behind (Wst (w_file t) (w_cur t) (w_buf t ++ d) (w_ops t))).
      { unfold lc in *. split; [|unfold lc; cbn [w_cur w_buf]; rewrite blen_app; lia]. split; [exact O|]. split; [exact G|]. cbn [w_buf w_cur]. right. destruct B as [B|B]; [|exact B].
        rewrite B, blen_nil in Lc. lia. }
      split; [apply Bh|intros a _; exact Bh].
  Qed.
  Lemma k3_seek : forall q, lo <= q -> k3 kept (bw_seek_start q) behind.
  Proof.
    intros q L s r s' K H. destruct (flush_kept s K) as (s1 & E & K1 & B & C). unfold bw_seek_start, wbind in H. rewrite E in H. cbv beta in H.
    destruct (q <? two63); injection H as <- <-; [|split; [exact K1|intros a; discriminate]].
    assert (Bh : behind (Wst (w_file s1) q (w_buf s1) (w_ops s1))).
    { destruct K1 as (O & G & _). split; [|unfold lc; cbn [w_cur w_buf]; lia]. split; [exact O|]. split; [exact G|]. left. exact B. }
    split; [apply Bh|intros a _; exact Bh].
  Qed.
  Lemma k3_seek_cur : forall d, (0 <= d)%Z -> k3 behind (bw_seek_cur d) behind.
  Proof.
    intros d L s r s' [K Lc] H. destruct (flush_kept s K) as (s1 & E & K1 & B & C). unfold bw_seek_cur, wbind in H. rewrite E in H. cbv beta zeta in H.
    destruct ((_ <=? _) && (_ <? _))%Z; injection H as <- <-; [|split; [exact K1|intros a; discriminate]].
    assert (Bh : behind (Wst (w_file s1) (Z.to_N (Z.of_N (w_cur s1) + d)) (w_buf s1) (w_ops s1))).
    { destruct K1 as (O & G & _). split; [|unfold lc; cbn [w_cur w_buf]; lia]. split; [exact O|]. split; [exact G|]. left. exact B. }
    split; [apply Bh|intros a _; exact Bh].
  Qed.
  Lemma k3_set_len : forall n, lo <= n -> k3 kept (file_set_len n) kept.
  Proof.
    intros n L s r s' (O & G & B) H. unfold file_set_len in H. destruct (n <? two63); injection H as <- <-; [|split; [split; auto|intros a; discriminate]].
    assert (K : kept (Wst (set_length (w_file s) n) (w_cur s) (w_buf s) (w_ops s ++ [OSetLen n]))).
    { split; [cbn [w_ops w_file]; rewrite snoc_run, O; reflexivity|]. split; [|exact B]. apply Forall_app. split; [exact G|]. repeat constructor. exact L. }
    split; [exact K|intros a _; exact K].
  Qed.
  Lemma k3_chunks : forall cap l, k3 behind (bw_chunks cap l) behind.
  Proof. intros cap l. induction l as [|d l IH]; cbn [bw_chunks]; [apply k3_ret, behind_kept|]. eapply k3_bind; [apply k3_write|intros _; exact IH]. Qed.
  Lemma k3_out : forall {A} cap (o : Out A), k3 behind (bw_out cap o) behind.
  Proof. intros A cap o. unfold bw_out. eapply k3_bind; [apply k3_chunks|]. intros _. apply k3_lift, behind_kept. Qed.
  Lemma k3_offsets : forall cap m wide diff l, k3 behind (write_offsets cap m wide diff l) behind.
  Proof.
    intros cap m wide diff l. induction l as [|co l IH]; cbn [write_offsets]; [apply k3_ret, behind_kept|].
    eapply k3_bind; [apply k3_lift, behind_kept|]. intro v. eapply k3_bind; [apply k3_write|intros _; exact IH].
  Qed.

  (** Either nothing is claimed about the positions, or overflow is checked. *)
  Definition placed (m : mode) (p : N) : Prop := lo = 0 \/ m = Checked /\ lo <= p.

  Lemma k3_table : forall cap m wide diff b, placed m (b_pos b) -> k3 kept (adjust_table cap m wide diff b) kept.
  Proof.
    intros cap m wide diff b Pl s r s' K H. unfold adjust_table in H. unfold wbind at 1, wlift at 1 in H.
    destruct (content_pos m b) as [cp| | |] eqn:Ec; try (injection H as <- <-; split; [exact K|intros a; discriminate]).
    unfold wbind at 1, w_read at 1 in H. destruct (cp <? two63); [|injection H as <- <-; split; [exact K|intros a; discriminate]].
    destruct ((if wide then co64_parse m (b_size b) else stco_parse m (b_size b)) (w_file s) cp) as [[t q]| | |] eqn:Et;
      try (injection H as <- <-; split; [exact K|intros a; discriminate]).
    assert (L : lo <= fst t).
    { destruct Pl as [->|[-> L]]; [lia|]. apply add64_inv in Ec.
      assert (T : fst t = cp + 8).
      { destruct wide.
        - eapply table_inv; [|exact Et]. intros p v p' R. apply read_u64_inv in R. destruct R as (-> & _ & R). split; [reflexivity|exact R].
        - eapply table_inv; [|exact Et]. intros p v p' R. apply read_u32_inv in R. destruct R as (-> & _ & R). split; [reflexivity|exact R]. }
      lia. }
    assert (X : k3 kept (bw_seek_start (fst t) =;; write_offsets cap m wide diff (snd t) =;; bw_flush) kept).
    { eapply k3_bind; [apply k3_seek, L|]. intros _. eapply k3_bind; [apply k3_offsets|]. intros _. eapply k3_weak; [apply k3_flush|apply behind_kept|auto]. }
    exact (X s r s' K H).
  Qed.
  Lemma k3_traks : forall cap m diff l,
    Forall (fun t => forall sb, trak_stbl t = Some sb -> (forall b, sb_stco sb = Some b -> placed m (b_pos b)) /\ (forall b, sb_co64 sb = Some b -> placed m (b_pos b))) l ->
    k3 kept (adjust_traks cap m diff l) kept.
  Proof.
    intros cap m diff l F. induction F as [|t l H F IH]; cbn [adjust_traks]; [apply k3_ret; auto|]. eapply k3_bind; [|intros _; exact IH].
    destruct (trak_stbl t) as [sb|]; [|apply k3_ret; auto]. destruct (H sb eq_refl) as [H1 H2]. unfold adjust_stbl. eapply k3_bind.
    - destruct (sb_stco sb) as [b|]; [apply k3_table, H1; reflexivity|apply k3_ret; auto].
    - intros _. destruct (sb_co64 sb) as [b|]; [apply k3_table, H2; reflexivity|apply k3_ret; auto].
  Qed.
  Lemma k3_update : forall cap m diff l, Forall (fun b => lo <= b_pos b) l -> k3 kept (update_all cap m diff l) kept.
  Proof.
    intros cap m diff l F. induction F as [|b l H F IH]; cbn [update_all]; [apply k3_ret; auto|]. eapply k3_bind; [|intros _; exact IH].
    unfold update_atom. eapply k3_bind; [apply k3_lift; auto|]. intro n. eapply k3_bind; [apply k3_seek, H|]. intros _. destruct (sz_ext (b_size b)).
    - eapply k3_bind; [apply k3_write|]. intros _. eapply k3_bind; [apply k3_seek_cur; lia|]. intros _. eapply k3_weak; [apply k3_write|auto|apply behind_kept].
    - eapply k3_weak; [apply k3_write|auto|apply behind_kept].
  Qed.
  Lemma k3_addi : forall m a b (k : Z -> W unit) (P Q : wst -> Prop), (forall s, P s -> kept s) -> (forall z, addi m a b = Ok z -> k3 P (k z) Q) -> k3 P (wbind (wlift (addi m a b)) k) Q.
  Proof.
    intros m a b k P Q KP H s r s' HP E. unfold wbind, wlift in E. destruct (addi m a b) as [z| | |]; [exact (H z eq_refl s r s' HP E)| | |];
      injection E as <- <-; (split; [apply KP, HP|intros x; discriminate]).
  Qed.
  Lemma k3_execute : forall cap m p,
    Forall (fun t => forall sb, trak_stbl t = Some sb -> (forall b, sb_stco sb = Some b -> placed m (b_pos b)) /\ (forall b, sb_co64 sb = Some b -> placed m (b_pos b))) (vb_trak (pl_moov p)) ->
    Forall (fun b => lo <= b_pos b) (pl_update p) -> lo <= pl_start p ->
    (lo = 0 \/ m = Checked /\ (forall z, addi m (as_i64 (pl_old_len p)) (pl_diff p) = Ok z -> lo <= i_as_u64 z) /\
      (forall z, addi m (as_i64 (pl_moved_start p)) (pl_diff p) = Ok z -> lo <= i_as_u64 z)) ->
    k3 kept (execute cap m p) kept.
  Proof.
    intros cap m p Tr Up St Fin. unfold execute. eapply k3_bind.
    { destruct (_ <? _); [apply k3_traks, Tr|apply k3_ret; auto]. }
    intros _. eapply k3_bind; [apply k3_update, Up|]. intros _. eapply k3_bind.
    { apply k3_addi; [auto|]. intros z Ez. apply k3_set_len. destruct Fin as [->|(_ & F1 & _)]; [lia|apply F1, Ez]. }
    intros _. eapply k3_bind; [apply k3_seek, St|]. intros _. eapply k3_bind; [apply k3_out|]. intros _. eapply k3_bind.
    { apply k3_addi; [apply behind_kept|]. intros z Ez. eapply k3_weak; [apply k3_seek|apply behind_kept|intros s X; exact X].
      destruct Fin as [->|(_ & _ & F2)]; [lia|apply F2, Ez]. }
    intros _. eapply k3_bind; [apply k3_write|]. intros _. eapply k3_weak; [apply k3_flush|apply behind_kept|auto].
  Qed.
  Lemma kept_init : kept (Wst f 0 [] []).
  Proof. split; [reflexivity|]. split; [constructor|left; reflexivity]. Qed.
End Kept.

(** In every case the calls produce the file. *)
Theorem calls_any : forall cap fuel m items f pos, run_ops (wr_ops (write_tag_to cap fuel m items f pos)) f = wr_file (write_tag_to cap fuel m items f pos).
Proof.
  intros cap fuel m items f pos. unfold write_tag_to. destruct (prepare fuel m items f pos) as [[p q]| | |]; try reflexivity.
  destruct (execute cap m p (Wst f 0 [] [])) as [r s] eqn:E.
  assert (K : kept f 0 s).
  { refine (proj1 (k3_execute f 0 cap m p _ _ _ _ _ r s (kept_init f 0) E)).
    - apply Forall_forall. intros t _ sb _. split; intros b _; left; reflexivity.
    - apply Forall_forall. intros b _. lia.
    - lia.
    - left. reflexivity. }
  destruct (flush_kept f 0 s K) as (s' & Ef & (O & _) & _). rewrite Ef. exact O.
Qed.

(** Nothing in front of the first thing that looks like a movie box is touched. *)
Theorem calls_front : forall cap fuel items f pos lo, blen f < 2 ^ 62 -> announced items < 2 ^ 61 -> no_huge_box f ->
  (forall q, q < lo -> slice f (q + 4) 4 <> fc_bytes (id4 "moov")) ->
  Forall (op_ge lo) (wr_ops (write_tag_to cap fuel Checked items f pos)).
Proof.
  intros cap fuel items f pos lo Lf La Hh Nm. unfold write_tag_to. destruct (prepare fuel Checked items f pos) as [[p q]| | |] eqn:P; try constructor.
  destruct (execute cap Checked p (Wst f 0 [] [])) as [r s] eqn:E.
  destruct (prepare_shape fuel items f pos p q Lf La Hh P) as (((Fm & _ & _) & Ft & _) & _ & Lst & _ & Df & Lm & _ & _ & Up).
  destruct (prepare_inv fuel items f pos p q Lf La P) as (_ & _ & _ & _ & O & D1 & D2).
  assert (Lo : lo <= b_pos (vb_bounds (pl_moov p))).
  { destruct (N.lt_ge_cases (b_pos (vb_bounds (pl_moov p))) lo) as [X|X]; [|exact X]. exfalso. exact (Nm _ X (proj1 (proj2 Fm))). }
  unfold bend in *. change (2 ^ 62) with 4611686018427387904 in Lf. change (2 ^ 63)%Z with 9223372036854775808%Z in *.
  assert (T63 : two63 = 9223372036854775808) by reflexivity. assert (T64 : two64 = 18446744073709551616) by reflexivity.
  assert (K : kept f lo s).
  { refine (proj1 (k3_execute f lo cap Checked p _ _ _ _ _ r s (kept_init f lo) E)).
    - apply Forall_impl with (2 := Ft). intros t Ht sb Es. destruct (Ht sb Es) as [H1 H2]. split; intros b Eb; right; (split; [reflexivity|]).
      + destruct (H1 b Eb) as (_ & X & _). unfold bend in X. lia.
      + destruct (H2 b Eb) as (_ & X & _). unfold bend in X. lia.
    - apply Forall_impl with (2 := Up). intros b Hb. cbv beta in Hb. lia.
    - lia.
    - right. split; [reflexivity|]. rewrite !as_i64_small by lia.
      split; intros z Ez; apply addi_inv in Ez; unfold i_as_u64; rewrite Z.mod_small by (change (Z.of_N two64) with 18446744073709551616%Z; lia); lia. }
  destruct (flush_kept f lo s K) as (s' & Ef & (_ & G & _) & _). rewrite Ef. exact G.
Qed.
