(** The buffered writer as a logical file with a cursor. *)

From Coq Require Import List NArith ZArith Bool Lia Arith.
From Coq Require Import ZifyBool ZifyNat ZifyN.
From Verif Require Import Base BaseLemmas Types Stream Parse Find Write.
Import ListNotations.

(** * File operations *)

Lemma write_at_mid : forall a x d b p, blen x = blen d -> p = blen a -> write_at (a ++ x ++ b) p d = a ++ d ++ b.
Proof.
  intros a x d b p L ->. unfold write_at. f_equal; [|f_equal].
  - rewrite <- app_assoc. apply firstn_blen_app. reflexivity.
  - rewrite app_assoc. apply skipn_blen_app. rewrite blen_app. lia.
Qed.
Lemma write_at_nil : forall f p, p <= blen f -> write_at f p [] = f.
Proof.
  intros f p L. unfold write_at. rewrite blen_nil, N.add_0_r. cbn [app].
  replace (p - blen f) with 0 by lia. rewrite zeros_0, app_nil_r. apply firstn_skipn.
Qed.

Lemma set_length_app : forall a b n, set_length (a ++ b) (blen a + n) = a ++ set_length b n.
Proof.
  intros a b n. unfold set_length. rewrite blen_app.
  replace (N.to_nat (blen a + n)) with (List.length a + N.to_nat n)%nat by (unfold blen; lia).
  rewrite firstn_app_2, <- app_assoc. do 3 f_equal. lia.
Qed.
Lemma blen_set_length : forall f n, blen (set_length f n) = n.
Proof. intros f n. unfold set_length. rewrite blen_app, blen_zeros. unfold blen. rewrite firstn_length. lia. Qed.

(** The operation only touches bytes from [lo] on. *)
Definition op_ge (lo : N) (o : fop) : Prop := match o with OWrite p _ => lo <= p | OSetLen n => lo <= n end.

Definition run_ops (ops : list fop) (f : bytes) : bytes := fold_left apply_op ops f.

(** * The state of the writer *)

(** The logical file is [a ++ b] and the cursor is behind [a]; the calls made so far turn [f0] into
    the current file and touch only bytes from [lo] on. *)
Definition st (f0 : bytes) (lo : N) (a b : bytes) (s : wst) : Prop :=
  (exists a0 x, w_file s = a0 ++ x ++ b /\ w_cur s = blen a0 /\ a = a0 ++ w_buf s /\ blen x = blen (w_buf s)) /\
  run_ops (w_ops s) f0 = w_file s /\ Forall (op_ge lo) (w_ops s) /\ (w_buf s = [] \/ lo <= w_cur s).
(** The same with an empty buffer. *)
Definition stf (f0 : bytes) (lo : N) (a b : bytes) (s : wst) : Prop := st f0 lo a b s /\ w_buf s = [].

Lemma stf_file : forall f0 lo a b s, stf f0 lo a b s -> w_file s = a ++ b.
Proof.
  intros f0 lo a b s [[(a0 & x & F & C & A & X) _] E]. rewrite E in *. rewrite blen_nil in X. apply blen_0 in X. subst x.
  rewrite app_nil_r in A. subst a0. exact F.
Qed.
Lemma st_length : forall f0 lo a b s, st f0 lo a b s -> blen (w_file s) = blen (a ++ b).
Proof. intros f0 lo a b s [(a0 & x & F & C & A & X) _]. rewrite F, A, !blen_app. lia. Qed.
(** The cursor of a flushed writer can be anywhere. *)
Lemma stf_any : forall f0 lo a b a' b' s, stf f0 lo a b s -> a ++ b = a' ++ b' -> forall q, q = blen a' ->
  stf f0 lo a' b' (Wst (w_file s) q (w_buf s) (w_ops s)).
Proof.
  intros f0 lo a b a' b' s H E q ->. pose proof (stf_file _ _ _ _ _ H) as F. destruct H as [[_ (O & G & _)] B].
  split; [|exact B]. split; [|split; [exact O|split; [exact G|left; exact B]]].
  exists a', []. cbn [w_file w_cur w_buf]. rewrite B, app_nil_r, F, E. auto.
Qed.
Lemma st_init : forall f lo, stf f lo [] f (Wst f 0 [] []).
Proof.
  intros f lo. split; [|reflexivity]. split; [exists [], []; auto|]. split; [reflexivity|]. split; [constructor|left; reflexivity].
Qed.

(** * Triples *)

Definition tri {A} (P : wst -> Prop) (c : W A) (v : A) (Q : wst -> Prop) : Prop :=
  forall s, P s -> exists s', c s = (Ok v, s') /\ Q s'.
Lemma tri_bind : forall {A B} P (c : W A) v Q (k : A -> W B) w R, tri P c v Q -> tri Q (k v) w R -> tri P (wbind c k) w R.
Proof.
  intros A B P c v Q k w R H1 H2 s HP. destruct (H1 s HP) as (s1 & E & HQ). destruct (H2 s1 HQ) as (s2 & E2 & HR).
  exists s2. unfold wbind. rewrite E. auto.
Qed.
Lemma tri_lift : forall {A B} P (r : res A) v (k : A -> W B) w R, r = Ok v -> tri P (k v) w R -> tri P (wbind (wlift r) k) w R.
Proof. intros A B P r v k w R -> H s HP. apply H, HP. Qed.
Lemma tri_ret : forall {A} P (v : A), tri P (wret v) v P.
Proof. intros A P v s H. exists s. split; [reflexivity|exact H]. Qed.
Lemma tri_weaken : forall {A} (P P' Q Q' : wst -> Prop) (c : W A) v, tri P c v Q -> (forall s, P' s -> P s) -> (forall s, Q s -> Q' s) -> tri P' c v Q'.
Proof. intros A P P' Q Q' c v H HP HQ s S. destruct (H s (HP s S)) as (s' & E & X). exists s'. auto. Qed.

Section Ops.
  Variables (f0 : bytes) (lo : N).
  Notation st := (st f0 lo).
  Notation stf := (stf f0 lo).

  Lemma run_snoc : forall ops o, run_ops (ops ++ [o]) f0 = apply_op (run_ops ops f0) o.
  Proof. intros. unfold run_ops. apply fold_left_app. Qed.

  Lemma tri_flush : forall a b, tri (st a b) bw_flush tt (stf a b).
  Proof.
    intros a b s ((a0 & x & F & C & A & X) & O & G & B). unfold bw_flush, os_write.
    destruct (w_buf s) as [|y l] eqn:E.
    - exists (Wst (w_file s) (w_cur s) [] (w_ops s)). split; [reflexivity|]. rewrite blen_nil in X. apply blen_0 in X. subst x.
      rewrite app_nil_r in A. subst a0. split; [|reflexivity]. split; [|split; [exact O|split; [exact G|left; reflexivity]]].
      exists a, []. cbn [w_file w_cur w_buf]. rewrite app_nil_r. auto.
    - destruct B as [B|B]; [discriminate|]. eexists. split; [reflexivity|]. split; [|reflexivity].
      cbn [w_file w_cur w_buf w_ops]. split; [|split; [|split]]; cbn [w_file w_cur w_buf w_ops].
      + exists a, []. rewrite app_nil_r. subst a. rewrite F, (write_at_mid a0 x (y :: l) b _ X C), blen_app, C, <- app_assoc. auto.
      + rewrite run_snoc, O. reflexivity.
      + apply Forall_app. split; [exact G|]. repeat constructor. exact B.
      + left. reflexivity.
  Qed.

  (** The unbuffered write used for large pieces. *)
  Lemma os_write_ok : forall a b y d s, stf a (y ++ b) s -> blen y = blen d -> lo <= blen a ->
    exists s', os_write d s = (Ok tt, s') /\ stf (a ++ d) b s'.
  Proof.
    intros a b y d s H L Lo. pose proof H as [((a0 & x & F & C & A & X) & O & G & _) B]. rewrite B in *.
    rewrite blen_nil in X. apply blen_0 in X. subst x. rewrite app_nil_r in A. subst a0. unfold os_write. destruct d as [|c d].
    - exists s. split; [reflexivity|]. rewrite blen_nil in L. apply blen_0 in L. subst y. rewrite app_nil_r. exact H.
    - eexists. split; [reflexivity|]. split; [|exact B]. split; [|split; [|split]]; cbn [w_file w_cur w_buf w_ops].
      + exists (a ++ c :: d), []. rewrite B, app_nil_r, blen_app, C. split; [|auto]. rewrite F. cbn [app].
        rewrite (write_at_mid a y (c :: d) b _ L eq_refl), <- app_assoc. reflexivity.
      + rewrite run_snoc, O. reflexivity.
      + apply Forall_app. split; [exact G|]. repeat constructor. rewrite C. exact Lo.
      + left. exact B.
  Qed.

  Lemma tri_write : forall cap a b y d, blen y = blen d -> lo <= blen a ->
    tri (st a (y ++ b)) (bw_write cap d) tt (st (a ++ d) b).
  Proof.
    intros cap a b y d L Lo s H. unfold bw_write.
    assert (Bf : forall t, st a (y ++ b) t ->
      exists s', (Ok tt, Wst (w_file t) (w_cur t) (w_buf t ++ d) (w_ops t)) = (Ok tt, s') /\ st (a ++ d) b s').
    { intros t ((a0 & x & F & C & A & X) & O & G & B). eexists. split; [reflexivity|].
      split; [|split; [exact O|split; [exact G|]]]; cbn [w_file w_cur w_buf w_ops].
      - exists a0, (x ++ y). rewrite F, A, !blen_app, <- !app_assoc. split; [reflexivity|]. split; [exact C|]. split; [reflexivity|lia].
      - destruct B as [B|B]; [|right; exact B]. right. rewrite A, B, app_nil_r in Lo. lia. }
    destruct (cap <? blen (w_buf s) + blen d) eqn:E1; destruct (cap <=? blen d) eqn:E2.
    - destruct (tri_flush a (y ++ b) s H) as (s1 & Ef & H1). rewrite Ef. cbn [snd].
      destruct (os_write_ok a b y d s1 H1 L Lo) as (s' & E & H'). exists s'. split; [exact E|apply H'].
    - destruct (tri_flush a (y ++ b) s H) as (s1 & Ef & H1). rewrite Ef. cbn [snd]. apply Bf, H1.
    - assert (W : w_buf s = []). { apply blen_0. lia. }
      destruct (os_write_ok a b y d s (conj H W) L Lo) as (s' & E & H'). exists s'. split; [exact E|apply H'].
    - apply Bf, H.
  Qed.

  Lemma tri_seek : forall q a b a' b', a ++ b = a' ++ b' -> q = blen a' -> q < two63 ->
    tri (st a b) (bw_seek_start q) tt (stf a' b').
  Proof.
    intros q a b a' b' E Q L. unfold bw_seek_start. eapply tri_bind; [apply tri_flush|]. intros s H. cbv beta.
    rewrite (proj2 (N.ltb_lt _ _)) by exact L. eexists. split; [reflexivity|]. eapply stf_any; eassumption.
  Qed.
  Lemma tri_seek_cur : forall d a y b, d = Z.of_N (blen y) -> blen (a ++ y) < two63 ->
    tri (st a (y ++ b)) (bw_seek_cur d) tt (stf (a ++ y) b).
  Proof.
    intros d a y b -> L. unfold bw_seek_cur. eapply tri_bind; [apply tri_flush|]. intros s H. cbv beta zeta.
    assert (C : w_cur s = blen a).
    { destruct H as [((a0 & x & F & C & A & X) & _) B]. rewrite A, B, app_nil_r. exact C. }
    rewrite C. rewrite blen_app in L. replace (_ && _)%bool with true by (symmetry; apply andb_true_intro; split; lia).
    eexists. split; [reflexivity|]. eapply stf_any; [exact H|rewrite <- app_assoc; reflexivity|]. rewrite blen_app. lia.
  Qed.
  Lemma tri_set_len : forall n a b, blen a <= n -> n < two63 -> lo <= n ->
    tri (st a b) (file_set_len n) tt (st a (set_length b (n - blen a))).
  Proof.
    intros n a b L L2 L3 s ((a0 & x & F & C & A & X) & O & G & B). unfold file_set_len. rewrite (proj2 (N.ltb_lt _ _)) by exact L2.
    eexists. split; [reflexivity|]. split; [|split; [|split; [|exact B]]]; cbn [w_file w_cur w_buf w_ops].
    - exists a0, x. split; [|auto]. rewrite F, app_assoc.
      replace n with (blen (a0 ++ x) + (n - blen a)) at 1.
      + rewrite set_length_app, <- app_assoc. reflexivity.
      + assert (blen (a0 ++ x) = blen a) as -> by (rewrite A, !blen_app; lia). lia.
    - rewrite run_snoc, O. reflexivity.
    - apply Forall_app. split; [exact G|]. repeat constructor. exact L3.
  Qed.
  Lemma tri_chunks : forall cap l a b y, blen y = blen (List.concat l) -> lo <= blen a ->
    tri (st a (y ++ b)) (bw_chunks cap l) tt (st (a ++ List.concat l) b).
  Proof.
    intros cap l. induction l as [|d r IH]; intros a b y L Lo; cbn [bw_chunks List.concat].
    - cbn [List.concat] in L. rewrite blen_nil in L. apply blen_0 in L. subst y. rewrite app_nil_r. apply tri_ret.
    - cbn [List.concat] in L. rewrite blen_app in L.
      assert (Y : exists y1 y2, y = y1 ++ y2 /\ blen y1 = blen d).
      { exists (firstn (List.length d) y), (skipn (List.length d) y). rewrite firstn_skipn. split; [reflexivity|].
        unfold blen in *. rewrite firstn_length. lia. }
      destruct Y as (y1 & y2 & -> & L1). rewrite blen_app in L. rewrite <- app_assoc.
      eapply tri_bind; [apply tri_write; assumption|]. rewrite (app_assoc a d). apply IH; [lia|rewrite blen_app; lia].
  Qed.
  Lemma tri_out : forall {A} cap (o : Out A) v a b y, snd o = Ok v -> blen y = blen (List.concat (fst o)) -> lo <= blen a ->
    tri (st a (y ++ b)) (bw_out cap o) v (st (a ++ List.concat (fst o)) b).
  Proof.
    intros A cap o v a b y E L Lo. unfold bw_out. eapply tri_bind; [apply tri_chunks; assumption|].
    rewrite E. intros s H. exists s. split; [reflexivity|exact H].
  Qed.
  Lemma tri_read : forall {A} (r : R A) q v p a b, r (a ++ b) q = Ok (v, p) -> q < two63 ->
    tri (stf a b) (w_read r q) v (stf a b).
  Proof.
    intros A r q v p a b E L s H. unfold w_read. rewrite (proj2 (N.ltb_lt _ _)) by exact L.
    rewrite (stf_file _ _ _ _ _ H), E. exists s. split; [reflexivity|exact H].
  Qed.
End Ops.
