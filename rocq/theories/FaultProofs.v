(** Writing on a failing device compared with writing on one that does not fail. *)

From Coq Require Import List NArith ZArith Bool Lia Arith.
From Coq Require Import ZifyBool ZifyNat ZifyN.
From Verif Require Import Base BaseLemmas Utf Types Stream Parse Find Write ReadProofs WriteBytes WriteState Fault.
Import ListNotations.

(** * The device *)

Definition is_broken (e : event) : bool := match e with Broken _ => true | _ => false end.
Definition no_broken (ev : list event) : Prop := existsb is_broken ev = false.

Lemma next_nb : forall ev, no_broken ev -> is_broken (fst (next ev)) = false /\ no_broken (snd (next ev)).
Proof. intros [|e r] H; [now split|]. unfold no_broken in *. cbn in *. apply orb_false_iff in H. exact H. Qed.

Lemma write_at_app : forall f p a b, write_at (write_at f p a) (p + blen a) b = write_at f p (a ++ b).
Proof.
  intros f p a b. unfold write_at.
  set (h := firstn (N.to_nat p) (f ++ zeros (p - blen f))).
  assert (Lh : List.length h = N.to_nat p).
  { unfold h. rewrite firstn_length, app_length, zeros_length. unfold blen. lia. }
  assert (Lb : blen h = p) by (unfold blen; lia).
  set (t := skipn (N.to_nat (p + blen a)) f).
  replace (p + blen a - blen (h ++ a ++ t)) with 0 by (rewrite !blen_app; lia).
  change (zeros 0) with (@nil byte). rewrite app_nil_r.
  assert (La : N.to_nat (p + blen a) = List.length (h ++ a)) by (rewrite app_length; unfold blen; lia).
  assert (E1 : firstn (N.to_nat (p + blen a)) (h ++ a ++ t) = h ++ a).
  { rewrite La, app_assoc, firstn_app, Nat.sub_diag, firstn_O, app_nil_r. apply firstn_all. }
  assert (E2 : skipn (N.to_nat (p + blen a + blen b)) (h ++ a ++ t) = skipn (N.to_nat (p + blen (a ++ b))) f).
  { rewrite app_assoc, skipn_app, skipn_all2 by (rewrite app_length in *; unfold blen in *; lia). cbn [app].
    unfold t. rewrite ReadProofs.skipn_skipn. f_equal. rewrite blen_app. rewrite app_length in *. unfold blen in *. lia. }
  rewrite E1, E2, <- !app_assoc. reflexivity.
Qed.

Lemma dev_write_spec : forall ev d ev' l rest, dev_write ev d = (ev', l, rest) ->
  List.concat l ++ rest = d /\ Forall (fun x => x <> []) l /\
  (no_broken ev -> rest = [] /\ no_broken ev').
Proof.
  induction ev as [|e ev IH]; intros d ev' l rest H; cbn [dev_write] in H.
  - destruct d as [|x d]; injection H as <- <- <-; cbn; rewrite ?app_nil_r; repeat split; auto.
    repeat constructor. discriminate.
  - destruct d as [|x d]; [injection H as <- <- <-; cbn; repeat split; auto|].
    destruct e as [c|n| |c].
    + injection H as <- <- <-. cbn. rewrite !app_nil_r. repeat split; auto; try (repeat constructor; discriminate).
    + destruct (dev_write ev (skipn (S n) (x :: d))) as [[ev1 l1] rest1] eqn:E. injection H as <- <- <-.
      destruct (IH _ _ _ _ E) as (C & N & B). split; [|split].
      * cbn [List.concat]. rewrite <- app_assoc, C. exact (firstn_skipn (S n) (x :: d)).
      * constructor; [discriminate|exact N].
      * exact B.
    + destruct (IH _ _ _ _ H) as (C & N & B). repeat split; auto; apply B; assumption.
    + injection H as <- <- <-. repeat split; auto; discriminate.
Qed.

Lemma store_spec : forall l s, Forall (fun x => x <> []) l ->
  w_buf (store s l) = w_buf s /\ w_cur (store s l) = w_cur s + blen (List.concat l) /\
  w_file (store s l) = match l with [] => w_file s | _ => write_at (w_file s) (w_cur s) (List.concat l) end.
Proof.
  induction l as [|d l IH]; intros s N.
  - cbn. rewrite blen_nil. repeat split. lia.
  - inversion N as [|? ? Nd Nl]; subst. cbn [store List.concat].
    destruct (IH (Wst (write_at (w_file s) (w_cur s) d) (w_cur s + blen d) (w_buf s) (w_ops s ++ [OWrite (w_cur s) d])) Nl) as (B & C & F).
    cbn [w_buf w_cur w_file] in *. rewrite B, C, F, blen_app. split; [reflexivity|]. split; [lia|].
    destruct l as [|e l]; [cbn [List.concat]; now rewrite app_nil_r|]. apply write_at_app.
Qed.

(** * The two writers *)

Section Sim.
  Context (f0 : bytes).

  Definition sync (s : wst) (t : fst') : Prop :=
    w_file s = w_file (f_w t) /\ w_cur s = w_cur (f_w t) /\ w_buf s = w_buf (f_w t).
  (** Nothing is buffered; the cursors may differ. *)
  Definition loose (s : wst) (t : fst') : Prop :=
    w_file s = w_file (f_w t) /\ w_buf s = [] /\ w_buf (f_w t) = [].
  Definition either (s : wst) (t : fst') : Prop := sync s t \/ loose s t.

  (** The state after a failing call, if [ops] are the calls of the other writer. *)
  Definition stopped (ops : list fop) (t : fst') : Prop :=
    exists made rest, ops = made ++ rest /\
      ((w_file (f_w t) = run_ops made f0 /\ w_buf (f_w t) = []) \/
       (exists p d r k, rest = OWrite p d :: r /\ (k <= List.length d)%nat /\
          (k = O /\ w_file (f_w t) = run_ops made f0 \/ w_file (f_w t) = write_at (run_ops made f0) p (firstn k d)) /\
          w_cur (f_w t) = p + N.of_nat k /\ (w_buf (f_w t) = [] \/ w_buf (f_w t) = skipn k d)) \/
       (exists n p d r, rest = OSetLen n :: OWrite p d :: r /\
          w_file (f_w t) = run_ops made f0 /\ w_cur (f_w t) = p /\ w_buf (f_w t) = d)).
  Lemma stopped_app : forall ops x t, stopped ops t -> stopped (ops ++ x) t.
  Proof.
    intros ops x t (made & rest & -> & H). exists made, (rest ++ x). split; [symmetry; apply app_assoc|].
    destruct H as [H|[(p & d & r & k & -> & H)|(n & p & d & r & -> & H)]]; [left; exact H| |].
    - right. left. exists p, d, (r ++ x), k. split; [reflexivity|exact H].
    - right. right. exists n, p, d, (r ++ x). split; [reflexivity|exact H].
  Qed.

  (** The calls are only added to, and they produce the file. *)
  Definition runs (s : wst) : Prop := run_ops (w_ops s) f0 = w_file s.
  Definition ext {A} (c : W A) : Prop :=
    forall s r s', c s = (r, s') -> (exists x, w_ops s' = w_ops s ++ x) /\ (runs s -> runs s').

  Definition sim {A} (P : wst -> fst' -> Prop) (c : W A) (g : F A) (Q : wst -> fst' -> Prop) : Prop :=
    ext c /\
    forall s t r s' o t', P s t -> runs s -> c s = (r, s') -> g t = (o, t') ->
      match o with
      | Done r' => r' = r /\ (no_broken (f_ev t) -> no_broken (f_ev t')) /\
                   match r with Ok _ => Q s' t' | _ => either s' t' end
      | DeviceError => ~ no_broken (f_ev t) /\ stopped (w_ops s') t'
      end.

  Lemma ext_bind : forall A B (c : W A) (k : A -> W B), ext c -> (forall a, ext (k a)) -> ext (wbind c k).
  Proof.
    intros A B c k C K s r s' H. unfold wbind in H. destruct (c s) as [r1 s1] eqn:E. destruct (C _ _ _ E) as [[x X] R].
    destruct r1 as [a|e|q|]; try (injection H as <- <-; split; [exists x; exact X|exact R]).
    destruct (K a _ _ _ H) as [[y Y] R']. split; [exists (x ++ y); rewrite Y, X; symmetry; apply app_assoc|auto].
  Qed.

  Lemma sim_bind : forall A B P Q R (c : W A) (g : F A) (k : A -> W B) (h : A -> F B),
    sim P c g Q -> (forall a, sim Q (k a) (h a) R) -> sim P (wbind c k) (fbind _ _ g h) R.
  Proof.
    intros A B P Q R c g k h [Ec C] K. split; [apply ext_bind; [exact Ec|intro a; apply K]|].
    intros s t r s' o t' HP HR H1 H2. unfold wbind in H1. unfold fbind in H2.
    destruct (c s) as [r1 s1] eqn:E1. destruct (g t) as [o1 t1] eqn:E2.
    specialize (C s t r1 s1 o1 t1 HP HR E1 E2). destruct (Ec _ _ _ E1) as [_ R1].
    destruct o1 as [r1'|].
    - destruct C as (-> & NB & C). destruct r1 as [a|e|q|];
        try (injection H1 as <- <-; injection H2 as <- <-; split; [reflexivity|]; split; [exact NB|exact C]).
      destruct (K a) as [_ Ka]. specialize (Ka s1 t1 r s' o t' C (R1 HR) H1 H2). destruct o as [r'|].
      + destruct Ka as (-> & NB' & Ka). split; [reflexivity|]. split; [auto|exact Ka].
      + destruct Ka as [NB' Ka]. split; [auto|exact Ka].
    - injection H2 as <- <-. destruct C as [NB C]. split; [exact NB|].
      destruct r1 as [a|e|q|]; try (injection H1 as <- <-; exact C).
      destruct (K a) as [Ek _]. destruct (Ek _ _ _ H1) as [[x X] _]. rewrite X. apply stopped_app, C.
  Qed.

  Lemma sim_weak : forall A (P P' Q Q' : wst -> fst' -> Prop) (c : W A) g,
    sim P c g Q -> (forall s t, P' s t -> P s t) -> (forall s t, Q s t -> Q' s t) -> sim P' c g Q'.
  Proof.
    intros A P P' Q Q' c g [E C] H1 H2. split; [exact E|]. intros s t r s' o t' HP HR Hc Hg.
    specialize (C s t r s' o t' (H1 _ _ HP) HR Hc Hg). destruct o as [r'|]; [|exact C].
    destruct C as (-> & NB & C). split; [reflexivity|]. split; [exact NB|]. destruct r; auto.
  Qed.

  Lemma ext_id : forall A (r : res A), ext (fun s => (r, s)).
  Proof. intros A r s r' s' H. injection H as <- <-. split; [exists []; symmetry; apply app_nil_r|auto]. Qed.

  Lemma sim_lift : forall A (P : wst -> fst' -> Prop) (r : res A), (forall s t, P s t -> either s t) -> sim P (wlift r) (flift _ r) P.
  Proof.
    intros A P r K. split; [apply ext_id|]. intros s t r' s' o t' HP HR H1 H2.
    injection H1 as <- <-. injection H2 as <- <-. split; [reflexivity|]. split; [auto|]. destruct r; auto.
  Qed.
  Lemma sim_ret : forall A (P : wst -> fst' -> Prop) (a : A), sim P (wret a) (fret _ a) P.
  Proof.
    intros A P a. split; [apply (ext_id A (Ok a))|]. intros s t r' s' o t' HP HR H1 H2.
    injection H1 as <- <-. injection H2 as <- <-. split; [reflexivity|]. split; [auto|exact HP].
  Qed.

  Lemma snoc_run : forall ops o, run_ops (ops ++ [o]) f0 = apply_op (run_ops ops f0) o.
  Proof. intros. unfold run_ops. apply fold_left_app. Qed.

  Lemma os_write_spec : forall d s r s', os_write d s = (r, s') ->
    r = Ok tt /\ w_buf s' = w_buf s /\ w_cur s' = w_cur s + blen d /\
    w_file s' = match d with [] => w_file s | _ => write_at (w_file s) (w_cur s) d end /\
    w_ops s' = w_ops s ++ match d with [] => [] | _ => [OWrite (w_cur s) d] end.
  Proof.
    intros d s r s' H. unfold os_write in H. destruct d; injection H as <- <-.
    - rewrite blen_nil, app_nil_r, N.add_0_r. repeat split.
    - repeat split.
  Qed.
  Lemma ext_os_write : forall d, ext (os_write d).
  Proof.
    intros d s r s' H. destruct (os_write_spec _ _ _ _ H) as (_ & _ & _ & F & O). split; [eexists; exact O|].
    unfold runs. intro R. rewrite O, F. destruct d; [rewrite app_nil_r; exact R|]. rewrite snoc_run, R. reflexivity.
  Qed.
  Lemma ext_flush : ext bw_flush.
  Proof.
    intros s r s' H. unfold bw_flush in H. destruct (os_write (w_buf s) s) as [r1 s1] eqn:E. injection H as <- <-.
    exact (ext_os_write _ _ _ _ E).
  Qed.

  (** Both store the same bytes [d] at the same cursor. *)
  Lemma dev_sim : forall d s t ev' l rest, w_file s = w_file (f_w t) -> w_cur s = w_cur (f_w t) -> runs s ->
    dev_write (f_ev t) d = (ev', l, rest) ->
    forall r s', os_write d s = (r, s') ->
    (rest = [] -> w_file (store (f_w t) l) = w_file s' /\ w_cur (store (f_w t) l) = w_cur s' /\ w_buf (store (f_w t) l) = w_buf (f_w t)) /\
    (rest <> [] -> ~ no_broken (f_ev t) /\
       forall b, b = [] \/ b = rest -> stopped (w_ops s') (Fst (with_buf (store (f_w t) l) b) ev')) /\
    (no_broken (f_ev t) -> rest = [] /\ no_broken ev').
  Proof.
    intros d s t ev' l rest Hf Hc HR D r s' H. destruct (dev_write_spec _ _ _ _ _ D) as (C & N & B).
    destruct (store_spec l (f_w t) N) as (S1 & S2 & S3). destruct (os_write_spec _ _ _ _ H) as (_ & _ & W2 & W3 & W4).
    split; [|split; [|exact B]].
    - intros ->. rewrite app_nil_r in C. rewrite S1, S2, S3, W2, W3, C, Hf, Hc. repeat split.
      destruct l as [|x l]; [cbn in C; subst d; reflexivity|]. destruct d as [|y d]; [|reflexivity].
      inversion N; subst. destruct x; [congruence|discriminate].
    - intro Nr. split; [intro X; apply Nr, B, X|]. intros b Hb.
      assert (Nd : d <> []) by (subst d; intro X; apply app_eq_nil in X; destruct X; contradiction).
      exists (w_ops s), [OWrite (w_cur s) d]. split; [rewrite W4; destruct d; [contradiction|reflexivity]|].
      right. left. exists (w_cur s), d, [], (List.length (List.concat l)). unfold with_buf; cbn [f_w w_file w_cur w_buf].
      split; [reflexivity|]. split; [subst d; rewrite app_length; lia|]. unfold runs in HR. rewrite HR, S3, S2, Hf, Hc.
      assert (F1 : firstn (List.length (List.concat l)) d = List.concat l).
      { subst d. rewrite firstn_app, Nat.sub_diag, firstn_O, app_nil_r. apply firstn_all. }
      assert (F2 : skipn (List.length (List.concat l)) d = rest).
      { subst d. rewrite skipn_app, Nat.sub_diag, skipn_all. reflexivity. }
      rewrite F1, F2. split; [|split; [reflexivity|exact Hb]].
      destruct l as [|x l]; [left; split; reflexivity|right; reflexivity].
  Qed.

  Lemma sim_flush : sim either bw_flush f_flush loose.
  Proof.
    split; [exact ext_flush|]. intros s t r s' o t' HP HR H1 H2. unfold bw_flush in H1. unfold f_flush in H2.
    destruct (os_write (w_buf s) s) as [r1 s1] eqn:E. injection H1 as <- <-.
    destruct (dev_write (f_ev t) (w_buf (f_w t))) as [[ev' l] rest] eqn:D.
    destruct (os_write_spec _ _ _ _ E) as (-> & W1 & W2 & W3 & W4).
    destruct HP as [(F & C & B)|(F & B1 & B2)].
    - rewrite B in E. destruct (dev_sim _ s t _ _ _ F C HR D _ _ E) as (X & Y & Z).
      destruct rest as [|z rest]; injection H2 as <- <-.
      + destruct (X eq_refl) as (X1 & X2 & X3). split; [reflexivity|]. split; [intro NB; apply Z, NB|].
        unfold loose, with_buf; cbn [f_w w_file w_buf]. repeat split. congruence.
      + destruct (Y ltac:(discriminate)) as [Y1 Y2]. split; [exact Y1|]. cbn [w_ops]. apply Y2. right. reflexivity.
    - rewrite B1 in *. rewrite B2 in D.
      assert (D' : (ev', l, rest) = (f_ev t, [], [])) by (rewrite <- D; destruct (f_ev t) as [|[]]; reflexivity).
      injection D' as -> -> ->. injection H2 as <- <-. split; [reflexivity|]. split; [auto|].
      unfold loose, with_buf; cbn [f_w w_file w_buf store]. repeat split. congruence.
  Qed.
  (** From a synchronous state the cursors agree. *)
  Lemma sim_flush_sync : sim sync bw_flush f_flush sync.
  Proof.
    split; [exact ext_flush|]. intros s t r s' o t' HP HR H1 H2. unfold bw_flush in H1. unfold f_flush in H2.
    destruct (os_write (w_buf s) s) as [r1 s1] eqn:E. injection H1 as <- <-.
    destruct (dev_write (f_ev t) (w_buf (f_w t))) as [[ev' l] rest] eqn:D.
    destruct (os_write_spec _ _ _ _ E) as (-> & W1 & W2 & W3 & W4).
    destruct HP as (F & C & B).
    rewrite B in E. destruct (dev_sim _ s t _ _ _ F C HR D _ _ E) as (X & Y & Z).
    destruct rest as [|z rest]; injection H2 as <- <-.
    + destruct (X eq_refl) as (X1 & X2 & X3). split; [reflexivity|]. split; [intro NB; apply Z, NB|].
      unfold sync, with_buf; cbn [f_w w_file w_buf w_cur]. repeat split; congruence.
    + destruct (Y ltac:(discriminate)) as [Y1 Y2]. split; [exact Y1|]. cbn [w_ops]. apply Y2. right. reflexivity.
  Qed.

  Definition w_push (d : bytes) : W unit := fun s => (Ok tt, Wst (w_file s) (w_cur s) (w_buf s ++ d) (w_ops s)).
  Lemma bw_write_eq : forall cap d s,
    bw_write cap d s = wbind (if cap <? blen (w_buf s) + blen d then bw_flush else wret tt)
                             (fun _ => if cap <=? blen d then os_write d else w_push d) s.
  Proof.
    intros cap d s. unfold bw_write, wbind. destruct (cap <? blen (w_buf s) + blen d).
    - destruct (bw_flush s) as [r s1] eqn:E. assert (r = Ok tt) as ->.
      { unfold bw_flush in E. destruct (os_write (w_buf s) s) as [r1 s2] eqn:E1. injection E as <- _. apply (os_write_spec _ _ _ _ E1). }
      cbn [snd]. destruct (cap <=? blen d); reflexivity.
    - cbn [wret]. destruct (cap <=? blen d); reflexivity.
  Qed.

  (** Direct writing happens with an empty buffer unless nothing is to be written. *)
  Lemma sim_write_all : forall d, sim (fun s t => sync s t /\ (w_buf s = [] \/ d = [])) (os_write d) (f_write_all d) sync.
  Proof.
    intro d. split; [apply ext_os_write|]. intros s t r s' o t' [(F & C & B) Hb] HR H1 H2.
    unfold f_write_all in H2. destruct (dev_write (f_ev t) d) as [[ev' l] rest] eqn:D.
    destruct (dev_sim _ s t _ _ _ F C HR D _ _ H1) as (X & Y & Z).
    destruct (os_write_spec _ _ _ _ H1) as (-> & W1 & W2 & W3 & W4).
    destruct rest as [|z rest]; injection H2 as <- <-.
    - destruct (X eq_refl) as (X1 & X2 & X3). split; [reflexivity|]. split; [intro NB; apply Z, NB|].
      unfold sync; cbn [f_w]. repeat split; congruence.
    - destruct (Y ltac:(discriminate)) as [Y1 Y2]. split; [exact Y1|].
      destruct (dev_write_spec _ _ _ _ _ D) as (Cc & N & _). destruct (store_spec l (f_w t) N) as (S1 & _ & _).
      assert (Bt : w_buf (f_w t) = []).
      { destruct Hb as [Hb| ->]; [congruence|]. destruct (List.concat l); discriminate. }
      replace (store (f_w t) l) with (with_buf (store (f_w t) l) []); [apply Y2; left; reflexivity|].
      rewrite Bt in S1. destruct (store (f_w t) l). cbn in S1. subst. reflexivity.
  Qed.
  Lemma sim_push : forall d, sim sync (w_push d) (f_push d) sync.
  Proof.
    intro d. split.
    - intros s r s' H. injection H as <- <-. split; [exists []; symmetry; apply app_nil_r|auto].
    - intros s t r s' o t' (F & C & B) HR H1 H2. injection H1 as <- <-. injection H2 as <- <-.
      split; [reflexivity|]. split; [auto|]. unfold sync, with_buf; cbn [f_w w_file w_cur w_buf]. repeat split; congruence.
  Qed.

  Lemma sim_write : forall cap d, sim sync (bw_write cap d) (f_write cap d) sync.
  Proof.
    intros cap d.
    assert (X : forall b, sim (fun s t => sync s t /\ (b = false -> cap <= blen d -> w_buf s = [] \/ d = []))
      (wbind (if b : bool then bw_flush else wret tt) (fun _ => if cap <=? blen d then os_write d else w_push d))
      (fbind _ _ (if b then f_flush else fret _ tt) (fun _ => if cap <=? blen d then f_write_all d else f_push d)) sync).
    { intro b. apply sim_bind with (Q := fun s t => sync s t /\ (cap <= blen d -> w_buf s = [] \/ d = [])).
      - destruct b.
        + split; [exact ext_flush|]. intros s t r s' o t' [HP _] HR H1 H2.
          destruct sim_flush_sync as [_ S]. specialize (S s t r s' o t' HP HR H1 H2).
          destruct o as [r'|]; [|exact S]. destruct S as (-> & NB & S). split; [reflexivity|]. split; [exact NB|].
          unfold bw_flush in H1. destruct (os_write (w_buf s) s) as [r1 s1] eqn:E.
          destruct (os_write_spec _ _ _ _ E) as (-> & _). injection H1 as <- <-. split; [exact S|]. left. reflexivity.
        + eapply sim_weak; [apply sim_ret| |intros s t H; exact H]. cbn. intros s t [H1 H2]. split; auto.
      - intros _. destruct (cap <=? blen d) eqn:Ec.
        + eapply sim_weak; [apply sim_write_all| |intros s t H; exact H]. cbn. intros s t [H1 H2]. split; [exact H1|]. apply H2. lia.
        + eapply sim_weak; [apply sim_push| |intros s t H; exact H]. intros s t [H _]. exact H. }
    split.
    - intros s r s' H. rewrite bw_write_eq in H. destruct (X (cap <? blen (w_buf s) + blen d)) as [E _]. exact (E _ _ _ H).
    - intros s t r s' o t' HP HR H1 H2. rewrite bw_write_eq in H1. unfold f_write in H2.
      assert (Eb : w_buf (f_w t) = w_buf s) by (symmetry; apply HP). rewrite Eb in H2.
      destruct (X (cap <? blen (w_buf s) + blen d)) as [_ S]. refine (S s t r s' o t' _ HR H1 H2).
      split; [exact HP|]. intros Ef Hc. left. apply blen_0. lia.
  Qed.

  Lemma next_case : forall ev (A : Type) (b : list event -> A) (k : event -> list event -> A),
    match next ev with (Broken _, r) => b r | (e, r) => k e r end =
    (if is_broken (fst (next ev)) then b (snd (next ev)) else k (fst (next ev)) (snd (next ev))).
  Proof. intros ev A b k. destruct (next ev) as [[] r]; reflexivity. Qed.

  (** Moving the cursor: nothing is buffered. *)
  Definition w_move (z : Z) : W unit :=
    fun s => if ((0 <=? z) && (z <? Z.of_N two63))%Z then (Ok tt, Wst (w_file s) (Z.to_N z) (w_buf s) (w_ops s)) else (Err EIoSeek, s).
  Lemma ext_move : forall z, ext (w_move z).
  Proof.
    intros z s r s' H. unfold w_move in H. destruct (_ && _)%Z; injection H as <- <-; (split; [exists []; symmetry; apply app_nil_r|auto]).
  Qed.
  Lemma sim_move : forall z, sim loose (w_move z) (f_move z) (fun s t => sync s t /\ loose s t).
  Proof.
    intro z. split; [apply ext_move|]. intros s t r s' o t' HP HR H1 H2. unfold w_move in H1. unfold f_move in H2.
    destruct (_ && _)%Z.
    - injection H1 as <- <-. destruct HP as (F & B1 & B2). destruct (next (f_ev t)) as [e ev] eqn:En.
      assert (D : is_broken e = false -> o = Done (Ok tt) /\ t' = Fst (Wst (w_file (f_w t)) (Z.to_N z) (w_buf (f_w t)) (w_ops (f_w t))) ev).
      { intro X. destruct e; try discriminate; injection H2 as <- <-; split; reflexivity. }
      destruct (is_broken e) eqn:Eb.
      + destruct e; try discriminate. injection H2 as <- <-. split.
        * intro NB. destruct (next_nb _ NB) as [X _]. rewrite En in X. discriminate.
        * exists (w_ops s), []. split; [symmetry; apply app_nil_r|]. left. cbn [f_w]. split; [rewrite <- F; symmetry; exact HR|exact B2].
      + destruct (D eq_refl) as [-> ->]. split; [reflexivity|]. split; [intro NB; destruct (next_nb _ NB) as [_ X]; rewrite En in X; exact X|].
        unfold sync, loose; cbn [f_w w_file w_cur w_buf]. repeat split; congruence.
    - injection H1 as <- <-. injection H2 as <- <-. split; [reflexivity|]. split; [auto|]. right. exact HP.
  Qed.

  Lemma seek_eq : forall q s, bw_seek_start q s = wbind bw_flush (fun _ => w_move (Z.of_N q)) s.
  Proof.
    intros q s. unfold bw_seek_start, wbind. destruct (bw_flush s) as [[[]| | |] s1]; try reflexivity. unfold w_move.
    replace ((0 <=? Z.of_N q) && (Z.of_N q <? Z.of_N two63))%Z with (q <? two63) by lia.
    destruct (q <? two63); [|reflexivity]. now rewrite N2Z.id.
  Qed.
  Lemma sim_ext : forall A P Q (c c' : W A) (g g' : F A), (forall s, c s = c' s) -> (forall t, g t = g' t) -> sim P c g Q -> sim P c' g' Q.
  Proof.
    intros A P Q c c' g g' H1 H2 [E S]. split.
    - intros s r s' H. rewrite <- H1 in H. exact (E _ _ _ H).
    - intros s t r s' o t' HP HR Hc Hg. rewrite <- H1 in Hc. rewrite <- H2 in Hg. exact (S s t r s' o t' HP HR Hc Hg).
  Qed.
  Lemma sim_seek : forall q, sim either (bw_seek_start q) (f_seek q) (fun s t => sync s t /\ loose s t).
  Proof.
    intro q. eapply sim_ext; [intro s; symmetry; apply seek_eq|intro t; reflexivity|].
    unfold f_seek. eapply sim_bind; [apply sim_flush|]. intros _. apply sim_move.
  Qed.
  Lemma sim_seek_sync : forall q, sim either (bw_seek_start q) (f_seek q) sync.
  Proof. intro q. eapply sim_weak; [apply sim_seek|auto|]. intros s t [H _]. exact H. Qed.

  Lemma sim_seek_cur : forall d, sim sync (bw_seek_cur d) (f_seek_cur d) sync.
  Proof.
    intro d.
    assert (X : sim (fun s t => sync s t /\ loose s t) (fun s => w_move (Z.of_N (w_cur s) + d) s) (fun t => f_move (Z.of_N (w_cur (f_w t)) + d) t) sync).
    { split.
      - intros s r s' H. exact (ext_move _ _ _ _ H).
      - intros s t r s' o t' [HP HL] HR H1 H2. cbv beta in H1, H2. destruct HP as (_ & C & _). rewrite <- C in H2.
        destruct (sim_move (Z.of_N (w_cur s) + d)) as [_ S]. specialize (S s t r s' o t' HL HR H1 H2).
        destruct o as [r'|]; [|exact S]. destruct S as (-> & NB & S). split; [reflexivity|]. split; [exact NB|]. destruct r; [apply S|exact S..]. }
    unfold f_seek_cur. apply (sim_ext _ _ _ (wbind bw_flush (fun _ s => w_move (Z.of_N (w_cur s) + d) s)) _ _ _ (fun s => eq_refl) (fun t => eq_refl)).
    eapply sim_bind; [|intros _; exact X].
    split; [exact ext_flush|]. intros s t r s' o t' HP HR H1 H2.
    destruct sim_flush_sync as [_ S1]. specialize (S1 s t r s' o t' HP HR H1 H2).
    destruct sim_flush as [_ S2]. specialize (S2 s t r s' o t' (or_introl HP) HR H1 H2).
    destruct o as [r'|]; [|exact S1]. destruct S1 as (-> & NB & S1). destruct S2 as (_ & _ & S2).
    split; [reflexivity|]. split; [exact NB|]. destruct r; auto.
  Qed.

  Lemma sim_read : forall A (r : R A) q, sim loose (w_read r q) (f_read _ r q) loose.
  Proof.
    intros A r q. split.
    - intros s r' s' H. unfold w_read in H. destruct (q <? two63); [|injection H as <- <-; split; [exists []; symmetry; apply app_nil_r|auto]].
      destruct (r (w_file s) q) as [[a p]| | |]; injection H as <- <-; (split; [exists []; symmetry; apply app_nil_r|auto]).
    - intros s t r' s' o t' (F & B1 & B2) HR H1 H2. unfold w_read in H1. unfold f_read in H2.
      assert (Es : s' = s).
      { destruct (q <? two63); [|injection H1 as _ <-; reflexivity]. destruct (r (w_file s) q) as [[a p]| | |]; injection H1 as _ <-; reflexivity. }
      subst s'. destruct (next (f_ev t)) as [e ev] eqn:En. destruct (is_broken e) eqn:Eb.
      + destruct e; try discriminate. injection H2 as <- <-. split.
        * intro NB. destruct (next_nb _ NB) as [X _]. rewrite En in X. discriminate.
        * exists (w_ops s), []. split; [symmetry; apply app_nil_r|]. left. cbn [f_w at_cursor w_file w_buf]. split; [rewrite <- F; symmetry; exact HR|exact B2].
      + set (t1 := Fst (at_cursor (f_w t) (match e with Fine c => c | _ => 0 end)) ev).
        assert (D : (o, t') = (Done r', t1)).
        { rewrite <- H2. rewrite <- F. unfold t1. destruct e; try discriminate; cbv zeta;
            (destruct (q <? two63); [|injection H1 as <-; reflexivity]; destruct (r (w_file s) q) as [[a p]| | |]; injection H1 as <-; reflexivity). }
        injection D as -> ->. split; [reflexivity|]. split; [intro NB; destruct (next_nb _ NB) as [_ X]; rewrite En in X; exact X|].
        assert (L : loose s t1) by (unfold loose, t1; cbn [f_w at_cursor w_file w_buf]; repeat split; assumption).
        destruct r'; [exact L|right; exact L..].
  Qed.

  Lemma sync_either : forall s t, sync s t -> either s t. Proof. intros; left; assumption. Qed.
  Lemma loose_either : forall s t, loose s t -> either s t. Proof. intros; right; assumption. Qed.

  (** * The program *)

  Lemma sim_chunks : forall cap l,
    sim sync (g_chunks W (@wret) (@wbind) (bw_write cap) l) (g_chunks F fret fbind (f_write cap) l) sync.
  Proof.
    intros cap l. induction l as [|d l IH]; cbn [g_chunks]; [apply sim_ret|].
    eapply sim_bind; [apply sim_write|intros _; exact IH].
  Qed.
  Lemma sim_out : forall A cap (o : Out A),
    sim sync (g_out W (@wret) (@wbind) (@wlift) (bw_write cap) o) (g_out F fret fbind flift (f_write cap) o) sync.
  Proof. intros A cap o. unfold g_out. eapply sim_bind; [apply sim_chunks|]. intros _. apply sim_lift, sync_either. Qed.
  Lemma sim_offsets : forall cap m wide diff l,
    sim sync (g_offsets W (@wret) (@wbind) (@wlift) (bw_write cap) m wide diff l) (g_offsets F fret fbind flift (f_write cap) m wide diff l) sync.
  Proof.
    intros cap m wide diff l. induction l as [|co l IH]; cbn [g_offsets]; [apply sim_ret|].
    eapply sim_bind; [apply sim_lift, sync_either|]. intro v. eapply sim_bind; [apply sim_write|intros _; exact IH].
  Qed.
  Lemma sim_table : forall cap m wide diff b,
    sim loose (g_table W (@wret) (@wbind) (@wlift) (bw_write cap) bw_seek_start bw_flush w_table m wide diff b)
        (g_table F fret fbind flift (f_write cap) f_seek f_flush f_table m wide diff b) loose.
  Proof.
    intros cap m wide diff b. unfold g_table. eapply sim_bind; [apply sim_lift, loose_either|]. intro cp.
    eapply sim_bind; [unfold w_table, f_table; apply sim_read|]. intro t.
    eapply sim_bind; [eapply sim_weak; [apply sim_seek_sync|apply loose_either|intros s u H; exact H]|]. intros _.
    eapply sim_bind; [apply sim_offsets|]. intros _. eapply sim_weak; [apply sim_flush|apply sync_either|auto].
  Qed.
  Lemma sim_traks : forall cap m diff l,
    sim loose (g_traks W (@wret) (@wbind) (@wlift) (bw_write cap) bw_seek_start bw_flush w_table m diff l)
        (g_traks F fret fbind flift (f_write cap) f_seek f_flush f_table m diff l) loose.
  Proof.
    intros cap m diff l. induction l as [|t l IH]; cbn [g_traks]; [apply sim_ret|].
    eapply sim_bind; [|intros _; exact IH]. destruct (trak_stbl t) as [sb|]; [|apply sim_ret]. unfold g_stbl. eapply sim_bind.
    - destruct (sb_stco sb) as [b|]; [apply sim_table|apply sim_ret].
    - intros _. destruct (sb_co64 sb) as [b|]; [apply sim_table|apply sim_ret].
  Qed.
  Lemma sim_update : forall cap m diff l,
    sim either (g_update_all W (@wret) (@wbind) (@wlift) (bw_write cap) bw_seek_start bw_seek_cur m diff l)
        (g_update_all F fret fbind flift (f_write cap) f_seek f_seek_cur m diff l) either.
  Proof.
    intros cap m diff l. induction l as [|b l IH]; cbn [g_update_all]; [apply sim_ret|].
    eapply sim_bind; [|intros _; exact IH]. unfold g_update. eapply sim_bind; [apply sim_lift; auto|]. intro n.
    eapply sim_bind; [apply sim_seek_sync|]. intros _. eapply sim_weak with (P := sync) (Q := sync); [|auto|apply sync_either].
    destruct (sz_ext (b_size b)).
    - eapply sim_bind; [apply sim_write|]. intros _. eapply sim_bind; [apply sim_seek_cur|]. intros _. apply sim_write.
    - apply sim_write.
  Qed.

  (** Setting the length with a pending buffer, and the seek that stores the buffer. *)
  Lemma ext_set_len : forall n, ext (file_set_len n).
  Proof.
    intros n s r s' H. unfold file_set_len in H. destruct (n <? two63); injection H as <- <-.
    - split; [eexists; reflexivity|]. unfold runs. cbn [w_ops w_file]. intro R. rewrite snoc_run, R. reflexivity.
    - split; [exists []; symmetry; apply app_nil_r|auto].
  Qed.
  Lemma flush_ops : forall s r s', bw_flush s = (r, s') -> w_ops s' = w_ops s ++ match w_buf s with [] => [] | d => [OWrite (w_cur s) d] end.
  Proof.
    intros s r s' H. unfold bw_flush in H. destruct (os_write (w_buf s) s) as [r1 s1] eqn:E. injection H as <- <-.
    destruct (os_write_spec _ _ _ _ E) as (_ & _ & _ & _ & O). cbn [w_ops]. rewrite O. destruct (w_buf s); reflexivity.
  Qed.
  Lemma seek_ops : forall q s r s', bw_seek_start q s = (r, s') -> w_ops s' = w_ops s ++ match w_buf s with [] => [] | d => [OWrite (w_cur s) d] end.
  Proof.
    intros q s r s' H. unfold bw_seek_start, wbind in H. destruct (bw_flush s) as [r1 s1] eqn:E. pose proof (flush_ops _ _ _ E) as O.
    destruct r1 as [[]| | |]; try (injection H as <- <-; exact O). destruct (q <? two63); injection H as <- <-; exact O.
  Qed.
  Lemma sim_set_len : forall n q,
    sim either (wbind (file_set_len n) (fun _ => bw_seek_start q)) (fbind _ _ (f_set_len n) (fun _ => f_seek q)) sync.
  Proof.
    intros n q. destruct (sim_seek_sync q) as [Es S]. split; [apply ext_bind; [apply ext_set_len|intros _; exact Es]|].
    intros s t r s' o t' HP HR H1 H2. unfold wbind in H1. unfold fbind in H2.
    destruct (file_set_len n s) as [r1 s1] eqn:E1. destruct (ext_set_len n _ _ _ E1) as [_ R1].
    unfold file_set_len in E1. unfold f_set_len in H2. destruct (n <? two63).
    - injection E1 as <- <-. destruct (next (f_ev t)) as [e ev] eqn:En.
      set (s1 := Wst (set_length (w_file s) n) (w_cur s) (w_buf s) (w_ops s ++ [OSetLen n])) in *.
      set (t1 := Fst (Wst (set_length (w_file (f_w t)) n) (w_cur (f_w t)) (w_buf (f_w t)) (w_ops (f_w t) ++ [OSetLen n])) ev).
      destruct (is_broken e) eqn:Eb.
      + destruct e; try discriminate. injection H2 as <- <-. split.
        * intro NB. destruct (next_nb _ NB) as [X _]. rewrite En in X. discriminate.
        * pose proof (seek_ops _ _ _ _ H1) as O. cbn [s1 w_ops w_buf w_cur] in O. rewrite O. unfold runs in HR.
          destruct HP as [(F & C & B)|(F & B1 & B2)].
          -- destruct (w_buf s) as [|x d] eqn:Ed.
             ++ exists (w_ops s), [OSetLen n]. split; [apply app_nil_r|]. left. cbn [f_w]. split; congruence.
             ++ exists (w_ops s), [OSetLen n; OWrite (w_cur s) (x :: d)]. split; [rewrite <- app_assoc; reflexivity|].
                right. right. exists n, (w_cur s), (x :: d), []. cbn [f_w]. repeat split; congruence.
          -- rewrite B1. exists (w_ops s), [OSetLen n]. split; [apply app_nil_r|]. left. cbn [f_w]. split; congruence.
      + assert (H3 : f_seek q t1 = (o, t')) by (destruct e; try discriminate; exact H2).
        assert (HP1 : either s1 t1).
        { destruct HP as [(F & C & B)|(F & B1 & B2)]; [left|right]; unfold sync, loose, s1, t1; cbn [f_w w_file w_cur w_buf]; repeat split; congruence. }
        specialize (S s1 t1 r s' o t' HP1 (R1 HR) H1 H3). cbn [f_ev t1] in S.
        assert (NB1 : no_broken (f_ev t) -> no_broken ev) by (intro NB; destruct (next_nb _ NB) as [_ X]; rewrite En in X; exact X).
        destruct o as [r'|]; [destruct S as (-> & NB & S); split; [reflexivity|]; split; [auto|exact S]|destruct S as [NB S]; split; [auto|exact S]].
    - injection E1 as <- <-. injection H1 as <- <-. injection H2 as <- <-. split; [reflexivity|]. split; [auto|exact HP].
  Qed.

  Lemma wbind_assoc : forall A B C D (a : W A) (b : A -> W B) (c : W C) (k : C -> W D) s,
    wbind a (fun x => wbind (wbind (b x) (fun _ => c)) k) s = wbind (wbind a b) (fun _ => wbind c k) s.
  Proof. intros. unfold wbind. destruct (a s) as [[x| | |] s1]; try reflexivity. destruct (b x s1) as [[y| | |] s2]; try reflexivity. Qed.
  Lemma fbind_assoc : forall A B C D (a : F A) (b : A -> F B) (c : F C) (k : C -> F D) s,
    fbind _ _ a (fun x => fbind _ _ (fbind _ _ (b x) (fun _ => c)) k) s = fbind _ _ (fbind _ _ a b) (fun _ => fbind _ _ c k) s.
  Proof.
    intros. unfold fbind. destruct (a s) as [[[x| | |]|] s1]; try reflexivity. destruct (b x s1) as [[[y| | |]|] s2]; try reflexivity.
  Qed.

  Lemma sim_execute : forall cap m p, sim loose (w_execute cap m p) (f_execute cap m p) loose.
  Proof.
    intros cap m p. unfold w_execute, f_execute, g_execute.
    apply sim_bind with (Q := loose). { destruct (_ <? _); [apply sim_traks|apply sim_ret]. }
    intros _. apply sim_bind with (Q := either). { eapply sim_weak; [apply sim_update|apply loose_either|auto]. }
    intros _. eapply sim_ext; [intro s; apply wbind_assoc|intro t; apply fbind_assoc|].
    eapply sim_bind; [apply sim_lift; auto|]. intro n. eapply sim_bind; [apply sim_set_len|]. intros _.
    eapply sim_bind; [apply sim_out|]. intros _.
    apply sim_bind with (Q := sync).
    { eapply sim_bind; [apply sim_lift, sync_either|]. intro q. eapply sim_weak; [apply sim_seek_sync|apply sync_either|auto]. }
    intros _. eapply sim_bind; [apply sim_write|]. intros _. eapply sim_weak; [apply sim_flush|apply sync_either|auto].
  Qed.
End Sim.

(** * The file afterwards *)

(** Some of the calls have been made, and then nothing, or a part of the next write, or a part of the
    write that follows a change of the length that failed. *)
Definition after_fault (ops : list fop) (f g : bytes) : Prop :=
  exists made rest, ops = made ++ rest /\
    (g = run_ops made f \/
     (exists p d r k, rest = OWrite p d :: r /\ g = write_at (run_ops made f) p (firstn k d)) \/
     (exists n p d r k, rest = OSetLen n :: OWrite p d :: r /\ g = write_at (run_ops made f) p (firstn k d))).

Lemma stopped_file : forall f ops t, stopped f ops t -> after_fault ops f (w_file (f_w t)).
Proof.
  intros f ops t (made & rest & -> & H). exists made, rest. split; [reflexivity|].
  destruct H as [[H _]|[(p & d & r & k & -> & _ & H & _)|(n & p & d & r & -> & H & _)]]; [left; exact H| |left; exact H].
  destruct H as [[_ H]|H]; [left; exact H|]. right. left. exists p, d, r, k. split; [reflexivity|exact H].
Qed.

Lemma firstn_split : forall (d : bytes) k l rest, List.concat l ++ rest = skipn k d -> (k <= List.length d)%nat ->
  firstn k d ++ List.concat l = firstn (k + List.length (List.concat l)) d.
Proof.
  intros d k l rest H L. assert (Ed : d = (firstn k d ++ concat l) ++ rest) by (rewrite <- app_assoc, H; symmetry; apply firstn_skipn).
  assert (El : (k + length (concat l))%nat = length (firstn k d ++ concat l)) by (rewrite app_length, firstn_length; lia).
  rewrite El. remember (firstn k d ++ concat l) as x. rewrite Ed, firstn_app, Nat.sub_diag, firstn_O, app_nil_r. symmetry. apply firstn_all.
Qed.

(** Dropping the writer. *)
Lemma stopped_drop : forall f ops t o t', stopped f ops t -> f_flush t = (o, t') -> after_fault ops f (w_file (f_w t')).
Proof.
  intros f ops t o t' S H. unfold f_flush in H. destruct (dev_write (f_ev t) (w_buf (f_w t))) as [[ev' l] rest] eqn:D.
  injection H as _ <-. unfold with_buf; cbn [f_w w_file].
  destruct (dev_write_spec _ _ _ _ _ D) as (C & N & _). destruct (store_spec l (f_w t) N) as (_ & _ & S3).
  assert (Nil : l = [] -> after_fault ops f (w_file (store (f_w t) l))) by (intros ->; apply (stopped_file _ _ t S)).
  assert (B0 : w_buf (f_w t) = [] -> l = []).
  { intro X. rewrite X in C. apply app_eq_nil in C. destruct C as [C _]. destruct l as [|x l]; [reflexivity|]. inversion N; subst.
    destruct x; [congruence|discriminate]. }
  destruct S as (made & rst & -> & S).
  destruct S as [[_ S]|[(p & d & r & k & -> & Lk & F & Cu & B)|(n & p & d & r & -> & F & Cu & B)]]; [apply Nil, B0, S| |].
  - destruct B as [B|B]; [apply Nil, B0, B|]. destruct l as [|x l]; [apply Nil; reflexivity|].
    rewrite B in C. pose proof (firstn_split d k _ _ C Lk) as X. set (c := concat (x :: l)) in *.
    exists made, (OWrite p d :: r). split; [reflexivity|]. right. left. exists p, d, r, (k + List.length c)%nat. split; [reflexivity|].
    rewrite S3, Cu. destruct F as [[-> F]|F].
    + rewrite F, N.add_0_r. cbn [firstn] in X. rewrite <- X. reflexivity.
    + rewrite F. replace (N.of_nat k) with (blen (firstn k d)) by (unfold blen; rewrite firstn_length; lia).
      rewrite write_at_app, X. reflexivity.
  - destruct l as [|x l]; [apply Nil; reflexivity|]. rewrite B in C. set (c := concat (x :: l)) in *.
    exists made, (OSetLen n :: OWrite p d :: r). split; [reflexivity|]. right. right. exists n, p, d, r, (List.length c). split; [reflexivity|].
    rewrite S3, Cu, F. rewrite <- C, firstn_app, Nat.sub_diag, firstn_O, app_nil_r, firstn_all. reflexivity.
Qed.

Lemma after_fault_app : forall ops x f g, after_fault ops f g -> after_fault (ops ++ x) f g.
Proof.
  intros ops x f g (made & rest & -> & H). exists made, (rest ++ x). split; [symmetry; apply app_assoc|].
  destruct H as [H|[(p & d & r & k & -> & H)|(n & p & d & r & k & -> & H)]]; [left; exact H| |].
  - right. left. exists p, d, (r ++ x), k. split; [reflexivity|exact H].
  - right. right. exists n, p, d, (r ++ x), k. split; [reflexivity|exact H].
Qed.

Theorem faulty_spec : forall ev cap fuel m items f pos,
  let fr := faulty_write ev cap fuel m items f pos in
  let w := write_tag_to cap fuel m items f pos in
  (fr_res fr = Done (wr_res w) \/ fr_res fr = DeviceError) /\
  after_fault (wr_ops w) f (fr_file fr) /\
  (fr_res fr = Done (Ok tt) -> fr_file fr = wr_file w) /\
  (no_broken ev -> fr_res fr = Done (wr_res w) /\ fr_file fr = wr_file w).
Proof.
  intros ev cap fuel m items f pos fr w. unfold fr, w, faulty_write, write_tag_to.
  assert (Unch : forall ops, after_fault ops f f) by (intro ops; exists [], ops; split; [reflexivity|left; reflexivity]).
  destruct (next ev) as [e ev'] eqn:En.
  assert (NB0 : no_broken ev -> is_broken e = false /\ no_broken ev') by (intro NB; pose proof (next_nb _ NB) as X; rewrite En in X; exact X).
  destruct (is_broken e) eqn:Eb.
  { destruct e; try discriminate. cbn [fr_res fr_file]. split; [right; reflexivity|]. split; [apply Unch|]. split; [discriminate|].
    intro NB. destruct (NB0 NB). discriminate. }
  set (c := match e with Fine c => c | _ => 0 end).
  destruct (prepare fuel m items f pos) as [[p q]| | |] eqn:P.
  2,3,4: (destruct e; try discriminate; cbn [fr_res fr_file wr_res wr_file wr_ops];
    (split; [left; reflexivity|]; split; [apply Unch|]; split; [discriminate|auto])).
  replace (match e with Broken _ => FResult DeviceError f | _ => _ end) with
    (match f_execute cap m p (Fst (Wst f c [] []) ev') with (r, s) => match f_flush s with (_, s') => FResult r (w_file (f_w s')) end end)
    by (unfold c; destruct e; try discriminate; reflexivity).
  rewrite <- program_is_execute.
  set (s0 := Wst f 0 [] []). set (t0 := Fst (Wst f c [] []) ev').
  destruct (w_execute cap m p s0) as [r s] eqn:E1. destruct (f_execute cap m p t0) as [o t] eqn:E2.
  destruct (sim_execute f cap m p) as [Ex S].
  assert (L0 : loose s0 t0) by (repeat split). assert (R0 : runs f s0) by reflexivity.
  specialize (S s0 t0 r s o t L0 R0 E1 E2). destruct (Ex _ _ _ E1) as [_ R1]. specialize (R1 R0).
  destruct (bw_flush s) as [r2 s2] eqn:E3. destruct (f_flush t) as [o2 t2] eqn:E4.
  cbn [fr_res fr_file wr_res wr_file wr_ops]. cbn [t0 f_ev] in S. destruct o as [r'|].
  - destruct S as (-> & NB & S). assert (Ei : either s t) by (destruct r; [right; exact S|exact S..]).
    destruct (sim_flush f) as [Exf Sf]. specialize (Sf s t r2 s2 o2 t2 Ei R1 E3 E4). destruct (Exf _ _ _ E3) as [_ R2]. specialize (R2 R1).
    assert (r2 = Ok tt).
    { unfold bw_flush in E3. destruct (os_write (w_buf s) s) as [r3 s3] eqn:E. injection E3 as <- _. apply (os_write_spec _ _ _ _ E). }
    subst r2. split; [left; reflexivity|]. split; [|split].
    + destruct o2 as [r2|].
      * destruct Sf as (_ & _ & (F & _)). exists (w_ops s2), []. split; [symmetry; apply app_nil_r|]. left. unfold runs in R2. congruence.
      * destruct Sf as [_ Sf]. apply (stopped_file _ _ _ Sf).
    + intro X. injection X as ->. destruct S as (F & B1 & B2). unfold bw_flush in E3. rewrite B1 in E3. cbn [os_write] in E3. injection E3 as <-.
      unfold f_flush in E4. rewrite B2 in E4. assert (D : dev_write (f_ev t) [] = (f_ev t, [], [])) by (destruct (f_ev t) as [|[]]; reflexivity).
      rewrite D in E4. injection E4 as _ <-. cbn [f_w with_buf w_file store]. congruence.
    + intro NBe. split; [reflexivity|]. destruct o2 as [r2|]; [destruct Sf as (_ & _ & (F & _)); congruence|].
      destruct Sf as [X _]. exfalso. apply X, NB, NB0, NBe.
  - destruct S as [NB S]. split; [right; reflexivity|]. split; [|split; [discriminate|intro NBe; exfalso; apply NB, NB0, NBe]].
    destruct (ext_flush f _ _ _ E3) as [[x X] _]. rewrite X. apply after_fault_app. exact (stopped_drop _ _ _ _ _ S E4).
Qed.
