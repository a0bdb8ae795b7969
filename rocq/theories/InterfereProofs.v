(** Proofs about writing to a file that others change. *)

From Coq Require Import List NArith ZArith Bool Lia Arith String.
From Coq Require Import ZifyBool ZifyNat ZifyN.
From Verif Require Import Base BaseLemmas Types Utf Stream Parse Find Write Fault Interfere.
Import ListNotations.
Local Open Scope list_scope.

(** * At most one turn: the file is changed first *)

Definition sim (s : xst) (w : wst) : Prop :=
  match x_others s with
  | [] => x_w s = w
  | [g] => with_file (x_w s) (g (w_file (x_w s))) = w
  | _ => False
  end.
Definition xw {A} (c : X A) (d : W A) : Prop := forall s w, sim s w -> fst (c s) = fst (d w) /\ sim (snd (c s)) (snd (d w)).

Lemma sim_turn : forall s w, sim s w -> x_w (x_turn s) = w /\ x_others (x_turn s) = [].
Proof. intros [w0 [|g [|h r]]] w H; cbn in *; try contradiction; auto. Qed.
Lemma sim_buf : forall s w, sim s w -> w_buf (x_w s) = w_buf w /\ w_cur (x_w s) = w_cur w /\ w_ops (x_w s) = w_ops w.
Proof. intros [w0 [|g [|h r]]] w H; cbn in *; try contradiction; subst w; auto. Qed.
Lemma xw_call : forall {A} (op : W A), xw (x_call op) op.
Proof.
  intros A op s w H. destruct (sim_turn s w H) as [E O]. unfold x_call, x_run. rewrite E, O. destruct (op w) as [r w']. cbn. auto.
Qed.
(** Operations that neither look at the file nor change it. *)
Lemma xw_run : forall {A} (op : W A), (forall w f, op (with_file w f) = (fst (op w), with_file (snd (op w)) f)) -> xw (x_run op) op.
Proof.
  intros A op B [w0 [|g [|h r]]] w H; cbn in *; try contradiction.
  - subst w. unfold x_run. cbn. destruct (op w0); cbn; auto.
  - subst w. unfold x_run. cbn [x_w x_others]. pose proof (B w0 (w_file w0)) as B0. rewrite (B w0 (g (w_file w0))). destruct (op w0) as [x w1] eqn:E. cbn. split; [reflexivity|].
    unfold sim. cbn. f_equal. f_equal. destruct w0 as [f0 c0 b0 o0]. unfold with_file in B0. cbn in B0. rewrite E in B0. cbn in B0. injection B0 as B0.
    rewrite B0. reflexivity.
Qed.
Lemma xw_ret : forall {A} (a : A), xw (xret A a) (wret a).
Proof. intros A a s w H. split; [reflexivity|exact H]. Qed.
Lemma xw_lift : forall {A} (r : res A), xw (xlift A r) (wlift r).
Proof. intros A r s w H. split; [reflexivity|exact H]. Qed.
Lemma xw_bind : forall {A B} (c : X A) (d : W A) (k : A -> X B) (l : A -> W B), xw c d -> (forall a, xw (k a) (l a)) -> xw (xbind A B c k) (wbind d l).
Proof.
  intros A B c d k l H K s w S. destruct (H s w S) as [E S']. unfold xbind, wbind. destruct (c s) as [r s1], (d w) as [r' w1]. cbn in E, S'. subst r'.
  destruct r; cbn; auto. apply K, S'.
Qed.
Lemma flush_nil : forall w, w_buf w = [] -> bw_flush w = (Ok tt, w).
Proof. intros [f c b o] H. cbn in H. subst b. reflexivity. Qed.
Lemma xw_flush : xw x_flush bw_flush.
Proof.
  intros s w H. destruct (sim_buf s w H) as [Eb _]. unfold x_flush. destruct (w_buf (x_w s)) eqn:E; [|apply xw_call, H].
  unfold x_run. rewrite (flush_nil (x_w s) E), (flush_nil w (eq_sym Eb)). cbn. split; [reflexivity|]. destruct s; exact H.
Qed.
Lemma xw_write : forall cap d, xw (x_write cap d) (bw_write cap d).
Proof.
  intros cap d s w H. destruct (sim_buf s w H) as [Eb _]. unfold x_write, bw_write. rewrite Eb.
  assert (S1 : sim (if cap <? blen (w_buf w) + blen d then snd (x_flush s) else s) (if cap <? blen (w_buf w) + blen d then snd (bw_flush w) else w))
    by (destruct (_ <? _); [apply xw_flush, H|exact H]).
  revert S1. generalize (if cap <? blen (w_buf w) + blen d then snd (x_flush s) else s) (if cap <? blen (w_buf w) + blen d then snd (bw_flush w) else w). intros s1 w1 S1.
  destruct (cap <=? blen d); [apply xw_call, S1|]. cbn. split; [reflexivity|].
  destruct s1 as [w0 [|g [|h r]]]; cbn in *; try contradiction; subst w1; reflexivity.
Qed.
Lemma run_seek : forall q s, w_buf s = [] -> bw_seek_start q s = if q <? two63 then (Ok tt, Wst (w_file s) q [] (w_ops s)) else (Err EIoSeek, s).
Proof. intros q s H. unfold bw_seek_start, wbind. rewrite flush_nil by exact H. rewrite H. reflexivity. Qed.
Lemma flush_empties : forall w, fst (bw_flush w) = Ok tt /\ w_buf (snd (bw_flush w)) = [].
Proof. intros [f c b o]. unfold bw_flush. destruct b; cbn; auto. Qed.
(** Seeking behind a flush, which flushes nothing any more. *)
Lemma xw_then : forall (go : wst -> res unit * wst), (forall w f, go (with_file w f) = (fst (go w), with_file (snd (go w)) f)) ->
  xw (xbind _ _ x_flush (fun _ => x_run (wbind bw_flush (fun _ => go)))) (wbind bw_flush (fun _ => go)).
Proof.
  intros go B s w H. destruct (xw_flush s w H) as [E S]. destruct (flush_empties w) as [F1 F2]. unfold xbind.
  assert (Ew : wbind bw_flush (fun _ => go) w = go (snd (bw_flush w))) by (clear - F1; unfold wbind; destruct (bw_flush w) as [r w1]; cbn [fst snd] in *; subst r; reflexivity).
  rewrite Ew. rewrite F1 in E. destruct (x_flush s) as [r s1]. cbn [fst snd] in E, S. subst r.
  destruct (sim_buf s1 _ S) as [Eb _]. rewrite F2 in Eb. pose proof (xw_run go B s1 _ S) as R. unfold x_run in *. unfold wbind. rewrite (flush_nil _ Eb). exact R.
Qed.
Lemma xw_seek : forall q, xw (x_seek q) (bw_seek_start q).
Proof. intros q. apply xw_then. intros [f c b o] g. unfold with_file. cbn. destruct (q <? two63); reflexivity. Qed.
Lemma xw_seek_cur : forall d, xw (x_seek_cur d) (bw_seek_cur d).
Proof. intros q. apply xw_then. intros [f c b o] g. unfold with_file. cbn. destruct (_ && _)%bool; reflexivity. Qed.

Lemma xw_execute : forall cap m p, xw (x_execute cap m p) (w_execute cap m p).
Proof.
  intros cap m p.
  assert (CH : forall l, xw (g_chunks X xret xbind (x_write cap) l) (g_chunks W (@wret) (@wbind) (bw_write cap) l)).
  { induction l as [|d l IH]; [apply xw_ret|]. apply xw_bind; [apply xw_write|intros _; exact IH]. }
  assert (OF : forall wide diff l, xw (g_offsets X xret xbind xlift (x_write cap) m wide diff l) (g_offsets W (@wret) (@wbind) (@wlift) (bw_write cap) m wide diff l)).
  { intros wide diff. induction l as [|co l IH]; [apply xw_ret|]. apply xw_bind; [apply xw_lift|]. intros v. apply xw_bind; [apply xw_write|intros _; exact IH]. }
  assert (TA : forall wide diff b, xw (g_table X xret xbind xlift (x_write cap) x_seek x_flush x_table m wide diff b)
     (g_table W (@wret) (@wbind) (@wlift) (bw_write cap) bw_seek_start bw_flush w_table m wide diff b)).
  { intros wide diff b. apply xw_bind; [apply xw_lift|]. intros cp. apply xw_bind; [apply xw_call|]. intros t. apply xw_bind; [apply xw_seek|]. intros _.
    apply xw_bind; [apply OF|]. intros _. apply xw_flush. }
  assert (TR : forall diff l, xw (g_traks X xret xbind xlift (x_write cap) x_seek x_flush x_table m diff l)
     (g_traks W (@wret) (@wbind) (@wlift) (bw_write cap) bw_seek_start bw_flush w_table m diff l)).
  { intros diff. induction l as [|t l IH]; [apply xw_ret|]. apply xw_bind; [|intros _; exact IH]. destruct (trak_stbl t) as [sb|]; [|apply xw_ret].
    apply xw_bind; [destruct (sb_stco sb); [apply TA|apply xw_ret]|]. intros _. destruct (sb_co64 sb); [apply TA|apply xw_ret]. }
  assert (UP : forall diff l, xw (g_update_all X xret xbind xlift (x_write cap) x_seek x_seek_cur m diff l)
     (g_update_all W (@wret) (@wbind) (@wlift) (bw_write cap) bw_seek_start bw_seek_cur m diff l)).
  { intros diff. induction l as [|b l IH]; [apply xw_ret|]. apply xw_bind; [|intros _; exact IH].
    apply xw_bind; [apply xw_lift|]. intros n. apply xw_bind; [apply xw_seek|]. intros _. destruct (sz_ext (b_size b)); [|apply xw_write].
    apply xw_bind; [apply xw_write|]. intros _. apply xw_bind; [apply xw_seek_cur|]. intros _. apply xw_write. }
  unfold x_execute, w_execute, g_execute. apply xw_bind; [destruct (_ <? _); [apply TR|apply xw_ret]|]. intros _.
  apply xw_bind; [apply UP|]. intros _. apply xw_bind; [apply xw_bind; [apply xw_lift|intros n; apply xw_call]|]. intros _.
  apply xw_bind; [apply xw_seek|]. intros _. apply xw_bind; [apply xw_bind; [apply CH|intros _; apply xw_lift]|]. intros _.
  apply xw_bind; [apply xw_bind; [apply xw_lift|intros q; apply xw_seek]|]. intros _. apply xw_bind; [apply xw_write|]. intros _. apply xw_flush.
Qed.

(** Writing as planned, to whatever is in the file now. *)
Definition late (cap : N) (m : mode) (p : plan) (f : bytes) : sresult :=
  match execute cap m p (Wst f 0 [] []) with (r, s) => match bw_flush s with (_, s') => SResult r (w_file s') end end.

Lemma shared_late : forall cap fuel m items f p q g, prepare fuel m items f 0 = Ok (p, q) ->
  shared_write [g] cap fuel m items f = late cap m p (g f) /\ shared_write [] cap fuel m items f = late cap m p f.
Proof.
  assert (K : forall cap m p others f f', sim (Xst (Wst f 0 [] []) others) (Wst f' 0 [] []) ->
    match x_execute cap m p (Xst (Wst f 0 [] []) others) with
    | (r, s) => match x_flush s with (_, s') => SResult r (rest (x_others s') (w_file (x_w s'))) end
    end = late cap m p f').
  { intros cap m p others f f' S. destruct (xw_execute cap m p _ _ S) as [E S']. unfold late. rewrite program_is_execute in E, S'.
    destruct (x_execute cap m p (Xst (Wst f 0 [] []) others)) as [r s]. destruct (execute cap m p (Wst f' 0 [] [])) as [r' w]. cbn in E, S'. subst r'.
    destruct (xw_flush s w S') as [_ S2]. destruct (x_flush s) as [r1 s1], (bw_flush w) as [r2 w2]. cbn in S2. f_equal.
    destruct s1 as [w1 [|g [|h l]]]; cbn in *; try contradiction; subst w2; reflexivity. }
  intros cap fuel m items f p q g P. unfold shared_write. rewrite P. split; apply K; reflexivity.
Qed.
