(** Proofs for PowerSpec.v: every call writes bytes that are allowed where they are written, so that the order does not matter. *)

From Coq Require Import List NArith ZArith Bool Lia Arith String.
From Coq Require Import ZifyBool ZifyNat ZifyN.
From Verif Require Import Base BaseLemmas Types Utf Stream Parse Find Write TagSpec FileSpec FailSpec PanicSpec Display Described DescribedIs DescribedWrite ErrSpec FirstSpec OutSpec LayoutSpec WOutSpec WOutPlan WOutRun PowerSpec.
From Verif Require Props_WOut OutBase LayoutTables LayoutWrite LayoutProofs Fault.
Import ListNotations.
Local Open Scope list_scope.
Local Open Scope d_scope.

(** * Bytes by position *)

Definition byte_at (f : bytes) (q : N) : option byte := nth_error f (N.to_nat q).
Lemma slice_one : forall f q, slice f q 1 = match byte_at f q with Some b => [b] | None => [] end.
Proof.
  intros f q. unfold slice, byte_at. change (N.to_nat 1) with 1%nat. revert f. induction (N.to_nat q) as [|k IH]; intros [|b f]; try reflexivity. cbn [skipn nth_error]. apply IH.
Qed.
Lemma same_at_is : forall f g q, same_at f g q <-> byte_at g q = byte_at f q.
Proof.
  intros f g q. unfold same_at. rewrite !slice_one. split; intros H; [|now rewrite H]. destruct (byte_at g q), (byte_at f q); try discriminate; congruence.
Qed.
Lemma byte_lt : forall f q b, byte_at f q = Some b -> q < blen f.
Proof. intros f q b H. unfold byte_at in H. assert (X : nth_error f (N.to_nat q) <> None) by congruence. apply nth_error_Some in X. unfold blen. lia. Qed.
Lemma byte_ge : forall f q, blen f <= q -> byte_at f q = None.
Proof. intros f q H. apply nth_error_None. unfold blen in H. lia. Qed.
Lemma byte_app1 : forall a b q, q < blen a -> byte_at (a ++ b) q = byte_at a q.
Proof. intros a b q H. apply nth_error_app1. unfold blen in H. lia. Qed.
Lemma byte_app2 : forall a b q, blen a <= q -> byte_at (a ++ b) q = byte_at b (q - blen a).
Proof. intros a b q H. unfold byte_at. rewrite nth_error_app2 by (unfold blen in H; lia). f_equal. unfold blen. lia. Qed.
Lemma byte_firstn : forall f n q, q < n -> byte_at (firstn (N.to_nat n) f) q = byte_at f q.
Proof.
  intros f n q H. unfold byte_at. assert (L : (N.to_nat q < N.to_nat n)%nat) by lia. revert L. generalize (N.to_nat q) as i. generalize (N.to_nat n) as k. clear.
  intros k. revert f. induction k as [|k IH]; intros f i L; [lia|]. destruct f as [|b f]; [destruct i; reflexivity|]. destruct i as [|i]; [reflexivity|]. cbn [firstn nth_error]. apply IH. lia.
Qed.
Lemma byte_skipn : forall f n q, byte_at (skipn (N.to_nat n) f) q = byte_at f (n + q).
Proof.
  intros f n q. unfold byte_at. rewrite N2Nat.inj_add. generalize (N.to_nat q) as i. generalize (N.to_nat n) as k. clear.
  intros k. revert f. induction k as [|k IH]; intros f i; [reflexivity|]. destruct f as [|b f]; [destruct i; reflexivity|]. cbn [skipn Nat.add nth_error]. apply IH.
Qed.
Lemma patch_in : forall p d f q, p <= q < p + blen d -> byte_at (patch p d f) q = byte_at d (q - p).
Proof.
  intros p d f q H. destruct d as [|x d]; [rewrite blen_nil in H; lia|]. unfold patch. rewrite byte_app2 by (rewrite before_len; lia). rewrite before_len. apply byte_app1. lia.
Qed.
Lemma patch_before : forall p d f q, q < p -> q < blen f -> byte_at (patch p d f) q = byte_at f q.
Proof.
  intros p d f q H L. destruct d as [|x d]; [reflexivity|]. unfold patch. rewrite byte_app1 by (rewrite before_len; lia). rewrite byte_firstn by lia. now apply byte_app1.
Qed.
Lemma patch_behind : forall p d f q, p + blen d <= q -> byte_at (patch p d f) q = byte_at f q.
Proof.
  intros p d f q H. destruct d as [|x d]; [reflexivity|]. unfold patch. set (D := x :: d) in *. rewrite byte_app2 by (rewrite before_len; lia). rewrite before_len, byte_app2 by lia. rewrite byte_skipn. f_equal. lia.
Qed.
Lemma patch_blen : forall p d f, blen f <= blen (patch p d f).
Proof.
  intros p d f. destruct d as [|x d]; [unfold patch; lia|]. unfold patch. set (D := x :: d). rewrite !blen_app, before_len. unfold blen. rewrite skipn_length. lia.
Qed.
Lemma resize_len : forall n f, blen (resize n f) = n.
Proof. intros n f. unfold resize. rewrite blen_app, zeros_len. unfold blen. rewrite firstn_length. lia. Qed.
Lemma resize_at : forall n f q, q < n -> q < blen f -> byte_at (resize n f) q = byte_at f q.
Proof. intros n f q H L. unfold resize. rewrite byte_app1 by (unfold blen in *; rewrite firstn_length; lia). apply byte_firstn, H. Qed.
Lemma resize_same : forall f, resize (blen f) f = f.
Proof. intros f. unfold resize. rewrite N.sub_diag. change (zeros 0) with (@nil byte). rewrite app_nil_r. apply firstn_all2. unfold blen. lia. Qed.
Lemma bytes_same : forall f g, (forall q, byte_at f q = byte_at g q) -> f = g.
Proof.
  intros f. induction f as [|x f IH]; intros [|y g] H; [reflexivity|specialize (H 0); discriminate|specialize (H 0); discriminate|].
  f_equal; [specialize (H 0); unfold byte_at in H; change (N.to_nat 0) with 0%nat in H; cbn [nth_error] in H; injection H; auto|]. apply IH. intros q. specialize (H (q + 1)). unfold byte_at in *. replace (N.to_nat (q + 1)) with (S (N.to_nat q)) in H by lia. exact H.
Qed.

(** * What is written, where *)

Section Calls.
  Context (ok : N -> byte -> Prop) (len_ok : N -> Prop).

  Definition okat (p : N) (d : bytes) : Prop := forall i b, byte_at d i = Some b -> ok (p + i) b.
  Definition okop (o : fop) : Prop := match o with OWrite p d => okat p d | OSetLen n => len_ok n end.
  Definition okcall (o : fop) : Prop := okop o /\ match o with OWrite _ [] => False | _ => True end.
  Definition good (s : wst) : Prop := Forall okcall (w_ops s) /\ okat (w_cur s) (w_buf s).

  Lemma okat_nil : forall p, okat p [].
  Proof. intros p i b H. apply byte_lt in H. rewrite blen_nil in H. lia. Qed.
  Lemma okat_app : forall p a b, okat p (a ++ b) <-> okat p a /\ okat (p + blen a) b.
  Proof.
    intros p a b. split.
    - intros H. split; intros i x Hx.
      + apply H. rewrite byte_app1; [exact Hx|]. exact (byte_lt _ _ _ Hx).
      + rewrite <- N.add_assoc. apply H. rewrite byte_app2 by lia. rewrite <- Hx. f_equal. lia.
    - intros [HA HB] i x Hx. destruct (N.lt_ge_cases i (blen a)) as [L|L].
      + rewrite byte_app1 in Hx by exact L. now apply HA.
      + rewrite byte_app2 in Hx by exact L. replace (p + i) with (p + blen a + (i - blen a)) by lia. now apply HB.
  Qed.

  Definition gpost {A} (x : DW A) (s : wst) (Q : A -> wst -> Prop) : Prop :=
    match x s with (DOk a, s') => Q a s' | (_, s') => good s' end.
  Lemma gp_bind : forall {A B} (x : DW A) (k : A -> DW B) s Q S, gpost x s Q -> (forall a s', Q a s' -> gpost (k a) s' S) -> gpost (dwbind A B x k) s S.
  Proof. intros A B x k s Q S H K. unfold gpost, dwbind in *. destruct (x s) as [[a|e t|q|] s']; try exact H. apply K, H. Qed.
  Lemma gp_then : forall {A} (x : DW A) s (Q Q' : A -> wst -> Prop), gpost x s Q -> (forall a s', Q a s' -> Q' a s') -> gpost x s Q'.
  Proof. intros A x s Q Q' H K. unfold gpost in *. destruct (x s) as [[a|e t|q|] s']; try exact H. apply K, H. Qed.
  Lemma gp_ret : forall {A} (a : A) s (Q : A -> wst -> Prop), Q a s -> gpost (dwret A a) s Q. Proof. intros. exact H. Qed.
  Lemma gp_same : forall {A} (x y : DW A) s Q, x s = y s -> gpost y s Q -> gpost x s Q.
  Proof. intros A x y s Q H P. unfold gpost. rewrite H. exact P. Qed.
  Lemma gp_lift : forall {A} (r : res A) s, good s -> gpost (dwlift A r) s (fun a s' => r = Ok a /\ s' = s).
  Proof. intros A r s G. unfold gpost, dwlift. destruct r; cbn [dress]; auto. Qed.
  Lemma gp_addi : forall m a b s, good s -> gpost (dwlift Z (addi m a b)) s (fun c s' => turned m (a + b) c /\ s' = s).
  Proof. intros m a b s G. unfold gpost, dwlift. destruct (addi_is m a b) as [(c & T & ->)|[B ->]]; cbn [dress]; auto. Qed.

  Lemma flush_good : forall s, good s -> exists s', bw_flush s = (Ok tt, s') /\ good s' /\ w_file s' = lfile s /\ w_cur s' = lcur s /\ w_buf s' = [].
  Proof.
    intros s [G K]. unfold bw_flush, os_write, lfile, lcur. destruct (w_buf s) as [|b r] eqn:E.
    - eexists. split; [reflexivity|]. cbn [w_file w_cur w_buf]. rewrite blen_nil, N.add_0_r. split; [|auto]. split; [exact G|apply okat_nil].
    - eexists. split; [reflexivity|]. cbn [w_file w_cur w_buf]. split; [|split; [apply patch_is; discriminate|auto]]. split; [|apply okat_nil].
      cbn [w_ops]. apply Forall_app. split; [exact G|]. constructor; [split; [exact K|exact I]|constructor].
  Qed.
  Lemma gp_flush : forall s, good s -> gpost (dw bw_flush) s (fun _ s' => good s' /\ w_file s' = lfile s /\ w_cur s' = lcur s /\ w_buf s' = []).
  Proof. intros s G. unfold gpost, dw. destruct (flush_good s G) as (s1 & -> & H). cbn [dress]. exact H. Qed.
  Lemma gp_write : forall cap d s, good s -> okat (lcur s) d -> gpost (dw (bw_write cap d)) s (fun _ s' => good s' /\ lfile s' = patch (lcur s) d (lfile s) /\ lcur s' = lcur s + blen d).
  Proof.
    intros cap d s G K. destruct (write_is cap d s) as (s1 & E & F1 & C1). unfold gpost, dw. rewrite E. cbn [dress]. split; [|auto].
    unfold bw_write in E. set (t := if cap <? blen (w_buf s) + blen d then snd (bw_flush s) else s) in *.
    assert (T : good t /\ lcur t = lcur s /\ (cap <= blen d -> d <> [] -> w_buf t = [])).
    { unfold t. destruct (flush_good s G) as (s2 & E2 & G2 & _ & C2 & B2). destruct (cap <? blen (w_buf s) + blen d) eqn:Ec.
      - rewrite E2. cbn [snd]. split; [exact G2|]. split; [unfold lcur in *; rewrite B2, blen_nil; lia|intros; exact B2].
      - split; [exact G|]. split; [reflexivity|]. intros X D. destruct (w_buf s) as [|y l]; [reflexivity|]. destruct d; [now destruct D|]. unfold blen in *. cbn [List.length] in *. lia. }
    destruct T as ([Gt Kt] & Lt & Xt). clearbody t. destruct (cap <=? blen d) eqn:Ec.
    - unfold os_write in E. destruct d as [|x l].
      + injection E as <-. split; assumption.
      + specialize (Xt ltac:(lia) ltac:(discriminate)). unfold lcur in Lt at 1. rewrite Xt, blen_nil, N.add_0_r in Lt. injection E as <-. split; cbn [w_ops w_cur w_buf].
        * apply Forall_app. split; [exact Gt|]. constructor; [|constructor]. split; [|exact I]. cbn [okop]. rewrite Lt. exact K.
        * rewrite Xt. apply okat_nil.
    - injection E as <-. split; cbn [w_ops w_cur w_buf]; [exact Gt|]. apply okat_app. split; [exact Kt|]. unfold lcur in Lt at 1. rewrite Lt. exact K.
  Qed.
  Lemma gp_seek : forall q s, good s -> gpost (dw (bw_seek_start q)) s (fun _ s' => good s' /\ w_file s' = lfile s /\ w_cur s' = q /\ w_buf s' = []).
  Proof.
    intros q s G. unfold gpost, dw, bw_seek_start, wbind. destruct (flush_good s G) as (s1 & -> & [G1 K1] & A & B & C). destruct (q <? two63); cbn [dress].
    - cbn [w_file w_cur w_buf]. split; [|auto]. split; [exact G1|]. cbn [w_cur w_buf]. rewrite C. apply okat_nil.
    - split; assumption.
  Qed.
  Lemma gp_seek_cur : forall k s, good s -> gpost (dw (bw_seek_cur k)) s (fun _ s' => good s' /\ w_file s' = lfile s /\ w_cur s' = Z.to_N (Z.of_N (lcur s) + k) /\ w_buf s' = []).
  Proof.
    intros k s G. unfold gpost, dw, bw_seek_cur, wbind. destruct (flush_good s G) as (s1 & -> & [G1 K1] & A & B & C). rewrite B. cbv zeta. destruct (_ && _)%Z; cbn [dress].
    - cbn [w_file w_cur w_buf]. split; [|auto]. split; [exact G1|]. cbn [w_cur w_buf]. rewrite C. apply okat_nil.
    - split; assumption.
  Qed.
  Lemma gp_set_len : forall n s, good s -> len_ok n -> gpost (dw (file_set_len n)) s (fun _ s' => good s' /\ w_file s' = resize n (w_file s) /\ w_cur s' = w_cur s /\ w_buf s' = w_buf s).
  Proof.
    intros n s [G K] L. unfold gpost, dw, file_set_len. destruct (n <? two63); cbn [dress]; [|split; assumption]. cbn [w_file w_cur w_buf]. split; [|auto].
    split; [|exact K]. cbn [w_ops]. apply Forall_app. split; [exact G|]. constructor; [split; [exact L|exact I]|constructor].
  Qed.
  Lemma gp_chunks : forall cap l s, good s -> okat (lcur s) (List.concat l) -> gpost (Fault.g_chunks DW dwret dwbind (fun d => dw (bw_write cap d)) l) s (fun _ s' => good s').
  Proof.
    intros cap l. induction l as [|c l IH]; intros s G K; cbn [Fault.g_chunks].
    - apply gp_ret, G.
    - cbn [List.concat] in K. apply okat_app in K. destruct K as [K1 K2]. eapply gp_bind; [apply gp_write; assumption|]. cbv beta. intros _ s1 (G1 & _ & C1). apply IH; [exact G1|]. now rewrite C1.
  Qed.
End Calls.

Section Program.
  Context (ok : N -> byte -> Prop) (len_ok : N -> Prop) (m : mode) (f : bytes) (Lf : blen f < 2 ^ 62) (cap : N) (Lcap : 8 < cap).
  Local Notation gpost := (gpost ok len_ok).
  Local Notation good := (good ok len_ok).
  Local Notation okat := (okat ok).
  Local Notation table_prog := (Fault.g_table DW dwret dwbind dwlift (fun d => dw (bw_write cap d)) (fun q => dw (bw_seek_start q)) (dw bw_flush) dw_table m).
  Local Notation offsets_prog := (Fault.g_offsets DW dwret dwbind dwlift (fun d => dw (bw_write cap d)) m).
  Local Notation update_prog := (Fault.g_update DW dwbind dwlift (fun d => dw (bw_write cap d)) (fun q => dw (bw_seek_start q)) (fun d => dw (bw_seek_cur d)) m).

  Lemma gp_offsets : forall wide d os s, good s -> okat (lcur s) (new_entries wide d os) ->
    gpost (offsets_prog wide d os) s (fun _ s' => good s' /\ lfile s' = patch (lcur s) (new_entries wide d os) (lfile s)).
  Proof.
    intros wide d os. induction os as [|o os IH]; intros s G K; cbn [Fault.g_offsets].
    - apply gp_ret. split; [exact G|reflexivity].
    - change (new_entries wide d (o :: os)) with (be (N.to_nat (entry_size wide)) (shift_entry (N.to_nat (entry_size wide)) d o) ++ new_entries wide d os) in *.
      apply (proj1 (okat_app ok len_ok _ _ _)) in K. destruct K as [K1 K2]. rewrite as_i64_is. eapply gp_bind; [apply gp_addi, G|]. cbv beta. intros v s' [T ->].
      rewrite (entry_is m f Lf cap Lcap wide o d v T). eapply gp_bind; [apply gp_write; [exact G|exact K1]|]. cbv beta. intros _ s1 (G1 & F1 & C1).
      eapply gp_then; [apply IH; [exact G1|now rewrite C1]|]. cbv beta. intros _ s2 (G2 & F2). split; [exact G2|]. rewrite F2, F1, C1. now rewrite patch_app.
  Qed.

  (** What the file may be while tables are changed. *)
  Context (J : bytes -> Prop).
  Definition entries_fine (d : Z) (wide : bool) (n : node) : Prop := forall g, J g -> blen g = blen f ->
    less m (n_size n) (n_head n) (8 + entry_size wide * N.of_nat (count g n)) -> table_start n + 8 + entry_size wide * N.of_nat (count g n) <= blen g ->
    let new := new_entries wide d (offsets g wide (table_start n + 8) (count g n)) in
    okat (table_start n + 8) new /\ J (patch (table_start n + 8) new g).

  Lemma gp_table : forall d wide n s, sound f n -> good s -> w_buf s = [] -> blen (w_file s) = blen f -> J (w_file s) -> entries_fine d wide n ->
    gpost (table_prog wide d (LayoutProofs.bound n)) s (fun _ s' => good s' /\ w_buf s' = [] /\ blen (w_file s') = blen f /\ J (w_file s')).
  Proof.
    intros d wide n s Sn G Bs Ls Js EF. assert (W : two63 = 2 * 2 ^ 62) by reflexivity. assert (W4 : 2 ^ 64 = 4 * 2 ^ 62) by reflexivity. destruct (sound_at f n Sn) as (Hh & Ln & Hl).
    unfold Fault.g_table. eapply gp_bind with (Q := fun cp s' => cp = table_start n /\ s' = s).
    { unfold PowerProofs.gpost, dwlift, content_pos. rewrite Hl. change (b_pos (LayoutProofs.bound n)) with (n_at n). destruct (OutBase.add64_is m (n_at n) (n_head n)) as [(c & K & ->)|[[_ B] ->]]; cbn [dress].
      - split; [apply (OutBase.kept_small _ _ _ K); lia|reflexivity].
      - lia. }
    intros cp s' [-> ->]. set (g := w_file s) in *.
    eapply gp_bind with (Q := fun t s' => s' = s /\ less m (n_size n) (n_head n) (8 + entry_size wide * N.of_nat (count g n)) /\ table_start n + 8 + entry_size wide * N.of_nat (count g n) <= blen g /\
                    t = (table_start n + 8, offsets g wide (table_start n + 8) (count g n))).
    { pose proof (table_read m f Lf cap Lcap d wide n g Sn) as R. unfold PowerProofs.gpost, dw_table. destruct (table_start n <? two63) eqn:Q; [|unfold table_start in Q; lia]. fold g. unfold read_as in R.
      destruct (_ g (table_start n)) as [[t q]|e t|k|]; try exact G. destruct R as (_ & R). auto. }
    intros t s' (-> & L & Lo & ->). cbn [fst snd]. destruct (EF g Js Ls L Lo) as [K1 K2].
    eapply gp_bind; [apply gp_seek, G|]. cbv beta. intros _ s1 (G1 & A1 & C1 & B1). rewrite (lfile_empty s Bs) in A1. fold g in A1.
    assert (F1 : lfile s1 = g) by (rewrite (lfile_empty s1 B1); exact A1). assert (D1 : lcur s1 = table_start n + 8) by (rewrite (lcur_empty s1 B1); exact C1).
    eapply gp_bind; [apply gp_offsets; [exact G1|rewrite D1; exact K1]|]. cbv beta. intros _ s2 [G2 A2]. eapply gp_then; [apply gp_flush, G2|]. cbv beta. intros _ s3 (G3 & A3 & C3 & B3). rewrite F1, D1 in A2.
    split; [exact G3|]. split; [exact B3|]. rewrite A3, A2. split; [|exact K2]. rewrite patch_len; [exact Ls|]. rewrite entries_len. exact Lo.
  Qed.
  Lemma gp_tables : forall d l s, Forall (fun t => sound f (snd t)) l -> Forall (fun t => entries_fine d (fst t) (snd t)) l -> good s -> w_buf s = [] -> blen (w_file s) = blen f -> J (w_file s) ->
    gpost (LayoutTables.tables_prog m cap d (map LayoutWrite.bt l)) s (fun _ s' => good s' /\ w_buf s' = [] /\ J (w_file s')).
  Proof.
    intros d l. induction l as [|[wide n] l IH]; intros s F FE G Bs Ls Js; cbn [map LayoutTables.tables_prog].
    - apply gp_ret. auto.
    - inversion F as [|? ? Fn Fl]; subst. inversion FE as [|? ? En El]; subst. cbn [fst snd] in *. change (fst (LayoutWrite.bt (wide, n))) with wide. change (snd (LayoutWrite.bt (wide, n))) with (LayoutProofs.bound n).
      eapply gp_bind; [apply gp_table; assumption|]. cbv beta. intros _ s1 (G1 & B1 & L1 & J1). now apply IH.
  Qed.
  (** The file after the fields of the sizes. *)
  Definition field_fine (x : N * bytes) : Prop := okat (fst x) (snd x).
  Lemma gp_update : forall d n s, sound f n -> good s -> Forall field_fine (size_fields d n) -> gpost (update_prog d (LayoutProofs.bound n)) s (fun _ s' => good s').
  Proof.
    intros d n s Sn G Fd. unfold Fault.g_update. change (sz_len (b_size (LayoutProofs.bound n))) with (n_size n). rewrite as_i64_is.
    eapply gp_bind; [apply gp_addi, G|]. cbv beta. intros v s' [T ->].
    change (b_pos (LayoutProofs.bound n)) with (n_at n). change (sz_ext (b_size (LayoutProofs.bound n))) with (n_head n =? 16).
    eapply gp_bind; [apply gp_seek, G|]. cbv beta. intros _ s1 (G1 & A1 & C1 & B1). unfold size_fields in Fd. assert (D1 : lcur s1 = n_at n) by (rewrite (lcur_empty s1 B1); exact C1). destruct (n_head n =? 16) eqn:X.
    - inversion Fd as [|? ? K1 Fd2]; subst. inversion Fd2 as [|? ? K2 _]; subst. unfold field_fine in K1, K2. cbn [fst snd] in K1, K2.
      eapply gp_bind; [apply gp_write; [exact G1|rewrite D1; exact K1]|]. cbv beta. intros _ s2 (G2 & A2 & C2).
      eapply gp_bind; [apply gp_seek_cur, G2|]. cbv beta. intros _ s3 (G3 & A3 & C3 & B3). unfold be64. rewrite (entry_64 m _ _ _ T).
      assert (D3 : lcur s3 = n_at n + 8). { rewrite (lcur_empty s3 B3), C3, C2, D1. unfold be32. rewrite blen_be. lia. }
      eapply gp_then; [apply gp_write; [exact G3|rewrite D3; exact K2]|]. cbv beta. intros _ s4 (G4 & _). exact G4.
    - inversion Fd as [|? ? K1 _]; subst. unfold field_fine in K1. cbn [fst snd] in K1. unfold be32. rewrite (entry_32 m f Lf cap Lcap _ _ _ T).
      eapply gp_then; [apply gp_write; [exact G1|rewrite D1; exact K1]|]. cbv beta. intros _ s4 (G4 & _). exact G4.
  Qed.
  Lemma gp_updates : forall d l s, Forall (sound f) l -> good s -> Forall field_fine (flat_map (size_fields d) l) ->
    gpost (Fault.g_update_all DW dwret dwbind dwlift (fun d => dw (bw_write cap d)) (fun q => dw (bw_seek_start q)) (fun d => dw (bw_seek_cur d)) m d (map LayoutProofs.bound l)) s (fun _ s' => good s').
  Proof.
    intros d l. induction l as [|n l IH]; intros s F G Fd; cbn [map Fault.g_update_all].
    - apply gp_ret, G.
    - inversion F as [|? ? Fn Fl]; subst. cbn [flat_map] in Fd. apply Forall_app in Fd. destruct Fd as [F1 F2]. eapply gp_bind; [apply (gp_update d n s Fn G F1)|]. cbv beta. intros _ s1 G1. now apply IH.
  Qed.

  Lemma gp_run : forall items ns mo s e d, finds m f ns -> movie ns = Some mo -> ready m f items mo s e d -> J f ->
    (adjusts ns = true -> Forall (fun t => entries_fine d (fst t) (snd t)) (tables_of ns)) ->
    Forall field_fine (flat_map (size_fields d) (around mo)) -> len_ok (unsigned (Z.of_N (blen f) + d)) ->
    okat s (poured m (pieces items mo)) -> okat (unsigned (Z.of_N e + d)) (skipn (N.to_nat e) f) ->
    gpost (d_execute cap m (plan_with f items mo match final (id4 "mdat") ns with Some n => n_at n | None => 0 end s e d)) (Wst f 0 [] []) (fun _ s' => good s').
  Proof.
    intros items ns mo s e d Fi M R Jf HT HS HL HN HM. assert (W3 : 2 ^ 63 = 2 * 2 ^ 62) by reflexivity. pose proof (movie_sound _ _ _ _ Fi M) as Sm. destruct R as [Pl Le].
    set (mp := match final (id4 "mdat") ns with Some n => n_at n | None => 0 end).
    assert (G0 : good (Wst f 0 [] [])) by (split; cbn [w_ops w_cur w_buf]; [constructor|now apply okat_nil]).
    unfold d_execute, Fault.g_execute, plan_with. cbn [pl_moov pl_mdat_pos pl_start pl_moved_start pl_diff pl_update pl_new pl_old_len pl_moved].
    eapply gp_bind with (Q := fun _ s1 => good s1).
    { change (b_pos (vb_bounds (LayoutProofs.moov_of mo))) with (n_at mo). assert (A : (n_at mo <? mp) = adjusts ns).
      { unfold adjusts, mp. rewrite M. destruct (final (id4 "mdat") ns); [reflexivity|]. destruct (n_at mo <? 0) eqn:X; [lia|reflexivity]. }
      rewrite A. destruct (adjusts ns) eqn:Ad; [|apply gp_ret, G0].
      eapply gp_same; [rewrite LayoutTables.traks_prog, LayoutWrite.tables_bt; reflexivity|].
      assert (Et : flat_map track_tables (filter (named (id4 "trak")) (n_inside mo)) = tables_of ns) by (unfold tables_of; rewrite M; reflexivity). rewrite Et.
      eapply gp_then; [apply gp_tables; [exact (tables_sound m f ns Fi)|exact (HT eq_refl)|exact G0|reflexivity|reflexivity|exact Jf]|]. cbv beta. intros _ s1 (G1 & _). exact G1. }
    intros _ s1 G1. eapply gp_bind; [apply gp_updates; [exact (around_sound f mo Sm)|exact G1|exact HS]|]. cbv beta. intros _ s2 G2.
    rewrite as_i64_is, (signed_small f Lf cap Lcap) by lia. eapply gp_bind with (Q := fun _ s3 => good s3).
    { eapply gp_bind; [apply gp_addi, G2|]. cbv beta. intros v s' [T ->]. rewrite i_as_u64_is, (turned_mod _ _ _ T). eapply gp_then; [apply gp_set_len; [exact G2|exact HL]|]. cbv beta. intros _ s3 (G3 & _). exact G3. }
    intros _ s3 G3. eapply gp_bind; [apply gp_seek, G3|]. cbv beta. intros _ s4 (G4 & _ & C4 & B4). destruct (pours_boxes m items mo) as [P1 P2].
    eapply gp_bind with (Q := fun _ s5 => good s5).
    { unfold Fault.g_out. eapply gp_bind; [apply gp_chunks; [exact G4|rewrite P1, (lcur_empty s4 B4), C4; exact HN]|]. cbv beta. intros _ s5 G5. eapply gp_then; [apply gp_lift, G5|]. cbv beta. intros _ s6 [_ ->]. exact G5. }
    intros _ s5 G5. rewrite as_i64_is, (signed_small f Lf cap Lcap) by lia. eapply gp_bind with (Q := fun _ s6 => good s6 /\ lcur s6 = unsigned (Z.of_N e + d)).
    { eapply gp_bind; [apply gp_addi, G5|]. cbv beta. intros z s' [T ->]. rewrite i_as_u64_is, (turned_mod _ _ _ T). eapply gp_then; [apply gp_seek, G5|]. cbv beta. intros _ s6 (G6 & _ & C6 & B6). split; [exact G6|]. now rewrite (lcur_empty s6 B6), C6. }
    cbv beta. intros _ s6 (G6 & C6). eapply gp_bind; [apply gp_write; [exact G6|rewrite C6; exact HM]|]. cbv beta. intros _ s7 (G7 & _).
    eapply gp_then; [apply gp_flush, G7|]. cbv beta. intros _ s8 (G8 & _). exact G8.
  Qed.
End Program.

(** * The calls of a write *)

Lemma calls_good : forall ok len_ok (J : bytes -> Prop) cap fuel m items f, blen f < 2 ^ 62 -> 8 < cap -> J f ->
  (forall ns mo s e d, finds m f ns -> movie ns = Some mo -> ready m f items mo s e d ->
    (adjusts ns = true -> Forall (fun t => entries_fine ok m f J d (fst t) (snd t)) (tables_of ns)) /\
    Forall (field_fine ok) (flat_map (size_fields d) (around mo)) /\ len_ok (unsigned (Z.of_N (blen f) + d)) /\
    okat ok s (poured m (pieces items mo)) /\ okat ok (unsigned (Z.of_N e + d)) (skipn (N.to_nat e) f)) ->
  Forall (okcall ok len_ok) (wr_ops (write_tag cap fuel m items f)).
Proof.
  intros ok len_ok J cap fuel m items f L C Jf H. pose proof (Props_WOut.prepared m f items fuel L) as P. pose proof (same_prepare fuel m items f 0) as SP.
  unfold write_tag, write_tag_to. destruct (d_prepare fuel m items f 0) as [[p q]|e t|k|]; cbn [undress] in SP; rewrite <- SP; try constructor.
  destruct P as (ns & mo & s & e & d & Fi & M & R & ->). destruct (H ns mo s e d Fi M R) as (H1 & H2 & H3 & H4 & H5).
  pose proof (gp_run ok len_ok m f L cap C J items ns mo s e d Fi M R Jf H1 H2 H3 H4 H5) as X. unfold gpost in X.
  set (pl := plan_with _ _ _ _ _ _ _) in *. pose proof (ws_execute cap m pl (Wst f 0 [] [])) as W. rewrite Fault.program_is_execute in W.
  destruct (d_execute cap m pl (Wst f 0 [] [])) as [r st]. rewrite <- W.
  assert (G : good ok len_ok st) by (destruct r as [[]|? ?|?|]; exact X). destruct (flush_good ok len_ok st G) as (s1 & -> & (G1 & _) & _). exact G1.
Qed.

(** A write of no bytes is no call. *)
Lemma calls_some : forall cap fuel m items f p, blen f < 2 ^ 62 -> 8 < cap -> ~ In (OWrite p []) (wr_ops (write_tag cap fuel m items f)).
Proof.
  intros cap fuel m items f p L C I. assert (X : Forall (okcall (fun _ _ => True) (fun _ => True)) (wr_ops (write_tag cap fuel m items f))).
  { apply (calls_good _ _ (fun _ => True)); [exact L|exact C|exact Logic.I|]. intros. assert (A : forall p d, okat (fun _ _ => True) p d) by (intros ? ? ? ? ?; exact Logic.I).
    split; [intros _; apply Forall_forall; intros t _ g' _ _ _ _; split; [apply A|exact Logic.I]|]. split; [apply Forall_forall; intros x _; apply A|]. split; [exact Logic.I|]. split; apply A. }
  rewrite Forall_forall in X. exact (proj2 (X _ I)).
Qed.
(** Part of a write. *)
Lemma okat_mid : forall ok p a n b, okat ok p (a ++ n ++ b) -> okat ok (p + blen a) n.
Proof.
  intros ok p a n b K i x Hx. assert (Li := byte_lt _ _ _ Hx). replace (p + blen a + i) with (p + (blen a + i)) by lia. apply K.
  rewrite byte_app2 by lia. replace (blen a + i - blen a) with i by lia. now rewrite byte_app1.
Qed.
Lemma patch_max : forall p d f, d = [] \/ p + blen d <= blen f -> blen (patch p d f) = blen f.
Proof. intros p d f [->|H]; [reflexivity|now apply patch_len]. Qed.
Lemma byte_some : forall f q, q < blen f -> exists b, byte_at f q = Some b.
Proof. intros f q L. unfold byte_at. destruct (nth_error f (N.to_nat q)) eqn:E; [eauto|]. apply nth_error_None in E. unfold blen in L. lia. Qed.

(** Bytes that no call is about are not changed, *)
Lemma settle_keep : forall (ok : N -> byte -> Prop) (len_ok : N -> Prop) calls old f g q, Forall (okop ok len_ok) calls -> settles calls old f g ->
  (forall b, ~ ok q b) -> (forall n, len_ok n -> q < n) -> q < old -> q < blen f -> q < blen g /\ byte_at g q = byte_at f q.
Proof.
  intros ok len_ok calls old f g q Fc S No Nl Lo. induction S as [f|f p d a n b g I E S IH|f n g I S IH|f q' x g R S IH]; intros Lf.
  - auto.
  - assert (K : okat ok (p + blen a) n). { rewrite Forall_forall in Fc. specialize (Fc _ I). cbn [okop] in Fc. subst d. exact (okat_mid _ _ _ _ _ Fc). }
    pose proof (patch_blen (p + blen a) n f) as L1. destruct (IH ltac:(lia)) as [X1 X2]. split; [exact X1|]. rewrite X2.
    destruct (N.lt_ge_cases q (p + blen a)) as [A|A]; [now apply patch_before|]. destruct (N.le_gt_cases (p + blen a + blen n) q) as [B|B]; [now apply patch_behind|].
    exfalso. destruct (byte_some n (q - (p + blen a)) ltac:(lia)) as [y Hy]. apply (No y). specialize (K _ _ Hy). replace (p + blen a + (q - (p + blen a))) with q in K by lia. exact K.
  - rewrite Forall_forall in Fc. specialize (Fc _ I). cbn [okop] in Fc. specialize (Nl _ Fc). destruct (IH ltac:(rewrite resize_len; lia)) as [X1 X2]. split; [exact X1|]. rewrite X2. now apply resize_at.
  - pose proof (patch_blen q' [x] f) as L1. destruct (IH ltac:(lia)) as [X1 X2]. split; [exact X1|]. rewrite X2. apply patch_before; lia.
Qed.
(** and if the calls leave the length of the file as it is only bytes that change are changed. *)
Lemma settle_same : forall (ok : N -> byte -> Prop) (len_ok : N -> Prop) calls (f0 f g : bytes), Forall (okop ok len_ok) calls -> settles calls (blen f0) f g ->
  (forall q b, ok q b -> q < blen f0) -> (forall n, len_ok n -> n = blen f0) -> blen f = blen f0 ->
  blen g = blen f0 /\ forall q, byte_at g q = byte_at f q \/ exists b, byte_at g q = Some b /\ ok q b.
Proof.
  intros ok len_ok calls f0 f g Fc S In Nl. remember (blen f0) as old eqn:Eo. induction S as [f|f p d a n b g I E S IH|f n g I S IH|f q' x g R S IH]; intros Lf.
  - split; [exact Lf|]. auto.
  - assert (K : okat ok (p + blen a) n). { rewrite Forall_forall in Fc. specialize (Fc _ I). cbn [okop] in Fc. subst d. exact (okat_mid _ _ _ _ _ Fc). }
    assert (L1 : blen (patch (p + blen a) n f) = blen f).
    { apply patch_max. destruct n as [|y n]; [now left|right]. destruct (byte_some (y :: n) (blen (y :: n) - 1)) as [z Hz]; [rewrite blen_cons; lia|]. specialize (In _ _ (K _ _ Hz)). rewrite blen_cons in *. lia. }
    destruct (IH ltac:(lia)) as [X1 X2]. split; [exact X1|]. intros q. destruct (X2 q) as [X|X]; [|now right]. rewrite X.
    destruct (N.lt_ge_cases q (p + blen a)) as [A|A].
    { destruct (N.lt_ge_cases q (blen f)) as [B|B]; [left; now apply patch_before|left]. rewrite !byte_ge by lia. reflexivity. }
    destruct (N.le_gt_cases (p + blen a + blen n) q) as [B|B]; [left; now apply patch_behind|]. right. rewrite patch_in by lia.
    destruct (byte_some n (q - (p + blen a)) ltac:(lia)) as [y Hy]. exists y. split; [exact Hy|]. specialize (K _ _ Hy). replace (p + blen a + (q - (p + blen a))) with q in K by lia. exact K.
  - rewrite Forall_forall in Fc. specialize (Fc _ I). cbn [okop] in Fc. specialize (Nl _ Fc). subst n. replace (resize old f) with f in IH by (rewrite <- Lf; symmetry; apply resize_same). now apply IH.
  - lia.
Qed.

(** * The same values again *)

Lemma be_field : forall f p (w : nat), p + N.of_nat w <= blen f -> be w (field f p (N.of_nat w)) = slice f p (N.of_nat w).
Proof.
  intros f p w L. unfold field. pose proof (be_unbe (slice f p (N.of_nat w))) as B. replace (List.length (slice f p (N.of_nat w))) with w in B; [exact B|]. unfold slice, blen in *. rewrite firstn_length, skipn_length. lia.
Qed.
Lemma slice_okat : forall (ok : N -> byte -> Prop) f p n, (forall q b, byte_at f q = Some b -> ok q b) -> okat ok p (slice f p n).
Proof.
  intros ok f p n H i b Hb. apply H. assert (Li := byte_lt _ _ _ Hb). unfold slice in *. rewrite byte_firstn, byte_skipn in Hb; [exact Hb|]. unfold blen in Li. rewrite firstn_length in Li. lia.
Qed.

Lemma shift_zero : forall w o, o < 256 ^ N.of_nat w -> shift_entry w 0 o = o.
Proof.
  intros w o L. unfold shift_entry. rewrite Z.add_0_r, Z.mod_small; [apply N2Z.id|]. split; [lia|]. replace (2 ^ (8 * Z.of_nat w))%Z with (Z.of_N (256 ^ N.of_nat w)); [lia|].
  rewrite N2Z.inj_pow, nat_N_Z. rewrite Z.pow_mul_r by lia. reflexivity.
Qed.
Lemma field_lt : forall f p w, field f p w < 256 ^ w.
Proof. intros f p w. unfold field. eapply N.lt_le_trans; [apply unbe_lt|]. apply N.pow_le_mono_r; [lia|]. unfold slice, blen. rewrite firstn_length. lia. Qed.
Lemma slice_split : forall f p a b, slice f p (a + b) = slice f p a ++ slice f (p + a) b.
Proof.
  intros f p a b. unfold slice. rewrite !N2Nat.inj_add. rewrite <- (skip_skip (N.to_nat a) (N.to_nat p) f). generalize (skipn (N.to_nat p) f) as l. generalize (N.to_nat a) as i, (N.to_nat b) as k. clear.
  intros i. induction i as [|i IH]; intros k l; [reflexivity|]. destruct l as [|x l]; [now rewrite !firstn_nil|]. cbn [Nat.add firstn skipn app]. f_equal. apply IH.
Qed.
Lemma entries_same : forall f wide p k, p + entry_size wide * N.of_nat k <= blen f -> new_entries wide 0 (offsets f wide p k) = slice f p (entry_size wide * N.of_nat k).
Proof.
  intros f wide p k. unfold new_entries, offsets. cbv zeta. set (w := entry_size wide). assert (W : N.of_nat (N.to_nat w) = w) by lia.
  induction k as [|k IH]; intros L; [cbn; unfold slice; now rewrite N.mul_0_r|]. rewrite seq_S, map_app, flat_map_app, IH by lia. cbn [Nat.add map flat_map]. rewrite app_nil_r.
  replace (w * N.of_nat (S k)) with (w * N.of_nat k + w) by lia. rewrite slice_split. f_equal.
  rewrite shift_zero by (rewrite W; apply field_lt). pose proof (be_field f (p + w * N.of_nat k) (N.to_nat w)) as B. rewrite W in B. apply B. lia.
Qed.
Lemma patch_same : forall f p n, p + n <= blen f -> patch p (slice f p n) f = f.
Proof.
  intros f p n L. apply bytes_same. intros q. assert (E : blen (slice f p n) = n) by (unfold slice, blen in *; rewrite firstn_length, skipn_length; lia).
  destruct (N.lt_ge_cases q p) as [A|A]; [apply patch_before; lia|]. destruct (N.le_gt_cases (p + n) q) as [B|B]; [apply patch_behind; lia|].
  rewrite patch_in by lia. unfold slice. rewrite byte_firstn, byte_skipn by lia. f_equal. lia.
Qed.
Lemma be_field4 : forall f p, p + 4 <= blen f -> be 4 (field f p 4) = slice f p 4.
Proof. intros f p. exact (be_field f p 4). Qed.
Lemma be_field8 : forall f p, p + 8 <= blen f -> be 8 (field f p 8) = slice f p 8.
Proof. intros f p. exact (be_field f p 8). Qed.
Lemma fields_same : forall (ok : N -> byte -> Prop) f n, (forall q b, byte_at f q = Some b -> ok q b) -> sound f n -> Forall (field_fine ok) (size_fields 0 n).
Proof.
  intros ok f n H Sn. inversion Sn as [? B _]; subst. destruct B as (L & _ & B). unfold size_fields.
  destruct B as [(B1 & B2 & B3)|(B1 & B2 & B3 & B4)].
  - rewrite B2 in *. change (16 =? 16) with true. cbv iota. constructor; [|constructor; [|constructor]]; unfold field_fine; cbn [fst snd].
    + rewrite <- B1. rewrite be_field4 by lia. now apply slice_okat.
    + rewrite B3, shift_zero by (change (N.of_nat 8) with 8; apply field_lt). rewrite be_field8 by lia. now apply slice_okat.
  - rewrite B3 in *. change (8 =? 16) with false. cbv iota. constructor; [|constructor]. unfold field_fine; cbn [fst snd].
    rewrite B4, shift_zero by (change (N.of_nat 4) with 4; apply field_lt). rewrite be_field4 by lia. now apply slice_okat.
Qed.
