(** Proofs for CostSpec.v: the bytes in the buffer and in the calls are counted along the program. *)

From Coq Require Import List NArith ZArith Bool Lia Arith String.
From Coq Require Import ZifyBool ZifyNat ZifyN.
From Verif Require Import Base BaseLemmas Types Utf Stream Parse Find Write TagSpec FileSpec FailSpec PanicSpec Display Described DescribedIs DescribedWrite ErrSpec FirstSpec OutSpec LayoutSpec WOutSpec WOutPlan WOutRun CostSpec.
From Verif Require Props_WOut OutBase LayoutTables LayoutWrite LayoutProofs Fault.
Import ListNotations.
Local Open Scope list_scope.
Local Open Scope d_scope.

Lemma handed_app : forall a b, handed (a ++ b) = handed a + handed b.
Proof. intros a b. unfold handed. rewrite map_app. induction (map _ a) as [|x l IH]; cbn [app fold_right]; [reflexivity|]. rewrite IH. lia. Qed.
Definition ncalls (s : wst) : N := N.of_nat (List.length (w_ops s)).
(** The bytes written so far, in the buffer or not, *)
Definition total (s : wst) : N := handed (w_ops s) + blen (w_buf s).
(** and what pays for the calls. *)
Definition paid (s : wst) : N := 2 * handed (w_ops s) + blen (w_buf s).

Section Count.
  Context (cap : N).
  (** From [s] to [s']: [H] bytes (or at most so many), and at most [K] calls that are not paid for. *)
  Definition within (s s' : wst) (K : N) : Prop := cap * ncalls s' + paid s <= cap * ncalls s + paid s' + cap * K.
  Definition cpost {A} (x : DW A) (s : wst) (H K : N) (Q : A -> wst -> Prop) : Prop :=
    match x s with (DOk a, s') => total s' = total s + H /\ within s s' K /\ Q a s' | (_, s') => total s' <= total s + H /\ within s s' K end.

  Lemma within_refl : forall s K, within s s K. Proof. intros. unfold within. lia. Qed.
  Lemma within_trans : forall s1 s2 s3 a b, within s1 s2 a -> within s2 s3 b -> within s1 s3 (a + b).
  Proof. unfold within. intros. lia. Qed.
  Lemma within_more : forall s s' a b, a <= b -> within s s' a -> within s s' b.
  Proof. unfold within. intros s s' a b L H. assert (cap * a <= cap * b) by (apply N.mul_le_mono_l, L). lia. Qed.

  Lemma cp_bind : forall {A B} (x : DW A) (k : A -> DW B) s H1 K1 H2 K2 Q S, cpost x s H1 K1 Q -> (forall a s', Q a s' -> cpost (k a) s' H2 K2 S) -> cpost (dwbind A B x k) s (H1 + H2) (K1 + K2) S.
  Proof.
    intros A B x k s H1 K1 H2 K2 Q S H K. unfold cpost, dwbind in *. destruct (x s) as [[a|e t|q|] s'].
    - destruct H as (E & W & P). specialize (K a s' P). destruct (k a s') as [[b|e t|q|] s2].
      + destruct K as (E2 & W2 & P2). split; [lia|]. split; [eapply within_trans; eassumption|exact P2].
      + destruct K as (E2 & W2). split; [lia|eapply within_trans; eassumption].
      + destruct K as (E2 & W2). split; [lia|eapply within_trans; eassumption].
      + destruct K as (E2 & W2). split; [lia|eapply within_trans; eassumption].
    - destruct H as (E & W). split; [lia|]. apply within_more with (2 := W). lia.
    - destruct H as (E & W). split; [lia|]. apply within_more with (2 := W). lia.
    - destruct H as (E & W). split; [lia|]. apply within_more with (2 := W). lia.
  Qed.
  Lemma cp_then : forall {A} (x : DW A) s H K H' K' (Q Q' : A -> wst -> Prop), cpost x s H K Q -> H = H' -> K <= K' -> (forall a s', Q a s' -> Q' a s') -> cpost x s H' K' Q'.
  Proof.
    intros A x s H K H' K' Q Q' P <- L I. unfold cpost in *. destruct (x s) as [[a|e t|q|] s'].
    - destruct P as (E & W & P). split; [exact E|]. split; [exact (within_more _ _ _ _ L W)|auto].
    - destruct P as (E & W). split; [exact E|exact (within_more _ _ _ _ L W)].
    - destruct P as (E & W). split; [exact E|exact (within_more _ _ _ _ L W)].
    - destruct P as (E & W). split; [exact E|exact (within_more _ _ _ _ L W)].
  Qed.
  Lemma cp_seq : forall {A B} (x : DW A) (k : A -> DW B) s H1 K1 H2 K2 H K Q S, cpost x s H1 K1 Q -> (forall a s', Q a s' -> cpost (k a) s' H2 K2 S) -> H1 + H2 = H -> K1 + K2 <= K -> cpost (dwbind A B x k) s H K S.
  Proof. intros A B x k s H1 K1 H2 K2 H K Q S P R E L. eapply cp_then; [eapply cp_bind; eassumption|exact E|exact L|auto]. Qed.
  Lemma cp_ret : forall {A} (a : A) s (Q : A -> wst -> Prop), Q a s -> cpost (dwret A a) s 0 0 Q.
  Proof. intros A a s Q H. unfold cpost, dwret. split; [lia|]. split; [apply within_refl|exact H]. Qed.
  Lemma cp_same : forall {A} (x y : DW A) s H K Q, x s = y s -> cpost y s H K Q -> cpost x s H K Q.
  Proof. intros A x y s H K Q E P. unfold cpost. rewrite E. exact P. Qed.
  Lemma cp_lift : forall {A} (r : res A) s, cpost (dwlift A r) s 0 0 (fun a s' => r = Ok a /\ s' = s).
  Proof. intros A r s. unfold cpost, dwlift. destruct r; cbn [dress]; (split; [lia|]); try apply within_refl. split; [apply within_refl|auto]. Qed.
  Lemma cp_addi : forall m a b s, cpost (dwlift Z (addi m a b)) s 0 0 (fun c s' => turned m (a + b) c /\ s' = s).
  Proof. intros m a b s. unfold cpost, dwlift. destruct (addi_is m a b) as [(c & T & ->)|[B ->]]; cbn [dress]; (split; [lia|]); [split; [apply within_refl|auto]|apply within_refl]. Qed.

  Lemma flush_counts : forall s, exists s', bw_flush s = (Ok tt, s') /\ total s' = total s /\ ncalls s' <= ncalls s + 1 /\ (w_buf s = [] -> ncalls s' = ncalls s) /\ handed (w_ops s') = total s /\
    w_file s' = lfile s /\ w_cur s' = lcur s /\ w_buf s' = [].
  Proof.
    intros s. unfold bw_flush, os_write, lfile, lcur, total, ncalls. destruct (w_buf s) as [|b r] eqn:E.
    - eexists. split; [reflexivity|]. cbn [w_file w_cur w_buf w_ops]. rewrite blen_nil. split; [lia|]. split; [lia|]. split; [auto|]. split; [lia|]. split; [reflexivity|]. split; [lia|reflexivity].
    - eexists. split; [reflexivity|]. cbn [w_file w_cur w_buf w_ops]. rewrite handed_app, app_length. cbn [List.length].
      assert (X : handed [OWrite (w_cur s) (b :: r)] = blen (b :: r)) by (unfold handed; cbn [map fold_right]; lia). rewrite X, blen_nil.
      split; [lia|]. split; [lia|]. split; [discriminate|]. split; [lia|]. split; [apply patch_is; discriminate|]. split; reflexivity.
  Qed.
  Lemma flush_within : forall s s', total s' = total s -> ncalls s' <= ncalls s + 1 -> handed (w_ops s') = total s -> within s s' 1.
  Proof. unfold within, paid, total. intros s s' T C H. assert (cap * ncalls s' <= cap * (ncalls s + 1)) by (apply N.mul_le_mono_l, C). lia. Qed.
  Lemma cp_flush : forall s, cpost (dw bw_flush) s 0 1 (fun _ s' => w_file s' = lfile s /\ w_cur s' = lcur s /\ w_buf s' = []).
  Proof. intros s. unfold cpost, dw. destruct (flush_counts s) as (s1 & -> & T & C & _ & Hd & R). cbn [dress]. split; [lia|]. split; [now apply flush_within|exact R]. Qed.
  Lemma cp_write : 8 < cap -> forall d s, cpost (dw (bw_write cap d)) s (blen d) 0 (fun _ s' => lfile s' = patch (lcur s) d (lfile s) /\ lcur s' = lcur s + blen d).
  Proof.
    intros Lcap d s. destruct (write_is cap d s) as (s1 & E & F1 & C1). unfold cpost, dw. rewrite E. cbn [dress].
    unfold bw_write in E. destruct (flush_counts s) as (s2 & E2 & T2 & N2 & Z2 & H2 & _ & _ & B2). rewrite E2 in E. cbn [snd] in E.
    assert (G : total s1 = total s + blen d /\ within s s1 0); [|destruct G; auto].
    assert (W : forall t l, l <> [] -> ncalls (Wst (write_at (w_file t) (w_cur t) l) (w_cur t + blen l) (w_buf t) (w_ops t ++ [OWrite (w_cur t) l])) = ncalls t + 1 /\ handed (w_ops t ++ [OWrite (w_cur t) l]) = handed (w_ops t) + blen l).
    { intros t l _. unfold ncalls. cbn [w_ops]. rewrite app_length, handed_app. cbn [List.length]. split; [lia|]. unfold handed at 2. cbn [map fold_right]. lia. }
    assert (M1 : cap * (ncalls s + 1) = cap * ncalls s + cap) by lia.
    destruct (cap <? blen (w_buf s) + blen d) eqn:Ec.
    - destruct (cap <=? blen d) eqn:Ed.
      + assert (Dn : d <> []) by (intros ->; rewrite blen_nil in Ed; lia). unfold os_write in E. destruct d as [|x l]; [now destruct Dn|]. destruct (W s2 (x :: l) Dn) as [Wc Wh]. injection E as <-.
        unfold within, paid. rewrite Wc. unfold total in *. cbn [w_ops w_buf]. rewrite Wh, B2, blen_nil in *.
        assert (cap * (ncalls s2 + 1) <= cap * (ncalls s + 1 + 1)) by (apply N.mul_le_mono_l; lia). lia.
      + injection E as <-. unfold within, paid, total, ncalls in *. cbn [w_ops w_buf] in *. rewrite B2, blen_nil in *. cbn [app].
        assert (cap * N.of_nat (List.length (w_ops s2)) <= cap * (N.of_nat (List.length (w_ops s)) + 1)) by (apply N.mul_le_mono_l; lia). lia.
    - destruct (cap <=? blen d) eqn:Ed.
      + assert (Dn : d <> []) by (intros ->; rewrite blen_nil in Ed; lia). assert (Bs : blen (w_buf s) = 0) by lia. unfold os_write in E. destruct d as [|x l]; [now destruct Dn|]. destruct (W s (x :: l) Dn) as [Wc Wh]. injection E as <-.
        unfold within, paid. rewrite Wc. unfold total in *. cbn [w_ops w_buf]. rewrite Wh. lia.
      + injection E as <-. unfold within, paid, total, ncalls in *. cbn [w_ops w_buf] in *. rewrite blen_app. lia.
  Qed.
  Lemma cp_seek : forall q s, cpost (dw (bw_seek_start q)) s 0 1 (fun _ s' => w_file s' = lfile s /\ w_cur s' = q /\ w_buf s' = []).
  Proof.
    intros q s. unfold cpost, dw, bw_seek_start, wbind. destruct (flush_counts s) as (s1 & -> & T & C & _ & Hd & F & _ & B). pose proof (flush_within s s1 T C Hd) as Wn.
    destruct (q <? two63); cbn [dress]; unfold within, paid, total, ncalls in *; cbn [w_file w_cur w_buf w_ops] in *; [|lia]. split; [lia|]. split; [lia|auto].
  Qed.
  Lemma cp_seek_cur : forall k s, cpost (dw (bw_seek_cur k)) s 0 1 (fun _ s' => w_file s' = lfile s /\ w_buf s' = []).
  Proof.
    intros k s. unfold cpost, dw, bw_seek_cur, wbind. destruct (flush_counts s) as (s1 & -> & T & C & _ & Hd & F & _ & B). pose proof (flush_within s s1 T C Hd) as Wn.
    cbv zeta. destruct (_ && _)%Z; cbn [dress]; unfold within, paid, total, ncalls in *; cbn [w_file w_cur w_buf w_ops] in *; [|lia]. split; [lia|]. split; [lia|auto].
  Qed.
  Lemma cp_set_len : forall n s, cpost (dw (file_set_len n)) s 0 1 (fun _ _ => True).
  Proof.
    intros n s. unfold cpost, dw, file_set_len. destruct (n <? two63); cbn [dress]; unfold within, paid, total, ncalls; cbn [w_buf w_ops]; [|lia].
    rewrite handed_app, app_length. cbn [List.length]. change (handed [OSetLen n]) with 0. split; [lia|]. split; [lia|exact I].
  Qed.
  Lemma cp_chunks : 8 < cap -> forall l s, cpost (Fault.g_chunks DW dwret dwbind (fun d => dw (bw_write cap d)) l) s (blen (List.concat l)) 0 (fun _ _ => True).
  Proof.
    intros Lcap. induction l as [|c l IH]; intros s; cbn [Fault.g_chunks].
    - now apply cp_ret.
    - cbn [List.concat]. rewrite blen_app. eapply cp_seq; [apply cp_write, Lcap| |reflexivity|apply N.le_refl]. cbv beta. intros _ s1 _. apply IH.
  Qed.
End Count.

Section Program.
  Context (m : mode) (f : bytes) (Lf : blen f < 2 ^ 62) (cap : N) (Lcap : 8 < cap).
  Local Notation cpost := (cpost cap).
  Local Notation table_prog := (Fault.g_table DW dwret dwbind dwlift (fun d => dw (bw_write cap d)) (fun q => dw (bw_seek_start q)) (dw bw_flush) dw_table m).
  Local Notation offsets_prog := (Fault.g_offsets DW dwret dwbind dwlift (fun d => dw (bw_write cap d)) m).
  Local Notation update_prog := (Fault.g_update DW dwbind dwlift (fun d => dw (bw_write cap d)) (fun q => dw (bw_seek_start q)) (fun d => dw (bw_seek_cur d)) m).

  Lemma cp_offsets : forall wide d os s, cpost (offsets_prog wide d os) s (blen (new_entries wide d os)) 0 (fun _ s' => lfile s' = patch (lcur s) (new_entries wide d os) (lfile s)).
  Proof.
    intros wide d os. induction os as [|o os IH]; intros s; cbn [Fault.g_offsets].
    - now apply cp_ret.
    - change (new_entries wide d (o :: os)) with (be (N.to_nat (entry_size wide)) (shift_entry (N.to_nat (entry_size wide)) d o) ++ new_entries wide d os).
      rewrite as_i64_is, blen_app. set (n := be _ _). eapply cp_seq with (H2 := blen n + blen (new_entries wide d os)) (K2 := 0); [apply cp_addi| |lia|lia]. cbv beta. intros v s' [T ->].
      rewrite (entry_is m f Lf cap Lcap wide o d v T). fold n. eapply cp_seq; [apply cp_write, Lcap| |reflexivity|apply N.le_refl]. cbv beta. intros _ s1 (F1 & C1).
      eapply cp_then; [apply IH|reflexivity|lia|]. cbv beta. intros _ s2 F2. rewrite F2, F1, C1. now rewrite patch_app.
  Qed.

  Lemma cp_table : forall d wide n s, sound f n -> w_buf s = [] -> blen (w_file s) = blen f ->
    cpost (table_prog wide d (LayoutProofs.bound n)) s (entry_bytes n) 2 (fun _ s' => w_buf s' = [] /\ blen (w_file s') = blen f).
  Proof.
    intros d wide n s Sn Bs Ls. assert (W : two63 = 2 * 2 ^ 62) by reflexivity. assert (W4 : 2 ^ 64 = 4 * 2 ^ 62) by reflexivity. destruct (sound_at f n Sn) as (Hh & Ln & Hl).
    unfold Fault.g_table. change (entry_bytes n) with (0 + (0 + entry_bytes n)). change 2 with (0 + (0 + 2)). eapply cp_bind with (Q := fun cp s' => cp = table_start n /\ s' = s).
    { unfold CostProofs.cpost, dwlift, content_pos. rewrite Hl. change (b_pos (LayoutProofs.bound n)) with (n_at n). destruct (OutBase.add64_is m (n_at n) (n_head n)) as [(c & K & ->)|[[_ B] ->]]; cbn [dress].
      - split; [lia|]. split; [apply within_refl|]. split; [apply (OutBase.kept_small _ _ _ K); lia|reflexivity].
      - lia. }
    intros cp s' [-> ->]. set (g := w_file s) in *.
    eapply cp_bind with (Q := fun t s' => s' = s /\ less m (n_size n) (n_head n) (8 + entry_size wide * N.of_nat (count g n)) /\ table_start n + 8 + entry_size wide * N.of_nat (count g n) <= blen g /\
                    t = (table_start n + 8, offsets g wide (table_start n + 8) (count g n))).
    { pose proof (table_read m f Lf cap Lcap d wide n g Sn) as R. unfold CostProofs.cpost, dw_table. destruct (table_start n <? two63) eqn:Q; [|unfold table_start in Q; lia]. fold g. unfold read_as in R.
      destruct (_ g (table_start n)) as [[t q]|e t|k|]; try (split; [lia|apply within_refl]). destruct R as (_ & R). split; [lia|]. split; [apply within_refl|]. auto. }
    intros t s' (-> & L & Lo & ->). cbn [fst snd]. set (new := new_entries wide d (offsets g wide (table_start n + 8) (count g n))).
    assert (En : blen new = entry_bytes n). { unfold new. rewrite entries_len. unfold entry_bytes, less in *. lia. }
    assert (Lo' : table_start n + 8 + blen new <= blen g) by (unfold new; rewrite entries_len; exact Lo).
    change (cpost (dwbind _ _ (dw (bw_seek_start (table_start n + 8))) (fun _ => dwbind _ _ (offsets_prog wide d (offsets g wide (table_start n + 8) (count g n))) (fun _ => dw bw_flush))) s (0 + entry_bytes n) (1 + 1) (fun _ s' => w_buf s' = [] /\ blen (w_file s') = blen f)).
    eapply cp_bind; [apply cp_seek|]. cbv beta. intros _ s1 (A1 & C1 & B1). rewrite (lfile_empty s Bs) in A1. fold g in A1.
    assert (F1 : lfile s1 = g) by (rewrite (lfile_empty s1 B1); exact A1). assert (D1 : lcur s1 = table_start n + 8) by (rewrite (lcur_empty s1 B1); exact C1).
    rewrite <- En. replace (blen new) with (blen new + 0) by lia. change 1 with (0 + 1). eapply cp_bind; [apply cp_offsets|]. cbv beta. intros _ s2 A2. fold new in A2.
    eapply cp_then; [apply cp_flush|reflexivity|lia|]. cbv beta. intros _ s3 (A3 & C3 & B3). rewrite F1, D1 in A2. split; [exact B3|]. rewrite A3, A2, patch_len; [exact Ls|exact Lo'].
  Qed.
  Lemma cp_tables : forall d l s, Forall (fun t => sound f (snd t)) l -> w_buf s = [] -> blen (w_file s) = blen f ->
    cpost (LayoutTables.tables_prog m cap d (map LayoutWrite.bt l)) s (sum (map entry_bytes (map snd l))) (2 * N.of_nat (List.length (map snd l))) (fun _ _ => True).
  Proof.
    intros d l. induction l as [|[wide n] l IH]; intros s F Bs Ls; cbn [map LayoutTables.tables_prog].
    - now apply cp_ret.
    - inversion F as [|? ? Fn Fl]; subst. cbn [fst snd] in *. change (fst (LayoutWrite.bt (wide, n))) with wide. change (snd (LayoutWrite.bt (wide, n))) with (LayoutProofs.bound n).
      unfold sum. cbn [fold_right List.length]. change (fold_right N.add 0 (map entry_bytes (map snd l))) with (sum (map entry_bytes (map snd l))).
      replace (2 * N.of_nat (S (List.length (map snd l)))) with (2 + 2 * N.of_nat (List.length (map snd l))) by lia.
      eapply cp_bind; [apply cp_table; assumption|]. cbv beta. intros _ s1 (B1 & L1). now apply IH.
  Qed.
  Lemma cp_update : forall d n s, sound f n -> cpost (update_prog d (LayoutProofs.bound n)) s (size_bytes n) 2 (fun _ _ => True).
  Proof.
    intros d n s Sn. unfold Fault.g_update. change (sz_len (b_size (LayoutProofs.bound n))) with (n_size n). rewrite as_i64_is.
    change (size_bytes n) with (0 + (0 + size_bytes n)). change 2 with (0 + (1 + 1)). eapply cp_bind; [apply cp_addi|]. cbv beta. intros v s' [T ->].
    change (b_pos (LayoutProofs.bound n)) with (n_at n). change (sz_ext (b_size (LayoutProofs.bound n))) with (n_head n =? 16).
    eapply cp_bind; [apply cp_seek|]. cbv beta. intros _ s1 _. unfold size_bytes. destruct (n_head n =? 16) eqn:X.
    - change 12 with (4 + (0 + 8)). change 1 with (0 + (1 + 0)). eapply cp_bind; [eapply cp_then; [apply (cp_write cap Lcap)|unfold be32; rewrite blen_be; reflexivity|apply N.le_refl|intros ? ? H; exact H]|]. cbv beta. intros _ s2 _.
      eapply cp_bind; [apply cp_seek_cur|]. cbv beta. intros _ s3 _. eapply cp_then; [apply (cp_write cap Lcap)|unfold be64; rewrite blen_be; reflexivity|lia|]. auto.
    - eapply cp_then; [apply (cp_write cap Lcap)|unfold be32; rewrite blen_be; reflexivity|lia|]. auto.
  Qed.
  Lemma cp_updates : forall d l s, Forall (sound f) l ->
    cpost (Fault.g_update_all DW dwret dwbind dwlift (fun d => dw (bw_write cap d)) (fun q => dw (bw_seek_start q)) (fun d => dw (bw_seek_cur d)) m d (map LayoutProofs.bound l)) s
      (sum (map size_bytes l)) (2 * N.of_nat (List.length l)) (fun _ _ => True).
  Proof.
    intros d l. induction l as [|n l IH]; intros s F; cbn [map Fault.g_update_all].
    - now apply cp_ret.
    - inversion F as [|? ? Fn Fl]; subst. unfold sum. cbn [fold_right List.length]. change (fold_right N.add 0 (map size_bytes l)) with (sum (map size_bytes l)).
      replace (2 * N.of_nat (S (List.length l))) with (2 + 2 * N.of_nat (List.length l)) by lia. eapply cp_bind; [apply (cp_update d n s Fn)|]. cbv beta. intros _ s1 _. now apply IH.
  Qed.

  Lemma cp_run : forall items ns mo s e d, finds m f ns -> movie ns = Some mo -> ready m f items mo s e d ->
    cpost (d_execute cap m (plan_with f items mo match final (id4 "mdat") ns with Some n => n_at n | None => 0 end s e d)) (Wst f 0 [] []) (cost m f items ns mo e)
      (2 * N.of_nat (List.length (changed ns)) + 2 * N.of_nat (List.length (around mo)) + 4) (fun _ _ => True).
  Proof.
    intros items ns mo s e d Fi M R. assert (W3 : 2 ^ 63 = 2 * 2 ^ 62) by reflexivity. pose proof (movie_sound _ _ _ _ Fi M) as Sm. destruct R as [Pl Le].
    set (mp := match final (id4 "mdat") ns with Some n => n_at n | None => 0 end).
    unfold d_execute, Fault.g_execute, plan_with. cbn [pl_moov pl_mdat_pos pl_start pl_moved_start pl_diff pl_update pl_new pl_old_len pl_moved].
    destruct (pours_boxes m items mo) as [P1 P2].
    replace (cost m f items ns mo e) with (sum (map entry_bytes (changed ns)) + (sum (map size_bytes (around mo)) + (0 + (0 + (blen (poured m (pieces items mo)) + (0 + ((blen f - e) + 0))))))) by (unfold cost; lia).
    replace (2 * N.of_nat (List.length (changed ns)) + 2 * N.of_nat (List.length (around mo)) + 4) with (2 * N.of_nat (List.length (changed ns)) + (2 * N.of_nat (List.length (around mo)) + (1 + (1 + (0 + (1 + (0 + 1))))))) by lia.
    eapply cp_bind with (Q := fun _ _ => True).
    { change (b_pos (vb_bounds (LayoutProofs.moov_of mo))) with (n_at mo). assert (A : (n_at mo <? mp) = adjusts ns).
      { unfold adjusts, mp. rewrite M. destruct (final (id4 "mdat") ns); [reflexivity|]. destruct (n_at mo <? 0) eqn:X; [lia|reflexivity]. }
      rewrite A. unfold changed. destruct (adjusts ns) eqn:Ad; [|now apply cp_ret].
      eapply cp_same; [rewrite LayoutTables.traks_prog, LayoutWrite.tables_bt; reflexivity|].
      assert (Et : flat_map track_tables (filter (named (id4 "trak")) (n_inside mo)) = tables_of ns) by (unfold tables_of; rewrite M; reflexivity). rewrite Et.
      apply cp_tables; [exact (tables_sound m f ns Fi)|reflexivity|reflexivity]. }
    intros _ s1 _. eapply cp_bind; [apply cp_updates; exact (around_sound f mo Sm)|]. cbv beta. intros _ s2 _.
    rewrite as_i64_is, (signed_small f Lf cap Lcap) by lia. eapply cp_bind with (Q := fun _ _ => True).
    { change 0 with (0 + 0) at 1. change 1 with (0 + 1). eapply cp_bind; [apply cp_addi|]. cbv beta. intros v s' [T ->]. apply cp_set_len. }
    intros _ s3 _. eapply cp_bind; [apply cp_seek|]. cbv beta. intros _ s4 _.
    eapply cp_bind with (Q := fun _ _ => True).
    { unfold Fault.g_out. rewrite <- P1. replace (blen (List.concat _)) with (blen (List.concat (fst (new_atoms_write m (LayoutWrite.new_boxes items mo)))) + 0) by lia. change 0 with (0 + 0) at 2.
      eapply cp_bind; [apply (cp_chunks cap Lcap)|]. cbv beta. intros _ s5 _. eapply cp_then; [apply cp_lift|reflexivity|lia|]. auto. }
    intros _ s5 _. rewrite as_i64_is, (signed_small f Lf cap Lcap) by lia. eapply cp_bind with (Q := fun _ _ => True).
    { change 0 with (0 + 0) at 1. change 1 with (0 + 1). eapply cp_bind; [apply cp_addi|]. cbv beta. intros z s' [T ->]. eapply cp_then; [apply cp_seek|reflexivity|lia|]. auto. }
    intros _ s6 _. eapply cp_bind with (Q := fun _ _ => True).
    { eapply cp_then; [apply (cp_write cap Lcap)|unfold blen; rewrite skipn_length; lia|lia|]. auto. }
    intros _ s7 _. eapply cp_then; [apply cp_flush|reflexivity|lia|]. auto.
  Qed.
End Program.

(** * The calls of a write *)

Lemma calls_cost : forall cap fuel m items f, blen f < 2 ^ 62 -> 8 < cap ->
  let w := write_tag cap fuel m items f in
  wr_ops w = [] /\ wr_res w <> Ok tt \/
  exists ns mo s e d, finds m f ns /\ movie ns = Some mo /\ ready m f items mo s e d /\
    handed (wr_ops w) <= cost m f items ns mo e /\ (wr_res w = Ok tt -> handed (wr_ops w) = cost m f items ns mo e) /\
    cap * N.of_nat (List.length (wr_ops w)) <= 2 * handed (wr_ops w) + cap * moves ns mo /\
    exists p q, prepare fuel m items f 0 = Ok (p, q) /\ pl_moved p = skipn (N.to_nat e) f.
Proof.
  intros cap fuel m items f L C. pose proof (Props_WOut.prepared m f items fuel L) as P. pose proof (same_prepare fuel m items f 0) as SP.
  unfold write_tag, write_tag_to. destruct (d_prepare fuel m items f 0) as [[p q]|e t|k|]; cbn [undress] in SP; rewrite <- SP; try (left; split; [reflexivity|discriminate]).
  right. destruct P as (ns & mo & s & e & d & Fi & M & R & ->). exists ns, mo, s, e, d. split; [exact Fi|]. split; [exact M|]. split; [exact R|].
  pose proof (cp_run m f L cap C items ns mo s e d Fi M R) as X. unfold cpost in X.
  set (pl := plan_with _ _ _ _ _ _ _) in *. pose proof (ws_execute cap m pl (Wst f 0 [] [])) as W. rewrite Fault.program_is_execute in W.
  destruct (d_execute cap m pl (Wst f 0 [] [])) as [r st]. rewrite <- W. destruct (flush_counts st) as (s1 & E1 & T & Cn & _ & Hd & _).
  change (total (Wst f 0 [] [])) with 0 in X. unfold within in X. change (ncalls (Wst f 0 [] [])) with 0 in X. change (paid (Wst f 0 [] [])) with 0 in X.
  set (K := 2 * N.of_nat _ + _ + 4) in *. assert (Mv : moves ns mo = K + 1) by (unfold K, moves; lia). rewrite E1, Mv. cbn [wr_ops wr_res]. fold (ncalls s1).
  assert (Cm : cap * ncalls s1 <= cap * (ncalls st + 1)) by (apply N.mul_le_mono_l, Cn).
  assert (G : (total st <= cost m f items ns mo e) /\ cap * ncalls st <= paid st + cap * K) by (destruct r as [[]|? ?|?|]; [destruct X as (A & B & _)|destruct X as (A & B)..]; split; lia).
  destruct G as [G1 G2]. rewrite Hd. split; [lia|]. split; [|split].
  - intros Rr. destruct r as [[]|? ?|?|]; try discriminate. destruct X as (A & _). lia.
  - unfold paid, total in *. lia.
  - exists pl, q. split; reflexivity.
Qed.
