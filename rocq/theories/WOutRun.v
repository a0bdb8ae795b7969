(** Carrying out the plan on an arbitrary file: every outcome is one of WOutSpec.v. *)

From Coq Require Import List NArith ZArith Bool Lia Arith String.
From Coq Require Import ZifyBool ZifyNat ZifyN.
From Verif Require Import Base BaseLemmas Utf UtfLemmas Types Stream Parse Find Write TagSpec FileSpec ParseLemmas FailSpec PanicSpec WPanicSpec Display Described DescribedIs DescribedWrite ErrSpec FirstSpec OutSpec LayoutSpec WOutSpec WOutPlan.
From Verif Require OutBase OutUnique WOutUnique LayoutProofs LayoutWrite LayoutTables WriteTerm WPanicProofs Fault.
Import ListNotations.
Local Open Scope list_scope.
Local Open Scope d_scope.

(** * The boxes that are found *)

Inductive sound (f : bytes) : node -> Prop :=
| Sound : forall n, box_at f (n_at n) (n_id n) (n_head n) (n_size n) -> (forall x, In x (n_inside n) -> sound f x) -> sound f n.
Lemma comes_sound : forall m f k w q, comes m f k w q -> Forall (fun x => forall n, In n (snd x) -> sound f n) w.
Proof.
  intros m f k w q H. induction H as [p T|k l n d ns w q id head size nm p d' H IH Ld B O P K|k l n d ns w q id head size l' s p n' H IH Ld B O E L|k l' n' d' inside l n d ns w q head size id p d'' H IH L K].
  - constructor; [intros n []|constructor].
  - inversion IH as [|? ? A R]; subst. constructor; [|exact R]. cbn [snd] in *. intros x Hx. apply in_app_or in Hx. destruct Hx as [Hx|[<-|[]]]; [now apply A|]. constructor; [exact B|intros y []].
  - inversion IH as [|? ? A R]; subst. constructor; [intros x []|]. constructor; [|exact R]. cbn [snd] in *. intros x Hx. apply in_app_or in Hx. destruct Hx as [Hx|[<-|[]]]; [now apply A|]. constructor; [exact B|intros y []].
  - inversion IH as [|? ? A R]; subst. inversion R as [|? ? A' R']; subst. constructor; [|exact R']. cbn [snd] in *. intros x Hx. apply in_app_or in Hx. destruct Hx as [Hx|[<-|[]]]; [apply A', in_or_app; now left|].
    assert (Y : sound f (Node q head size id [])) by (apply A', in_or_app; right; now left). inversion Y as [? Y1 Y2]; subst. constructor; [exact Y1|exact A].
Qed.
Lemma final_sound : forall f id ns n, (forall x, In x ns -> sound f x) -> final id ns = Some n -> sound f n.
Proof. intros f id ns n H E. apply H, (LayoutWrite.final_in _ _ _ E). Qed.
Lemma inside_sound : forall f n, sound f n -> forall x, In x (n_inside n) -> sound f x.
Proof. intros f n H. inversion H; assumption. Qed.
Lemma within_sound : forall f o, (forall n, o = Some n -> sound f n) -> forall x, In x (within_it o) -> sound f x.
Proof. intros f [n|] H x I; [|destruct I]. exact (inside_sound f n (H n eq_refl) x I). Qed.
Lemma finds_sound : forall m f ns, finds m f ns -> forall n, In n ns -> sound f n.
Proof. intros m f ns (k & n & d & q & A & _). apply comes_sound in A. inversion A; assumption. Qed.
Lemma movie_sound : forall m f ns mo, finds m f ns -> movie ns = Some mo -> sound f mo.
Proof. intros m f ns mo Fi M. eapply final_sound; [exact (finds_sound _ _ _ Fi)|exact M]. Qed.
Lemma user_sound : forall f mo, sound f mo -> forall u, user_data mo = Some u -> sound f u.
Proof. intros f mo S u U. eapply final_sound; [exact (inside_sound f mo S)|exact U]. Qed.
Lemma meta_sound : forall f mo, sound f mo -> forall e, metadata mo = Some e -> sound f e.
Proof. intros f mo S e E. eapply final_sound; [|exact E]. apply within_sound, user_sound, S. Qed.
Lemma list_sound : forall f mo, sound f mo -> forall i, old_list mo = Some i -> sound f i.
Proof. intros f mo S e E. eapply final_sound; [|exact E]. apply within_sound, meta_sound, S. Qed.
Lemma around_sound : forall f mo, sound f mo -> Forall (sound f) (around mo).
Proof.
  intros f mo S. unfold around. constructor; [exact S|]. apply Forall_app. split.
  - destruct (user_data mo) as [u|] eqn:U; [|constructor]. constructor; [exact (user_sound f mo S u U)|constructor].
  - destruct (metadata mo) as [u|] eqn:U; [|constructor]. constructor; [exact (meta_sound f mo S u U)|constructor].
Qed.
Lemma tables_sound : forall m f ns, finds m f ns -> Forall (fun t => sound f (snd t)) (tables_of ns).
Proof.
  intros m f ns Fi. unfold tables_of. apply Forall_forall. intros t Ht. apply in_flat_map in Ht. destruct Ht as (tr & It & Ht). apply filter_In in It. destruct It as [It _].
  assert (St : sound f tr). { revert It. apply within_sound. intros mo M. exact (movie_sound _ _ _ _ Fi M). }
  unfold track_tables in Ht. cbv zeta in Ht. set (l1 := within_it (final (id4 "mdia") (n_inside tr))) in *.
  assert (S1 : forall x, In x l1 -> sound f x) by (apply within_sound; intros x E; eapply final_sound; [exact (inside_sound f tr St)|exact E]).
  set (l2 := within_it (final (id4 "minf") l1)) in *. assert (S2 : forall x, In x l2 -> sound f x) by (apply within_sound; intros x E; eapply final_sound; [exact S1|exact E]).
  set (l3 := within_it (final (id4 "stbl") l2)) in *. assert (S3 : forall x, In x l3 -> sound f x) by (apply within_sound; intros x E; eapply final_sound; [exact S2|exact E]).
  apply in_app_or in Ht. destruct Ht as [Ht|Ht].
  - destruct (final (id4 "stco") l3) as [n|] eqn:E; [|destruct Ht]. destruct Ht as [<-|[]]. eapply final_sound; [exact S3|exact E].
  - destruct (final (id4 "co64") l3) as [n|] eqn:E; [|destruct Ht]. destruct Ht as [<-|[]]. eapply final_sound; [exact S3|exact E].
Qed.

(** * Bytes *)

Lemma patch_nil : forall p f, patch p [] f = f. Proof. reflexivity. Qed.
Lemma patch_is : forall p d f, d <> [] -> write_at f p d = patch p d f.
Proof. intros p [|b d] f H; [congruence|reflexivity]. Qed.
Lemma zeros_len : forall n, blen (zeros n) = n.
Proof. intros n. unfold zeros, blen. rewrite repeat_length. lia. Qed.
Lemma before_len : forall p f, blen (firstn (N.to_nat p) (f ++ zeros (p - blen f))) = p.
Proof. intros p f. unfold blen. rewrite firstn_length, app_length. pose proof (zeros_len (p - blen f)) as H. unfold blen in H. lia. Qed.
Lemma skip_skip : forall {A} a b (l : list A), skipn a (skipn b l) = skipn (b + a) l.
Proof. intros A a b. induction b as [|b IH]; intros l; [reflexivity|]. destruct l; [now rewrite !skipn_nil|]. cbn [skipn Nat.add]. apply IH. Qed.
Lemma skip_front : forall {A} (a b : list A) n, skipn (List.length a + n) (a ++ b) = skipn n b.
Proof. intros A a b n. induction a as [|x a IH]; [reflexivity|]. exact IH. Qed.
Lemma patch_app : forall p b d f, patch p (b ++ d) f = patch (p + blen b) d (patch p b f).
Proof.
  intros p b d f. destruct d as [|y d]; [now rewrite app_nil_r|]. destruct b as [|x b]; [cbn [app patch]; rewrite blen_nil, N.add_0_r; reflexivity|].
  unfold patch at 1. cbn [app]. unfold patch. set (B := x :: b). set (DD := y :: d). change (x :: b ++ y :: d) with (B ++ DD).
  set (X := firstn (N.to_nat p) (f ++ zeros (p - blen f))). assert (LX : blen X = p) by apply before_len. set (h := X ++ B ++ skipn (N.to_nat (p + blen B)) f).
  assert (Lh : p + blen B <= blen h) by (unfold h; rewrite !blen_app; lia). replace (p + blen B - blen h) with 0 by lia. change (zeros 0) with (@nil byte). rewrite app_nil_r.
  assert (E1 : firstn (N.to_nat (p + blen B)) h = X ++ B).
  { unfold h. rewrite app_assoc. rewrite firstn_app. replace (N.to_nat (p + blen B) - List.length (X ++ B))%nat with 0%nat by (rewrite app_length; unfold blen in *; lia).
    cbn [firstn]. rewrite app_nil_r. apply firstn_all2. rewrite app_length. unfold blen in *. lia. }
  rewrite E1.
  assert (E2 : skipn (N.to_nat (p + blen B + blen DD)) h = skipn (N.to_nat (p + blen (B ++ DD))) f).
  { unfold h. rewrite app_assoc. replace (N.to_nat (p + blen B + blen DD)) with (List.length (X ++ B) + N.to_nat (blen DD))%nat by (rewrite app_length; unfold blen in *; lia).
    rewrite skip_front, skip_skip. f_equal. rewrite blen_app. lia. }
  rewrite E2. now rewrite <- !app_assoc.
Qed.
Lemma patch_len : forall p d f, p + blen d <= blen f -> blen (patch p d f) = blen f.
Proof.
  intros p d f L. destruct d as [|y d]; [reflexivity|]. unfold patch. set (DD := y :: d) in *. rewrite !blen_app, before_len. unfold blen in *. rewrite skipn_length. lia.
Qed.

(** * The buffered writer *)

(** The file with what is in the buffer, and the place where bytes are written next. *)
Definition lfile (s : wst) : bytes := patch (w_cur s) (w_buf s) (w_file s).
Definition lcur (s : wst) : N := w_cur s + blen (w_buf s).
Lemma lfile_empty : forall s, w_buf s = [] -> lfile s = w_file s. Proof. intros s E. unfold lfile. now rewrite E. Qed.
Lemma lcur_empty : forall s, w_buf s = [] -> lcur s = w_cur s. Proof. intros s E. unfold lcur. rewrite E, blen_nil. lia. Qed.
Lemma flush_is : forall s, exists s', bw_flush s = (Ok tt, s') /\ w_file s' = lfile s /\ w_cur s' = lcur s /\ w_buf s' = [].
Proof.
  intros s. unfold bw_flush, os_write, lfile, lcur. destruct (w_buf s) as [|b r] eqn:E.
  - eexists. split; [reflexivity|]. cbn [w_file w_cur w_buf]. rewrite blen_nil, N.add_0_r. auto.
  - eexists. split; [reflexivity|]. cbn [w_file w_cur w_buf]. split; [|auto]. apply patch_is. discriminate.
Qed.
Lemma write_is : forall cap d s, exists s', bw_write cap d s = (Ok tt, s') /\ lfile s' = patch (lcur s) d (lfile s) /\ lcur s' = lcur s + blen d.
Proof.
  intros cap d s. unfold bw_write.
  assert (F : exists s1, (if cap <? blen (w_buf s) + blen d then snd (bw_flush s) else s) = s1 /\ lfile s1 = lfile s /\ lcur s1 = lcur s /\ (cap <=? blen d = true -> w_buf s1 = [])).
  { destruct (cap <? blen (w_buf s) + blen d) eqn:C.
    - destruct (flush_is s) as (s1 & E & A & B & G). exists s1. rewrite E. cbn [snd]. rewrite (lfile_empty s1 G), (lcur_empty s1 G). auto.
    - exists s. split; [reflexivity|]. split; [reflexivity|]. split; [reflexivity|]. intros C2. apply blen_0. lia. }
  destruct F as (s1 & -> & A & B & G). destruct (cap <=? blen d) eqn:C.
  - specialize (G eq_refl). rewrite <- A, <- B. rewrite (lfile_empty s1 G), (lcur_empty s1 G). unfold os_write. destruct d as [|y d].
    + exists s1. split; [reflexivity|]. rewrite (lfile_empty s1 G), (lcur_empty s1 G), blen_nil. split; [reflexivity|lia].
    + eexists. split; [reflexivity|]. unfold lfile, lcur. cbn [w_file w_cur w_buf]. rewrite G, blen_nil. cbn [patch]. split; [apply patch_is; discriminate|lia].
  - eexists. split; [reflexivity|]. rewrite <- A, <- B. unfold lfile, lcur. cbn [w_file w_cur w_buf]. rewrite blen_app. split; [apply patch_app|lia].
Qed.
Lemma hold_is : forall cap d s, w_buf s = [] -> blen d < cap -> exists s', bw_write cap d s = (Ok tt, s') /\ w_file s' = w_file s /\ w_cur s' = w_cur s /\ w_buf s' = d.
Proof.
  intros cap d s E L. unfold bw_write. rewrite E, blen_nil. destruct (cap <? 0 + blen d) eqn:C; [lia|]. destruct (cap <=? blen d) eqn:C2; [lia|]. eexists. split; [reflexivity|]. cbn [w_file w_cur w_buf]. rewrite E. auto.
Qed.
Lemma seek_is : forall q s, exists s', w_file s' = lfile s /\ w_buf s' = [] /\ (q < 2 ^ 63 -> w_cur s' = q) /\ bw_seek_start q s = (if q <? 2 ^ 63 then Ok tt else Err EIoSeek, s').
Proof.
  intros q s. destruct (flush_is s) as (s1 & E & A & B & G). unfold bw_seek_start, wbind. rewrite E. assert (W : two63 = 2 ^ 63) by reflexivity. rewrite W. destruct (q <? 2 ^ 63) eqn:C.
  - exists (Wst (w_file s1) q (w_buf s1) (w_ops s1)). cbn [w_file w_cur w_buf]. auto.
  - exists s1. split; [exact A|]. split; [exact G|]. split; [lia|reflexivity].
Qed.
Lemma seek4_is : forall s, lcur s + 4 < 2 ^ 63 -> exists s', bw_seek_cur 4 s = (Ok tt, s') /\ w_file s' = lfile s /\ w_buf s' = [] /\ w_cur s' = lcur s + 4.
Proof.
  intros s L. destruct (flush_is s) as (s1 & E & A & B & G). unfold bw_seek_cur, wbind. rewrite E, B. assert (W : Z.of_N two63 = (2 ^ 63)%Z) by reflexivity. rewrite W.
  destruct (_ && _)%Z eqn:C; [|lia]. eexists. split; [reflexivity|]. cbn [w_file w_cur w_buf]. split; [exact A|]. split; [exact G|lia].
Qed.
Lemma set_len_is : forall n s, exists s', file_set_len n s = (if n <? 2 ^ 63 then Ok tt else Err EIoSeek, s') /\ w_cur s' = w_cur s /\ w_buf s' = w_buf s /\ w_file s' = (if n <? 2 ^ 63 then resize n (w_file s) else w_file s).
Proof.
  intros n s. unfold file_set_len. assert (W : two63 = 2 ^ 63) by reflexivity. rewrite W. destruct (n <? 2 ^ 63); eexists; (split; [reflexivity|]); auto.
Qed.

(** * Programs *)

Definition xpost {A} (E : list fourcc -> fault -> bytes -> Prop) (x : DW A) (s : wst) (Q : A -> wst -> Prop) : Prop :=
  match x s with
  | (DOk a, s') => Q a s'
  | (DErr e t, s') => exists ns u, E ns (Fails e u) (lfile s') /\ t = says ns u
  | (DPanic k, s') => exists ns, E ns (Breaks k) (lfile s')
  | (DFuel, _) => False
  end.
Lemma xp_bind : forall {A B} E (x : DW A) (k : A -> DW B) s Q S, xpost E x s Q -> (forall a s', Q a s' -> xpost E (k a) s' S) -> xpost E (dwbind A B x k) s S.
Proof. intros A B E x k s Q S H K. unfold xpost, dwbind in *. destruct (x s) as [[a|e t|q|] s']; try exact H. apply K, H. Qed.
Lemma xp_weak : forall {A} (E E' : list fourcc -> fault -> bytes -> Prop) (x : DW A) s (Q Q' : A -> wst -> Prop), xpost E x s Q -> (forall ns y g, E ns y g -> E' ns y g) -> (forall a s', Q a s' -> Q' a s') -> xpost E' x s Q'.
Proof.
  intros A E E' x s Q Q' H K L. unfold xpost in *. destruct (x s) as [[a|e t|q|] s']; [now apply L| | |exact H].
  - destruct H as (ns & u & H & ->). exists ns, u. split; [now apply K|reflexivity].
  - destruct H as (ns & H). exists ns. now apply K.
Qed.
Lemma xp_same : forall {A} E (x y : DW A) s Q, x s = y s -> xpost E y s Q -> xpost E x s Q.
Proof. intros A E x y s Q H P. unfold xpost. rewrite H. exact P. Qed.
Lemma xp_then : forall {A} E (x : DW A) s (Q Q' : A -> wst -> Prop), xpost E x s Q -> (forall a s', Q a s' -> Q' a s') -> xpost E x s Q'.
Proof. intros. eapply xp_weak; eauto. Qed.
Lemma xp_ret : forall {A} E (a : A) s (Q : A -> wst -> Prop), Q a s -> xpost E (dwret A a) s Q. Proof. intros. exact H. Qed.
Lemma xp_addi : forall m E a b s, (too_big m (a + b) -> exists ns, E ns (Breaks POverflow) (lfile s)) -> xpost E (dwlift Z (addi m a b)) s (fun c s' => turned m (a + b) c /\ s' = s).
Proof. intros m E a b s H. unfold xpost, dwlift. destruct (addi_is m a b) as [(c & T & ->)|[B ->]]; cbn [dress]; auto. Qed.
Lemma xp_flush : forall E s, xpost E (dw bw_flush) s (fun _ s' => w_file s' = lfile s /\ w_cur s' = lcur s /\ w_buf s' = []).
Proof. intros E s. unfold xpost, dw. destruct (flush_is s) as (s1 & -> & A & B & C). cbn [dress]. auto. Qed.
Lemma xp_write : forall E cap d s, xpost E (dw (bw_write cap d)) s (fun _ s' => lfile s' = patch (lcur s) d (lfile s) /\ lcur s' = lcur s + blen d).
Proof. intros E cap d s. unfold xpost, dw. destruct (write_is cap d s) as (s1 & -> & A & B). cbn [dress]. auto. Qed.
Lemma xp_hold : forall E cap d s, w_buf s = [] -> blen d < cap -> xpost E (dw (bw_write cap d)) s (fun _ s' => w_file s' = w_file s /\ w_cur s' = w_cur s /\ w_buf s' = d).
Proof. intros E cap d s H L. unfold xpost, dw. destruct (hold_is cap d s H L) as (s1 & -> & A & B & C). cbn [dress]. auto. Qed.
Lemma xp_seek : forall (E : list fourcc -> fault -> bytes -> Prop) q s, (2 ^ 63 <= q -> E [] (Fails EIoSeek []) (lfile s)) -> xpost E (dw (bw_seek_start q)) s (fun _ s' => q < 2 ^ 63 /\ w_file s' = lfile s /\ w_cur s' = q /\ w_buf s' = []).
Proof.
  intros E q s H. unfold xpost, dw. destruct (seek_is q s) as (s1 & A & B & C & ->). destruct (q <? 2 ^ 63) eqn:L; cbn [dress].
  - split; [lia|]. split; [exact A|]. split; [apply C; lia|exact B].
  - exists [], []. rewrite (lfile_empty s1 B), A. split; [apply H; lia|reflexivity].
Qed.
Lemma xp_seek4 : forall E s, lcur s + 4 < 2 ^ 63 -> xpost E (dw (bw_seek_cur 4)) s (fun _ s' => w_file s' = lfile s /\ w_cur s' = lcur s + 4 /\ w_buf s' = []).
Proof. intros E s L. unfold xpost, dw. destruct (seek4_is s L) as (s1 & -> & A & B & C). cbn [dress]. auto. Qed.
Lemma xp_set_len : forall (E : list fourcc -> fault -> bytes -> Prop) n s, (2 ^ 63 <= n -> E [] (Fails EIoSeek []) (lfile s)) ->
  xpost E (dw (file_set_len n)) s (fun _ s' => n < 2 ^ 63 /\ w_file s' = resize n (w_file s) /\ w_cur s' = w_cur s /\ w_buf s' = w_buf s).
Proof.
  intros E n s H. unfold xpost, dw. destruct (set_len_is n s) as (s1 & -> & A & B & C). destruct (n <? 2 ^ 63) eqn:L; cbn [dress].
  - split; [lia|]. auto.
  - exists [], []. assert (X : lfile s1 = lfile s) by (unfold lfile; now rewrite A, B, C). rewrite X. split; [apply H; lia|reflexivity].
Qed.

Section Run.
  Context (m : mode) (f : bytes) (Lf : blen f < 2 ^ 62) (cap : N) (Lcap : 8 < cap).
  Local Notation table_prog := (Fault.g_table DW dwret dwbind dwlift (fun d => dw (bw_write cap d)) (fun q => dw (bw_seek_start q)) (dw bw_flush) dw_table m).
  Local Notation offsets_prog := (Fault.g_offsets DW dwret dwbind dwlift (fun d => dw (bw_write cap d)) m).
  Local Notation update_prog := (Fault.g_update DW dwbind dwlift (fun d => dw (bw_write cap d)) (fun q => dw (bw_seek_start q)) (fun d => dw (bw_seek_cur d)) m).

  Lemma sound_at : forall n, sound f n -> (n_head n = 8 \/ n_head n = 16) /\ n_at n + n_head n <= blen f /\ head_len (b_size (LayoutProofs.bound n)) = n_head n.
  Proof.
    intros n S. inversion S as [? B _]; subst. pose proof (LayoutWrite.head_bound f n B) as [H _]. destruct B as (L & _ & C). split; [|auto]. destruct C as [(_ & C & _)|(_ & _ & C & _)]; auto.
  Qed.
  (** Numbers that are written. *)
  Lemma turned_mod64 : forall a c, turned m a c -> (c mod 2 ^ 64 = a mod 2 ^ 64)%Z.
  Proof. intros a c T. apply turned_mod in T. unfold unsigned in T. pose proof (Z.mod_pos_bound c (2 ^ 64)). pose proof (Z.mod_pos_bound a (2 ^ 64)). lia. Qed.
  Lemma entry_64 : forall o d v, turned m (signed o + d) v -> i_as_u64 v = shift_entry 8 d o.
  Proof.
    intros o d v T. rewrite i_as_u64_is, (turned_mod _ _ _ T). unfold unsigned, shift_entry. change (8 * Z.of_nat 8)%Z with 64%Z. rewrite Zplus_mod, signed_mod, <- Zplus_mod. reflexivity.
  Qed.
  Lemma entry_32 : forall o d v, turned m (signed o + d) v -> i_as_u32 v = shift_entry 4 d o.
  Proof.
    intros o d v T. apply turned_mod64 in T. rewrite Zplus_mod, signed_mod, <- Zplus_mod in T. unfold i_as_u32, shift_entry. change (8 * Z.of_nat 4)%Z with 32%Z. assert (W : Z.of_N two32 = (2 ^ 32)%Z) by reflexivity. rewrite W.
    assert (D : (2 ^ 32 | 2 ^ 64)%Z) by (exists (2 ^ 32)%Z; reflexivity).
    rewrite (Znumtheory.Zmod_div_mod (2 ^ 32) (2 ^ 64) v) by (try lia; assumption). rewrite T. rewrite <- (Znumtheory.Zmod_div_mod (2 ^ 32) (2 ^ 64)) by (try lia; assumption). reflexivity.
  Qed.
  Lemma entry_is : forall (wide : bool) o d v, turned m (signed o + d) v -> (if wide then be64 (i_as_u64 v) else be32 (i_as_u32 v)) = be (N.to_nat (entry_size wide)) (shift_entry (N.to_nat (entry_size wide)) d o).
  Proof. intros [|] o d v T; [rewrite (entry_64 o d v T)|rewrite (entry_32 o d v T)]; reflexivity. Qed.

  Lemma xp_offsets : forall (E : list fourcc -> fault -> bytes -> Prop) wide d os s,
    (forall os1 o os2, os = os1 ++ o :: os2 -> Forall (fun x => ~ too_far m d x) os1 -> too_far m d o -> E [] (Breaks POverflow) (patch (lcur s) (new_entries wide d os1) (lfile s))) ->
    xpost E (offsets_prog wide d os) s (fun _ s' => Forall (fun x => ~ too_far m d x) os /\ lfile s' = patch (lcur s) (new_entries wide d os) (lfile s)).
  Proof.
    intros E wide d os. induction os as [|o os IH]; intros s H; cbn [Fault.g_offsets].
    - apply xp_ret. split; [constructor|reflexivity].
    - rewrite as_i64_is. eapply xp_bind; [apply xp_addi|].
      + intros T. exists []. exact (H [] o os eq_refl (Forall_nil _) T).
      + intros v s' [T ->]. eapply xp_bind; [apply xp_write|]. cbv beta. intros _ s1 [A B]. rewrite (entry_is wide o d v T) in A, B.
        assert (NF : ~ too_far m d o) by exact (turned_not _ _ _ T).
        assert (EQ : forall l, patch (lcur s1) (new_entries wide d l) (lfile s1) = patch (lcur s) (new_entries wide d (o :: l)) (lfile s)).
        { intros l. rewrite A, B. unfold new_entries. cbn [flat_map]. now rewrite patch_app. }
        eapply xp_then; [apply IH|].
        * intros os1 o' os2 -> F T'. rewrite EQ. apply (H (o :: os1) o' os2 eq_refl); [constructor; assumption|exact T'].
        * cbv beta. intros _ s2 [F A2]. split; [constructor; assumption|]. now rewrite A2, EQ.
  Qed.

  (** * Tables *)

  Lemma content_of : forall n, sound f n -> content_len m (b_size (LayoutProofs.bound n)) = sub64 m (n_size n) (n_head n).
  Proof. intros n S. destruct (sound_at n S) as (_ & _ & H). rewrite <- H. unfold content_len, head_len. destruct (sz_ext _); reflexivity. Qed.
  Definition read_as (d : Z) (wide : bool) (n : node) (g : bytes) (r : dres ((N * list N) * N)) : Prop :=
    match r with
    | DOk (t, _) => full_fine g (table_start n) 0 /\ less m (n_size n) (n_head n) (8 + entry_size wide * N.of_nat (count g n)) /\ table_start n + 8 + entry_size wide * N.of_nat (count g n) <= blen g /\
                    t = (table_start n + 8, offsets g wide (table_start n + 8) (count g n))
    | DErr e t => exists ns u, table_out m d wide n g g (Some (ns, Fails e u)) /\ t = says ns u
    | DPanic k => exists ns, table_out m d wide n g g (Some (ns, Breaks k))
    | DFuel => False
    end.
  Lemma d_table_is : forall d w rd mm vv (wide : bool) n g, sound f n -> w = entry_size wide -> txt mm = count_says wide -> txt vv = table_says wide ->
    (forall p, rd g p = if p + w <=? blen g then Ok (field g p w, p + w) else Err EIoEof) ->
    read_as d wide n g (parsing (table_name wide) (d_table w rd mm vv m (b_size (LayoutProofs.bound n))) g (table_start n)).
  Proof.
    intros d w rd mm vv wide n g S Ew Em Ev Hr. set (p := table_start n). unfold parsing.
    assert (K : forall e u, table_out m d wide n g g (Some ([table_name wide], Fails e u)) -> read_as d wide n g (DErr e (says [table_name wide] u))) by (intros e u T; exists [table_name wide], u; auto).
    assert (SA : forall u, says [table_name wide] u = prefixed (table_name wide) u) by reflexivity.
    unfold d_table, d_full. unfold dbind at 1 2, saying at 1. rewrite LayoutTables.u8_is. destruct (p + 1 <=? blen g) eqn:E1; [|rewrite <- SA; apply K, Table_version, No_version; fold p; lia].
    unfold dbind at 1, saying at 1. unfold read_exact at 1. change (3 =? 0) with false. cbv iota. destruct (p + 1 + 3 <=? blen g) eqn:E2; [|rewrite <- SA; apply K, Table_version, No_flags; fold p; lia].
    unfold dret at 1. cbv iota beta. cbn [fst]. destruct (field g p 1) as [|v] eqn:Ef.
    2: { unfold dfail. rewrite <- SA, Ev, <- Ef. apply K, Table_version, Other_version; fold p; lia. }
    assert (Fi : full_fine g (table_start n) 0) by (split; fold p; lia).
    unfold dbind at 1, plainly at 1. rewrite LayoutTables.u32_is. replace (p + 1 + 3) with (p + 4) by lia. destruct (p + 4 + 4 <=? blen g) eqn:E3.
    2: { rewrite <- SA. apply K, Table_cut; [exact Fi|fold p; lia]. }
    replace (p + 4 + 4) with (p + 8) by lia.
    assert (Ct : N.of_nat (count g n) = field g (p + 4) 4) by (unfold count; rewrite N2Nat.id; reflexivity).
    unfold dbind at 1, plainly at 1, lift at 1. rewrite (content_of n S). destruct (OutBase.sub64_is m (n_size n) (n_head n)) as [(c & L & ->)|[L ->]].
    2: { exists []. apply Table_short; [exact Fi|fold p; lia|exact L]. }
    destruct (negb _) eqn:E4.
    { unfold dfail. rewrite <- SA, Em. apply K. eapply Table_count; [exact Fi|fold p; lia|exact L|]. rewrite Ct, <- Ew. lia. }
    assert (Ec : c = 8 + entry_size wide * N.of_nat (count g n)) by (rewrite Ct, <- Ew; lia). subst c.
    unfold dbind at 1, plainly at 1, position at 1. unfold dbind at 1, plainly at 1. rewrite (LayoutTables.many_is w rd g Hr). rewrite <- Ct, Nat2N.id.
    destruct (_ || _) eqn:E5.
    - unfold dret. unfold read_as. split; [exact Fi|]. split; [exact L|]. split; [|unfold offsets; rewrite <- Ew; reflexivity]. fold p. rewrite <- Ew.
      destruct (count g n =? 0)%nat eqn:E6; [|cbn [orb] in E5; lia]. assert (X2 : count g n = 0%nat) by lia. rewrite X2. lia.
    - rewrite <- SA. apply K, Table_offsets; [exact Fi|exact L|fold p; lia|]. fold p. rewrite <- Ew. lia.
  Qed.
  Lemma table_read : forall d (wide : bool) n g, sound f n ->
    read_as d wide n g ((if wide then parsing SAMPLE_TABLE_CHUNK_OFFSET_64 (d_co64 m (b_size (LayoutProofs.bound n))) else parsing SAMPLE_TABLE_CHUNK_OFFSET (d_stco m (b_size (LayoutProofs.bound n)))) g (table_start n)).
  Proof.
    intros d [|] n g S.
    - apply (d_table_is d 8 read_u64 _ _ true n g S); [reflexivity|reflexivity|reflexivity|apply LayoutTables.u64_is].
    - apply (d_table_is d 4 read_u32 _ _ false n g S); [reflexivity|reflexivity|reflexivity|apply LayoutTables.u32_is].
  Qed.
  Lemma entries_len : forall wide d g n, blen (new_entries wide d (offsets g wide (table_start n + 8) (count g n))) = entry_size wide * N.of_nat (count g n).
  Proof. intros wide d g n. unfold new_entries. rewrite LayoutTables.blen_be_map. unfold offsets. rewrite map_length, seq_length, N2Nat.id. reflexivity. Qed.
  Lemma xp_table : forall (E : list fourcc -> fault -> bytes -> Prop) d wide n s, sound f n -> w_buf s = [] -> blen (w_file s) = blen f ->
    (forall ns x g, table_out m d wide n (w_file s) g (Some (ns, x)) -> E ns x g) ->
    xpost E (table_prog wide d (LayoutProofs.bound n)) s (fun _ s' => w_buf s' = [] /\ blen (w_file s') = blen f /\ table_out m d wide n (w_file s) (w_file s') None).
  Proof.
    intros E d wide n s Sn Bs Ls H. assert (W : two63 = 2 * 2 ^ 62) by reflexivity. assert (W3 : 2 ^ 63 = 2 * 2 ^ 62) by reflexivity. assert (W4 : 2 ^ 64 = 4 * 2 ^ 62) by reflexivity. destruct (sound_at n Sn) as (Hh & Ln & Hl).
    unfold Fault.g_table. eapply xp_bind with (Q := fun cp s' => cp = table_start n /\ s' = s).
    { unfold xpost, dwlift, content_pos. rewrite Hl. change (b_pos (LayoutProofs.bound n)) with (n_at n). destruct (OutBase.add64_is m (n_at n) (n_head n)) as [(c & K & ->)|[[_ B] ->]]; cbn [dress].
      - split; [apply (OutBase.kept_small _ _ _ K); lia|reflexivity].
      - lia. }
    intros cp s' [-> ->]. set (g := w_file s) in *.
    eapply xp_bind with (Q := fun t s' => s' = s /\ full_fine g (table_start n) 0 /\ less m (n_size n) (n_head n) (8 + entry_size wide * N.of_nat (count g n)) /\ table_start n + 8 + entry_size wide * N.of_nat (count g n) <= blen g /\
                    t = (table_start n + 8, offsets g wide (table_start n + 8) (count g n))).
    { pose proof (table_read d wide n g Sn) as R. unfold xpost, dw_table. destruct (table_start n <? two63) eqn:Q; [|unfold table_start in Q; lia]. fold g. unfold read_as in R.
      destruct (_ g (table_start n)) as [[t q]|e t|k|].
      - split; [reflexivity|exact R].
      - destruct R as (ns & u & R & ->). exists ns, u. split; [|reflexivity]. rewrite (lfile_empty s Bs). apply H, R.
      - destruct R as (ns & R). exists ns. rewrite (lfile_empty s Bs). apply H, R.
      - exact R. }
    intros t s' (-> & Fi & L & Lo & ->). cbn [fst snd].
    eapply xp_bind; [apply xp_seek; intros Q; exfalso; unfold table_start in *; lia|]. cbv beta. intros _ s1 (_ & A1 & C1 & B1). rewrite (lfile_empty s Bs) in A1. fold g in A1.
    assert (F1 : lfile s1 = g) by (rewrite (lfile_empty s1 B1); exact A1). assert (G1 : lcur s1 = table_start n + 8) by (rewrite (lcur_empty s1 B1); exact C1).
    eapply xp_bind; [apply xp_offsets|].
    - intros os1 o os2 Eo Fo To. rewrite F1, G1. apply H. eapply Table_far; eassumption.
    - cbv beta. intros _ s2 [Fo A2]. eapply xp_then; [apply xp_flush|]. cbv beta. intros _ s3 (A3 & C3 & B3). rewrite F1, G1 in A2. split; [exact B3|]. rewrite A3, A2. split.
      + rewrite patch_len; [exact Ls|]. rewrite entries_len. exact Lo.
      + now apply Table_fine.
  Qed.
  Lemma xp_tables : forall (E : list fourcc -> fault -> bytes -> Prop) d l s, Forall (fun t => sound f (snd t)) l -> w_buf s = [] -> blen (w_file s) = blen f ->
    (forall ns x g, tables_out m d l (w_file s) g (Some (ns, x)) -> E ns x g) ->
    xpost E (LayoutTables.tables_prog m cap d (map LayoutWrite.bt l)) s (fun _ s' => w_buf s' = [] /\ blen (w_file s') = blen f /\ tables_out m d l (w_file s) (w_file s') None).
  Proof.
    intros E d l. induction l as [|[wide n] l IH]; intros s F Bs Ls H; cbn [map LayoutTables.tables_prog].
    - apply xp_ret. split; [exact Bs|]. split; [exact Ls|constructor].
    - inversion F as [|? ? Fn Fl]; subst. cbn [snd] in Fn. change (fst (LayoutWrite.bt (wide, n))) with wide. change (snd (LayoutWrite.bt (wide, n))) with (LayoutProofs.bound n).
      eapply xp_bind; [apply xp_table; [exact Fn|exact Bs|exact Ls|]|].
      + intros ns x g T. apply H. now apply Tables_stop.
      + cbv beta. intros _ s1 (B1 & L1 & T1). eapply xp_then; [apply (IH s1 Fl B1 L1)|].
        * intros ns x g T. apply H. eapply Tables_next; eassumption.
        * cbv beta. intros _ s2 (B2 & L2 & T2). split; [exact B2|]. split; [exact L2|]. eapply Tables_next; eassumption.
  Qed.

  (** * Sizes *)

  (** The fields written so far, the last of them only into the buffer. *)
  Definition held (fs : list (N * bytes)) (g : bytes) (s : wst) : Prop :=
    fs = [] /\ w_buf s = [] /\ w_file s = g \/ exists l p v, fs = l ++ [(p, v)] /\ w_file s = patches l g /\ w_cur s = p /\ w_buf s = v.
  Lemma patches_snoc : forall l p v g, patches (l ++ [(p, v)]) g = patch p v (patches l g).
  Proof. intros l p v g. unfold patches. rewrite fold_left_app. reflexivity. Qed.
  Lemma held_file : forall fs g s, held fs g s -> lfile s = patches fs g.
  Proof.
    intros fs g s [(-> & B & F)|(l & p & v & -> & F & C & B)].
    - rewrite (lfile_empty s B), F. reflexivity.
    - rewrite patches_snoc. unfold lfile. now rewrite C, B, F.
  Qed.
  Lemma xp_update : forall (E : list fourcc -> fault -> bytes -> Prop) d n fs g s, sound f n -> held fs g s ->
    (too_far m d (n_size n) -> E [] (Breaks POverflow) (patches fs g)) ->
    xpost E (update_prog d (LayoutProofs.bound n)) s (fun _ s' => ~ too_far m d (n_size n) /\ held (fs ++ size_fields d n) g s').
  Proof.
    intros E d n fs g s Sn Hd H. assert (W3 : 2 ^ 63 = 2 * 2 ^ 62) by reflexivity. assert (W30 : 2 ^ 62 = 2 ^ 32 * 2 ^ 30) by reflexivity. destruct (sound_at n Sn) as (Hh & Ln & Hl). unfold Fault.g_update. change (sz_len (b_size (LayoutProofs.bound n))) with (n_size n). rewrite as_i64_is.
    eapply xp_bind; [apply xp_addi; intros T; exists []; rewrite (held_file fs g s Hd); apply H, T|]. intros v s' [T ->].
    assert (NF : ~ too_far m d (n_size n)) by exact (turned_not _ _ _ T).
    change (b_pos (LayoutProofs.bound n)) with (n_at n). change (sz_ext (b_size (LayoutProofs.bound n))) with (n_head n =? 16).
    eapply xp_bind; [apply xp_seek; intros Q; exfalso; lia|]. cbv beta. intros _ s1 (_ & A1 & C1 & B1). rewrite (held_file fs g s Hd) in A1. unfold size_fields. destruct (n_head n =? 16) eqn:X.
    - eapply xp_bind; [apply xp_hold; [exact B1|unfold be32; rewrite blen_be; lia]|]. cbv beta. intros _ s2 (A2 & C2 & B2). rewrite A1 in A2. rewrite C1 in C2.
      assert (F2 : lfile s2 = patch (n_at n) (be 4 1) (patches fs g)) by (unfold lfile; rewrite A2, B2, C2; reflexivity).
      assert (G2 : lcur s2 = n_at n + 4) by (unfold lcur; rewrite B2, C2; unfold be32; rewrite blen_be; lia).
      eapply xp_bind; [apply xp_seek4; rewrite G2; lia|]. cbv beta. intros _ s3 (A3 & C3 & B3). rewrite F2 in A3. rewrite G2 in C3.
      eapply xp_then; [apply xp_hold; [exact B3|unfold be64; rewrite blen_be; lia]|]. cbv beta. intros _ s4 (A4 & C4 & B4). split; [exact NF|].
      right. exists (fs ++ [(n_at n, be 4 1)]), (n_at n + 8), (be 8 (shift_entry 8 d (n_size n))). split; [rewrite <- app_assoc; reflexivity|]. split; [rewrite patches_snoc, A4, A3; reflexivity|]. split; [rewrite C4, C3; lia|].
      rewrite B4. unfold be64. now rewrite (entry_64 _ _ _ T).
    - eapply xp_then; [apply xp_hold; [exact B1|unfold be32; rewrite blen_be; lia]|]. cbv beta. intros _ s2 (A2 & C2 & B2). rewrite A1 in A2. rewrite C1 in C2. split; [exact NF|].
      right. exists fs, (n_at n), (be 4 (shift_entry 4 d (n_size n))). split; [reflexivity|]. split; [exact A2|]. split; [exact C2|]. rewrite B2. unfold be32. now rewrite (entry_32 _ _ _ T).
  Qed.
  Lemma xp_updates : forall (E : list fourcc -> fault -> bytes -> Prop) d l fs g s, Forall (sound f) l -> held fs g s ->
    (forall bs b bs', l = bs ++ b :: bs' -> Forall (fun b => ~ too_far m d (n_size b)) bs -> too_far m d (n_size b) -> E [] (Breaks POverflow) (patches (fs ++ flat_map (size_fields d) bs) g)) ->
    xpost E (Fault.g_update_all DW dwret dwbind dwlift (fun d => dw (bw_write cap d)) (fun q => dw (bw_seek_start q)) (fun d => dw (bw_seek_cur d)) m d (map LayoutProofs.bound l)) s
          (fun _ s' => Forall (fun b => ~ too_far m d (n_size b)) l /\ held (fs ++ flat_map (size_fields d) l) g s').
  Proof.
    intros E d l. induction l as [|n l IH]; intros fs g s F Hd H; cbn [map Fault.g_update_all].
    - apply xp_ret. split; [constructor|]. cbn [flat_map]. rewrite app_nil_r. exact Hd.
    - inversion F as [|? ? Fn Fl]; subst. eapply xp_bind; [apply (xp_update E d n fs g s Fn Hd)|].
      + intros T. specialize (H [] n l eq_refl (Forall_nil _) T). cbn [flat_map] in H. rewrite app_nil_r in H. exact H.
      + cbv beta. intros _ s1 [NF H1]. eapply xp_then; [apply (IH (fs ++ size_fields d n) g s1 Fl H1)|].
        * intros bs b bs' -> Fb T. rewrite <- app_assoc. apply (H (n :: bs) b bs' eq_refl); [constructor; assumption|exact T].
        * cbv beta. intros _ s2 [F2 H2]. split; [constructor; assumption|]. cbn [flat_map]. rewrite app_assoc. exact H2.
  Qed.

  (** * The rest *)

  Lemma xp_chunks : forall E l s, xpost E (Fault.g_chunks DW dwret dwbind (fun d => dw (bw_write cap d)) l) s (fun _ s' => lfile s' = patch (lcur s) (List.concat l) (lfile s)).
  Proof.
    intros E l. induction l as [|c l IH]; intros s; cbn [Fault.g_chunks List.concat].
    - apply xp_ret. reflexivity.
    - eapply xp_bind; [apply xp_write|]. cbv beta. intros _ s1 [A B]. eapply xp_then; [apply IH|]. cbv beta. intros _ s2 A2. now rewrite A2, A, B, patch_app.
  Qed.
  Lemma signed_small : forall n, n < 2 ^ 63 -> signed n = Z.of_N n.
  Proof. intros n L. unfold signed. destruct (n <? 2 ^ 63) eqn:E; [reflexivity|lia]. Qed.
  Lemma fields_some : forall d n l, exists fs p v, flat_map (size_fields d) (n :: l) = fs ++ [(p, v)].
  Proof.
    intros d n l. revert n. induction l as [|b l IH]; intros n.
    - cbn [flat_map]. rewrite app_nil_r. unfold size_fields. destruct (_ =? _); [eexists [_], _, _|exists []; do 2 eexists]; reflexivity.
    - destruct (IH b) as (fs & p & v & E). cbn [flat_map]. cbn [flat_map] in E. rewrite E. exists (size_fields d n ++ fs), p, v. now rewrite app_assoc.
  Qed.
  Context (items : list atom_data).
  Lemma run_out : forall ns mo s e d, finds m f ns -> movie ns = Some mo -> ready m f items mo s e d ->
    xpost (fun nm x g => write_out m f items (Halts nm x) g)
          (d_execute cap m (plan_with f items mo match final (id4 "mdat") ns with Some n => n_at n | None => 0 end s e d)) (Wst f 0 [] []) (fun _ s' => write_out m f items Ends (lfile s')).
  Proof.
    intros ns mo s e d Fi M R. assert (W3 : 2 ^ 63 = 2 * 2 ^ 62) by reflexivity. pose proof (movie_sound _ _ _ _ Fi M) as Sm. destruct R as [Pl Le] eqn:ER. clear ER.
    set (mp := match final (id4 "mdat") ns with Some n => n_at n | None => 0 end).
    assert (Ls : s < 2 ^ 63).
    { destruct Pl as (K & -> & _). destruct (old_list mo) as [i|] eqn:O; [|lia]. destruct (sound_at i (list_sound f mo Sm i O)) as (_ & L & _). lia. }
    unfold d_execute, Fault.g_execute, plan_with. cbn [pl_moov pl_mdat_pos pl_start pl_moved_start pl_diff pl_update pl_new pl_old_len pl_moved].
    eapply xp_bind with (Q := fun _ s1 => w_buf s1 = [] /\ tables_done m d ns f (w_file s1) None).
    { change (b_pos (vb_bounds (LayoutProofs.moov_of mo))) with (n_at mo). assert (A : (n_at mo <? mp) = adjusts ns).
      { unfold adjusts, mp. rewrite M. destruct (final (id4 "mdat") ns); [reflexivity|]. destruct (n_at mo <? 0) eqn:X; [lia|reflexivity]. }
      rewrite A. unfold tables_done. destruct (adjusts ns) eqn:Ad.
      - eapply xp_same; [rewrite LayoutTables.traks_prog, LayoutWrite.tables_bt; reflexivity|].
        assert (Et : flat_map track_tables (filter (named (id4 "trak")) (n_inside mo)) = tables_of ns) by (unfold tables_of; rewrite M; reflexivity). rewrite Et.
        eapply xp_then; [apply (xp_tables (fun nm x g => write_out m f items (Halts nm x) g)); [exact (tables_sound m f ns Fi)|reflexivity|reflexivity|]|].
        + intros nm x g T. cbn [w_file] in T. eapply Write_tables; [exact Fi|exact M|exact R|]. unfold tables_done. rewrite Ad. exact T.
        + cbv beta. intros _ s1 (B1 & _ & T1). auto.
      - apply xp_ret. auto. }
    intros _ s1 [B1 T1]. set (g := w_file s1) in *.
    eapply xp_bind; [apply (xp_updates _ d (around mo) [] g s1 (around_sound f mo Sm)); [left; auto|]|].
    { cbn [app]. intros bs b bs' Ea Fb Tb. eapply Write_sizes; eassumption. }
    cbv beta. cbn [app]. intros _ s2 [Fa H2].
    rewrite as_i64_is, signed_small by lia.
    eapply xp_bind with (Q := fun _ s3 => ~ too_big m (Z.of_N (blen f) + d) /\ unsigned (Z.of_N (blen f) + d) < 2 ^ 63 /\ w_file s3 = resize (unsigned (Z.of_N (blen f) + d)) (w_file s2) /\ w_cur s3 = w_cur s2 /\ w_buf s3 = w_buf s2).
    { eapply xp_bind; [apply xp_addi; intros T; exists []; rewrite (held_file _ _ _ H2); eapply Write_length; eassumption|]. cbv beta. intros v s' [T ->].
      rewrite i_as_u64_is, (turned_mod _ _ _ T). pose proof (turned_not _ _ _ T) as NT.
      eapply xp_then; [apply xp_set_len; intros Q; rewrite (held_file _ _ _ H2); eapply Write_no_length; eassumption|]. cbv beta. auto. }
    cbv beta. intros _ s3 (NT & L3 & A3 & C3 & B3).
    assert (X : exists fs p v, flat_map (size_fields d) (around mo) = fs ++ [(p, v)]) by apply fields_some.
    destruct X as (fs & p & v & Ef). destruct H2 as [(H2 & _)|(l & p' & v' & H2 & F2 & C2 & B2)]; [rewrite Ef in H2; destruct fs; discriminate|].
    assert (HH : l = fs /\ p' = p /\ v' = v) by (rewrite Ef in H2; apply app_inj_tail in H2; destruct H2 as [-> H2]; injection H2 as -> ->; auto). destruct HH as (-> & -> & ->).
    set (n := unsigned (Z.of_N (blen f) + d)) in *.
    assert (F3 : lfile s3 = patch p v (resize n (patches fs g))) by (unfold lfile; now rewrite A3, C3, B3, C2, B2, F2).
    assert (WR : forall o g', rest_out m f items mo s e d (patch p v (resize n (patches fs g))) o g' -> write_out m f items o g') by (intros o g' Ro; eapply Write_rest; eassumption).
    set (G := patch p v (resize n (patches fs g))) in *.
    eapply xp_bind; [apply xp_seek; intros Q; exfalso; lia|]. cbv beta. intros _ s4 (_ & A4 & C4 & B4). rewrite F3 in A4.
    assert (F4 : lfile s4 = G) by (rewrite (lfile_empty s4 B4); exact A4). assert (G4 : lcur s4 = s) by (rewrite (lcur_empty s4 B4); exact C4).
    destruct (pours_boxes m items mo) as [P1 P2].
    eapply xp_bind with (Q := fun _ s5 => all_poured m (pieces items mo) = true /\ lfile s5 = patch s (poured m (pieces items mo)) G).
    { unfold Fault.g_out. eapply xp_bind; [apply xp_chunks|]. cbv beta. intros _ s5 A5. rewrite P1, F4, G4 in A5. unfold xpost, dwlift. rewrite P2. destruct (all_poured m (pieces items mo)) eqn:AP; cbn [dress].
      - auto.
      - exists []. apply WR. rewrite A5. now apply Rest_long. }
    cbv beta. intros _ s5 [AP A5].
    rewrite as_i64_is, signed_small by lia.
    eapply xp_bind with (Q := fun _ s6 => ~ too_big m (Z.of_N e + d) /\ unsigned (Z.of_N e + d) < 2 ^ 63 /\ lfile s6 = patch s (poured m (pieces items mo)) G /\ lcur s6 = unsigned (Z.of_N e + d)).
    { eapply xp_bind; [apply xp_addi; intros T; exists []; rewrite A5; apply WR; now apply Rest_over|]. cbv beta. intros z s' [T ->].
      rewrite i_as_u64_is, (turned_mod _ _ _ T). pose proof (turned_not _ _ _ T) as NT2.
      eapply xp_then; [apply xp_seek; intros Q; rewrite A5; apply WR; now apply Rest_far|]. cbv beta. intros _ s6 (L6 & A6 & C6 & B6).
      split; [exact NT2|]. split; [exact L6|]. rewrite (lfile_empty s6 B6), (lcur_empty s6 B6), A6. auto. }
    cbv beta. intros _ s6 (NT2 & L6 & A6 & C6).
    eapply xp_bind; [apply xp_write|]. cbv beta. intros _ s7 [A7 C7].
    eapply xp_then; [apply xp_flush|]. cbv beta. intros _ s8 (A8 & C8 & B8). rewrite (lfile_empty s8 B8), A8, A7, A6, C6. apply WR. now apply Rest_done.
  Qed.
End Run.
