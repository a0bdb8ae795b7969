(** Chunk offset tables of an arbitrary file: reading them, and writing them back. *)

From Coq Require Import List NArith ZArith Bool Lia Arith String.
From Coq Require Import ZifyBool ZifyNat ZifyN.
From Verif Require Import Base BaseLemmas Utf UtfLemmas Types Stream Parse Find Write TagSpec FileSpec ParseLemmas WriteBytes WriteState FailSpec FailProofs PanicSpec WPanicSpec Display Described DescribedIs DescribedWrite ErrSpec LayoutSpec LayoutProofs LayoutWrite.
From Verif Require WPanicProofs ErrProofs ErrExact WriteTerm WriteAny PanicProofs Modes Fault.
Import ListNotations.
Local Open Scope list_scope.
Local Open Scope d_scope.

(** * Reading a table *)

Lemma many_is : forall w rd g, (forall p, rd g p = if p + w <=? blen g then Ok (field g p w, p + w) else Err EIoEof) ->
  forall k p, read_many k rd g p = if (k =? 0)%nat || (p + w * N.of_nat k <=? blen g) then Ok (map (fun i => field g (p + w * N.of_nat i) w) (seq 0 k), p + w * N.of_nat k) else Err EIoEof.
Proof.
  intros w rd g H. induction k as [|k IH]; intros p; cbn [read_many].
  - cbn [Nat.eqb orb seq map]. unfold ret. do 2 f_equal. lia.
  - cbn [Nat.eqb orb]. unfold bind at 1. rewrite H. replace (p + w * N.of_nat (S k)) with (p + w + w * N.of_nat k) by lia.
    destruct (p + w <=? blen g) eqn:E1.
    + unfold bind at 1. rewrite IH. destruct (_ || _) eqn:E2.
      * unfold ret. destruct (p + w + w * N.of_nat k <=? blen g) eqn:E3; [|exfalso; destruct k; cbn [Nat.eqb orb] in E2; lia].
        do 2 f_equal. cbn [seq map]. f_equal; [f_equal; lia|]. rewrite <- seq_shift, map_map. apply map_ext. intros i. f_equal. lia.
      * destruct (p + w + w * N.of_nat k <=? blen g) eqn:E3; [|reflexivity]. exfalso. destruct k; cbn [Nat.eqb orb] in E2; congruence.
    + destruct (p + w + w * N.of_nat k <=? blen g) eqn:E3; [lia|reflexivity].
Qed.
Lemma u8_is : forall g p, read_u8 g p = if p + 1 <=? blen g then Ok (field g p 1, p + 1) else Err EIoEof.
Proof. intros g p. unfold read_u8, bind, read_exact. cbn [N.eqb]. now destruct (_ <=? _). Qed.
Lemma u32_is : forall g p, read_u32 g p = if p + 4 <=? blen g then Ok (field g p 4, p + 4) else Err EIoEof.
Proof. intros g p. unfold read_u32, bind, read_exact. cbn [N.eqb]. now destruct (_ <=? _). Qed.
Lemma u64_is : forall g p, read_u64 g p = if p + 8 <=? blen g then Ok (field g p 8, p + 8) else Err EIoEof.
Proof. intros g p. unfold read_u64, bind, read_exact. cbn [N.eqb]. now destruct (_ <=? _). Qed.

Definition bad_version (wide : bool) : ustring := txt (if wide then "Unknown 64bit sample table chunk offset (co64) version" else "Unknown sample table chunk offset (stco) version").
Definition bad_count (wide : bool) : ustring :=
  txt (if wide then "Sample table chunk offset 64 (co64) offset table size doesn't match atom length" else "Sample table chunk offset (stco) offset table size doesn't match atom length").
(** The ways a table cannot be read. *)
Definition tcase (g : bytes) (wide : bool) (p c : N) (e : err) (t : ustring) : Prop :=
  blen g < p + 1 /\ e = EIoEof /\ t = txt "Error reading version of full atom head" \/
  p + 1 <= blen g < p + 4 /\ e = EIoEof /\ t = txt "Error reading flags of full atom head" \/
  p + 4 <= blen g /\ field g p 1 <> 0 /\ e = EUnknownVersion (field g p 1) /\ t = bad_version wide \/
  p + 4 <= blen g < p + 8 /\ field g p 1 = 0 /\ e = EIoEof /\ t = [] \/
  p + 8 <= blen g /\ field g p 1 = 0 /\ 8 + entry_size wide * field g (p + 4) 4 <> c /\ e = EParsing /\ t = bad_count wide \/
  p + 8 <= blen g < p + c /\ field g p 1 = 0 /\ 8 + entry_size wide * field g (p + 4) 4 = c /\ e = EIoEof /\ t = [].
Definition tgood (g : bytes) (wide : bool) (p c : N) : Prop :=
  field g p 1 = 0 /\ 8 + entry_size wide * field g (p + 4) 4 = c /\ p + c <= blen g.

Lemma d_table_cases : forall w rd mm vv m s g p c (wide : bool), w = entry_size wide -> mm = (if wide then "Sample table chunk offset 64 (co64) offset table size doesn't match atom length"%string else "Sample table chunk offset (stco) offset table size doesn't match atom length"%string) ->
  vv = (if wide then "Unknown 64bit sample table chunk offset (co64) version"%string else "Unknown sample table chunk offset (stco) version"%string) ->
  (forall p, rd g p = if p + w <=? blen g then Ok (field g p w, p + w) else Err EIoEof) -> content_len m s = Ok c ->
  match d_table w rd mm vv m s g p with
  | DOk (t, _) => tgood g wide p c /\ t = (p + 8, offsets g wide (p + 8) (N.to_nat (field g (p + 4) 4)))
  | DErr e t => tcase g wide p c e t
  | _ => False
  end.
Proof.
  intros w rd mm vv m s g p c wide Ew Em Ev Hr Ec. unfold d_table, d_full.
  unfold dbind at 1 2, saying at 1. rewrite u8_is. destruct (p + 1 <=? blen g) eqn:E1; [|left; split; [lia|auto]].
  unfold dbind at 1, saying at 1. unfold read_exact at 1. change (3 =? 0) with false. cbv iota. destruct (p + 1 + 3 <=? blen g) eqn:E2; [|right; left; split; [lia|auto]].
  unfold dret at 1. cbv iota beta. cbn [fst]. destruct (field g p 1) as [|v] eqn:Ef.
  2: { right. right. left. rewrite Ef. split; [lia|]. split; [lia|]. split; [reflexivity|]. unfold bad_version. rewrite Ev. reflexivity. }
  unfold dbind at 1, plainly at 1. rewrite u32_is. replace (p + 1 + 3) with (p + 4) by lia. destruct (p + 4 + 4 <=? blen g) eqn:E3.
  2: { right. right. right. left. split; [lia|]. auto. }
  replace (p + 4 + 4) with (p + 8) by lia. unfold dbind at 1, plainly at 1, lift at 1. rewrite Ec. destruct (negb _) eqn:E4.
  { right. right. right. right. left. split; [lia|]. split; [exact Ef|]. split; [rewrite <- Ew; lia|]. split; [reflexivity|]. unfold bad_count. rewrite Em. reflexivity. }
  unfold dbind at 1, plainly at 1, position at 1. unfold dbind at 1, plainly at 1. rewrite (many_is w rd g Hr). rewrite N2Nat.id.
  destruct (_ || _) eqn:E5.
  - unfold dret. split; [|unfold offsets; rewrite <- Ew; reflexivity]. split; [exact Ef|]. rewrite <- Ew. split; [lia|].
    destruct (N.to_nat (field g (p + 4) 4) =? 0)%nat eqn:E6; [|cbn [orb] in E5; lia]. assert (X : field g (p + 4) 4 = 0) by lia. rewrite X in *. lia.
  - right. right. right. right. right. rewrite <- Ew. split; [lia|]. split; [exact Ef|]. split; [lia|]. auto.
Qed.
Lemma table_cases : forall (wide : bool) m s g p c, content_len m s = Ok c ->
  match (if wide then parsing SAMPLE_TABLE_CHUNK_OFFSET_64 (d_co64 m s) else parsing SAMPLE_TABLE_CHUNK_OFFSET (d_stco m s)) g p with
  | DOk (t, _) => tgood g wide p c /\ t = (p + 8, offsets g wide (p + 8) (N.to_nat (field g (p + 4) 4)))
  | DErr e t => exists t', tcase g wide p c e t' /\ t = says [table_name wide] t'
  | _ => False
  end.
Proof.
  intros wide m s g p c Ec. destruct wide.
  - pose proof (d_table_cases 8 read_u64 _ _ m s g p c true eq_refl eq_refl eq_refl (u64_is g) Ec) as H. fold (d_co64 m s) in H. unfold parsing.
    change (d_table 8 read_u64 "Sample table chunk offset 64 (co64) offset table size doesn't match atom length" "Unknown 64bit sample table chunk offset (co64) version" m s) with (d_co64 m s) in H.
    destruct (d_co64 m s g p) as [[t q]|e t|x|]; try exact H. exists t. split; [exact H|reflexivity].
  - pose proof (d_table_cases 4 read_u32 _ _ m s g p c false eq_refl eq_refl eq_refl (u32_is g) Ec) as H. unfold parsing.
    change (d_table 4 read_u32 "Sample table chunk offset (stco) offset table size doesn't match atom length" "Unknown sample table chunk offset (stco) version" m s) with (d_stco m s) in H.
    destruct (d_stco m s g p) as [[t q]|e t|x|]; try exact H. exists t. split; [exact H|reflexivity].
Qed.
Lemma tcase_cause : forall f wide p c e t, table_spot f wide p c -> p + 8 <= blen f -> p + c <= blen f -> tcase f wide p c e t -> wcause f [table_name wide] e t.
Proof.
  intros f wide p c e t S L1 L2 [(L & -> & ->)|[(L & -> & ->)|[(L & V & -> & ->)|[(L & V & -> & ->)|[(L & V & N & -> & ->)|(L & V & N & -> & ->)]]]]]; try lia.
  - unfold bad_version. eapply WBad_table_version; eassumption.
  - unfold bad_count. eapply WBad_count; eassumption.
Qed.

(** * Bytes in the place of others *)

Lemma put_mid : forall x y z d p, p = blen x -> blen y = blen d -> put p d (x ++ y ++ z) = x ++ d ++ z.
Proof.
  intros x y z d p -> L. unfold put. f_equal; [now apply firstn_blen_app|]. f_equal. rewrite app_assoc. apply skipn_blen_app. rewrite blen_app. lia.
Qed.
Lemma put_cut : forall g p d, p + blen d <= blen g -> exists x y z, g = x ++ y ++ z /\ blen x = p /\ blen y = blen d /\ put p d g = x ++ d ++ z.
Proof.
  intros g p d L. destruct (WriteAny.cut_at g p (blen d) L) as (x & y & z & -> & Lx & Ly). exists x, y, z. split; [reflexivity|]. split; [exact Lx|]. split; [exact Ly|].
  apply put_mid; [now rewrite Lx|exact Ly].
Qed.
Lemma put_len : forall g p d, p + blen d <= blen g -> blen (put p d g) = blen g.
Proof. intros g p d L. destruct (put_cut g p d L) as (x & y & z & -> & _ & Ly & ->). rewrite !blen_app. lia. Qed.
Lemma put_nth : forall g p d i, p + blen d <= blen g -> ~ (p <= i < p + blen d) -> nth_error (put p d g) (N.to_nat i) = nth_error g (N.to_nat i).
Proof. intros g p d i L N. destruct (put_cut g p d L) as (x & y & z & -> & Lx & Ly & ->). apply nth_mid; lia. Qed.

(** * Tables that have been written back *)

Definition tstart (t : bool * node) : N := n_at (snd t) + n_head (snd t).
Definition tsize (t : bool * node) : N := n_size (snd t) - n_head (snd t).
Definition good_tab (f : bytes) (t : bool * node) : Prop := n_head (snd t) <= n_size (snd t) /\ tgood f (fst t) (tstart t) (tsize t).
Definition new_offsets (f : bytes) (d : Z) (t : bool * node) : bytes :=
  let w := N.to_nat (entry_size (fst t)) in flat_map (fun o => be w (shift_entry w d o)) (offsets f (fst t) (tstart t + 8) (count f (snd t))).
Lemma retabled_eq : forall f d g t, retabled f d g t = put (tstart t + 8) (new_offsets f d t) g. Proof. reflexivity. Qed.
Lemma blen_be_map : forall w d l, blen (flat_map (fun o => be w (shift_entry w d o)) l) = N.of_nat w * N.of_nat (List.length l).
Proof. intros w d l. induction l as [|o l IH]; [cbn [flat_map List.length]; rewrite blen_nil; lia|]. cbn [flat_map List.length]. rewrite blen_app, blen_be, IH. lia. Qed.
Lemma new_offsets_len : forall f d t, good_tab f t -> tstart t + 8 + blen (new_offsets f d t) = n_end (snd t) /\ n_end (snd t) <= blen f.
Proof.
  intros f d t (H & V & E & L). unfold new_offsets. rewrite blen_be_map. unfold offsets, count. rewrite map_length, seq_length. unfold tsize, tstart, n_end in *.
  rewrite !N2Nat.id. lia.
Qed.
Lemma retabled_all : forall f d D g, Forall (good_tab f) D -> blen g = blen f ->
  blen (fold_left (retabled f d) D g) = blen f /\
  forall i, (forall t, In t D -> ~ (tstart t + 8 <= i < n_end (snd t))) -> nth_error (fold_left (retabled f d) D g) (N.to_nat i) = nth_error g (N.to_nat i).
Proof.
  intros f d D. induction D as [|t D IH]; intros g F Lg; [split; [exact Lg|reflexivity]|]. inversion F as [|? ? Ft Fl]; subst. cbn [fold_left]. rewrite retabled_eq.
  destruct (new_offsets_len f d t Ft) as [L1 L2]. assert (Lp : tstart t + 8 + blen (new_offsets f d t) <= blen g) by lia.
  destruct (IH (put (tstart t + 8) (new_offsets f d t) g) Fl ltac:(rewrite put_len; assumption)) as [A B]. split; [exact A|].
  intros i Ni. rewrite B by (intros x Ix; apply Ni; now right). apply put_nth; [exact Lp|]. specialize (Ni t (or_introl eq_refl)). lia.
Qed.

(** * Programs *)

Definition dtri {A} (P : wst -> Prop) (c : DW A) (v : A) (Q : wst -> Prop) : Prop := forall s, P s -> exists s', c s = (DOk v, s') /\ Q s'.
Lemma dtri_bind : forall {A B} P (c : DW A) v Q (k : A -> DW B) w R, dtri P c v Q -> dtri Q (k v) w R -> dtri P (dwbind A B c k) w R.
Proof.
  intros A B P c v Q k w R H1 H2 s HP. destruct (H1 s HP) as (s1 & E & HQ). destruct (H2 s1 HQ) as (s2 & E2 & HR).
  exists s2. unfold dwbind. rewrite E. auto.
Qed.
Lemma dtri_lift : forall {A} P (r : res A) v, r = Ok v -> dtri P (dwlift A r) v P.
Proof. intros A P r v -> s HP. exists s. auto. Qed.
Lemma dtri_ret : forall {A} P (v : A), dtri P (dwret A v) v P.
Proof. intros A P v s H. exists s. auto. Qed.
Lemma dtri_dw : forall {A} P (c : W A) v Q, WriteState.tri P c v Q -> dtri P (dw c) v Q.
Proof. intros A P c v Q H s HP. destruct (H s HP) as (s' & E & HQ). exists s'. unfold dw. rewrite E. auto. Qed.
Lemma dtri_weak : forall {A} (P P' Q Q' : wst -> Prop) (c : DW A) v, dtri P c v Q -> (forall s, P' s -> P s) -> (forall s, Q s -> Q' s) -> dtri P' c v Q'.
Proof. intros A P P' Q Q' c v H HP HQ s S. destruct (H s (HP s S)) as (s' & E & X). exists s'. auto. Qed.

Lemma shift_wide : forall co d, be64 (i_as_u64 (Z.of_N co + d)) = be 8 (shift_entry 8 d co). Proof. reflexivity. Qed.
Lemma shift_narrow : forall co d, be32 (i_as_u32 (Z.of_N co + d)) = be 4 (shift_entry 4 d co). Proof. reflexivity. Qed.

Section Tables.
  Context (m : mode) (f : bytes) (items : list atom_data) (Lf : blen f < 2 ^ 62) (La : nsum (map ad_len items) < 2 ^ 61).
  Notation bad := (wflaw f items).
  Context (cap : N) (diff : Z) (Ld : (- Z.of_N (blen f) <= diff <= Z.of_N (room items))%Z).
  Notation table_prog := (Fault.g_table DW dwret dwbind dwlift (fun d => dw (bw_write cap d)) (fun q => dw (bw_seek_start q)) (dw bw_flush) dw_table m).
  Notation offsets_prog := (Fault.g_offsets DW dwret dwbind dwlift (fun d => dw (bw_write cap d)) m).

  Lemma offsets_exact : forall (wide : bool) l a y b, Forall (fun o => o + room items < 2 ^ 63) l -> blen y = entry_size wide * N.of_nat (List.length l) ->
    dtri (st f 0 a (y ++ b)) (offsets_prog wide diff l) tt (st f 0 (a ++ flat_map (fun o => be (N.to_nat (entry_size wide)) (shift_entry (N.to_nat (entry_size wide)) diff o)) l) b).
  Proof.
    intros wide l. induction l as [|o l IH]; intros a y b F L; cbn [Fault.g_offsets flat_map].
    - cbn [List.length] in L. assert (y = []) as -> by (apply blen_0; lia). rewrite app_nil_r. apply dtri_ret.
    - inversion F as [|? ? Fo Fl]; subst. pose proof (WPanicProofs.calm_small f items Lf La diff Ld o Fo) as C. unfold WPanicProofs.calm_offset in C.
      assert (Lo : o < 2 ^ 63) by lia. rewrite (WPanicProofs.as_i64_lt o Lo) in *.
      eapply dtri_bind; [apply (dtri_lift _ _ (Z.of_N o + diff)%Z); unfold addi; now rewrite C|]. cbv beta.
      set (e := be (N.to_nat (entry_size wide)) (shift_entry (N.to_nat (entry_size wide)) diff o)).
      replace (if wide then be64 (i_as_u64 (Z.of_N o + diff)) else be32 (i_as_u32 (Z.of_N o + diff))) with e by (unfold e; destruct wide; reflexivity).
      assert (Le : blen e = entry_size wide) by (unfold e; rewrite blen_be; lia). cbn [List.length] in L.
      destruct (WriteAny.cut_at y 0 (entry_size wide) ltac:(lia)) as (y0 & y1 & y2 & -> & L0 & L1). apply blen_0 in L0. subst y0. cbn [app] in *. rewrite blen_app in L. rewrite <- app_assoc.
      eapply dtri_bind; [apply dtri_dw, (WriteState.tri_write f 0 cap a (y2 ++ b) y1 e); lia|]. rewrite app_assoc. apply IH; [exact Fl|lia].
  Qed.

  Definition tinv (D : list (bool * node)) (s : wst) : Prop :=
    (exists a b, stf f 0 a b s) /\ w_file s = fold_left (retabled f diff) D f /\ Forall (good_tab f) D.
  (** What is needed of a table: that the scan found it, and that its head is as it should. *)
  Definition tfound (t : bool * node) : Prop :=
    WPanicProofs.found_in f InStbl (WPanicProofs.tname (fst t)) (bound (snd t)) /\ box_at f (n_at (snd t)) (n_id (snd t)) (n_head (snd t)) (n_size (snd t)).
  Definition tapart (s t : bool * node) : Prop := n_end (snd s) <= n_at (snd t) \/ n_end (snd t) <= n_at (snd s).

  Lemma field_same : forall g p n, (forall i, p <= i < p + n -> nth_error g (N.to_nat i) = nth_error f (N.to_nat i)) -> field g p n = field f p n.
  Proof. intros g p n H. unfold field. f_equal. apply WPanicProofs.slice_ext. exact H. Qed.

  Lemma table_step : forall t D s, tfound t -> (forall x, In x D -> tapart x t) -> table_spot f (fst t) (tstart t) (tsize t) -> n_end (snd t) + 8 <= blen f -> tinv D s ->
    bad \/ match table_prog (fst t) diff (bound (snd t)) s with
           | (DOk _, s') => tinv (D ++ [t]) s'
           | (DErr e u, s') => told f [] e u /\ s' = s /\ ~ sound_table f t
           | _ => False
           end.
  Proof.
    intros [wide n] D s [[Fo [S1 S2]] Bx] Ap Sp Le ((a0 & b0 & S) & Ws & Gd). cbn [fst snd] in *. unfold Fault.g_table.
    destruct (head_bound f n Bx) as [Hh He]. rewrite Hh in S1. cbn [bound b_size sz_len] in S1, S2. change (n_head n <= n_size n) in S1.
    assert (W : two64 = 4 * 2 ^ 62) by reflexivity. assert (W3 : two63 = 2 * 2 ^ 62) by reflexivity. pose proof (proj1 Bx) as Lb.
    unfold dwbind at 1, dwlift at 1. unfold content_pos, add64. rewrite Hh. change (b_pos (bound n)) with (n_at n).
    destruct (n_at n + n_head n <? two64) eqn:X; [|rewrite W in X; lia]. cbn [dress]. clear X.
    set (p := n_at n + n_head n) in *. set (c := n_size n - n_head n) in *. change (tstart (wide, n)) with p in Sp. change (tsize (wide, n)) with c in Sp.
    unfold dwbind at 1, dw_table at 1. destruct (p <? two63) eqn:X; [|rewrite W3 in X; lia]. clear X.
    assert (Ec : content_len m (b_size (bound n)) = Ok c).
    { unfold content_len. rewrite He. unfold bound. cbn [b_size sz_len]. pose proof Bx as (_ & _ & K). unfold c.
      destruct K as [(_ & E & _)|(_ & _ & E & _)]; rewrite E in *; [change (16 =? 16) with true|change (8 =? 16) with false]; cbv iota; unfold sub64; destruct (_ <=? _) eqn:X; try reflexivity; lia. }
    set (g := w_file s) in *. destruct (retabled_all f diff D f Gd eq_refl) as [Lg Sg]. rewrite <- Ws in Lg, Sg.
    assert (S8 : forall i, p <= i < p + 8 -> nth_error g (N.to_nat i) = nth_error f (N.to_nat i)).
    { intros i Li. apply Sg. intros x Ix. specialize (Ap x Ix). rewrite Forall_forall in Gd. destruct (Gd x Ix) as [Hx _]. unfold tapart, tstart, n_end in *. cbn [snd] in Ap. unfold p in Li. lia. }
    assert (F1 : field g p 1 = field f p 1) by (apply field_same; intros i Li; apply S8; lia).
    assert (F4 : field g (p + 4) 4 = field f (p + 4) 4) by (apply field_same; intros i Li; apply S8; lia).
    pose proof (table_cases wide m (b_size (bound n)) g p c Ec) as T.
    destruct ((if wide then parsing SAMPLE_TABLE_CHUNK_OFFSET_64 (d_co64 m (b_size (bound n))) else parsing SAMPLE_TABLE_CHUNK_OFFSET (d_stco m (b_size (bound n)))) g p) as [[t q]|e u|x|]; [| |destruct T|destruct T].
    2: { right. destruct T as (t' & T & ->). unfold tcase in T. rewrite Lg, F1, F4 in T. split; [|split; [reflexivity|]].
         - exists [table_name wide], t'. split; [|reflexivity]. cbn [app]. eapply tcase_cause; [exact Sp|unfold n_end, p in *; lia|unfold n_end, p, c in *; lia|exact T].
         - intros (V & E). cbn [fst snd] in V, E. fold p in V, E. fold c in E. assert (L : n_end n = p + c) by (unfold n_end, p, c; lia). destruct T as [T|[T|[T|[T|[T|T]]]]]; lia. }
    destruct T as [(V & E & L) ->]. rewrite F1 in V. rewrite F4 in E. rewrite Lg in L. cbn [fst snd].
    assert (Gt : good_tab f (wide, n)) by (split; [exact S1|split; [exact V|split; [exact E|exact L]]]).
    set (k := N.to_nat (field g (p + 4) 4)). assert (Ek : k = count f n) by (unfold k, count; rewrite F4; reflexivity).
    assert (Off : offsets g wide (p + 8) k = offsets f wide (p + 8) k).
    { unfold offsets. apply map_ext_in. intros i Hi. apply in_seq in Hi. apply field_same. intros j Lj. apply Sg. intros x Ix. specialize (Ap x Ix). rewrite Forall_forall in Gd. destruct (Gd x Ix) as [Hx _].
      unfold tapart, tstart, n_end in *. cbn [snd] in Ap.
      assert (Lk : entry_size wide * N.of_nat i + entry_size wide <= c - 8).
      { rewrite <- E. replace (8 + entry_size wide * field f (p + 4) 4 - 8) with (entry_size wide * field f (p + 4) 4) by lia. rewrite <- N.mul_succ_r. apply N.mul_le_mono_l. unfold k in Hi. rewrite F4 in Hi. lia. }
      unfold c, p in *. lia. }
    rewrite Off. set (l := offsets f wide (p + 8) k).
    assert (Ll : List.length l = k) by (unfold l, offsets; rewrite map_length, seq_length; reflexivity).
    assert (C : bad \/ Forall (fun o => o + room items < 2 ^ 63) l).
    { destruct (Forall_Exists_dec (fun v => v + room items < 2 ^ 63) (fun v => WPanicProofs.N_lt_dec (v + room items) (2 ^ 63)) l) as [A|A]; [now right|].
      apply Exists_exists in A. destruct A as (v & Iv & Nv). unfold l, offsets in Iv. apply in_map_iff in Iv. destruct Iv as (i & Ev & Hi). apply in_seq in Hi. destruct wide.
      - left. assert (Lk : 8 * N.of_nat i + 8 <= c - 8) by (unfold entry_size in E; unfold k in Hi; rewrite F4 in Hi; lia).
        apply (W_far f items (n_at n) (n_head n) (n_size n) (N.of_nat i)).
        + destruct Fo as (w & K & Iw & B). exists w. rewrite Hh in B. auto.
        + unfold c in Lk. lia.
        + unfold c in L. unfold p in L. lia.
        + fold p. unfold entry_size in Ev. rewrite Ev. lia.
      - exfalso. apply Nv. assert (v < 256 ^ 4).
        { rewrite <- Ev. unfold field. eapply N.lt_le_trans; [apply unbe_lt|]. apply N.pow_le_mono_r; [discriminate|]. unfold slice, blen, entry_size. rewrite firstn_length. lia. }
        pose proof (WPanicProofs.room_lt f items Lf La). assert (256 ^ 4 + 2 ^ 62 < 2 ^ 63) by reflexivity. lia. }
    destruct C as [C|C]; [now left|]. right. pose proof (stf_file _ _ _ _ _ S) as Fs. fold g in Fs.
    destruct (new_offsets_len f diff (wide, n) Gt) as [N1 N2]. change (tstart (wide, n)) with p in N1. cbn [snd] in N1, N2.
    destruct (put_cut g (p + 8) (new_offsets f diff (wide, n)) ltac:(lia)) as (x & y & z & Eg & Lx & Ly & Ep).
    assert (T : dtri (st f 0 a0 b0) (dwbind unit unit (dw (bw_seek_start (p + 8))) (fun _ => dwbind unit unit (offsets_prog wide diff l) (fun _ => dw bw_flush))) tt (stf f 0 (x ++ new_offsets f diff (wide, n)) z)).
    { eapply dtri_bind; [apply dtri_dw, (WriteState.tri_seek f 0 (p + 8) a0 b0 x (y ++ z)); [rewrite <- Fs; exact Eg|now rewrite Lx|rewrite W3; lia]|].
      eapply dtri_bind; [|apply dtri_dw, WriteState.tri_flush]. eapply dtri_weak; [apply (offsets_exact wide l x y z C)|intros s' H; apply H|intros s' H].
      - rewrite Ly. unfold new_offsets. cbn [fst snd]. change (tstart (wide, n)) with p. rewrite <- Ek. fold l. rewrite blen_be_map. lia.
      - unfold new_offsets. cbn [fst snd]. change (tstart (wide, n)) with p. rewrite <- Ek. exact H. }
    destruct (T s (proj1 S)) as (s' & Es & S'). rewrite Es. split; [exists (x ++ new_offsets f diff (wide, n)), z; exact S'|]. split.
    - rewrite (stf_file _ _ _ _ _ S'), fold_left_app. cbn [fold_left]. rewrite <- Ws, retabled_eq. change (tstart (wide, n)) with p. rewrite Ep, <- app_assoc. reflexivity.
    - apply Forall_app. split; [exact Gd|]. repeat constructor; apply Gt.
  Qed.

  (** All tables. *)
  Fixpoint tables_prog (l : list (bool * bounds)) : DW unit :=
    match l with
    | [] => dwret unit tt
    | t :: r => dwbind unit unit (table_prog (fst t) diff (snd t)) (fun _ => tables_prog r)
    end.
  Lemma tables_prog_app : forall l l' s, tables_prog (l ++ l') s = dwbind unit unit (tables_prog l) (fun _ => tables_prog l') s.
  Proof.
    induction l as [|t l IH]; intros l' s; [reflexivity|]. cbn [app tables_prog]. generalize (table_prog (fst t) diff (snd t)). intros c. unfold dwbind. destruct (c s) as [[u|e x|q|] s1]; try reflexivity. apply IH.
  Qed.
  Lemma traks_prog : forall l s, Fault.g_traks DW dwret dwbind dwlift (fun d => dw (bw_write cap d)) (fun q => dw (bw_seek_start q)) (dw bw_flush) dw_table m diff l s = tables_prog (WPanicProofs.traks_tables l) s.
  Proof.
    assert (U : forall (c : DW unit) s, dwbind unit unit c (fun _ => dwret unit tt) s = c s). { intros c s. unfold dwbind, dwret. destruct (c s) as [[[]|e x|q|] s1]; reflexivity. }
    assert (O : forall wide o s, tables_prog (WPanicProofs.otab wide o) s = match o with Some b => table_prog wide diff b | None => dwret unit tt end s).
    { intros wide [b|] s; [|reflexivity]. cbn [WPanicProofs.otab tables_prog fst snd]. apply U. }
    induction l as [|t l IH]; intros s; [reflexivity|]. cbn [Fault.g_traks WPanicProofs.traks_tables flat_map]. rewrite tables_prog_app.
    assert (B : forall (c c' : DW unit) k k' s, (forall s, c s = c' s) -> (forall u s, k u s = k' u s) -> dwbind unit unit c k s = dwbind unit unit c' k' s).
    { intros c c' k k' s0 C K. unfold dwbind. rewrite C. destruct (c' s0) as [[u|e x|q|] s1]; try reflexivity. apply K. }
    apply B; [|intros u s'; apply IH]. intros s'. assert (Et : WPanicProofs.trak_tables t = match trak_stbl t with Some sb => WPanicProofs.stbl_tables sb | None => [] end).
    { unfold WPanicProofs.trak_tables, trak_stbl, WPanicProofs.omdia, WPanicProofs.ominf, WPanicProofs.ostbl. destruct (tb_mdia t) as [d|]; [|reflexivity]. destruct (db_minf d) as [n|]; reflexivity. }
    rewrite Et. destruct (trak_stbl t) as [sb|]; [|reflexivity]. unfold Fault.g_stbl, WPanicProofs.stbl_tables. rewrite tables_prog_app. apply B; [intros s0; symmetry; apply O|intros u s0; symmetry; apply O].
  Qed.
  Lemma tables_run : forall l D s, ForallOrdPairs tapart (D ++ l) -> Forall tfound l -> Forall (fun t => table_spot f (fst t) (tstart t) (tsize t) /\ n_end (snd t) + 8 <= blen f) l -> tinv D s ->
    bad \/ match tables_prog (map bt l) s with
           | (DOk _, s') => tinv (D ++ l) s'
           | (DErr e u, s') => told f [] e u /\ exists l1 t l2, l = l1 ++ t :: l2 /\ tinv (D ++ l1) s' /\ ~ sound_table f t
           | _ => False
           end.
  Proof.
    induction l as [|t l IH]; intros D s Ap Fo Sp T; cbn [map tables_prog].
    - right. unfold dwret. rewrite app_nil_r. exact T.
    - inversion Fo as [|? ? Ft Fl]; subst. inversion Sp as [|? ? [St Se] Sl]; subst. pose proof (WPanicProofs.fop_app_inv _ _ _ Ap) as (_ & _ & Ap1).
      destruct (table_step t D s Ft (fun x Ix => Ap1 x t Ix (or_introl eq_refl)) St Se T) as [F|H]; [now left|]. unfold dwbind at 1. change (fst (bt t)) with (fst t). change (snd (bt t)) with (bound (snd t)).
      destruct (table_prog (fst t) diff (bound (snd t)) s) as [[u|e x|q|] s1]; [| |destruct H|destruct H].
      2: { right. destruct H as (H & -> & N). split; [exact H|]. exists [], t, l. rewrite app_nil_r. auto. }
      replace (D ++ t :: l) with ((D ++ [t]) ++ l) in * by (rewrite <- app_assoc; reflexivity). destruct (IH (D ++ [t]) s1 Ap Fl Sl H) as [F|R]; [now left|]. right.
      destruct (tables_prog (map bt l) s1) as [[v|e x|q|] s2]; try exact R. destruct R as (R1 & l1 & t1 & l2 & -> & R2 & R3). split; [exact R1|]. exists (t :: l1), t1, l2. rewrite <- app_assoc in R2. auto.
  Qed.
End Tables.
