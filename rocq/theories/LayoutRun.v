(** Writing to an arbitrary file: its errors and the file it leaves. *)

From Coq Require Import List NArith ZArith Bool Lia Arith String.
From Coq Require Import ZifyBool ZifyNat ZifyN.
From Verif Require Import Base BaseLemmas Utf UtfLemmas Types Stream Parse Find Write TagSpec FileSpec ParseLemmas WriteBytes WriteState FailSpec FailProofs PanicSpec WPanicSpec Display Described DescribedIs DescribedWrite ErrSpec LayoutSpec LayoutProofs LayoutWrite LayoutTables.
From Verif Require ReadFacts WPanicProofs ErrProofs ErrExact WriteTerm WriteAny PanicProofs Modes Fault.
Import ListNotations.
Local Open Scope list_scope.
Local Open Scope d_scope.

(** * What is written for the items *)

Lemma replacement_writes : forall m items mo, exact_items items -> items_fit items ->
  writes (new_atoms_write m (new_boxes items mo)) (replacement items mo) /\ new_atoms_len (new_boxes items mo) = blen (replacement items mo).
Proof.
  intros m items mo E F. unfold new_boxes, replacement. destruct (user_data mo) as [u|]; [destruct (metadata mo) as [e|]|].
  - destruct (final (id4 "hdlr") (n_inside e)); cbn [app new_atoms_write new_atoms_len hdlr_len_or_zero].
    + unfold render_all. cbn [flat_map]. rewrite app_nil_r. split; [|rewrite ilst_size_eq by exact E; reflexivity].
      apply (writes_bind _ _ [] _ writes_ret). apply ilst_write_bytes; assumption.
    + unfold render_all. cbn [flat_map]. rewrite app_nil_r, blen_app. split; [|rewrite ilst_size_eq by exact E; rewrite hdlr_size_eq; reflexivity].
      apply writes_bind; [apply hdlr_write_bytes|apply ilst_write_bytes; assumption].
  - cbn [new_atoms_len new_atoms_write]. split; [apply meta_write_bytes; assumption|apply meta_size_eq, E].
  - cbn [new_atoms_len new_atoms_write]. split; [apply udta_write_bytes; assumption|apply udta_size_eq, E].
Qed.

(** * Programs that do not fail *)

Definition dsafe {A} (c : DW A) : Prop := forall s, match fst (c s) with DErr _ _ => False | _ => True end.
Lemma dsafe_bind : forall {A B} (c : DW A) (k : A -> DW B), dsafe c -> (forall a, dsafe (k a)) -> dsafe (dwbind A B c k).
Proof. intros A B c k C K s. specialize (C s). unfold dwbind. destruct (c s) as [[a|e t|q|] s1]; cbn [fst] in *; try exact C. apply K. Qed.
Lemma dsafe_ret : forall {A} (a : A), dsafe (dwret A a). Proof. intros A a s. exact I. Qed.
Lemma dsafe_ok : forall {A} (r : res A), (forall e, r <> Err e) -> dsafe (dwlift A r).
Proof. intros A r H s. unfold dwlift. destruct r as [a|e|q|]; cbn; try exact I. exact (H e eq_refl). Qed.
Lemma dsafe_lift : forall {A B} (r : res A) v (k : A -> DW B), r = Ok v -> dsafe (k v) -> dsafe (dwbind A B (dwlift A r) k).
Proof. intros A B r v k -> K s. exact (K s). Qed.
Lemma dsafe_write : forall cap d, dsafe (dw (bw_write cap d)).
Proof. intros cap d s. unfold dw. destruct (write_lc cap d s) as (s1 & E & _). rewrite E. exact I. Qed.
Lemma dsafe_flush : dsafe (dw bw_flush).
Proof. intros s. unfold dw. destruct (flush_lc s) as (s1 & E & _). rewrite E. exact I. Qed.
Lemma dsafe_seek : forall q, q < two63 -> dsafe (dw (bw_seek_start q)).
Proof.
  intros q L s. unfold dw, bw_seek_start, wbind. destruct (flush_lc s) as (s1 & E & _). rewrite E. destruct (q <? two63) eqn:X; [exact I|lia].
Qed.
Lemma dsafe_set : forall n, n < two63 -> dsafe (dw (file_set_len n)).
Proof. intros n L s. unfold dw, file_set_len. destruct (n <? two63) eqn:X; [exact I|lia]. Qed.
Lemma dsafe_out : forall cap (o : Write.Out unit), calm o -> dsafe (Fault.g_out DW dwret dwbind dwlift (fun d => dw (bw_write cap d)) o).
Proof.
  intros cap o C. unfold Fault.g_out. apply dsafe_bind; [|intros _; apply dsafe_ok, C]. induction (fst o) as [|d l IH]; cbn [Fault.g_chunks]; [apply dsafe_ret|].
  apply dsafe_bind; [apply dsafe_write|intros _; exact IH].
Qed.
Lemma dtri_out : forall f cap (o : Write.Out unit) bs a b y, writes o bs -> blen y = blen bs ->
  dtri (st f 0 a (y ++ b)) (Fault.g_out DW dwret dwbind dwlift (fun d => dw (bw_write cap d)) o) tt (st f 0 (a ++ bs) b).
Proof.
  intros f cap o bs a b y [Wo W] L. subst bs. unfold Fault.g_out, ReadFacts.out in *. eapply dtri_bind; [|apply dtri_lift, W]. revert a y L.
  induction (fst o) as [|d l IH]; intros a y L; cbn [Fault.g_chunks List.concat] in *.
  - rewrite blen_nil in L. apply blen_0 in L. subst y. rewrite app_nil_r. apply dtri_ret.
  - rewrite blen_app in L. destruct (WriteAny.cut_at y 0 (blen d) ltac:(lia)) as (y0 & y1 & y2 & -> & L0 & L1). apply blen_0 in L0. subst y0. cbn [app] in *. rewrite blen_app in L. rewrite <- app_assoc.
    eapply dtri_bind; [apply dtri_dw, (WriteState.tri_write f 0 cap a (y2 ++ b) y1 d); lia|]. rewrite app_assoc. apply IH. lia.
Qed.
Lemma front_kept : forall (a b : bytes) k n, blen a <= k -> k <= blen (a ++ b) -> k <= blen a + n ->
  firstn (N.to_nat k) (a ++ set_length b n) = firstn (N.to_nat k) (a ++ b).
Proof.
  intros a b k n L1 L2 L3. rewrite blen_app in L2. unfold blen in *. rewrite !firstn_app. f_equal. unfold set_length. rewrite firstn_app, firstn_firstn.
  rewrite firstn_length. replace (min (N.to_nat k - List.length a) (N.to_nat n)) with (N.to_nat k - List.length a)%nat by lia.
  replace (N.to_nat k - List.length a - min (N.to_nat n) (List.length b))%nat with 0%nat by lia. cbn [firstn]. apply app_nil_r.
Qed.

Lemma resized_len : forall f diff n g, box_at f (n_at n) (n_id n) (n_head n) (n_size n) -> blen g = blen f -> blen (resized diff g n) = blen f.
Proof.
  intros f diff n g (L & _ & K) Lg. unfold resized. destruct (n_head n =? 16) eqn:X.
  - assert (L1 : blen (put (n_at n) (be 4 1) g) = blen g) by (apply put_len; rewrite blen_be; lia). rewrite put_len; [lia|]. rewrite blen_be. lia.
  - rewrite put_len; [exact Lg|]. rewrite blen_be. lia.
Qed.

Section Exec.
  Context (m : mode) (f : bytes) (items : list atom_data) (Lf : blen f < 2 ^ 62) (La : nsum (map ad_len items) < 2 ^ 61).
  Notation bad := (wflaw f items).
  Context (cap : N) (diff : Z) (Ld : (- Z.of_N (blen f) <= diff <= Z.of_N (room items))%Z).
  Notation update_prog := (Fault.g_update DW dwbind dwlift (fun d => dw (bw_write cap d)) (fun q => dw (bw_seek_start q)) (fun d => dw (bw_seek_cur d)) m).
  Notation updates_prog := (Fault.g_update_all DW dwret dwbind dwlift (fun d => dw (bw_write cap d)) (fun q => dw (bw_seek_start q)) (fun d => dw (bw_seek_cur d)) m).

  Lemma update_exact : forall n a b, box_at f (n_at n) (n_id n) (n_head n) (n_size n) -> WPanicProofs.growable items (bound n) -> blen (a ++ b) = blen f ->
    dtri (st f 0 a b) (update_prog diff (bound n)) tt (fun s => exists a' b', st f 0 a' b' s /\ a' ++ b' = resized diff (a ++ b) n /\ blen a' <= n_at n + n_head n).
  Proof.
    intros n a b B G Lg. pose proof B as (L & _ & K). unfold WPanicProofs.growable in G. unfold Fault.g_update, resized. cbn [bound b_pos b_size sz_len sz_ext] in *.
    assert (W : two63 = 2 * 2 ^ 62) by reflexivity. pose proof (WPanicProofs.calm_small f items Lf La diff Ld (n_size n) G) as C. unfold WPanicProofs.calm_offset in C.
    rewrite (WPanicProofs.as_i64_lt (n_size n)) in * by lia.
    eapply dtri_bind; [apply (dtri_lift _ _ (Z.of_N (n_size n) + diff)%Z); unfold addi; now rewrite C|]. cbv beta.
    destruct (n_head n =? 16) eqn:X.
    - destruct (WriteAny.cut_at (a ++ b) (n_at n) 16 ltac:(lia)) as (x & y & z & Ec & Lx & Ly).
      destruct (WriteAny.cut_at y 4 4 ltac:(lia)) as (y1 & y2 & y3 & -> & L1 & L2). rewrite !blen_app in Ly. rewrite <- !app_assoc in Ec. rewrite Ec in Lg. rewrite !blen_app in Lg.
      eapply dtri_bind; [apply dtri_dw, (WriteState.tri_seek f 0 (n_at n) a b x (y1 ++ y2 ++ y3 ++ z) Ec (eq_sym Lx)); rewrite W; lia|].
      eapply dtri_bind. { eapply dtri_weak; [apply dtri_dw, (WriteState.tri_write f 0 cap x (y2 ++ y3 ++ z) y1 (be32 1)); [unfold be32; rewrite blen_be; lia|lia]|intros s H; apply H|intros s H; exact H]. }
      assert (Lb : blen (be32 1) = 4) by reflexivity.
      eapply dtri_bind; [apply dtri_dw, (WriteState.tri_seek_cur f 0 4 (x ++ be32 1) y2 (y3 ++ z)); [lia|rewrite !blen_app, W; lia]|].
      set (v := be 8 (shift_entry 8 diff (n_size n))). change (be64 (i_as_u64 (Z.of_N (n_size n) + diff))) with v. assert (Lv : blen v = 8) by (unfold v; apply blen_be).
      eapply dtri_weak; [apply dtri_dw, (WriteState.tri_write f 0 cap ((x ++ be32 1) ++ y2) z y3 v); lia|intros s H; apply H|].
      intros s H. exists (((x ++ be32 1) ++ y2) ++ v), z. split; [exact H|]. split.
      + rewrite Ec. change (be32 1) with (be 4 1) in *. rewrite (put_mid x y1 (y2 ++ y3 ++ z) (be 4 1) (n_at n)) by lia.
        replace (x ++ be 4 1 ++ y2 ++ y3 ++ z) with ((x ++ be 4 1 ++ y2) ++ y3 ++ z) by (rewrite <- !app_assoc; reflexivity).
        rewrite put_mid by (rewrite ?blen_app; lia). rewrite <- !app_assoc. reflexivity.
      + rewrite !blen_app. lia.
    - destruct (WriteAny.cut_at (a ++ b) (n_at n) 4 ltac:(lia)) as (x & y & z & Ec & Lx & Ly).
      eapply dtri_bind; [apply dtri_dw, (WriteState.tri_seek f 0 (n_at n) a b x (y ++ z) Ec (eq_sym Lx)); rewrite W; lia|].
      set (v := be 4 (shift_entry 4 diff (n_size n))). change (be32 (i_as_u32 (Z.of_N (n_size n) + diff))) with v. assert (Lv : blen v = 4) by (unfold v; apply blen_be).
      eapply dtri_weak; [apply dtri_dw, (WriteState.tri_write f 0 cap x z y v); lia|intros s H; apply H|].
      intros s H. exists (x ++ v), z. split; [exact H|]. split.
      + rewrite Ec. rewrite put_mid by lia. rewrite <- app_assoc. reflexivity.
      + rewrite blen_app. lia.
  Qed.
  Definition at_file (g : bytes) (k : N) (s : wst) : Prop := exists a b, st f 0 a b s /\ a ++ b = g /\ blen a <= k.
  Lemma updates_exact : forall k l g k0, Forall (fun n => box_at f (n_at n) (n_id n) (n_head n) (n_size n) /\ n_at n + n_head n <= k) l -> Forall (WPanicProofs.growable items) (map bound l) -> blen g = blen f ->
    l <> [] \/ k0 = k -> dtri (at_file g k0) (updates_prog diff (map bound l)) tt (at_file (fold_left (resized diff) l g) k).
  Proof.
    intros k. induction l as [|n l IH]; intros g k0 B G Lg N; cbn [map Fault.g_update_all fold_left].
    - destruct N as [N| ->]; [contradiction|]. apply dtri_ret.
    - inversion B as [|? ? [B1 B2] Bl]; subst. cbn [map] in G. inversion G as [|? ? G1 Gl]; subst.
      apply (dtri_bind (at_file g k0) _ tt (at_file (resized diff g n) k)).
      + intros s (a & b & S & E & _). destruct (update_exact n a b B1 G1 ltac:(rewrite E; exact Lg) s S) as (s' & Es & a' & b' & S' & E' & L'). exists s'. split; [exact Es|]. exists a', b'. rewrite E in E'. split; [exact S'|]. split; [exact E'|lia].
      + apply IH; [exact Bl|exact Gl|apply resized_len; assumption|now right].
  Qed.

  (** From the setting of the length on. *)
  Context (start stop : N) (o : Write.Out unit) (len : N) (Es : start <= stop) (Eb : stop <= blen f) (Ed : diff = (Z.of_N len - Z.of_N (stop - start))%Z) (Ln : len <= room items).
  Notation rest_prog :=
    (dwbind unit unit (dwbind Z unit (dwlift Z (addi m (as_i64 (blen f)) diff)) (fun n => dw (file_set_len (i_as_u64 n)))) (fun _ =>
     dwbind unit unit (dw (bw_seek_start start)) (fun _ =>
     dwbind unit unit (Fault.g_out DW dwret dwbind dwlift (fun d => dw (bw_write cap d)) o) (fun _ =>
     dwbind unit unit (dwbind Z unit (dwlift Z (addi m (as_i64 stop) diff)) (fun q => dw (bw_seek_start (i_as_u64 q)))) (fun _ =>
     dwbind unit unit (dw (bw_write cap (skipn (N.to_nat stop) f))) (fun _ =>
     dw bw_flush)))))).
  Lemma rest_sums : addi m (as_i64 (blen f)) diff = Ok (Z.of_N (blen f - (stop - start) + len)) /\ addi m (as_i64 stop) diff = Ok (Z.of_N (start + len)) /\
    blen f - (stop - start) + len < two63 /\ start + len < two63 /\ forall n, n < two63 -> i_as_u64 (Z.of_N n) = n.
  Proof.
    assert (W : two63 = 2 * 2 ^ 62) by reflexivity. assert (W3 : 2 ^ 63 = 2 * 2 ^ 62) by reflexivity. assert (W4 : (2 ^ 63)%Z = Z.of_N (2 * 2 ^ 62)) by reflexivity.
    assert (Rm : room items < 2 ^ 62) by (unfold room; assert (2 ^ 61 + 100 < 2 ^ 62) by reflexivity; lia).
    rewrite !WPanicProofs.as_i64_lt by lia. unfold addi. rewrite !WPanicProofs.in64 by lia.
    split; [f_equal; lia|]. split; [f_equal; lia|]. split; [rewrite W; lia|]. split; [rewrite W; lia|].
    intros n L. unfold i_as_u64. rewrite Z.mod_small by (assert (X : Z.of_N two64 = Z.of_N (4 * 2 ^ 62)) by reflexivity; rewrite ?X; lia). lia.
  Qed.
  Lemma rest_safe : calm o -> dsafe rest_prog.
  Proof.
    intros C. destruct rest_sums as (A1 & A2 & L1 & L2 & U).
    apply dsafe_bind. { eapply dsafe_lift; [exact A1|]. apply dsafe_set. rewrite U; assumption. } intros _.
    apply dsafe_bind; [apply dsafe_seek; lia|intros _]. apply dsafe_bind; [apply dsafe_out, C|intros _].
    apply dsafe_bind. { eapply dsafe_lift; [exact A2|]. apply dsafe_seek. rewrite U; assumption. } intros _.
    apply dsafe_bind; [apply dsafe_write|intros _; apply dsafe_flush].
  Qed.
  Lemma rest_exact : forall bs g, writes o bs -> len = blen bs -> blen g = blen f ->
    dtri (at_file g start) rest_prog tt (fun s => w_file s = firstn (N.to_nat start) g ++ bs ++ skipn (N.to_nat stop) f /\ w_buf s = []).
  Proof.
    intros bs g W Lb Lg s (a & b & S & Eg & Lc). destruct rest_sums as (A1 & A2 & L1 & L2 & U). set (n := blen f - (stop - start) + len) in *.
    set (g' := a ++ set_length b (n - blen a)). assert (Lg' : blen g' = n) by (unfold g'; rewrite blen_app, blen_set_length; unfold n; lia).
    destruct (WriteAny.cut_at g' start (blen bs) ltac:(unfold n in Lg'; lia)) as (x & y & z & Ec & Lx & Ly).
    assert (Ex : x = firstn (N.to_nat start) g).
    { rewrite <- Eg. rewrite <- (front_kept a b start (n - blen a)); [|exact Lc|rewrite Eg; lia|unfold n; lia]. fold g'. rewrite Ec. symmetry. apply firstn_blen_app. now rewrite Lx. }
    set (mv := skipn (N.to_nat stop) f). assert (Lm : blen mv = blen z).
    { apply (f_equal blen) in Ec. rewrite !blen_app in Ec. unfold mv, blen in *. rewrite skipn_length. unfold n in *. lia. }
    assert (T : dtri (st f 0 a b) rest_prog tt (stf f 0 ((x ++ bs) ++ mv) [])).
    { eapply dtri_bind. { eapply dtri_bind; [apply dtri_lift, A1|]. cbv beta. rewrite U by exact L1. apply dtri_dw, WriteState.tri_set_len; [unfold n; lia|exact L1|lia]. }
      eapply dtri_bind; [apply dtri_dw, (WriteState.tri_seek f 0 start a _ x (y ++ z)); [exact Ec|lia|lia]|].
      eapply dtri_bind. { eapply dtri_weak; [apply (dtri_out f cap o bs x z y W Ly)|intros s' X; apply X|intros s' X; exact X]. }
      eapply dtri_bind. { eapply dtri_bind; [apply dtri_lift, A2|]. cbv beta. rewrite U by exact L2. apply dtri_dw, (WriteState.tri_seek f 0 (start + len) (x ++ bs) z (x ++ bs) z eq_refl); [rewrite blen_app; lia|lia]. }
      eapply dtri_bind; [|apply dtri_dw, WriteState.tri_flush].
      eapply dtri_weak; [apply dtri_dw, (WriteState.tri_write f 0 cap (x ++ bs) [] z mv); [lia|lia]|intros s' X; rewrite app_nil_r; apply X|intros s' X; exact X]. }
    destruct (T s S) as (s' & E' & S'). exists s'. split; [exact E'|]. split; [|apply S']. rewrite (stf_file _ _ _ _ _ S'), app_nil_r, <- app_assoc, Ex. reflexivity.
  Qed.
End Exec.

(** * Tables of the file *)

Lemma fop_map : forall {A B} (g : A -> B) (R : B -> B -> Prop) l, ForallOrdPairs R (map g l) -> ForallOrdPairs (fun x y => R (g x) (g y)) l.
Proof.
  intros A B g R l. induction l as [|a l IH]; cbn [map]; intros H; [constructor|]. inversion H as [|? ? Ha Hl]; subst. constructor; [|apply IH, Hl].
  apply Forall_forall. intros x Hx. rewrite Forall_forall in Ha. apply Ha, in_map, Hx.
Qed.
Lemma tables_boxes : forall f ns, layout f ns -> Forall (fun t => box_at f (n_at (snd t)) (n_id (snd t)) (n_head (snd t)) (n_size (snd t))) (tables_of ns).
Proof.
  intros f ns (_ & q' & R). apply Forall_forall. intros t Ht. unfold tables_of, movie in Ht. apply in_flat_map in Ht. destruct Ht as (k & Hk & Ht). apply filter_In in Hk. destruct Hk as [Hk _].
  assert (Step : forall l k q ns q' id, row f l k q ns q' -> forall n, In n (within_it (final id ns)) -> exists l k q ns q', row f l k q ns q' /\ In n ns).
  { intros l k0 q ns0 q0 id R0 n Hn. destruct (final id ns0) as [x|] eqn:Fx; [|destruct Hn]. destruct (final_in _ _ _ Fx) as [Ix _]. destruct (row_in _ _ _ _ _ _ R0 _ Ix) as (_ & _ & [E|(l1 & d & q1 & _ & R1)]); cbn [within_it] in Hn; [rewrite E in Hn; destruct Hn|]. eauto 8. }
  assert (Rk : exists l k0 q q', row f l k0 q (n_inside k) q' \/ n_inside k = []).
  { destruct (Step _ _ _ _ _ _ R k Hk) as (l & k0 & q & l0 & q0 & R0 & I0). destruct (row_in _ _ _ _ _ _ R0 _ I0) as (_ & _ & [E|(l1 & d & q1 & _ & R1)]); [exists l, k0, q, q0; now right|]. eauto 8. }
  unfold track_tables in Ht. cbv zeta in Ht.
  assert (Sub : forall P id, (P = [] \/ exists l k q q', row f l k q P q') -> within_it (final id P) = [] \/ exists l k q q', row f l k q (within_it (final id P)) q').
  { intros P id [->|(l & k1 & q & q1 & R1)]; [now left|]. destruct (final id P) as [x|] eqn:Fx; [|now left]. destruct (final_in _ _ _ Fx) as [Ix _]. destruct (row_in _ _ _ _ _ _ R1 _ Ix) as (_ & _ & [E|(l1 & d & q2 & _ & R2)]); [now left|]. right. eauto 8. }
  set (P := within_it (final (id4 "stbl") _)) in Ht.
  assert (RP : P = [] \/ exists l k q q', row f l k q P q').
  { unfold P. apply Sub, Sub, Sub. destruct Rk as (l & k0 & q & q0 & [R0|E]); [right; eauto 8|now left]. }
  clearbody P. assert (Fin : forall id n, final id P = Some n -> box_at f (n_at n) (n_id n) (n_head n) (n_size n)).
  { intros id n Fn. destruct (final_in _ _ _ Fn) as [In1 _]. destruct RP as [->|(l & k1 & q & q1 & R1)]; [destruct In1|]. apply (row_in _ _ _ _ _ _ R1 _ In1). }
  apply in_app_or in Ht. destruct Ht as [Ht|Ht].
  - destruct (final (id4 "stco") P) as [n|] eqn:E; [|destruct Ht]. destruct Ht as [<-|[]]. eapply Fin, E.
  - destruct (final (id4 "co64") P) as [n|] eqn:E; [|destruct Ht]. destruct Ht as [<-|[]]. eapply Fin, E.
Qed.

(** Media data behind the movie is behind its tables. *)
Inductive deep : list node -> node -> Prop :=
| Deep_here : forall ns n, In n ns -> deep ns n
| Deep_in : forall ns x n, In x ns -> deep (n_inside x) n -> deep ns n.
Definition is_table (n : node) : Prop := n_id n = id4 "stco" \/ n_id n = id4 "co64".
Lemma never_opens : forall l id, id = id4 "stco" \/ id = id4 "co64" -> scan_opens l id = None.
Proof. intros l id [-> | ->]; destruct l; reflexivity. Qed.
Lemma row_le : forall f l k q ns q', row f l k q ns q' -> q <= q'.
Proof. intros f l k q ns q' H. induction H as [l q|l k q id head size ns q' K B O L H IH|l k q id head size l' d inside q1 ns q' K B O V H1 IH1 H2 IH2]; lia. Qed.
Lemma table_end : forall f l k q ns q', row f l k q ns q' -> forall n, deep ns n -> is_table n -> n_end n <= q'.
Proof.
  intros f l k q ns q' H. induction H as [l q|l k q id head size ns q' K B O L H IH|l k q id head size l' d inside q1 ns q' K B O V H1 IH1 H2 IH2]; intros n D T.
  - inversion D as [? ? I|? ? ? I]; destruct I.
  - pose proof (row_le _ _ _ _ _ _ H). inversion D as [? ? I|? x ? I D']; subst.
    + destruct I as [<-|I]; [unfold n_end; cbn [n_at n_size]; lia|]. apply IH; [now constructor|exact T].
    + destruct I as [<-|I]; [cbn [n_inside] in D'; inversion D' as [? ? I|? ? ? I]; destruct I|]. apply IH; [econstructor; eassumption|exact T].
  - pose proof (row_le _ _ _ _ _ _ H2). inversion D as [? ? I|? x ? I D']; subst.
    + destruct I as [<-|I]; [unfold is_table in T; cbn [n_id] in T; rewrite (never_opens l id T) in O; discriminate|]. apply IH2; [now constructor|exact T].
    + destruct I as [<-|I]; [cbn [n_inside] in D'; specialize (IH1 n D' T); lia|]. apply IH2; [econstructor; eassumption|exact T].
Qed.
Lemma table_before : forall f l k q ns q', row f l k q ns q' -> forall x y t, In x ns -> In y ns -> n_at x < n_at y -> deep (n_inside x) t -> is_table t -> n_end t <= n_at y.
Proof.
  intros f l k q ns q' H. induction H as [l q|l k q id head size ns q' K B O L H IH|l k q id head size l' d inside q1 ns q' K B O V H1 _ H2 IH2]; intros x y t Ix Iy Lt D T.
  - destruct Ix.
  - destruct Ix as [<-|Ix]; [cbn [n_inside] in D; inversion D as [? ? I|? ? ? I]; destruct I|]. destruct Iy as [<-|Iy]; [|exact (IH x y t Ix Iy Lt D T)].
    destruct (row_in _ _ _ _ _ _ H _ Ix) as (_ & Lx & _). cbn [n_at] in Lt. lia.
  - pose proof (row_le _ _ _ _ _ _ H1). destruct Ix as [<-|Ix].
    + destruct Iy as [<-|Iy]; [lia|]. cbn [n_inside] in D. pose proof (table_end _ _ _ _ _ _ H1 t D T). destruct (row_in _ _ _ _ _ _ H2 _ Iy) as (_ & Ly & _). lia.
    + destruct Iy as [<-|Iy]; [|exact (IH2 x y t Ix Iy Lt D T)]. destruct (row_in _ _ _ _ _ _ H2 _ Ix) as (_ & Lx & _). cbn [n_at] in Lt. lia.
Qed.
Lemma tables_early : forall f ns, layout f ns -> adjusts ns = true -> Forall (fun t => n_end (snd t) + 8 <= blen f) (tables_of ns).
Proof.
  intros f ns (_ & q' & R) A. unfold adjusts in A. unfold tables_of. destruct (movie ns) as [mo|] eqn:M; [|discriminate]. destruct (final (id4 "mdat") ns) as [md|] eqn:D; [|discriminate].
  destruct (final_in _ _ _ M) as [Im _]. destruct (final_in _ _ _ D) as [Id _]. destruct (row_in _ _ _ _ _ _ R _ Id) as ((Lm & _ & Km) & _).
  apply Forall_forall. intros t Ht. cbn [within_it] in Ht. apply in_flat_map in Ht. destruct Ht as (k & Hk & Ht). apply filter_In in Hk. destruct Hk as [Hk _].
  assert (X : deep (n_inside mo) (snd t) /\ is_table (snd t)).
  { unfold track_tables in Ht. cbv zeta in Ht. set (P := within_it (final (id4 "stbl") _)) in Ht.
    assert (In1 : forall id (l : list node) n, deep (within_it (final id l)) n -> deep l n).
    { intros id l n Dn. destruct (final id l) as [x|] eqn:Fx; [|cbn [within_it] in Dn; inversion Dn as [? ? I|? ? ? I]; destruct I]. destruct (final_in _ _ _ Fx) as [Ix _]. eapply Deep_in; eassumption. }
    assert (DP : forall n, deep P n -> deep (n_inside mo) n) by (intros n Dn; eapply Deep_in; [exact Hk|]; unfold P in Dn; do 3 apply In1 in Dn; exact Dn).
    clearbody P. apply in_app_or in Ht. destruct Ht as [Ht|Ht].
    - destruct (final (id4 "stco") P) as [n|] eqn:E; [|destruct Ht]. destruct Ht as [<-|[]]. destruct (final_in _ _ _ E) as [I1 I2]. split; [apply DP; now constructor|now left].
    - destruct (final (id4 "co64") P) as [n|] eqn:E; [|destruct Ht]. destruct Ht as [<-|[]]. destruct (final_in _ _ _ E) as [I1 I2]. split; [apply DP; now constructor|now right]. }
  destruct X as [X1 X2]. assert (Lt : n_at mo < n_at md) by lia. pose proof (table_before _ _ _ _ _ _ R mo md (snd t) Im Id Lt X1 X2). lia.
Qed.

(** * The whole *)

Section Whole.
  Context (m : mode) (f : bytes) (items : list atom_data) (Lf : blen f < 2 ^ 62) (La : nsum (map ad_len items) < 2 ^ 61).
  Notation bad := (wflaw f items).

  Definition done (ns : list node) (mo : node) (s : wst) : Prop :=
    layout f ns /\ movie ns = Some mo /\ (adjusts ns = true -> Forall (good_tab f) (tables_of ns)) /\
    (exact_items items -> items_fit items -> w_file s = rewritten f items ns mo /\ w_buf s = []).
  Lemma execute_is : forall cap ns sc mo, scanned_as f ns sc -> movie ns = Some mo -> WPanicProofs.moov_good f (fst sc) ->
    Forall (fun n => head_len (b_size (bound n)) <= n_size n) (around mo) -> replaced_to mo <= blen f -> Forall (WPanicProofs.growable items) (map bound (around mo)) ->
    bad \/ match d_execute cap m (plan_of f items mo (snd sc)) (Wst f 0 [] []) with
           | (DErr e t, s) => told f [] e t /\ (exact_items items -> items_fit items -> given_up f items (w_file s) /\ w_buf s = [])
           | (DOk _, s) => done ns mo s
           | _ => True
           end.
  Proof.
    intros cap ns sc mo (Ly & mo' & M & Em & Ep) M' G H1 H2 H3. rewrite M' in M. injection M as <-. rewrite Em in G.
    pose proof Ly as (_ & q' & R). destruct (around_before f ns _ mo R M') as [Ar Lr]. pose proof (boxes_bound items mo) as Lb.
    set (diff := (Z.of_N (new_atoms_len (new_boxes items mo)) - Z.of_N (replaced_to mo - replaced_from mo))%Z).
    assert (Ld : (- Z.of_N (blen f) <= diff <= Z.of_N (room items))%Z) by (unfold diff; lia).
    assert (Bx : Forall (fun n => box_at f (n_at n) (n_id n) (n_head n) (n_size n) /\ n_at n + n_head n <= replaced_from mo) (around mo)).
    { rewrite Forall_forall in *. intros n Hn. destruct (Ar n Hn) as [B1 B2]. split; [exact B1|]. apply B2. destruct (head_bound f n B1) as [<- _]. apply H1, Hn. }
    set (g := if adjusts ns then fold_left (retabled f diff) (tables_of ns) f else f).
    assert (Ad : b_pos (vb_bounds (moov_of mo)) <? snd sc = adjusts ns).
    { rewrite Ep. unfold adjusts. rewrite M'. change (b_pos (vb_bounds (moov_of mo))) with (n_at mo). destruct (final (id4 "mdat") ns); [reflexivity|]. lia. }
    assert (Tb : tables_of ns = flat_map track_tables (filter (named (id4 "trak")) (n_inside mo))) by (unfold tables_of; rewrite M'; reflexivity).
    unfold d_execute, Fault.g_execute, plan_of. cbn [pl_moov pl_mdat_pos pl_diff pl_update pl_old_len pl_start pl_new pl_moved_start pl_moved]. fold diff. rewrite Ad.
    assert (Init : stf f 0 [] f (Wst f 0 [] [])) by (split; [split; [exists [], []; auto|split; [reflexivity|split; [constructor|now left]]]|reflexivity]).
    assert (First : bad \/ match (if adjusts ns then Fault.g_traks DW dwret dwbind dwlift (fun d => dw (bw_write cap d)) (fun q => dw (bw_seek_start q)) (dw bw_flush) dw_table m diff (vb_trak (moov_of mo)) else dwret unit tt) (Wst f 0 [] []) with
        | (DErr e t, s) => told f [] e t /\ w_buf s = [] /\ exists l1 x l2, adjusts ns = true /\ tables_of ns = l1 ++ x :: l2 /\ Forall (sound_table f) l1 /\ ~ sound_table f x /\ w_file s = fold_left (retabled f diff) l1 f
        | (DOk _, s) => (exists a b, stf f 0 a b s) /\ w_file s = g /\ blen g = blen f /\ (adjusts ns = true -> Forall (good_tab f) (tables_of ns))
        | _ => True
        end).
    { unfold g. destruct (adjusts ns) eqn:Aj.
      - rewrite (traks_prog m cap diff), (tables_bt mo), <- Tb. destruct G as (_ & _ & hi & Gt1 & Gt2). rewrite tables_bt, <- Tb in Gt1, Gt2.
        destruct (tables_run m f items Lf La cap diff Ld (tables_of ns) [] (Wst f 0 [] [])) as [F|T].
        + cbn [app]. apply fop_map in Gt2. exact Gt2.
        + pose proof (tables_boxes f ns Ly) as Tx. rewrite Forall_forall in *. intros t Ht. split; [|apply Tx, Ht]. apply (Gt1 (bt t)). apply in_map, Ht.
        + pose proof (tables_early f ns Ly Aj) as Te. rewrite Forall_forall in Te. apply Forall_forall. intros [wide n] Ht. split; [|exact (Te _ Ht)]. exists ns, n. auto.
        + split; [exists [], f; exact Init|]. split; [reflexivity|constructor].
        + now left.
        + right. destruct (tables_prog m cap diff (map bt (tables_of ns)) (Wst f 0 [] [])) as [[u|e t|q|] s]; try exact I.
          2: { destruct T as (T & l1 & x & l2 & E & ((a & b & Sa) & T2 & T3) & T4). split; [exact T|]. split; [apply Sa|]. exists l1, x, l2. split; [reflexivity|]. split; [exact E|]. split; [|auto]. eapply Forall_impl; [|exact T3]. intros y (_ & Y1 & Y2 & _). split; assumption. }
          destruct T as (T1 & T2 & T3). cbn [app] in T2, T3. split; [exact T1|]. split; [exact T2|]. split; [|auto]. apply (retabled_all f diff (tables_of ns) f T3 eq_refl).
      - right. split; [exists [], f; exact Init|]. split; [reflexivity|]. split; [reflexivity|discriminate]. }
    destruct First as [F|First]; [now left|]. right. unfold dwbind at 1.
    match type of First with match ?c (Wst f 0 [] []) with _ => _ end => destruct (c (Wst f 0 [] [])) as [[u|e t|q|] s1] end; try exact I.
    2: { destruct First as (Tl & Bf & l1 & x & l2 & Aj & Et & Gl & Nx & Fs). split; [exact Tl|]. intros X1 X2. split; [|exact Bf]. destruct (replacement_writes m items mo X1 X2) as [_ W2].
         exists ns, mo, l1, x, l2. assert (Ed : gain items mo = diff) by (unfold gain, diff; rewrite W2; reflexivity). rewrite Ed. auto 8. }
    destruct First as ((a & b & S) & Fs & Lg & Gt).
    destruct (updates_exact m f items Lf La cap diff Ld (replaced_from mo) (around mo) g (blen a) Bx H3 Lg ltac:(left; discriminate) s1) as (s2 & E2 & U2).
    { exists a, b. split; [apply S|]. rewrite <- (stf_file _ _ _ _ _ S). split; [exact Fs|lia]. }
    unfold dwbind at 1. rewrite E2. clear E2.
    assert (Lg2 : blen (fold_left (resized diff) (around mo) g) = blen f).
    { clearbody g. clear - Bx Lg. revert g Lg Bx. induction (around mo) as [|n l IH]; intros g Lg B; [exact Lg|]. inversion B as [|? ? [B1 _] B2]; subst. cbn [fold_left]. apply IH; [|exact B2]. apply (resized_len f diff); assumption. }
    set (o := new_atoms_write m (new_boxes items mo)). set (len := new_atoms_len (new_boxes items mo)) in *.
    pose proof (rest_safe m f items Lf La cap diff Ld (replaced_from mo) (replaced_to mo) o len Lr H2 eq_refl Lb (calm_new m (new_boxes items mo)) s2) as Sf.
    match type of Sf with match fst (?c s2) with _ => _ end => assert (Ex : exact_items items -> items_fit items -> exists s', c s2 = (DOk tt, s') /\ w_file s' = rewritten f items ns mo /\ w_buf s' = []);
      [|destruct (c s2) as [[u'|e t|q|] s3]; cbn [fst] in Sf; try exact I; [|destruct Sf]] end.
    { intros X1 X2. destruct (replacement_writes m items mo X1 X2) as [W1 W2].
      destruct (rest_exact m f items Lf La cap diff Ld (replaced_from mo) (replaced_to mo) o len Lr H2 eq_refl Lb (replacement items mo) _ W1 W2 Lg2 s2 U2) as (s' & E' & F' & B').
      exists s'. split; [exact E'|]. split; [|exact B']. rewrite F'. unfold rewritten. assert (Ed : gain items mo = diff) by (unfold gain, diff, len; rewrite W2; reflexivity). rewrite Ed. reflexivity. }
    split; [exact Ly|]. split; [exact M'|]. split; [exact Gt|]. intros X1 X2. destruct (Ex X1 X2) as (s' & E' & F'). injection E' as _ ->. exact F'.
  Qed.

  Theorem write_is : forall cap fuel, bad \/
    match d_write cap fuel m items f with
    | DErr e t => (exists ns s, wcause f ns e s /\ t = says ns s) /\
        (exact_items items -> items_fit items -> wr_file (write_tag cap fuel m items f) = f \/ given_up f items (wr_file (write_tag cap fuel m items f)))
    | DOk _ => exists ns mo, layout f ns /\ movie ns = Some mo /\ (adjusts ns = true -> Forall (good_tab f) (tables_of ns)) /\
        (exact_items items -> items_fit items -> wr_file (write_tag cap fuel m items f) = rewritten f items ns mo)
    | _ => True
    end.
  Proof.
    intros cap fuel. destruct (dp_scan m f items Lf fuel) as [F|Sc]; [now left|]. destruct (WPanicProofs.wp_scan m f items Lf fuel) as [F|Wp]; [now left|].
    pose proof (same_scan fuel m f 0) as Ss. pose proof (same_prepare fuel m items f 0) as Sp. unfold d_write, d_prepare in *. unfold dbind in *.
    destruct (d_scan fuel m f 0) as [[sc p1]|e t|q|]; try (right; exact I).
    2: { right. split; [exact Sc|]. intros _ _. left. unfold write_tag, write_tag_to. rewrite <- Sp. reflexivity. }
    cbn [undress] in Ss. rewrite <- Ss in Wp. cbv beta iota in Wp.
    destruct Sc as (ns & Sc). pose proof Sc as (Ly & mo & M & Em & Ep). rewrite Em in Wp.
    destruct (plan_is m f items Lf La mo (snd sc) Wp) as [F|(Su & H1 & H2 & H3)]; [now left|]. rewrite <- Em in Wp.
    replace (moov_of mo, snd sc) with sc in Su by (rewrite <- Em; now destruct sc). destruct (Su p1) as (p2 & E2). unfold plainly in *. rewrite E2 in *. cbn [undress] in Sp.
    destruct (execute_is cap ns sc mo Sc M Wp H1 H2 H3) as [F|X]; [now left|]. right.
    pose proof (ws_execute cap m (plan_of f items mo (snd sc)) (Wst f 0 [] [])) as We. rewrite Fault.program_is_execute in We.
    unfold write_tag, write_tag_to. rewrite <- Sp. destruct (d_execute cap m (plan_of f items mo (snd sc)) (Wst f 0 [] [])) as [[u|e t|q|] s]; cbn [fst]; try exact I.
    2: { destruct X as [X1 X2]. split; [exact X1|]. intros Y1 Y2. right. rewrite <- We. destruct (X2 Y1 Y2) as [X3 X4]. unfold bw_flush, os_write. rewrite X4. cbn [wr_file w_file]. exact X3. }
    rewrite <- We. destruct X as (X1 & X2 & X3 & X4). exists ns, mo. split; [exact X1|]. split; [exact X2|]. split; [exact X3|]. intros Y1 Y2. destruct (X4 Y1 Y2) as [X5 X6].
    unfold bw_flush, os_write. rewrite X6. cbn [wr_file w_file]. exact X5.
  Qed.
End Whole.
