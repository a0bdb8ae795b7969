(** How much reading costs: a linear bound for runs that never seek backwards. *)

From Coq Require Import List NArith ZArith Bool Lia Arith.
From Coq Require Import ZifyBool ZifyNat ZifyN.
From Verif Require Import Base BaseLemmas Utf UtfLemmas Types Stream Parse Find Write TagSpec FileSpec ParseLemmas ReadProofs ReadMore ReadSpec ReadFacts ReadBad ReadErr ReadTerm.
From Verif Require Import Fault ReadIO IoProofs.
Import ListNotations.

Lemma run_bind : forall {A B} (x : IO A) (k : A -> IO B) f p,
  run (io_bind x k) f p = match run x f p with Ok (a, q) => run (k a) f q | Err e => Err e | Panic q => Panic q | Fuel => Fuel end.
Proof.
  intros A B x k f. induction x as [[a|e|q|]|o c IH]; intro p; cbn; try reflexivity.
  destruct (perform o f p) as [[a q]| | |]; try reflexivity. apply IH.
Qed.
Lemma work_bind : forall {A B} (x : IO A) (k : A -> IO B) f p,
  work (io_bind x k) f p = work x f p + match run x f p with Ok (a, q) => work (k a) f q | _ => 0 end.
Proof.
  intros A B x k f. induction x as [[a|e|q|]|o c IH]; intro p; cbn; try lia.
  destruct (perform o f p) as [[a q]| | |]; try lia. rewrite IH. lia.
Qed.
Lemma asked_bind : forall {A B} (x : IO A) (k : A -> IO B) f p,
  asked (io_bind x k) f p = asked x f p ++ match run x f p with Ok (a, q) => asked (k a) f q | _ => [] end.
Proof.
  intros A B x k f. induction x as [[a|e|q|]|o c IH]; intro p; cbn; try reflexivity.
  destruct (perform o f p) as [[a q]| | |]; try reflexivity. now rewrite IH.
Qed.
Lemma asked_work : forall {A} (x : IO A) f p, blen (asked x f p) <= work x f p.
Proof.
  intros A x f. unfold blen. induction x as [r|o c IH]; intro p; cbn; [lia|].
  destruct (perform o f p) as [[a q]| | |]; cbn [length]; try lia. specialize (IH a q). lia.
Qed.

(** A seek that does not go backwards. *)
Definition ahead (o : io_op) : bool := match o with OSeekCur d => (0 <=? d)%Z | _ => true end.

Section Bound.
  Context (f : bytes) (Sm : blen f < 2 ^ 62) (m : mode).

  (** How far a position is in the file. *)
  Definition cl (p : N) : N := N.min p (blen f).
  Definition bnd {A} (c : N) (x : IO A) (p : N) : Prop :=
    forallb ahead (asked x f p) = true ->
    match run x f p with
    | Ok (_, q) => p <= q /\ q < two63 /\ work x f p <= 4 * (cl q - cl p) + c
    | _ => work x f p <= 4 * (blen f - cl p) + c
    end.

  Lemma bnd_le : forall {A} c c' (x : IO A) p, bnd c x p -> c <= c' -> bnd c' x p.
  Proof. intros A c c' x p. unfold bnd. intros H L F. specialize (H F). destruct (run x f p) as [[]| | |]; lia. Qed.
  Lemma bnd_bind : forall {A B} c1 c (x : IO A) (k : A -> IO B) p,
    bnd c1 x p -> c1 <= c ->
    (forall a q, run x f p = Ok (a, q) -> p <= q -> q < two63 -> bnd (c - c1) (k a) q) -> bnd c (io_bind x k) p.
  Proof.
    intros A B c1 c x k p H L K. unfold bnd in *. rewrite run_bind, work_bind, asked_bind, forallb_app, andb_true_iff. intros [F1 F2].
    specialize (H F1). destruct (run x f p) as [[a q]| | |]; try lia.
    destruct H as (H1 & H2 & H3). specialize (K a q eq_refl H1 H2 F2).
    unfold cl in *. destruct (run (k a) f q) as [[b q']| | |]; lia.
  Qed.
  Lemma bnd_stop : forall {A} c (r : res A) p, p < two63 -> bnd c (Stop r) p.
  Proof. intros A c r p L _. destruct r; cbn; lia. Qed.
  Lemma bnd_read : forall n p, p < two63 -> bnd 1 (io_read_exact n) p.
  Proof.
    intros n p L _. cbn. unfold read_exact. destruct (N.eqb_spec n 0); [cbn; lia|].
    destruct (N.leb_spec (p + n) (blen f)); cbn; unfold cl, two63; lia.
  Qed.
  Lemma bnd_vec : forall n p, p < two63 -> bnd 1 (io_read_u8_vec n) p.
  Proof.
    intros n p L _. cbn. destruct (two63 <=? n); [lia|]. unfold read_exact. destruct (N.eqb_spec n 0); [cbn; lia|].
    destruct (N.leb_spec (p + n) (blen f)); cbn; unfold cl, two63; lia.
  Qed.
  (** Reading at least one byte pays for itself, unless it fails. *)
  Definition bnd0 {A} (k c : N) (x : IO A) (p : N) : Prop :=
    forallb ahead (asked x f p) = true ->
    match run x f p with
    | Ok (_, q) => p <= q /\ q < two63 /\ work x f p + k <= 4 * (cl q - cl p)
    | _ => work x f p <= 4 * (blen f - cl p) + c
    end.
  Lemma bnd0_bnd : forall {A} k c (x : IO A) p, bnd0 k c x p -> bnd c x p.
  Proof. intros A k c x p. unfold bnd0, bnd. intros H F. specialize (H F). destruct (run x f p) as [[]| | |]; lia. Qed.
  Lemma bnd_pay : forall {A B} k c c1 (x : IO A) (g : A -> IO B) p,
    bnd0 k c1 x p -> c1 <= c ->
    (forall a q, run x f p = Ok (a, q) -> p <= q -> q < two63 -> bnd (c + k) (g a) q) -> bnd c (io_bind x g) p.
  Proof.
    intros A B k c c1 x g p H L K. unfold bnd, bnd0 in *. rewrite run_bind, work_bind, asked_bind, forallb_app, andb_true_iff. intros [F1 F2].
    specialize (H F1). destruct (run x f p) as [[a q]| | |]; try lia.
    destruct H as (H1 & H2 & H3). specialize (K a q eq_refl H1 H2 F2).
    unfold cl in *. destruct (run (g a) f q) as [[b q']| | |]; lia.
  Qed.
  Lemma bnd_seek : forall d p, p < two63 -> bnd 1 (io_seek_cur d) p.
  Proof.
    intros d p L F. assert (D : (0 <= d)%Z) by (cbn in F; destruct (Z.leb_spec 0 d); [assumption|discriminate]). cbn. unfold seek_cur.
    destruct ((0 <=? Z.of_N p + d) && (Z.of_N p + d <? Z.of_N two63))%Z eqn:E; cbn; [|lia].
    apply andb_true_iff in E. unfold cl. lia.
  Qed.
  Lemma bnd_pos : forall p, p < two63 -> bnd 1 io_position p.
  Proof. intros p L _. cbn. lia. Qed.
  Lemma bnd_if : forall {A} c (b : bool) (x y : IO A) p, bnd c x p -> bnd c y p -> bnd c (if b then x else y) p.
  Proof. intros A c [] x y p; auto. Qed.

  Ltac fin := unfold two63 in *; lia.
  (** The bytes of a number. *)
  Lemma run_u : forall n (g : bytes -> N) p, run (io_bind (io_read_exact n) (fun b => io_ret (g b))) f p =
    match read_exact n f p with Ok (b, q) => Ok (g b, q) | Err e => Err e | Panic x => Panic x | Fuel => Fuel end.
  Proof. intros. cbn. destruct (read_exact n f p) as [[]| | |]; reflexivity. Qed.
  Lemma bnd0_u : forall n p, 0 < n -> p < two63 -> bnd0 (3 * n - 1) 1 (io_bind (io_read_exact n) (fun b => io_ret (unbe b))) p.
  Proof.
    intros n p N0 L _. rewrite run_u. cbn. unfold read_exact. destruct (N.eqb_spec n 0); [lia|].
    destruct (N.leb_spec (p + n) (blen f)); cbn; unfold cl; fin.
  Qed.
  Lemma bnd0_read : forall n p, 0 < n -> p < two63 -> bnd0 (3 * n - 1) 1 (io_read_exact n) p.
  Proof.
    intros n p N0 L _. cbn. unfold read_exact. destruct (N.eqb_spec n 0); [lia|].
    destruct (N.leb_spec (p + n) (blen f)); cbn; unfold cl; fin.
  Qed.
  Lemma bnd0_bind : forall {A B} k1 k2 c1 c2 c (x : IO A) (g : A -> IO B) p,
    bnd0 k1 c1 x p -> c1 <= c -> c2 <= c + k1 ->
    (forall a q, run x f p = Ok (a, q) -> p <= q -> q < two63 -> bnd0 k2 c2 (g a) q) -> bnd0 (k1 + k2) c (io_bind x g) p.
  Proof.
    intros A B k1 k2 c1 c2 c x g p H L1 L2 K. unfold bnd0 in *. rewrite run_bind, work_bind, asked_bind, forallb_app, andb_true_iff. intros [F1 F2].
    specialize (H F1). destruct (run x f p) as [[a q]| | |]; try lia.
    destruct H as (H1 & H2 & H3). specialize (K a q eq_refl H1 H2 F2).
    unfold cl in *. destruct (run (g a) f q) as [[b q']| | |]; lia.
  Qed.
  Lemma bnd0_stop : forall {A} (r : res A) p, p < two63 -> bnd0 0 0 (Stop r) p.
  Proof. intros A r p L _. destruct r; cbn; lia. Qed.
  Lemma bnd0_le : forall {A} k c k' c' (x : IO A) p, bnd0 k c x p -> k' <= k -> c <= c' -> bnd0 k' c' x p.
  Proof. intros A k c k' c' x p. unfold bnd0. intros H L1 L2 F. specialize (H F). destruct (run x f p) as [[]| | |]; lia. Qed.

  Lemma b_head : forall p, p < two63 -> bnd0 22 1 io_parse_head p.
  Proof.
    intros p L. unfold io_parse_head.
    apply (bnd0_bind 11 11 1 1 1); [apply (bnd0_u 4); fin|lia|lia|]. intros len q _ _ Lq.
    apply (bnd0_le (11 + 0) 1); [|lia|lia].
    apply (bnd0_bind 11 0 1 1 1); [apply (bnd0_read 4); fin|lia|lia|]. intros id q' _ _ Lq'.
    cbv zeta. destruct (len =? 1).
    - apply (bnd0_le (23 + 0) 1); [|lia|lia]. apply (bnd0_bind 23 0 1 0 1); [apply (bnd0_u 8); fin|lia|lia|].
      intros l q2 _ _ L2. now apply bnd0_stop.
    - destruct (len <? 8); apply (bnd0_le 0 0); try lia; now apply bnd0_stop.
  Qed.
  Lemma b_full : forall p, p < two63 -> bnd0 10 1 io_parse_full_head p.
  Proof.
    intros p L. unfold io_parse_full_head.
    apply (bnd0_bind 2 8 1 1 1); [apply (bnd0_u 1); fin|lia|lia|]. intros v q _ _ Lq.
    apply (bnd0_bind 8 0 1 0 1); [apply (bnd0_read 3); fin|lia|lia|]. intros b q' _ _ Lq'. now apply bnd0_stop.
  Qed.
  Lemma b_bounds : forall s p, p < two63 -> bnd 1 (io_find_bounds m s) p.
  Proof.
    intros s p L. unfold io_find_bounds. apply (bnd_bind 1); [now apply bnd_pos|lia|]. intros a q _ _ Lq.
    apply (bnd_bind 0); [now apply bnd_stop|lia|]. intros a' q' _ _ Lq'. now apply bnd_stop.
  Qed.
  Lemma b_skip : forall h p, p < two63 -> bnd 1 (io_skip_atom m h) p.
  Proof.
    intros h p L. unfold io_skip_atom. apply (bnd_bind 0); [now apply bnd_stop|lia|]. intros c q _ _ Lq. now apply bnd_seek.
  Qed.
  Lemma b_to_end : forall b p, p < two63 -> bnd 2 (io_seek_to_end m b) p.
  Proof.
    intros b p L. unfold io_seek_to_end. apply (bnd_bind 1); [now apply bnd_pos|lia|]. intros cur q _ _ Lq.
    apply (bnd_bind 0); [now apply bnd_stop|lia|]. intros e q1 _ _ L1.
    apply (bnd_bind 0); [now apply bnd_stop|lia|]. intros d q2 _ _ L2.
    apply (bnd_le 1); [now apply bnd_seek|lia].
  Qed.

  (** The bodies may cost up to 22 plus what they read; the loop itself then costs 1. *)
  Lemma b_loop : forall {S} limit (body : head -> S -> IO S),
    (forall h s p, p < two63 -> bnd 22 (body h s) p) ->
    forall fuel parsed s p, p < two63 -> bnd 1 (io_atom_loop fuel m limit body parsed s) p.
  Proof.
    intros S limit body H. induction fuel as [|fuel IH]; intros parsed s p L; cbn [io_atom_loop]; [now apply bnd_stop|].
    apply (bnd_bind 0); [now apply bnd_stop|lia|]. intros l q _ _ Lq. destruct (parsed <? l); [|now apply bnd_stop].
    apply (bnd_pay 22 _ 1); [now apply b_head|lia|]. intros h q1 _ _ L1.
    apply (bnd_bind 22); [now apply H|lia|]. intros s' q2 _ _ L2.
    apply (bnd_bind 0); [now apply bnd_stop|lia|]. intros a q3 _ _ L3. apply (bnd_le 1); [|lia]. now apply IH.
  Qed.

  Create HintDb bnd.
  Hint Resolve bnd_stop bnd_vec bnd_pos b_bounds b_skip : bnd.
  Ltac two := unfold two63 in *; first [assumption|lia].
  Ltac step :=
    match goal with
    | |- bnd _ (io_bind (io_bind _ _) _) _ => fail 1
    | |- bnd _ (io_bind io_parse_head _) _ => apply (bnd_pay 22 _ 1); [now apply b_head|lia|intros ? ? _ _ ?L]
    | |- bnd _ (io_bind io_parse_full_head _) _ => apply (bnd_pay 10 _ 1); [now apply b_full|lia|intros ? ? _ _ ?L]
    | |- bnd _ (io_bind (io_seek_cur _) _) _ => apply (bnd_bind 1); [apply bnd_seek; two|lia|intros ? ? _ _ ?L]
    | |- bnd _ (io_bind (io_lift _) _) _ => apply (bnd_bind 0); [now apply bnd_stop|lia|intros ? ? _ _ ?L]
    | |- bnd _ (io_bind _ _) _ => eapply bnd_bind; [solve [eauto with bnd]|lia|intros ? ? _ _ ?L]
    | |- bnd _ (if ?b then _ else _) _ => apply bnd_if
    | |- bnd _ (match ?x with _ => _ end) _ => destruct x
    | |- bnd _ (io_ret _) _ => now apply bnd_stop
    | |- bnd _ (io_fail _) _ => now apply bnd_stop
    | |- bnd _ (io_lift _) _ => now apply bnd_stop
    | |- bnd _ _ _ => eapply bnd_le; [solve [eauto with bnd]|lia]
    end.
  Ltac bnds := repeat (cbv zeta; step).

  Lemma b_utf8 : forall n p, p < two63 -> bnd 1 (io_read_utf8 n) p. Proof. intros. unfold io_read_utf8. bnds. Qed.
  Lemma b_utf16 : forall n p, p < two63 -> bnd 1 (io_read_utf16 n) p. Proof. intros. unfold io_read_utf16. bnds. Qed.
  Hint Resolve b_utf8 b_utf16 : bnd.
  Lemma b_data : forall t n p, p < two63 -> bnd 1 (io_data_parse t n) p. Proof. intros. unfold io_data_parse. bnds. Qed.
  Hint Resolve b_data : bnd.
  Lemma b_item : forall h a p, p < two63 -> bnd 22 (io_item_body m h a) p.
  Proof. intros. unfold io_item_body. bnds. Qed.
  Lemma b_atom_data : forall fuel i n p, p < two63 -> bnd 1 (io_atom_data_parse fuel m i n) p.
  Proof. intros. unfold io_atom_data_parse. pose proof (b_loop (Ok n) _ b_item). bnds. Qed.
  Hint Resolve b_atom_data : bnd.
  Lemma b_ilst : forall fuel s p, p < two63 -> bnd 1 (io_ilst_parse fuel m s) p.
  Proof. intros. apply b_loop; [|assumption]. intros. unfold io_ilst_body. bnds. Qed.
  Hint Resolve b_ilst : bnd.
  Lemma b_meta : forall fuel s p, p < two63 -> bnd 2 (io_meta_parse fuel m s) p.
  Proof.
    intros. unfold io_meta_parse. step. step; [bnds|]. apply (bnd_le 1); [|lia]. apply b_loop; [|assumption].
    intros. unfold io_meta_body. bnds.
  Qed.
  Hint Resolve b_meta : bnd.
  Lemma b_udta : forall fuel s p, p < two63 -> bnd 1 (io_udta_parse fuel m s) p.
  Proof. intros. apply b_loop; [|assumption]. intros. unfold io_udta_body. bnds. Qed.
  Hint Resolve b_udta : bnd.

  (** Descriptors: a head is at least two bytes and pays for one seek. *)
  Lemma b_u8 : forall p, p < two63 -> bnd0 2 1 io_read_u8 p. Proof. intros. apply (bnd0_u 1); [lia|assumption]. Qed.
  Lemma b_u16 : forall p, p < two63 -> bnd 1 io_read_u16 p. Proof. intros. apply (bnd0_bnd 5). apply (bnd0_u 2); [lia|assumption]. Qed.
  Lemma b_u32 : forall p, p < two63 -> bnd 1 io_read_u32 p. Proof. intros. apply (bnd0_bnd 11). apply (bnd0_u 4); [lia|assumption]. Qed.
  Lemma b_u64 : forall p, p < two63 -> bnd 1 io_read_u64 p. Proof. intros. apply (bnd0_bnd 23). apply (bnd0_u 8); [lia|assumption]. Qed.
  Hint Resolve b_u16 b_u32 b_u64 : bnd.
  Lemma b_desc_len1 : forall k hl len p, p < two63 -> bnd0 0 1 (io_desc_len_loop k hl len) p.
  Proof.
    induction k as [|k IH]; intros hl len p L; cbn [io_desc_len_loop]; [apply (bnd0_le 0 0); [now apply bnd0_stop|lia|lia]|].
    apply (bnd0_le (2 + 0) 1); [|lia|lia]. apply (bnd0_bind 2 0 1 1); [now apply b_u8|lia|lia|]. intros b q _ _ Lq. cbv zeta.
    destruct (b <? 128); [apply (bnd0_le 0 0); [now apply bnd0_stop|lia|lia]|now apply IH].
  Qed.
  Lemma b_desc_head : forall p, p < two63 -> bnd0 4 1 io_parse_desc_head p.
  Proof.
    intros p L. unfold io_parse_desc_head. apply (bnd0_bind 2 2 1 1); [now apply b_u8|lia|lia|]. intros t q _ _ Lq.
    apply (bnd0_bind 2 0 1 0); [|lia|lia|intros hl q' _ _ Lq'; now apply bnd0_stop].
    cbn [io_desc_len_loop]. apply (bnd0_bind 2 0 1 1); [now apply b_u8|lia|lia|]. intros b q2 _ _ L2. cbv zeta.
    destruct (b <? 128); [apply (bnd0_le 0 0); [now apply bnd0_stop|lia|lia]|now apply (b_desc_len1 3)].
  Qed.
  Lemma b_desc_loop : forall {S} len (body : N -> N -> S -> IO S),
    (forall t dl s p, p < two63 -> bnd 4 (body t dl s) p) ->
    forall fuel parsed s p, p < two63 -> bnd 1 (io_desc_loop fuel m len body parsed s) p.
  Proof.
    intros S len body H. induction fuel as [|fuel IH]; intros parsed s p L; cbn [io_desc_loop]; [now apply bnd_stop|].
    destruct (parsed <? len); [|now apply bnd_stop].
    apply (bnd_pay 4 _ 1); [now apply b_desc_head|lia|]. intros [[t hl] dl] q1 _ _ L1.
    apply (bnd_bind 4); [now apply H|lia|]. intros s' q2 _ _ L2.
    apply (bnd_bind 0); [now apply bnd_stop|lia|]. intros a q3 _ _ L3.
    apply (bnd_bind 0); [now apply bnd_stop|lia|]. intros a' q4 _ _ L4. apply (bnd_le 1); [|lia]. now apply IH.
  Qed.
  Lemma b_dseek : forall dl p, p < two63 -> bnd 1 (io_seek_cur (as_i64 dl)) p.
  Proof. intros dl p L. now apply bnd_seek. Qed.
  Lemma b_ds : forall i dl p, p < two63 -> bnd 2 (io_parse_ds_desc m i dl) p.
  Proof.
    intros i dl p L. unfold io_parse_ds_desc. apply (bnd_bind 1); [now apply b_u16|lia|]. intros n q _ _ Lq. cbv zeta.
    apply (bnd_bind 0); [now apply bnd_stop|lia|]. intros d q1 H _ L1.
    apply (bnd_bind 1); [now apply b_dseek|lia|]. intros u q2 _ _ L2. now apply bnd_stop.
  Qed.
  Lemma b_dc_body : forall t dl i p, p < two63 -> bnd 4 (io_dc_body m t dl i) p.
  Proof.
    intros t dl i p L. unfold io_dc_body. apply bnd_if; [apply (bnd_le 2); [now apply b_ds|lia]|].
    apply (bnd_bind 1); [now apply b_dseek|lia|]. intros u q _ _ Lq. now apply bnd_stop.
  Qed.
  Lemma b_dc : forall fuel i dl p, p < two63 -> bnd 4 (io_parse_dc_desc fuel m i dl) p.
  Proof.
    intros fuel i dl p L. unfold io_parse_dc_desc. pose proof (b_desc_loop dl _ b_dc_body). bnds.
  Qed.
  Lemma b_es_body : forall fuel t dl i p, p < two63 -> bnd 4 (io_es_body fuel m t dl i) p.
  Proof.
    intros fuel t dl i p L. unfold io_es_body. apply bnd_if; [now apply b_dc|].
    apply (bnd_bind 1); [now apply b_dseek|lia|]. intros u q _ _ Lq. now apply bnd_stop.
  Qed.
  Lemma b_es : forall fuel i dl p, p < two63 -> bnd 2 (io_parse_es_desc fuel m i dl) p.
  Proof. intros fuel i dl p L. unfold io_parse_es_desc. pose proof (b_desc_loop dl _ (b_es_body fuel)). bnds. Qed.
  Hint Resolve b_es : bnd.
  Lemma b_desc_head' : forall p, p < two63 -> bnd 1 io_parse_desc_head p.
  Proof. intros. apply (bnd0_bnd 4). now apply b_desc_head. Qed.
  Hint Resolve b_desc_head' : bnd.
  Lemma b_esds : forall fuel i s p, p < two63 -> bnd 3 (io_parse_esds fuel m i s) p.
  Proof. intros fuel i s p L. unfold io_parse_esds. bnds. Qed.
  Hint Resolve b_esds : bnd.
  Lemma b_mp4a : forall fuel s p, p < two63 -> bnd 4 (io_mp4a_parse fuel m s) p.
  Proof.
    intros fuel s p L. unfold io_mp4a_parse.
    apply (bnd_bind 1); [now apply b_bounds|lia|]. intros b q _ _ Lq.
    apply (bnd_bind 1); [now apply bnd_seek|lia|]. intros u q1 _ Q1 L1.
    apply (bnd_pay 22 _ 1); [now apply b_head|lia|]. intros h q2 _ Q2 L2.
    apply bnd_if; [now apply bnd_stop|].
    apply (bnd_bind 3); [now apply b_esds|lia|]. intros r q3 _ Q3 L3.
    apply (bnd_bind 2); [now apply b_to_end|lia|]. intros v q4 _ _ L4. now apply bnd_stop.
  Qed.
  Hint Resolve b_mp4a : bnd.
  Lemma b_stsd : forall fuel s p, p < two63 -> bnd 2 (io_stsd_parse fuel m s) p.
  Proof.
    intros fuel s p L. unfold io_stsd_parse.
    assert (H : forall fuel' parsed st q, q < two63 -> bnd 1 (io_atom_loop fuel' m (content_len m s) (io_stsd_body fuel m) parsed st) q).
    { apply b_loop. intros. unfold io_stsd_body. bnds. }
    bnds.
  Qed.
  Hint Resolve b_stsd : bnd.
  Lemma b_stbl : forall fuel s p, p < two63 -> bnd 1 (io_stbl_parse fuel m s) p.
  Proof. intros; apply b_loop; [|assumption]. intros. unfold io_stbl_body. bnds. Qed.
  Hint Resolve b_stbl : bnd.
  Lemma b_minf : forall fuel s p, p < two63 -> bnd 1 (io_minf_parse fuel m s) p.
  Proof. intros; apply b_loop; [|assumption]. intros. unfold io_minf_body. bnds. Qed.
  Hint Resolve b_minf : bnd.
  Lemma b_mdia : forall fuel s p, p < two63 -> bnd 1 (io_mdia_parse fuel m s) p.
  Proof. intros; apply b_loop; [|assumption]. intros. unfold io_mdia_body. bnds. Qed.
  Hint Resolve b_mdia : bnd.
  Lemma b_trak : forall fuel s p, p < two63 -> bnd 1 (io_trak_parse fuel m s) p.
  Proof. intros; apply b_loop; [|assumption]. intros. unfold io_trak_body. bnds. Qed.
  Hint Resolve b_trak : bnd.
  Lemma b_mvhd : forall s p, p < two63 -> bnd 7 (io_mvhd_parse m s) p.
  Proof.
    intros s p L. unfold io_mvhd_parse.
    apply (bnd_bind 1); [now apply b_bounds|lia|]. intros b q _ _ Lq.
    apply (bnd_pay 10 _ 1); [now apply b_full|lia|]. intros vf q1 _ Q1 L1.
    apply (bnd_bind 5).
    - destruct (fst vf) as [|[| |]]; bnds.
    - lia.
    - intros d q2 _ Q2 L2. apply (bnd_bind 2); [now apply b_to_end|lia|]. intros v q4 _ _ L4. now apply bnd_stop.
  Qed.
  Hint Resolve b_mvhd : bnd.
  Lemma b_moov : forall fuel s p, p < two63 -> bnd 1 (io_moov_parse fuel m s) p.
  Proof. intros; apply b_loop; [|assumption]. intros. unfold io_moov_body. bnds. Qed.
  Hint Resolve b_moov : bnd.
  Lemma b_ftyp : forall p, p < two63 -> bnd 1 (io_ftyp_parse m) p.
  Proof. intros. unfold io_ftyp_parse. bnds. Qed.
  Lemma b_rest : forall p, p < two63 -> bnd 3 (io_remaining_stream_len m) p.
  Proof.
    intros p L _. unfold io_remaining_stream_len. rewrite !run_bind, !work_bind. cbn.
    destruct (sub64 m (blen f) p); cbn; try lia.
    unfold seek_start. destruct (N.ltb_spec p two63); cbn; lia.
  Qed.
  Lemma b_find_moov : forall inner len fuel parsed p, p < two63 -> bnd 1 (io_find_moov fuel m inner len parsed) p.
  Proof.
    intros inner len. induction fuel as [|fuel IH]; intros parsed p L; cbn [io_find_moov]; [now apply bnd_stop|].
    apply bnd_if; [now apply bnd_stop|].
    apply (bnd_pay 22 _ 1); [now apply b_head|lia|]. intros h q _ _ Lq.
    apply bnd_if; [apply (bnd_le 1); [now apply b_moov|lia]|].
    apply (bnd_bind 1); [now apply b_skip|lia|]. intros u q1 _ _ L1.
    apply (bnd_bind 0); [now apply bnd_stop|lia|]. intros a q2 _ _ L2. apply (bnd_le 1); [now apply IH|lia].
  Qed.
  Lemma b_read : forall fuel p, p < two63 -> bnd 5 (io_read_tag_from fuel m) p.
  Proof.
    intros fuel p L. unfold io_read_tag_from.
    apply (bnd_bind 1); [now apply b_ftyp|lia|]. intros ft q _ _ Lq.
    apply (bnd_bind 3); [now apply b_rest|lia|]. intros len q1 _ _ L1.
    apply (bnd_bind 1); [now apply b_find_moov|lia|]. intros r q2 _ _ L2. now apply bnd_stop.
  Qed.

  (** The scan of the write path. *)
  Lemma b_leaf : forall s p, p < two63 -> bnd 3 (io_leaf_find m s) p.
  Proof.
    intros s p L. unfold io_leaf_find.
    apply (bnd_bind 1); [now apply b_bounds|lia|]. intros b q _ _ Lq.
    apply (bnd_bind 2); [now apply b_to_end|lia|]. intros v q4 _ _ L4. now apply bnd_stop.
  Qed.
  Hint Resolve b_leaf : bnd.
  Lemma b_stblf : forall fuel s p, p < two63 -> bnd 2 (io_stbl_find fuel m s) p.
  Proof.
    intros fuel s p L. unfold io_stbl_find.
    assert (H : forall fuel' limit parsed st q, q < two63 -> bnd 1 (io_atom_loop fuel' m limit (io_stbl_fbody m) parsed st) q).
    { intros fuel' limit; apply b_loop; intros; unfold io_stbl_fbody; bnds. }
    bnds.
  Qed.
  Hint Resolve b_stblf : bnd.
  Lemma b_minff : forall fuel s p, p < two63 -> bnd 2 (io_minf_find fuel m s) p.
  Proof.
    intros fuel s p L. unfold io_minf_find.
    assert (H : forall fuel' limit parsed st q, q < two63 -> bnd 1 (io_atom_loop fuel' m limit (io_minf_fbody fuel m) parsed st) q).
    { intros fuel' limit; apply b_loop; intros; unfold io_minf_fbody; bnds. }
    bnds.
  Qed.
  Hint Resolve b_minff : bnd.
  Lemma b_mdiaf : forall fuel s p, p < two63 -> bnd 2 (io_mdia_find fuel m s) p.
  Proof.
    intros fuel s p L. unfold io_mdia_find.
    assert (H : forall fuel' limit parsed st q, q < two63 -> bnd 1 (io_atom_loop fuel' m limit (io_mdia_fbody fuel m) parsed st) q).
    { intros fuel' limit; apply b_loop; intros; unfold io_mdia_fbody; bnds. }
    bnds.
  Qed.
  Hint Resolve b_mdiaf : bnd.
  Lemma b_trakf : forall fuel s p, p < two63 -> bnd 2 (io_trak_find fuel m s) p.
  Proof.
    intros fuel s p L. unfold io_trak_find.
    assert (H : forall fuel' limit parsed st q, q < two63 -> bnd 1 (io_atom_loop fuel' m limit (io_trak_fbody fuel m) parsed st) q).
    { intros fuel' limit; apply b_loop; intros; unfold io_trak_fbody; bnds. }
    bnds.
  Qed.
  Hint Resolve b_trakf : bnd.
  Lemma b_metaf : forall fuel s p, p < two63 -> bnd 3 (io_meta_find fuel m s) p.
  Proof.
    intros fuel s p L. unfold io_meta_find.
    assert (H : forall fuel' limit parsed st q, q < two63 -> bnd 1 (io_atom_loop fuel' m limit (io_meta_fbody m) parsed st) q).
    { intros fuel' limit; apply b_loop; intros; unfold io_meta_fbody; bnds. }
    bnds.
  Qed.
  Hint Resolve b_metaf : bnd.
  Lemma b_udtaf : forall fuel s p, p < two63 -> bnd 2 (io_udta_find fuel m s) p.
  Proof.
    intros fuel s p L. unfold io_udta_find.
    assert (H : forall fuel' limit parsed st q, q < two63 -> bnd 1 (io_atom_loop fuel' m limit (io_udta_fbody fuel m) parsed st) q).
    { intros fuel' limit; apply b_loop; intros; unfold io_udta_fbody; bnds. }
    bnds.
  Qed.
  Hint Resolve b_udtaf : bnd.
  Lemma b_moovf : forall fuel s p, p < two63 -> bnd 2 (io_moov_find fuel m s) p.
  Proof.
    intros fuel s p L. unfold io_moov_find.
    assert (H : forall fuel' limit parsed st q, q < two63 -> bnd 1 (io_atom_loop fuel' m limit (io_moov_fbody fuel m) parsed st) q).
    { intros fuel' limit; apply b_loop; intros; unfold io_moov_fbody; bnds. }
    bnds.
  Qed.
  Hint Resolve b_moovf : bnd.
  Lemma b_scan : forall fuel p, p < two63 -> bnd 5 (io_scan fuel m) p.
  Proof.
    intros fuel p L. unfold io_scan.
    assert (H : forall fuel' limit parsed st q, q < two63 -> bnd 1 (io_atom_loop fuel' m limit (io_top_fbody fuel m) parsed st) q).
    { intros fuel' limit; apply b_loop; intros; unfold io_top_fbody; bnds. }
    apply (bnd_bind 1); [now apply b_ftyp|lia|]. intros ft q _ _ Lq.
    apply (bnd_bind 3); [now apply b_rest|lia|]. intros len q1 _ _ L1. bnds.
  Qed.

  Lemma bnd_work : forall {A} c (x : IO A) p, bnd c x p -> forallb ahead (asked x f p) = true -> work x f p <= 4 * blen f + c.
  Proof. intros A c x p. unfold bnd, cl. intros H F. specialize (H F). destruct (run x f p) as [[]| | |]; lia. Qed.
End Bound.
