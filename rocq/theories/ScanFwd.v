(** The scan of arbitrary byte strings never moves backwards; where it finds things. *)

From Coq Require Import List NArith ZArith Bool Lia Arith String.
From Coq Require Import ZifyBool ZifyNat ZifyN.
From Verif Require Import Base BaseLemmas Utf Types Stream Parse Find Write TagSpec FileSpec ParseLemmas ReadFacts WriteState FailSpec FailProofs.
Import ListNotations.
Local Open Scope list_scope.

Definition roomy (b : bounds) : Prop := head_len (b_size b) <= sz_len (b_size b).
Lemma loop_limit : forall {S} fuel m limit body parsed (s : S) f p r, atom_loop fuel m limit body parsed s f p = Ok r -> exists v, limit = Ok v.
Proof.
  intros S fuel m limit body parsed s f p r H. destruct fuel as [|fuel]; cbn [atom_loop] in H; [discriminate|].
  destruct r. inv_bind H. apply lift_inv in E. exists v. apply E.
Qed.
Lemma content_room : forall s v, content_len Checked s = Ok v -> head_len s <= sz_len s.
Proof. intros s v H. unfold content_len, head_len in *. destruct (sz_ext s); apply sub64_inv in H; lia. Qed.
Lemma bounds_size : forall m s f p b q, find_bounds m s f p = Ok (b, q) -> b_size b = s.
Proof. intros m s f p b q H. unfold find_bounds in H. inv_bind H. inv_bind H. injection H as <- _. reflexivity. Qed.

Section Fwd.
  Context (f : bytes) (Hf : no_huge_box f).

  Definition fwd {A} (r : R A) : Prop := forall p a q, r f p = Ok (a, q) -> p <= q.
  Lemma fwd_bind : forall {A B} (r : R A) (k : A -> R B), fwd r -> (forall a, fwd (k a)) -> fwd (bind r k).
  Proof. intros A B r k H K p b q E. inv_bind E. apply H in E0. apply K in E. lia. Qed.
  Lemma fwd_ret : forall {A} (a : A), fwd (ret a). Proof. intros A a p b q E. injection E as _ <-. lia. Qed.
  Lemma fwd_fail : forall {A} e, fwd (@fail A e). Proof. intros A e p b q E. discriminate E. Qed.
  Lemma fwd_lift : forall {A} (r : res A), fwd (lift r). Proof. intros A r p b q E. apply lift_inv in E. lia. Qed.
  Lemma fwd_read : forall n, fwd (read_exact n). Proof. intros n p b q E. apply read_exact_inv in E. lia. Qed.
  Lemma fwd_head : fwd parse_head. Proof. intros p b q E. apply parse_head_inv in E. lia. Qed.
  Lemma fwd_full : fwd parse_full_head.
  Proof. unfold parse_full_head, read_u8. repeat (apply fwd_bind; [|intro]); try apply fwd_read; apply fwd_ret. Qed.

  Lemma head_small : forall p h q, parse_head f p = Ok (h, q) -> sz_len (hd_size h) < two63.
  Proof.
    intros p h q H. apply parse_head_inv in H. destruct H as [_ (L & _ & [(E & Eh & ->)|(_ & _ & Eh & ->)])].
    - apply Hf; [exact E|]. lia.
    - pose proof (field_lt f p 4 ltac:(lia)). change (256 ^ 4) with 4294967296 in *. unfold two63. lia.
  Qed.
  Lemma skip_fwd : forall p h q u q', parse_head f p = Ok (h, q) -> skip_atom Checked h f q = Ok (u, q') -> q <= q'.
  Proof.
    intros p h q u q' P H. apply head_small in P. unfold skip_atom in H. inv_bind H. apply lift_inv in E. destruct E as [E ->].
    assert (C : v < two63) by (unfold content_len in E; destruct (sz_ext (hd_size h)); apply sub64_inv in E; lia).
    rewrite as_i64_small in H by exact C. unfold seek_cur in H.
    destruct ((0 <=? Z.of_N q + Z.of_N v) && (Z.of_N q + Z.of_N v <? Z.of_N two63))%Z; [|discriminate]. injection H as _ <-. lia.
  Qed.
  Lemma end_fwd : forall b q u q', sz_len (b_size b) < two63 -> seek_to_end Checked b f q = Ok (u, q') -> q <= b_pos b + sz_len (b_size b) -> b_pos b <= q -> q <= q'.
  Proof.
    intros b q u q' L H L2 L3. unfold seek_to_end in H. inv_bind H. injection E as <- <-. inv_bind H. apply lift_inv in E. destruct E as [E ->]. apply add64_inv in E.
    inv_bind H. apply lift_inv in E0. destruct E0 as [E0 ->]. apply sub64_inv in E0. rewrite as_i64_small in H by lia. unfold seek_cur in H.
    destruct ((0 <=? Z.of_N q + Z.of_N v0) && (Z.of_N q + Z.of_N v0 <? Z.of_N two63))%Z; [|discriminate]. injection H as _ <-. lia.
  Qed.
  Lemma leaf_fwd : forall p0 h p1 b p', parse_head f p0 = Ok (h, p1) -> leaf_find Checked (hd_size h) f p1 = Ok (b, p') -> b_pos b = p0 /\ b_size b = hd_size h /\ p1 <= p' /\ roomy b.
  Proof.
    intros p0 h p1 b p' P H. pose proof (head_small _ _ _ P) as S. unfold leaf_find in H. inv_bind H.
    pose proof E as E'. eapply find_bounds_inv in E'; [|exact P]. destruct E' as (_ & E1 & E2).
    assert (p = p1) as ->. { unfold find_bounds in E. inv_bind E. injection E0 as <- <-. inv_bind E. apply lift_inv in E0. destruct E0 as [_ ->]. injection E as _ <-. reflexivity. }
    inv_bind H. injection H as <- <-. split; [exact E1|]. split; [exact E2|].
    apply parse_head_inv in P. destruct P as [-> _]. assert (R : p0 + head_len (hd_size h) <= b_pos v + sz_len (b_size v)).
    { rewrite E1, E2. unfold seek_to_end in E0. inv_bind E0. injection E3 as <- <-. inv_bind E0. apply lift_inv in E3. destruct E3 as [E3 ->]. apply add64_inv in E3.
    inv_bind E0. apply lift_inv in E4. destruct E4 as [E4 _]. apply sub64_inv in E4. rewrite E1, E2 in E3. lia. }
    split; [|unfold roomy; rewrite E1, E2 in *; lia]. eapply end_fwd; [rewrite E2; exact S|exact E0|exact R|rewrite E1; lia].
  Qed.

  (** A loop that starts at [lo] or behind. *)
  Lemma loop_fwd : forall {S} (I : S -> Prop) lo limit body,
    (forall h s p0 p1 s' p', lo <= p0 -> I s -> parse_head f p0 = Ok (h, p1) -> body h s f p1 = Ok (s', p') -> I s' /\ p1 <= p') ->
    forall fuel parsed s p s' p', lo <= p -> I s -> atom_loop fuel Checked limit body parsed s f p = Ok (s', p') -> I s' /\ p <= p'.
  Proof.
    intros S I lo limit body B. induction fuel as [|fuel IH]; intros parsed s p s' p' Lo Is H; cbn [atom_loop] in H; [discriminate|].
    inv_bind H. apply lift_inv in E. destruct E as [_ ->]. destruct (parsed <? v).
    - apply bind_inv in H. destruct H as (h & q1 & E & H). apply bind_inv in H. destruct H as (t & q2 & E0 & H).
      inv_bind H. apply lift_inv in E1. destruct E1 as [_ ->]. pose proof (fwd_head _ _ _ E) as L.
      destruct (B h s p q1 t q2 Lo Is E E0) as [Is' L']. destruct (IH _ _ q2 s' p' ltac:(lia) Is' H) as [X Y]. split; [exact X|lia].
    - injection H as <- <-. split; [exact Is|lia].
  Qed.

  Definition here (lo : N) (id : fourcc) (b : bounds) : Prop := found f id b /\ lo <= b_pos b /\ roomy b.
  Lemma leaf_here : forall lo p0 h p1 b p', lo <= p0 -> parse_head f p0 = Ok (h, p1) -> leaf_find Checked (hd_size h) f p1 = Ok (b, p') -> here lo (hd_fourcc h) b /\ p1 <= p'.
  Proof.
    intros lo p0 h p1 b p' Lo P H. pose proof (leaf_inv _ _ _ _ _ _ _ P H) as F. destruct (leaf_fwd _ _ _ _ _ P H) as (E & _ & L & R).
    split; [split; [exact F|split; [lia|exact R]]|exact L].
  Qed.
  Lemma bounds_here : forall p0 h p1 b p', parse_head f p0 = Ok (h, p1) -> find_bounds Checked (hd_size h) f p1 = Ok (b, p') ->
    found f (hd_fourcc h) b /\ b_pos b = p0 /\ p' = p1 /\ p1 = b_pos b + head_len (b_size b).
  Proof.
    intros p0 h p1 b p' P H. pose proof (find_bounds_inv _ _ _ _ _ _ _ P H) as (F & E & E2). split; [exact F|]. split; [exact E|].
    assert (p' = p1). { unfold find_bounds in H. inv_bind H. injection E0 as <- <-. inv_bind H. apply lift_inv in E0. destruct E0 as [_ ->]. injection H as _ <-. reflexivity. }
    split; [assumption|]. apply parse_head_inv in P. rewrite E, E2. lia.
  Qed.

  (** Sample tables. *)
  Definition sb_here (lo : N) (sb : stbl_bounds) : Prop := oall (here lo (id4 "stco")) (sb_stco sb) /\ oall (here lo (id4 "co64")) (sb_co64 sb).
  Ltac skip_case B P := inv_bind B; injection B as <- <-; eapply skip_fwd in P; [|eassumption].
  Lemma stbl_here : forall fuel lo s p sb p', lo <= p -> stbl_find fuel Checked s f p = Ok (sb, p') -> sb_here lo sb /\ p <= p'.
  Proof.
    intros fuel lo s p sb p' Lo H. unfold stbl_find in H. inv_bind H.
    assert (p0 = p) as ->. { unfold find_bounds in E. inv_bind E. injection E0 as <- <-. inv_bind E. apply lift_inv in E0. destruct E0 as [_ ->]. injection E as _ <-. reflexivity. }
    inv_bind H. injection H as <- <-.
    apply (loop_fwd (fun r => oall (here lo (id4 "stco")) (fst r) /\ oall (here lo (id4 "co64")) (snd r)) lo) with (4 := E0); [|exact Lo|split; apply oall_none].
    intros h r q0 q1 r' q' L0 [I1 I2] P B. unfold stbl_fbody in B. cbv zeta in B. destruct (fourcc_eqb (hd_fourcc h) SAMPLE_TABLE_CHUNK_OFFSET) eqn:E1.
    - apply fourcc_eqb_eq in E1. inv_bind B. injection B as <- <-. eapply leaf_here in E2; [|exact L0|exact P]. destruct E2 as [E2 L2]. rewrite E1 in E2.
      split; [split; [|exact I2]|exact L2]. intros b Eb. injection Eb as <-. exact E2.
    - destruct (fourcc_eqb (hd_fourcc h) SAMPLE_TABLE_CHUNK_OFFSET_64) eqn:E2.
      + apply fourcc_eqb_eq in E2. inv_bind B. injection B as <- <-. eapply leaf_here in E3; [|exact L0|exact P]. destruct E3 as [E3 L2]. rewrite E2 in E3.
        split; [split; [exact I1|]|exact L2]. intros b Eb. injection Eb as <-. exact E3.
      + inv_bind B. injection B as <- <-. eapply skip_fwd in E3; [|exact P]. split; [split; assumption|exact E3].
  Qed.
  Lemma bounds_same : forall s p b q, find_bounds Checked s f p = Ok (b, q) -> q = p.
  Proof. intros s p b q E. unfold find_bounds in E. inv_bind E. injection E0 as <- <-. inv_bind E. apply lift_inv in E0. destruct E0 as [_ ->]. injection E as _ <-. reflexivity. Qed.
  Lemma one_here : forall {A} (P : A -> Prop) fuel limit id (find : size -> R A) lo parsed p o p',
    (forall s q x q', lo <= q -> find s f q = Ok (x, q') -> P x /\ q <= q') -> lo <= p ->
    atom_loop fuel Checked limit (fun h r => if fourcc_eqb (hd_fourcc h) id then x <- find (hd_size h) ;; ret (Some x) else skip_atom Checked h ;;; ret r) parsed None f p = Ok (o, p') ->
    oall P o /\ p <= p'.
  Proof.
    intros A P fuel limit id find lo parsed p o p' HP Lo H. apply (loop_fwd (oall P) lo) with (4 := H); [|exact Lo|apply oall_none].
    intros h s p0 p1 s' q' L0 Is Ph B. cbv beta in B. pose proof (fwd_head _ _ _ Ph) as L1. destruct (fourcc_eqb (hd_fourcc h) id).
    - inv_bind B. injection B as <- <-. apply HP in E; [|lia]. destruct E as [E L]. split; [|exact L]. intros x Ex. injection Ex as <-. exact E.
    - inv_bind B. injection B as <- <-. eapply skip_fwd in E; [|exact Ph]. split; [exact Is|exact E].
  Qed.
  Lemma minf_here : forall fuel lo s p x p', lo <= p -> minf_find fuel Checked s f p = Ok (x, p') -> oall (sb_here lo) (nb_stbl x) /\ p <= p'.
  Proof.
    intros fuel lo s p x p' Lo H. unfold minf_find in H. inv_bind H. apply bounds_same in E. subst p0. inv_bind H. injection H as <- <-.
    apply (one_here (sb_here lo) fuel (content_len Checked s) SAMPLE_TABLE (stbl_find fuel Checked) lo 0); [|exact Lo|exact E]. intros. eapply stbl_here; eassumption.
  Qed.
  Lemma mdia_here : forall fuel lo s p x p', lo <= p -> mdia_find fuel Checked s f p = Ok (x, p') -> oall (fun n => oall (sb_here lo) (nb_stbl n)) (db_minf x) /\ p <= p'.
  Proof.
    intros fuel lo s p x p' Lo H. unfold mdia_find in H. inv_bind H. apply bounds_same in E. subst p0. inv_bind H. injection H as <- <-.
    apply (one_here (fun n => oall (sb_here lo) (nb_stbl n)) fuel (content_len Checked s) MEDIA_INFORMATION (minf_find fuel Checked) lo 0); [|exact Lo|exact E].
    intros. eapply minf_here; eassumption.
  Qed.
  Definition trak_here (lo : N) (t : trak_bounds) : Prop := oall (sb_here lo) (trak_stbl t).
  Lemma trak_is_here : forall fuel lo s p x p', lo <= p -> trak_find fuel Checked s f p = Ok (x, p') -> trak_here lo x /\ p <= p'.
  Proof.
    intros fuel lo s p x p' Lo H. unfold trak_find in H. inv_bind H. apply bounds_same in E. subst p0. apply bind_inv in H. destruct H as (v0 & q & E & H). injection H as <- <-.
    assert (X : oall (fun d => oall (fun n => oall (sb_here lo) (nb_stbl n)) (db_minf d)) v0 /\ p <= q).
    { apply (one_here (fun d => oall (fun n => oall (sb_here lo) (nb_stbl n)) (db_minf d)) fuel (content_len Checked s) MEDIA (mdia_find fuel Checked) lo 0); [|exact Lo|exact E].
      intros. eapply mdia_here; eassumption. }
    destruct X as [X Lp]. split; [|exact Lp]. unfold trak_here, trak_stbl. cbn [tb_mdia]. intros sb Es. destruct v0 as [d|]; [|discriminate Es]. specialize (X d eq_refl).
    destruct (db_minf d) as [n|] eqn:En; [|discriminate Es]. exact (X n En sb Es).
  Qed.

  (** Metadata: heads in front of their content. *)
  Definition bend (b : bounds) : N := b_pos b + head_len (b_size b).
  Definition meta_here (lo : N) (e : meta_bounds) : Prop :=
    here lo (id4 "meta") (eb_bounds e) /\ oall (here (bend (eb_bounds e)) (id4 "ilst")) (eb_ilst e).
  Lemma meta_is_here : forall fuel lo p0 h p1 e p', lo <= p0 -> hd_fourcc h = METADATA -> parse_head f p0 = Ok (h, p1) -> meta_find fuel Checked (hd_size h) f p1 = Ok (e, p') ->
    meta_here lo e /\ p1 <= p'.
  Proof.
    intros fuel lo p0 h p1 e p' Lo Hh P H. unfold meta_find in H. inv_bind H. pose proof (bounds_size _ _ _ _ _ _ E) as Rb. eapply bounds_here in E; [|exact P]. destruct E as (F & E1 & -> & Ep). rewrite Hh in F.
    apply bind_inv in H. destruct H as (v0 & p & E & H). apply fwd_full in E. destruct (negb (fst v0 =? 0)); [discriminate|]. apply bind_inv in H. destruct H as (v1 & p2 & E0 & H). injection H as <- <-. destruct (loop_limit _ _ _ _ _ _ _ _ _ E0) as [lv Lv]. apply content_room in Lv. rewrite <- Rb in Lv. change (roomy v) in Lv. clear Rb. rename Lv into Rb. unfold meta_here. cbn [eb_bounds eb_ilst].
    assert (X : oall (here (bend v) (id4 "ilst")) (snd v1) /\ p <= p2); [|destruct X as [X L]; split; [split; [split; [exact F|split; [lia|exact Rb]]|exact X]|lia]].
    apply (loop_fwd (fun s => oall (here (bend v) (id4 "ilst")) (snd s)) (bend v)) with (4 := E0); [|unfold bend; lia|apply oall_none].
    intros h0 s q0 q1 s' q' L0 Is P0 B. unfold meta_fbody in B. cbv zeta in B. destruct (fourcc_eqb (hd_fourcc h0) HANDLER_REFERENCE).
    - inv_bind B. injection B as <- <-. eapply leaf_here in E2; [|exact L0|exact P0]. split; [exact Is|apply E2].
    - destruct (fourcc_eqb (hd_fourcc h0) ITEM_LIST) eqn:Ei; inv_bind B; injection B as <- <-.
      + apply fourcc_eqb_eq in Ei. eapply leaf_here in E2; [|exact L0|exact P0]. rewrite Ei in E2. split; [|apply E2]. intros b Eb. injection Eb as <-. apply E2.
      + eapply skip_fwd in E2; [|exact P0]. split; assumption.
  Qed.
  Definition udta_here (lo : N) (u : udta_bounds) : Prop :=
    here lo (id4 "udta") (ub_bounds u) /\ oall (meta_here (bend (ub_bounds u))) (ub_meta u).
  Lemma udta_is_here : forall fuel lo p0 h p1 u p', lo <= p0 -> hd_fourcc h = USER_DATA -> parse_head f p0 = Ok (h, p1) -> udta_find fuel Checked (hd_size h) f p1 = Ok (u, p') ->
    udta_here lo u /\ p1 <= p'.
  Proof.
    intros fuel lo p0 h p1 u p' Lo Hh P H. unfold udta_find in H. inv_bind H. pose proof (bounds_size _ _ _ _ _ _ E) as Rb. eapply bounds_here in E; [|exact P]. destruct E as (F & E1 & -> & Ep). rewrite Hh in F.
    apply bind_inv in H. destruct H as (v0 & p & E & H). injection H as <- <-. destruct (loop_limit _ _ _ _ _ _ _ _ _ E) as [lv Lv]. apply content_room in Lv. rewrite <- Rb in Lv. change (roomy v) in Lv. clear Rb. rename Lv into Rb. unfold udta_here. cbn [ub_bounds ub_meta].
    assert (X : oall (meta_here (bend v)) v0 /\ p1 <= p); [|destruct X as [X L]; split; [split; [split; [exact F|split; [lia|exact Rb]]|exact X]|lia]].
    apply (loop_fwd (oall (meta_here (bend v))) (bend v)) with (4 := E); [|unfold bend; lia|apply oall_none].
    intros h0 s q0 q1 s' q' L0 Is P0 B. unfold udta_fbody in B. destruct (fourcc_eqb (hd_fourcc h0) METADATA) eqn:Ei; inv_bind B; injection B as <- <-.
    - apply fourcc_eqb_eq in Ei. eapply meta_is_here in E0; [|exact L0|exact Ei|exact P0]. split; [|apply E0]. intros e Ee. injection Ee as <-. apply E0.
    - eapply skip_fwd in E0; [|exact P0]. split; assumption.
  Qed.
  Definition moov_here (lo : N) (mb : moov_bounds) : Prop :=
    here lo (id4 "moov") (vb_bounds mb) /\ Forall (trak_here (bend (vb_bounds mb))) (vb_trak mb) /\ oall (udta_here (bend (vb_bounds mb))) (vb_udta mb).
  Lemma moov_is_here : forall fuel lo p0 h p1 mb p', lo <= p0 -> hd_fourcc h = MOVIE -> parse_head f p0 = Ok (h, p1) -> moov_find fuel Checked (hd_size h) f p1 = Ok (mb, p') ->
    moov_here lo mb /\ p1 <= p'.
  Proof.
    intros fuel lo p0 h p1 mb p' Lo Hh P H. unfold moov_find in H. inv_bind H. pose proof (bounds_size _ _ _ _ _ _ E) as Rb. eapply bounds_here in E; [|exact P]. destruct E as (F & E1 & -> & Ep). rewrite Hh in F.
    apply bind_inv in H. destruct H as (v0 & p & E & H). injection H as <- <-. destruct (loop_limit _ _ _ _ _ _ _ _ _ E) as [lv Lv]. apply content_room in Lv. rewrite <- Rb in Lv. change (roomy v) in Lv. clear Rb. rename Lv into Rb. unfold moov_here. cbn [vb_bounds vb_trak vb_udta].
    assert (X : (Forall (trak_here (bend v)) (fst v0) /\ oall (udta_here (bend v)) (snd v0)) /\ p1 <= p); [|destruct X as [X L]; split; [split; [split; [exact F|split; [lia|exact Rb]]|exact X]|lia]].
    apply (loop_fwd (fun s => Forall (trak_here (bend v)) (fst s) /\ oall (udta_here (bend v)) (snd s)) (bend v)) with (4 := E); [|unfold bend; lia|split; [constructor|apply oall_none]].
    intros h0 s q0 q1 s' q' L0 [I1 I2] P0 B. unfold moov_fbody in B. cbv zeta in B. pose proof (fwd_head _ _ _ P0) as L1. destruct (fourcc_eqb (hd_fourcc h0) TRACK).
    - inv_bind B. injection B as <- <-. apply (trak_is_here fuel (bend v)) in E0; [|lia]. destruct E0 as [E0 L]. split; [split; [|exact I2]|exact L].
      cbn [fst]. apply Forall_app. split; [exact I1|]. constructor; [exact E0|constructor].
    - destruct (fourcc_eqb (hd_fourcc h0) USER_DATA) eqn:Ei; inv_bind B; injection B as <- <-.
      + apply fourcc_eqb_eq in Ei. eapply udta_is_here in E0; [|exact L0|exact Ei|exact P0]. split; [split; [exact I1|]|apply E0]. intros e Ee. injection Ee as <-. apply E0.
      + eapply skip_fwd in E0; [|exact P0]. split; [split; assumption|exact E0].
  Qed.
  Lemma scan_here : forall fuel p sc p', scan fuel Checked f p = Ok (sc, p') -> moov_here 0 (fst sc).
  Proof.
    intros fuel p sc p' H. unfold scan in H. inv_bind H. inv_bind H. apply bind_inv in H. destruct H as (v1 & p2 & E1 & H).
    assert (X : oall (moov_here 0) (fst v1) /\ p1 <= p2).
    { apply (loop_fwd (fun s => oall (moov_here 0) (fst s)) 0) with (4 := E1); [|lia|apply oall_none].
      intros h0 s q0 q1 s' q' L0 Is P0 B. unfold top_fbody in B. cbv zeta in B. destruct (fourcc_eqb (hd_fourcc h0) MOVIE) eqn:Ei.
      - apply fourcc_eqb_eq in Ei. inv_bind B. injection B as <- <-. eapply moov_is_here in E2; [|exact L0|exact Ei|exact P0]. split; [|apply E2].
        intros x Ex. injection Ex as <-. apply E2.
      - destruct (fourcc_eqb (hd_fourcc h0) MEDIA_DATA); inv_bind B; injection B as <- <-.
        + eapply leaf_here in E2; [|exact L0|exact P0]. split; [exact Is|apply E2].
        + eapply skip_fwd in E2; [|exact P0]. split; assumption. }
    destruct (fst v1) as [mb|]; [|discriminate]. injection H as <- <-. exact (proj1 X mb eq_refl).
  Qed.
End Fwd.
