(** Failing writes: what was modified before the error. *)

From Coq Require Import List NArith ZArith Bool Lia Arith String.
From Coq Require Import ZifyBool ZifyNat ZifyN.
From Verif Require Import Base BaseLemmas Utf Types Stream Parse Find Write TagSpec FileSpec ParseLemmas ReadFacts WriteState FailSpec.
Import ListNotations.
Local Open Scope list_scope.

(** * Readers *)

Lemma bind_inv : forall {A B} (x : R A) (k : A -> R B) f p r, bind x k f p = Ok r -> exists a p', x f p = Ok (a, p') /\ k a f p' = Ok r.
Proof. intros A B x k f p r H. unfold bind in H. destruct (x f p) as [[a p']| | |]; try discriminate. eauto. Qed.
Lemma lift_inv : forall {A} (r : res A) f p a p', lift r f p = Ok (a, p') -> r = Ok a /\ p' = p.
Proof. intros A r f p a p' H. unfold lift in H. destruct r; try discriminate. injection H as -> ->. auto. Qed.
Ltac inv_bind H := let a := fresh "v" in let p := fresh "p" in let E := fresh "E" in
  apply bind_inv in H; destruct H as (a & p & E & H).

Lemma read_exact_inv : forall n f p b p', read_exact n f p = Ok (b, p') -> p' = p + n /\ b = slice f p n /\ (n = 0 \/ p + n <= blen f).
Proof.
  intros n f p b p' H. unfold read_exact in H. destruct (n =? 0) eqn:E.
  - injection H as <- <-. apply N.eqb_eq in E. subst n. split; [lia|]. split; [reflexivity|left; reflexivity].
  - destruct (p + n <=? blen f) eqn:L; [|discriminate]. injection H as <- <-. split; [reflexivity|]. split; [reflexivity|right; lia].
Qed.
Lemma read_u32_inv : forall f p v p', read_u32 f p = Ok (v, p') -> p' = p + 4 /\ v = field f p 4 /\ p + 4 <= blen f.
Proof.
  intros f p v p' H. unfold read_u32 in H. inv_bind H. injection H as <- <-. apply read_exact_inv in E. destruct E as (-> & -> & [E|E]); [discriminate|auto].
Qed.
Lemma read_u64_inv : forall f p v p', read_u64 f p = Ok (v, p') -> p' = p + 8 /\ v = field f p 8 /\ p + 8 <= blen f.
Proof.
  intros f p v p' H. unfold read_u64 in H. inv_bind H. injection H as <- <-. apply read_exact_inv in E. destruct E as (-> & -> & [E|E]); [discriminate|auto].
Qed.

Lemma fc_of_slice : forall f p, p + 4 <= blen f -> fc_bytes (fourcc_of_bytes (slice f p 4)) = slice f p 4.
Proof.
  intros f p L. pose proof (blen_slice f p 4 L) as B. destruct (slice f p 4) as [|a [|b [|c [|d [|e l]]]]]; unfold blen in B; cbn [List.length] in B; try lia. reflexivity.
Qed.
Lemma parse_head_inv : forall f p h p', parse_head f p = Ok (h, p') ->
  p' = p + head_len (hd_size h) /\ box_at f p (hd_fourcc h) (head_len (hd_size h)) (sz_len (hd_size h)).
Proof.
  intros f p h p' H. unfold parse_head in H. inv_bind H. apply read_u32_inv in E. destruct E as (-> & -> & L1).
  inv_bind H. apply read_exact_inv in E. destruct E as (-> & -> & [E|L2]); [discriminate|]. cbv zeta in H.
  replace (p + 4 + 4) with (p + 8) in * by lia. destruct (field f p 4 =? 1) eqn:E1.
  - inv_bind H. apply read_u64_inv in E. destruct E as (-> & -> & L3). injection H as <- <-. unfold head_len, box_at. cbn [hd_size hd_fourcc sz_ext sz_len].
    rewrite fc_of_slice by lia. split; [lia|]. split; [lia|]. split; [reflexivity|]. left. split; [lia|auto].
  - destruct (field f p 4 <? 8) eqn:E2; [discriminate|]. injection H as <- <-. unfold head_len, box_at. cbn [hd_size hd_fourcc sz_ext sz_len].
    rewrite fc_of_slice by lia. split; [lia|]. split; [lia|]. split; [reflexivity|]. right. lia.
Qed.

(** What holds of the local variables of a loop. *)
Lemma loop_inv : forall {S} (I : S -> Prop) m limit body f,
  (forall h s p0 p1 s' p', I s -> parse_head f p0 = Ok (h, p1) -> body h s f p1 = Ok (s', p') -> I s') ->
  forall fuel parsed s p s' p', I s -> atom_loop fuel m limit body parsed s f p = Ok (s', p') -> I s'.
Proof.
  intros S I m limit body f B. induction fuel as [|fuel IH]; intros parsed s p s' p' Is H; cbn [atom_loop] in H; [discriminate|].
  inv_bind H. apply lift_inv in E. destruct E as [_ ->]. destruct (parsed <? v).
  - inv_bind H. inv_bind H. inv_bind H. apply lift_inv in E1. destruct E1 as [_ ->]. eapply IH; [|exact H]. eapply B; eassumption.
  - injection H as <- <-. exact Is.
Qed.

(** * What the scan finds *)

Definition found (f : bytes) (id : fourcc) (b : bounds) : Prop := box_at f (b_pos b) id (head_len (b_size b)) (sz_len (b_size b)).
Definition ofound (f : bytes) (id : fourcc) (o : option bounds) : Prop := forall b, o = Some b -> found f id b.

Lemma find_bounds_inv : forall m f p0 h p1 b p', parse_head f p0 = Ok (h, p1) -> find_bounds m (hd_size h) f p1 = Ok (b, p') ->
  found f (hd_fourcc h) b /\ b_pos b = p0 /\ b_size b = hd_size h.
Proof.
  intros m f p0 h p1 b p' H F. apply parse_head_inv in H. destruct H as [-> B]. unfold find_bounds in F. inv_bind F. injection E as <- <-. inv_bind F.
  apply lift_inv in E. destruct E as [E ->]. injection F as <- <-. unfold found. cbn [b_pos b_size]. unfold sub64 in E.
  destruct (head_len (hd_size h) <=? p0 + head_len (hd_size h)) eqn:X; [|lia]. injection E as <-.
  replace (p0 + head_len (hd_size h) - head_len (hd_size h)) with p0 by lia. auto.
Qed.
Lemma leaf_inv : forall m f p0 h p1 b p', parse_head f p0 = Ok (h, p1) -> leaf_find m (hd_size h) f p1 = Ok (b, p') -> found f (hd_fourcc h) b.
Proof.
  intros m f p0 h p1 b p' H L. unfold leaf_find in L. inv_bind L. inv_bind L. injection L as <- <-. eapply find_bounds_inv; eassumption.
Qed.

Definition stbl_found (f : bytes) (o : option bounds * option bounds) : Prop :=
  ofound f (id4 "stco") (fst o) /\ ofound f (id4 "co64") (snd o).
Lemma stbl_body_inv : forall m f h s p0 p1 s' p', stbl_found f s -> parse_head f p0 = Ok (h, p1) -> stbl_fbody m h s f p1 = Ok (s', p') -> stbl_found f s'.
Proof.
  intros m f h s p0 p1 s' p' [I1 I2] P H. unfold stbl_fbody in H. cbv zeta in H. destruct (fourcc_eqb (hd_fourcc h) SAMPLE_TABLE_CHUNK_OFFSET) eqn:E1.
  - apply fourcc_eqb_eq in E1. inv_bind H. injection H as <- <-. split; [|exact I2]. intros b Eb. injection Eb as <-. eapply leaf_inv in E; [|exact P]. rewrite E1 in E. exact E.
  - destruct (fourcc_eqb (hd_fourcc h) SAMPLE_TABLE_CHUNK_OFFSET_64) eqn:E2.
    + apply fourcc_eqb_eq in E2. inv_bind H. injection H as <- <-. split; [exact I1|]. intros b Eb. injection Eb as <-. eapply leaf_inv in E; [|exact P]. rewrite E2 in E. exact E.
    + inv_bind H. injection H as <- <-. split; assumption.
Qed.
Definition sb_found (f : bytes) (sb : stbl_bounds) : Prop := ofound f (id4 "stco") (sb_stco sb) /\ ofound f (id4 "co64") (sb_co64 sb).
Lemma stbl_inv : forall fuel m s f p sb p', stbl_find fuel m s f p = Ok (sb, p') -> sb_found f sb.
Proof.
  intros fuel m s f p sb p' H. unfold stbl_find in H. inv_bind H. inv_bind H. injection H as <- <-.
  assert (X : stbl_found f v0). { apply (loop_inv (stbl_found f)) with (3 := E0); [|split; intros b Eb; cbn in Eb; discriminate Eb]. intros. eapply stbl_body_inv; eassumption. }
  exact X.
Qed.
(** A container with one interesting child. *)
Definition oall {A} (P : A -> Prop) (o : option A) : Prop := forall x, o = Some x -> P x.
Lemma oall_none : forall {A} (P : A -> Prop), oall P None. Proof. intros A P x E. discriminate E. Qed.
Lemma one_child : forall {A} (P : A -> Prop) fuel m limit id (find : size -> R A) parsed f p o p',
  (forall s q x q', find s f q = Ok (x, q') -> P x) ->
  atom_loop fuel m limit (fun h r => if fourcc_eqb (hd_fourcc h) id then x <- find (hd_size h) ;; ret (Some x) else skip_atom m h ;;; ret r) parsed None f p = Ok (o, p') ->
  oall P o.
Proof.
  intros A P fuel m limit id find parsed f p o p' HP H. apply (loop_inv (oall P)) with (3 := H); [|apply oall_none].
  intros h s p0 p1 s' q' Is _ B. cbv beta in B. destruct (fourcc_eqb (hd_fourcc h) id).
  - inv_bind B. injection B as <- <-. intros x Ex. injection Ex as <-. eapply HP, E.
  - inv_bind B. injection B as <- <-. exact Is.
Qed.
Lemma minf_inv : forall fuel m s f p x p', minf_find fuel m s f p = Ok (x, p') -> oall (sb_found f) (nb_stbl x).
Proof. intros fuel m s f p x p' H. unfold minf_find in H. inv_bind H. inv_bind H. injection H as <- <-. apply one_child with (2 := E0). intros s0 q x q'. apply stbl_inv. Qed.
Lemma mdia_inv : forall fuel m s f p x p', mdia_find fuel m s f p = Ok (x, p') -> oall (fun n => oall (sb_found f) (nb_stbl n)) (db_minf x).
Proof. intros fuel m s f p x p' H. unfold mdia_find in H. inv_bind H. inv_bind H. injection H as <- <-. apply one_child with (2 := E0). intros s0 q x q'. apply minf_inv. Qed.
Definition trak_found (f : bytes) (t : trak_bounds) : Prop := oall (sb_found f) (trak_stbl t).
Lemma trak_inv : forall fuel m s f p x p', trak_find fuel m s f p = Ok (x, p') -> trak_found f x.
Proof.
  intros fuel m s f p x p' H. unfold trak_find in H. inv_bind H. inv_bind H. injection H as <- <-.
  assert (X : oall (fun d => oall (fun n => oall (sb_found f) (nb_stbl n)) (db_minf d)) v0) by (apply one_child with (2 := E0); intros s0 q x q'; apply mdia_inv).
  unfold trak_found, trak_stbl. cbn [tb_mdia]. intros sb Es. destruct v0 as [d|]; [|discriminate Es]. specialize (X d eq_refl).
  destruct (db_minf d) as [n|] eqn:En; [|discriminate Es]. exact (X n En sb Es).
Qed.

(** Metadata containers: only their positions matter. *)
Definition inside (f : bytes) (b : bounds) : Prop := b_pos b + head_len (b_size b) <= blen f.
Lemma found_inside : forall f id b, found f id b -> inside f b. Proof. intros f id b [H _]. exact H. Qed.
Lemma meta_inv : forall fuel m f p0 h p1 e p', parse_head f p0 = Ok (h, p1) -> meta_find fuel m (hd_size h) f p1 = Ok (e, p') ->
  inside f (eb_bounds e) /\ oall (inside f) (eb_ilst e).
Proof.
  intros fuel m f p0 h p1 e p' P H. unfold meta_find in H. inv_bind H. eapply find_bounds_inv in E; [|exact P]. destruct E as [E _]. inv_bind H.
  destruct (negb (fst v0 =? 0)); [discriminate|]. inv_bind H. injection H as <- <-. split; [eapply found_inside, E|]. cbn [eb_ilst].
  assert (X : oall (inside f) (snd v1)); [|exact X]. apply (loop_inv (fun s => oall (inside f) (snd s))) with (3 := E1); [|apply oall_none].
  intros h0 s q0 q1 s' q' Is P0 B. unfold meta_fbody in B. cbv zeta in B. destruct (fourcc_eqb (hd_fourcc h0) HANDLER_REFERENCE).
  - inv_bind B. injection B as <- <-. exact Is.
  - destruct (fourcc_eqb (hd_fourcc h0) ITEM_LIST); inv_bind B; injection B as <- <-; [|exact Is].
    intros b Eb. injection Eb as <-. eapply leaf_inv in E2; [|exact P0]. eapply found_inside, E2.
Qed.
Definition udta_ok (f : bytes) (u : udta_bounds) : Prop :=
  inside f (ub_bounds u) /\ oall (fun e => inside f (eb_bounds e) /\ oall (inside f) (eb_ilst e)) (ub_meta u).
Lemma udta_inv : forall fuel m f p0 h p1 u p', parse_head f p0 = Ok (h, p1) -> udta_find fuel m (hd_size h) f p1 = Ok (u, p') -> udta_ok f u.
Proof.
  intros fuel m f p0 h p1 u p' P H. unfold udta_find in H. inv_bind H. eapply find_bounds_inv in E; [|exact P]. destruct E as [E _].
  inv_bind H. injection H as <- <-. split; [eapply found_inside, E|]. cbn [ub_meta].
  apply (loop_inv (oall (fun e => inside f (eb_bounds e) /\ oall (inside f) (eb_ilst e)))) with (3 := E0); [|apply oall_none].
  intros h0 s q0 q1 s' q' Is P0 B. unfold udta_fbody in B. destruct (fourcc_eqb (hd_fourcc h0) METADATA); inv_bind B; injection B as <- <-; [|exact Is].
  intros e Ee. injection Ee as <-. eapply meta_inv; eassumption.
Qed.
Definition moov_ok (f : bytes) (mb : moov_bounds) : Prop :=
  inside f (vb_bounds mb) /\ Forall (trak_found f) (vb_trak mb) /\ oall (udta_ok f) (vb_udta mb).
Lemma moov_inv : forall fuel m f p0 h p1 mb p', parse_head f p0 = Ok (h, p1) -> moov_find fuel m (hd_size h) f p1 = Ok (mb, p') -> moov_ok f mb.
Proof.
  intros fuel m f p0 h p1 mb p' P H. unfold moov_find in H. inv_bind H. eapply find_bounds_inv in E; [|exact P]. destruct E as [E _].
  inv_bind H. injection H as <- <-. split; [eapply found_inside, E|]. cbn [vb_trak vb_udta].
  apply (loop_inv (fun s => Forall (trak_found f) (fst s) /\ oall (udta_ok f) (snd s))) with (3 := E0); [|split; [constructor|apply oall_none]].
  intros h0 s q0 q1 s' q' [I1 I2] P0 B. unfold moov_fbody in B. cbv zeta in B. destruct (fourcc_eqb (hd_fourcc h0) TRACK).
  - inv_bind B. injection B as <- <-. split; [|exact I2]. cbn [fst]. apply Forall_app. split; [exact I1|]. constructor; [|constructor]. eapply trak_inv, E1.
  - destruct (fourcc_eqb (hd_fourcc h0) USER_DATA); inv_bind B; injection B as <- <-; [|split; assumption]. split; [exact I1|].
    intros u Eu. injection Eu as <-. eapply udta_inv; eassumption.
Qed.
Lemma scan_inv : forall fuel m f p sc p', scan fuel m f p = Ok (sc, p') -> moov_ok f (fst sc).
Proof.
  intros fuel m f p sc p' H. unfold scan in H. inv_bind H. inv_bind H. inv_bind H.
  assert (X : oall (moov_ok f) (fst v1)).
  { apply (loop_inv (fun s => oall (moov_ok f) (fst s))) with (3 := E1); [|apply oall_none].
    intros h0 s q0 q1 s' q' Is P0 B. unfold top_fbody in B. cbv zeta in B. destruct (fourcc_eqb (hd_fourcc h0) MOVIE).
    - inv_bind B. injection B as <- <-. intros x Ex. injection Ex as <-. eapply moov_inv; eassumption.
    - destruct (fourcc_eqb (hd_fourcc h0) MEDIA_DATA); inv_bind B; injection B as <- <-; exact Is. }
  destruct (fst v1) as [mb|]; [|discriminate]. injection H as <- <-. exact (X mb eq_refl).
Qed.

(** * The plan *)

Lemma add64_inv : forall a b c, add64 Checked a b = Ok c -> c = a + b /\ a + b < two64.
Proof. intros a b c H. unfold add64 in H. destruct (a + b <? two64) eqn:E; [|discriminate]. injection H as <-. lia. Qed.
Lemma sub64_inv : forall a b c, sub64 Checked a b = Ok c -> c = a - b /\ b <= a.
Proof. intros a b c H. unfold sub64 in H. destruct (b <=? a) eqn:E; [|discriminate]. injection H as <-. lia. Qed.
Lemma addi_inv : forall a b c, addi Checked a b = Ok c -> c = (a + b)%Z.
Proof. intros a b c H. unfold addi in H. destruct (in_i64 (a + b)); [|discriminate]. injection H as <-. reflexivity. Qed.
Lemma subi_inv : forall a b c, subi Checked a b = Ok c -> c = (a - b)%Z.
Proof. intros a b c H. unfold subi in H. destruct (in_i64 (a - b)); [|discriminate]. injection H as <-. reflexivity. Qed.
Lemma as_i64_small : forall n, n < two63 -> as_i64 n = Z.of_N n.
Proof. intros n H. unfold as_i64. destruct (n <? two63) eqn:E; [reflexivity|lia]. Qed.

Definition announced (l : list atom_data) : N := nsum (map ad_len l).
Definition plan_ok (f : bytes) (p : plan) : Prop :=
  moov_ok f (pl_moov p) /\ Forall (inside f) (pl_update p) /\ pl_start p <= blen f /\ pl_moved_start p <= blen f /\ pl_old_len p = blen f /\
  (0 <= Z.of_N (pl_old_len p) + pl_diff p < 2 ^ 63)%Z /\ (0 <= Z.of_N (pl_moved_start p) + pl_diff p < 2 ^ 63)%Z.

Lemma size_from_len : forall n, sz_len (size_from n) <= n + 16.
Proof. intro n. unfold size_from. cbn [sz_len]. destruct (_ <? _); lia. Qed.
Lemma new_len_bound : forall h l n, (h = None \/ h = Some meta_hdlr) -> n = NUdta (NewMeta h l) \/ n = NMeta (NewMeta h l) \/ n = NIlst h l ->
  new_atoms_len n <= announced l + 100.
Proof.
  intros h l n Hh Hn. assert (B1 : hdlr_len_or_zero h <= 33) by (destruct Hh as [-> | ->]; vm_compute; discriminate).
  pose proof (size_from_len (announced l)) as B2. pose proof (size_from_len (hdlr_len_or_zero h + sz_len (ilst_size l) + 4)) as B3.
  pose proof (size_from_len (sz_len (size_from (hdlr_len_or_zero h + sz_len (ilst_size l) + 4)))) as B4. unfold announced, ilst_size in *.
  destruct Hn as [-> |[-> | ->]]; unfold new_atoms_len, udta_size, meta_size, ilst_size; cbn [nm_hdlr nm_ilst]; lia.
Qed.

Lemma prepare_inv : forall fuel atoms f pos p q, blen f < 2 ^ 62 -> announced atoms < 2 ^ 61 ->
  prepare fuel Checked atoms f pos = Ok (p, q) -> plan_ok f p.
Proof.
  intros fuel atoms f pos p q Lf La H. unfold prepare in H. inv_bind H. pose proof (scan_inv _ _ _ _ _ _ E) as (Im & It & Iu). clear E.
  cbv zeta in H. set (mb := fst v) in *.
  set (nh := match match match match vb_udta mb with Some u => ub_meta u | None => None end with Some e => eb_hdlr e | None => None end with None => Some meta_hdlr | Some _ => None end with x => x end) in *.
  assert (Hh : nh = None \/ nh = Some meta_hdlr).
  { unfold nh. destruct (match match vb_udta mb with Some u => ub_meta u | None => None end with Some e => eb_hdlr e | None => None end); auto. }
  clearbody nh. change (2 ^ 62) with 4611686018427387904 in *. change (2 ^ 61) with 2305843009213693952 in *.
  change (2 ^ 63)%Z with 9223372036854775808%Z in *.
  assert (T63 : two63 = 9223372036854775808) by reflexivity. assert (T64 : two64 = 18446744073709551616) by reflexivity.
  destruct (vb_udta mb) as [u|] eqn:Eu; [destruct (Iu u eq_refl) as [Iub Ium]; destruct (ub_meta u) as [e|] eqn:Ee;
    [destruct (Ium e eq_refl) as [Ieb Iil]; destruct (eb_ilst e) as [b|] eqn:Eb|]|].
  - inv_bind H. inv_bind E. apply lift_inv in E0. destruct E0 as [E0 ->]. inv_bind E. apply lift_inv in E1. destruct E1 as [E1 ->]. injection E as <- <-.
    inv_bind H. injection E as <- <-. inv_bind H. injection E as <- <-. inv_bind H. apply lift_inv in E. destruct E as [E ->]. inv_bind H. injection E2 as <- <-.
    inv_bind H. apply lift_inv in E2. destruct E2 as [E2 ->]. destruct (two63 <=? v3) eqn:Em; [discriminate|]. inv_bind H. inv_bind H. injection H as <- <-.
    specialize (Iil b eq_refl). unfold bounds_end in E0. apply add64_inv in E0. apply subi_inv in E1. apply addi_inv in E. cbn [snd fst] in *. apply sub64_inv in E2.
    pose proof (new_len_bound nh atoms (NIlst nh atoms) Hh ltac:(auto)) as NB.
    unfold inside in Iil. rewrite as_i64_small in E1 by lia. rewrite as_i64_small in E by lia.
    unfold plan_ok. cbn [pl_moov pl_update pl_start pl_moved_start pl_old_len pl_diff].
    split; [split; [exact Im|split; [exact It|rewrite Eu; exact Iu]]|]. split; [repeat constructor; assumption|]. lia.
  - inv_bind H. injection E as <- <-. inv_bind H. inv_bind E. apply lift_inv in E0. destruct E0 as [E0 ->]. injection E as <- <-.
    inv_bind H. injection E as <- <-. inv_bind H. apply lift_inv in E. destruct E as [E ->]. inv_bind H. injection E1 as <- <-.
    inv_bind H. apply lift_inv in E1. destruct E1 as [E1 ->]. destruct (two63 <=? v2) eqn:Em; [discriminate|]. inv_bind H. inv_bind H. injection H as <- <-.
    apply addi_inv in E. cbn [snd fst] in *. apply sub64_inv in E1. pose proof (new_len_bound nh atoms (NIlst nh atoms) Hh ltac:(auto)) as NB.
    rewrite as_i64_small in E by lia. unfold plan_ok. cbn [pl_moov pl_update pl_start pl_moved_start pl_old_len pl_diff].
    split; [split; [exact Im|split; [exact It|rewrite Eu; exact Iu]]|]. split; [repeat constructor; assumption|]. lia.
  - inv_bind H. injection E as <- <-. inv_bind H. injection E as <- <-. inv_bind H. inv_bind E. apply lift_inv in E0. destruct E0 as [E0 ->]. injection E as <- <-.
    inv_bind H. apply lift_inv in E. destruct E as [E ->]. inv_bind H. injection E1 as <- <-.
    inv_bind H. apply lift_inv in E1. destruct E1 as [E1 ->]. destruct (two63 <=? v2) eqn:Em; [discriminate|]. inv_bind H. inv_bind H. injection H as <- <-.
    apply addi_inv in E. cbn [snd fst] in *. apply sub64_inv in E1. pose proof (new_len_bound nh atoms (NMeta (NewMeta nh atoms)) Hh ltac:(auto)) as NB.
    rewrite as_i64_small in E by lia. unfold plan_ok. cbn [pl_moov pl_update pl_start pl_moved_start pl_old_len pl_diff].
    split; [split; [exact Im|split; [exact It|rewrite Eu; exact Iu]]|]. split; [repeat constructor; assumption|]. lia.
  - inv_bind H. injection E as <- <-. inv_bind H. injection E as <- <-. inv_bind H. inv_bind E. apply lift_inv in E0. destruct E0 as [E0 ->]. injection E as <- <-.
    inv_bind H. apply lift_inv in E. destruct E as [E ->]. inv_bind H. injection E1 as <- <-.
    inv_bind H. apply lift_inv in E1. destruct E1 as [E1 ->]. destruct (two63 <=? v2) eqn:Em; [discriminate|]. inv_bind H. inv_bind H. injection H as <- <-.
    apply addi_inv in E. cbn [snd fst] in *. apply sub64_inv in E1. pose proof (new_len_bound nh atoms (NUdta (NewMeta nh atoms)) Hh ltac:(auto)) as NB.
    rewrite as_i64_small in E by lia. unfold plan_ok. cbn [pl_moov pl_update pl_start pl_moved_start pl_old_len pl_diff].
    split; [split; [exact Im|split; [exact It|rewrite Eu; exact Iu]]|]. split; [repeat constructor; assumption|]. lia.
Qed.

(** * Tables *)

Lemma read_many_inv : forall w rd f, (forall p v p', rd f p = Ok (v, p') -> p' = p + w /\ p + w <= blen f) ->
  forall k p l p', read_many k rd f p = Ok (l, p') -> List.length l = k /\ p' = p + w * N.of_nat k /\ (k = 0%nat \/ p' <= blen f).
Proof.
  intros w rd f R. induction k as [|k IH]; intros p l p' H; cbn [read_many] in H.
  - injection H as <- <-. split; [reflexivity|]. split; [lia|left; reflexivity].
  - inv_bind H. apply R in E. destruct E as [-> L]. inv_bind H. apply IH in E. destruct E as (Ll & -> & B). injection H as <- <-. cbn [List.length].
    split; [lia|]. split; [lia|]. right. lia.
Qed.
Lemma table_inv : forall w rd s f p t p', (forall p v p', rd f p = Ok (v, p') -> p' = p + w /\ p + w <= blen f) ->
  table_parse w rd Checked s f p = Ok (t, p') ->
  fst t = p + 8 /\ content_len Checked s = Ok (8 + w * N.of_nat (List.length (snd t))) /\ p + 8 + w * N.of_nat (List.length (snd t)) <= blen f.
Proof.
  intros w rd s f p t p' R H. unfold table_parse in H. inv_bind H. unfold parse_full_head in E. inv_bind E. unfold read_u8 in E0. inv_bind E0. injection E0 as <- <-.
  apply read_exact_inv in E1. destruct E1 as (-> & -> & _). inv_bind E. injection E as <- <-. apply read_exact_inv in E0. destruct E0 as (-> & -> & _).
  cbn [fst] in H. destruct (unbe (slice f p 1)) eqn:E1; [|discriminate]. inv_bind H. apply read_u32_inv in E. destruct E as (-> & -> & L). inv_bind H. apply lift_inv in E.
  destruct E as [E ->]. destruct (negb (8 + w * field f (p + 1 + 3) 4 =? v)) eqn:X; [discriminate|]. inv_bind H. injection E0 as <- <-. inv_bind H.
  injection H as <- <-. eapply read_many_inv in E0; [|exact R]. destruct E0 as (Ll & -> & B). cbn [fst snd]. rewrite Ll, N2Nat.id.
  split; [lia|]. split; [rewrite E; f_equal; lia|]. lia.
Qed.

(** * The writer *)

Definition same_elsewhere (f g : bytes) : Prop := forall p, ~ in_table f p -> nth_error g (N.to_nat p) = nth_error f (N.to_nat p).
Definition winv (f : bytes) (s : wst) : Prop :=
  (exists a b, stf f 0 a b s) /\ blen (w_file s) = blen f /\ same_elsewhere f (w_file s).
Definition aborted {A} (r : res A) : Prop := match r with Panic _ | Fuel => True | _ => False end.

Lemma winv_init : forall f, winv f (Wst f 0 [] []).
Proof. intro f. split; [exists [], f; apply st_init|]. split; [reflexivity|]. intros p _. reflexivity. Qed.

Lemma nth_mid : forall (a y b d : bytes) p, blen d = blen y -> ~ (blen a <= p < blen a + blen y) ->
  nth_error (a ++ d ++ b) (N.to_nat p) = nth_error (a ++ y ++ b) (N.to_nat p).
Proof.
  intros a y b d p L N. unfold blen in *. destruct (Nat.lt_ge_cases (N.to_nat p) (List.length a)) as [H|H].
  - rewrite !nth_error_app1 by exact H. reflexivity.
  - rewrite !(nth_error_app2 a) by exact H. rewrite !nth_error_app2 by lia. f_equal. lia.
Qed.

Definition width (wide : bool) : N := if wide then 8 else 4.
Lemma write_offsets_st : forall cap f lo wide diff l a y b s r s',
  st f lo a (y ++ b) s -> blen y = width wide * N.of_nat (List.length l) -> lo <= blen a ->
  write_offsets cap Checked wide diff l s = (r, s') ->
  aborted r \/ (r = Ok tt /\ exists d, blen d = blen y /\ st f lo (a ++ d) b s').
Proof.
  intros cap f lo wide diff. induction l as [|co l IH]; intros a y b s r s' S L Lo H; cbn [write_offsets] in H.
  - injection H as <- <-. right. split; [reflexivity|]. exists []. cbn [List.length] in L. assert (y = []) as -> by (apply blen_0; lia).
    rewrite app_nil_r. split; [reflexivity|exact S].
  - unfold wbind at 1, wlift at 1 in H. destruct (addi Checked (as_i64 co) diff) as [v| | |] eqn:Ev; [|unfold addi in Ev; destruct (in_i64 _); discriminate Ev|injection H as <- <-; left; exact I|injection H as <- <-; left; exact I].
    set (e := if wide then be64 (i_as_u64 v) else be32 (i_as_u32 v)) in *.
    assert (Le : blen e = width wide) by (unfold e, width; destruct wide; unfold be64, be32; rewrite blen_be; reflexivity).
    cbn [List.length] in L. assert (Y : exists y1 y2, y = y1 ++ y2 /\ blen y1 = width wide).
    { exists (firstn (N.to_nat (width wide)) y), (skipn (N.to_nat (width wide)) y). split; [symmetry; apply firstn_skipn|].
      unfold blen in *. rewrite firstn_length. lia. }
    destruct Y as (y1 & y2 & -> & Ly). rewrite <- app_assoc in S. destruct (tri_write f lo cap a (y2 ++ b) y1 e ltac:(lia) Lo s S) as (s1 & Ew & S1).
    unfold wbind at 1 in H. rewrite Ew in H. rewrite blen_app in L. eapply IH in H; [|exact S1|lia|rewrite blen_app; lia].
    destruct H as [H|(-> & d & Ld & S')]; [left; exact H|]. right. split; [reflexivity|]. exists (e ++ d). rewrite !blen_app. split; [lia|]. rewrite app_assoc. exact S'.
Qed.

Lemma adjust_table_inv : forall cap f (wide : bool) diff b id s r s', blen f < 2 ^ 62 -> winv f s -> found f id b -> id = (if wide then id4 "co64" else id4 "stco") ->
  adjust_table cap Checked wide diff b s = (r, s') -> aborted r \/ winv f s'.
Proof.
  intros cap f wide diff b id s r s' Lf ((a0 & b0 & S) & Ls & Sm) F Hid H. unfold adjust_table in H.
  unfold wbind at 1, wlift at 1 in H. destruct (content_pos Checked b) as [cp| | |] eqn:Ec; [|unfold content_pos, add64 in Ec; destruct (_ <? _); discriminate Ec|injection H as <- <-; left; exact I|injection H as <- <-; left; exact I].
  apply add64_inv in Ec. destruct Ec as [-> Lc]. pose proof (stf_file _ _ _ _ _ S) as Fs.
  unfold wbind at 1, w_read at 1 in H. destruct (b_pos b + head_len (b_size b) <? two63) eqn:E63; [|injection H as <- <-; right; split; [exists a0, b0; exact S|split; assumption]].
  destruct ((if wide then co64_parse Checked (b_size b) else stco_parse Checked (b_size b)) (w_file s) (b_pos b + head_len (b_size b))) as [[t q]| | |] eqn:Et;
    [|injection H as <- <-; right; split; [exists a0, b0; exact S|split; assumption]|injection H as <- <-; left; exact I|injection H as <- <-; left; exact I].
  assert (T : fst t = b_pos b + head_len (b_size b) + 8 /\ content_len Checked (b_size b) = Ok (8 + width wide * N.of_nat (List.length (snd t))) /\
              b_pos b + head_len (b_size b) + 8 + width wide * N.of_nat (List.length (snd t)) <= blen (w_file s)).
  { destruct wide.
    - eapply table_inv; [|exact Et]. intros p v p' R. apply read_u64_inv in R. destruct R as (-> & _ & R). unfold width. lia.
    - eapply table_inv; [|exact Et]. intros p v p' R. apply read_u32_inv in R. destruct R as (-> & _ & R). unfold width. lia. }
  destruct T as (T1 & T2 & T3). set (w := width wide * N.of_nat (List.length (snd t))) in *.
  assert (Cut : exists x y z, w_file s = x ++ y ++ z /\ blen x = fst t /\ blen y = w).
  { exists (firstn (N.to_nat (fst t)) (w_file s)), (firstn (N.to_nat w) (skipn (N.to_nat (fst t)) (w_file s))), (skipn (N.to_nat w) (skipn (N.to_nat (fst t)) (w_file s))).
    split; [rewrite firstn_skipn, firstn_skipn; reflexivity|]. unfold blen in *. rewrite !firstn_length, skipn_length. lia. }
  destruct Cut as (x & y & z & Ex & Lx & Ly).
  assert (T63 : two63 = 2 ^ 63) by reflexivity. change (2 ^ 63) with 9223372036854775808 in T63. change (2 ^ 62) with 4611686018427387904 in Lf.
  destruct (tri_seek f 0 (fst t) a0 b0 x (y ++ z) ltac:(rewrite <- Fs; exact Ex) (eq_sym Lx) ltac:(lia) s (proj1 S)) as (s1 & Es & S1).
  unfold wbind at 1 in H. rewrite Es in H. unfold wbind at 1 in H. destruct (write_offsets cap Checked wide diff (snd t) s1) as [r2 s2] eqn:Ew.
  eapply write_offsets_st in Ew; [|apply S1|exact Ly|lia]. destruct Ew as [Ab|(-> & d & Ld & S2)].
  - left. destruct r2; try contradiction; injection H as <- <-; exact I.
  - destruct (tri_flush f 0 (x ++ d) z s2 S2) as (s3 & Ef & S3). rewrite Ef in H. injection H as <- <-. right.
    pose proof (stf_file _ _ _ _ _ S3) as F3. rewrite <- app_assoc in F3. split; [exists (x ++ d), z; exact S3|]. split.
    + rewrite F3. rewrite Ex in Ls. rewrite !blen_app in *. lia.
    + intros p Np. rewrite F3. rewrite <- (Sm p Np), Ex. apply nth_mid; [exact Ld|]. intro R. apply Np.
      exists (b_pos b), id, (head_len (b_size b)), (sz_len (b_size b)). split; [exact F|]. split; [destruct wide; auto|].
      assert (Sz : b_pos b + sz_len (b_size b) = b_pos b + head_len (b_size b) + 8 + w).
      { unfold content_len, head_len in *. destruct (sz_ext (b_size b)); apply sub64_inv in T2; lia. }
      rewrite Sz. lia.
Qed.
Lemma adjust_traks_inv : forall cap f diff l s r s', blen f < 2 ^ 62 -> winv f s -> Forall (trak_found f) l ->
  adjust_traks cap Checked diff l s = (r, s') -> aborted r \/ winv f s'.
Proof.
  intros cap f diff. induction l as [|t l IH]; intros s r s' Lf W F H; cbn [adjust_traks] in H.
  - injection H as <- <-. right. exact W.
  - inversion F as [|? ? Ft Fl]; subst. unfold trak_found in Ft.
    assert (X : forall r1 s1, match trak_stbl t with Some sb => adjust_stbl cap Checked diff sb | None => wret tt end s = (r1, s1) -> aborted r1 \/ winv f s1).
    { intros r1 s1 X. destruct (trak_stbl t) as [sb|]; [|injection X as <- <-; right; exact W]. destruct (Ft sb eq_refl) as [F1 F2].
      unfold adjust_stbl in X. unfold wbind at 1 in X.
      assert (Y : forall r2 s2, match sb_stco sb with Some b => adjust_table cap Checked false diff b | None => wret tt end s = (r2, s2) -> aborted r2 \/ winv f s2).
      { intros r2 s2 Y. destruct (sb_stco sb) as [b|]; [|injection Y as <- <-; right; exact W]. eapply (adjust_table_inv cap f false); [exact Lf|exact W|apply F1; reflexivity|reflexivity|exact Y]. }
      destruct (match sb_stco sb with Some b => adjust_table cap Checked false diff b | None => wret tt end s) as [r2 s2]. specialize (Y r2 s2 eq_refl).
      destruct r2; try (injection X as <- <-; exact Y). destruct Y as [[]|Y].
      destruct (sb_co64 sb) as [b|]; [|injection X as <- <-; right; exact Y]. eapply (adjust_table_inv cap f true); [exact Lf|exact Y|apply F2; reflexivity|reflexivity|exact X]. }
    unfold wbind at 1 in H. destruct (match trak_stbl t with Some sb => adjust_stbl cap Checked diff sb | None => wret tt end s) as [r1 s1]. specialize (X r1 s1 eq_refl).
    destruct r1; try (injection H as <- <-; exact X). destruct X as [[]|X]. eapply IH; eassumption.
Qed.

(** * The rest of the write does not fail *)

(** Producers do not fail. *)
Definition calm {A} (o : Out A) : Prop := forall e, snd o <> Err e.
Lemma calm_emit : forall b, calm (emit b). Proof. intros b e. discriminate. Qed.
Lemma calm_ret : forall {A} (a : A), calm (oret a). Proof. intros A a e. discriminate. Qed.
Lemma calm_bind : forall {A B} (x : Out A) (k : A -> Out B), calm x -> (forall a, calm (k a)) -> calm (obind x k).
Proof. intros A B x k X K e. unfold obind. destruct (snd x) as [a|e'| |] eqn:E; cbn [snd]; try discriminate; [apply K|]. specialize (X e'). contradiction. Qed.
Lemma calm_omap : forall {A} (g : A -> Out unit) l, (forall a, calm (g a)) -> calm (omap g l).
Proof. intros A g l H. induction l as [|a l IH]; cbn [omap]; [apply calm_ret|]. apply calm_bind; auto. Qed.
Lemma calm_add32 : forall m a b, calm (olift (add32 m a b)).
Proof. intros m a b e. unfold olift, add32. cbn [snd]. destruct (_ <? _); [discriminate|]. destruct m; discriminate. Qed.
Ltac calm := repeat (first [apply calm_emit | apply calm_ret | apply calm_add32 | apply calm_omap; intro | apply calm_bind; [|intro]]).
Lemma calm_head : forall s id, calm (write_head s id). Proof. intros s id. unfold write_head. destruct (sz_ext s); calm. Qed.
Lemma calm_item : forall m a, calm (ad_write m a).
Proof.
  intros m a. unfold ad_write. calm; [destruct (ad_ident a); calm|].
  unfold write_typed. calm. unfold write_raw. destruct a2; calm.
Qed.
Lemma calm_ilst : forall m l, calm (ilst_write m l). Proof. intros m l. unfold ilst_write. apply calm_bind; [apply calm_head|]. intro. apply calm_omap. apply calm_item. Qed.
Lemma calm_hdlr : forall h, calm (match h with Some b => hdlr_write b | None => oret tt end).
Proof. intros [b|]; [|apply calm_ret]. unfold hdlr_write. apply calm_bind; [apply calm_head|]. intro. apply calm_emit. Qed.
Lemma calm_meta : forall m x, calm (meta_write m x).
Proof.
  intros m x. unfold meta_write. apply calm_bind; [apply calm_head|]. intro. apply calm_bind; [unfold write_full_head; calm|]. intro.
  apply calm_bind; [apply calm_hdlr|]. intro. apply calm_ilst.
Qed.
Lemma calm_new : forall m n, calm (new_atoms_write m n).
Proof.
  intros m [x|x|h l]; unfold new_atoms_write; [|apply calm_meta|].
  - unfold udta_write. apply calm_bind; [apply calm_head|]. intro. apply calm_meta.
  - apply calm_bind; [apply calm_hdlr|]. intro. apply calm_ilst.
Qed.

(** The logical cursor. *)
Definition lc (s : wst) : N := w_cur s + blen (w_buf s).
Definition safe {A} (P : wst -> Prop) (c : W A) (Q : wst -> Prop) : Prop :=
  forall s r s', P s -> c s = (r, s') -> aborted r \/ ((exists a, r = Ok a) /\ Q s').
Definition any (s : wst) : Prop := True.
Lemma safe_bind : forall {A B} P Q R (c : W A) (k : A -> W B), safe P c Q -> (forall a, safe Q (k a) R) -> safe P (wbind c k) R.
Proof.
  intros A B P Q R c k C K s r s' HP H. unfold wbind in H. destruct (c s) as [r1 s1] eqn:E. destruct (C s r1 s1 HP E) as [X|[[a ->] X]].
  - left. destruct r1; try contradiction; injection H as <- <-; exact I.
  - eapply K; eassumption.
Qed.
Lemma safe_lift : forall {A} P (r : res A), (forall e, r <> Err e) -> safe P (wlift r) P.
Proof. intros A P r N s r' s' HP H. injection H as <- <-. destruct r; [right; eauto|specialize (N e); contradiction|left; exact I|left; exact I]. Qed.
Lemma safe_ret : forall {A} P (a : A), safe P (wret a) P.
Proof. intros A P a s r s' HP H. injection H as <- <-. right. eauto. Qed.
Lemma addi_calm : forall m a b e, addi m a b <> Err e. Proof. intros m a b e. unfold addi. destruct (in_i64 _), m; discriminate. Qed.

Lemma flush_lc : forall s, exists s', bw_flush s = (Ok tt, s') /\ w_cur s' = lc s /\ w_buf s' = [].
Proof.
  intro s. unfold bw_flush, os_write, lc. destruct (w_buf s) as [|x l] eqn:E; eexists; (split; [reflexivity|]); cbn [w_cur w_buf]; [|auto].
  rewrite blen_nil. split; [lia|reflexivity].
Qed.
Lemma write_lc : forall cap d s, exists s', bw_write cap d s = (Ok tt, s') /\ lc s' = lc s + blen d.
Proof.
  intros cap d s. unfold bw_write.
  assert (X : lc (if cap <? blen (w_buf s) + blen d then snd (bw_flush s) else s) = lc s /\ (cap <= blen d -> d <> [] -> w_buf (if cap <? blen (w_buf s) + blen d then snd (bw_flush s) else s) = [])).
  { destruct (flush_lc s) as (s1 & E & C & B). destruct (cap <? blen (w_buf s) + blen d) eqn:Ec.
    - rewrite E. cbn [snd]. unfold lc in *. rewrite B, C, blen_nil. split; [lia|reflexivity].
    - split; [reflexivity|]. intros L _. apply blen_0. lia. }
  destruct X as [X1 X2]. set (t := if cap <? blen (w_buf s) + blen d then snd (bw_flush s) else s) in *. clearbody t. destruct (cap <=? blen d) eqn:Ec.
  - unfold os_write. destruct d as [|x l].
    + exists t. split; [reflexivity|]. rewrite blen_nil. lia.
    + eexists. split; [reflexivity|]. unfold lc in *. cbn [w_cur w_buf]. rewrite X2 in * by (lia || discriminate). rewrite blen_nil in *. lia.
  - eexists. split; [reflexivity|]. unfold lc in *. cbn [w_cur w_buf]. rewrite blen_app. lia.
Qed.
Lemma safe_write : forall cap d c, safe (fun s => lc s = c) (bw_write cap d) (fun s => lc s = c + blen d).
Proof. intros cap d c s r s' P H. destruct (write_lc cap d s) as (s1 & E & L). rewrite E in H. injection H as <- <-. right. split; [eauto|lia]. Qed.
Lemma safe_write_any : forall cap d, safe any (bw_write cap d) any.
Proof. intros cap d s r s' P H. destruct (write_lc cap d s) as (s1 & E & L). rewrite E in H. injection H as <- <-. right. split; [eauto|exact I]. Qed.
Lemma safe_seek : forall q P, q < two63 -> safe P (bw_seek_start q) (fun s => lc s = q).
Proof.
  intros q P L s r s' _ H. destruct (flush_lc s) as (s1 & E & C & B). unfold bw_seek_start, wbind in H. rewrite E in H. rewrite (proj2 (N.ltb_lt _ _) L) in H.
  injection H as <- <-. right. split; [eauto|]. unfold lc. cbn [w_cur w_buf]. rewrite B, blen_nil. lia.
Qed.
Lemma safe_seek_cur : forall d c, (0 <= Z.of_N c + d < 2 ^ 63)%Z -> safe (fun s => lc s = c) (bw_seek_cur d) any.
Proof.
  intros d c L s r s' P H. destruct (flush_lc s) as (s1 & E & C & B). unfold bw_seek_cur, wbind in H. rewrite E in H. cbv beta zeta in H. rewrite C, P in H.
  change (Z.of_N two63) with (2 ^ 63)%Z in H. destruct ((0 <=? Z.of_N c + d) && (Z.of_N c + d <? 2 ^ 63))%Z eqn:X; [|lia]. injection H as <- <-. right. split; [eauto|exact I].
Qed.
Lemma safe_weak : forall {A} (P P' Q Q' : wst -> Prop) (c : W A), safe P c Q -> (forall s, P' s -> P s) -> (forall s, Q s -> Q' s) -> safe P' c Q'.
Proof. intros A P P' Q Q' c C H1 H2 s r s' HP E. destruct (C s r s' (H1 s HP) E) as [X|[X Y]]; [left; exact X|right; auto]. Qed.
Lemma safe_update : forall cap f diff b, blen f < 2 ^ 62 -> inside f b -> safe any (update_atom cap Checked diff b) any.
Proof.
  intros cap f diff b L B. unfold update_atom. unfold inside in B. assert (8 <= head_len (b_size b)) by (unfold head_len; destruct (sz_ext _); lia).
  assert (T63 : two63 = 9223372036854775808) by reflexivity. change (2 ^ 62) with 4611686018427387904 in L.
  eapply safe_bind; [apply safe_lift, addi_calm|]. intro n. eapply safe_bind; [apply safe_seek; lia|]. intros _. destruct (sz_ext (b_size b)).
  - eapply safe_bind; [apply safe_write|]. intros _. eapply safe_bind; [apply safe_seek_cur|intros _; apply safe_write_any].
    unfold be32. rewrite blen_be. change (2 ^ 63)%Z with 9223372036854775808%Z. lia.
  - eapply safe_weak; [apply safe_write_any|intros; exact I|intros; exact I].
Qed.
Lemma safe_update_all : forall cap f diff l, blen f < 2 ^ 62 -> Forall (inside f) l -> safe any (update_all cap Checked diff l) any.
Proof.
  intros cap f diff l L F. induction F as [|b l B F IH]; cbn [update_all]; [apply safe_ret|]. eapply safe_bind; [eapply safe_update; eassumption|intros _; exact IH].
Qed.
Lemma safe_chunks : forall cap l, safe any (bw_chunks cap l) any.
Proof. intros cap l. induction l as [|d l IH]; cbn [bw_chunks]; [apply safe_ret|]. eapply safe_bind; [apply safe_write_any|intros _; exact IH]. Qed.
Lemma safe_out : forall {A} cap (o : Out A), calm o -> safe any (bw_out cap o) any.
Proof. intros A cap o C. unfold bw_out. eapply safe_bind; [apply safe_chunks|]. intros _. apply safe_lift, C. Qed.
Lemma safe_set_len : forall n, n < two63 -> safe any (file_set_len n) any.
Proof. intros n L s r s' _ H. unfold file_set_len in H. rewrite (proj2 (N.ltb_lt _ _) L) in H. injection H as <- <-. right. split; [eauto|exact I]. Qed.
Lemma safe_flush : safe any bw_flush any.
Proof. intros s r s' _ H. destruct (flush_lc s) as (s1 & E & _). rewrite E in H. injection H as <- <-. right. split; [eauto|exact I]. Qed.
Lemma i_as_u64_small : forall z, (0 <= z < 2 ^ 63)%Z -> i_as_u64 z < two63.
Proof. intros z L. unfold i_as_u64. rewrite Z.mod_small by (change (Z.of_N two64) with (2 ^ 64)%Z; lia). change two63 with (Z.to_N (2 ^ 63)). lia. Qed.

Lemma addi_ok : forall P a b (k : Z -> W unit) Q, ((a + b)%Z = (a + b)%Z -> safe P (k (a + b)%Z) Q) -> safe P (wbind (wlift (addi Checked a b)) k) Q.
Proof.
  intros P a b k Q H s r s' HP E. unfold wbind, wlift in E. destruct (addi Checked a b) as [v|e| |] eqn:X.
  - apply addi_inv in X. subst v. eapply H; eauto.
  - exfalso. eapply addi_calm, X.
  - injection E as <- <-. left. exact I.
  - injection E as <- <-. left. exact I.
Qed.

(** The modifications behind the tables. *)
Lemma safe_rest : forall cap f p, blen f < 2 ^ 62 -> plan_ok f p -> safe any
  (update_all cap Checked (pl_diff p) (pl_update p) =;;
   (n <== wlift (addi Checked (as_i64 (pl_old_len p)) (pl_diff p)) ;; file_set_len (i_as_u64 n)) =;;
   bw_seek_start (pl_start p) =;; bw_out cap (new_atoms_write Checked (pl_new p)) =;;
   (q <== wlift (addi Checked (as_i64 (pl_moved_start p)) (pl_diff p)) ;; bw_seek_start (i_as_u64 q)) =;;
   bw_write cap (pl_moved p) =;; bw_flush) any.
Proof.
  intros cap f p L (_ & U & S1 & S2 & O & D1 & D2). assert (T63 : two63 = 9223372036854775808) by reflexivity.
  assert (L' : blen f < 4611686018427387904) by exact L.
  eapply safe_bind; [eapply safe_update_all; eassumption|]. intros _. eapply safe_bind.
  { apply addi_ok. intros _. rewrite as_i64_small by lia. apply safe_set_len, i_as_u64_small, D1. }
  intros _. eapply safe_bind; [apply safe_seek; lia|]. intros _. eapply safe_bind; [eapply safe_weak; [apply safe_out, calm_new|intros; exact I|intros s H; exact H]|]. intros _.
  eapply safe_bind. { apply addi_ok. intros _. rewrite as_i64_small by lia. apply safe_seek, i_as_u64_small, D2. }
  intros _. eapply safe_bind; [eapply safe_weak; [apply safe_write_any|intros; exact I|intros s H; exact H]|]. intros _. apply safe_flush.
Qed.

Theorem failed_write : forall cap fuel items f pos e, blen f < 2 ^ 62 -> announced items < 2 ^ 61 ->
  wr_res (write_tag_to cap fuel Checked items f pos) = Err e ->
  let g := wr_file (write_tag_to cap fuel Checked items f pos) in blen g = blen f /\ same_elsewhere f g.
Proof.
  intros cap fuel items f pos e L La H. cbv zeta. unfold write_tag_to in *. destruct (prepare fuel Checked items f pos) as [[p q]| | |] eqn:P; try discriminate H.
  2: { cbn [wr_file]. split; [reflexivity|]. intros x _. reflexivity. }
  pose proof (prepare_inv fuel items f pos p q L La P) as Pl. destruct (execute cap Checked p (Wst f 0 [] [])) as [r s] eqn:E.
  assert (W : winv f s).
  { unfold execute in E. unfold wbind at 1 in E. destruct ((if b_pos (vb_bounds (pl_moov p)) <? pl_mdat_pos p then adjust_traks cap Checked (pl_diff p) (vb_trak (pl_moov p)) else wret tt) (Wst f 0 [] [])) as [r1 s1] eqn:E1.
    assert (X : aborted r1 \/ winv f s1).
    { destruct (_ <? _) in E1; [|injection E1 as <- <-; right; apply winv_init]. eapply adjust_traks_inv; [exact L|apply winv_init|apply Pl|exact E1]. }
    destruct (bw_flush s) as [rf sf]. cbn [wr_res] in H. subst r. destruct r1 as [u|e1| |]; try discriminate E.
    - exfalso. destruct (safe_rest cap f p L Pl s1 (Err e) s I E) as [[]|[[a X2] _]]. discriminate X2.
    - injection E as _ <-. destruct X as [[]|X]. exact X. }
  destruct W as ((a & b & S) & Lg & Sm). destruct S as [S B]. unfold bw_flush, os_write. rewrite B. cbn [wr_file w_file]. split; assumption.
Qed.
Print Assumptions failed_write.
