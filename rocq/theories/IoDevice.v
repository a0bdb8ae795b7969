(** Facts about all trees of operations: failing devices, memory, and the two build profiles. *)

From Coq Require Import List NArith ZArith Bool Lia Arith.
From Coq Require Import ZifyBool ZifyNat ZifyN.
From Verif Require Import Base BaseLemmas Utf Types Stream Parse Find Write Fault ReadIO IoProofs IoCost.
Import ListNotations.

(** * Devices *)

Definition broken (e : event) : bool := match e with Broken _ => true | _ => false end.
Definition plain {A} (r : res (A * N)) : res A :=
  match r with Ok (a, _) => Ok a | Err e => Err e | Panic p => Panic p | Fuel => Fuel end.

Lemma dev_read_used : forall ev n, exists used, ev = used ++ fst (dev_read ev n) /\ snd (dev_read ev n) = negb (existsb broken used).
Proof.
  induction ev as [|e ev IH]; intro n; cbn [dev_read].
  - exists []. destruct (n =? 0); split; reflexivity.
  - destruct (n =? 0); [exists []; split; reflexivity|]. destruct e as [c|j| |c].
    + exists [Fine c]. split; reflexivity.
    + destruct (IH (n - N.of_nat (S j))) as (u & E & O). exists (Short j :: u). split; [cbn [app]; congruence|exact O].
    + destruct (IH n) as (u & E & O). exists (Again :: u). split; [cbn [app]; congruence|exact O].
    + exists [Broken c]. split; reflexivity.
Qed.
Lemma dev_op_used : forall o ev, exists used, ev = used ++ fst (dev_op o ev) /\ snd (dev_op o ev) = negb (existsb broken used).
Proof.
  intros o ev. assert (S : exists used, ev = used ++ fst (dev_seek ev) /\ snd (dev_seek ev) = negb (existsb broken used)).
  { destruct ev as [|e ev]; [exists []; split; reflexivity|]. exists [e]. destruct e; split; reflexivity. }
  destruct o; cbn [dev_op]; auto using dev_read_used.
Qed.

Theorem dev_run_used : forall {A} (x : IO A) ev f p,
  exists used, ev = used ++ snd (dev_run x ev f p) /\
    fst (dev_run x ev f p) = if existsb broken used then DeviceError else Done (plain (run x f p)).
Proof.
  intros A x. induction x as [r|o k IH]; intros ev f p; cbn [dev_run run].
  - exists []. split; [reflexivity|]. destruct r; reflexivity.
  - destruct (dev_op_used o ev) as (u & E & O). destruct (dev_op o ev) as [ev' ok]. cbn [fst snd] in E, O.
    assert (X : forall (d : outcome A * list event), (exists u2, ev' = u2 ++ snd d /\
                 fst d = if existsb broken u2 then DeviceError else Done (plain (match perform o f p with Ok (a, q) => run (k a) f q | Err e => Err e | Panic q => Panic q | Fuel => Fuel end))) ->
              let d' := if ok then d else (DeviceError, ev') in
              exists u2, ev = u2 ++ snd d' /\
                 fst d' = if existsb broken u2 then DeviceError else Done (plain (match perform o f p with Ok (a, q) => run (k a) f q | Err e => Err e | Panic q => Panic q | Fuel => Fuel end))).
    { intros d (u2 & E2 & D2). destruct ok; cbn zeta.
      - exists (u ++ u2). split; [rewrite <- app_assoc, <- E2; exact E|]. rewrite existsb_app. destruct (existsb broken u); [discriminate|]. exact D2.
      - exists u. split; [exact E|]. destruct (existsb broken u); [reflexivity|discriminate]. }
    destruct (perform o f p) as [[a q]|e|q|].
    + specialize (X _ (IH a ev' f q)). destruct ok; exact X.
    + specialize (X (Done (Err e), ev')). destruct ok; apply X; exists []; split; reflexivity.
    + exists []. split; reflexivity.
    + specialize (X (Done Fuel, ev')). destruct ok; apply X; exists []; split; reflexivity.
Qed.

(** The operations that need the device: a read of no bytes does not, nor does an allocation that panics. *)
Definition touches (o : io_op) : bool :=
  match o with
  | ORead n => negb (n =? 0)
  | OReadVec n => negb (n =? 0) && (n <? two63)
  | _ => true
  end.
Definition all_or_nothing (l : list bool) : list event := map (fun b : bool => if b then Broken 0 else Fine 0) l.

Lemma dev_op_plan : forall o l, touches o = true ->
  dev_op o (all_or_nothing l) = (all_or_nothing (tl l), negb (hd false l)).
Proof.
  intros o l T. destruct o; cbn [dev_op touches] in *; destruct l as [|[] l]; cbn; try reflexivity; destruct (N.eqb_spec n 0); try discriminate; reflexivity.
Qed.
Lemma perform_untouched : forall o f p, touches o = false ->
  (exists q, perform o f p = Panic q) \/ (forall ev, dev_op o ev = (ev, true)).
Proof.
  intros o f p T. destruct o; try discriminate; cbn [touches perform] in *.
  - right. intro ev. cbn. destruct ev; cbn; destruct (N.eqb_spec n 0); try discriminate; reflexivity.
  - destruct (N.leb_spec two63 n) as [L|L]; [left; eexists; reflexivity|]. right. intro ev. cbn. destruct ev; cbn; destruct (N.eqb_spec n 0); try reflexivity; lia.
Qed.
Lemma panic_untouched : forall o f p q, perform o f p = Panic q -> touches o = false.
Proof.
  intros o f p q. destruct o; cbn; unfold read_exact, seek_cur, seek_start, position, seek_end; try discriminate.
  - destruct (_ =? _); [discriminate|]. destruct (_ <=? _); discriminate.
  - destruct (N.leb_spec two63 n); [intros _; rewrite (proj2 (N.ltb_ge _ _)) by lia; now rewrite andb_false_r|].
    destruct (_ =? _); [discriminate|]. destruct (_ <=? _); discriminate.
  - destruct (_ && _)%bool; discriminate.
  - destruct (_ <? _); discriminate.
Qed.
Theorem dev_run_plan : forall {A} (x : IO A) l f p,
  fst (dev_run x (all_or_nothing l) f p) =
  if existsb (fun b => b) (firstn (length (filter touches (asked x f p))) l) then DeviceError else Done (plain (run x f p)).
Proof.
  intros A x. induction x as [r|o k IH]; intros l f p; cbn [dev_run run asked].
  - cbn. destruct r; reflexivity.
  - cbn [filter]. destruct (touches o) eqn:T.
    + rewrite (dev_op_plan o l T). destruct (perform o f p) as [[a q]|e|q|] eqn:P.
      * destruct l as [|[] l]; cbn [hd tl negb]; cbn [length firstn existsb orb]; [|reflexivity|].
        { change (@nil bool) with (tl (@nil bool)) at 1. cbn [tl]. rewrite (IH a [] f q). now rewrite !firstn_nil. }
        { apply IH. }
      * destruct l as [|[] l]; reflexivity.
      * apply panic_untouched in P. congruence.
      * destruct l as [|[] l]; reflexivity.
    + destruct (perform_untouched o f p T) as [[q ->]|U]; [reflexivity|]. rewrite U.
      destruct (perform o f p) as [[a q]|e|q|]; [apply IH|reflexivity|reflexivity|reflexivity].
Qed.

(** * Memory *)

Lemma vec_ok : forall n f p a q, perform (OReadVec n) f p = Ok (a, q) -> n <= blen f.
Proof.
  intros n f p a q. cbn. destruct (two63 <=? n); [discriminate|]. unfold read_exact. destruct (N.eqb_spec n 0); [lia|].
  destruct (N.leb_spec (p + n) (blen f)); [lia|discriminate].
Qed.
Lemma vec_fails : forall n f p, (forall a q, perform (OReadVec n) f p <> Ok (a, q)) ->
  perform (OReadVec n) f p = Err EIoEof \/ perform (OReadVec n) f p = Panic PCapacity.
Proof.
  intros n f p H. cbn in *. destruct (two63 <=? n); [auto|]. unfold read_exact in *. destruct (N.eqb_spec n 0); [|].
  - exfalso. eapply H; reflexivity.
  - destruct (p + n <=? blen f); [exfalso; eapply H; reflexivity|auto].
Qed.
(** All requests fit the file, or all but the last one do and the program ends there. *)
Theorem vecs_fit : forall {A} (x : IO A) f p,
  Forall (fun n => n <= blen f) (vecs (asked x f p)) \/
  exists l n, vecs (asked x f p) = l ++ [n] /\ Forall (fun k => k <= blen f) l /\ blen f < n /\
    (run x f p = Err EIoEof \/ run x f p = Panic PCapacity).
Proof.
  intros A x f. induction x as [r|o k IH]; intros p; cbn [asked run]; [left; constructor|].
  assert (G : (forall n, o <> OReadVec n) -> vecs (o :: match perform o f p with Ok (a, q) => asked (k a) f q | _ => [] end)
              = vecs match perform o f p with Ok (a, q) => asked (k a) f q | _ => [] end).
  { intros H. destruct o; try reflexivity. now destruct (H n). }
  destruct o as [n|n| |d|s|]; try (rewrite G by discriminate; destruct (perform _ f p) as [[a q]| | |]; [apply IH|left; constructor..]).
  clear G. cbn [vecs]. destruct (perform (OReadVec n) f p) as [[a q]|e|q|] eqn:P.
  - pose proof (vec_ok _ _ _ _ _ P) as L. destruct (IH a q) as [F|(l & n' & E & F & G & R)].
    + left. now constructor.
    + right. exists (n :: l), n'. rewrite E. repeat split; auto.
  - destruct (N.le_gt_cases n (blen f)) as [L|L]; [left; repeat constructor; exact L|].
    right. exists [], n. repeat split; auto. assert (V := vec_fails n f p). rewrite P in V. destruct V as [X|X]; [discriminate|injection X as ->; auto|discriminate X].
  - destruct (N.le_gt_cases n (blen f)) as [L|L]; [left; repeat constructor; exact L|].
    right. exists [], n. repeat split; auto. assert (V := vec_fails n f p). rewrite P in V. destruct V as [X|X]; [discriminate|discriminate X|injection X as ->; auto].
  - assert (V := vec_fails n f p). rewrite P in V. destruct V as [X|X]; [discriminate|discriminate X|discriminate X].
Qed.
Definition total (l : list N) : N := fold_right N.add 0 l.
Lemma total_app : forall a b, total (a ++ b) = total a + total b.
Proof. unfold total. induction a as [|x a IH]; intro b; cbn; [lia|]. rewrite IH. lia. Qed.
(** What is requested is filled, except possibly for the last request. *)
Theorem vecs_total : forall {A} (x : IO A) f p,
  exists l r, vecs (asked x f p) = l ++ r /\ (length r <= 1)%nat /\ total l <= work x f p /\
    (forall v, run x f p = Ok v -> r = []).
Proof.
  intros A x f. induction x as [r|o k IH]; intros p; cbn [asked run work].
  - exists [], []. repeat split; cbn; try lia. 
  - destruct (perform o f p) as [[a q]|e|q|] eqn:P.
    + destruct (IH a q) as (l & r & E & L & T & R). destruct o as [n|n| |d|s|]; cbn [vecs op_bytes].
      2: { exists (n :: l), r. rewrite E. repeat split; auto. cbn. unfold total in T. lia. }
      all: exists l, r; repeat split; auto; lia.
    + destruct o; cbn [vecs]; [exists [], []|exists [], [n]|exists [], []..]; repeat split; cbn; try lia; discriminate.
    + destruct o; cbn [vecs]; [exists [], []|exists [], [n]|exists [], []..]; repeat split; cbn; try lia; discriminate.
    + destruct o; cbn [vecs]; [exists [], []|exists [], [n]|exists [], []..]; repeat split; cbn; try lia; discriminate.
Qed.

(** * The two build profiles ask for the same *)

(** [y] does what [x] does unless [x] panics because of an overflow. *)
Definition ag {A} (x y : IO A) : Prop :=
  forall f p, run x f p = Panic POverflow \/ (run y f p = run x f p /\ asked y f p = asked x f p).
Lemma ag_bind : forall {A B} (x y : IO A) (k k' : A -> IO B), ag x y -> (forall a, ag (k a) (k' a)) -> ag (io_bind x k) (io_bind y k').
Proof.
  intros A B x y k k' H K f p. rewrite !run_bind, !asked_bind. destruct (H f p) as [E|[E1 E2]].
  - rewrite E. now left.
  - rewrite E1, E2. destruct (run x f p) as [[a q]| | |]; auto. destruct (K a f q) as [E|[E3 E4]]; auto. rewrite E3, E4. auto.
Qed.
Lemma ag_refl : forall {A} (x : IO A), ag x x. Proof. intros A x f p. auto. Qed.
Lemma ag_lift : forall {A} (r r' : res A), r = Panic POverflow \/ r' = r -> ag (io_lift r) (io_lift r').
Proof. intros A r r' [->| ->] f p; [left; reflexivity|right; auto]. Qed.
Lemma m_add : forall a b, add64 Checked a b = Panic POverflow \/ add64 Wrapping a b = add64 Checked a b.
Proof. intros. unfold add64. destruct (_ <? _); auto. Qed.
Lemma m_sub : forall a b, sub64 Checked a b = Panic POverflow \/ sub64 Wrapping a b = sub64 Checked a b.
Proof. intros. unfold sub64. destruct (_ <=? _); auto. Qed.
Lemma m_len : forall s, content_len Checked s = Panic POverflow \/ content_len Wrapping s = content_len Checked s.
Proof. intros. unfold content_len. destruct (sz_ext s); apply m_sub. Qed.
Lemma m_end : forall s, bounds_end Checked s = Panic POverflow \/ bounds_end Wrapping s = bounds_end Checked s.
Proof. intros. apply m_add. Qed.
Lemma m_nanos : forall a b, mvhd_nanos Checked a b = Panic POverflow \/ mvhd_nanos Wrapping a b = mvhd_nanos Checked a b.
Proof. intros. unfold mvhd_nanos, mul64, rbind. destruct (_ <? _); auto. Qed.
Lemma ag_loop : forall {S} (l l' : res N) (b b' : head -> S -> IO S),
  (l = Panic POverflow \/ l' = l) -> (forall h s, ag (b h s) (b' h s)) ->
  forall fuel parsed s, ag (io_atom_loop fuel Checked l b parsed s) (io_atom_loop fuel Wrapping l' b' parsed s).
Proof.
  intros S l l' b b' L H. induction fuel as [|fuel IH]; intros; cbn [io_atom_loop]; [apply ag_refl|].
  apply ag_bind; [now apply ag_lift|]. intro n. destruct (parsed <? n); [|apply ag_refl].
  apply ag_bind; [apply ag_refl|]. intro h. apply ag_bind; [apply H|]. intro s'.
  apply ag_bind; [apply ag_lift, m_add|]. intro n'. apply IH.
Qed.
Lemma ag_desc_loop : forall {S} len (b b' : N -> N -> S -> IO S), (forall t n s, ag (b t n s) (b' t n s)) ->
  forall fuel parsed s, ag (io_desc_loop fuel Checked len b parsed s) (io_desc_loop fuel Wrapping len b' parsed s).
Proof.
  intros S len b b' H. induction fuel as [|fuel IH]; intros; cbn [io_desc_loop]; [apply ag_refl|].
  destruct (parsed <? len); [|apply ag_refl]. apply ag_bind; [apply ag_refl|]. intros [[t hl] dl].
  apply ag_bind; [apply H|]. intro s'. apply ag_bind; [apply ag_lift, m_add|]. intro. apply ag_bind; [apply ag_lift, m_add|]. intro. apply IH.
Qed.

Create HintDb ag.
#[local] Hint Resolve m_add m_sub m_len m_end m_nanos : ag.
Ltac ags :=
  repeat match goal with
  | |- ag ?x ?x => apply ag_refl
  | |- ag (io_bind _ _) (io_bind _ _) => apply ag_bind; [|intro]
  | |- ag (io_lift _) (io_lift _) => apply ag_lift; solve [auto with ag]
  | |- ag (if ?b then _ else _) _ => destruct b
  | |- ag (io_atom_loop _ _ _ _ _ _) _ => apply ag_loop; [solve [auto with ag]|intros]
  | |- ag (io_desc_loop _ _ _ _ _ _) _ => apply ag_desc_loop; intros
  | |- ag (match ?x with _ => _ end) _ => destruct x
  | |- ag _ _ => solve [auto with ag]
  end.
Lemma a_skip : forall h, ag (io_skip_atom Checked h) (io_skip_atom Wrapping h). Proof. intros. unfold io_skip_atom. ags. Qed.
Lemma a_bounds : forall s, ag (io_find_bounds Checked s) (io_find_bounds Wrapping s). Proof. intros. unfold io_find_bounds. ags. Qed.
Lemma a_to_end : forall s, ag (io_seek_to_end Checked s) (io_seek_to_end Wrapping s). Proof. intros. unfold io_seek_to_end. ags. Qed.
Lemma a_rest : ag (io_remaining_stream_len Checked) (io_remaining_stream_len Wrapping). Proof. unfold io_remaining_stream_len. ags. Qed.
Lemma a_ftyp : ag (io_ftyp_parse Checked) (io_ftyp_parse Wrapping). Proof. unfold io_ftyp_parse. ags. Qed.
#[local] Hint Resolve a_skip a_bounds a_to_end a_rest a_ftyp : ag.
Lemma a_item : forall h a, ag (io_item_body Checked h a) (io_item_body Wrapping h a). Proof. intros. unfold io_item_body. ags. Qed.
#[local] Hint Resolve a_item : ag.
Lemma a_ad : forall n i l, ag (io_atom_data_parse n Checked i l) (io_atom_data_parse n Wrapping i l). Proof. intros. unfold io_atom_data_parse. ags. Qed.
#[local] Hint Resolve a_ad : ag.
Lemma a_ilst : forall n s, ag (io_ilst_parse n Checked s) (io_ilst_parse n Wrapping s). Proof. intros. unfold io_ilst_parse. ags. unfold io_ilst_body. ags. Qed.
#[local] Hint Resolve a_ilst : ag.
Lemma a_meta : forall n s, ag (io_meta_parse n Checked s) (io_meta_parse n Wrapping s). Proof. intros. unfold io_meta_parse. ags. unfold io_meta_body. ags. Qed.
#[local] Hint Resolve a_meta : ag.
Lemma a_udta : forall n s, ag (io_udta_parse n Checked s) (io_udta_parse n Wrapping s). Proof. intros. unfold io_udta_parse. ags. unfold io_udta_body. ags. Qed.
#[local] Hint Resolve a_udta : ag.
Lemma a_dc_body : forall t n i, ag (io_dc_body Checked t n i) (io_dc_body Wrapping t n i). Proof. intros. unfold io_dc_body, io_parse_ds_desc. ags. Qed.
#[local] Hint Resolve a_dc_body : ag.
Lemma a_es_body : forall k t n i, ag (io_es_body k Checked t n i) (io_es_body k Wrapping t n i).
Proof. intros. unfold io_es_body, io_parse_dc_desc. ags. Qed.
#[local] Hint Resolve a_es_body : ag.
Lemma a_mp4a : forall n s, ag (io_mp4a_parse n Checked s) (io_mp4a_parse n Wrapping s).
Proof. intros. unfold io_mp4a_parse, io_parse_esds, io_parse_es_desc. ags. Qed.
#[local] Hint Resolve a_mp4a : ag.
Lemma a_stsd : forall n s, ag (io_stsd_parse n Checked s) (io_stsd_parse n Wrapping s). Proof. intros. unfold io_stsd_parse. ags. unfold io_stsd_body. ags. Qed.
#[local] Hint Resolve a_stsd : ag.
Lemma a_stbl : forall n s, ag (io_stbl_parse n Checked s) (io_stbl_parse n Wrapping s). Proof. intros. unfold io_stbl_parse. ags. unfold io_stbl_body. ags. Qed.
#[local] Hint Resolve a_stbl : ag.
Lemma a_minf : forall n s, ag (io_minf_parse n Checked s) (io_minf_parse n Wrapping s). Proof. intros. unfold io_minf_parse. ags. unfold io_minf_body. ags. Qed.
#[local] Hint Resolve a_minf : ag.
Lemma a_mdia : forall n s, ag (io_mdia_parse n Checked s) (io_mdia_parse n Wrapping s). Proof. intros. unfold io_mdia_parse. ags. unfold io_mdia_body. ags. Qed.
#[local] Hint Resolve a_mdia : ag.
Lemma a_trak : forall n s, ag (io_trak_parse n Checked s) (io_trak_parse n Wrapping s). Proof. intros. unfold io_trak_parse. ags. unfold io_trak_body. ags. Qed.
#[local] Hint Resolve a_trak : ag.
Lemma a_mvhd : forall s, ag (io_mvhd_parse Checked s) (io_mvhd_parse Wrapping s). Proof. intros. unfold io_mvhd_parse. ags. Qed.
#[local] Hint Resolve a_mvhd : ag.
Lemma a_moov : forall n s, ag (io_moov_parse n Checked s) (io_moov_parse n Wrapping s). Proof. intros. unfold io_moov_parse. ags. unfold io_moov_body. ags. Qed.
#[local] Hint Resolve a_moov : ag.
Lemma a_find : forall i l n p, ag (io_find_moov n Checked i l p) (io_find_moov n Wrapping i l p).
Proof. intros i l. induction n as [|n IH]; intros; cbn [io_find_moov]; ags. Qed.
#[local] Hint Resolve a_find : ag.
Theorem read_agrees : forall n, ag (io_read_tag_from n Checked) (io_read_tag_from n Wrapping).
Proof. intros. unfold io_read_tag_from. ags. Qed.
