(** Theorems about the causes of panics in writing: C43 (see properties.jsonl). *)

From Coq Require Import List NArith ZArith Bool Lia String.
From Coq Require Import ZifyBool ZifyNat ZifyN.
From Verif Require Import Base BaseLemmas Utf Types Stream Parse Find Write WriteTerm TagSpec FileSpec FailSpec FailProofs PanicSpec Props_Panic WPanicSpec WPanicProofs.
Import ListNotations.
Local Open Scope list_scope.

(** * C43: writing never panics *)

(** Not true as it stands (C43_cut_list_refuted).  Missing for the whole claim is exactly the six flaws: on any byte
    string, in both build profiles, writing panics only if one of the boxes it looks at or one of the values to be
    written has one. *)
Theorem C43_causes_partial : forall cap fuel m items f p, blen f < 2 ^ 62 -> nsum (map ad_len items) < 2 ^ 61 ->
  wr_res (write_tag cap fuel m items f) = Panic p -> wflaw f items.
Proof. exact panics_have_causes. Qed.
Print Assumptions C43_causes_partial.

(** Each of the six happens, so none can be left out. *)
Definition some_items : list atom_data := [AtomData (IFourcc TITLE) [DUtf8 (map (fun c => c) [65; 66; 67])]].
Definition xbx (id : string) (size : N) (c : bytes) : bytes := be 4 1 ++ fc_bytes (id4 id) ++ be 8 size ++ c.
Definition wbad_cut : bytes := ft ++ be 4 20 ++ fc_bytes (id4 "moov") ++ be 4 30 ++ fc_bytes (id4 "free").
Definition wbad_huge : bytes :=
  let u := bx "udta" (bx "meta" (be 4 0 ++ bx "ilst" [])) in
  ft ++ xbx "moov" (2 ^ 63 - 20) (u ++ xbx "free" (2 ^ 63 - 20 - 16 - blen u) []).
Definition wbad_far : bytes :=
  ft ++ bx "moov" (bx "trak" (bx "mdia" (bx "minf" (bx "stbl" (bx "co64" (be 4 0 ++ be 4 1 ++ be 8 (2 ^ 63 - 1))))))) ++ bx "mdat" [].
Example C43_each_happens :
  map (fun f => match wr_res (write_tag 8192 20 Checked some_items f) with Panic p => true | _ => false end) [bad_odd; wbad_cut; wbad_huge; wbad_far] = [true; true; true; true].
Proof. vm_compute. reflexivity. Qed.

(** The remaining two, by proof: values and names of nearly 4 GiB.  The movie has been enlarged when it happens. *)
Definition short_file : bytes := ft ++ bx "moov" [].
Lemma short_prepare : forall items, nsum (map ad_len items) < 2 ^ 61 ->
  let n := NUdta (NewMeta (Some meta_hdlr) items) in
  prepare 20 Checked items short_file 0 = Ok (Plan (MoovBounds (Bounds 12 (Size false 8)) [] None) 0 20 20 (Z.of_N (new_atoms_len n)) [Bounds 12 (Size false 8)] n 20 [], 20).
Proof.
  intros items L n. rewrite prepare_eq. unfold bind at 1.
  assert (S : scan 20 Checked short_file 0 = Ok ((MoovBounds (Bounds 12 (Size false 8)) [] None, 0), 20)) by (vm_compute; reflexivity). rewrite S.
  unfold plan_rest. cbn [fst snd vb_udta vb_bounds]. unfold bind, lift, ret, bounds_end. cbn [b_pos b_size sz_len].
  change (add64 Checked 12 8) with (@Ok BinNums.N 20). cbv beta iota. cbn [snd fst].
  pose proof (new_len_bound (Some meta_hdlr) items n ltac:(auto) ltac:(left; reflexivity)) as B. unfold announced in B. fold n. remember (new_atoms_len n) as k eqn:Ek.
  assert (W : 2 ^ 61 + 100 < 2 ^ 63) by reflexivity. rewrite as_i64_lt by lia. unfold addi. assert (W4 : (2 ^ 63)%Z = Z.of_N (2 ^ 63)) by reflexivity. rewrite in64 by lia.
  assert (Ll : blen short_file = 20) by (vm_compute; reflexivity). unfold seek_end. rewrite Ll. change (sub64 Checked 20 20) with (@Ok BinNums.N 0). cbv beta iota.
  change (two63 <=? 0) with false. cbv beta iota. unfold seek_start. change (20 <? two63) with true. cbv beta iota. unfold read_to_end. rewrite Ll. cbn. reflexivity.
Qed.
Lemma short_panics : forall cap items q, nsum (map ad_len items) < 2 ^ 61 ->
  snd (udta_write Checked (NewMeta (Some meta_hdlr) items)) = Panic q -> wr_res (write_tag cap 20 Checked items short_file) = Panic q.
Proof.
  intros cap items q L E. unfold write_tag, write_tag_to. rewrite (short_prepare items L). cbv zeta.
  set (n := NUdta (NewMeta (Some meta_hdlr) items)) in *. assert (X : forall s, fst (execute cap Checked (Plan (MoovBounds (Bounds 12 (Size false 8)) [] None) 0 20 20 (Z.of_N (new_atoms_len n)) [Bounds 12 (Size false 8)] n 20 []) s) = Panic q).
  { intros s. unfold execute. cbn [pl_moov vb_bounds b_pos pl_mdat_pos pl_update pl_diff pl_old_len pl_start pl_new pl_moved_start pl_moved]. change (12 <? 0) with false. cbv beta iota.
    pose proof (new_len_bound (Some meta_hdlr) items n ltac:(auto) ltac:(left; reflexivity)) as B. unfold announced in B. remember (new_atoms_len n) as k eqn:Ek.
    assert (W : 2 ^ 61 + 200 < 2 ^ 63) by reflexivity. assert (W4 : (2 ^ 63)%Z = Z.of_N (2 ^ 63)) by reflexivity.
    unfold wbind at 1, wret at 1. cbn [update_all]. unfold update_atom. cbn [b_size b_pos sz_len sz_ext].
    assert (A : forall j, j <= 20 -> addi Checked (as_i64 j) (Z.of_N k) = Ok (Z.of_N (j + k))).
    { intros j Lj. rewrite as_i64_lt by lia. unfold addi. rewrite in64 by lia. f_equal. lia. }
    assert (Sk : forall j s0, j < two63 -> exists s1, bw_seek_start j s0 = (Ok tt, s1)).
    { intros j s0 Lj. destruct (flush_lc s0) as (s1 & F & _). unfold bw_seek_start, wbind. rewrite F. rewrite (proj2 (N.ltb_lt _ _) Lj). eexists. reflexivity. }
    unfold wbind, wlift. rewrite !A by lia. cbv beta iota. destruct (Sk 12 s ltac:(reflexivity)) as (s1 & E1). rewrite E1. cbv beta iota.
    destruct (write_lc cap (be32 (i_as_u32 (Z.of_N (8 + k)))) s1) as (s2 & E2 & _). rewrite E2. cbv beta iota. unfold wret. cbv beta iota.
    assert (U : i_as_u64 (Z.of_N (20 + k)) < two63) by (apply i_as_u64_small; lia). unfold file_set_len. rewrite (proj2 (N.ltb_lt _ _) U). cbv beta iota.
    match goal with |- context [bw_seek_start 20 ?s3] => destruct (Sk 20 s3 ltac:(reflexivity)) as (s4 & E4); rewrite E4 end. cbv beta iota.
    unfold bw_out, wbind, wlift.
    assert (C : forall l s0, exists s5, bw_chunks cap l s0 = (Ok tt, s5)).
    { induction l as [|d l IH]; intros s0; cbn [bw_chunks]; [eexists; reflexivity|]. unfold wbind. destruct (write_lc cap d s0) as (s5 & E5 & _). rewrite E5. apply IH. }
    destruct (C (fst (new_atoms_write Checked n)) s4) as (s5 & E5). rewrite E5. cbv beta iota. unfold n. cbn [new_atoms_write]. rewrite E. reflexivity. }
  specialize (X (Wst short_file 0 [] [])). destruct (execute _ _ _ _) as [r s]. destruct (bw_flush s). exact X.
Qed.
Lemma snd_obind : forall {A B} (x : Write.Out A) (k : A -> Write.Out B),
  snd (obind x k) = match snd x with Ok a => snd (k a) | Err e => Err e | Panic p => Panic p | Fuel => Fuel end.
Proof. intros A B x k. unfold obind. destruct (snd x); reflexivity. Qed.
Lemma udta_panics : forall a q, snd (ad_write Checked a) = Panic q -> snd (udta_write Checked (NewMeta (Some meta_hdlr) [a])) = Panic q.
Proof.
  intros a q E. assert (H : forall s id, snd (write_head s id) = Ok tt) by (intros s id; unfold write_head; destruct (sz_ext s); reflexivity).
  unfold udta_write. rewrite snd_obind, H. unfold meta_write. rewrite snd_obind, H, snd_obind. change (snd (write_full_head 0 (zeros 3))) with (@Ok unit tt). cbv beta iota.
  rewrite snd_obind. cbn [nm_hdlr nm_ilst]. unfold hdlr_write. rewrite snd_obind, H. cbn [emit snd]. unfold ilst_write. rewrite snd_obind, H. cbn [omap]. rewrite snd_obind, E. reflexivity.
Qed.
Lemma over32 : forall k n, n < 2 ^ 32 -> 2 ^ 32 <= k + n -> snd (olift (add32 Checked k (as_u32 n))) = Panic POverflow.
Proof.
  intros k n L H. unfold olift, add32, as_u32. cbn [snd]. assert (W : two32 = 2 ^ 32) by reflexivity. rewrite W. rewrite N.mod_small by exact L. destruct (_ <? _) eqn:X; [lia|reflexivity].
Qed.
Theorem C43_long_value_refuted : forall cap v, 2 ^ 32 - 16 <= blen v < 2 ^ 32 ->
  wr_res (write_tag cap 20 Checked [AtomData (IFourcc TITLE) [DReserved v]] short_file) = Panic POverflow.
Proof.
  intros cap v L. apply short_panics.
  - unfold nsum, ad_len. cbn [map fold_right ad_data ad_ident data_len]. unfold nsum. cbn [map fold_right data_len]. assert (2 ^ 32 + 100 < 2 ^ 61) by reflexivity. lia.
  - apply udta_panics. unfold ad_write. rewrite snd_obind. cbn [emit snd ad_ident ad_data]. rewrite snd_obind. cbn [emit snd omap]. rewrite !snd_obind, over32 by (cbn [data_len]; lia). reflexivity.
Qed.
Print Assumptions C43_long_value_refuted.
Theorem C43_long_name_refuted : forall cap mean name v, 2 ^ 32 - 12 <= blen (enc8 mean) < 2 ^ 32 -> blen (enc8 name) < 2 ^ 32 -> nsum (map (fun d => 16 + data_len d) v) < 2 ^ 60 ->
  wr_res (write_tag cap 20 Checked [AtomData (IFreeform mean name) v] short_file) = Panic POverflow.
Proof.
  intros cap mean name v L L2 S. apply short_panics.
  - unfold nsum at 1, ad_len. cbn [map fold_right ad_data ad_ident]. assert (2 * 2 ^ 32 + 2 ^ 60 + 100 < 2 ^ 61) by reflexivity. lia.
  - apply udta_panics. unfold ad_write. rewrite snd_obind. cbn [emit snd ad_ident ad_data]. rewrite !snd_obind. cbn [emit snd]. rewrite over32 by lia. reflexivity.
Qed.
Print Assumptions C43_long_name_refuted.
Example C43_long_example : blen (zeros (2 ^ 32 - 16)) = 2 ^ 32 - 16.
Proof. apply blen_zeros. Qed.

(** And a file and items without flaws. *)
Lemma short_scans : forall w q, scans short_file w q -> w = [] /\ (q = 0 \/ q = 12 \/ q = 20) \/ w = [(InMoov, 20)] /\ q = 20.
Proof.
  assert (W : blen short_file = 20) by (vm_compute; reflexivity).
  assert (I : forall q id head size, box_at short_file q id head size -> (q = 0 -> id = id4 "ftyp" /\ head = 8 /\ size = 12) /\ (q = 12 -> id = id4 "moov" /\ head = 8 /\ size = 8)).
  { intros q id head size B. split; intros ->; (apply at_box in B; [|vm_compute; discriminate]); destruct B as (-> & -> & E); (split; [|split; vm_compute; reflexivity]);
      apply fc_inj; rewrite E; vm_compute; reflexivity. }
  intros w q H. induction H as [|w q id head size H IH B O|w q id head size l d H IH B O|l e w q H IH L].
  - left. auto.
  - pose proof (at_none _ _ _ _ _ B) as Q. rewrite W in Q. destruct (I _ _ _ _ B) as (I0 & I1). destruct IH as [[-> [-> |[-> | ->]]]|[-> ->]]; try lia.
    + destruct (I0 eq_refl) as (-> & -> & ->). left. auto.
    + destruct (I1 eq_refl) as (-> & -> & ->). vm_compute in O. discriminate.
  - pose proof (at_none _ _ _ _ _ B) as Q. rewrite W in Q. destruct (I _ _ _ _ B) as (I0 & I1). destruct IH as [[-> [-> |[-> | ->]]]|[-> ->]]; try lia.
    + destruct (I0 eq_refl) as (-> & -> & ->). vm_compute in O. discriminate.
    + destruct (I1 eq_refl) as (-> & -> & ->). vm_compute in O. injection O as <- <-. right. auto.
  - destruct IH as [[C _]|[C ->]]; [discriminate|]. injection C as _ _ ->. left. auto.
Qed.
Example C43_causes_example : ~ wflaw short_file some_items /\ wr_res (write_tag 8192 20 Checked some_items short_file) = Ok tt.
Proof.
  split; [|vm_compute; reflexivity].
  assert (B : forall l q id head size, scanned short_file l q id head size -> (q = 0 /\ size = 12 \/ q = 12 /\ size = 8) /\ l = Top /\ head = 8).
  { intros l q id head size (w & K & Iw & Bx). pose proof (at_none _ _ _ _ _ Bx) as Q. assert (W : blen short_file = 20) by (vm_compute; reflexivity). rewrite W in Q.
    apply short_scans in K. destruct K as [[-> [-> |[-> | ->]]]|[-> ->]]; try lia; cbn [lv] in Iw; subst l; (apply at_box in Bx; [|vm_compute; discriminate]); destruct Bx as (-> & -> & _);
      (split; [|auto]); [left|right]; (split; [reflexivity|vm_compute; reflexivity]). }
  assert (R : 12 + room some_items < 2 ^ 63) by (vm_compute; reflexivity).
  intros F. destruct F as [l q id size K C|l q id head size K A C|l q id head size K A C|q head size i K _ _ _|a d Ia Id C|a mean name Ia E _].
  - apply B in K. destruct K as (_ & _ & K). discriminate.
  - apply B in K. assert (W : blen short_file = 20) by (vm_compute; reflexivity). rewrite W in C. lia.
  - apply B in K. lia.
  - apply B in K. destruct K as (_ & K & _). discriminate.
  - destruct Ia as [<-|[]]. destruct Id as [<-|[]]. vm_compute in C. now apply C.
  - destruct Ia as [<-|[]]. discriminate.
Qed.
