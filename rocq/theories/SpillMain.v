(** What is written for items with UTF-16 text. *)

From Coq Require Import List NArith ZArith Bool Lia Arith String.
From Coq Require Import ZifyBool ZifyNat ZifyN.
From Verif Require Import Base BaseLemmas Utf UtfLemmas Types Stream Parse Find Write TagSpec FileSpec ParseLemmas ReadSpec ReadFacts FailSpec PanicSpec Display Described DescribedIs
  DescribedWrite ErrSpec FirstSpec OutSpec LayoutSpec WriteBytes WOutSpec WOutPlan EditSpec RepairSpec RepairProofs SpillSpec SpillProofs SpillPlace Props_WOut.
From Verif Require WOutRun ScanProofs WriteMain WriteTerm.
Import ListNotations.
Local Open Scope list_scope.

(** * Two stand-ins *)

Definition fill_value (k : bytes -> data) (d : data) : data := match d with DUtf16 _ => k (zeros (value_len d)) | _ => d end.
Definition fill (k : bytes -> data) (items : list atom_data) : list atom_data := map (fun a => AtomData (ad_ident a) (map (fill_value k) (ad_data a))) items.
(** A kind of value that is written as it is. *)
Definition plain_kind (k : bytes -> data) : Prop := k = DReserved \/ k = DJpeg.

Lemma stand_fill : forall items, stand_ins items = fill DReserved items. Proof. reflexivity. Qed.
Lemma fill_len : forall k d, plain_kind k -> value_len (fill_value k d) = value_len d.
Proof. intros k [] [-> | ->]; cbn [fill_value]; try reflexivity; unfold value_len at 1; cbn [payload]; rewrite blen_zeros; lia. Qed.
Lemma fill_alike : forall k items, plain_kind k -> alike (fill k items) items.
Proof.
  intros k items K. induction items as [|a l IH]; [reflexivity|]. unfold alike in *. cbn [fill map]. fold (fill k l). rewrite IH. f_equal. unfold shape. cbn [ad_ident ad_data]. f_equal.
  rewrite map_map. apply map_ext. intros d. apply fill_len, K.
Qed.
Lemma fill_exact : forall k items, plain_kind k -> exact_items (fill k items).
Proof.
  intros k items K. induction items as [|a l IH]; [constructor|]. cbn [fill map]. fold (fill k l). constructor; [|exact IH]. cbn [ad_data].
  induction (ad_data a) as [|d r IR]; [constructor|]. cbn [map]. constructor; [|exact IR]. destruct K as [-> | ->]; destruct d; reflexivity.
Qed.
Lemma app_same : forall (a b x y : bytes), blen a = blen b -> a ++ x = b ++ y -> a = b /\ x = y.
Proof.
  intros a b x y L E. assert (N : List.length a = List.length b) by (unfold blen in L; lia). clear L. revert b N E. induction a as [|c a IH]; intros [|d b] N E; try discriminate; [auto|].
  cbn [app] in E. injection E as -> E. injection N as N. destruct (IH b N E) as [-> ->]. auto.
Qed.
Lemma fill_raw_len : forall k k' d, plain_kind k -> plain_kind k' -> blen (raw_data (fill_value k d)) = blen (raw_data (fill_value k' d)).
Proof.
  intros k k' d K K'. rewrite !raw_data_len, !value_len_is, !fill_len by assumption. f_equal. destruct K as [-> | ->], K' as [-> | ->], d; reflexivity.
Qed.
Lemma kinds_differ_data : forall ds, flat_map raw_data (map (fill_value DReserved) ds) = flat_map raw_data (map (fill_value DJpeg) ds) -> map (fill_value DReserved) ds = ds.
Proof.
  induction ds as [|d ds IH]; intros H; [reflexivity|]. cbn [map flat_map] in H. apply app_same in H; [|apply fill_raw_len; [left|right]; reflexivity]. destruct H as [H1 H2].
  cbn [map]. rewrite (IH H2). f_equal. destruct d as [| |s| | | |]; try reflexivity. exfalso. cbn [fill_value] in H1. unfold raw_data in H1.
  apply app_same in H1; [|rewrite !blen_be; reflexivity]. destruct H1 as [_ H1]. apply app_inv_head in H1. injection H1 as H1. discriminate H1.
Qed.
Lemma kinds_differ : forall items, all_bytes (fill DReserved items) = all_bytes (fill DJpeg items) -> fill DReserved items = items.
Proof.
  intros items. rewrite !all_bytes_raw. induction items as [|a l IH]; intros H; [reflexivity|]. cbn [fill map flat_map] in H. fold (fill DReserved l) in H. fold (fill DJpeg l) in H.
  assert (S1 : shape (AtomData (ad_ident a) (map (fill_value DReserved) (ad_data a))) = shape (AtomData (ad_ident a) (map (fill_value DJpeg) (ad_data a)))).
  { unfold shape. cbn [ad_ident ad_data]. rewrite !map_map. f_equal. apply map_ext. intros d. rewrite !fill_len; [reflexivity|right; reflexivity|left; reflexivity]. }
  apply app_same in H.
  - destruct H as [H1 H2]. cbn [fill map]. fold (fill DReserved l). rewrite (IH H2). f_equal. unfold raw_item in H1. cbn [ad_ident ad_data] in H1.
    apply app_same in H1; [|rewrite !blen_be; reflexivity]. destruct H1 as [_ H1]. apply app_inv_head in H1. rewrite (kinds_differ_data _ H1). destruct a; reflexivity.
  - rewrite !raw_item_len, !item_len_is, (shape_len _ _ S1). f_equal. cbn [ad_data]. rewrite !map_map. f_equal. apply map_ext. intros d. destruct d; reflexivity.
Qed.

(** * They fit alike *)

Definition twin (a b : atom) : Prop := asize a = asize b /\ fits a = fits b.
Lemma twin_all : forall x y, Forall2 twin x y -> blen (render_all x) = blen (render_all y) /\ forallb fits x = forallb fits y.
Proof.
  intros x y H. induction H as [|a b x y [T1 T2] H [I1 I2]]; [split; reflexivity|]. rewrite !blen_render_all_cons. cbn [forallb]. rewrite I1, I2, T2. split; [lia|reflexivity].
Qed.
Lemma twin_atom : forall e id id' p p' x y, blen p = blen p' -> Forall2 twin x y -> twin (Atom e id p x) (Atom e id' p' y).
Proof.
  intros e id id' p p' x y P H. destruct (twin_all x y H) as [T1 T2]. split.
  - rewrite !asize_eq. unfold hlen, csize, a_content. cbn [a_ext a_pre a_kids]. rewrite !blen_app. lia.
  - cbn [fits]. change (flat_map render x) with (render_all x). change (flat_map render y) with (render_all y). rewrite !blen_app, P, T1, T2. reflexivity.
Qed.
Lemma twin_refl : forall a, twin a a. Proof. split; reflexivity. Qed.
Lemma twins_refl : forall l, Forall2 twin l l. Proof. induction l; constructor; [apply twin_refl|assumption]. Qed.
Lemma twins_mid : forall x a b y, twin a b -> Forall2 twin (x ++ a :: y) (x ++ b :: y).
Proof. intros x a b y T. apply Forall2_app; [apply twins_refl|]. constructor; [exact T|apply twins_refl]. Qed.
Lemma twin_relist : forall c a b, twin a b -> Forall2 twin (relist c a) (relist c b).
Proof.
  intros c a b T. unfold relist. constructor; [apply twin_refl|]. apply twins_mid. apply twin_atom; [reflexivity|]. apply twins_mid. apply twin_atom; [reflexivity|].
  apply twins_mid. apply twin_atom; [reflexivity|]. apply twins_mid, T.
Qed.
Lemma twin_good : forall c a b, twin a b -> good_sizes (relist c a) -> good_sizes (relist c b).
Proof. intros c a b T [G1 G2]. destruct (twin_all _ _ (twin_relist c a b T)) as [T1 T2]. split; [rewrite <- T2; exact G1|rewrite <- T1; exact G2]. Qed.
Lemma twin_item : forall k k' a, plain_kind k -> plain_kind k' ->
  twin (item_atom (AtomData (ad_ident a) (map (fill_value k) (ad_data a)))) (item_atom (AtomData (ad_ident a) (map (fill_value k') (ad_data a)))).
Proof.
  intros k k' a K K'.
  assert (D : Forall2 twin (map data_atom (map (fill_value k) (ad_data a))) (map data_atom (map (fill_value k') (ad_data a)))).
  { induction (ad_data a) as [|d l IH]; [constructor|]. cbn [map]. constructor; [|exact IH]. apply twin_atom; [|constructor]. rewrite !blen_cons, !blen_app, !blen_be.
    pose proof (fill_raw_len k k' d K K') as L. unfold raw_data in L. rewrite !blen_app, !blen_cons, !blen_app, !blen_be in L. lia. }
  unfold item_atom. cbn [ad_ident ad_data]. destruct (ad_ident a); (apply twin_atom; [reflexivity|]); [exact D|]. constructor; [apply twin_refl|]. constructor; [apply twin_refl|exact D].
Qed.
Lemma twin_list : forall k k' items, plain_kind k -> plain_kind k' -> twin (new_ilst (fill k items)) (new_ilst (fill k' items)).
Proof.
  intros k k' items K K'.
  assert (H : Forall2 twin (map item_atom (fill k items)) (map item_atom (fill k' items))).
  { induction items as [|a l IH]; [constructor|]. cbn [fill map]. constructor; [apply twin_item; assumption|exact IH]. }
  unfold new_ilst, new_box. destruct (twin_all _ _ H) as [T _]. cbn [app]. rewrite T. apply twin_atom; [reflexivity|exact H].
Qed.

(** * What is written *)

Lemma shell_write_out : forall f s mv i, shell f s mv -> good_sizes f -> editable f -> exact_items i -> good_sizes (update_file i f) ->
  write_out Checked (render_all f) i Ends (render_all (update_file i f)).
Proof.
  intros f s mv i Sh G E Ex G'. pose (n := S (N.to_nat (blen (render_all f)))). assert (L : blen (render_all f) < N.of_nat n) by lia. clearbody n.
  destruct (shell_writes 9 n Checked f s mv i Sh G E Ex G' L) as [ops W]. destruct G as [_ G]. assert (C9 : 8 < 9) by lia.
  pose proof (described_is_write 9 n Checked i (render_all f)) as D. rewrite W in D. cbn [wr_res] in D.
  destruct (C75_sound 9 n Checked i (render_all f) G C9) as [(o & Wo & Eo)|(Eo & _)]; rewrite Eo in D; [|discriminate D].
  rewrite W in Wo. cbn [wr_file] in Wo. destruct o as [|ns [e t|k]]; try discriminate D. exact Wo.
Qed.

Lemma size_list : forall i, exact_items i -> asize (new_ilst i) = new_size (list_len i).
Proof.
  intros i E. unfold asize. rewrite list_bytes, blen_app, all_bytes_len by exact E. rewrite nsum_0; [rewrite N.add_0_r; apply new_head_len|].
  apply Forall_impl with (2 := E). intros a D. apply nsum_0. exact D.
Qed.
Lemma size_cut : forall i, asize (cut_list i) = new_size (list_len i).
Proof.
  intros i. unfold asize. rewrite cut_bytes, blen_app. rewrite <- (new_head_len (id4 "ilst")). f_equal. pose proof (all_bytes_len i) as A. unfold blen, announced in *. rewrite firstn_length. lia.
Qed.
Lemma exact_bytes_len : forall i, exact_items i -> List.length (all_bytes i) = announced i.
Proof.
  intros i E. pose proof (all_bytes_len i) as A. rewrite nsum_0 in A; [unfold announced, blen in *; lia|]. apply Forall_impl with (2 := E). intros a D. apply nsum_0. exact D.
Qed.
Lemma exact_cut : forall c i, exact_items i -> render_all (relist c (new_ilst i)) = render_all (relist c (cut_list i)) ++ spilled c i.
Proof.
  intros c i E. destruct (relist_bytes c (new_ilst i)) as [X H]. rewrite (H (new_ilst i) eq_refl), (H (cut_list i)) by (rewrite size_cut, size_list by exact E; reflexivity).
  rewrite list_bytes, cut_bytes by exact E. pose proof (exact_bytes_len i E) as L. unfold spilled. rewrite firstn_all2 by lia. rewrite skipn_all2 by lia. rewrite app_nil_r. reflexivity.
Qed.

Lemma spill_out : forall f s mv items c, shell f s mv -> good_sizes f -> editable f -> lies f items c -> good_sizes (update_file (stand_ins items) f) ->
  write_out Checked (render_all f) items Ends (render_all (relist c (cut_list items)) ++ spilled c items).
Proof.
  intros f s mv items c Sh G E Li G'. rewrite stand_fill in *. unfold lies in Li. rewrite stand_fill in Li. set (i0 := fill DReserved items) in *.
  assert (K0 : plain_kind DReserved) by (left; reflexivity). assert (K1 : plain_kind DJpeg) by (right; reflexivity).
  assert (E0 : exact_items i0) by (apply fill_exact, K0).
  pose proof (shell_write_out f s mv i0 Sh G E E0 G') as W0. rewrite Li in W0.
  destruct (list_eq_dec Byte.byte_eq_dec (all_bytes i0) (all_bytes (fill DJpeg items))) as [Eq|Ne].
  { apply kinds_differ in Eq. fold i0 in Eq. rewrite Eq in *. rewrite <- exact_cut by exact E0. exact W0. }
  set (i1 := fill DJpeg items) in *. assert (E1 : exact_items i1) by (apply fill_exact, K1).
  assert (A0 : alike i0 items) by (apply fill_alike, K0). assert (A1 : alike i1 items) by (apply fill_alike, K1).
  assert (A01 : alike i0 i1) by (unfold alike in *; congruence).
  pose proof (twin_list DReserved DJpeg items K0 K1) as T. fold i0 i1 in T.
  assert (SL : same_list i0 i1) by (unfold same_list; symmetry; apply T).
  pose proof (lies_all i0 c f s mv Sh E Li i1 SL) as L1.
  assert (G1 : good_sizes (update_file i1 f)) by (rewrite L1; apply (twin_good c _ _ T); rewrite <- Li; exact G').
  pose proof (shell_write_out f s mv i1 Sh G E E1 G1) as W1. rewrite L1 in W1.
  destruct (shell_laid_out f s mv Sh) as (ft & pre & post & (Ef & If & _ & Im & Nm & Pm) & Us & Cf).
  pose (n := S (N.to_nat (blen (render_all f)))). assert (Ln : blen (render_all f) < N.of_nat n) by lia. clearbody n.
  assert (Sc : exists x q, scan n Checked (render_all f) 0 = Ok ((ScanProofs.moov_at (blen (render_all (ft :: pre))) mv, x), q)).
  { subst f. destruct (ScanProofs.scan_finds n Checked ft s pre mv post G Ln If Us Cf Im Nm Pm) as [q Q]. eauto. }
  assert (LF : blen (render_all f) < 2 ^ 62) by apply G.
  assert (Lg : blen (render_all (relist c (new_ilst i0))) < 2 ^ 62) by (rewrite <- Li; apply G').
  destruct (ended_like _ _ _ _ _ _ LF Lg W0 E0 Sc) as (mo & q & u & B & Te & LB & Lu & All).
  pose proof (lead_len i0 mo) as LL. pose proof (new_head_len (id4 "ilst") (list_len i0)) as NH.
  assert (Hd : forall j, alike i0 j -> head_of j mo = head_of i0 mo) by (intros j A; unfold head_of; rewrite (alike_lead i0 j mo A); reflexivity).
  assert (P : forall j, alike i0 j -> patch u Te (patch q (flat_map snd (pieces j mo)) B) =
    (firstn (N.to_nat q) B ++ head_of i0 mo) ++ (new_head (id4 "ilst") (list_len i0) ++ firstn (announced j) (all_bytes j)) ++ Te ++ skipn (announced j + List.length Te) (all_bytes j)).
  { intros j A. pose proof (alike_len _ _ A) as Al. pose proof (all_bytes_len j) as Aj. rewrite pieces_bytes, Hd, <- Al by exact A.
    assert (Ux : u - q = blen (head_of i0 mo) + blen (new_head (id4 "ilst") (list_len i0)) + list_len i0) by lia.
    assert (NP : 0 < blen (new_head (id4 "ilst") (list_len i0))) by (unfold new_head, header; destruct (_ <=? _); rewrite !blen_app, !blen_be, ?blen_fc; lia).
    rewrite patch_twice; [|lia|rewrite !blen_app; lia|exact LB]. rewrite Ux, <- !app_assoc. f_equal. unfold announced. rewrite <- Al.
    set (h := head_of i0 mo) in *. set (k := new_head (id4 "ilst") (list_len i0)) in *. set (d := all_bytes j) in *. unfold blen in *.
    rewrite !firstn_app, !skipn_app. rewrite (firstn_all2 h), (firstn_all2 k), (skipn_all2 h), (skipn_all2 k) by lia. cbn [app]. rewrite <- !app_assoc. do 2 f_equal.
    f_equal; [f_equal; lia|]. f_equal. f_equal. lia. }
  assert (Q : forall j, alike i0 j -> exact_items j -> patch u Te (patch q (flat_map snd (pieces j mo)) B) = (firstn (N.to_nat q) B ++ head_of i0 mo) ++ render (new_ilst j) ++ Te).
  { intros j A X. rewrite (P j A), list_bytes by exact X. pose proof (exact_bytes_len j X) as L. rewrite (firstn_all2 (all_bytes j)), (skipn_all2 (all_bytes j)) by lia. rewrite app_nil_r, (alike_len _ _ A). reflexivity. }
  destruct (relist_bytes c (new_ilst i0)) as [X HX].
  assert (Y : firstn (N.to_nat q) B ++ head_of i0 mo = X /\ Te = behind c).
  { apply (same_place (render (new_ilst i0)) (render (new_ilst i1))).
    - destruct T as [T _]. unfold asize, blen in T. lia.
    - rewrite !list_bytes by assumption. rewrite (alike_len _ _ A01). intros H. apply app_inv_head in H. contradiction.
    - rewrite <- (Q i0 (alike_refl i0) E0), <- (HX (new_ilst i0) eq_refl). apply (proj1 (C75_unique _ _ _ _ _ LF W0) Ends _ (All i0 (alike_refl i0))).
    - rewrite <- (Q i1 A01 E1), <- (HX (new_ilst i1) SL). apply (proj1 (C75_unique _ _ _ _ _ LF W1) Ends _ (All i1 A01)). }
  destruct Y as [Y1 Y2]. pose proof (All items A0) as W. rewrite (P items A0), Y1, Y2 in W.
  rewrite (HX (cut_list items)) by (rewrite size_cut, size_list by exact E0; rewrite (alike_len _ _ A0); reflexivity). rewrite cut_bytes. unfold spilled. rewrite (alike_len _ _ A0) in W.
  rewrite <- !app_assoc in *. exact W.
Qed.

Lemma spill_writes : forall cap fuel m f s mv items c, 8 < cap -> shell f s mv -> good_sizes f -> editable f -> lies f items c -> good_sizes (update_file (stand_ins items) f) ->
  blen (render_all f) < N.of_nat fuel ->
  wr_res (write_tag cap fuel m items (render_all f)) = Ok tt /\
  wr_file (write_tag cap fuel m items (render_all f)) = render_all (relist c (cut_list items)) ++ spilled c items.
Proof.
  intros cap fuel m f s mv items c C Sh G E Li G' Fu. pose proof (spill_out f s mv items c Sh G E Li G') as W.
  assert (Wm : write_out m (render_all f) items Ends (render_all (relist c (cut_list items)) ++ spilled c items)) by (destruct m; [exact W|apply C75_same; [exact W|discriminate]]).
  destruct (shell_laid_out f s mv Sh) as (ft & pre & post & (Ef & If & _ & Im & Nm & Pm) & Us & Cf). pose proof G as [_ LF].
  assert (NF : wr_res (write_tag cap fuel m items (render_all f)) <> Fuel).
  { apply WriteTerm.write_steps. subst f. destruct (ScanProofs.scan_finds fuel m ft s pre mv post G Fu If Us Cf Im Nm Pm) as [q Q]. rewrite Q. discriminate. }
  pose proof (described_is_write cap fuel m items (render_all f)) as D.
  destruct (C75_sound cap fuel m items (render_all f) LF C) as [(o & Wo & Eo)|(Eo & _)]; [|rewrite Eo in D; exfalso; apply NF; rewrite <- D; reflexivity].
  destruct (proj1 (C75_unique _ _ _ _ _ LF Wm) _ _ Wo) as [-> Eg]. rewrite Eo in D. rewrite <- D, Eg. split; reflexivity.
Qed.
