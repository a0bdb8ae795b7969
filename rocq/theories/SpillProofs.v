(** Writing UTF-16 text to a file. *)

From Coq Require Import List NArith ZArith Bool Lia Arith String.
From Coq Require Import ZifyBool ZifyNat ZifyN.
From Verif Require Import Base BaseLemmas Utf UtfLemmas Types Stream Parse Find Write TagSpec FileSpec ParseLemmas ReadSpec ReadFacts FailSpec PanicSpec Display Described DescribedIs
  DescribedWrite ErrSpec FirstSpec OutSpec LayoutSpec WriteBytes WOutSpec WOutPlan RepairSpec SpillSpec.
From Verif Require WOutRun WOutScan WOutUnique LayoutProofs LayoutWrite ScanProofs WriteMain.
Import ListNotations.
Local Open Scope list_scope.

(** * Items of the same announced lengths *)

Definition shape (a : atom_data) : data_ident * list N := (ad_ident a, map value_len (ad_data a)).
Definition alike (i j : list atom_data) : Prop := map shape i = map shape j.

Lemma alike_refl : forall i, alike i i. Proof. reflexivity. Qed.
Lemma alike_sym : forall i j, alike i j -> alike j i. Proof. intros i j H. symmetry. exact H. Qed.
Lemma shape_len : forall a b, shape a = shape b -> item_len a = item_len b.
Proof.
  intros a b H. injection H as I V. unfold item_len. rewrite I. f_equal.
  rewrite <- (map_map value_len (fun n => 16 + n)), V, (map_map value_len (fun n => 16 + n)). reflexivity.
Qed.
Lemma alike_len : forall i j, alike i j -> list_len i = list_len j.
Proof.
  induction i as [|a i IH]; intros [|b j] H; try discriminate; [reflexivity|]. injection H as I V H. unfold list_len in *. cbn [map fold_right].
  rewrite (IH j H), (shape_len a b); [reflexivity|]. unfold shape. congruence.
Qed.
Lemma alike_size : forall i j mo, alike i j -> pieces_len i mo = pieces_len j mo.
Proof. intros i j mo H. unfold pieces_len, meta_content. rewrite (alike_len i j H). reflexivity. Qed.
(** The lengths that are checked, *)
Lemma shape_checks : forall a b, shape a = shape b -> map fst (item_pieces a) = map fst (item_pieces b).
Proof.
  intros a b H. injection H as I V. unfold item_pieces. cbn [map]. rewrite I, !map_app. f_equal. f_equal. rewrite !map_map. unfold value_piece. cbn [fst].
  rewrite <- (map_map value_len (fun n => Some (16 + n mod 2 ^ 32))), V, (map_map value_len (fun n => Some (16 + n mod 2 ^ 32))). reflexivity.
Qed.
Lemma alike_list_checks : forall i j, alike i j -> map fst (flat_map item_pieces i) = map fst (flat_map item_pieces j).
Proof.
  induction i as [|a i IH]; intros [|b j] H; try discriminate; [reflexivity|]. injection H as I V H. cbn [flat_map]. rewrite !map_app.
  f_equal; [|exact (IH j H)]. apply shape_checks. unfold shape. congruence.
Qed.
(** and what is written in front of the items. *)
Definition lead (items : list atom_data) (mo : node) : list piece :=
  match user_data mo, metadata mo with
  | None, _ => (None, new_head (id4 "udta") (new_size (meta_content items))) :: (None, new_head (id4 "meta") (meta_content items) ++ zeros 4) :: [handler_piece]
  | Some _, None => [(None, new_head (id4 "meta") (meta_content items) ++ zeros 4); handler_piece]
  | Some _, Some e => match final (id4 "hdlr") (n_inside e) with Some _ => [] | None => [handler_piece] end
  end.
Lemma pieces_lead : forall items mo, pieces items mo = lead items mo ++ (None, new_head (id4 "ilst") (list_len items)) :: flat_map item_pieces items.
Proof. intros items mo. unfold pieces, lead, udta_pieces, meta_pieces, list_pieces. destruct (user_data mo); [destruct (metadata mo)|]; reflexivity. Qed.
Lemma alike_lead : forall i j mo, alike i j -> lead i mo = lead j mo.
Proof. intros i j mo H. unfold lead, meta_content. rewrite (alike_len i j H). reflexivity. Qed.
Lemma all_poured_fst : forall m l l', map fst l = map fst l' -> all_poured m l = all_poured m l'.
Proof.
  intros m. induction l as [|p l IH]; intros [|q l'] H; try discriminate; [reflexivity|]. injection H as H1 H2. unfold all_poured in *. cbn [forallb].
  unfold too_long at 1 3. rewrite H1, (IH l' H2). reflexivity.
Qed.
Lemma alike_poured : forall m i j mo, alike i j -> all_poured m (pieces i mo) = all_poured m (pieces j mo).
Proof.
  intros m i j mo H. apply all_poured_fst. rewrite !pieces_lead, !map_app, (alike_lead i j mo H). f_equal. cbn [map fst]. f_equal. apply alike_list_checks, H.
Qed.
Lemma poured_all : forall m l, all_poured m l = true -> poured m l = flat_map snd l.
Proof.
  intros m. induction l as [|p l IH]; intros H; [reflexivity|]. unfold all_poured in *. cbn [forallb] in H. apply andb_true_iff in H. destruct H as [H1 H2].
  cbn [poured flat_map]. apply negb_true_iff in H1. rewrite H1, (IH H2). reflexivity.
Qed.
Definition head_of (items : list atom_data) (mo : node) : bytes := flat_map snd (lead items mo).
Lemma pieces_bytes : forall items mo, flat_map snd (pieces items mo) = head_of items mo ++ new_head (id4 "ilst") (list_len items) ++ all_bytes items.
Proof. intros items mo. rewrite pieces_lead, flat_map_app. reflexivity. Qed.

Lemma new_head_len : forall id n, blen (new_head id n) + n = new_size n.
Proof. intros id n. unfold new_head, new_size, header. destruct (2 ^ 32 <=? n + 8); rewrite !blen_app, ?blen_be, ?blen_fc; lia. Qed.
Lemma handler_len : blen (render new_hdlr) = 33. Proof. vm_compute. reflexivity. Qed.
Lemma lead_len : forall items mo, blen (head_of items mo) + new_size (list_len items) = pieces_len items mo.
Proof.
  intros items mo. pose proof (new_head_len (id4 "udta") (new_size (meta_content items))) as U. pose proof (new_head_len (id4 "meta") (meta_content items)) as M.
  pose proof handler_len as H. assert (C : meta_content items = 4 + 33 + new_size (list_len items)) by reflexivity. unfold head_of, lead, pieces_len. destruct (user_data mo) as [u|]; [destruct (metadata mo) as [e|]|].
  - unfold handler_piece. destruct (final _ _); cbn [flat_map snd]; rewrite ?app_nil_r, ?H; reflexivity.
  - unfold handler_piece. cbn [flat_map snd]. rewrite app_nil_r, !blen_app, H, blen_zeros. lia.
  - unfold handler_piece. cbn [flat_map snd]. rewrite app_nil_r, !blen_app, H, blen_zeros. lia.
Qed.

(** ** The bytes of items *)

Lemma type_bytes : forall d, be 4 (type_code d) = n2b 0 :: be 3 (type_code d).
Proof. intros []; reflexivity. Qed.
Lemma item_bytes : forall a, flat_map snd (item_pieces a) = raw_item a.
Proof.
  intros a. assert (D : flat_map snd (map value_piece (ad_data a)) = flat_map raw_data (ad_data a)).
  { induction (ad_data a) as [|d l IH]; [reflexivity|]. cbn [map flat_map]. rewrite IH. f_equal. unfold value_piece, raw_data. cbn [snd]. rewrite type_bytes, value_len_is. reflexivity. }
  unfold item_pieces, raw_item. cbn [flat_map snd]. rewrite flat_map_app. unfold piece, bytes in *. rewrite D, item_len_is. f_equal. destruct (ad_ident a); cbn [flat_map snd]; rewrite ?app_nil_r; [reflexivity|].
  unfold text_piece, raw_text, name_len. cbn [snd]. rewrite <- !app_assoc. reflexivity.
Qed.
Lemma all_bytes_raw : forall items, all_bytes items = flat_map raw_item items.
Proof. induction items as [|a l IH]; [reflexivity|]. unfold all_bytes in *. cbn [flat_map]. rewrite flat_map_app. f_equal; [apply item_bytes|exact IH]. Qed.
Lemma all_bytes_len : forall items, blen (all_bytes items) = list_len items + nsum (map (fun a => nsum (map units (ad_data a))) items).
Proof.
  intros items. rewrite all_bytes_raw. unfold list_len, nsum. induction items as [|a l IH]; [reflexivity|]. cbn [flat_map map fold_right]. rewrite blen_app, IH, raw_item_len, item_len_is.
  unfold nsum. lia.
Qed.
Lemma list_bytes : forall items, exact_items items -> render (new_ilst items) = new_head (id4 "ilst") (list_len items) ++ all_bytes items.
Proof.
  intros items E. unfold new_ilst. rewrite render_new_box. cbn [app]. pose proof (ilst_content items E) as L. unfold new_box. cbn [a_ext app]. rewrite L, list_len_is. unfold new_head. f_equal.
  rewrite all_bytes_raw. clear L. induction E as [|a l Ea E IH]; [reflexivity|]. cbn [map flat_map]. rewrite render_all_cons, IH, item_atom_bytes by exact Ea. reflexivity.
Qed.
Lemma cut_bytes : forall items, render (cut_list items) = new_head (id4 "ilst") (list_len items) ++ firstn (announced items) (all_bytes items).
Proof.
  intros items. unfold cut_list. rewrite render_new_box. change (render_all []) with (@nil byte). rewrite app_nil_r.
  assert (L : blen (firstn (announced items) (all_bytes items)) = list_len items).
  { pose proof (all_bytes_len items) as A. unfold blen, announced in *. rewrite firstn_length. lia. }
  unfold new_box. cbn [a_ext]. change (render_all []) with (@nil byte). rewrite app_nil_r, L. reflexivity.
Qed.

(** * Byte strings *)

Fixpoint common (a b : bytes) : nat :=
  match a, b with x :: a, y :: b => if Byte.eqb x y then S (common a b) else O | _, _ => O end.
Lemma byte_refl : forall x, Byte.eqb x x = true. Proof. intros x. apply Byte.byte_dec_lb. reflexivity. Qed.
Lemma common_front : forall x a b, common (x ++ a) (x ++ b) = (List.length x + common a b)%nat.
Proof. intros x a b. induction x as [|c x IH]; [reflexivity|]. cbn [app common List.length Nat.add]. rewrite byte_refl, IH. reflexivity. Qed.
Lemma common_back : forall a b y z, List.length a = List.length b -> a <> b -> common (a ++ y) (b ++ z) = common a b.
Proof.
  induction a as [|c a IH]; intros [|d b] y z L N; try discriminate; [congruence|]. cbn [app common]. destruct (Byte.eqb c d) eqn:E; [|reflexivity].
  apply Byte.byte_dec_bl in E. subst d. f_equal. apply IH; [now injection L|]. congruence.
Qed.
(** Two strings that differ are in the same place when they are surrounded by the same bytes. *)
Lemma same_place : forall a b x y X Y : bytes, List.length a = List.length b -> a <> b -> x ++ a ++ y = X ++ a ++ Y -> x ++ b ++ y = X ++ b ++ Y -> x = X /\ y = Y.
Proof.
  intros a b x y X Y L N A B. assert (C : common (x ++ a ++ y) (x ++ b ++ y) = common (X ++ a ++ Y) (X ++ b ++ Y)) by congruence.
  rewrite !common_front, !common_back in C by assumption. assert (E : List.length x = List.length X) by lia.
  assert (H : x = X). { apply (f_equal (firstn (List.length x))) in A. rewrite E in A at 2. rewrite !firstn_app, !firstn_all, !Nat.sub_diag, !firstn_O, !app_nil_r in A. exact A. }
  split; [exact H|]. subst X. apply app_inv_head in A. now apply app_inv_head in A.
Qed.
(** New bytes at [s] of which only some are announced, then the rest of the file behind those. *)
Lemma patch_twice : forall s u (d t B : bytes), s < u -> u - s <= blen d -> blen B = u + blen t ->
  patch u t (patch s d B) = firstn (N.to_nat s) B ++ firstn (N.to_nat (u - s)) d ++ t ++ skipn (N.to_nat (u - s + blen t)) d.
Proof.
  intros s u d t B Su Ld Lb. assert (D : d <> []) by (intros ->; rewrite blen_nil in Ld; lia).
  assert (P1 : patch s d B = firstn (N.to_nat s) B ++ d ++ skipn (N.to_nat (s + blen d)) B).
  { unfold patch. destruct d; [congruence|]. replace (s - blen B) with 0 by lia. change (zeros 0) with (@nil byte). rewrite app_nil_r. reflexivity. }
  rewrite P1. unfold blen in *. destruct t as [|c t].
  - cbn [patch]. cbn [List.length] in *. rewrite (skipn_all2 B) by lia. rewrite app_nil_r. cbn [app]. f_equal.
    replace (N.to_nat (u - s + N.of_nat 0)) with (N.to_nat (u - s)) by lia. symmetry. apply firstn_skipn.
  - set (T := c :: t) in *. unfold patch. unfold T at 1. fold T. set (G := firstn (N.to_nat s) B ++ d ++ skipn (N.to_nat (s + N.of_nat (List.length d))) B).
    assert (Lf : List.length (firstn (N.to_nat s) B) = N.to_nat s) by (rewrite firstn_length; lia).
    assert (LG : (N.to_nat u <= List.length G)%nat) by (unfold G; rewrite !app_length, Lf; lia).
    replace (u - blen G) with 0 by (unfold blen; lia). change (zeros 0) with (@nil byte). rewrite app_nil_r.
    assert (F : firstn (N.to_nat u) G = firstn (N.to_nat s) B ++ firstn (N.to_nat (u - s)) d).
    { unfold G. rewrite firstn_app, Lf. rewrite (firstn_all2 (firstn _ B)) by lia. f_equal. rewrite firstn_app.
      replace (N.to_nat u - N.to_nat s - List.length d)%nat with 0%nat by lia. rewrite firstn_O, app_nil_r. f_equal. lia. }
    rewrite F, <- app_assoc. do 3 f_equal. unfold G. rewrite skipn_app, Lf, (skipn_all2 (firstn _ B)) by (unfold blen; lia). cbn [app]. rewrite skipn_app.
    replace (N.to_nat (u + blen T) - N.to_nat s)%nat with (N.to_nat (u - s + N.of_nat (List.length T))) by (unfold blen; lia).
    rewrite <- (app_nil_r (skipn (N.to_nat (u - s + N.of_nat (List.length T))) d)) at 2. f_equal. rewrite WOutRun.skip_skip. apply skipn_all2. lia.
Qed.
Lemma resize_len : forall n g, blen (resize n g) = n.
Proof. intros n g. unfold resize. rewrite blen_app, WOutRun.zeros_len. unfold blen. rewrite firstn_length. lia. Qed.
Lemma patch_inner : forall p d g, p + blen d <= blen g -> blen (patch p d g) = blen g.
Proof.
  intros p d g L. unfold patch. destruct d as [|c d]; [reflexivity|]. set (D := c :: d) in *. unfold blen in *. rewrite !app_length, firstn_length, app_length, skipn_length.
  replace (p - N.of_nat (List.length g)) with 0 by lia. change (zeros 0) with (@nil byte). cbn [List.length]. lia.
Qed.

(** * Where the boxes around the list are *)

Section WHERE.
Import ScanProofs.
Lemma last_of_at : forall {Y} (g : N -> atom -> Y) id ks q acc y, last_of g id q ks acc = Some y ->
  acc = Some y \/ exists k q', y = g q' k /\ q <= q' /\ q' + asize k <= q + blen (render_all ks).
Proof.
  intros Y g id. induction ks as [|k r IH]; intros q acc y H; [left; exact H|]. cbn [last_of] in H. rewrite blen_render_all_cons.
  destruct (IH _ _ _ H) as [E|(c & q' & E & L1 & L2)].
  - destruct (is_named id k); [|left; exact E]. right. injection E as E. exists k, q. split; [congruence|]. lia.
  - right. exists c, q'. split; [exact E|]. lia.
Qed.
Definition ends_at (n : node) : N := n_at n + if n_head n =? 16 then 16 else 8.
Lemma bound_eq : forall n q k, LayoutProofs.bound n = bounds_of q k -> n_at n = q /\ n_size n = asize k /\ ends_at n = q + hlen k.
Proof.
  intros n q k H. unfold LayoutProofs.bound, bounds_of, size_of in H. injection H as H1 H2 H3. unfold ends_at. rewrite H2, H1. split; [reflexivity|]. split; [exact H3|]. unfold hlen. reflexivity.
Qed.
Lemma heads_before : forall m items mo p mv s e d, LayoutProofs.moov_of mo = moov_at p mv -> planned m items mo s e d -> m = Checked ->
  Forall (fun b => ends_at b <= s) (around mo) /\ s <= e /\ e = s + match old_list mo with Some i => n_size i | None => 0 end.
Proof.
  intros m items mo p mv s e d H (K & Es & _) ->. destruct K as [[_ K]|[K _]]; [|discriminate K].
  pose proof (f_equal vb_bounds H) as Hb. pose proof (f_equal vb_udta H) as Hu. cbn [vb_bounds vb_udta LayoutProofs.moov_of moov_at] in Hb, Hu. clear H. destruct (bound_eq _ _ _ Hb) as (A1 & A2 & A3).
  pose proof (asize_eq mv) as Z1. unfold kids_pos in Hu.
  unfold around. fold (user_data mo) in Hu. unfold old_list, edge, host in *. unfold old_list in *. unfold metadata in *. destruct (user_data mo) as [u|]; cbn [option_map within_it] in *.
  2: { cbn in Es, K. subst s e. split; [|split; [apply N.le_refl|symmetry; apply N.add_0_r]]. constructor; [lia|constructor]. }
  symmetry in Hu. cbn [option_map] in Hu. destruct (last_of_at _ _ _ _ _ _ Hu) as [X|(ku & qu & Eu & U1 & U2)]; [discriminate X|]. clear Hu. pose proof (f_equal ub_bounds Eu) as Bu. pose proof (f_equal ub_meta Eu) as Hm. cbn [ub_bounds ub_meta LayoutProofs.udta_of udta_at] in Bu, Hm. clear Eu.
  destruct (bound_eq _ _ _ Bu) as (B1 & B2 & B3). pose proof (asize_eq ku) as Z2. unfold kids_pos in Hm.
  destruct (final (id4 "meta") (n_inside u)) as [me|]; cbn [option_map within_it] in *.
  2: { cbn in Es, K. subst s e. split; [|split; [apply N.le_refl|symmetry; apply N.add_0_r]]. constructor; [lia|]. constructor; [lia|constructor]. }
  symmetry in Hm. destruct (last_of_at _ _ _ _ _ _ Hm) as [X|(km & qm & Em & M1 & M2)]; [discriminate X|]. clear Hm. pose proof (f_equal eb_bounds Em) as Bm. pose proof (f_equal eb_ilst Em) as Hi. cbn [eb_bounds eb_ilst LayoutProofs.meta_of meta_at] in Bm, Hi. clear Em.
  destruct (bound_eq _ _ _ Bm) as (C1 & C2 & C3). pose proof (asize_eq km) as Z3. unfold kids_pos in Hi.
  destruct (final (id4 "ilst") (n_inside me)) as [il|]; cbn [option_map] in *.
  - symmetry in Hi. destruct (last_of_at _ _ _ _ _ _ Hi) as [X|(ki & qi & Ei & I1 & I2)]; [discriminate X|]. destruct (bound_eq _ _ _ Ei) as (D1 & D2 & D3).
    subst s e. split; [|split; lia]. constructor; [lia|]. constructor; [lia|]. constructor; [lia|constructor].
  - subst s e. split; [|split; [apply N.le_refl|symmetry; apply N.add_0_r]]. constructor; [lia|]. constructor; [lia|]. constructor; [lia|constructor].
Qed.
End WHERE.

(** * The outcome for all items of the same announced lengths *)

Lemma size_field_ends : forall d b p v, In (p, v) (size_fields d b) -> p + blen v <= ends_at b.
Proof.
  intros d b p v H. unfold size_fields in H. unfold ends_at. destruct (n_head b =? 16).
  - destruct H as [H|[H|[]]]; pose proof (f_equal fst H) as A; pose proof (f_equal snd H) as C; cbn [fst snd] in A, C; rewrite <- A, <- C, blen_be; lia.
  - destruct H as [H|[]]; pose proof (f_equal fst H) as A; pose proof (f_equal snd H) as C; cbn [fst snd] in A, C; rewrite <- A, <- C, blen_be; lia.
Qed.
Lemma signed_small : forall n, n < 2 ^ 63 -> signed n = Z.of_N n.
Proof. intros n H. unfold signed. apply N.ltb_lt in H. rewrite H. reflexivity. Qed.
Lemma unsigned_small : forall z, (0 <= z < 2 ^ 64)%Z -> unsigned z = Z.to_N z.
Proof. intros z H. unfold unsigned. rewrite Z.mod_small by exact H. reflexivity. Qed.
Lemma patch_len_ge : forall p d g, blen d <= blen (patch p d g).
Proof. intros p d g. unfold patch. destruct d as [|c d]; [unfold blen; cbn; lia|]. rewrite !blen_app. lia. Qed.
Lemma patch_len_keeps : forall p d g, blen g <= blen (patch p d g).
Proof.
  intros p d g. unfold patch. destruct d as [|c d]; [lia|]. pose proof (WOutRun.before_len p g) as B. rewrite !blen_app, B. unfold blen in *. rewrite skipn_length. lia.
Qed.

Lemma ended_like : forall F i0 g0 p mv fuel, blen F < 2 ^ 62 -> blen g0 < 2 ^ 62 -> write_out Checked F i0 Ends g0 -> exact_items i0 ->
  (exists x q, scan fuel Checked F 0 = Ok ((ScanProofs.moov_at p mv, x), q)) ->
  exists mo s u B T, blen B = u + blen T /\ u = s + pieces_len i0 mo /\
    forall j, alike i0 j -> write_out Checked F j Ends (patch u T (patch s (flat_map snd (pieces j mo)) B)).
Proof.
  intros F i0 g0 p mv fuel LF Lg W Ex (x & q & Sc).
  assert (W63 : 2 ^ 63 = 2 * 2 ^ 62) by reflexivity. assert (W64 : 2 ^ 64 = 4 * 2 ^ 62) by reflexivity.
  assert (Z63 : (2 ^ 63 = 2 * 2 ^ 62)%Z) by reflexivity. assert (Z64 : (2 ^ 64 = 4 * 2 ^ 62)%Z) by reflexivity. assert (Z62 : (2 ^ 62 = Z.of_N (2 ^ 62))%Z) by reflexivity.
  inversion W as [| | | | | |ns mo s e d g fs pp v o g' Fi M [Pl Le] Tb Ar NB Lu Ef R Eo Eg]; subst o g'. clear W.
  inversion R as [| | |AP NT U63 Eq]; subst g0. clear R.
  assert (Mo : LayoutProofs.moov_of mo = ScanProofs.moov_at p mv).
  { pose proof (WOutScan.dscan Checked F LF fuel) as D. unfold OutBase.dpost in D. rewrite <- same_scan in Sc. destruct (d_scan fuel Checked F 0) as [[sc p0]|? ?|?|]; cbn [undress] in Sc; try discriminate Sc.
    injection Sc as -> _. destruct D as (ns' & Fi' & mo' & M' & E1 & _). pose proof (WOutUnique.finds_one Checked F _ _ Fi Fi') as <-. cbn [fst] in E1. congruence. }
  destruct (heads_before Checked i0 mo p mv s e d Mo Pl eq_refl) as (Hb & Hse & He).
  (* the numbers *)
  assert (PL : flat_map snd (pieces i0 mo) = poured Checked (pieces i0 mo)) by (symmetry; apply poured_all, AP).
  assert (LP : blen (flat_map snd (pieces i0 mo)) = pieces_len i0 mo).
  { rewrite pieces_bytes, !blen_app, <- lead_len, all_bytes_len. rewrite <- (new_head_len (id4 "ilst")). assert (Z : nsum (map (fun a => nsum (map units (ad_data a))) i0) = 0).
    { apply nsum_0. eapply Forall_impl; [|exact Ex]. cbv beta. intros a Fa. apply nsum_0. exact Fa. }
    rewrite Z. lia. }
  assert (SP : pieces_len i0 mo < 2 ^ 62).
  { rewrite <- LP, PL. eapply N.le_lt_trans; [|exact Lg]. eapply N.le_trans; [apply patch_len_ge|apply patch_len_keeps]. }
  destruct Pl as (Ke & Es & d0 & T0 & T1). pose proof (signed_small (pieces_len i0 mo)) as S1.
  set (old := match old_list mo with Some i => n_size i | None => 0 end) in *.
  assert (Lo : less_old mo = (- Z.of_N old)%Z).
  { unfold less_old, old in *. destruct (old_list mo) as [i|]; [|reflexivity]. rewrite signed_small by lia. reflexivity. }
  destruct T0 as [[_ T0]|[T0 _]]; [|discriminate T0]. destruct T1 as [[_ T1]|[T1 _]]; [|discriminate T1].
  assert (Ed : d = (Z.of_N (pieces_len i0 mo) - Z.of_N old)%Z) by (rewrite T1, T0, Lo, S1 by lia; lia).
  assert (Eu : unsigned (Z.of_N e + d) = s + pieces_len i0 mo) by (rewrite unsigned_small; lia).
  assert (El : unsigned (Z.of_N (blen F) + d) = s + pieces_len i0 mo + blen (skipn (N.to_nat e) F)).
  { assert (blen (skipn (N.to_nat e) F) = blen F - e) by (unfold blen; rewrite skipn_length; lia). rewrite unsigned_small; lia. }
  set (B := patch pp v (resize (unsigned (Z.of_N (blen F) + d)) (patches fs g))) in *.
  assert (Lv : pp + blen v <= s).
  { assert (I : In (pp, v) (flat_map (size_fields d) (around mo))) by (rewrite Ef; apply in_or_app; right; left; reflexivity).
    apply in_flat_map in I. destruct I as (b & Ib & I). rewrite Forall_forall in Hb. specialize (Hb b Ib). apply size_field_ends in I. lia. }
  exists mo, s, (s + pieces_len i0 mo), B, (skipn (N.to_nat e) F). split; [unfold B; rewrite patch_inner, resize_len; rewrite ?resize_len; lia|]. split; [reflexivity|].
  intros j A. assert (AJ : all_poured Checked (pieces j mo) = true) by (rewrite <- (alike_poured Checked i0 j mo A); exact AP).
  rewrite <- Eu, <- (poured_all Checked _ AJ). eapply (Write_rest Checked F j ns mo s e d g fs pp v); try eassumption.
  - split; [|exact Le]. split; [exact Ke|]. split; [exact Es|]. exists d0. rewrite <- (alike_size i0 j mo A). split.
    + left. split; [|exact T0]. unfold in_range. rewrite Lo. lia.
    + left. split; [|exact T1]. unfold in_range. rewrite <- T1. rewrite Ed. lia.
  - apply Rest_done; [exact AJ|exact NT|exact U63].
Qed.
