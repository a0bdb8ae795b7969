(** The adjustment of the chunk offset tables. *)

From Coq Require Import List NArith ZArith Bool Lia Arith String.
From Coq Require Import ZifyBool ZifyNat ZifyN.
From Verif Require Import Base BaseLemmas Utf UtfLemmas Types Stream Parse Find Write TagSpec FileSpec ParseLemmas ReadProofs
  ReadFacts ReadBad ReadTerm WriteState ScanProofs.
Import ListNotations.
Local Open Scope list_scope.

(** * Tables as lists of numbers *)

Lemma chunks_be : forall w offs, (0 < w)%nat -> chunks w (List.length offs) (flat_map (be w) offs) = map (be w) offs.
Proof.
  intros w offs W. induction offs as [|o r IH]; [reflexivity|]. cbn [List.length chunks flat_map map].
  rewrite firstn_app, skipn_app, be_length, Nat.sub_diag. cbn [firstn skipn].
  rewrite firstn_all2, skipn_all2 by (rewrite be_length; lia). rewrite app_nil_r. cbn [app]. rewrite IH. reflexivity.
Qed.
Lemma flat_be_length : forall w offs, List.length (flat_map (be w) offs) = (w * List.length offs)%nat.
Proof. intros w offs. induction offs as [|o r IH]; [cbn; lia|]. cbn [flat_map List.length]. rewrite app_length, be_length, IH. lia. Qed.
Lemma flat_be_blen : forall w offs, blen (flat_map (be w) offs) = N.of_nat w * blen offs.
Proof. intros. unfold blen. rewrite flat_be_length. lia. Qed.
Lemma pow_256 : forall w, 2 ^ (8 * N.of_nat w) = 256 ^ N.of_nat w.
Proof. intro w. rewrite N.pow_mul_r. reflexivity. Qed.
Lemma entries_of : forall w v n offs, (0 < w)%nat -> version0 v -> Forall (fun o => o < 2 ^ (8 * N.of_nat w)) offs ->
  table_entries w (v ++ be 4 n ++ flat_map (be w) offs) = offs.
Proof.
  intros w v n offs W (fl & L & ->) F. unfold table_entries.
  assert (E : skipn 8 ((n2b 0 :: fl) ++ be 4 n ++ flat_map (be w) offs) = flat_map (be w) offs).
  { rewrite app_assoc. rewrite skipn_app, skipn_all2 by (cbn [app List.length]; rewrite app_length, be_length; cbn [List.length]; lia).
    cbn [app List.length]. rewrite app_length, be_length, L. reflexivity. }
  rewrite E, flat_be_length. rewrite Nat.mul_comm, Nat.div_mul by lia. rewrite chunks_be by exact W.
  rewrite map_map. rewrite <- (map_id offs) at 2. apply map_ext_in. intros o I. apply unbe_be. rewrite <- pow_256.
  rewrite Forall_forall in F. apply F, I.
Qed.

(** * Atoms of the same size *)

Definition same_size (k k' : atom) : Prop := asize k' = asize k /\ a_id k' = a_id k /\ a_ext k' = a_ext k.

Definition size_keeping (h : atom -> atom) (ks : list atom) : Prop := forall c, In c ks -> same_size c (h c).

Lemma map_kids_size : forall id h ks, (forall c, In c ks -> a_id c = id -> same_size c (h c)) ->
  blen (render_all (map_kids id h ks)) = blen (render_all ks).
Proof.
  intros id h ks. induction ks as [|k r IH]; intros H; [reflexivity|]. cbn [map_kids map]. rewrite !blen_render_all_cons.
  fold (map_kids id h r). rewrite IH by (intros; apply H; auto; right; auto). f_equal.
  destruct (is_named id k) eqn:E; [|reflexivity]. apply H; [left; reflexivity|]. apply is_named_eq, E.
Qed.
Lemma with_kids_size : forall k ks, blen (render_all ks) = blen (render_all (a_kids k)) -> same_size k (with_kids k ks).
Proof.
  intros k ks H. split; [|split; reflexivity]. rewrite !asize_eq. unfold hlen, csize, a_content, with_kids. cbn [a_ext a_pre a_kids].
  rewrite !blen_app, H. reflexivity.
Qed.
Lemma map_child_size : forall id h k, (forall c, In c (a_kids k) -> a_id c = id -> same_size c (h c)) -> same_size k (map_child id h k).
Proof. intros id h k H. apply with_kids_size, map_kids_size, H. Qed.
Lemma render_with_kids : forall k ks, blen (render_all ks) = blen (render_all (a_kids k)) ->
  render (with_kids k ks) = header (a_ext k) (a_id k) (csize k) ++ a_pre k ++ render_all ks.
Proof.
  intros k ks H. rewrite render_eq. unfold with_kids at 1 2 4, a_content. cbn [a_ext a_id a_pre a_kids]. do 2 f_equal.
  unfold csize, a_content, with_kids. cbn [a_pre a_kids]. rewrite !blen_app, H. reflexivity.
Qed.
Lemma render_kids : forall k, render k = header (a_ext k) (a_id k) (csize k) ++ a_pre k ++ render_all (a_kids k).
Proof. intro k. apply render_eq. Qed.

Lemma map_kids_none : forall id h ks, named_kids id ks = [] -> map_kids id h ks = ks.
Proof.
  intros id h ks. induction ks as [|k r IH]; intros H; [reflexivity|]. rewrite named_cons in H. cbn [map_kids map].
  destruct (is_named id k); [discriminate|]. f_equal. apply IH, H.
Qed.
Lemma map_kids_app : forall id h x y, map_kids id h (x ++ y) = map_kids id h x ++ map_kids id h y.
Proof. intros. apply map_app. Qed.
Lemma split_one : forall id ks, at_most_one id ks ->
  named_kids id ks = [] \/ exists x c y, ks = x ++ c :: y /\ a_id c = id /\ named_kids id x = [] /\ named_kids id y = [].
Proof.
  intros id ks. unfold at_most_one. induction ks as [|k r IH]; intros H; [left; reflexivity|]. rewrite named_cons in *.
  destruct (is_named id k) eqn:E.
  - right. exists [], k, r. split; [reflexivity|]. split; [apply is_named_eq, E|]. split; [reflexivity|].
    cbn [List.length] in H. destruct (named_kids id r); [reflexivity|cbn in H; lia].
  - destruct (IH H) as [N|(x & c & y & -> & I & N1 & N2)]; [left; exact N|]. right.
    exists (k :: x), c, y. split; [reflexivity|]. split; [exact I|]. split; [rewrite named_cons, E; exact N1|exact N2].
Qed.
Lemma map_kids_one : forall id h x c y, a_id c = id -> named_kids id x = [] -> named_kids id y = [] ->
  map_kids id h (x ++ c :: y) = x ++ h c :: y.
Proof.
  intros id h x c y I N1 N2. rewrite map_kids_app, map_kids_none by exact N1. cbn [map_kids map].
  rewrite (proj2 (is_named_eq id c) I). f_equal. f_equal. apply map_kids_none, N2.
Qed.

(** * Patches *)

Section Patch.
  Variables (f0 : bytes) (lo : N) (cap : N) (m : mode) (diff : Z).
  Hypothesis D : (- 2 ^ 62 < diff < 2 ^ 62)%Z.

  (** The file is [F], everything is flushed. *)
  Definition file_is (F : bytes) (s : wst) : Prop := exists x y, stf f0 lo x y s /\ x ++ y = F.

  (** The action replaces [k] at [p] by [k']. *)
  Definition patches (act : W unit) (p : N) (k k' : atom) : Prop :=
    forall A B, blen A = p -> lo <= p -> small (A ++ render k ++ B) ->
      tri (file_is (A ++ render k ++ B)) act tt (file_is (A ++ render k' ++ B)).

  Lemma tri_offsets : forall (wide : bool) offs a b, let w := if wide then 8%nat else 4%nat in
    lo <= blen a -> Forall (fun o => o < 2 ^ (8 * N.of_nat w) /\ o < 2 ^ 62) offs ->
    tri (st f0 lo a (flat_map (be w) offs ++ b)) (write_offsets cap m wide diff offs) tt
        (st f0 lo (a ++ flat_map (be w) (map (shift_entry w diff) offs)) b).
  Proof.
    intros wide offs a b w. revert a. induction offs as [|o r IH]; intros a Lo F; cbn [write_offsets flat_map map].
    - rewrite app_nil_r. apply tri_ret.
    - inversion F as [|? ? [O1 O2] Fr]; subst.
      assert (E : addi m (as_i64 o) diff = Ok (Z.of_N o + diff)%Z).
      { rewrite as_i64_small by (unfold two63; lia). apply addi_ok. unfold two63. lia. }
      eapply tri_lift; [exact E|]. rewrite <- !app_assoc.
      assert (Eb : (if wide then be64 (i_as_u64 (Z.of_N o + diff)) else be32 (i_as_u32 (Z.of_N o + diff))) = be w (shift_entry w diff o)).
      { unfold w. destruct wide; reflexivity. }
      rewrite Eb. eapply tri_bind; [apply tri_write; [rewrite !blen_be; reflexivity|exact Lo]|].
      rewrite app_assoc. apply IH; [rewrite blen_app; lia|exact Fr].
  Qed.

  Lemma read_many_be : forall k rd offs, (forall v, v < 256 ^ N.of_nat k -> parses rd (be k v) v) ->
    Forall (fun o => o < 2 ^ (8 * N.of_nat k)) offs -> parses (read_many (List.length offs) rd) (flat_map (be k) offs) offs.
  Proof.
    intros k rd offs H F. induction F as [|o r Ho F IH]; cbn [List.length read_many flat_map]; [apply parses_ret|].
    eapply parses_bind; [apply H; rewrite <- pow_256; exact Ho|]. eapply parses_bind_r; [exact IH|]. apply parses_ret.
  Qed.

  Lemma table_reads : forall (wide : bool) k v offs, let w := if wide then 8%nat else 4%nat in
    a_kids k = [] -> version0 v -> a_pre k = v ++ be 4 (blen offs) ++ flat_map (be w) offs -> blen offs < 2 ^ 32 ->
    Forall (fun o => o < 2 ^ (8 * N.of_nat w)) offs ->
    forall f p, small f -> sits f p (render k) ->
    (if wide then co64_parse m (size_of k) else stco_parse m (size_of k)) f (p + hlen k) = Ok ((p + hlen k + 8, offs), p + asize k).
  Proof.
    intros wide k v offs w K V E L F f p Sm S.
    assert (C : a_content k = v ++ be 4 (blen offs) ++ flat_map (be w) offs) by (unfold a_content; rewrite K, E; apply app_nil_r).
    assert (Cs : csize k = 8 + N.of_nat w * blen offs).
    { unfold csize. rewrite C, !blen_app, blen_be, flat_be_blen. destruct V as (fl & Lf & ->). rewrite blen_cons.
      unfold blen at 1. rewrite Lf. lia. }
    apply sits_content in S. rewrite C in S. pose proof S as S0. apply sits_app in S. destruct S as [Sv S].
    apply sits_app in S. destruct S as [Sn So]. destruct (parses_version0 v V) as (fl & Lf & Pv).
    assert (Lv : blen v = 4) by (destruct V as (fl' & Lf' & ->); rewrite blen_cons; unfold blen; rewrite Lf'; reflexivity).
    assert (X : table_parse (N.of_nat w) (if wide then read_u64 else read_u32) m (size_of k) f (p + hlen k) = Ok ((p + hlen k + 8, offs), p + asize k)).
    { unfold table_parse. erewrite bind_ok by (apply (Pv f _ Sm Sv)). cbn [fst].
      erewrite bind_ok by (apply (parses_read_u32 _ L f _ Sm Sn)). rewrite content_len_of.
      erewrite bind_ok by reflexivity. rewrite Cs, N.eqb_refl. cbn [negb].
      erewrite bind_ok by reflexivity. rewrite to_nat_blen.
      assert (Rm : parses (read_many (List.length offs) (if wide then read_u64 else read_u32)) (flat_map (be w) offs) offs).
      { apply read_many_be; [|exact F]. intros x Hx. unfold w in *. destruct wide; [apply parses_read_u64|apply parses_read_u32]; exact Hx. }
      erewrite bind_ok by (apply (Rm f _ Sm So)). unfold ret. rewrite blen_be, flat_be_blen, Lv, asize_eq, Cs. 
      match goal with |- Ok (?a, _, ?b) = Ok (?c, _, ?d) => replace c with a by lia; replace d with b by lia end. reflexivity. }
    unfold w in X. destruct wide; exact X.
  Qed.

  Lemma shift_table_pre : forall w k v offs, (0 < w)%nat -> version0 v ->
    a_pre k = v ++ be 4 (blen offs) ++ flat_map (be w) offs -> Forall (fun o => o < 2 ^ (8 * N.of_nat w)) offs ->
    shift_table w diff k =
    Atom (a_ext k) (a_id k) (v ++ be 4 (blen offs) ++ flat_map (be w) (map (shift_entry w diff) offs)) (a_kids k).
  Proof.
    intros w k v offs W V E F. unfold shift_table. rewrite E, entries_of by assumption. f_equal. rewrite app_assoc, firstn_app.
    destruct V as (fl & L & ->).
    assert (Len : List.length ((n2b 0 :: fl) ++ be 4 (blen offs)) = 8%nat) by (rewrite app_length, be_length; cbn [List.length]; lia).
    rewrite firstn_all2 by lia. rewrite Len, Nat.sub_diag. cbn [firstn]. rewrite app_nil_r, <- app_assoc. reflexivity.
  Qed.
  Lemma shift_table_same : forall w k, (0 < w)%nat -> good_table w k -> same_size k (shift_table w diff k).
  Proof.
    clear D.
    intros w k W (K & v & offs & V & E & L & F).
    assert (F' : Forall (fun o => o < 2 ^ (8 * N.of_nat w)) offs) by (eapply Forall_impl; [|exact F]; cbv beta; tauto).
    rewrite (shift_table_pre w k v offs W V E F'). split; [|split; reflexivity]. rewrite !asize_eq. f_equal.
    unfold csize, a_content. cbn [a_pre a_kids]. rewrite E, !blen_app, !flat_be_blen, blen_map. reflexivity.
  Qed.

  Lemma table_patches : forall (wide : bool) k p, let w := if wide then 8%nat else 4%nat in good_table w k ->
    patches (adjust_table cap m wide diff (bounds_of p k)) p k (shift_table w diff k).
  Proof.
    intros wide k p w G A B LA Lo Sm. assert (W : (0 < w)%nat) by (unfold w; destruct wide; lia).
    pose proof (shift_table_same w k W G) as [Sz _]. destruct G as (K & v & offs & V & E & L & F).
    assert (F' : Forall (fun o => o < 2 ^ (8 * N.of_nat w)) offs) by (eapply Forall_impl; [|exact F]; cbv beta; tauto).
    assert (S : sits (A ++ render k ++ B) p (render k)) by (exists A, B; auto).
    pose proof (sits_len _ _ _ S) as SL. fold (asize k) in SL. unfold small in Sm. pose proof (hlen_pos k) as HL.
    pose proof (asize_eq k) as AE.
    assert (Cs : csize k = 8 + N.of_nat w * blen offs).
    { unfold csize, a_content. rewrite K, E. change (render_all []) with (@nil byte). rewrite app_nil_r, !blen_app, blen_be, flat_be_blen.
      destruct V as (fl & Lf & ->). rewrite blen_cons. unfold blen at 1. rewrite Lf. lia. }
    intros s (x & y & St & Ex). unfold adjust_table.
    assert (Cp : content_pos m (bounds_of p k) = Ok (p + hlen k)).
    { unfold content_pos, bounds_of. cbn [b_pos b_size]. rewrite head_len_of. apply add64_ok. unfold two64. lia. }
    pose (hd := header (a_ext k) (a_id k) (csize k) ++ v ++ be 4 (blen offs)).
    assert (Hd : render k = hd ++ flat_map (be w) offs).
    { rewrite render_eq. unfold hd, a_content. rewrite K, E. change (render_all []) with (@nil byte). rewrite app_nil_r, <- !app_assoc. reflexivity. }
    assert (Hd' : render (shift_table w diff k) = hd ++ flat_map (be w) (map (shift_entry w diff) offs)).
    { rewrite (shift_table_pre w k v offs W V E F'). rewrite render_eq. unfold hd, a_content. cbn [a_ext a_id a_pre a_kids].
      rewrite K. change (render_all []) with (@nil byte). rewrite app_nil_r, <- !app_assoc. do 2 f_equal.
      unfold csize, a_content. cbn [a_pre a_kids]. rewrite K, E, !blen_app, !flat_be_blen, blen_map. reflexivity. }
    assert (Lh : blen hd = hlen k + 8).
    { unfold hd. rewrite !blen_app, blen_header, blen_be. destruct V as (fl & Lf & ->). rewrite blen_cons. unfold blen. rewrite Lf.
      unfold hlen. destruct (a_ext k); reflexivity. }
    revert s St. change (tri (stf f0 lo x y) (adjust_table cap m wide diff (bounds_of p k)) tt (file_is (A ++ render (shift_table w diff k) ++ B))).
    unfold adjust_table. eapply tri_lift; [exact Cp|].
    eapply tri_bind.
    { eapply tri_read; [rewrite Ex; apply (table_reads wide k v offs K V E L F' _ p); [exact Sm|exact S]|unfold two63; lia]. }
    cbn [fst snd]. eapply tri_bind.
    { eapply tri_weaken; [apply (tri_seek f0 lo (p + hlen k + 8) x y (A ++ hd) (flat_map (be w) offs ++ B))| |intros ? H; exact H].
      - rewrite Ex, Hd, <- !app_assoc. reflexivity.
      - rewrite blen_app. lia.
      - unfold two63. lia.
      - intros s H. apply H. }
    eapply tri_bind.
    { eapply tri_weaken; [apply (tri_offsets wide offs (A ++ hd) B)| |intros ? H; exact H].
      - rewrite blen_app. lia.
      - exact F.
      - intros s H. apply H. }
    eapply tri_weaken; [apply tri_flush|intros ? H; exact H|]. intros s H. exists ((A ++ hd) ++ flat_map (be w) (map (shift_entry w diff) offs)), B.
    split; [exact H|]. rewrite Hd', <- !app_assoc. reflexivity.
  Qed.

  (** ** Containers *)

  Lemma patch_child : forall {Y} id (g : N -> atom -> Y) (act : Y -> W unit) h p k, at_most_one id (a_kids k) ->
    (forall c q, In c (a_kids k) -> a_id c = id -> patches (act (g q c)) q c (h c) /\ same_size c (h c)) ->
    patches (match last_of g id (kids_pos p k) (a_kids k) None with Some y => act y | None => wret tt end) p k (map_child id h k).
  Proof.
    intros Y id g act h p k O H A B LA Lo Sm.
    assert (Ms : blen (render_all (map_kids id h (a_kids k))) = blen (render_all (a_kids k))).
    { apply map_kids_size. intros c I E. apply (H c 0 I E). }
    assert (Rm : render (map_child id h k) = header (a_ext k) (a_id k) (csize k) ++ a_pre k ++ render_all (map_kids id h (a_kids k))).
    { apply render_with_kids, Ms. }
    destruct (split_one id (a_kids k) O) as [N|(x & c & y & E & I & N1 & N2)].
    - rewrite last_of_none by exact N. rewrite Rm, map_kids_none by exact N. rewrite <- render_kids. apply tri_ret.
    - rewrite E. rewrite last_of_only by assumption. rewrite Rm. rewrite E. rewrite map_kids_one by assumption.
      assert (In c (a_kids k)) as Ic by (rewrite E; apply in_or_app; right; left; reflexivity).
      pose (A' := A ++ header (a_ext k) (a_id k) (csize k) ++ a_pre k ++ render_all x).
      pose (B' := render_all y ++ B).
      assert (E1 : A ++ render k ++ B = A' ++ render c ++ B').
      { unfold A', B'. rewrite render_kids, E, render_all_app, render_all_cons, <- !app_assoc. reflexivity. }
      assert (E2 : A ++ (header (a_ext k) (a_id k) (csize k) ++ a_pre k ++ render_all (x ++ h c :: y)) ++ B = A' ++ render (h c) ++ B').
      { unfold A', B'. rewrite render_all_app, render_all_cons, <- !app_assoc. reflexivity. }
      rewrite E1 in *. rewrite E2.
      assert (LA' : blen A' = kids_pos p k + blen (render_all x)).
      { unfold A', kids_pos, hlen. rewrite !blen_app, blen_header. lia. }
      apply H; [exact Ic|exact I|exact LA'| |exact Sm]. unfold kids_pos. lia.
  Qed.

  Lemma last_of_map : forall {Y} (g : N -> atom -> Y) id id' h ks q acc, id <> id' ->
    (forall c, In c ks -> a_id c = id' -> same_size c (h c)) ->
    last_of g id q (map_kids id' h ks) acc = last_of g id q ks acc.
  Proof.
    intros Y g id id' h. induction ks as [|k r IH]; intros q acc D' H; [reflexivity|]. cbn [map_kids map last_of].
    fold (map_kids id' h r). destruct (is_named id' k) eqn:E.
    - apply is_named_eq in E. destruct (H k (or_introl eq_refl) E) as (S & I & _). rewrite S.
      assert (is_named id (h k) = false) as -> by (destruct (is_named id (h k)) eqn:X; [apply is_named_eq in X; congruence|reflexivity]).
      assert (is_named id k = false) as -> by (destruct (is_named id k) eqn:X; [apply is_named_eq in X; congruence|reflexivity]).
      apply IH; [exact D'|]. intros. apply H; [right|]; assumption.
    - apply IH; [exact D'|]. intros. apply H; [right|]; assumption.
  Qed.
  Lemma named_map : forall id id' h ks, id <> id' -> (forall c, In c ks -> a_id c = id' -> same_size c (h c)) ->
    named_kids id (map_kids id' h ks) = named_kids id ks.
  Proof.
    intros id id' h ks D' H. induction ks as [|k r IH]; [reflexivity|]. cbn [map_kids map]. rewrite !named_cons. fold (map_kids id' h r).
    rewrite IH by (intros; apply H; [right|]; assumption). destruct (is_named id' k) eqn:E; [|reflexivity].
    apply is_named_eq in E. destruct (H k (or_introl eq_refl) E) as (S & I & _).
    assert (is_named id (h k) = false) as -> by (destruct (is_named id (h k)) eqn:X; [apply is_named_eq in X; congruence|reflexivity]).
    assert (is_named id k = false) as -> by (destruct (is_named id k) eqn:X; [apply is_named_eq in X; congruence|reflexivity]).
    reflexivity.
  Qed.
  Lemma map_kids_comm : forall i1 i2 g h ks, i1 <> i2 -> (forall c, In c ks -> a_id c = i1 -> a_id (g c) = i1) ->
    (forall c, In c ks -> a_id c = i2 -> a_id (h c) = i2) -> map_kids i1 g (map_kids i2 h ks) = map_kids i2 h (map_kids i1 g ks).
  Proof.
    intros i1 i2 g h ks D' G H. unfold map_kids. rewrite !map_map. apply map_ext_in. intros c I.
    destruct (is_named i1 c) eqn:E1; destruct (is_named i2 c) eqn:E2; rewrite ?E1, ?E2; try reflexivity.
    - apply is_named_eq in E1, E2. congruence.
    - apply is_named_eq in E1. specialize (G c I E1). destruct (is_named i2 (g c)) eqn:X; [|reflexivity]. apply is_named_eq in X. congruence.
    - apply is_named_eq in E2. specialize (H c I E2). destruct (is_named i1 (h c)) eqn:X; [|reflexivity]. apply is_named_eq in X. congruence.
  Qed.

  Lemma named_in : forall id (P : atom -> Prop) ks c, Forall P (named_kids id ks) -> In c ks -> a_id c = id -> P c.
  Proof. intros id P ks c H I E. rewrite Forall_forall in H. apply H, filter_In. split; [exact I|]. apply is_named_eq, E. Qed.

  Lemma stbl_patches : forall k p, good_stbl k -> patches (adjust_stbl cap m diff (stbl_at p k)) p k (shift_stbl diff k) /\ same_size k (shift_stbl diff k).
  Proof.
    intros k p (O1 & O2 & T1 & T2).
    assert (S1 : forall c, In c (a_kids k) -> a_id c = id4 "stco" -> same_size c (shift_table 4 diff c)).
    { intros c I E. apply shift_table_same; [lia|]. eapply named_in; eassumption. }
    assert (S2 : forall c, In c (a_kids k) -> a_id c = id4 "co64" -> same_size c (shift_table 8 diff c)).
    { intros c I E. apply shift_table_same; [lia|]. eapply named_in; eassumption. }
    pose (k1 := map_child (id4 "stco") (shift_table 4 diff) k).
    assert (Z1 : same_size k k1) by (apply map_child_size, S1).
    assert (Eq : shift_stbl diff k = map_child (id4 "co64") (shift_table 8 diff) k1).
    { unfold shift_stbl, k1, map_child, with_kids. cbn [a_ext a_id a_pre a_kids]. f_equal. apply map_kids_comm; [discriminate| |].
      - intros c I E. rewrite <- E. apply S1; assumption.
      - intros c I E. rewrite <- E. apply S2; assumption. }
    assert (N2 : named_kids (id4 "co64") (a_kids k1) = named_kids (id4 "co64") (a_kids k)) by (apply named_map; [discriminate|exact S1]).
    assert (G2 : forall c, In c (a_kids k1) -> a_id c = id4 "co64" -> good_table 8 c).
    { intros c I E. eapply named_in; [|exact I|exact E]. rewrite N2. exact T2. }
    assert (P1 : patches (match sb_stco (stbl_at p k) with Some b => adjust_table cap m false diff b | None => wret tt end) p k k1).
    { apply (patch_child (id4 "stco") bounds_of (adjust_table cap m false diff)); [exact O1|]. intros c q I E. split; [|apply S1; assumption].
      apply (table_patches false). eapply named_in; eassumption. }
    assert (Lk : last_of bounds_of (id4 "co64") (kids_pos p k) (a_kids k) None = last_of bounds_of (id4 "co64") (kids_pos p k1) (a_kids k1) None).
    { unfold k1, map_child at 2, with_kids. cbn [a_kids]. rewrite last_of_map; [reflexivity|discriminate|exact S1]. }
    assert (P2 : patches (match sb_co64 (stbl_at p k) with Some b => adjust_table cap m true diff b | None => wret tt end) p k1 (shift_stbl diff k)).
    { cbn [stbl_at sb_co64]. rewrite Lk, Eq. apply (patch_child (id4 "co64") bounds_of (adjust_table cap m true diff)).
      - unfold at_most_one. rewrite N2. exact O2.
      - intros c q I E. specialize (G2 c I E). split; [apply (table_patches true); exact G2|apply shift_table_same; [lia|exact G2]]. }
    split.
    - intros A B LA Lo Sm. unfold adjust_stbl. eapply tri_bind; [apply P1; assumption|]. apply P2; try assumption.
      unfold small in *. rewrite !blen_app in *. destruct Z1 as [Z1 _]. unfold asize in Z1. rewrite Z1. exact Sm.
    - rewrite Eq. destruct (map_child_size (id4 "co64") (shift_table 8 diff) k1) as (X1 & X2 & X3).
      + intros c I E. apply shift_table_same; [lia|]. apply G2; assumption.
      + destruct Z1 as (Y1 & Y2 & Y3). split; [rewrite X1; exact Y1|]. split; congruence.
  Qed.

  Definition opt_act {Y} (act : Y -> W unit) (o : option Y) : W unit := match o with Some y => act y | None => wret tt end.
  Lemma box_patches : forall {X Y} id (g : N -> atom -> Y) (sub : X -> option Y) (mk : N -> atom -> X) (act : Y -> W unit) h k p,
    (forall q c, sub (mk q c) = last_of g id (kids_pos q c) (a_kids c) None) ->
    only_child id (fun c => forall q, patches (act (g q c)) q c (h c) /\ same_size c (h c)) k ->
    patches (opt_act act (sub (mk p k))) p k (map_child id h k) /\ same_size k (map_child id h k).
  Proof.
    intros X Y id g sub mk act h k p E [O H]. split.
    - rewrite E. apply patch_child; [exact O|]. intros c q I Ec. apply (named_in id _ (a_kids k) c H I Ec).
    - apply map_child_size. intros c I Ec. apply (named_in id _ (a_kids k) c H I Ec 0).
  Qed.

  Lemma only_impl : forall id (P Q : atom -> Prop) k, only_child id P k -> (forall c, P c -> Q c) -> only_child id Q k.
  Proof. intros id P Q k [O H] K. split; [exact O|]. eapply Forall_impl; [|exact H]. exact K. Qed.

  Lemma trak_patches : forall k, good_trak k -> forall p,
    patches (opt_act (adjust_stbl cap m diff) (trak_stbl (trak_at p k))) p k (shift_trak diff k) /\ same_size k (shift_trak diff k).
  Proof.
    intros k G p.
    pose (act_n := fun n => opt_act (adjust_stbl cap m diff) (nb_stbl n)).
    pose (act_d := fun d => opt_act act_n (db_minf d)).
    assert (X : opt_act (adjust_stbl cap m diff) (trak_stbl (trak_at p k)) = opt_act act_d (tb_mdia (trak_at p k))).
    { unfold trak_stbl, act_d, act_n. destruct (tb_mdia (trak_at p k)) as [d|]; [|reflexivity]. cbn [opt_act].
      destruct (db_minf d); reflexivity. }
    rewrite X. unfold shift_trak. apply (box_patches (id4 "mdia") mdia_at tb_mdia trak_at act_d); [reflexivity|].
    eapply only_impl; [exact G|]. clear - D. intros k G p. apply (box_patches (id4 "minf") minf_at db_minf mdia_at act_n); [reflexivity|].
    eapply only_impl; [exact G|]. clear - D. intros k G p. apply (box_patches (id4 "stbl") stbl_at nb_stbl minf_at); [reflexivity|].
    eapply only_impl; [exact G|]. clear - D. intros k G p. apply stbl_patches, G.
  Qed.

  Lemma traks_patch : forall ks q A B, Forall good_trak (named_kids (id4 "trak") ks) -> blen A = q -> lo <= q ->
    small (A ++ render_all ks ++ B) ->
    tri (file_is (A ++ render_all ks ++ B)) (adjust_traks cap m diff (all_of trak_at (id4 "trak") q ks)) tt
        (file_is (A ++ render_all (shift_traks diff ks) ++ B)) /\
    blen (render_all (shift_traks diff ks)) = blen (render_all ks).
  Proof.
    induction ks as [|k r IH]; intros q A B G LA Lo Sm; [split; [apply tri_ret|reflexivity]|].
    rewrite named_cons in G. unfold shift_traks in *. cbn [all_of map_kids map]. fold (map_kids (id4 "trak") (shift_trak diff) r).
    rewrite !render_all_cons, <- !app_assoc in *. destruct (is_named (id4 "trak") k).
    - inversion G as [|? ? Gk Gr]; subst. destruct (trak_patches k Gk (blen A)) as [P (Sz & _)].
      assert (Sm' : small ((A ++ render (shift_trak diff k)) ++ render_all r ++ B)).
      { unfold small in *. rewrite !blen_app in *. unfold asize in Sz. rewrite Sz. lia. }
      destruct (IH (blen A + asize k) (A ++ render (shift_trak diff k)) B Gr) as [T L]; [rewrite blen_app; unfold asize in Sz; rewrite Sz; reflexivity|lia|exact Sm'|].
      split.
      + cbn [app adjust_traks]. eapply tri_bind; [apply P; [reflexivity|exact Lo|exact Sm]|]. rewrite <- !app_assoc in T. exact T.
      + rewrite !blen_app, L. unfold asize in Sz. rewrite Sz. reflexivity.
    - destruct (IH (q + asize k) (A ++ render k) B G) as [T L]; [rewrite blen_app, LA; reflexivity|lia|rewrite <- app_assoc; exact Sm|].
      split; [|rewrite !blen_app, L; reflexivity]. cbn [app]. rewrite <- !app_assoc in T. exact T.
  Qed.
End Patch.
