(** Writing replaces the metadata of a file, given as a tree of atoms, and nothing else. *)

From Coq Require Import List NArith ZArith Bool Lia Arith String.
From Coq Require Import ZifyBool ZifyNat ZifyN.
From Verif Require Import Base BaseLemmas Utf UtfLemmas Types Stream Parse Find Write TagSpec FileSpec ParseLemmas ReadProofs ReadSpec ReadFacts
  ReadBad ReadTerm WriteBytes WriteState ScanProofs AdjustProofs FramesProofs.
Import ListNotations.
Local Open Scope list_scope.

(** * Where the new atoms go *)

Definition meta_aims (m : mode) (e : meta_bounds) (start old : N) : Prop :=
  (eb_ilst e = None /\ bounds_end m (eb_bounds e) = Ok start /\ old = 0) \/
  (exists b, eb_ilst e = Some b /\ b_pos b = start /\ bounds_end m b = Ok (start + old) /\ sz_len (b_size b) = old).
Definition udta_aims (m : mode) (items : list atom_data) (u : udta_bounds) (start old : N) (new : new_atoms) (upd : list bounds) : Prop :=
  (ub_meta u = None /\ bounds_end m (ub_bounds u) = Ok start /\ old = 0 /\
   new = NMeta (NewMeta (Some meta_hdlr) items) /\ upd = [ub_bounds u]) \/
  (exists e, ub_meta u = Some e /\ meta_aims m e start old /\
   new = NIlst (match eb_hdlr e with None => Some meta_hdlr | Some _ => None end) items /\ upd = [ub_bounds u; eb_bounds e]).
Definition moov_aims (m : mode) (items : list atom_data) (v : moov_bounds) (start old : N) (new : new_atoms) (upd : list bounds) : Prop :=
  (vb_udta v = None /\ bounds_end m (vb_bounds v) = Ok start /\ old = 0 /\
   new = NUdta (NewMeta (Some meta_hdlr) items) /\ upd = [vb_bounds v]) \/
  (exists u r, vb_udta v = Some u /\ udta_aims m items u start old new r /\ upd = vb_bounds v :: r).

Lemma prepare_ok : forall fuel m items f mb md q start old new upd,
  scan fuel m f 0 = Ok ((mb, md), q) -> moov_aims m items mb start old new upd ->
  start + old <= blen f -> blen f < 2 ^ 62 -> new_atoms_len new < 2 ^ 62 ->
  exists q', prepare fuel m items f 0 =
    Ok (Plan mb md start (start + old) (Z.of_N (new_atoms_len new) - Z.of_N old) upd new (blen f) (skipn (N.to_nat (start + old)) f), q').
Proof.
  intros fuel m items f mb md q start old new upd Sc A Le Sm Nl. unfold prepare.
  erewrite bind_ok by exact Sc. cbn [fst snd].
  assert (Tail : forall new' d0 k, new' = new -> d0 = (- Z.of_N old)%Z -> forall upd', upd' = upd -> forall s2, s2 = (start, start + old) ->
    exists q', (diff <- lift (addi m d0 (as_i64 (new_atoms_len new'))) ;;
      old_len <- seek_end ;;
      moved_len <- lift (sub64 m old_len (snd s2)) ;;
      if two63 <=? moved_len then lift (Panic PCapacity) else
      seek_start (snd s2) ;;; moved <- read_to_end ;;
      ret (Plan mb md (fst s2) (snd s2) diff upd' new' old_len moved)) f k =
    Ok (Plan mb md start (start + old) (Z.of_N (new_atoms_len new) - Z.of_N old) upd new (blen f) (skipn (N.to_nat (start + old)) f), q')).
  { intros new' d0 k -> -> upd' -> s2 ->. cbn [fst snd].
    erewrite bind_ok by (unfold lift; rewrite as_i64_small by (unfold two63; lia); rewrite addi_ok by (unfold two63; lia); reflexivity).
    erewrite bind_ok by reflexivity. erewrite bind_ok by (unfold lift; rewrite sub64_ok by lia; reflexivity).
    rewrite (proj2 (N.leb_gt _ _)) by (unfold two63; lia).
    erewrite bind_ok by (unfold seek_start; rewrite (proj2 (N.ltb_lt _ _)) by (unfold two63; lia); reflexivity).
    erewrite bind_ok by reflexivity. unfold ret. replace (N.min (start + old) (blen f)) with (start + old) by lia.
    replace (- Z.of_N old + Z.of_N (new_atoms_len new))%Z with (Z.of_N (new_atoms_len new) - Z.of_N old)%Z by lia. eauto. }
  destruct A as [(U & E & -> & -> & ->)|(u & r & U & A & ->)]; rewrite U.
  - erewrite bind_ok by reflexivity. cbv iota beta. erewrite bind_ok by reflexivity.
    erewrite bind_ok by (erewrite bind_ok by (unfold lift; rewrite E; reflexivity); reflexivity).
    apply Tail; [reflexivity|reflexivity|reflexivity|]. rewrite N.add_0_r. reflexivity.
  - destruct A as [(M & E & -> & -> & ->)|(e & M & A & -> & ->)]; rewrite M.
    + erewrite bind_ok by reflexivity. cbv iota beta. erewrite bind_ok by reflexivity.
      erewrite bind_ok by (erewrite bind_ok by (unfold lift; rewrite E; reflexivity); reflexivity).
      apply Tail; [reflexivity|reflexivity|reflexivity|]. rewrite N.add_0_r. reflexivity.
    + destruct A as [(I & E & ->)|(b & I & Eb & E & L)]; rewrite I.
      * erewrite bind_ok by reflexivity. cbv iota beta.
        erewrite bind_ok by (erewrite bind_ok by (unfold lift; rewrite E; reflexivity); reflexivity).
        erewrite bind_ok by reflexivity. apply Tail; [reflexivity|reflexivity|reflexivity|]. rewrite N.add_0_r. reflexivity.
      * erewrite bind_ok.
        2:{ erewrite bind_ok by (unfold lift; rewrite E; reflexivity).
            erewrite bind_ok by (unfold lift; rewrite as_i64_small by (unfold two63; lia); rewrite subi_ok by (unfold two63; lia); reflexivity).
            reflexivity. }
        cbv iota beta. erewrite bind_ok by reflexivity. erewrite bind_ok by reflexivity.
        apply Tail; [reflexivity|rewrite L; lia|reflexivity|]. rewrite Eb. reflexivity.
Qed.

(** * Trees *)

Lemma split_on_at : forall id x c y, a_id c = id -> named_kids id x = [] -> split_on id (x ++ c :: y) = Some (x, c, y).
Proof.
  intros id x c y I. induction x as [|k r IH]; intros N; cbn [split_on app].
  - rewrite (proj2 (is_named_eq id c) I). reflexivity.
  - rewrite named_cons in N. destruct (is_named id k); [discriminate|]. rewrite IH by exact N. reflexivity.
Qed.
Lemma split_on_none : forall id l, named_kids id l = [] -> split_on id l = None.
Proof.
  intros id l. induction l as [|k r IH]; intros N; [reflexivity|]. cbn [split_on]. rewrite named_cons in N.
  destruct (is_named id k); [discriminate|]. rewrite IH by exact N. reflexivity.
Qed.
Lemma last_of_some : forall {Y} (g : N -> atom -> Y) id ks q acc, named_kids id ks <> [] -> exists v, last_of g id q ks acc = Some v.
Proof.
  intros Y g id. assert (H : forall ks q v, exists w, last_of g id q ks (Some v) = Some w).
  { induction ks as [|k r IH]; intros q v; cbn [last_of]; [eauto|]. destruct (is_named id k); apply IH. }
  induction ks as [|k r IH]; intros q acc N; [contradiction|]. rewrite named_cons in N. cbn [last_of].
  destruct (is_named id k); [apply H|apply IH, N].
Qed.
Lemma with_same : forall k, with_kids k (a_kids k) = k.
Proof. intros []. reflexivity. Qed.
Lemma fits_kid : forall k ks c, fits (with_kids k ks) = true -> In c ks -> fits c = true.
Proof. intros k ks c F I. apply fits_eq in F. destruct F as [_ F]. rewrite forallb_forall in F. apply F, I. Qed.
Lemma ilst_items : forall items, fits (new_ilst items) = true -> items_fit items.
Proof. intros items F. apply fits_eq in F. apply F. Qed.

Lemma prefix_one : forall k x y n, blen (prefix [frame_of k x y] n) = hlen k + blen (a_pre k) + blen (render_all x).
Proof. intros. cbn [prefix]. rewrite !blen_app, blen_header, blen_nil. unfold frame_of, hlen. cbn [fr_ext fr_left]. rewrite blen_app. lia. Qed.
Lemma prefix_cons : forall k x y s n, blen (prefix (frame_of k x y :: s) n) = hlen k + blen (a_pre k) + blen (render_all x) + blen (prefix s n).
Proof. intros. cbn [prefix]. rewrite !blen_app, blen_header. unfold frame_of, hlen. cbn [fr_ext fr_left]. rewrite blen_app. lia. Qed.
Lemma updates_cons : forall p k x mid y s b, framed s b = render_all mid -> a_kids k = x ++ mid ++ y ->
  updates p (frame_of k x y :: s) (blen b) = bounds_of p k :: updates (kids_pos p k + blen (render_all x)) s (blen b).
Proof.
  intros p k x mid y s b E K. cbn [updates]. f_equal.
  - rewrite <- blen_framed, (framed_atom k x mid y s b E), <- K, with_same. reflexivity.
  - f_equal. unfold kids_pos, frame_of, fr_head, hlen. cbn [fr_ext fr_left]. rewrite blen_app. lia.
Qed.

Definition hdlr_of (me : atom) : option bytes := match named_kids (id4 "hdlr") (a_kids me) with [] => Some meta_hdlr | _ => None end.

Section Sites.
  Variables (m : mode) (items : list atom_data).
  Hypothesis Ex : exact_items items.

  Lemma ilst_writes : forall me, fits (new_ilst items) = true ->
    writes (new_atoms_write m (NIlst (hdlr_of me) items)) (render_all (missing_hdlr me ++ [new_ilst items])) /\
    new_atoms_len (NIlst (hdlr_of me) items) = blen (render_all (missing_hdlr me ++ [new_ilst items])).
  Proof.
    intros me F. apply ilst_items in F. unfold hdlr_of, missing_hdlr. rewrite render_all_app. cbn [new_atoms_write new_atoms_len].
    assert (E1 : render_all [new_ilst items] = render (new_ilst items)) by (cbn [render_all flat_map]; apply app_nil_r).
    assert (E2 : render_all [new_hdlr] = render new_hdlr) by (cbn [render_all flat_map]; apply app_nil_r).
    rewrite E1. pose proof (ilst_size_eq items Ex) as L. unfold asize in L.
    destruct (named_kids (id4 "hdlr") (a_kids me)).
    - split; [apply writes_bind; [rewrite E2; apply hdlr_write_bytes|apply ilst_write_bytes; assumption]|].
      rewrite E2, blen_app, L. cbn [hdlr_len_or_zero]. rewrite hdlr_size_eq. reflexivity.
    - split; [apply writes_bind; [apply writes_ret|apply ilst_write_bytes; assumption]|].
      rewrite blen_app, L. reflexivity.
  Qed.

  (** What a site is: the way down, the old and the new bytes. *)
  Definition site (p : N) (k k' : atom) (fs : list frame) (old nw : bytes) (new : new_atoms) : Prop :=
    render k = framed fs old /\ render k' = framed fs nw /\ path_fits fs (blen nw) /\
    writes (new_atoms_write m new) nw /\ new_atoms_len new = blen nw.

  Lemma meta_site : forall p me, good_meta me -> p + asize me < 2 ^ 62 -> fits (update_meta items me) = true ->
    exists fs old nw, site p me (update_meta items me) fs old nw (NIlst (hdlr_of me) items) /\
      meta_aims m (meta_at p me) (p + blen (prefix fs (blen old))) (blen old) /\
      updates p fs (blen old) = [bounds_of p me].
  Proof.
    intros p me G Sm F. pose proof (asize_eq me) as Sz. unfold csize, a_content in Sz. rewrite blen_app in Sz.
    destruct (split_one (id4 "ilst") (a_kids me) G) as [N|(x & c & y & E & I & N1 & N2)].
    - exists [frame_of me (a_kids me) []], [], (render_all (missing_hdlr me ++ [new_ilst items])).
      unfold update_meta in *. rewrite split_on_none in * by exact N.
      assert (Fi : fits (new_ilst items) = true) by (eapply fits_kid; [exact F|apply in_or_app; right; apply in_or_app; right; left; reflexivity]).
      assert (E0 : framed [] [] = render_all []) by reflexivity.
      assert (E1 : framed [] (render_all (missing_hdlr me ++ [new_ilst items])) = render_all (missing_hdlr me ++ [new_ilst items])) by apply framed_nil.
      assert (K : a_kids me = a_kids me ++ [] ++ []) by (cbn [app]; rewrite app_nil_r; reflexivity).
      destruct (ilst_writes me Fi) as [W L]. split; [|split].
      + split; [|split; [|split; [|split; [exact W|exact L]]]].
        * rewrite (framed_atom me (a_kids me) [] [] [] [] E0), <- K, with_same. reflexivity.
        * rewrite (framed_atom me _ _ _ _ _ E1), app_nil_r. reflexivity.
        * apply (fits_frame me _ _ _ _ _ E1); [rewrite app_nil_r; exact F|exact Logic.I].
      + left. cbn [meta_at eb_ilst eb_bounds]. rewrite last_of_none by exact N. split; [reflexivity|]. rewrite blen_nil. split; [|reflexivity].
        rewrite prefix_one. unfold bounds_end, bounds_of. cbn [b_pos b_size size_of sz_len]. rewrite Sz. rewrite add64_ok by (unfold two64; lia). f_equal. lia.
      + rewrite (updates_cons p me _ _ _ _ _ E0 K). reflexivity.
    - exists [frame_of me x y], (render c), (render_all (missing_hdlr me ++ [new_ilst items])).
      unfold update_meta in *. rewrite E in F |- *. rewrite split_on_at in * by assumption.
      assert (Fi : fits (new_ilst items) = true) by (eapply fits_kid; [exact F|]; apply in_or_app; right; apply in_or_app; right; left; reflexivity).
      assert (E0 : framed [] (render c) = render_all [c]) by (rewrite framed_nil; cbn [render_all flat_map]; rewrite app_nil_r; reflexivity).
      assert (E1 : framed [] (render_all (missing_hdlr me ++ [new_ilst items])) = render_all (missing_hdlr me ++ [new_ilst items])) by apply framed_nil.
      destruct (ilst_writes me Fi) as [W L]. rewrite E, render_all_app, render_all_cons, !blen_app in Sz. fold (asize c) in Sz. split; [|split].
      + split; [|split; [|split; [|split; [exact W|exact L]]]].
        * rewrite (framed_atom me x [c] y [] (render c) E0). cbn [app]. rewrite <- E, with_same. reflexivity.
        * rewrite (framed_atom me _ _ _ _ _ E1), <- app_assoc. reflexivity.
        * apply (fits_frame me _ _ _ _ _ E1); [rewrite <- app_assoc; exact F|exact Logic.I].
      + right. cbn [meta_at eb_ilst]. rewrite E, last_of_only by assumption. eexists. split; [reflexivity|]. fold (asize c).
        rewrite prefix_one. unfold bounds_of, bounds_end, kids_pos. cbn [b_pos b_size size_of sz_len]. split; [lia|]. split; [|reflexivity].
        rewrite add64_ok by (unfold two64; lia). f_equal. lia.
      + rewrite (updates_cons p me x [c] y [] (render c) E0 E). reflexivity.
  Qed.

  Lemma hdlr_found : forall p me, match eb_hdlr (meta_at p me) with None => Some meta_hdlr | Some _ => None end = hdlr_of me.
  Proof.
    intros p me. unfold hdlr_of. cbn [meta_at eb_hdlr]. destruct (named_kids (id4 "hdlr") (a_kids me)) as [|k r] eqn:E.
    - rewrite last_of_none by exact E. reflexivity.
    - destruct (last_of_some bounds_of (id4 "hdlr") (a_kids me) (kids_pos p me) None) as (v & ->); [rewrite E; discriminate|reflexivity].
  Qed.

  Lemma udta_site : forall p u, good_udta u -> p + asize u < 2 ^ 62 -> fits (update_udta items u) = true ->
    exists fs old nw new r, site p u (update_udta items u) fs old nw new /\
      udta_aims m items (udta_at p u) (p + blen (prefix fs (blen old))) (blen old) new r /\ updates p fs (blen old) = r.
  Proof.
    intros p u [G1 G2] Sm F. pose proof (asize_eq u) as Sz. unfold csize, a_content in Sz. rewrite blen_app in Sz.
    destruct (split_one (id4 "meta") (a_kids u) G1) as [N|(x & c & y & E & I & N1 & N2)].
    - exists [frame_of u (a_kids u) []], [], (render_all [FileSpec.new_meta items]), (NMeta (NewMeta (Some meta_hdlr) items)), [bounds_of p u].
      unfold update_udta in *. rewrite split_on_none in * by exact N.
      assert (Fm : fits (FileSpec.new_meta items) = true) by (eapply fits_kid; [exact F|apply in_or_app; right; left; reflexivity]).
      assert (Fi : items_fit items).
      { apply ilst_items. apply fits_eq in Fm. destruct Fm as [_ Fm]. cbn in Fm. apply andb_true_iff in Fm. destruct Fm as [_ Fm].
        apply andb_true_iff in Fm. apply Fm. }
      assert (E0 : framed [] [] = render_all []) by reflexivity.
      assert (E1 : framed [] (render_all [FileSpec.new_meta items]) = render_all [FileSpec.new_meta items]) by apply framed_nil.
      assert (K : a_kids u = a_kids u ++ [] ++ []) by (cbn [app]; rewrite app_nil_r; reflexivity).
      assert (R : render_all [FileSpec.new_meta items] = render (FileSpec.new_meta items)) by (cbn [render_all flat_map]; apply app_nil_r).
      split; [|split].
      + split; [|split; [|split; [|split]]].
        * rewrite (framed_atom u (a_kids u) [] [] [] [] E0), <- K, with_same. reflexivity.
        * rewrite (framed_atom u _ _ _ _ _ E1), app_nil_r. reflexivity.
        * apply (fits_frame u _ _ _ _ _ E1); [rewrite app_nil_r; exact F|exact Logic.I].
        * rewrite R. apply meta_write_bytes; assumption.
        * rewrite R. cbn [new_atoms_len]. apply (meta_size_eq items Ex).
      + left. cbn [udta_at ub_meta ub_bounds]. rewrite last_of_none by exact N. split; [reflexivity|]. rewrite blen_nil. split; [|auto].
        rewrite prefix_one. unfold bounds_end, bounds_of. cbn [b_pos b_size size_of sz_len]. rewrite Sz. rewrite add64_ok by (unfold two64; lia). f_equal. lia.
      + rewrite (updates_cons p u _ _ _ _ _ E0 K). reflexivity.
    - assert (Gc : good_meta c) by (eapply named_in; [exact G2|rewrite E; apply in_or_app; right; left; reflexivity|exact I]).
      assert (Sc : kids_pos p u + blen (render_all x) + asize c < 2 ^ 62).
      { rewrite E, render_all_app, render_all_cons, !blen_app in Sz. fold (asize c) in Sz. unfold kids_pos. lia. }
      unfold update_udta in *. rewrite E in F |- *. rewrite split_on_at in * by assumption.
      assert (Fc : fits (update_meta items c) = true) by (eapply fits_kid; [exact F|apply in_or_app; right; left; reflexivity]).
      destruct (meta_site _ c Gc Sc Fc) as (fs & old & nw & (R & R' & P & W & L) & A & U).
      assert (E0 : framed fs old = render_all [c]) by (rewrite <- R; cbn [render_all flat_map]; rewrite app_nil_r; reflexivity).
      assert (E1 : framed fs nw = render_all [update_meta items c]) by (rewrite <- R'; cbn [render_all flat_map]; rewrite app_nil_r; reflexivity).
      exists (frame_of u x y :: fs), old, nw, (NIlst (hdlr_of c) items), [bounds_of p u; bounds_of (kids_pos p u + blen (render_all x)) c].
      split; [|split].
      + split; [|split; [|split; [|split; [exact W|exact L]]]].
        * rewrite (framed_atom u x [c] y fs old E0). cbn [app]. rewrite <- E, with_same. reflexivity.
        * rewrite (framed_atom u _ _ _ _ _ E1). reflexivity.
        * apply (fits_frame u _ _ _ _ _ E1); [exact F|exact P].
      + right. cbn [udta_at ub_meta ub_bounds]. rewrite E, last_of_only by assumption. eexists. split; [reflexivity|]. split; [|split].
        * rewrite prefix_cons. replace (p + (hlen u + blen (a_pre u) + blen (render_all x) + blen (prefix fs (blen old))))
            with (kids_pos p u + blen (render_all x) + blen (prefix fs (blen old))) by (unfold kids_pos; lia). exact A.
        * rewrite hdlr_found. reflexivity.
        * reflexivity.
      + rewrite (updates_cons p u x [c] y fs old E0 E), U. reflexivity.
  Qed.

  Lemma moov_site : forall p d mv, good_moov mv -> p + asize mv < 2 ^ 62 -> fits (update_moov items d mv) = true -> 
    (- 2 ^ 62 < d < 2 ^ 62)%Z ->
    exists fs fsd old nw new r tail,
      render mv = framed fs old /\
      render (with_kids mv (shift_traks d (a_kids mv))) = prefix fsd (blen old) ++ old ++ tail /\ blen tail = blen (suffix fs) /\
      render (update_moov items d mv) = prefix fsd (blen nw) ++ nw ++ suffix fs /\
      path_fits fsd (blen nw) /\ suffix fsd = suffix fs /\ blen (prefix fsd (blen old)) = blen (prefix fs (blen old)) /\
      writes (new_atoms_write m new) nw /\ new_atoms_len new = blen nw /\
      moov_aims m items (moov_at p mv) (p + blen (prefix fs (blen old))) (blen old) new r /\
      updates p fsd (blen old) = r.
  Proof.
    intros p d mv [GT [G1 G2]] Sm F D. pose proof (asize_eq mv) as Sz. unfold csize, a_content in Sz. rewrite blen_app in Sz.
    assert (Sh : forall ks, Forall good_trak (named_kids (id4 "trak") ks) -> blen (render_all (shift_traks d ks)) = blen (render_all ks)).
    { intros ks H. apply map_kids_size. intros c I Ec. apply (trak_patches [] 0 0 m d D c); [eapply named_in; eassumption|exact 0]. }
    destruct (split_one (id4 "udta") (a_kids mv) G1) as [N|(x & c & y & E & I & N1 & N2)].
    - exists [frame_of mv (a_kids mv) []], [frame_of mv (shift_traks d (a_kids mv)) []], [], (render_all [FileSpec.new_udta items]),
        (NUdta (NewMeta (Some meta_hdlr) items)), [bounds_of p mv], [].
      unfold update_moov in *. rewrite split_on_none in * by exact N.
      assert (Fu : fits (FileSpec.new_udta items) = true) by (eapply fits_kid; [exact F|apply in_or_app; right; left; reflexivity]).
      assert (Fi : items_fit items).
      { apply ilst_items. apply fits_eq in Fu. destruct Fu as [_ Fu]. cbn [FileSpec.new_udta new_box a_kids forallb] in Fu. rewrite andb_true_r in Fu.
        apply fits_eq in Fu. destruct Fu as [_ Fm]. cbn [FileSpec.new_meta new_box a_kids forallb] in Fm. rewrite andb_true_r in Fm.
        apply andb_true_iff in Fm. apply Fm. }
      assert (E0 : framed [] [] = render_all []) by reflexivity.
      assert (E1 : framed [] (render_all [FileSpec.new_udta items]) = render_all [FileSpec.new_udta items]) by apply framed_nil.
      assert (K : a_kids mv = a_kids mv ++ [] ++ []) by (cbn [app]; rewrite app_nil_r; reflexivity).
      assert (R : render_all [FileSpec.new_udta items] = render (FileSpec.new_udta items)) by (cbn [render_all flat_map]; apply app_nil_r).
      repeat match goal with |- _ /\ _ => split end.
      + rewrite (framed_atom mv (a_kids mv) [] [] [] [] E0), <- K, with_same. reflexivity.
      + pose proof (framed_atom mv (shift_traks d (a_kids mv)) [] [] [] [] E0) as X. cbn [app] in X. rewrite app_nil_r in X. rewrite <- X. reflexivity.
      + reflexivity.
      + pose proof (framed_atom mv (shift_traks d (a_kids mv)) _ [] _ _ E1) as X. rewrite app_nil_r in X. rewrite <- X. reflexivity.
      + apply (fits_frame mv _ _ _ _ _ E1); [rewrite app_nil_r; exact F|exact Logic.I].
      + reflexivity.
      + rewrite !prefix_one, Sh by exact GT. reflexivity.
      + rewrite R. apply udta_write_bytes; assumption.
      + rewrite R. cbn [new_atoms_len]. apply (udta_size_eq items Ex).
      + left. cbn [moov_at vb_udta vb_bounds]. rewrite last_of_none by exact N. split; [reflexivity|]. rewrite blen_nil. split; [|auto].
        rewrite prefix_one. unfold bounds_end, bounds_of. cbn [b_pos b_size size_of sz_len]. rewrite Sz. rewrite add64_ok by (unfold two64; lia). f_equal. lia.
      + pose proof (updates_cons p mv _ _ _ _ _ E0 K) as X. cbn [updates] in X |- *. rewrite <- X. f_equal. f_equal. f_equal.
        cbn [width]. unfold frame_of. cbn [fr_ext fr_left fr_right]. rewrite !blen_app, Sh by exact GT. reflexivity.
    - assert (Gc : good_udta c) by (eapply named_in; [exact G2|rewrite E; apply in_or_app; right; left; reflexivity|exact I]).
      assert (GT' := GT). rewrite E, named_app, named_cons in GT'.
      assert (Nt : is_named (id4 "trak") c = false).
      { destruct (is_named (id4 "trak") c) eqn:X; [apply is_named_eq in X; rewrite I in X; discriminate X|reflexivity]. }
      rewrite Nt in GT'. apply Forall_app in GT'. destruct GT' as [GTx GTy].
      assert (Sc : kids_pos p mv + blen (render_all x) + asize c < 2 ^ 62).
      { rewrite E, render_all_app, render_all_cons, !blen_app in Sz. fold (asize c) in Sz. unfold kids_pos. lia. }
      unfold update_moov in *. rewrite E in F |- *. rewrite split_on_at in * by assumption.
      assert (Fc : fits (update_udta items c) = true) by (eapply fits_kid; [exact F|apply in_or_app; right; left; reflexivity]).
      destruct (udta_site _ c Gc Sc Fc) as (fs & old & nw & new & r & (R & R' & P & W & L) & A & U).
      assert (E0 : framed fs old = render_all [c]) by (rewrite <- R; cbn [render_all flat_map]; rewrite app_nil_r; reflexivity).
      assert (E1 : framed fs nw = render_all [update_udta items c]) by (rewrite <- R'; cbn [render_all flat_map]; rewrite app_nil_r; reflexivity).
      exists (frame_of mv x y :: fs), (frame_of mv (shift_traks d x) y :: fs), old, nw, new, (bounds_of p mv :: r), (suffix fs ++ render_all (shift_traks d y)).
      repeat match goal with |- _ /\ _ => split end.
      + rewrite (framed_atom mv x [c] y fs old E0). cbn [app]. rewrite <- E, with_same. reflexivity.
      + unfold shift_traks at 1. rewrite map_kids_app. cbn [map_kids map]. rewrite Nt. fold (map_kids (id4 "trak") (shift_trak d) y).
        fold (shift_traks d x). fold (shift_traks d y).
        pose proof (framed_atom mv (shift_traks d x) [c] (shift_traks d y) fs old E0) as X. cbn [app] in X. change (map_kids (id4 "trak") (shift_trak d) x) with (shift_traks d x).
        rewrite <- X. unfold framed. cbn [prefix suffix frame_of fr_ext fr_id fr_left fr_right]. rewrite (Sh y GTy). reflexivity.
      + cbn [suffix frame_of fr_right]. rewrite !blen_app, (Sh y GTy). reflexivity.
      + pose proof (framed_atom mv (shift_traks d x) _ y fs nw E1) as X. cbn [app] in X. rewrite <- X. reflexivity.
      + apply (fits_frame mv _ _ _ _ _ E1); [exact F|exact P].
      + reflexivity.
      + rewrite !prefix_cons, (Sh x GTx). reflexivity.
      + exact W.
      + exact L.
      + right. cbn [moov_at vb_udta vb_bounds]. rewrite E, last_of_only by assumption. eexists _, r. split; [reflexivity|]. split; [|reflexivity].
        rewrite prefix_cons. replace (p + (hlen mv + blen (a_pre mv) + blen (render_all x) + blen (prefix fs (blen old))))
            with (kids_pos p mv + blen (render_all x) + blen (prefix fs (blen old))) by (unfold kids_pos; lia). exact A.
      + pose proof (updates_cons p mv x [c] y fs old E0 E) as X. cbn [updates] in X |- *. rewrite U in X. rewrite <- X.
        assert (Lf : blen (fr_left (frame_of mv (shift_traks d x) y)) = blen (fr_left (frame_of mv x y))).
        { unfold frame_of. cbn [fr_left]. rewrite !blen_app, (Sh x GTx). reflexivity. }
        f_equal.
        * f_equal. f_equal. cbn [width]. rewrite Lf. reflexivity.
        * rewrite Lf. reflexivity.
  Qed.
End Sites.
