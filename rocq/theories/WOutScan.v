(** The scan of an arbitrary file finds the boxes that WOutSpec.v describes, or stops as described there. *)

From Coq Require Import List NArith ZArith Bool Lia Arith String.
From Coq Require Import ZifyBool ZifyNat ZifyN.
From Verif Require Import Base BaseLemmas Utf UtfLemmas Types Stream Parse Find Write TagSpec FileSpec ParseLemmas FailSpec FailProofs PanicSpec WPanicSpec Display Described DescribedIs DescribedWrite ErrSpec FirstSpec OutSpec LayoutSpec WOutSpec.
From Verif Require OutBase OutUnique PanicProofs LayoutProofs.
Import ListNotations.
Local Open Scope list_scope.
Local Open Scope d_scope.

Lemma comes_before : forall m f k w q, comes m f k w q -> forall c, (c <= k)%nat -> exists w' q', comes m f c w' q'.
Proof.
  intros m f k w q H. induction H as [p T|k l n d ns w q id head size nm p d' H IH Ld B O P K|k l n d ns w q id head size l' s p n' H IH Ld B O E L|k l' n' d' inside l n d ns w q head size id p d'' H IH L K]; intros c Lc.
  - replace c with 0%nat by lia. eexists. eexists. eapply Come_first. exact T.
  - destruct (Nat.eq_dec c (S k)) as [->|N]; [eexists; eexists; eapply Come_past; eassumption|apply IH; lia].
  - destruct (Nat.eq_dec c (S k)) as [->|N]; [eexists; eexists; eapply Come_into; eassumption|apply IH; lia].
  - destruct (Nat.eq_dec c (S k)) as [->|N]; [eexists; eexists; eapply Come_out; eassumption|apply IH; lia].
Qed.

Section Scan.
  Context (m : mode) (f : bytes) (Lf : blen f < 2 ^ 62) (F : nat).
  Local Notation head_at := (PanicProofs.head_at f).
  Local Notation hl h := (head_len (hd_size h)).
  Local Notation sz h := (sz_len (hd_size h)).
  (** If the fuel [F] is used up, the writer takes that many steps. *)
  Definition worn : Prop := exists w q, comes m f F w q.
  Local Notation dpost := (OutBase.dpost f worn).
  Local Notation dp_bind := (OutBase.dp_bind f worn).
  Local Notation dp_weak := (OutBase.dp_weak f worn).
  Local Notation dp_then := (OutBase.dp_then f worn).
  Local Notation dp_ret := (OutBase.dp_ret f worn).
  Local Notation dp_fail := (OutBase.dp_fail f worn).
  Local Notation dp_parsing := (OutBase.dp_parsing f worn).
  Local Notation dp_head := (OutBase.dp_head f Lf worn).
  Local Notation told := (OutBase.told (scan_stops m f)).
  Local Notation told_here := (OutBase.told_here (scan_stops m f)).
  Local Notation node_of := LayoutProofs.node_of.
  Local Notation bound := LayoutProofs.bound.
  Local Notation opt_upd := LayoutProofs.opt_upd.

  Lemma names_cons : forall l n d ns w, open_names ((l, n, d, ns) :: w) = open_names w ++ level_name l.
  Proof. intros l n d ns w. unfold open_names. cbn [rev]. rewrite flat_map_app. cbn [flat_map fst]. now rewrite app_nil_r. Qed.
  (** The writer comes here after at least [c] steps. *)
  Definition arr (c : nat) (w : open_boxes) (q : N) : Prop := exists k, (c <= k)%nat /\ comes m f k w q.
  Lemma arr_worn : forall w q, arr F w q -> worn.
  Proof. intros w q (k & L & A). destruct (comes_before _ _ _ _ _ A F L) as (w' & q' & A'). exists w', q'. exact A'. Qed.
  Lemma arr_less : forall c c' w q, arr c w q -> (c' <= c)%nat -> arr c' w q.
  Proof. intros c c' w q (k & L & A) L'. exists k. split; [lia|exact A]. Qed.
  (** The head [h] is read at [q]. *)
  Definition spot (c : nat) (l : level) (n d : N) (ns : list node) (w : open_boxes) (q : N) (h : head) : Prop := arr c ((l, n, d, ns) :: w) q /\ d < n /\ head_at q h.
  (** The box [nd] is found; its size has not been added to the sum yet. *)
  Definition done (c : nat) (l : level) (n : N) (w : open_boxes) (d : N) (ns : list node) (z p : N) (nd : node) : Prop :=
    (exists q id hd nm, nd = Node q hd z id [] /\ arr c ((l, n, d, ns) :: w) q /\ d < n /\ box_at f q id hd z /\ scan_opens l id = None /\ pass_out m l q id hd z nm (Goes p)) \/
    (exists l' n' d' q id hd inside, nd = Node q hd z id inside /\ arr c ((l', n', d', inside) :: (l, n, d + z, ns ++ [Node q hd z id []]) :: w) p /\ n' <= d').
  Lemma done_over : forall c l n w d ns z p nd nm, done c l n w d ns z p nd -> beyond m (d + z) -> told nm (Breaks POverflow).
  Proof.
    intros c l n w d ns z p nd nm0 [(q & id & hd & nm & _ & (k & _ & A) & K & B & O & W)|(l' & n' & d' & q & id & hd & inside & _ & (k & _ & A) & K)] L; eexists.
    - eapply Scan_sum; eassumption.
    - eapply Scan_over; eassumption.
  Qed.
  Lemma done_next : forall c l n w d ns z p nd d', done c l n w d ns z p nd -> kept m (d + z) d' -> arr (Datatypes.S c) ((l, n, d', ns ++ [nd]) :: w) p.
  Proof.
    intros c l n w d ns z p nd d2 [(q & id & hd & nm & -> & (k & Lk & A) & K & B & O & W)|(l' & n' & d' & q & id & hd & inside & -> & (k & Lk & A) & K)] L; exists (Datatypes.S k); (split; [lia|]).
    - eapply Come_past; eassumption.
    - eapply Come_out; eassumption.
  Qed.
  Lemma pass_done : forall c l n d ns w q h nm p, spot c l n d ns w q h -> scan_opens l (hd_fourcc h) = None -> pass_out m l q (hd_fourcc h) (hl h) (sz h) nm (Goes p) ->
    done c l n w d ns (sz h) p (node_of q h []).
  Proof. intros c l n d ns w q h nm p (A & K & H) O W. left. exists q, (hd_fourcc h), (hl h), nm. split; [reflexivity|]. auto 10. Qed.
  Lemma pass_told : forall c l n d ns w q h nm x, spot c l n d ns w q h -> scan_opens l (hd_fourcc h) = None -> pass_out m l q (hd_fourcc h) (hl h) (sz h) nm (Stops x) ->
    told (open_names ((l, n, d, ns) :: w) ++ nm) x.
  Proof. intros c l n d ns w q h nm x ((k & _ & A) & K & H) O W. apply told_here. eapply Scan_pass; eassumption. Qed.
  Lemma enter_told : forall c l n d ns w q h l' s x, spot c l n d ns w q h -> scan_opens l (hd_fourcc h) = Some (l', s) -> enter_out m f l' s q (hl h) (sz h) (Stops x) ->
    told (open_names ((l, n, d, ns) :: w) ++ level_name l') x.
  Proof. intros c l n d ns w q h l' s x ((k & _ & A) & K & H) O W. apply told_here. eapply Scan_enter; eassumption. Qed.

  (** What is kept of the box with the head [h]. *)
  Definition left {A} (g : node -> A) c l n w d ns q h (a : A) p : Prop := exists inside, done c l n w d ns (sz h) p (node_of q h inside) /\ a = g (node_of q h inside).
  Definition body_fine {S} (l : level) (body : head -> S -> D S) (upd : S -> node -> S) : Prop :=
    forall c h s q n d ns w, spot c l n d ns w q h -> dpost (told (open_names ((l, n, d, ns) :: w))) (body h s) (q + hl h) (left (upd s) c l n w d ns q h).
  Lemma dcontainer : forall {S} c l n d ns w q h l' s (body : head -> S -> D S) upd, spot c l n d ns w q h -> scan_opens l (hd_fourcc h) = Some (l', s) ->
    version_said l' = None \/ full_fine f (q + hl h) 0 -> body_fine l' body upd ->
    forall s0, dpost (told (open_names ((l, n, d, ns) :: w) ++ level_name l')) (d_loop F m (content_len m (hd_size h)) body s s0) (q + hl h + s)
      (left (fun nd => fold_left upd (n_inside nd) s0) c l n w d ns q h).
  Proof.
    intros S c l n d ns w q h l' s body upd P O V B s0. rewrite OutBase.content_is. destruct (OutBase.sub64_is m (sz h) (hl h)) as [(n' & C & ->)|[C ->]].
    - pose proof P as ((k & Lk & A) & K & H). set (w' := (l, n, d + sz h, ns ++ [node_of q h []]) :: w).
      assert (A' : arr c ((l', n', s, []) :: w') (q + hl h + s)).
      { exists (Datatypes.S k). split; [lia|]. eapply Come_into; [exact A|exact K|exact H|exact O|apply Enter_fine; [exact V|exact (OutBase.less_enough _ _ _ _ C)]|exact C]. }
      assert (Nm : forall d' is, open_names ((l, n, d, ns) :: w) ++ level_name l' = open_names ((l', n', d', is) :: w')) by (intros d' is; unfold w'; now rewrite !names_cons).
      eapply dp_then; [apply (OutBase.dloop m f Lf F worn n' body _ (fun i a d' p => exists inside, arr (c + i) ((l', n', d', inside) :: w') p /\ a = fold_left upd inside s0)
        (fun i a d' z p => exists inside nd, done (c + i) l' n' w' d' inside z p nd /\ a = fold_left upd (inside ++ [nd]) s0)) with (c := 0%nat)|].
      + intros a d' p (is & A1 & _). eapply arr_worn, arr_less; [exact A1|lia].
      + intros i a d' p e t (is & (k1 & _ & A1) & _) K1 W. rewrite (Nm d' is). apply told_here. eapply Scan_head; eassumption.
      + intros i a d' p h' (is & A1 & ->) K1 H1. rewrite (Nm d' is). eapply dp_then; [apply (B (c + i)%nat); split; [exact A1|split; assumption]|]. cbv beta. intros a' p' (ii & Dn & ->).
        exists is, (node_of p h' ii). split; [exact Dn|]. now rewrite fold_left_app.
      + intros i a d' z p (is & nd & D & _) L. eapply done_over; eassumption.
      + intros i a d' z p d2 (is & nd & D & ->) L. exists (is ++ [nd]). split; [|reflexivity]. rewrite Nat.add_succ_r. eapply done_next; eassumption.
      + reflexivity.
      + exists []. rewrite Nat.add_0_r. split; [exact A'|reflexivity].
      + cbv beta. intros a p (i & d' & L & is & A1 & ->). exists is. split; [|reflexivity]. right. exists l', n', d', q, (hd_fourcc h), (hl h), is. split; [reflexivity|]. split; [eapply arr_less; [exact A1|lia]|exact L].
    - destruct F as [|fuel] eqn:EF; cbn [d_loop].
      + unfold OutBase.dpost, dfuel. eapply arr_worn. rewrite EF. eapply arr_less; [exact (proj1 P)|lia].
      + unfold OutBase.dpost, dbind, plainly, lift. eapply enter_told; [exact P|exact O|now apply Enter_short].
  Qed.
  Lemma dpass : forall {S} c l n d ns w q h (upd : S -> node -> S) s, spot c l n d ns w q h -> scan_opens l (hd_fourcc h) = None -> noted l (hd_fourcc h) = [] ->
    (forall inside, upd s (node_of q h inside) = s) ->
    dpost (told (open_names ((l, n, d, ns) :: w))) (plainly (skip_atom m h) ;#; dret s) (q + hl h) (left (upd s) c l n w d ns q h).
  Proof.
    intros S c l n d ns w q h upd s P O W U. eapply dp_bind; [eapply dp_weak; [apply (OutBase.dskip m f Lf worn q h), P| |intros a p Hp; exact Hp]|].
    - intros y Y. rewrite <- (app_nil_r (open_names _)). eapply pass_told; [exact P|exact O|now apply Pass_other].
    - cbv beta. intros a p Hp. apply dp_ret. exists []. split; [|now rewrite U]. eapply pass_done; [exact P|exact O|now apply Pass_other].
  Qed.
  Lemma dkeep : forall {S A} c l n d ns w q h (x : D A) (g : node -> A) (k : A -> S) (upd : S -> node -> S) s,
    dpost (told (open_names ((l, n, d, ns) :: w))) x (q + hl h) (left g c l n w d ns q h) ->
    (forall inside, upd s (node_of q h inside) = k (g (node_of q h inside))) ->
    dpost (told (open_names ((l, n, d, ns) :: w))) (y <# x ;; dret (k y)) (q + hl h) (left (upd s) c l n w d ns q h).
  Proof.
    intros S A c l n d ns w q h x g k upd s X U. eapply dp_bind; [exact X|]. cbv beta. intros y p (inside & Hp & ->). apply dp_ret. exists inside. split; [exact Hp|now rewrite U].
  Qed.
  Lemma dleaf : forall c l n d ns w q h id, spot c l n d ns w q h -> fourcc_eqb (hd_fourcc h) id = true -> scan_opens l (hd_fourcc h) = None -> noted l (hd_fourcc h) = [hd_fourcc h] ->
    dpost (told (open_names ((l, n, d, ns) :: w))) (d_leaf m id (hd_size h)) (q + hl h) (left bound c l n w d ns q h).
  Proof.
    intros c l n d ns w q h id P E O W. apply fourcc_eqb_eq in E. subst id. unfold d_leaf. apply dp_parsing.
    pose proof (OutBase.dended m f Lf worn q h (q + hl h) (proj2 (proj2 P))) as X.
    assert (Lq : q + hl h < 2 ^ 63) by (pose proof (proj1 (proj2 (proj2 P))); assert (2 ^ 63 = 2 * 2 ^ 62) by reflexivity; lia). specialize (X Lq).
    pose proof (OutBase.dbounds m f Lf worn (fun _ => True) q h (proj2 (proj2 P))) as Y.
    unfold OutBase.dpost, plainly, leaf_find, bind in *. destruct (find_bounds m (hd_size h) f (q + hl h)) as [[b p]|e|k|] eqn:EB.
    2,3,4: exfalso; unfold find_bounds, bind, position, lift, sub64 in EB; destruct (_ <=? _) eqn:Z in EB; [discriminate EB|lia].
    destruct Y as [-> ->]. destruct (seek_to_end m _ f (q + hl h)) as [[u p]|e|k|] eqn:Es.
    - cbn [ret]. exists []. rewrite LayoutProofs.bound_of. split; [|reflexivity]. eapply pass_done; [exact P|exact O|]. apply Pass_noted; [rewrite W; discriminate|exact X].
    - rewrite <- W. eapply pass_told; [exact P|exact O|]. apply Pass_noted; [rewrite W; discriminate|exact X].
    - rewrite <- W. eapply pass_told; [exact P|exact O|]. apply Pass_noted; [rewrite W; discriminate|exact X].
    - exact X.
  Qed.
  Lemma named_of : forall q h inside id, named id (node_of q h inside) = fourcc_eqb (hd_fourcc h) id. Proof. reflexivity. Qed.

  (** A box with one kind of child. *)
  Lemma dopt : forall {A B} (id : fourcc) (l' : level) k nm (find : size -> D A) (g : node -> A) (mk : bounds -> option A -> B) c l n d ns w q h,
    spot c l n d ns w q h -> scan_opens l (hd_fourcc h) = Some (l', 0) -> level_name l' = [nm] -> version_said l' = None -> (forall i, scan_opens l' i = if fourcc_eqb i id then Some k else None) -> (forall i, noted l' i = []) ->
    (forall c n d ns w q h, spot c l' n d ns w q h -> fourcc_eqb (hd_fourcc h) id = true -> dpost (told (open_names ((l', n, d, ns) :: w) ++ [id])) (find (hd_size h)) (q + hl h) (left g c l' n w d ns q h)) ->
    dpost (told (open_names ((l, n, d, ns) :: w) ++ [nm]))
      (b <# plainly (find_bounds m (hd_size h)) ;;
       r <# d_loop F m (content_len m (hd_size h)) (fun h r => if fourcc_eqb (hd_fourcc h) id then x <# parsing id (find (hd_size h)) ;; dret (Some x) else plainly (skip_atom m h) ;#; dret r) 0 None ;;
       dret (mk b r)) (q + hl h) (left (fun nd => mk (bound nd) (option_map g (final id (n_inside nd)))) c l n w d ns q h).
  Proof.
    intros A B id l' k nm find g mk c l n d ns w q h P O Nm Vs Ol Nl Fi. eapply dp_bind; [apply OutBase.dbounds; [exact Lf|exact (proj2 (proj2 P))]|]. cbv beta. intros b p [-> ->].
    eapply dp_bind. { rewrite <- Nm. rewrite <- (N.add_0_r (q + hl h)). apply (dcontainer c l n d ns w q h l' 0 _ (opt_upd id g)); [exact P|exact O|now left|].
      intros c' h' s q' n' d' ns' w' P'. destruct (fourcc_eqb (hd_fourcc h') id) eqn:E.
      - apply (dkeep c' l' n' d' ns' w' q' h' _ g Some (opt_upd id g) s); [apply dp_parsing; now apply Fi|]. intros inside. unfold opt_upd. now rewrite named_of, E.
      - apply (dpass c' l' n' d' ns' w' q' h' (opt_upd id g) s); [exact P'|rewrite Ol, E; reflexivity|apply Nl|]. intros inside. unfold opt_upd. now rewrite named_of, E. }
    cbv beta. intros r p (rs & R & ->). apply dp_ret. exists rs. split; [exact R|]. cbn [n_inside LayoutProofs.node_of]. rewrite LayoutProofs.fold_final, LayoutProofs.bound_of. reflexivity.
  Qed.
  (** A box with two kinds of boxes to note. *)
  Lemma dnote : forall {B} (a b : fourcc) (l' : level) s nm (mk : option bounds * option bounds -> B) c l n d ns w q h,
    spot c l n d ns w q h -> scan_opens l (hd_fourcc h) = Some (l', s) -> level_name l' = [nm] -> (forall i, scan_opens l' i = None) -> fourcc_eqb a b = false ->
    (forall i, noted l' i = (if fourcc_eqb i a then [i] else []) ++ (if fourcc_eqb i b then [i] else [])) -> version_said l' = None \/ full_fine f (q + hl h) 0 ->
    dpost (told (open_names ((l, n, d, ns) :: w) ++ [nm]))
      (r <# d_loop F m (content_len m (hd_size h)) (fun h r =>
         if fourcc_eqb (hd_fourcc h) a then x <# d_leaf m a (hd_size h) ;; dret (Some x, snd r)
         else if fourcc_eqb (hd_fourcc h) b then x <# d_leaf m b (hd_size h) ;; dret (fst r, Some x)
         else plainly (skip_atom m h) ;#; dret r) s (None, None) ;;
       dret (mk r)) (q + hl h + s) (left (fun nd => mk (option_map bound (final a (n_inside nd)), option_map bound (final b (n_inside nd)))) c l n w d ns q h).
  Proof.
    intros B a b l' s nm mk c l n d ns w q h P O Nm Ol Ab Nl V. eapply dp_bind.
    { rewrite <- Nm. apply (dcontainer c l n d ns w q h l' s _ (fun x n => (opt_upd a bound (fst x) n, opt_upd b bound (snd x) n))); [exact P|exact O|exact V|].
      assert (Ne : forall i, fourcc_eqb i a = true -> fourcc_eqb i b = false) by (intros i E; apply fourcc_eqb_eq in E; now subst i).
      intros c' h' r q' n' d' ns' w' P'. set (upd := fun x n => (opt_upd a bound (fst x) n, opt_upd b bound (snd x) n)). destruct (fourcc_eqb (hd_fourcc h') a) eqn:E.
      - apply (dkeep c' l' n' d' ns' w' q' h' _ bound (fun x => (Some x, snd r)) upd r).
        + apply dleaf; [exact P'|exact E|apply Ol|]. rewrite Nl, E, (Ne _ E). reflexivity.
        + intros inside. unfold upd, opt_upd. now rewrite !named_of, E, (Ne _ E).
      - destruct (fourcc_eqb (hd_fourcc h') b) eqn:E2.
        + apply (dkeep c' l' n' d' ns' w' q' h' _ bound (fun x => (fst r, Some x)) upd r).
          * apply dleaf; [exact P'|exact E2|apply Ol|]. rewrite Nl, E, E2. reflexivity.
          * intros inside. unfold upd, opt_upd. now rewrite !named_of, E, E2.
        + apply (dpass c' l' n' d' ns' w' q' h' upd r); [exact P'|apply Ol|rewrite Nl, E, E2; reflexivity|]. intros inside. unfold upd, opt_upd. rewrite !named_of, E, E2. now destruct r. }
    cbv beta. intros r p (rs & R & ->). apply dp_ret. exists rs. split; [exact R|]. cbn [n_inside LayoutProofs.node_of].
    rewrite (LayoutProofs.fold_pair (opt_upd a bound) (opt_upd b bound)). cbn [fst snd]. rewrite !LayoutProofs.fold_final. reflexivity.
  Qed.

  Local Notation finder l x find g :=
    (forall c n d ns w q h, spot c l n d ns w q h -> fourcc_eqb (hd_fourcc h) (id4 x) = true -> dpost (told (open_names ((l, n, d, ns) :: w) ++ [id4 x])) (find (hd_size h)) (q + hl h) (left g c l n w d ns q h)).
  Lemma dstbl : finder InMinf "stbl" (d_stbl_find F m) LayoutProofs.stbl_of.
  Proof.
    intros c n d ns w q h P E. unfold d_stbl_find. eapply dp_bind; [apply OutBase.dbounds; [exact Lf|exact (proj2 (proj2 P))]|]. cbv beta. intros b p [-> ->].
    eapply dp_then.
    - rewrite <- (N.add_0_r (q + hl h)).
      apply (dnote (id4 "stco") (id4 "co64") InStbl 0 (id4 "stbl") (fun r => StblBounds (Bounds q (hd_size h)) (fst r) (snd r)) c InMinf n d ns w q h P); [|reflexivity|reflexivity|reflexivity|reflexivity|now left].
      unfold scan_opens. now rewrite E.
    - intros x p (inside & St & ->). exists inside. split; [exact St|]. unfold LayoutProofs.stbl_of. now rewrite LayoutProofs.bound_of.
  Qed.
  Lemma dminf : finder InMdia "minf" (d_minf_find F m) LayoutProofs.minf_of.
  Proof.
    intros c n d ns w q h P E. apply (dopt (id4 "stbl") InMinf (InStbl, 0) (id4 "minf") (d_stbl_find F m) LayoutProofs.stbl_of MinfBounds c InMdia n d ns w q h P); [|reflexivity|reflexivity|reflexivity|reflexivity|exact dstbl].
    unfold scan_opens. now rewrite E.
  Qed.
  Lemma dmdia : finder InTrak "mdia" (d_mdia_find F m) LayoutProofs.mdia_of.
  Proof.
    intros c n d ns w q h P E. apply (dopt (id4 "minf") InMdia (InMinf, 0) (id4 "mdia") (d_minf_find F m) LayoutProofs.minf_of MdiaBounds c InTrak n d ns w q h P); [|reflexivity|reflexivity|reflexivity|reflexivity|exact dminf].
    unfold scan_opens. now rewrite E.
  Qed.
  Lemma dtrak : finder InMoov "trak" (d_trak_find F m) LayoutProofs.trak_of.
  Proof.
    intros c n d ns w q h P E. apply (dopt (id4 "mdia") InTrak (InMdia, 0) (id4 "trak") (d_mdia_find F m) LayoutProofs.mdia_of TrakBounds c InMoov n d ns w q h P); [|reflexivity|reflexivity|reflexivity|reflexivity|exact dmdia].
    unfold scan_opens. now rewrite E.
  Qed.
  Lemma dmeta : finder InUdta "meta" (d_meta_find F m) LayoutProofs.meta_of.
  Proof.
    intros c n d ns w q h P E. assert (O : scan_opens InUdta (hd_fourcc h) = Some (InMeta, 4)) by (unfold scan_opens; now rewrite E).
    unfold d_meta_find. eapply dp_bind; [apply OutBase.dbounds; [exact Lf|exact (proj2 (proj2 P))]|]. cbv beta. intros b p [-> ->].
    apply (OutBase.dp_version f Lf worn _ _ (fun _ => r <# d_loop F m (content_len m (hd_size h)) (d_meta_fbody m) 4 (None, None) ;; dret (MetaBounds (Bounds q (hd_size h)) (fst r) (snd r)))).
    - intros e t W. eapply (enter_told _ _ _ _ _ _ _ _ InMeta); [exact P|exact O|]. eapply Enter_version; [reflexivity|exact W].
    - intros Fv. eapply dp_then.
      + apply (dnote (id4 "hdlr") (id4 "ilst") InMeta 4 (id4 "meta") (fun r => MetaBounds (Bounds q (hd_size h)) (fst r) (snd r)) c InUdta n d ns w q h P); [exact O|reflexivity|reflexivity|reflexivity|reflexivity|now right].
      + intros x p (inside & St & ->). exists inside. split; [exact St|]. unfold LayoutProofs.meta_of. now rewrite LayoutProofs.bound_of.
  Qed.
  Lemma dudta : forall c n d ns w q h, spot c InMoov n d ns w q h -> fourcc_eqb (hd_fourcc h) (id4 "udta") = true -> fourcc_eqb (hd_fourcc h) (id4 "trak") = false ->
    dpost (told (open_names ((InMoov, n, d, ns) :: w) ++ [id4 "udta"])) (d_udta_find F m (hd_size h)) (q + hl h) (left LayoutProofs.udta_of c InMoov n w d ns q h).
  Proof.
    intros c n d ns w q h P E NT. apply (dopt (id4 "meta") InUdta (InMeta, 4) (id4 "udta") (d_meta_find F m) LayoutProofs.meta_of UdtaBounds c InMoov n d ns w q h P); [|reflexivity|reflexivity|reflexivity|reflexivity|exact dmeta].
    unfold scan_opens. now rewrite NT, E.
  Qed.
  Lemma dmoov : finder Top "moov" (d_moov_find F m) LayoutProofs.moov_of.
  Proof.
    intros c n d ns w q h P E. unfold d_moov_find. eapply dp_bind; [apply OutBase.dbounds; [exact Lf|exact (proj2 (proj2 P))]|]. cbv beta. intros b p [-> ->].
    assert (O : scan_opens Top (hd_fourcc h) = Some (InMoov, 0)) by (unfold scan_opens; now rewrite E).
    eapply dp_bind. { change [id4 "moov"] with (level_name InMoov). rewrite <- (N.add_0_r (q + hl h)). apply (dcontainer c Top n d ns w q h InMoov 0 _ LayoutProofs.moov_upd); [exact P|exact O|now left|].
      intros c' h' s q' n' d' ns' w' P'. unfold d_moov_fbody. cbv zeta. change TRACK with (id4 "trak"). change USER_DATA with (id4 "udta").
      destruct (fourcc_eqb (hd_fourcc h') (id4 "trak")) eqn:E1; [|destruct (fourcc_eqb (hd_fourcc h') (id4 "udta")) eqn:E2].
      - apply (dkeep c' InMoov n' d' ns' w' q' h' _ LayoutProofs.trak_of (fun t => (fst s ++ [t], snd s)) LayoutProofs.moov_upd s); [apply dp_parsing, dtrak; [exact P'|exact E1]|].
        intros inside. unfold LayoutProofs.moov_upd, opt_upd. rewrite !named_of, E1. apply fourcc_eqb_eq in E1. now rewrite E1.
      - apply (dkeep c' InMoov n' d' ns' w' q' h' _ LayoutProofs.udta_of (fun u => (fst s, Some u)) LayoutProofs.moov_upd s); [apply dp_parsing, dudta; [exact P'|exact E2|exact E1]|].
        intros inside. unfold LayoutProofs.moov_upd, opt_upd. now rewrite !named_of, E1, E2.
      - apply (dpass c' InMoov n' d' ns' w' q' h' LayoutProofs.moov_upd s); [exact P'| |reflexivity|].
        + unfold scan_opens. now rewrite E1, E2.
        + intros inside. unfold LayoutProofs.moov_upd, opt_upd. rewrite !named_of, E1, E2. now destruct s. }
    cbv beta. intros r p (rs & R & ->). apply dp_ret. exists rs. split; [exact R|]. cbn [n_inside LayoutProofs.node_of].
    replace (fold_left LayoutProofs.moov_upd rs ([], None)) with (map LayoutProofs.trak_of (filter (named (id4 "trak")) rs), option_map LayoutProofs.udta_of (final (id4 "udta") rs)).
    - unfold LayoutProofs.moov_of. rewrite LayoutProofs.bound_of. reflexivity.
    - symmetry. rewrite <- LayoutProofs.fold_final. pose proof (LayoutProofs.fold_filter (id4 "trak") LayoutProofs.trak_of rs []) as Ff. cbn [app] in Ff. rewrite <- Ff.
      exact (LayoutProofs.fold_pair (fun a n => if named (id4 "trak") n then a ++ [LayoutProofs.trak_of n] else a) (opt_upd (id4 "udta") LayoutProofs.udta_of) rs ([], None)).
  Qed.

  (** What the scan finds. *)
  Definition scanned_as (ns : list node) (sc : moov_bounds * N) : Prop :=
    finds m f ns /\ exists mo, movie ns = Some mo /\ fst sc = LayoutProofs.moov_of mo /\ snd sc = match final (id4 "mdat") ns with Some n => n_at n | None => 0 end.
  Lemma dscan : dpost (told []) (d_scan F m) 0 (fun sc _ => exists ns, scanned_as ns sc).
  Proof.
    unfold d_scan. eapply dp_bind; [eapply dp_weak; [apply (OutBase.dtype m f Lf)|intros x X; apply told_here; now apply Scan_type|intros a q H; exact H]|]. cbv beta. intros s q T.
    pose proof (OutBase.type_in m f Lf q T) as Lq. eapply dp_bind; [apply (OutBase.dremaining m f Lf), Lq|]. cbv beta. intros len p [-> ->].
    apply (dp_bind _ _ _ _ (fun r p => exists ns, finds m f ns /\ r = fold_left LayoutProofs.top_upd ns (None, None))).
    - eapply dp_then; [apply (OutBase.dloop m f Lf F worn (blen f - q) (d_top_fbody F m) _ (fun i a d' p => exists ns, arr i [(Top, blen f - q, d', ns)] p /\ a = fold_left LayoutProofs.top_upd ns (None, None))
        (fun i a d' z p => exists ns nd, done i Top (blen f - q) [] d' ns z p nd /\ a = fold_left LayoutProofs.top_upd (ns ++ [nd]) (None, None))) with (c := 0%nat)|].
      + intros a d' p (is & A1 & _). eapply arr_worn, arr_less; [exact A1|lia].
      + intros i a d' p e t (is & (k1 & _ & A1) & _) K1 W. apply told_here. exact (Scan_head m f _ _ _ _ _ _ _ _ _ A1 K1 W).
      + intros i r d' p h (ns & A1 & ->) K1 H1. assert (P : spot i Top (blen f - q) d' ns [] p h) by (split; [exact A1|split; assumption]).
        change (@nil fourcc) with (open_names [(Top, blen f - q, d', ns)]).
        eapply (OutBase.dp_then _ _ _ _ _ (left (LayoutProofs.top_upd (fold_left LayoutProofs.top_upd ns (None, None))) i Top (blen f - q) [] d' ns p h)).
        2: { intros a' p' (ii & Dn & ->). exists ns, (node_of p h ii). split; [exact Dn|]. now rewrite fold_left_app. }
        set (s' := fold_left LayoutProofs.top_upd ns (None, None)). unfold d_top_fbody. cbv zeta. change MOVIE with (id4 "moov"). change MEDIA_DATA with (id4 "mdat").
        destruct (fourcc_eqb (hd_fourcc h) (id4 "moov")) eqn:E1; [|destruct (fourcc_eqb (hd_fourcc h) (id4 "mdat")) eqn:E2].
        * apply (dkeep i Top (blen f - q) d' ns [] p h _ LayoutProofs.moov_of (fun x => (Some x, snd s')) LayoutProofs.top_upd s'); [apply dp_parsing, dmoov; [exact P|exact E1]|].
          intros inside. unfold LayoutProofs.top_upd, opt_upd. rewrite !named_of, E1. apply fourcc_eqb_eq in E1. now rewrite E1.
        * apply (dkeep i Top (blen f - q) d' ns [] p h _ bound (fun x => (fst s', Some x)) LayoutProofs.top_upd s').
          { apply dleaf; [exact P|exact E2| |]; [unfold scan_opens; now rewrite E1|unfold noted; now rewrite E2]. }
          intros inside. unfold LayoutProofs.top_upd, opt_upd. now rewrite !named_of, E1, E2.
        * apply (dpass i Top (blen f - q) d' ns [] p h LayoutProofs.top_upd s'); [exact P|unfold scan_opens; now rewrite E1|unfold noted; now rewrite E2|].
          intros inside. unfold LayoutProofs.top_upd, opt_upd. rewrite !named_of, E1, E2. now destruct s'.
      + intros i a d' z p (is & nd & D & _) L. eapply done_over; eassumption.
      + intros i a d' z p d2 (is & nd & D & ->) L. exists (is ++ [nd]). split; [|reflexivity]. eapply done_next; eassumption.
      + reflexivity.
      + exists []. split; [|reflexivity]. exists 0%nat. split; [lia|now apply Come_first].
      + cbv beta. intros a p (i & d' & L & ns & (k & _ & A1) & ->). exists ns. split; [|reflexivity]. exists k, (blen f - q), d', p. split; assumption.
    - intros r p (ns & Fi & ->). rewrite (LayoutProofs.fold_pair (opt_upd (id4 "moov") LayoutProofs.moov_of) (opt_upd (id4 "mdat") bound) ns (None, None) : fold_left LayoutProofs.top_upd ns (None, None) = _).
      cbn [fst snd]. rewrite !LayoutProofs.fold_final. fold (movie ns). destruct (movie ns) as [mo|] eqn:Em; cbn [option_map].
      + apply dp_ret. exists ns. split; [exact Fi|]. exists mo. split; [exact Em|]. split; [reflexivity|]. cbn [snd]. now destruct (final (id4 "mdat") ns).
      + apply dp_fail, told_here. eapply Scan_none; [exact Fi|exact Em].
  Qed.
End Scan.
