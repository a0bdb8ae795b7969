(** What the scan of the write path finds in a file given as a tree of atoms. *)

From Coq Require Import List NArith ZArith Bool Lia Arith String.
From Coq Require Import ZifyBool ZifyNat ZifyN.
From Verif Require Import Base BaseLemmas Utf UtfLemmas Types Stream Parse Find Write TagSpec FileSpec ParseLemmas ReadProofs
  ReadFacts ReadBad ReadTerm.
Import ListNotations.
Local Open Scope list_scope.

(** * Positions in a tree *)

(** Position of the first child of an atom at [p]. *)
Definition kids_pos (p : N) (k : atom) : N := p + hlen k + blen (a_pre k).

Fixpoint last_of {Y} (g : N -> atom -> Y) (id : fourcc) (q : N) (ks : list atom) (acc : option Y) : option Y :=
  match ks with
  | [] => acc
  | k :: r => last_of g id (q + asize k) r (if is_named id k then Some (g q k) else acc)
  end.
Fixpoint all_of {Y} (g : N -> atom -> Y) (id : fourcc) (q : N) (ks : list atom) : list Y :=
  match ks with
  | [] => []
  | k :: r => (if is_named id k then [g q k] else []) ++ all_of g id (q + asize k) r
  end.

Definition stbl_at (p : N) (k : atom) : stbl_bounds :=
  StblBounds (bounds_of p k) (last_of bounds_of (id4 "stco") (kids_pos p k) (a_kids k) None)
    (last_of bounds_of (id4 "co64") (kids_pos p k) (a_kids k) None).
Definition minf_at (p : N) (k : atom) : minf_bounds :=
  MinfBounds (bounds_of p k) (last_of stbl_at (id4 "stbl") (kids_pos p k) (a_kids k) None).
Definition mdia_at (p : N) (k : atom) : mdia_bounds :=
  MdiaBounds (bounds_of p k) (last_of minf_at (id4 "minf") (kids_pos p k) (a_kids k) None).
Definition trak_at (p : N) (k : atom) : trak_bounds :=
  TrakBounds (bounds_of p k) (last_of mdia_at (id4 "mdia") (kids_pos p k) (a_kids k) None).
Definition meta_at (p : N) (k : atom) : meta_bounds :=
  MetaBounds (bounds_of p k) (last_of bounds_of (id4 "hdlr") (kids_pos p k) (a_kids k) None)
    (last_of bounds_of (id4 "ilst") (kids_pos p k) (a_kids k) None).
Definition udta_at (p : N) (k : atom) : udta_bounds :=
  UdtaBounds (bounds_of p k) (last_of meta_at (id4 "meta") (kids_pos p k) (a_kids k) None).
Definition moov_at (p : N) (k : atom) : moov_bounds :=
  MoovBounds (bounds_of p k) (all_of trak_at (id4 "trak") (kids_pos p k) (a_kids k))
    (last_of udta_at (id4 "udta") (kids_pos p k) (a_kids k) None).

(** * Containers without a prefix *)

Definition plain (id : fourcc) (P : atom -> Prop) (a : atom) : Prop :=
  a_pre a = [] /\ Forall P (named_kids id (a_kids a)).
Definition plain_trak : atom -> Prop :=
  plain (id4 "mdia") (plain (id4 "minf") (plain (id4 "stbl") (fun a => a_pre a = []))).
Definition plain_udta : atom -> Prop := plain (id4 "meta") (fun a => version0 (a_pre a)).
Definition plain_moov (a : atom) : Prop :=
  a_pre a = [] /\ Forall plain_trak (named_kids (id4 "trak") (a_kids a)) /\ Forall plain_udta (named_kids (id4 "udta") (a_kids a)).

Lemma forall_of_forall2 : forall {A B} (P : A -> B -> Prop) (Q : A -> Prop) l r, Forall2 P l r -> (forall a b, P a b -> Q a) -> Forall Q l.
Proof. intros A B P Q l r H K. induction H; constructor; eauto. Qed.
Lemma box_plain : forall {A} id (P : atom -> option A -> Prop) (Q : atom -> Prop) a o, box id P a o -> (forall k x, P k x -> Q k) -> plain id Q a.
Proof. intros A id P Q a o (Pre & oo & (l & F & _) & _) H. split; [exact Pre|]. eapply forall_of_forall2; [exact F|exact H]. Qed.
Lemma trak_plain : forall a o, trak_means a o -> plain_trak a.
Proof.
  intros a o H. eapply box_plain; [exact H|]. intros k x K. eapply box_plain; [exact K|]. intros k2 x2 K2.
  eapply box_plain; [exact K2|]. intros k3 x3 K3. apply K3.
Qed.
Lemma udta_plain : forall a o, udta_means a o -> plain_udta a.
Proof. intros a o H. eapply box_plain; [exact H|]. intros k x K. apply K. Qed.
Lemma moov_plain : forall a i l, moov_means a i l -> plain_moov a.
Proof.
  intros a i l (P & dur & auds & uo & _ & T & (ul & U & _) & _). split; [exact P|]. split.
  - eapply forall_of_forall2; [exact T|apply trak_plain].
  - eapply forall_of_forall2; [exact U|apply udta_plain].
Qed.

(** * Running the scan *)

(** [r] returns [v] on the content of [k] at [p]. *)
Definition finds {Y} (r : size -> R Y) (g : N -> atom -> Y) (f : bytes) (k : atom) : Prop :=
  forall p, sits f p (render k) -> r (size_of k) f (p + hlen k) = Ok (g p k, p + asize k).

Lemma sits_kids : forall f p k, sits f p (render k) -> sits f (kids_pos p k) (render_all (a_kids k)).
Proof. intros f p k H. apply sits_content in H. unfold a_content in H. apply sits_app in H. apply H. Qed.

Lemma one_psteps : forall {Y} id m (sub : size -> R Y) g f ks q acc, small f -> sits f q (render_all ks) ->
  Forall (finds sub g f) (named_kids id ks) ->
  psteps (one_body id m sub) f q ks acc (last_of g id q ks acc).
Proof.
  intros Y id m sub g f. induction ks as [|k r IH]; intros q acc Sm S H; [reflexivity|].
  rewrite render_all_cons in S. apply sits_app in S. destruct S as [Sk Sr]. cbn [named_kids filter] in H. cbn [psteps last_of].
  exists (if is_named id k then Some (g q k) else acc). unfold one_body. cbn [hd_fourcc hd_size head_of]. rewrite fourcc_eqb_named.
  destruct (is_named id k).
  - inversion H as [|? ? Hk Hr]; subst. split; [erewrite bind_ok by (apply Hk, Sk); reflexivity|]. apply IH; assumption.
  - split; [apply kid_skip_ret; assumption|]. apply IH; assumption.
Qed.

(** A loop over two kinds of leaves. *)
Lemma two_psteps : forall (body : head -> option bounds * option bounds -> R (option bounds * option bounds)) m i1 i2 f ks q a1 a2,
  (forall h r, body h r = (if fourcc_eqb (hd_fourcc h) i1 then b <- leaf_find m (hd_size h) ;; ret (Some b, snd r)
    else if fourcc_eqb (hd_fourcc h) i2 then b <- leaf_find m (hd_size h) ;; ret (fst r, Some b)
    else skip_atom m h ;;; ret r)) -> i1 <> i2 ->
  small f -> sits f q (render_all ks) ->
  psteps body f q ks (a1, a2) (last_of bounds_of i1 q ks a1, last_of bounds_of i2 q ks a2).
Proof.
  intros body m i1 i2 f ks q a1 a2 B D Sm. revert q a1 a2. induction ks as [|k r IH]; intros q a1 a2 S; [reflexivity|].
  rewrite render_all_cons in S. apply sits_app in S. destruct S as [Sk Sr]. cbn [psteps last_of].
  exists (if is_named i1 k then Some (bounds_of q k) else a1, if is_named i2 k then Some (bounds_of q k) else a2).
  split; [|apply IH; exact Sr]. rewrite B. cbn [hd_fourcc hd_size head_of fst snd]. rewrite !fourcc_eqb_named.
  destruct (is_named i1 k) eqn:E1.
  - destruct (is_named i2 k) eqn:E2; [apply is_named_eq in E1, E2; congruence|].
    erewrite bind_ok by (apply leaf_kid; assumption). reflexivity.
  - destruct (is_named i2 k); [erewrite bind_ok by (apply leaf_kid; assumption); reflexivity|]. apply kid_skip_ret; assumption.
Qed.

Section Scan.
  Variables (fuel : nat) (m : mode) (f : bytes).
  Hypothesis Sm : small f.

  Definition ready (k : atom) : Prop := fits k = true /\ fuel_for fuel k.
  Lemma ready_kids : forall k c, ready k -> In c (a_kids k) -> ready c.
  Proof. intros k c [F Fu] I. split; [eapply kid_fits; eassumption|eapply fuel_kid; eassumption]. Qed.
  Lemma ready_named : forall k id c, ready k -> In c (named_kids id (a_kids k)) -> ready c.
  Proof. intros k id c R I. apply filter_In in I. eapply ready_kids; [exact R|apply I]. Qed.

  Lemma loop_finds : forall {S} (body : head -> S -> R S) k p s s', ready k -> sits f p (render k) ->
    psteps body f (kids_pos p k) (a_kids k) s s' ->
    atom_loop fuel m (content_len m (size_of k)) body (blen (a_pre k)) s f (kids_pos p k) = Ok (s', p + asize k).
  Proof.
    intros S body k p s s' [F Fu] St P. rewrite content_len_of.
    rewrite (loop_all m body (a_kids k) fuel (csize k) (blen (a_pre k)) s s' f (kids_pos p k)); auto using fits_kids, sits_kids.
    - do 2 f_equal. unfold kids_pos. rewrite asize_eq. unfold csize, a_content. rewrite blen_app. lia.
    - unfold csize, a_content. rewrite blen_app. reflexivity.
    - apply fits_csize in F. lia.
    - apply enough_length, fuel_enough, Fu.
  Qed.

  Lemma kids_pos_plain : forall p k, a_pre k = [] -> kids_pos p k = p + hlen k.
  Proof. intros p k E. unfold kids_pos. rewrite E, blen_nil. lia. Qed.

  Lemma stbl_finds : forall k, ready k -> a_pre k = [] -> finds (stbl_find fuel m) stbl_at f k.
  Proof.
    intros k R Pre p St. unfold stbl_find. erewrite bind_ok by apply find_bounds_of.
    assert (P : psteps (stbl_fbody m) f (kids_pos p k) (a_kids k) (None, None)
      (last_of bounds_of (id4 "stco") (kids_pos p k) (a_kids k) None, last_of bounds_of (id4 "co64") (kids_pos p k) (a_kids k) None)).
    { apply (two_psteps _ m); [reflexivity|discriminate|exact Sm|apply sits_kids, St]. }
    pose proof (loop_finds _ k p _ _ R St P) as L. rewrite Pre, blen_nil in L. rewrite (kids_pos_plain p k Pre) in L at 1.
    erewrite bind_ok by exact L. reflexivity.
  Qed.

  Lemma box_finds : forall {X Y} id (sub : size -> R X) g (mk : bounds -> option X -> Y) k p,
    ready k -> a_pre k = [] -> Forall (finds sub g f) (named_kids id (a_kids k)) -> sits f p (render k) ->
    (b <- find_bounds m (size_of k) ;;
     r <- atom_loop fuel m (content_len m (size_of k)) (one_body id m sub) 0 None ;; ret (mk b r)) f (p + hlen k) =
    Ok (mk (bounds_of p k) (last_of g id (kids_pos p k) (a_kids k) None), p + asize k).
  Proof.
    intros X Y id sub g mk k p R Pre H St. erewrite bind_ok by apply find_bounds_of.
    assert (P : psteps (one_body id m sub) f (kids_pos p k) (a_kids k) None (last_of g id (kids_pos p k) (a_kids k) None)).
    { apply one_psteps; [exact Sm|apply sits_kids, St|exact H]. }
    pose proof (loop_finds _ k p _ _ R St P) as L. rewrite Pre, blen_nil in L. rewrite (kids_pos_plain p k Pre) in L at 1.
    erewrite bind_ok by exact L. reflexivity.
  Qed.
  Lemma forall_ready : forall k id (P Q : atom -> Prop), ready k -> Forall P (named_kids id (a_kids k)) ->
    (forall c, ready c -> P c -> Q c) -> Forall Q (named_kids id (a_kids k)).
  Proof.
    intros k id P Q R H K. rewrite Forall_forall in *. intros c I. apply K; [eapply ready_named; eassumption|apply H, I].
  Qed.

  Lemma trak_finds : forall k, ready k -> plain_trak k -> finds (trak_find fuel m) trak_at f k.
  Proof.
    intros k R [Pre H] p St. apply (box_finds (id4 "mdia") (mdia_find fuel m) mdia_at TrakBounds); auto.
    eapply forall_ready; [exact R|exact H|]. clear k R Pre H p St. intros k R [Pre H] p St.
    apply (box_finds (id4 "minf") (minf_find fuel m) minf_at MdiaBounds); auto.
    eapply forall_ready; [exact R|exact H|]. clear k R Pre H p St. intros k R [Pre H] p St.
    apply (box_finds (id4 "stbl") (stbl_find fuel m) stbl_at MinfBounds); auto.
    eapply forall_ready; [exact R|exact H|]. intros c Rc Pc. apply stbl_finds; assumption.
  Qed.

  Lemma meta_finds : forall k, ready k -> version0 (a_pre k) -> finds (meta_find fuel m) meta_at f k.
  Proof.
    intros k R V p St. unfold meta_find. erewrite bind_ok by apply find_bounds_of.
    destruct V as (fl & Fl & Pre). 
    assert (F : parse_full_head f (p + hlen k) = Ok ((0, fl), kids_pos p k)).
    { pose proof (sits_content _ _ _ St) as C. unfold a_content in C. apply sits_app in C. destruct C as [C _]. rewrite Pre in C.
      unfold kids_pos. rewrite Pre. apply (parses_full_head (n2b 0) fl Fl f _ Sm C). }
    erewrite bind_ok by exact F. cbn [fst]. change (negb (0 =? 0)) with false. cbv iota.
    assert (P : psteps (meta_fbody m) f (kids_pos p k) (a_kids k) (None, None)
      (last_of bounds_of (id4 "hdlr") (kids_pos p k) (a_kids k) None, last_of bounds_of (id4 "ilst") (kids_pos p k) (a_kids k) None)).
    { apply (two_psteps _ m); [reflexivity|discriminate|exact Sm|apply sits_kids, St]. }
    pose proof (loop_finds _ k p _ _ R St P) as L.
    replace (blen (a_pre k)) with 4 in L by (rewrite Pre, blen_cons; unfold blen; rewrite Fl; reflexivity).
    erewrite bind_ok by exact L. reflexivity.
  Qed.

  Lemma udta_finds : forall k, ready k -> plain_udta k -> finds (udta_find fuel m) udta_at f k.
  Proof.
    intros k R [Pre H] p St. apply (box_finds (id4 "meta") (meta_find fuel m) meta_at UdtaBounds); auto.
    eapply forall_ready; [exact R|exact H|]. intros c Rc Pc. apply meta_finds; assumption.
  Qed.

  Lemma moov_psteps : forall ks q l u, sits f q (render_all ks) ->
    Forall (finds (trak_find fuel m) trak_at f) (named_kids (id4 "trak") ks) ->
    Forall (finds (udta_find fuel m) udta_at f) (named_kids (id4 "udta") ks) ->
    psteps (moov_fbody fuel m) f q ks (l, u) (l ++ all_of trak_at (id4 "trak") q ks, last_of udta_at (id4 "udta") q ks u).
  Proof.
    induction ks as [|k r IH]; intros q l u S T U; [cbn [psteps all_of last_of]; rewrite app_nil_r; reflexivity|].
    rewrite render_all_cons in S. apply sits_app in S. destruct S as [Sk Sr]. cbn [named_kids filter] in T, U. cbn [psteps last_of all_of].
    exists (l ++ (if is_named (id4 "trak") k then [trak_at q k] else []), if is_named (id4 "udta") k then Some (udta_at q k) else u).
    unfold moov_fbody. cbn [hd_fourcc hd_size head_of fst snd]. change TRACK with (id4 "trak"). change USER_DATA with (id4 "udta").
    rewrite !fourcc_eqb_named. rewrite app_assoc.
    destruct (is_named (id4 "trak") k) eqn:E1.
    - destruct (is_named (id4 "udta") k) eqn:E2; [apply is_named_eq in E1, E2; rewrite E1 in E2; discriminate|].
      inversion T as [|? ? Hk Hr]; subst. split; [erewrite bind_ok by (apply Hk, Sk); reflexivity|]. apply IH; assumption.
    - rewrite app_nil_r. destruct (is_named (id4 "udta") k) eqn:E2.
      + inversion U as [|? ? Hk Hr]; subst. split; [erewrite bind_ok by (apply Hk, Sk); reflexivity|]. apply IH; assumption.
      + split; [apply kid_skip_ret; assumption|]. apply IH; assumption.
  Qed.
  Lemma moov_finds : forall k, ready k -> plain_moov k -> finds (moov_find fuel m) moov_at f k.
  Proof.
    intros k R (Pre & T & U) p St. unfold moov_find. erewrite bind_ok by apply find_bounds_of.
    assert (P : psteps (moov_fbody fuel m) f (kids_pos p k) (a_kids k) ([], None)
      (all_of trak_at (id4 "trak") (kids_pos p k) (a_kids k), last_of udta_at (id4 "udta") (kids_pos p k) (a_kids k) None)).
    { apply moov_psteps; [apply sits_kids, St| |].
      - eapply forall_ready; [exact R|exact T|apply trak_finds].
      - eapply forall_ready; [exact R|exact U|apply udta_finds]. }
    pose proof (loop_finds _ k p _ _ R St P) as L. rewrite Pre, blen_nil in L. rewrite (kids_pos_plain p k Pre) in L at 1.
    erewrite bind_ok by exact L. reflexivity.
  Qed.

  Lemma top_finds : forall ks q r, sits f q (render_all ks) ->
    Forall (finds (moov_find fuel m) moov_at f) (named_kids (id4 "moov") ks) ->
    psteps (top_fbody fuel m) f q ks r (last_of moov_at (id4 "moov") q ks (fst r), last_of bounds_of (id4 "mdat") q ks (snd r)).
  Proof.
    induction ks as [|k ks IH]; intros q r S H; [destruct r; reflexivity|].
    rewrite render_all_cons in S. apply sits_app in S. destruct S as [Sk Sr]. cbn [named_kids filter] in H. cbn [psteps last_of].
    exists (if is_named (id4 "moov") k then Some (moov_at q k) else fst r, if is_named (id4 "mdat") k then Some (bounds_of q k) else snd r).
    unfold top_fbody. cbn [hd_fourcc hd_size head_of]. change MOVIE with (id4 "moov"). change MEDIA_DATA with (id4 "mdat").
    rewrite !fourcc_eqb_named.
    destruct (is_named (id4 "moov") k) eqn:E1.
    - destruct (is_named (id4 "mdat") k) eqn:E2; [apply is_named_eq in E1, E2; rewrite E1 in E2; discriminate|].
      inversion H as [|? ? Hk Hr]; subst. split; [erewrite bind_ok by (apply Hk, Sk); reflexivity|]. apply (IH (q + asize k) (Some (moov_at q k), snd r)); assumption.
    - destruct (is_named (id4 "mdat") k) eqn:E2.
      + split; [erewrite bind_ok by (apply leaf_kid; assumption); reflexivity|]. apply (IH (q + asize k) (fst r, Some (bounds_of q k))); assumption.
      + split; [destruct r; apply kid_skip_ret; assumption|]. apply (IH (q + asize k) (fst r, snd r)); assumption.
  Qed.
End Scan.

Lemma last_of_app : forall {Y} (g : N -> atom -> Y) id x y q acc,
  last_of g id q (x ++ y) acc = last_of g id (q + blen (render_all x)) y (last_of g id q x acc).
Proof.
  intros Y g id. induction x as [|k x IH]; intros y q acc; cbn [app last_of].
  - change (render_all []) with (@nil byte). rewrite blen_nil, N.add_0_r. reflexivity.
  - rewrite IH, blen_render_all_cons, N.add_assoc. reflexivity.
Qed.
Lemma last_of_none : forall {Y} (g : N -> atom -> Y) id ks q acc, named_kids id ks = [] -> last_of g id q ks acc = acc.
Proof.
  intros Y g id. induction ks as [|k r IH]; intros q acc H; [reflexivity|]. cbn [named_kids filter] in H. cbn [last_of].
  destruct (is_named id k); [discriminate|]. apply IH, H.
Qed.
Lemma named_app : forall id x y, named_kids id (x ++ y) = named_kids id x ++ named_kids id y.
Proof. intros. apply filter_app. Qed.
Lemma named_cons : forall id k r, named_kids id (k :: r) = if is_named id k then k :: named_kids id r else named_kids id r.
Proof. reflexivity. Qed.
(** An only child. *)
Lemma last_of_only : forall {Y} (g : N -> atom -> Y) id x k y q, a_id k = id -> named_kids id y = [] ->
  last_of g id q (x ++ k :: y) None = Some (g (q + blen (render_all x)) k).
Proof.
  intros Y g id x k y q E H. rewrite last_of_app. cbn [last_of]. rewrite (proj2 (is_named_eq id k) E). apply last_of_none, H.
Qed.

(** Position of the last mdat atom, 0 if there is none. *)
Definition mdat_pos (f : list atom) : N :=
  match f with
  | [] => 0
  | ft :: r => match last_of bounds_of (id4 "mdat") (asize ft) r None with Some b => b_pos b | None => 0 end
  end.

(** The last movie atom of the file is found. *)
Theorem scan_finds_last : forall fuel m ft s pre mv post,
  let f := render_all (ft :: pre ++ mv :: post) in
  good_sizes (ft :: pre ++ mv :: post) -> blen f < N.of_nat fuel ->
  a_id ft = id4 "ftyp" -> wf_ustr s = true -> a_content ft = enc8 s ->
  a_id mv = id4 "moov" -> Forall plain_moov (named_kids (id4 "moov") pre) -> named_kids (id4 "moov") post = [] -> plain_moov mv ->
  exists q, scan fuel m f 0 = Ok ((moov_at (blen (render_all (ft :: pre))) mv, mdat_pos (ft :: pre ++ mv :: post)), q).
Proof.
  intros fuel m ft s pre mv post f [F Sm] Fu I W C J N1 N2 P. fold f in Sm. change (small f) in Sm.
  cbn [forallb] in F. apply andb_true_iff in F. destruct F as [Fft F].
  set (rest := pre ++ mv :: post) in *.
  assert (Ef : f = render ft ++ render_all rest) by (unfold f; rewrite render_all_cons; reflexivity).
  assert (Pf : ftyp_parse m f 0 = Ok (s, asize ft)).
  { pose proof (ftyp_parses m ft s Fft I W C f 0 Sm) as X. rewrite N.add_0_l in X. apply X. exists [], (render_all rest). auto. }
  assert (S : sits f (asize ft) (render_all rest)) by (exists (render ft), []; rewrite app_nil_r; auto).
  assert (B : blen f = asize ft + blen (render_all rest)) by (rewrite Ef, blen_app; reflexivity).
  assert (Len : remaining_stream_len m f (asize ft) = Ok (blen (render_all rest), asize ft)).
  { unfold remaining_stream_len, bind, position, seek_end, lift. rewrite sub64_ok by lia. unfold seek_start. unfold small in Sm.
    rewrite (proj2 (N.ltb_lt _ two63)) by (unfold two63; lia). unfold ret. do 2 f_equal. lia. }
  assert (R : forall k, In k rest -> ready fuel k).
  { intros k X. split.
    - rewrite forallb_forall in F. apply F, X.
    - unfold fuel_for. apply kid_in_size in X. rewrite asize_eq in X. lia. }
  assert (St : psteps (top_fbody fuel m) f (asize ft) rest (None, None)
    (last_of moov_at (id4 "moov") (asize ft) rest None, last_of bounds_of (id4 "mdat") (asize ft) rest None)).
  { apply (top_finds fuel m f Sm rest (asize ft) (None, None) S). unfold rest. rewrite named_app, named_cons, N2.
    rewrite (proj2 (is_named_eq _ _) J). apply Forall_app. split.
    - apply Forall_forall. intros k X. apply moov_finds; [exact Sm|apply R|rewrite Forall_forall in N1; apply N1, X].
      apply filter_In in X. destruct X as [X _]. apply in_or_app. left. exact X.
    - constructor; [|constructor]. apply moov_finds; [exact Sm|apply R|exact P]. apply in_or_app. right. left. reflexivity. }
  unfold scan. erewrite bind_ok by exact Pf. erewrite bind_ok by exact Len.
  erewrite bind_ok.
  2: { apply (loop_all m (top_fbody fuel m) rest fuel (blen (render_all rest)) 0 (None, None) _ f (asize ft) Sm F St S); try lia.
    - unfold small in Sm. assert (2 ^ 62 < 2 ^ 64) by reflexivity. lia.
    - pose proof (kids_count rest) as K. unfold blen in K at 1. lia. }
  cbn [fst snd]. unfold rest at 1. rewrite last_of_only by assumption. unfold mdat_pos. fold rest.
  rewrite blen_render_all_cons. eexists. reflexivity.
Qed.

Theorem scan_finds : forall fuel m ft s pre mv post,
  let f := render_all (ft :: pre ++ mv :: post) in
  good_sizes (ft :: pre ++ mv :: post) -> blen f < N.of_nat fuel ->
  a_id ft = id4 "ftyp" -> wf_ustr s = true -> a_content ft = enc8 s ->
  a_id mv = id4 "moov" -> named_kids (id4 "moov") (pre ++ post) = [] -> plain_moov mv ->
  exists q, scan fuel m f 0 = Ok ((moov_at (blen (render_all (ft :: pre))) mv, mdat_pos (ft :: pre ++ mv :: post)), q).
Proof.
  intros fuel m ft s pre mv post f G Fu I W C J N P. rewrite named_app in N. apply app_eq_nil in N. destruct N as [N1 N2].
  apply (scan_finds_last fuel m ft s); try assumption. rewrite N1. constructor.
Qed.
