(** Scanning a described file never seeks backwards. *)

From Coq Require Import List NArith ZArith Bool Lia Arith String.
From Coq Require Import ZifyBool ZifyNat ZifyN.
From Verif Require Import Base BaseLemmas Utf UtfLemmas Types Stream Parse Find TagSpec TagLemmas FileSpec ParseLemmas ReadProofs ScanProofs Fault ReadIO IoProofs IoCost IoWalk.
Import ListNotations.
Local Open Scope list_scope.
Local Open Scope io_scope.

Section Scan.
  Context (fuel : nat) (m : mode) (f : bytes) (Sm : small f).

  (** Some result, at the end of the atom. *)
  Definition kfine {A} (x : IO A) (k : atom) : Prop :=
    forall p, sits f p (render k) -> exists v, goes_at x f (p + hlen k) v (p + asize k).
  Lemma kfine_bind_ret : forall {A B} (x : IO A) (g : A -> B) k, kfine x k -> kfine (io_bind x (fun v => io_ret (g v))) k.
  Proof. intros A B x g k H p S. destruct (H p S) as (v & G). eexists. eapply at_bind; [exact G|apply at_ret]. Qed.
  Lemma kfine_skip : forall {S} k (s : S), kfine (io_skip_atom m (head_of k) ;;; io_ret s) k.
  Proof. intros S k s p St. exists s. now apply kid_goes_skip_ret. Qed.
  Lemma loop_fine : forall {S} (body : head -> S -> IO S) ks n limit parsed s p,
    forallb fits ks = true -> (forall k s, In k ks -> kfine (body (head_of k) s) k) ->
    parsed + blen (render_all ks) = limit -> limit < 2 ^ 64 -> (List.length ks < n)%nat -> sits f p (render_all ks) ->
    exists s', goes_at (io_atom_loop n m (Ok limit) body parsed s) f p s' (p + blen (render_all ks)).
  Proof.
    intros S body ks. induction ks as [|k r IH]; intros n limit parsed s p F B L L64 Fu H; (destruct n as [|n]; [cbn in Fu; lia|]).
    - exists s. apply (loop_goes m body [] (Datatypes.S n) limit parsed s s F (eq_refl s) L L64 Fu f p Sm H).
    - cbn [forallb] in F. apply andb_true_iff in F. destruct F as [Fk Fr]. rewrite render_all_cons in H. apply sits_app in H. destruct H as [Sk Sr].
      rewrite blen_render_all_cons in *. pose proof (asize_pos k) as A8. fold (asize k) in Sr.
      destruct (B k s (or_introl eq_refl) p Sk) as (s1 & G).
      destruct (IH n limit (parsed + asize k) s1 (p + asize k) Fr) as (s' & I); [intros; apply B; now right|lia|exact L64|cbn in Fu; lia|exact Sr|].
      exists s'. cbn [io_atom_loop]. eapply at_bind; [apply at_lift; reflexivity|]. rewrite (proj2 (N.ltb_lt parsed limit)) by lia.
      pose proof Sk as Sk'. rewrite render_eq in Sk'. apply sits_app in Sk'. destruct Sk' as [Sh _].
      eapply at_bind; [apply (goes_head k Fk f p Sm Sh)|]. rewrite blen_header. fold (hlen k).
      eapply at_bind; [exact G|]. cbn [hd_size head_of sz_len size_of].
      eapply at_bind; [apply at_lift, add64_ok; unfold two64; lia|]. eapply at_eq; [exact I|reflexivity|lia].
  Qed.
  (** The loop of a container behind its prefix. *)
  Lemma kids_fine : forall {S} (body : head -> S -> IO S) k p s, ready fuel k -> sits f p (render k) ->
    (forall c s, In c (a_kids k) -> kfine (body (head_of c) s) c) ->
    exists s', goes_at (io_atom_loop fuel m (content_len m (size_of k)) body (blen (a_pre k)) s) f (kids_pos p k) s' (p + asize k).
  Proof.
    intros S body k p s [F Fu] St B. rewrite content_len_of.
    destruct (loop_fine body (a_kids k) fuel (csize k) (blen (a_pre k)) s (kids_pos p k)) as (s' & G);
      [apply fits_kids, F|exact B|unfold csize, a_content; now rewrite blen_app|apply fits_csize in F; lia|apply enough_length, fuel_enough, Fu|apply sits_kids, St|].
    exists s'. eapply at_eq; [exact G|reflexivity|]. unfold kids_pos. rewrite asize_eq. unfold csize, a_content. rewrite blen_app. lia.
  Qed.
  Lemma kids_plain : forall {S} (body : head -> S -> IO S) k p s, ready fuel k -> a_pre k = [] -> sits f p (render k) ->
    (forall c s, In c (a_kids k) -> kfine (body (head_of c) s) c) ->
    exists s', goes_at (io_atom_loop fuel m (content_len m (size_of k)) body 0 s) f (p + hlen k) s' (p + asize k).
  Proof.
    intros S body k p s R Pre St B. destruct (kids_fine body k p s R St B) as (s' & G). rewrite Pre, (kids_pos_plain p k Pre) in G. exists s'. exact G.
  Qed.
  Lemma leaf_fine : forall k, kfine (io_leaf_find m (size_of k)) k.
  Proof.
    intros k p S. eexists. unfold io_leaf_find. eapply at_bind; [apply at_bounds|].
    eapply at_bind; [apply at_to_end; [exact Sm|exact S|rewrite asize_eq; lia]|apply at_ret].
  Qed.
  Ltac kid := intros c s I; cbn [hd_fourcc hd_size head_of]; repeat match goal with |- kfine (if ?b then _ else _) _ => destruct b eqn:? end;
    first [apply kfine_skip|apply kfine_bind_ret; try apply leaf_fine].

  Lemma stbl_fine : forall k, ready fuel k -> a_pre k = [] -> kfine (io_stbl_find fuel m (size_of k)) k.
  Proof.
    intros k R Pre p St. unfold io_stbl_find. destruct (kids_plain (io_stbl_fbody m) k p (None, None) R Pre St) as (s & G).
    { unfold io_stbl_fbody. kid. }
    eexists. eapply at_bind; [apply at_bounds|]. eapply at_bind; [exact G|apply at_ret].
  Qed.
  (** A container without prefix, one kind of child being looked into. *)
  Lemma box_fine : forall {X Y} id (sub : size -> IO X) (mk : bounds -> option X -> Y) k,
    ready fuel k -> a_pre k = [] -> (forall c, In c (a_kids k) -> a_id c = id -> kfine (sub (size_of c)) c) ->
    kfine (b <- io_find_bounds m (size_of k) ;;
           r <- io_atom_loop fuel m (content_len m (size_of k)) (one_body_io id m sub) 0 None ;; io_ret (mk b r)) k.
  Proof.
    intros X Y id sub mk k R Pre H p St. destruct (kids_plain (one_body_io id m sub) k p None R Pre St) as (s & G).
    { unfold one_body_io. kid. apply H; [exact I|]. rewrite fourcc_eqb_named in *. now apply is_named_eq. }
    eexists. eapply at_bind; [apply at_bounds|]. eapply at_bind; [exact G|apply at_ret].
  Qed.
  Lemma in_named : forall id c ks (P : atom -> Prop), Forall P (named_kids id ks) -> In c ks -> a_id c = id -> P c.
  Proof. intros id c ks P F I E. rewrite Forall_forall in F. apply F, filter_In. split; [exact I|now apply is_named_eq]. Qed.
  Lemma trak_fine : forall k, ready fuel k -> plain_trak k -> kfine (io_trak_find fuel m (size_of k)) k.
  Proof.
    intros k R [Pre H]. apply (box_fine (id4 "mdia") (io_mdia_find fuel m) TrakBounds k R Pre). intros c I E.
    pose proof (in_named _ _ _ _ H I E) as [Pre2 H2]. pose proof (ready_kids fuel _ _ R I) as R2.
    apply (box_fine (id4 "minf") (io_minf_find fuel m) MdiaBounds c R2 Pre2). intros d I2 E2.
    pose proof (in_named _ _ _ _ H2 I2 E2) as [Pre3 H3]. pose proof (ready_kids fuel _ _ R2 I2) as R3.
    apply (box_fine (id4 "stbl") (io_stbl_find fuel m) MinfBounds d R3 Pre3). intros e I3 E3.
    apply stbl_fine; [eapply ready_kids; eassumption|exact (in_named _ _ _ _ H3 I3 E3)].
  Qed.
  Lemma meta_fine : forall k, ready fuel k -> version0 (a_pre k) -> kfine (io_meta_find fuel m (size_of k)) k.
  Proof.
    intros k R V p St. unfold io_meta_find. destruct (kids_fine (io_meta_fbody m) k p (None, None) R St) as (s & G).
    { unfold io_meta_fbody. kid. }
    destruct V as (fl & Fl & Pre).
    assert (F : goes_at io_parse_full_head f (p + hlen k) (0, fl) (kids_pos p k)).
    { pose proof (sits_content _ _ _ St) as C. unfold a_content in C. apply sits_app in C. destruct C as [C _]. rewrite Pre in C.
      unfold kids_pos. rewrite Pre. apply (goes_full_head (n2b 0) fl Fl f _ Sm C). }
    replace (blen (a_pre k)) with 4 in G by (rewrite Pre, blen_cons; unfold blen; rewrite Fl; reflexivity).
    eexists. eapply at_bind; [apply at_bounds|]. eapply at_bind; [exact F|]. cbn [fst]. change (negb (0 =? 0)) with false. cbv iota.
    eapply at_bind; [exact G|apply at_ret].
  Qed.
  Lemma udta_fine : forall k, ready fuel k -> plain_udta k -> kfine (io_udta_find fuel m (size_of k)) k.
  Proof.
    intros k R [Pre H]. apply (box_fine (id4 "meta") (io_meta_find fuel m) UdtaBounds k R Pre). intros c I E.
    apply meta_fine; [eapply ready_kids; eassumption|exact (in_named _ _ _ _ H I E)].
  Qed.
  Lemma moov_fine : forall k, ready fuel k -> plain_moov k -> kfine (io_moov_find fuel m (size_of k)) k.
  Proof.
    intros k R (Pre & T & U) p St. unfold io_moov_find. destruct (kids_plain (io_moov_fbody fuel m) k p ([], None) R Pre St) as (s & G).
    { unfold io_moov_fbody. change TRACK with (id4 "trak"). change USER_DATA with (id4 "udta"). kid.
      - apply trak_fine; [eapply ready_kids; eassumption|]. rewrite fourcc_eqb_named in *. apply (in_named _ _ _ _ T I). now apply is_named_eq.
      - apply udta_fine; [eapply ready_kids; eassumption|]. rewrite fourcc_eqb_named in *. apply (in_named _ _ _ _ U I). now apply is_named_eq. }
    eexists. eapply at_bind; [apply at_bounds|]. eapply at_bind; [exact G|apply at_ret].
  Qed.
End Scan.

Theorem described_scan_forward : forall f t fuel m, good_sizes f -> describes f t ->
  blen (render_all f) < N.of_nat fuel -> forallb ahead (asked (io_scan fuel m) (render_all f) 0) = true.
Proof.
  intros f t fuel m (F & Sm) (ft & pre & mv & post & -> & Ift & W & C & Imv & Nm & M) Fu.
  set (rest := pre ++ mv :: post) in *. set (fb := render_all (ft :: rest)) in *. change (small fb) in Sm.
  cbn [forallb] in F. apply andb_true_iff in F. destruct F as [Fft F].
  assert (E : fb = render ft ++ render_all rest) by (unfold fb; now rewrite render_all_cons).
  assert (S : sits fb (asize ft) (render_all rest)) by (exists (render ft), []; rewrite app_nil_r; auto).
  assert (B : blen fb = asize ft + blen (render_all rest)) by (rewrite E, blen_app; reflexivity).
  assert (R : forall k, In k rest -> ready fuel k).
  { intros k X. split; [rewrite forallb_forall in F; apply F, X|]. unfold fuel_for. apply kid_in_size in X. rewrite asize_eq in X. lia. }
  assert (Mo : forall k, In k rest -> a_id k = id4 "moov" -> k = mv).
  { intros k I J. unfold rest in I. rewrite named_app in Nm. apply app_eq_nil in Nm. destruct Nm as [N1 N2].
    assert (K : forall l, named_kids (id4 "moov") l = [] -> In k l -> False).
    { intros l Hl Il. assert (In k (named_kids (id4 "moov") l)) by (apply filter_In; split; [exact Il|now apply is_named_eq]). rewrite Hl in H. exact H. }
    apply in_app_or in I. destruct I as [I|[I|I]]; [exfalso; exact (K pre N1 I)|now symmetry|exfalso; exact (K post N2 I)]. }
  pose proof (moov_plain _ _ _ M) as P.
  destruct (loop_fine fuel m fb Sm (io_top_fbody fuel m) rest fuel (blen (render_all rest)) 0 (None, None) (asize ft) F) as (r & G).
  { intros k s I. unfold io_top_fbody. cbn [hd_fourcc hd_size head_of]. change MOVIE with (id4 "moov"). change MEDIA_DATA with (id4 "mdat"). rewrite !fourcc_eqb_named.
    destruct (is_named (id4 "moov") k) eqn:E1.
    - apply kfine_bind_ret. apply is_named_eq in E1. pose proof (Mo k I E1) as ->. apply moov_fine; [exact Sm|apply R, I|exact P].
    - destruct (is_named (id4 "mdat") k); [apply kfine_bind_ret, leaf_fine, Sm|apply (kfine_skip m fb Sm)]. }
  { lia. }
  { unfold small in Sm. assert (2 ^ 62 < 2 ^ 64) by reflexivity. lia. }
  { pose proof (kids_count rest) as K. unfold blen in K at 1. lia. }
  { exact S. }
  unfold io_scan.
  assert (P1 : goes_at (io_ftyp_parse m) fb 0 (tg_ftyp t) (asize ft)).
  { eapply at_eq; [apply (ftyp_goes_io m ft (tg_ftyp t) Fft Ift W C fb 0 Sm); exists [], (render_all rest); split; [exact E|reflexivity]|reflexivity|reflexivity]. }
  assert (P2 : goes_at (io_remaining_stream_len m) fb (asize ft) (blen (render_all rest)) (asize ft)).
  { eapply at_eq; [apply at_remaining; [lia|exact Sm]|lia|reflexivity]. }
  destruct P1 as [P1 A1], P2 as [P2 A2], G as [G A3].
  rewrite asked_bind, P1, forallb_app, A1, asked_bind, P2, forallb_app, A2, asked_bind, G, forallb_app, A3.
  cbn [andb]. destruct (fst r); reflexivity.
Qed.
