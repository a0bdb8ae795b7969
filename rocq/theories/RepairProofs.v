(** Proofs for RepairSpec.v. *)

From Coq Require Import List NArith ZArith Bool Lia Arith String.
From Coq Require Import ZifyBool ZifyNat ZifyN.
From Verif Require Import Base BaseLemmas Utf UtfLemmas Types Stream Parse Find Write TagSpec FileSpec ParseLemmas ReadSpec ReadProofs
  ReadFacts NewMeans WriteBytes ScanProofs AdjustProofs WriteProofs WriteMain UpdateMeans UpdateTwice OffsetProofs EditSpec EditProofs RepairSpec.
Import ListNotations.
Local Open Scope list_scope.

Lemma shell_laid_out : forall f s mv, shell f s mv -> exists ft pre post, laid_out f ft pre mv post /\ wf_ustr s = true /\ a_content ft = enc8 s.
Proof.
  intros f s mv (ft & pre & post & -> & I & W & C & J & N & P & T & U). exists ft, pre, post. split; [|split; assumption].
  split; [reflexivity|]. split; [exact I|]. split; [exists s; split; assumption|]. split; [exact J|]. split; [exact N|]. split; [exact P|]. split; [exact T|exact U].
Qed.

Lemma laid_good : forall f ft pre mv post, laid_out f ft pre mv post -> editable f -> good_moov mv.
Proof. intros f ft pre mv post (-> & _ & _ & J & _) E. eapply editable_moov; eassumption. Qed.

Lemma shell_writes : forall cap fuel m f s mv items, shell f s mv -> good_sizes f -> editable f -> exact_items items -> good_sizes (update_file items f) ->
  blen (render_all f) < N.of_nat fuel ->
  exists ops, write_tag cap fuel m items (render_all f) = WResult (Ok tt) (render_all (update_file items f)) ops.
Proof.
  intros cap fuel m f s mv items Sh G E Ex G' Fu. destruct (shell_laid_out f s mv Sh) as (ft & pre & post & L & _).
  destruct (write_main cap fuel m items f ft pre mv post L G (laid_good _ _ _ _ _ L E) Ex G' Fu) as (ops & W & _). exists ops. exact W.
Qed.

Lemma shell_edit : forall f s mv items, shell f s mv -> editable f -> file_edit f (update_file items f).
Proof.
  intros f s mv items (ft & pre & post & -> & I & _ & _ & J & N & _) E. pose proof (editable_moov _ _ _ _ J E) as G.
  rewrite (update_at items ft pre mv post I J N). eexists (ft :: pre), mv, _, post. split; [reflexivity|]. split; [reflexivity|].
  split; [exact J|]. apply moov_edit_update, G.
Qed.

Lemma sounds_updated : forall items d mv info, describable items -> good_moov mv -> a_pre mv = [] ->
  Forall bare_udta (named_kids (id4 "udta") (a_kids mv)) -> sounds mv info -> moov_means (update_moov items d mv) info items.
Proof.
  intros items d mv info Di [GT [G1 G2]] Pre PU (dur & auds & (dl & D1 & D2) & T & ->).
  assert (R : forall x u y, named_kids (id4 "mvhd") (x ++ y) = named_kids (id4 "mvhd") (a_kids mv) ->
    named_kids (id4 "trak") (x ++ y) = named_kids (id4 "trak") (a_kids mv) ->
    named_kids (id4 "udta") x = [] -> named_kids (id4 "udta") y = [] -> a_id u = id4 "udta" -> udta_means u (Some items) ->
    moov_means (with_kids mv (shift_traks d x ++ u :: y)) (info_of dur (first_some auds)) items).
  { intros x u y Nm Nt Nx Ny I Mu.
    assert (N : forall id, id <> id4 "trak" -> id <> id4 "udta" -> named_kids id (shift_traks d x ++ u :: y) = named_kids id (x ++ y)).
    { intros id A B. rewrite !named_app, named_other by congruence. f_equal. apply named_map_other; [exact A|reflexivity]. }
    split; [exact Pre|]. exists dur, auds, (Some (Some items)).
    split; [exists dl; split; [|exact D2]; unfold with_kids; cbn [a_kids]; rewrite N, Nm by discriminate; exact D1|].
    split; [|split; [|split; reflexivity]].
    - unfold with_kids. cbn [a_kids]. rewrite named_app, named_other by (rewrite I; discriminate).
      unfold shift_traks. rewrite named_map_same by reflexivity.
      rewrite named_app in Nt. rewrite <- Nt in T. apply Forall2_app_inv_l in T. destruct T as (l1 & l2 & T1 & T2 & ->).
      apply Forall2_app; [|exact T2]. eapply forall2_map; [|exact T1]. apply shift_trak_means.
    - exists [Some items]. split; [|reflexivity]. unfold with_kids. cbn [a_kids]. rewrite named_app.
      unfold shift_traks. rewrite (named_map_other (id4 "udta")), Nx by (discriminate || reflexivity). cbn [app]. rewrite named_this by exact I. rewrite Ny.
      constructor; [exact Mu|constructor]. }
  unfold update_moov. destruct (split_one (id4 "udta") (a_kids mv) G1) as [N|(x & c & y & E & I & N1 & N2)].
  - rewrite split_on_none by exact N. apply R; rewrite ?app_nil_r; try reflexivity; [exact N|apply new_udta_means, Di].
  - rewrite E in R. rewrite E, split_on_at by assumption. assert (In c (a_kids mv)) as Ic by (rewrite E; apply in_or_app; right; left; reflexivity).
    apply R; try assumption.
    + rewrite !named_app, named_other by (rewrite I; discriminate). reflexivity.
    + rewrite !named_app, named_other by (rewrite I; discriminate). reflexivity.
    + rewrite update_udta_id. exact I.
    + apply update_udta_means; [exact Di|exact (named_in _ _ _ c G2 Ic I)|exact (named_in _ _ _ c PU Ic I)].
Qed.

Lemma shell_describes : forall f s mv info items, shell f s mv -> editable f -> sounds mv info -> describable items ->
  describes (update_file items f) (Tag s info items).
Proof.
  intros f s mv info items (ft & pre & post & -> & I & W & C & J & N & P & T & U) E So Di.
  rewrite (update_at items ft pre mv post I J N). eexists ft, pre, _, post. cbn [tg_ftyp tg_info tg_atoms].
  split; [reflexivity|]. do 3 (split; [assumption|]). split; [rewrite update_moov_id; exact J|]. split; [exact N|].
  apply sounds_updated; [exact Di|eapply editable_moov; eassumption|exact P|exact U|exact So].
Qed.

(** ** The list is not looked at *)

Lemma render_mid : forall ext id p x a a' y, asize a = asize a' -> asize (Atom ext id p (x ++ a :: y)) = asize (Atom ext id p (x ++ a' :: y)).
Proof.
  intros ext id p x a a' y E. rewrite !asize_eq. unfold hlen, csize, a_content. cbn [a_ext a_pre a_kids]. rewrite !blen_app, !render_all_app, !render_all_cons, !blen_app.
  unfold asize in E. rewrite E. reflexivity.
Qed.
Lemma relist_size : forall c a a', asize a = asize a' -> asize (relist_moov c a) = asize (relist_moov c a').
Proof. intros c a a' E. unfold relist_moov, relist_udta, relist_meta. do 3 apply render_mid. exact E. Qed.

Lemma one_mid : forall id x k y, at_most_one id (x ++ k :: y) -> a_id k = id -> named_kids id x = [] /\ named_kids id y = [].
Proof.
  intros id x k y A I. unfold at_most_one in A. rewrite named_app, named_this in A by exact I. rewrite app_length in A. cbn [List.length] in A.
  split; apply length_zero_iff_nil; lia.
Qed.

Lemma relist_updated : forall items d c a a', a_id a = id4 "ilst" -> a_id a' = id4 "ilst" -> good_moov (relist_moov c a) ->
  update_moov items d (relist_moov c a) = update_moov items d (relist_moov c a').
Proof.
  intros items d c a a' I I' [_ [G1 G2]]. cbn [relist_moov a_kids] in G1, G2.
  destruct (one_mid _ _ (relist_udta c a) _ G1 eq_refl) as [Nu _].
  rewrite named_app, named_this in G2 by reflexivity. apply Forall_app in G2. destruct G2 as [_ G2]. inversion G2 as [|u l [H1 H2] _]; subst.
  cbn [relist_udta a_kids] in H1, H2. destruct (one_mid _ _ (relist_meta c a) _ H1 eq_refl) as [Nm _].
  rewrite named_app, named_this in H2 by reflexivity. apply Forall_app in H2. destruct H2 as [_ H2]. inversion H2 as [|e l K _]; subst.
  unfold good_meta in K. cbn [relist_meta a_kids] in K. destruct (one_mid _ _ a _ K I) as [Nl _].
  unfold update_moov. cbn [relist_moov a_kids].
  rewrite !split_on_at; [|reflexivity|exact Nu|reflexivity|exact Nu]. unfold with_kids. cbn [a_ext a_id a_pre relist_moov]. do 3 f_equal.
  unfold update_udta. cbn [relist_udta a_kids]. rewrite !split_on_at; [|reflexivity|exact Nm|reflexivity|exact Nm]. unfold with_kids. cbn [a_ext a_id a_pre relist_udta]. do 3 f_equal.
  unfold update_meta. cbn [relist_meta a_kids]. rewrite !split_on_at; [|exact I'|exact Nl|exact I|exact Nl]. unfold with_kids. cbn [a_ext a_id a_pre relist_meta].
  assert (M : missing_hdlr (relist_meta c a) = missing_hdlr (relist_meta c a')).
  { unfold missing_hdlr. cbn [relist_meta a_kids]. rewrite !named_app, !named_other by (rewrite ?I, ?I'; discriminate). reflexivity. }
  rewrite M. reflexivity.
Qed.

Lemma relist_file : forall items c a a', a_id a = id4 "ilst" -> a_id a' = id4 "ilst" -> asize a = asize a' ->
  a_id (at_ft c) = id4 "ftyp" -> named_kids (id4 "moov") (at_pre c ++ at_post c) = [] -> good_moov (relist_moov c a) ->
  update_file items (relist c a) = update_file items (relist c a').
Proof.
  intros items c a a' I I' E Ft N G. unfold relist. rewrite !update_at by (assumption || reflexivity).
  assert (Gr : growth items (relist_moov c a) = growth items (relist_moov c a')).
  { unfold growth. rewrite (relist_updated items 0 c a a' I I' G). pose proof (relist_size c a a' E) as X. unfold asize in X. rewrite X. reflexivity. }
  rewrite Gr, (relist_updated items _ c a a' I I' G). reflexivity.
Qed.
Lemma relist_editable : forall c a a', a_id a = id4 "ilst" -> a_id a' = id4 "ilst" -> editable (relist c a) -> editable (relist c a').
Proof.
  intros c a a' I I' E. unfold editable, relist in *. change (at_ft c :: at_pre c ++ relist_moov c a :: at_post c) with ((at_ft c :: at_pre c) ++ relist_moov c a :: at_post c) in E.
  change (at_ft c :: at_pre c ++ relist_moov c a' :: at_post c) with ((at_ft c :: at_pre c) ++ relist_moov c a' :: at_post c).
  rewrite named_app, (named_this _ (relist_moov c a)) in E by reflexivity. rewrite named_app, (named_this _ (relist_moov c a')) by reflexivity. apply Forall_app in E. destruct E as [E1 E2]. inversion E2 as [|v l G E3]; subst. apply Forall_app. split; [exact E1|].
  constructor; [|exact E3]. destruct G as [GT [G1 G2]]. cbn [relist_moov a_kids] in *.
  split. { cbn [relist_moov a_kids]. rewrite named_app, named_other in GT by discriminate. rewrite named_app, named_other by discriminate. exact GT. }
  unfold at_most_one in *. rewrite named_app, named_this in G1, G2 by reflexivity. split; cbn [a_kids relist_moov]; unfold at_most_one; rewrite named_app, named_this by reflexivity.
  { rewrite app_length in *. exact G1. }
  apply Forall_app in G2. destruct G2 as [A B]. inversion B as [|u r [H1 H2] B2]; subst. apply Forall_app. split; [exact A|]. constructor; [|exact B2].
  cbn [relist_udta a_kids] in *. unfold at_most_one in *. rewrite named_app, named_this in H1, H2 by reflexivity. split; cbn [a_kids relist_udta]; unfold at_most_one; rewrite named_app, named_this by reflexivity.
  { rewrite app_length in *. exact H1. }
  apply Forall_app in H2. destruct H2 as [A' B']. inversion B' as [|e q K B3]; subst. apply Forall_app. split; [exact A'|]. constructor; [|exact B3].
  unfold good_meta, at_most_one in *. cbn [relist_meta a_kids] in *. rewrite named_app, named_this in K |- * by assumption. rewrite app_length in *. exact K.
Qed.

(** A described file is a shell, and stays one with any other list. *)
Lemma bare_relist_udta : forall c a a', bare_udta (relist_udta c a) -> bare_udta (relist_udta c a').
Proof.
  intros c a a' [P F]. split; [exact P|]. cbn [relist_udta a_kids] in *. rewrite named_app, named_this in F |- * by reflexivity. apply Forall_app in F. destruct F as [F1 F2].
  inversion F2; subst. apply Forall_app. split; [exact F1|]. constructor; [|assumption]. assumption.
Qed.
Lemma relist_parts : forall c a ft pre mv post, relist c a = ft :: pre ++ mv :: post -> named_kids (id4 "moov") (pre ++ post) = [] ->
  ft = at_ft c /\ pre = at_pre c /\ mv = relist_moov c a /\ post = at_post c.
Proof.
  intros c a ft pre mv post E N. unfold relist in E. injection E as -> E. apply app_split in E. apply named_two in N. destruct N as [N1 N2]. split; [reflexivity|].
  destruct E as [(-> & <- & ->)|[(z & E & _)|(z & _ & E)]]; [repeat split; reflexivity| |].
  - rewrite E, named_app, named_this in N1 by reflexivity. apply app_eq_nil in N1. destruct N1 as [_ N1]. discriminate N1.
  - rewrite E, named_app, named_this in N2 by reflexivity. apply app_eq_nil in N2. destruct N2 as [_ N2]. discriminate N2.
Qed.
Lemma shell_relist : forall c a a' s mv, shell (relist c a) s mv -> shell (relist c a') s (relist_moov c a').
Proof.
  intros c a a' s mv (ft & pre & post & E & I & W & C & J & N & P & T & U). destruct (relist_parts c a ft pre mv post E N) as (-> & -> & -> & ->).
  exists (at_ft c), (at_pre c), (at_post c). split; [reflexivity|]. do 3 (split; [assumption|]). split; [reflexivity|]. split; [exact N|]. split; [reflexivity|].
  cbn [relist_moov a_kids] in *. split.
  - rewrite named_app, named_other in T |- * by discriminate. exact T.
  - rewrite named_app, named_this in U |- * by reflexivity. apply Forall_app in U. destruct U as [U1 U2]. inversion U2; subst. apply Forall_app. split; [exact U1|].
    constructor; [|assumption]. apply (bare_relist_udta c a). assumption.
Qed.
Lemma relist_shell : forall c a a' t, describes (relist c a) t ->
  shell (relist c a') (tg_ftyp t) (relist_moov c a') /\ sounds (relist_moov c a') (tg_info t).
Proof.
  intros c a a' t (ft & pre & mv & post & E & I & W & C & J & N & Mm). destruct (relist_parts c a ft pre mv post E N) as (-> & -> & -> & ->). split.
  - apply (shell_relist c a a' _ (relist_moov c a)). pose proof (moov_plain _ _ _ Mm) as (_ & T & U).
    exists (at_ft c), (at_pre c), (at_post c). split; [reflexivity|]. do 3 (split; [assumption|]). split; [reflexivity|]. split; [exact N|]. split; [reflexivity|]. split; assumption.
  - destruct Mm as (_ & dur & auds & uo & (dl & D1 & D2) & F & _ & Ei & _). exists dur, auds. split; [|split; [|exact Ei]].
    + exists dl. split; [|exact D2]. cbn [relist_moov a_kids] in *. rewrite named_app, named_other in D1 |- * by discriminate. exact D1.
    + cbn [relist_moov a_kids] in *. rewrite named_app, named_other in F |- * by discriminate. exact F.
Qed.
