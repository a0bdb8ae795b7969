(** A file with a meaning is tidy. *)

From Coq Require Import List NArith ZArith Bool Lia Arith String.
From Coq Require Import ZifyBool ZifyNat ZifyN.
From Verif Require Import Base BaseLemmas Utf UtfLemmas Types TagSpec FileSpec ParseLemmas ReadProofs ReadFacts TidySpec TidyProofs.
Import ListNotations.
Local Open Scope list_scope.
Ltac Zify.zify_post_hook ::= Z.div_mod_to_equations.

Lemma forall_means : forall {X} (P : atom -> X -> Prop) (T : atom -> Prop) l vs, (forall k v, P k v -> T k) -> Forall2 P l vs -> Forall T l.
Proof. intros X P T l vs H F. induction F; constructor; eauto. Qed.

Lemma data_tidy : forall k d, data_means k d -> tidy_data k.
Proof.
  intros k d (G & loc & L & E). unfold tidy_data. rewrite E. split.
  - rewrite blen_cons, !blen_app, blen_be. unfold blen at 1. rewrite L. lia.
  - unfold field. change (slice (n2b 0 :: be 3 (type_code d) ++ loc ++ payload d) 1 3) with (firstn 3 (be 3 (type_code d) ++ loc ++ payload d)).
    rewrite firstn_app, be_length, Nat.sub_diag, firstn_O, app_nil_r, firstn_all2 by (rewrite be_length; lia).
    rewrite unbe_be by (apply type_code_lt). intros C. destruct d; try discriminate. cbn [type_code payload].
    rewrite blen_cons, !blen_app, blen_be, utf16_bytes, blen_units_bytes. unfold blen at 1. rewrite L.
    apply N.even_spec. exists (4 + blen (enc16 s)). lia.
Qed.
Lemma text_tidy : forall k s, text_means k s -> tidy_text k.
Proof. intros k s (W & v & V & E). unfold tidy_text. rewrite E, blen_app, (blen_version0 v V). lia. Qed.
Lemma item_tidy : forall k i, item_means k i -> tidy_item k.
Proof.
  intros k i (Pre & ds & ms & ns & Fd & Fm & Fn & _). split; [exact Pre|].
  split; [eapply forall_means; [exact data_tidy|exact Fd]|]. split; eapply forall_means; try exact text_tidy; eassumption.
Qed.
Lemma ilst_tidy : forall k l, ilst_means k l -> tidy_ilst k.
Proof. intros k l (Pre & its & F & _). split; [exact Pre|]. eapply forall_means; [exact item_tidy|exact F]. Qed.
Lemma meta_tidy : forall k o, meta_means k o -> tidy_meta k.
Proof.
  intros k o ((fl & L & E) & l & F & _). split; [rewrite E; cbn; rewrite L; reflexivity|]. eapply forall_means; [exact ilst_tidy|exact F].
Qed.
Lemma box_tidy : forall {X} id (P : atom -> option X -> Prop) (T : atom -> Prop) k o, (forall k v, P k v -> T k) -> box id P k o -> tidy_box id T k.
Proof. intros X id P T k o H (Pre & oo & (l & F & _) & _). split; [exact Pre|]. eapply forall_means; [exact H|exact F]. Qed.
Lemma udta_tidy : forall k o, udta_means k o -> tidy_udta k.
Proof. intros k o. apply box_tidy, meta_tidy. Qed.

Lemma dc_tidy : forall b a, dc_means b a -> tidy_dc b.
Proof.
  intros b a (h & l & L & E & G & _ & _ & D). exists h, l. do 3 (split; [auto|]).
  destruct (tagged_desc 5 l) as [|d [|d' r]]; [| |contradiction]; (split; [cbn; lia|]); constructor; [|constructor]. apply D.
Qed.
Lemma es_tidy : forall b a, es_means b a -> tidy_es b.
Proof.
  intros b a (h & l & L & E & G & D). exists h, l. do 3 (split; [auto|]).
  destruct (tagged_desc 4 l) as [|d [|d' r]]; [| |contradiction]; (split; [cbn; lia|]); constructor; [|constructor]. eapply dc_tidy, D.
Qed.
Lemma mp4a_tidy : forall k x, mp4a_means k x -> tidy_mp4a k.
Proof.
  intros k x (L & e & rest & K & I & v & d & rs & (fl & Lf & V) & T & G & E & M). split; [exact L|]. exists e, rest. split; [exact K|]. intros _.
  exists v, d, rs. split; [rewrite V; cbn; rewrite Lf; reflexivity|]. do 2 (split; [auto|]). intros _. eapply es_tidy, M.
Qed.
Lemma stsd_tidy : forall k o, stsd_means k o -> tidy_stsd k.
Proof.
  intros k o ((v & n & (fl & Lf & V) & Ln & E) & l & F & _). split; [rewrite E, V, app_length; cbn; rewrite Lf, Ln; reflexivity|].
  eapply forall_means; [exact mp4a_tidy|exact F].
Qed.
Lemma trak_tidy : forall k o, trak_means k o -> tidy_trak k.
Proof.
  intros k o. apply box_tidy. intros k1 o1. apply box_tidy. intros k2 o2. apply box_tidy. intros k3 o3. apply box_tidy, stsd_tidy.
Qed.
Lemma mvhd_tidy : forall k d, mvhd_means k d -> tidy_mvhd k /\ short_mvhd k.
Proof.
  intros k d [(E & L & _ & H & _)|(E & L & _ & H & _)]; unfold tidy_mvhd, short_mvhd; cbv zeta; (split; [split; [lia|split; lia]|]); [lia|auto].
Qed.

Lemma describes_tidy : forall f t, describes f t -> tidy f /\ short_movie f.
Proof.
  intros f t (ft & pre & mv & post & -> & Ift & _ & _ & Imv & Nm & Pre & dur & auds & uo & (durs & Fd & _) & Ft & (us & Fu & _) & _).
  assert (Nft : is_named (id4 "moov") ft = false) by (rewrite (id_neq ft _ (id4 "moov") Ift); [reflexivity|discriminate]).
  assert (K : named_kids (id4 "moov") (ft :: pre ++ mv :: post) = [mv]).
  { unfold named_kids in *. rewrite filter_app in Nm. apply app_eq_nil in Nm. destruct Nm as [N1 N2]. cbn [filter]. rewrite Nft, filter_app, N1.
    cbn [filter app]. rewrite (proj2 (is_named_eq _ _) Imv), N2. reflexivity. }
  unfold tidy, short_movie, at_most_one. rewrite K. split.
  - split; [cbn; lia|]. constructor; [|constructor]. split; [exact Pre|].
    split; [eapply forall_means; [|exact Fd]; intros k v M; apply (mvhd_tidy k v M)|].
    split; [eapply forall_means; [exact trak_tidy|exact Ft]|eapply forall_means; [exact udta_tidy|exact Fu]].
  - constructor; [|constructor]. eapply forall_means; [|exact Fd]. intros k v M. apply (mvhd_tidy k v M).
Qed.
