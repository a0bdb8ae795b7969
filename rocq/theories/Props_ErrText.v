(** C70: errors and identifiers as text, and the conversions from numbers. *)

From Coq Require Import List NArith Bool Lia String.
From Coq Require Import ZifyBool ZifyNat ZifyN.
From Verif Require Import Base BaseLemmas Utf Types Display DisplaySpec DisplayProofs Described ErrText.
Import ListNotations.
Local Open Scope list_scope.
Local Open Scope N_scope.

(** * Specification *)

(** The name of a kind and the text of what it carries. *)
Definition kind_name (e : err) : string :=
  match e with
  | EAtomNotFound _ => "AtomNotFound" | EDescriptorNotFound _ => "DescriptorNotFound" | EParsing => "Parsing" | ENoTag => "NoTag"
  | EUnknownChannelConfig _ => "UnknownChannelConfig" | EUnknownDataType _ => "UnknownDataType"
  | EUnknownMediaType _ => "UnknownMediaType" | EUnknownVersion _ => "UnknownVersion" | EUtf8 => "Utf8StringDecoding"
  | EUtf16 => "Utf16StringDecoding" | EUnwritableData => "UnwritableData" | EIoEof | EIoSeek => "Io"
  end%string.
Definition carried_number (e : err) : option N :=
  match e with
  | EDescriptorNotFound n | EUnknownChannelConfig n | EUnknownDataType n | EUnknownMediaType n | EUnknownVersion n => Some n
  | _ => None
  end.
(** The kinds whose text contains text of the standard library. *)
Definition library (e : err) : Prop := e = EUtf8 \/ e = EIoEof \/ e = EIoSeek.
(** What a kind carries, as text: a number in decimal, the four characters of an identifier behind its type, or a text of the
    standard library; some kinds carry nothing. *)
Definition in_parentheses (c : ustring) : ustring := txt "(" ++ c ++ txt ")".
Inductive carries (inner : ustring) : err -> ustring -> Prop :=
| Carries_number : forall e n c, carried_number e = Some n -> number c = Some (n, []) -> carries inner e (in_parentheses c)
| Carries_fourcc : forall a b c d, carries inner (EAtomNotFound (FourCC a b c d)) (in_parentheses (txt "Fourcc" ++ in_parentheses [b2n a; b2n b; b2n c; b2n d]))
| Carries_library : forall e, library e -> carries inner e (in_parentheses inner)
| Carries_utf16 : carries inner EUtf16 (in_parentheses (txt "FromUtf16Error(())"))
| Carries_nothing : forall e, e = EParsing \/ e = ENoTag \/ e = EUnwritableData -> carries inner e [].
(** The same variant of [ErrorKind]. *)
Definition same_variant (a b : err) : Prop := kind_name a = kind_name b.

(** * The text of an error *)

Lemma txt_app : forall a b, txt (a ++ b) = txt a ++ txt b.
Proof. induction a as [|c a IH]; intros b; cbn; [reflexivity|]. f_equal. apply IH. Qed.

(** The text begins with the name of the kind. *)
Theorem C70_name : forall e inner d, exists r, error_text e inner d = txt (kind_name e) ++ r.
Proof.
  assert (K : forall e inner, exists r, kind_text e inner = txt (kind_name e) ++ r).
  { intros [] inner; unfold kind_text; cbn [kind_name];
      try (eexists; cbn; reflexivity); eexists; symmetry; apply app_nil_r. }
  intros e inner d. destruct (K e inner) as [r H]. destruct d as [|x d]; cbn [error_text]; rewrite H; [eauto|].
  rewrite <- app_assoc. eauto.
Qed.

(** The text ends with the description. *)
Theorem C70_description : forall e inner d, exists r, error_text e inner d = r ++ d.
Proof.
  intros e inner [|x d]; cbn [error_text]; [exists (kind_text e inner); symmetry; apply app_nil_r|].
  exists (kind_text e inner ++ txt ": "). apply app_assoc.
Qed.

(** Without a description the text is that of the kind alone. *)
Theorem C70_plain : forall e inner, error_text e inner [] = kind_text e inner.
Proof. reflexivity. Qed.

Definition tail (d : ustring) : ustring := match d with [] => [] | _ => txt ": " ++ d end.
Lemma error_tail : forall e inner d, error_text e inner d = kind_text e inner ++ tail d.
Proof. intros e inner [|x d]; cbn [error_text tail]; [symmetry; apply app_nil_r|reflexivity]. Qed.
(** The whole text: the name of the kind, what it carries in parentheses, and the description behind a colon. *)
Theorem C70_form : forall e inner d, exists c, carries inner e c /\
  error_text e inner d = txt (kind_name e) ++ c ++ match d with [] => [] | _ => txt ": " ++ d end.
Proof.
  intros e inner d. rewrite error_tail. fold (tail d).
  assert (N : forall n e, carried_number e = Some n -> carries inner e (in_parentheses (dec n))).
  { intros n e' E. eapply Carries_number; [exact E|]. rewrite <- (app_nil_r (dec n)). apply number_dec. exact I. }
  destruct e; unfold kind_text; cbn [kind_name];
    try (eexists; split; [apply N; reflexivity|unfold in_parentheses; cbn; rewrite <- !app_assoc; reflexivity]);
    try (eexists; split; [apply Carries_nothing; tauto|reflexivity]);
    try (eexists; split; [apply Carries_library; unfold library; tauto|unfold in_parentheses; cbn; rewrite <- ?app_assoc; reflexivity]).
  - destruct f. eexists. split; [apply Carries_fourcc|reflexivity].
  - eexists. split; [apply Carries_utf16|reflexivity].
Qed.
Lemma tail_inj : forall d d', tail d = tail d' -> d = d'.
Proof. intros [|x d] [|y d'] H; cbn in H; try discriminate; [reflexivity|]. injection H as -> ->. reflexivity. Qed.

Lemma dec_end : forall n m r r', no_digit r -> no_digit r' -> dec n ++ r = dec m ++ r' -> n = m /\ r = r'.
Proof.
  intros n m r r' N1 N2 E. pose proof (number_dec n r N1) as A. rewrite E, (number_dec m r' N2) in A. injection A as -> ->. auto.
Qed.
Lemma paren_end : forall n m t t', (dec n ++ txt ")") ++ t = (dec m ++ txt ")") ++ t' -> n = m /\ t = t'.
Proof.
  intros n m t t' E. rewrite <- !app_assoc in E. apply dec_end in E; [|reflexivity|reflexivity]. destruct E as [-> E]. injection E as ->. auto.
Qed.
Lemma fc_text_inj : forall a b r r', fc_text a ++ r = fc_text b ++ r' -> a = b /\ r = r'.
Proof.
  intros [a0 a1 a2 a3] [b0 b1 b2 b3] r r' E. unfold fc_text in E. cbn [fc_bytes map app] in E.
  injection E as E0 E1 E2 E3 E. apply b2n_inj in E0, E1, E2, E3. subst. auto.
Qed.

(** The variant can be told from the text, whatever the texts of the standard library are. *)
Theorem C70_variant : forall e inner d e' inner' d', error_text e inner d = error_text e' inner' d' -> same_variant e e'.
Proof.
  intros e inner d e' inner' d' H. unfold same_variant. rewrite !error_tail in H.
  destruct e, e'; try reflexivity; exfalso; cbn in H; discriminate H.
Qed.

(** The text determines the kind with what it carries and the description, unless it contains text of the standard library. *)
Theorem C70_determined : forall e inner d e' inner' d', ~ library e ->
  error_text e inner d = error_text e' inner' d' -> e = e' /\ d = d'.
Proof.
  intros e inner d e' inner' d' L H. pose proof (C70_variant _ _ _ _ _ _ H) as V. unfold same_variant in V.
  rewrite !error_tail in H.
  destruct e; try (exfalso; apply L; unfold library; tauto); destruct e'; try discriminate V;
    unfold kind_text in H; rewrite <- ?app_assoc in H; apply app_inv_head in H;
    try (rewrite !app_assoc in H; apply paren_end in H; destruct H as [-> H]; apply tail_inj in H; subst; auto; fail);
    try (apply tail_inj in H; subst; auto; fail).
  rewrite <- ?app_assoc in H. apply fc_text_inj in H. destruct H as [-> H]. apply app_inv_head in H. apply tail_inj in H. subst. auto.
Qed.

(** With text of the standard library the description is determined as soon as that text is known. *)
Theorem C70_library : forall e inner d e' d',
  error_text e inner d = error_text e' inner d' -> same_variant e e' /\ d = d'.
Proof.
  intros e inner d e' d' H. split; [eapply C70_variant; exact H|].
  assert (N : library e \/ ~ library e) by (unfold library; destruct e; intuition discriminate).
  destruct N as [L|L]; [|apply (C70_determined _ _ _ _ _ _ L H)].
  pose proof (C70_variant _ _ _ _ _ _ H) as V. unfold same_variant in V. rewrite !error_tail in H. apply tail_inj.
  destruct L as [->|[->| ->]]; destruct e'; try discriminate V; cbn [kind_text] in H; exact (app_inv_head _ _ _ H).
Qed.

(** Only errors of input and output have a cause. *)
Theorem C70_cause : forall e, has_cause e = true <-> kind_name e = "Io"%string.
Proof. intros []; cbn; split; intros; discriminate || reflexivity. Qed.

Example C70_error_example :
  error_text (EAtomNotFound (FourCC (n2b 109) (n2b 111) (n2b 111) (n2b 118))) [] (txt "Missing necessary data atom")
    = txt "AtomNotFound(Fourcc(moov)): Missing necessary data atom" /\
  error_text (EUnknownVersion 12) [] [] = txt "UnknownVersion(12)" /\
  ~ library (EUnknownVersion 12).
Proof. split; [reflexivity|split; [reflexivity|]]. intros [H|[H|H]]; discriminate H. Qed.

(** * The text of an identifier *)

(** Four byte identifiers can be told from their texts, and never look like freeform identifiers. *)
Theorem C70_fourcc_text : forall f i, ident_text (IFourcc f) = ident_text i -> i = IFourcc f.
Proof.
  intros [a b c d] [[a' b' c' d']|me na] E; cbn [ident_text map] in E.
  - injection E as E0 E1 E2 E3. apply b2n_inj in E0, E1, E2, E3. subst. reflexivity.
  - apply (f_equal (@List.length N)) in E. rewrite !app_length in E. cbn in E. lia.
Qed.

(** Freeform identifiers can be told from their texts if their means have no colon. *)
Theorem C70_freeform_text_partial : forall me na me' na', ~ In 58 me -> ~ In 58 me' ->
  ident_text (IFreeform me na) = ident_text (IFreeform me' na') -> me = me' /\ na = na'.
Proof.
  intros me na me' na' A B E. cbn [ident_text] in E. apply app_inv_head in E. change (txt ":") with [58] in E.
  revert me' B E. induction me as [|x me IH]; intros [|y me'] B E; cbn [app] in E.
  - injection E as ->. auto.
  - injection E as <- _. exfalso. apply B. left. reflexivity.
  - injection E as -> _. exfalso. apply A. left. reflexivity.
  - injection E as -> E. destruct (IH (fun I => A (or_intror I)) me' (fun I => B (or_intror I)) E) as [-> ->]. auto.
Qed.

(** In general they cannot. *)
Theorem C70_freeform_text_refuted :
  ~ (forall i j, ident_text i = ident_text j -> i = j).
Proof.
  intros H. specialize (H (IFreeform (txt "a:b") (txt "c")) (IFreeform (txt "a") (txt "b:c")) eq_refl). discriminate H.
Qed.

Example C70_ident_example :
  ident_text (IFreeform (txt "com.apple.iTunes") (txt "ISRC")) = txt "----:com.apple.iTunes:ISRC" /\ ~ In 58 (txt "com.apple.iTunes").
Proof. split; [reflexivity|]. cbn. intuition discriminate. Qed.

(** * Conversions from numbers *)

(** The numbers of ISO 14496-3 (tables 1.18 and 1.19) and those of the [stik] atom. *)
Definition channel_index (c : channel_config) : N :=
  match c with Mono => 1 | Stereo => 2 | Three => 3 | Four => 4 | Five => 5 | FiveOne => 6 | SevenOne => 7 end.
Definition rate_table : list (N * N) :=
  [(0, 96000); (1, 88200); (2, 64000); (3, 48000); (4, 44100); (5, 32000); (6, 24000); (7, 22050); (8, 16000); (9, 12000);
   (10, 11025); (11, 8000); (12, 7350)].
Definition media_table : list (media_type * N) :=
  [(MTMovie, 0); (MTNormal, 1); (MTAudioBook, 2); (MTWhackedBookmark, 5); (MTMusicVideo, 6); (MTShortFilm, 9); (MTTvShow, 10);
   (MTBooklet, 11)].

Lemma below_13 : forall n, n < 13 -> In n [0; 1; 2; 3; 4; 5; 6; 7; 8; 9; 10; 11; 12].
Proof.
  intros n H. assert (E : n = 0 \/ n = 1 \/ n = 2 \/ n = 3 \/ n = 4 \/ n = 5 \/ n = 6 \/ n = 7 \/ n = 8 \/ n = 9 \/ n = 10 \/ n = 11 \/ n = 12) by lia.
  cbn. intuition.
Qed.
Lemma from_13 : forall n, 13 <= n -> channel_config_of n = None /\ sample_rate_of n = None /\ media_of n = None.
Proof.
  intros n H. destruct n as [|p]; [lia|].
  destruct p as [p|p|]; [destruct p as [p|p|]; [destruct p as [p|p|]; [destruct p as [p|p|]|destruct p as [p|p|]|]|destruct p as [p|p|]; [destruct p as [p|p|]|destruct p as [p|p|]|]|]
    |destruct p as [p|p|]; [destruct p as [p|p|]; [destruct p as [p|p|]|destruct p as [p|p|]|]|destruct p as [p|p|]; [destruct p as [p|p|]|destruct p as [p|p|]|]|]|];
    try lia; auto.
Qed.

Theorem C70_channel_config : forall n,
  (forall c, try_channel_config n = DOk c <-> channel_index c = n) /\
  ((forall c, channel_index c <> n) -> try_channel_config n = DErr (EUnknownChannelConfig n) (txt "Unknown channel config index")).
Proof.
  intros n. unfold try_channel_config. destruct (N.lt_ge_cases n 13) as [L|L].
  - apply below_13 in L. cbn in L. repeat (destruct L as [<-|L]); [..|contradiction]; cbn;
      (split; [intros []; cbn; split; intros E; discriminate E || reflexivity|]); intros H; try reflexivity;
      exfalso; first [apply (H Mono); reflexivity|apply (H Stereo); reflexivity|apply (H Three); reflexivity|apply (H Four); reflexivity
        |apply (H Five); reflexivity|apply (H FiveOne); reflexivity|apply (H SevenOne); reflexivity].
  - destruct (from_13 n L) as [-> _]. split; [|reflexivity]. intros c. split; [discriminate|]. destruct c; cbn; lia.
Qed.

Theorem C70_sample_rate : forall n,
  (forall r, try_sample_rate n = DOk r <-> In (n, hz r) rate_table) /\
  ((forall v, ~ In (n, v) rate_table) -> exists e, try_sample_rate n = DErr e (txt "Unknown sample rate index")).
Proof.
  intros n. unfold try_sample_rate. destruct (N.lt_ge_cases n 13) as [L|L].
  - apply below_13 in L. cbn in L. repeat (destruct L as [<-|L]); [..|contradiction]; cbn -[N.eqb];
      (split; [intros []; cbn; split; intros E; try discriminate E; try reflexivity; intuition (discriminate || auto)|]);
      intros H; exfalso; eapply H; cbn; eauto 20.
  - destruct (from_13 n L) as (_ & -> & _). split; [|eauto]. intros r. split; [discriminate|]. intros I. exfalso.
    unfold rate_table in I. cbn [In] in I. repeat (destruct I as [I|I]; [injection I as I _; lia|]). exact I.
Qed.

Theorem C70_media_type : forall n,
  (forall t, try_media_type n = DOk t <-> In (t, n) media_table) /\
  ((forall t, ~ In (t, n) media_table) -> try_media_type n = DErr (EUnknownMediaType n) (txt "Unknown media type")).
Proof.
  intros n. unfold try_media_type. destruct (N.lt_ge_cases n 13) as [L|L].
  - apply below_13 in L. cbn in L. repeat (destruct L as [<-|L]); [..|contradiction]; cbn;
      (split; [intros []; cbn; split; intros E; try discriminate E; try reflexivity; intuition (discriminate || auto)|]);
      intros H; try reflexivity; exfalso; eapply H; cbn; eauto 20.
  - destruct (from_13 n L) as (_ & _ & ->). split; [|reflexivity]. intros t. split; [discriminate|]. intros I. exfalso.
    unfold media_table in I. cbn [In] in I. repeat (destruct I as [I|I]; [injection I as _ I; lia|]). exact I.
Qed.

(** The kind of the error says which conversion failed: false for sample rates, which are reported as channel configurations. *)
Theorem C70_conversion_kind_refuted :
  ~ (forall n e t e' t', try_channel_config n = DErr e t -> try_sample_rate n = DErr e' t' -> ~ same_variant e e').
Proof. intros H. exact (H 13 _ _ _ _ eq_refl eq_refl eq_refl). Qed.

(** The whole text does. *)
Theorem C70_conversion_text : forall a b c ea ta eb tb ec tc ia ib ic,
  try_channel_config a = DErr ea ta -> try_sample_rate b = DErr eb tb -> try_media_type c = DErr ec tc ->
  error_text ea ia ta <> error_text eb ib tb /\ error_text ea ia ta <> error_text ec ic tc /\ error_text eb ib tb <> error_text ec ic tc.
Proof.
  intros a b c ea ta eb tb ec tc ia ib ic A B C.
  assert (A' : ea = EUnknownChannelConfig a /\ ta = txt "Unknown channel config index")
    by (unfold try_channel_config in A; destruct channel_config_of; [discriminate|]; injection A as <- <-; auto).
  assert (B' : eb = EUnknownChannelConfig b /\ tb = txt "Unknown sample rate index")
    by (unfold try_sample_rate in B; destruct sample_rate_of; [discriminate|]; injection B as <- <-; auto).
  assert (C' : ec = EUnknownMediaType c /\ tc = txt "Unknown media type")
    by (unfold try_media_type in C; destruct media_of; [discriminate|]; injection C as <- <-; auto).
  destruct A' as [-> ->], B' as [-> ->], C' as [-> ->].
  repeat split; intros E; apply C70_determined in E; try (intros [L|[L|L]]; discriminate L); destruct E as [E F]; discriminate E || discriminate F.
Qed.

Example C70_conversion_example :
  try_channel_config 2 = DOk Stereo /\ try_sample_rate 4 = DOk Hz44100 /\ try_media_type 9 = DOk MTShortFilm /\
  try_sample_rate 13 = DErr (EUnknownChannelConfig 13) (txt "Unknown sample rate index") /\
  try_media_type 3 = DErr (EUnknownMediaType 3) (txt "Unknown media type") /\ (forall c, channel_index c <> 0).
Proof. repeat (split; [reflexivity|]). intros []; discriminate. Qed.

Print Assumptions C70_name.
Print Assumptions C70_description.
Print Assumptions C70_plain.
Print Assumptions C70_form.
Print Assumptions C70_variant.
Print Assumptions C70_determined.
Print Assumptions C70_library.
Print Assumptions C70_cause.
Print Assumptions C70_fourcc_text.
Print Assumptions C70_freeform_text_partial.
Print Assumptions C70_freeform_text_refuted.
Print Assumptions C70_channel_config.
Print Assumptions C70_sample_rate.
Print Assumptions C70_media_type.
Print Assumptions C70_conversion_kind_refuted.
Print Assumptions C70_conversion_text.
