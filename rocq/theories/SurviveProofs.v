(** What the items of a tag read from any bytes whatsoever are like. *)

From Coq Require Import List NArith ZArith Bool Lia Arith String.
From Coq Require Import ZifyBool ZifyNat ZifyN.
From Verif Require Import Base BaseLemmas Utf UtfLemmas Types Stream Parse Find Write TagSpec FileSpec TagProofs ParseLemmas WriteState WOutSpec WOutPlan
  FailSpec FailProofs ReadProofs ReadErr ReadFacts WhereSpec WhereProofs WriteBytes NewMeans Utf16Proofs SurviveSpec.
Import ListNotations.
Local Open Scope list_scope.

Definition wf_opt (o : option ustring) : Prop := match o with Some s => wf_ustr s = true | None => True end.
Definition acc_ok (a : item_acc) : Prop := Forall good_data (ia_data a) /\ wf_opt (ia_mean a) /\ wf_opt (ia_name a).

Lemma item_body_ok : forall m h a f p a' q, acc_ok a -> item_body m h a f p = Ok (a', q) -> acc_ok a'.
Proof.
  intros m h a f p a' q (D & M & Na) H. unfold item_body in H. destruct (fourcc_eqb (hd_fourcc h) DATA).
  { inv_bind H. destruct (negb _); [discriminate|]. do 4 inv_bind H. injection H as <- <-. apply data_inv in E3. split; [|split; assumption].
    cbn [ia_data]. apply Forall_app. split; [exact D|]. constructor; [apply E3|constructor]. }
  destruct (fourcc_eqb (hd_fourcc h) MEAN).
  { inv_bind H. destruct (negb _); [discriminate|]. do 3 inv_bind H. injection H as <- <-. apply utf8_inv in E2. split; [exact D|]. split; [apply E2|exact Na]. }
  destruct (fourcc_eqb (hd_fourcc h) NAME).
  { inv_bind H. destruct (negb _); [discriminate|]. do 3 inv_bind H. injection H as <- <-. apply utf8_inv in E2. split; [exact D|]. split; [exact M|apply E2]. }
  inv_bind H. injection H as <- <-. split; [exact D|split; assumption].
Qed.

Lemma item_ok_read : forall fuel m id len f p a q, id <> id4 "free" -> atom_data_parse fuel m id len f p = Ok (a, q) -> readable_item a.
Proof.
  intros fuel m id len f p a q Ne H. unfold atom_data_parse in H. apply bind_inv in H. destruct H as (x & p0 & E & H).
  apply (atom_loop_inv acc_ok) in E; [|intros h s f0 p1 s' p' As B; exact (item_body_ok m h s f0 p1 s' p' As B)|split; [constructor|split; exact I]].
  destruct E as (D & M & Na). destruct (ia_data x) as [|d ds] eqn:X; [discriminate|]. injection H as <- <-.
  split; [|split; [discriminate|exact D]]. cbn [ad_ident]. unfold item_ident.
  destruct (ia_mean x) as [s|]; [|exact Ne]. destruct (ia_name x) as [n|]; [|exact Ne]. destruct (fourcc_eqb id FREEFORM); [|exact Ne]. split; assumption.
Qed.

Lemma add_ok_read : forall l a, Forall readable_item l -> readable_item a -> Forall readable_item (ilst_add l a).
Proof.
  intros l a L A. induction L as [|o r O R IH]; [constructor; [exact A|constructor]|]. cbn [ilst_add]. destruct (ident_eqb _ _); [|constructor; assumption].
  constructor; [|exact R]. destruct O as (I & N & D). destruct A as (_ & _ & D'). split; [exact I|]. cbn [ad_data].
  split; [intros X; apply app_eq_nil in X; apply N, X|apply Forall_app; split; assumption].
Qed.

Definition opt_ok (o : option (list atom_data)) : Prop := match o with Some l => Forall readable_item l | None => True end.

Lemma ilst_ok_read : forall fuel m s f p l p', ilst_parse fuel m s f p = Ok (l, p') -> Forall readable_item l.
Proof.
  intros fuel m s f p l p' H. unfold ilst_parse in H.
  eapply (atom_loop_inv (Forall readable_item)) in H; [exact H| |constructor].
  clear. intros h l f p l' p' U H. unfold ilst_body in H.
  destruct (fourcc_eqb (hd_fourcc h) FREE) eqn:F.
  - inv_bind H. injection H as <- <-. exact U.
  - do 2 inv_bind H. injection H as <- <-. apply add_ok_read; [exact U|]. apply item_ok_read in E0; [exact E0|].
    intros X. rewrite X in F. discriminate F.
Qed.

Lemma meta_ok_read : forall fuel m s f p o p', meta_parse fuel m s f p = Ok (o, p') -> opt_ok o.
Proof.
  intros fuel m s f p o p' H. unfold meta_parse, bind in H.
  destruct (parse_full_head f p) as [[vf q]| | |]; try discriminate.
  destruct (negb _); [discriminate|].
  eapply (atom_loop_inv opt_ok) in H; [exact H| |exact I].
  clear. intros h l f p l' p' U H. unfold meta_body in H.
  destruct (fourcc_eqb _ _); unfold bind in H.
  - destruct (ilst_parse _ _ _ _ _) as [[c q]| | |] eqn:E; try discriminate.
    injection H as <- <-. eapply ilst_ok_read, E.
  - destruct (skip_atom m h f p) as [[[] q]| | |]; try discriminate.
    injection H as <- <-. exact U.
Qed.

Lemma udta_ok_read : forall fuel m s f p o p', udta_parse fuel m s f p = Ok (o, p') -> opt_ok (ojoin o).
Proof.
  intros fuel m s f p o p' H. unfold udta_parse in H.
  eapply (atom_loop_inv (fun o => opt_ok (ojoin o))) in H; [exact H| |exact I].
  clear. intros h l f p l' p' U H. unfold udta_body in H.
  destruct (fourcc_eqb _ _); unfold bind in H.
  - destruct (meta_parse _ _ _ _ _) as [[c q]| | |] eqn:E; try discriminate.
    injection H as <- <-. eapply meta_ok_read, E.
  - destruct (skip_atom m h f p) as [[[] q]| | |]; try discriminate.
    injection H as <- <-. exact U.
Qed.

Lemma moov_ok_read : forall fuel m s f p r p', moov_parse fuel m s f p = Ok (r, p') -> Forall readable_item (moov_atoms r).
Proof.
  intros fuel m s f p r p' H. unfold moov_parse in H.
  eapply (atom_loop_inv (fun r => Forall readable_item (moov_atoms r))) in H; [exact H| |constructor].
  clear. intros h l f p l' p' U H. unfold moov_body in H.
  destruct (fourcc_eqb _ MOVIE_HEADER); unfold bind in H.
  { destruct (mvhd_parse _ _ _ _) as [[c q]| | |]; try discriminate. injection H as <- <-. exact U. }
  destruct (fourcc_eqb _ TRACK).
  { destruct (trak_parse _ _ _ _ _) as [[c q]| | |]; try discriminate. injection H as <- <-. exact U. }
  destruct (fourcc_eqb _ USER_DATA).
  { destruct (udta_parse _ _ _ _ _) as [[c q]| | |] eqn:E; try discriminate. injection H as <- <-.
    apply udta_ok_read in E. unfold moov_atoms. cbn. destruct (ojoin c); [exact E|constructor]. }
  destruct (skip_atom m h f p) as [[[] q]| | |]; try discriminate.
  injection H as <- <-. exact U.
Qed.

Lemma find_ok_read : forall fuel m inner len parsed f p r p',
  find_moov fuel m inner len parsed f p = Ok (r, p') -> Forall readable_item (moov_atoms r).
Proof.
  induction fuel as [|fuel IH]; intros m inner len parsed f p r p' H; [discriminate|].
  cbn [find_moov] in H. destruct (len <=? parsed); [discriminate|]. unfold bind at 1 in H.
  destruct (parse_head f p) as [[h q]| | |]; try discriminate.
  destruct (fourcc_eqb _ _); [eapply moov_ok_read, H|].
  unfold bind in H. destruct (skip_atom m h f q) as [[[] q']| | |]; try discriminate.
  unfold lift in H. destruct (add64 _ _ _); try discriminate. eapply IH, H.
Qed.

Lemma read_readable : forall fuel m f p t p', read_tag_from fuel m f p = Ok (t, p') -> readable_items (tg_atoms t).
Proof.
  intros fuel m f p t p' H. split; [exact (read_unique fuel m f p t p' H)|]. unfold read_tag_from, bind in H.
  destruct (ftyp_parse m f p) as [[ft q]| | |]; try discriminate.
  destruct (remaining_stream_len m f q) as [[len q']| | |]; try discriminate.
  destruct (find_moov _ _ _ _ _ _ _) as [[r q'']| | |] eqn:E; try discriminate.
  injection H as <- <-. cbn. eapply find_ok_read, E.
Qed.

(** A tag that is not lossy and can be the result of reading is one that can be stored. *)
Lemma storable_is : forall items, storable items <-> readable_items items /\ ~ lossy items.
Proof.
  intros items. unfold storable, readable_items. split.
  - intros [U F]. rewrite Forall_forall in F. split.
    + split; [exact U|]. apply Forall_forall. intros i Ii. destruct (F i Ii) as (A & B & C). split; [exact A|]. split; [exact B|].
      apply Forall_impl with (2 := C). intros d X. apply X.
    + intros (i & s & Ii & Id & N). destruct (F i Ii) as (_ & _ & C). rewrite Forall_forall in C. apply N, (C _ Id).
  - intros [[U F] N]. split; [exact U|]. rewrite Forall_forall in *. intros i Ii. destruct (F i Ii) as (A & B & C). split; [exact A|]. split; [exact B|].
    rewrite Forall_forall in *. intros d Id. split; [apply C, Id|]. destruct d as [| |s| | | |]; try exact I. destruct s as [|c s]; [reflexivity|].
    exfalso. apply N. exists i, (c :: s). split; [exact Ii|]. split; [exact Id|discriminate].
Qed.
