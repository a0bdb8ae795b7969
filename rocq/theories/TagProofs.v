(** Laws of the tag API used by the property theorems. *)

From Coq Require Import List NArith ZArith Bool Lia Arith.
From Coq Require Import ZifyBool ZifyNat ZifyN.
From Verif Require Import Base BaseLemmas Utf UtfLemmas Types Stream Parse TagApi TagOps TagSpec TagOpsSpec TagLemmas.
Import ListNotations.

Ltac Zify.zify_post_hook ::= Z.div_mod_to_equations.

(** * Tags that are read have unique identifiers *)

Lemma atom_loop_inv : forall {S} (P : S -> Prop) (body : head -> S -> R S) m limit,
  (forall h s f p s' p', P s -> body h s f p = Ok (s', p') -> P s') ->
  forall fuel parsed s f p s' p',
  P s -> atom_loop fuel m limit body parsed s f p = Ok (s', p') -> P s'.
Proof.
  intros S P body m limit Hb. induction fuel as [|fuel IH]; intros parsed s f p s' p' Hs H; [discriminate|].
  cbn [atom_loop] in H. unfold bind, lift at 1 in H.
  destruct limit as [l| | |]; try discriminate.
  destruct (parsed <? l).
  - destruct (parse_head f p) as [[h p1]| | |]; try discriminate.
    destruct (body h s f p1) as [[s1 p2]| | |] eqn:B; try discriminate.
    unfold lift in H. destruct (add64 m parsed _); try discriminate.
    eapply IH; [|exact H]. eapply Hb; eassumption.
  - unfold ret in H. injection H as <- <-. exact Hs.
Qed.

Lemma ilst_add_idents : forall l a, idents (ilst_add l a) = insert_ident (idents l) (ad_ident a).
Proof.
  unfold insert_ident, idents. induction l as [|o r IH]; intros a; [reflexivity|].
  cbn [ilst_add map]. destruct (ident_eqb (ad_ident a) (ad_ident o)) eqn:E.
  - apply ident_eqb_eq in E. cbn [map]. destruct (in_dec _ _ _) as [|N]; [reflexivity|].
    exfalso. apply N. left. congruence.
  - cbn [map ad_ident]. rewrite IH.
    destruct (in_dec ident_dec (ad_ident a) (map ad_ident r)) as [I|I];
      destruct (in_dec ident_dec (ad_ident a) (ad_ident o :: map ad_ident r)) as [J|J]; try reflexivity.
    + exfalso. apply J. right. exact I.
    + exfalso. destruct J as [J|J]; [|contradiction]. rewrite J, ident_eqb_refl in E. discriminate.
Qed.

Definition opt_unique (o : option (list atom_data)) : Prop :=
  match o with Some l => unique_idents l | None => True end.

Lemma ilst_parse_unique : forall fuel m s f p l p',
  ilst_parse fuel m s f p = Ok (l, p') -> unique_idents l.
Proof.
  intros fuel m s f p l p' H. unfold ilst_parse in H.
  eapply (atom_loop_inv unique_idents) in H; [exact H| |constructor].
  clear. intros h l f p l' p' U H. unfold ilst_body in H.
  destruct (fourcc_eqb (hd_fourcc h) FREE).
  - unfold bind in H. destruct (skip_atom m h f p) as [[[] q]| | |]; try discriminate.
    injection H as <- <-. exact U.
  - unfold bind in H. destruct (lift (content_len m (hd_size h)) f p) as [[c q]| | |]; try discriminate.
    destruct (atom_data_parse fuel m (hd_fourcc h) c f q) as [[a q']| | |]; try discriminate.
    injection H as <- <-. unfold unique_idents. rewrite ilst_add_idents. apply unique_insert, U.
Qed.

Lemma meta_parse_unique : forall fuel m s f p o p',
  meta_parse fuel m s f p = Ok (o, p') -> opt_unique o.
Proof.
  intros fuel m s f p o p' H. unfold meta_parse, bind in H.
  destruct (parse_full_head f p) as [[vf q]| | |]; try discriminate.
  destruct (negb _); [discriminate|].
  eapply (atom_loop_inv opt_unique) in H; [exact H| |exact I].
  clear. intros h l f p l' p' U H. unfold meta_body in H.
  destruct (fourcc_eqb _ _); unfold bind in H.
  - destruct (ilst_parse _ _ _ _ _) as [[c q]| | |] eqn:E; try discriminate.
    injection H as <- <-. eapply ilst_parse_unique, E.
  - destruct (skip_atom m h f p) as [[[] q]| | |]; try discriminate.
    injection H as <- <-. exact U.
Qed.

Lemma udta_parse_unique : forall fuel m s f p o p',
  udta_parse fuel m s f p = Ok (o, p') -> opt_unique (ojoin o).
Proof.
  intros fuel m s f p o p' H. unfold udta_parse in H.
  eapply (atom_loop_inv (fun o => opt_unique (ojoin o))) in H; [exact H| |exact I].
  clear. intros h l f p l' p' U H. unfold udta_body in H.
  destruct (fourcc_eqb _ _); unfold bind in H.
  - destruct (meta_parse _ _ _ _ _) as [[c q]| | |] eqn:E; try discriminate.
    injection H as <- <-. eapply meta_parse_unique, E.
  - destruct (skip_atom m h f p) as [[[] q]| | |]; try discriminate.
    injection H as <- <-. exact U.
Qed.

Lemma moov_parse_unique : forall fuel m s f p r p',
  moov_parse fuel m s f p = Ok (r, p') -> unique_idents (moov_atoms r).
Proof.
  intros fuel m s f p r p' H. unfold moov_parse in H.
  eapply (atom_loop_inv (fun r => unique_idents (moov_atoms r))) in H; [exact H| |constructor].
  clear. intros h l f p l' p' U H. unfold moov_body in H.
  destruct (fourcc_eqb _ MOVIE_HEADER); unfold bind in H.
  { destruct (mvhd_parse _ _ _ _) as [[c q]| | |]; try discriminate. injection H as <- <-. exact U. }
  destruct (fourcc_eqb _ TRACK).
  { destruct (trak_parse _ _ _ _ _) as [[c q]| | |]; try discriminate. injection H as <- <-. exact U. }
  destruct (fourcc_eqb _ USER_DATA).
  { destruct (udta_parse _ _ _ _ _) as [[c q]| | |] eqn:E; try discriminate. injection H as <- <-.
    apply udta_parse_unique in E. unfold moov_atoms. cbn. destruct (ojoin c); [exact E|constructor]. }
  destruct (skip_atom m h f p) as [[[] q]| | |]; try discriminate.
  injection H as <- <-. exact U.
Qed.

Lemma find_moov_unique : forall fuel m inner len parsed f p r p',
  find_moov fuel m inner len parsed f p = Ok (r, p') -> unique_idents (moov_atoms r).
Proof.
  induction fuel as [|fuel IH]; intros m inner len parsed f p r p' H; [discriminate|].
  cbn [find_moov] in H. destruct (len <=? parsed); [discriminate|]. unfold bind at 1 in H.
  destruct (parse_head f p) as [[h q]| | |]; try discriminate.
  destruct (fourcc_eqb _ _); [eapply moov_parse_unique, H|].
  unfold bind in H. destruct (skip_atom m h f q) as [[[] q']| | |]; try discriminate.
  unfold lift in H. destruct (add64 _ _ _); try discriminate. eapply IH, H.
Qed.

Lemma read_unique : forall fuel m f p t p',
  read_tag_from fuel m f p = Ok (t, p') -> unique_idents (tg_atoms t).
Proof.
  intros fuel m f p t p' H. unfold read_tag_from, bind in H.
  destruct (ftyp_parse m f p) as [[ft q]| | |]; try discriminate.
  destruct (remaining_stream_len m f q) as [[len q']| | |]; try discriminate.
  destruct (find_moov _ _ _ _ _ _ _) as [[r q'']| | |] eqn:E; try discriminate.
  injection H as <- <-. cbn. eapply find_moov_unique, E.
Qed.

(** * Refinement to the ordered map *)

Lemma view_eq_refl : forall v, view_eq v v.
Proof. split; reflexivity. Qed.
Lemma view_eq_sym : forall v w, view_eq v w -> view_eq w v.
Proof. intros v w [A B]. split; auto. Qed.
Lemma view_eq_trans : forall u v w, view_eq u v -> view_eq v w -> view_eq u w.
Proof. intros u v w [A B] [C D]. split; [congruence|]. intros. rewrite B. apply D. Qed.

Lemma view_remove : forall l i, view_eq (view_of (remove_data_of l i)) (view_delete (view_of l) (named i)).
Proof.
  intros. split; cbn; [apply idents_remove|]. intros j. rewrite values_remove. reflexivity.
Qed.

Lemma view_set_all : forall l i d, view_eq (view_of (set_all_data l i d)) (view_set (view_of l) (named i) d).
Proof.
  intros. split; cbn; [apply idents_set_all|]. intros j. rewrite values_set_all. reflexivity.
Qed.

Lemma view_add_all : forall l i d,
  view_eq (view_of (add_all_data l i d)) (view_set (view_of l) (named i) (values l (named i) ++ d)).
Proof.
  intros. split; cbn; [apply idents_add_all|]. intros j. rewrite values_add_all. unfold upd.
  destruct (ident_dec (named i) j); [subst|]; reflexivity.
Qed.

Lemma view_mut_of : forall l i g, g [] = [] ->
  view_eq (view_of (data_mut_of g l i)) (view_change (view_of l) (named i) g).
Proof.
  intros. split; cbn; [apply idents_mut_of|]. intros j. rewrite values_mut_of by assumption. unfold upd.
  destruct (ident_dec (named i) j); [subst|]; reflexivity.
Qed.

Lemma filter_ext_data : forall (p q : data -> bool) l, (forall d, p d = q d) -> filter p l = filter q l.
Proof. intros. apply filter_ext. assumption. Qed.

Lemma view_retain_ext : forall v i p q, (forall d, p d = q d) -> view_retain v i p = view_retain v i q.
Proof. intros v i p q H. unfold view_retain. rewrite (filter_ext p q H). reflexivity. Qed.

Lemma view_retain_all_ext : forall v p q, (forall j d, p j d = q j d) -> view_eq (view_retain_all v p) (view_retain_all v q).
Proof.
  intros v p q H. split; cbn.
  - apply filter_ext. intros j. induction (vw_values v j); cbn; congruence.
  - intros j. apply filter_ext. apply H.
Qed.

Lemma view_delete_ext : forall v w j, view_eq v w -> view_eq (view_delete v j) (view_delete w j).
Proof.
  intros v w j [A B]. split; cbn; [rewrite A; reflexivity|]. intros k. unfold upd. destruct (ident_dec j k); auto.
Qed.

Lemma view_set_ext : forall v w j d d', view_eq v w -> d = d' -> view_eq (view_set v j d) (view_set w j d').
Proof.
  intros v w j d d' [A B] <-. split; cbn; [rewrite A; reflexivity|]. intros k. unfold upd. destruct (ident_dec j k); auto.
Qed.

Lemma view_retain_cong : forall v w j p, view_eq v w -> view_eq (view_retain v j p) (view_retain w j p).
Proof.
  intros v w j p E. pose proof E as [A B]. unfold view_retain. rewrite <- B.
  destruct (filter p (vw_values v j)); [apply view_delete_ext, E|].
  split; cbn; [exact A|]. intros k. unfold upd. destruct (ident_dec j k); auto.
Qed.

Lemma view_retain_all_cong : forall v w p, view_eq v w -> view_eq (view_retain_all v p) (view_retain_all w p).
Proof.
  intros v w p [A B]. split; cbn.
  - rewrite A. apply filter_ext. intros j. rewrite B. reflexivity.
  - intros j. rewrite B. reflexivity.
Qed.

(** * Frame: operations only touch their targets *)

Lemma frame_set : forall l i d j, named i <> j -> values (set_data l i d) j = values l j.
Proof. intros. rewrite set_data_all, values_set_all. destruct (ident_dec _ _); [contradiction|reflexivity]. Qed.
Lemma frame_set_all : forall l i d j, named i <> j -> values (set_all_data l i d) j = values l j.
Proof. intros. rewrite values_set_all. destruct (ident_dec _ _); [contradiction|reflexivity]. Qed.
Lemma frame_add : forall l i d j, named i <> j -> values (add_data l i d) j = values l j.
Proof. intros. rewrite add_data_all, values_add_all. destruct (ident_dec _ _); [contradiction|reflexivity]. Qed.
Lemma frame_add_all : forall l i d j, named i <> j -> values (add_all_data l i d) j = values l j.
Proof. intros. rewrite values_add_all. destruct (ident_dec _ _); [contradiction|reflexivity]. Qed.
Lemma frame_remove : forall l i j, named i <> j -> values (remove_data_of l i) j = values l j.
Proof. intros. rewrite values_remove. destruct (ident_dec _ _); [contradiction|reflexivity]. Qed.
Lemma frame_mut : forall g l i j, g [] = [] -> named i <> j -> values (data_mut_of g l i) j = values l j.
Proof. intros. rewrite values_mut_of by assumption. destruct (ident_dec _ _); [contradiction|reflexivity]. Qed.
Lemma frame_retain : forall l i p j, named i <> j -> values (retain_data_of l i p) j = values l j.
Proof.
  induction l as [|a r IH]; intros i p j H; [reflexivity|]. cbn. rewrite arg_eqb_dec.
  destruct (ident_dec (named i) (ad_ident a)) as [E|E].
  - destruct (filter p (ad_data a)); cbn; destruct (ident_dec (ad_ident a) j); congruence.
  - cbn. rewrite IH by assumption. reflexivity.
Qed.

Lemma frame : forall o l ts j, op_targets o = Some ts -> ~ In j ts -> values (run_op l o) j = values l j.
Proof.
  intros o l ts j H N.
  destruct o; cbn [op_targets] in H; try discriminate; injection H as <-; cbn [In] in N;
    cbn [run_op];
    unfold set_genre, set_genres, add_genre, remove_genres;
    unfold remove_bytes_of, remove_strings_of, remove_images_of, retain_bytes_of, retain_strings_of,
      retain_images_of, retain_bytes, retain_strings, retain_images, set_string, remove_item, set_strings,
      add_strings, add_string, take_all_strings, set_flag, set_int, take_artworks, set_artwork, set_artworks,
      add_artwork, add_artworks, remove_artworks, set_media_type, remove_media_type, set_advisory_rating,
      remove_advisory_rating, remove_pair, set_standard_genre, set_standard_genres, add_standard_genre,
      add_standard_genres, remove_standard_genres, clear;
    rewrite ?snd_take_bytes, ?snd_take_strings, ?snd_take_images, ?snd_take_string;
    try match goal with
    | |- values (remove_data_of (set_data _ _ _) _) _ = _ => rewrite frame_remove, frame_set; cbn; tauto
    | |- values (remove_data_of (set_all_data _ _ _) _) _ = _ => rewrite frame_remove, frame_set_all; cbn; tauto
    | |- values (remove_data_of (remove_data_of _ _) _) _ = _ => rewrite !frame_remove; cbn; tauto
    | |- values (set_data _ _ _) _ = _ => apply frame_set; cbn; tauto
    | |- values (set_all_data _ _ _) _ = _ => apply frame_set_all; cbn; tauto
    | |- values (add_data _ _ _) _ = _ => apply frame_add; cbn; tauto
    | |- values (add_all_data _ _ _) _ = _ => apply frame_add_all; cbn; tauto
    | |- values (remove_data_of _ (pair_ident ?k)) _ = _ => destruct k; apply frame_remove; cbn; tauto
    | |- values (remove_data_of _ _) _ = _ => apply frame_remove; cbn; tauto
    | |- values (snd (take_data_of _ _)) _ = _ => apply take_other; cbn; tauto
    | |- values (retain_data_of _ _ _) _ = _ => apply frame_retain; cbn; tauto
    | |- values (data_mut_of _ _ _) _ = _ => apply frame_mut; [reflexivity|cbn; tauto]
    end.
  - unfold take_artwork. pose proof (snd_take_images l (AFourcc ARTWORK)) as E.
    destruct (take_images_of l (AFourcc ARTWORK)). cbn in E |- *. rewrite E. apply take_other. cbn. tauto.
  - unfold set_pair, set_new_pair, mut_first_bytes.
    destruct (first _); [apply frame_mut; [reflexivity|]|apply frame_set]; destruct disc; cbn in *; tauto.
  - unfold set_pair_number, set_new_pair, mut_first_bytes.
    destruct (first _); [apply frame_mut; [reflexivity|]|apply frame_set]; destruct disc; cbn in *; tauto.
  - unfold set_pair_total, set_new_pair, mut_first_bytes.
    destruct (first _); [apply frame_mut; [reflexivity|]|apply frame_set]; destruct disc; cbn in *; tauto.
  - unfold remove_pair_number, remove_pair, mut_first_bytes.
    destruct (first _); [destruct (negb _); [apply frame_mut; [reflexivity|]|apply frame_remove]|apply frame_remove];
      destruct disc; cbn in *; tauto.
  - unfold remove_pair_total, remove_pair, mut_first_bytes.
    destruct (first _); [destruct (negb _); [apply frame_mut; [reflexivity|]|apply frame_remove]|apply frame_remove];
      destruct disc; cbn in *; tauto.
  - unfold take_genres, take_all_strings. pose proof (snd_take_strings l (AFourcc CUSTOM_GENRE)) as E.
    destruct (take_strings_of l (AFourcc CUSTOM_GENRE)). cbn in E |- *. rewrite E. apply take_other. cbn. tauto.
  - unfold take_genre. destruct (obind_opt _ _); [reflexivity|]. rewrite snd_take_string.
    apply take_other. cbn. tauto.
Qed.
