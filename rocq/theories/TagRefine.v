(** Every operation of the tag API refines the corresponding operation on the ordered map. *)

From Coq Require Import List NArith ZArith Bool Lia Arith.
From Coq Require Import ZifyBool ZifyNat ZifyN.
From Coq Require Strings.Byte.
From Verif Require Import Base BaseLemmas Utf UtfLemmas Types TagApi TagOps TagSpec TagOpsSpec TagLemmas TagProofs TagAccess.
Import ListNotations.

Ltac Zify.zify_post_hook ::= Z.div_mod_to_equations.

(** * The helpers of the specification *)

Lemma byte_value_eq : forall d, byte_value d = data_bytes d.
Proof. intros []; reflexivity. Qed.

Lemma first_byte_value_eq : forall d, first_byte_value d = first (filter_map data_bytes d).
Proof.
  induction d as [|x r IH]; [reflexivity|]. cbn [first_byte_value filter_map]. rewrite byte_value_eq.
  destruct (data_bytes x); [reflexivity|exact IH].
Qed.

Lemma change_byte_value_eq : forall g d, change_byte_value g d = map_first_bytes g d.
Proof.
  intros g. induction d as [|x r IH]; [reflexivity|]. cbn [change_byte_value map_first_bytes].
  destruct x; cbn [data_bytes data_set_bytes]; rewrite ?IH; reflexivity.
Qed.

Lemma change_byte_value_ext : forall g h d, (forall b, g b = h b) -> change_byte_value g d = change_byte_value h d.
Proof.
  intros g h d E. induction d as [|x r IH]; [reflexivity|]. cbn. destruct x; rewrite ?E, ?IH; reflexivity.
Qed.

Lemma be_length : forall k n, List.length (be k n) = k.
Proof. induction k; intros; cbn; auto. Qed.

Lemma poke_eq : forall k n b, set_be_int b k n 2 = poke k n b.
Proof.
  intros k n b. unfold set_be_int, poke.
  destruct (Nat.ltb_spec (List.length b) (k + 2)) as [H|H].
  - assert (E1 : skipn (k + 2) b = []) by (apply skipn_all2; lia).
    assert (E2 : skipn (k + 2) (b ++ repeat Byte.x00 (k + 2 - List.length b)) = [])
      by (apply skipn_all2; rewrite app_length, repeat_length; lia).
    rewrite E1, E2. f_equal.
    destruct (Nat.le_gt_cases k (List.length b)) as [L|L].
    + rewrite !firstn_app. replace (k - List.length b)%nat with 0%nat by lia. cbn. reflexivity.
    + replace (k + 2 - List.length b)%nat with ((k - List.length b) + 2)%nat by lia.
      rewrite repeat_app, app_assoc, (firstn_app k (b ++ _)).
      rewrite app_length, repeat_length.
      replace (k - (List.length b + (k - List.length b)))%nat with 0%nat by lia.
      cbn [firstn]. rewrite app_nil_r. reflexivity.
  - replace (k - List.length b)%nat with 0%nat by lia. cbn [repeat]. rewrite app_nil_r. reflexivity.
Qed.

Lemma pair_bytes_eq : forall n t, tnew n t = pair_bytes n t.
Proof. intros. reflexivity. Qed.

Lemma media_byte_eq : forall x, n2b (media_code x) = media_byte x.
Proof. intros []; reflexivity. Qed.
Lemma rating_byte_eq : forall x, n2b (rating_code x) = rating_byte x.
Proof. intros []; reflexivity. Qed.
Lemma image_value_eq : forall x, data_of_img x = image_value x.
Proof. intros [[] v]; reflexivity. Qed.

Lemma genre_codes_eq : forall l, standard_genres l = genre_codes (values l (IFourcc STANDARD_GENRE)).
Proof.
  intros. unfold standard_genres. rewrite bytes_of_values. cbn [named].
  induction (values l (IFourcc STANDARD_GENRE)) as [|x r IH]; [reflexivity|].
  cbn [filter_map genre_codes]. change (byte_value x) with (data_bytes x).
  destruct (data_bytes x) as [[|a [|b w]]|]; cbn [filter_map]; rewrite ?IH; try reflexivity.
  f_equal. unfold unbe. cbn. lia.
Qed.

(** * Congruence *)

Lemma view_change_cong : forall v w j g, view_eq v w -> view_eq (view_change v j g) (view_change w j g).
Proof.
  intros v w j g [A B]. split; cbn; [exact A|]. intros k. unfold upd. rewrite !B.
  destruct (ident_dec j k); reflexivity.
Qed.

Lemma view_change_all_cong : forall v w g, view_eq v w -> view_eq (view_change_all v g) (view_change_all w g).
Proof. intros v w g [A B]. split; cbn; [exact A|]. intros k. rewrite B. reflexivity. Qed.

Lemma view_pair_cong : forall v w j g e e', view_eq v w -> view_eq e e' ->
  view_eq (view_pair v j g e) (view_pair w j g e').
Proof.
  intros v w j g e e' E F. unfold view_pair. destruct E as [A B]. rewrite <- B.
  destruct (first_byte_value _); [apply view_change_cong; split; assumption|exact F].
Qed.

Lemma view_op_cong : forall o v w, view_eq v w -> view_eq (view_op o v) (view_op o w).
Proof.
  intros o v w E. pose proof E as [A B].
  destruct o; cbn [view_op]; rewrite ?B;
    auto using view_delete_ext, view_retain_cong, view_retain_all_cong, view_set_ext, view_change_cong,
      view_change_all_cong, view_pair_cong.
  - apply view_eq_refl.
  - destruct (genre_codes _) as [|c r]; [apply view_delete_ext, E|].
    destruct (_ && _); [exact E|apply view_delete_ext, E].
Qed.

(** * One operation *)

Lemma view_set_one : forall l i d, view_eq (view_of (set_data l i d)) (view_set (view_of l) (named i) [d]).
Proof. intros. rewrite set_data_all. apply view_set_all. Qed.
Lemma view_add_one : forall l i d,
  view_eq (view_of (add_data l i d)) (view_set (view_of l) (named i) (values l (named i) ++ [d])).
Proof. intros. rewrite add_data_all. apply view_add_all. Qed.

Lemma view_take : forall l i, unique_idents l ->
  view_eq (view_of (snd (take_data_of l i))) (view_delete (view_of l) (named i)).
Proof. intros. rewrite take_remove by assumption. apply view_remove. Qed.

Lemma view_change_ext : forall v j g h, (forall d, g d = h d) -> view_eq (view_change v j g) (view_change v j h).
Proof. intros v j g h E. split; cbn; [reflexivity|]. intros k. unfold upd. rewrite E. reflexivity. Qed.

Lemma mapi_each : forall {A} (g h : nat -> A -> A) l, (forall k x, g k x = h k x) -> mapi g l = each h l.
Proof.
  intros A g h l E. unfold mapi, each. generalize 0%nat. induction l; intros k; cbn; [reflexivity|].
  rewrite E, IHl. reflexivity.
Qed.

Lemma view_mut_pair : forall l i g h e, (forall b, g b = h b) -> view_eq (view_of e) (view_of e) ->
  view_eq (view_of (match first (bytes_of l i) with Some _ => mut_first_bytes i l g | None => e end))
          (view_pair (view_of l) (named i) h (view_of e)).
Proof.
  intros l i g h e E _. unfold view_pair. cbn [vw_values view_of]. rewrite first_byte_value_eq, <- bytes_of_values.
  destruct (first (bytes_of l i)); [|apply view_eq_refl].
  unfold mut_first_bytes. eapply view_eq_trans; [apply view_mut_of; reflexivity|].
  apply view_change_ext. intros d. rewrite <- change_byte_value_eq. apply change_byte_value_ext, E.
Qed.

Lemma view_pair_item : forall k, named (pair_ident k) = pair_item k.
Proof. intros []; reflexivity. Qed.

Lemma nonzero_not_zero : forall o, negb (onat_eqb (nonzero o) (Some 0)) = true.
Proof. intros [n|]; cbn; [|reflexivity]. destruct (N.eqb_spec n 0); cbn; [reflexivity|]. destruct n; [contradiction|reflexivity]. Qed.

Lemma view_mut : forall l i g h e e', (forall b, g b = h b) -> view_eq (view_of e) e' ->
  view_eq (view_of (match first (bytes_of l i) with Some _ => mut_first_bytes i l g | None => e end))
          (view_pair (view_of l) (named i) h e').
Proof.
  intros l i g h e e' E F. eapply view_eq_trans; [apply view_mut_pair; [exact E|apply view_eq_refl]|].
  apply view_pair_cong; [apply view_eq_refl|exact F].
Qed.

Lemma view_data_mut : forall l g h, (forall j k d, g j k d = h j k d) ->
  view_eq (view_of (data_mut g l)) (view_change_all (view_of l) (fun j => each (h j))).
Proof.
  intros l g h E. split; cbn; [apply idents_data_mut|]. intros j. rewrite values_data_mut.
  apply mapi_each, E.
Qed.

Lemma view_mut_mapi : forall l i g h, (forall k d, g k d = h k d) ->
  view_eq (view_of (data_mut_of (mapi g) l i)) (view_change (view_of l) (named i) (each h)).
Proof.
  intros l i g h E. eapply view_eq_trans; [apply view_mut_of; reflexivity|].
  apply view_change_ext. intros d. apply mapi_each, E.
Qed.

Lemma run_op_view : forall o l, unique_idents l -> view_eq (view_of (run_op l o)) (view_op o (view_of l)).
Proof.
  intros o l U. destruct o; cbn [run_op view_op]; try (cbn [vw_values view_of]);
    rewrite ?snd_take_bytes, ?snd_take_strings, ?snd_take_images, ?snd_take_string;
    try (apply view_take; assumption).
  - apply view_set_one.
  - apply view_set_all.
  - apply view_add_one.
  - apply view_add_all.
  - apply view_remove.
  - erewrite view_retain_ext; [apply retain_of_view; assumption|]. intros []; reflexivity.
  - erewrite view_retain_ext; [apply retain_of_view; assumption|]. intros []; reflexivity.
  - erewrite view_retain_ext; [apply retain_of_view; assumption|]. intros []; reflexivity.
  - apply retain_of_view; assumption.
  - erewrite view_retain_ext; [apply retain_of_view; assumption|]. intros []; reflexivity.
  - erewrite view_retain_ext; [apply retain_of_view; assumption|]. intros []; reflexivity.
  - erewrite view_retain_ext; [apply retain_of_view; assumption|]. intros []; reflexivity.
  - rewrite retain_data_filter. apply retained_view; assumption.
  - unfold retain_bytes. rewrite retain_data_filter.
    eapply view_eq_trans; [apply retained_view; assumption|]. apply view_retain_all_ext. intros ? []; reflexivity.
  - unfold retain_strings. rewrite retain_data_filter.
    eapply view_eq_trans; [apply retained_view; assumption|]. apply view_retain_all_ext. intros ? []; reflexivity.
  - unfold retain_images. rewrite retain_data_filter.
    eapply view_eq_trans; [apply retained_view; assumption|]. apply view_retain_all_ext. intros ? []; reflexivity.
  - split; reflexivity.
  - apply view_mut_mapi. reflexivity.
  - apply view_mut_mapi. intros k []; reflexivity.
  - apply view_mut_mapi. intros k []; reflexivity.
  - apply view_mut_mapi. intros k []; reflexivity.
  - apply view_data_mut. reflexivity.
  - apply view_data_mut. intros j k []; reflexivity.
  - apply view_data_mut. intros j k []; reflexivity.
  - apply view_data_mut. intros j k []; reflexivity.
  - apply view_set_one.
  - apply view_remove.
  - apply view_set_all.
  - apply view_add_all.
  - apply view_add_one.
  - unfold take_all_strings. rewrite snd_take_strings. apply view_take, U.
  - apply view_set_one.
  - apply view_set_one.
  - apply view_set_one.
  - unfold take_artworks. rewrite snd_take_images. apply (view_take l (AFourcc ARTWORK)), U.
  - unfold take_artwork. pose proof (snd_take_images l (AFourcc ARTWORK)) as E.
    destruct (take_images_of _ _) as [x r]. cbn [snd] in *. subst r. apply (view_take l (AFourcc ARTWORK)), U.
  - unfold set_artwork. rewrite image_value_eq. apply (view_set_one l (AFourcc ARTWORK)).
  - unfold set_artworks. rewrite (map_ext _ _ image_value_eq). apply (view_set_all l (AFourcc ARTWORK)).
  - unfold add_artwork. rewrite image_value_eq. apply (view_add_one l (AFourcc ARTWORK)).
  - unfold add_artworks. rewrite (map_ext _ _ image_value_eq). apply (view_add_all l (AFourcc ARTWORK)).
  - apply (view_remove l (AFourcc ARTWORK)).
  - unfold set_media_type. rewrite media_byte_eq. apply (view_set_one l (AFourcc MEDIA_TYPE)).
  - apply (view_remove l (AFourcc MEDIA_TYPE)).
  - unfold set_advisory_rating. rewrite rating_byte_eq. apply (view_set_one l (AFourcc ADVISORY_RATING)).
  - apply (view_remove l (AFourcc ADVISORY_RATING)).
  - rewrite <- view_pair_item. apply view_mut; [|apply view_set_one].
    intros b. unfold tset_number, tset_total. rewrite !poke_eq. reflexivity.
  - rewrite <- view_pair_item. apply view_mut; [|apply view_set_one]. intros b. apply poke_eq.
  - rewrite <- view_pair_item. apply view_mut; [|apply view_set_one]. intros b. apply poke_eq.
  - rewrite <- view_pair_item. apply view_remove.
  - rewrite <- view_pair_item.
    replace (remove_pair_number (pair_ident disc) l) with
      (match first (bytes_of l (pair_ident disc)) with
       | Some _ => mut_first_bytes (pair_ident disc) l (fun v => tset_number v 0)
       | None => remove_pair (pair_ident disc) l end).
    + apply view_mut; [|apply view_remove]. intros b. apply poke_eq.
    + unfold remove_pair_number. destruct (first _); [|reflexivity].
      unfold ttotal. rewrite nonzero_not_zero. reflexivity.
  - rewrite <- view_pair_item.
    replace (remove_pair_total (pair_ident disc) l) with
      (match first (bytes_of l (pair_ident disc)) with
       | Some _ => mut_first_bytes (pair_ident disc) l (fun v => tset_total v 0)
       | None => remove_pair (pair_ident disc) l end).
    + apply view_mut; [|apply view_remove]. intros b. apply poke_eq.
    + unfold remove_pair_total. destruct (first _); [|reflexivity].
      unfold tnumber. rewrite nonzero_not_zero. reflexivity.
  - apply (view_set_one l (AFourcc STANDARD_GENRE)).
  - apply (view_set_all l (AFourcc STANDARD_GENRE)).
  - apply (view_add_one l (AFourcc STANDARD_GENRE)).
  - apply (view_add_all l (AFourcc STANDARD_GENRE)).
  - apply (view_remove l (AFourcc STANDARD_GENRE)).
  - unfold take_genres, take_all_strings. pose proof (snd_take_strings l (AFourcc CUSTOM_GENRE)) as E.
    destruct (take_strings_of _ _) as [x r]. cbn [snd] in *. subst r. apply (view_take l (AFourcc CUSTOM_GENRE)), U.
  - unfold take_genre, standard_genre. rewrite genre_codes_eq.
    pose proof (view_take l (AFourcc CUSTOM_GENRE) U) as T. rewrite <- snd_take_string in T. cbn [named] in T.
    destruct (genre_codes _) as [|c r]; cbn [first obind_opt]; [exact T|].
    pose proof (standard_genre_known c) as K.
    destruct (standard_genre_name c) as [s|].
    + destruct K as [K _]. destruct K as [K1 K2]; [eexists; reflexivity|].
      replace ((1 <=? c) && (c <=? 80)) with true by lia. apply view_eq_refl.
    + replace ((1 <=? c) && (c <=? 80)) with false; [exact T|].
      destruct ((1 <=? c) && (c <=? 80)) eqn:Q; [|reflexivity].
      destruct K as [_ K]. destruct K as [s K]; [lia|discriminate].
  - unfold set_genre, remove_standard_genres.
    eapply view_eq_trans; [apply (view_remove _ (AFourcc STANDARD_GENRE))|]. cbn [named].
    apply view_delete_ext. apply (view_set_one l (AFourcc CUSTOM_GENRE)).
  - unfold set_genres, remove_standard_genres.
    eapply view_eq_trans; [apply (view_remove _ (AFourcc STANDARD_GENRE))|]. cbn [named].
    apply view_delete_ext. apply (view_set_all l (AFourcc CUSTOM_GENRE)).
  - apply (view_add_one l (AFourcc CUSTOM_GENRE)).
  - unfold remove_genres, remove_standard_genres.
    eapply view_eq_trans; [apply (view_remove _ (AFourcc CUSTOM_GENRE))|]. cbn [named].
    apply view_delete_ext. apply (view_remove l (AFourcc STANDARD_GENRE)).
Qed.

Lemma run_ops_view : forall o l v, unique_idents l -> view_eq (view_of l) v ->
  view_eq (view_of (run_ops l o)) (view_ops o v).
Proof.
  induction o as [|x o IH]; intros l v U E; [exact E|].
  cbn [run_ops view_ops fold_left]. fold (run_ops (run_op l x) o). fold (view_ops o (view_op x v)).
  apply IH; [apply unique_run_op, U|].
  eapply view_eq_trans; [apply run_op_view, U|]. apply view_op_cong, E.
Qed.
