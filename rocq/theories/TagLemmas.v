(** Proofs about the tag API. *)

From Coq Require Import List NArith ZArith Bool Lia Arith Permutation.
From Verif Require Import Base BaseLemmas Utf UtfLemmas Types TagApi TagOps TagSpec.
Import ListNotations.

Lemma ident_eqb_eq : forall a b, ident_eqb a b = true <-> a = b.
Proof.
  intros [f|me na] [g|me' na']; cbn; try (split; congruence).
  - rewrite fourcc_eqb_eq. split; congruence.
  - rewrite andb_true_iff, !ustr_eqb_eq. split; [intros [-> ->]|intros [= -> ->]]; auto.
Qed.

Lemma ident_eqb_refl : forall a, ident_eqb a a = true.
Proof. intros. apply ident_eqb_eq. reflexivity. Qed.

Lemma arg_into_named : forall i, arg_into i = named i.
Proof. destruct i; reflexivity. Qed.

Lemma arg_eqb_eq : forall i j, arg_eqb i j = true <-> named i = j.
Proof.
  intros [f|me na|k] j.
  - destruct j; cbn; [rewrite fourcc_eqb_eq|]; split; congruence.
  - destruct j; cbn; [split; congruence|].
    rewrite andb_true_iff, !ustr_eqb_eq. split; [intros [-> ->]|intros [= -> ->]]; auto.
  - cbn. apply ident_eqb_eq.
Qed.

(** Turns the boolean tests of the model into the decision of the specification. *)
Lemma arg_eqb_dec : forall i j, arg_eqb i j = if ident_dec (named i) j then true else false.
Proof.
  intros i j. destruct (ident_dec (named i) j) as [E|E].
  - apply arg_eqb_eq. exact E.
  - destruct (arg_eqb i j) eqn:F; [|reflexivity]. apply arg_eqb_eq in F. contradiction.
Qed.

Lemma ident_dec_sym : forall {A} a b (x y : A),
  (if ident_dec a b then x else y) = (if ident_dec b a then x else y).
Proof. intros. destruct (ident_dec a b), (ident_dec b a); congruence. Qed.

Lemma ident_dec_refl : forall {A} a (x y : A), (if ident_dec a a then x else y) = x.
Proof. intros. destruct (ident_dec a a); congruence. Qed.

Lemma values_absent : forall l j, ~ In j (idents l) -> values l j = [].
Proof.
  induction l as [|a r IH]; intros j H; cbn in *; [reflexivity|].
  destruct (ident_dec (ad_ident a) j); [tauto|]. apply IH. tauto.
Qed.

Lemma data_of_values : forall l i, data_of l i = values l (named i).
Proof.
  induction l as [|a r IH]; intros i; cbn; [reflexivity|].
  rewrite arg_eqb_dec, ident_dec_sym, IH. destruct (ident_dec (ad_ident a) (named i)); reflexivity.
Qed.

(** ** set and add *)

Lemma set_data_all : forall l i d, set_data l i d = set_all_data l i [d].
Proof. induction l as [|a r IH]; intros; cbn; [|rewrite IH]; reflexivity. Qed.

Lemma add_data_all : forall l i d, add_data l i d = add_all_data l i [d].
Proof. induction l as [|a r IH]; intros; cbn; [|rewrite IH]; reflexivity. Qed.

Lemma idents_set_all : forall l i d, idents (set_all_data l i d) = insert_ident (idents l) (named i).
Proof.
  unfold insert_ident, idents. induction l as [|a r IH]; intros i d.
  - cbn. rewrite arg_into_named. reflexivity.
  - cbn [set_all_data map]. rewrite arg_eqb_dec.
    destruct (ident_dec (named i) (ad_ident a)) as [E|E].
    + cbn [map]. destruct (in_dec _ _ _) as [|N]; [reflexivity|]. exfalso. apply N. left. auto.
    + cbn [map ad_ident]. rewrite IH.
      destruct (in_dec ident_dec (named i) (map ad_ident r)) as [I|I];
        destruct (in_dec ident_dec (named i) (ad_ident a :: map ad_ident r)) as [J|J]; try reflexivity.
      * exfalso. apply J. right. exact I.
      * exfalso. destruct J as [J|J]; congruence.
Qed.

Lemma values_set_all : forall l i d j,
  values (set_all_data l i d) j = if ident_dec (named i) j then d else values l j.
Proof.
  induction l as [|a r IH]; intros i d j; cbn [set_all_data values].
  - cbn. rewrite arg_into_named. reflexivity.
  - rewrite arg_eqb_dec. destruct (ident_dec (named i) (ad_ident a)) as [E|E]; cbn [values ad_ident ad_data].
    + rewrite E. destruct (ident_dec (ad_ident a) j); reflexivity.
    + destruct (ident_dec (ad_ident a) j) as [F|F].
      * destruct (ident_dec (named i) j); [congruence|reflexivity].
      * apply IH.
Qed.

Lemma idents_add_all : forall l i d, idents (add_all_data l i d) = insert_ident (idents l) (named i).
Proof.
  intros l i d. rewrite <- (idents_set_all l i d). unfold idents.
  induction l as [|a r IH]; [reflexivity|]. cbn. destruct (arg_eqb i (ad_ident a)); cbn; congruence.
Qed.

Lemma values_add_all : forall l i d j,
  values (add_all_data l i d) j = if ident_dec (named i) j then values l j ++ d else values l j.
Proof.
  induction l as [|a r IH]; intros i d j; cbn [add_all_data values].
  - cbn. rewrite arg_into_named. destruct (ident_dec (named i) j); reflexivity.
  - rewrite arg_eqb_dec. destruct (ident_dec (named i) (ad_ident a)) as [E|E]; cbn [values ad_ident ad_data].
    + rewrite E. destruct (ident_dec (ad_ident a) j); reflexivity.
    + destruct (ident_dec (ad_ident a) j) as [F|F].
      * destruct (ident_dec (named i) j); [congruence|reflexivity].
      * apply IH.
Qed.

(** ** remove and take *)

Lemma idents_remove : forall l i, idents (remove_data_of l i) = delete_ident (idents l) (named i).
Proof.
  unfold remove_data_of, delete_ident, idents.
  induction l as [|a r IH]; intros i; cbn; [reflexivity|].
  rewrite arg_eqb_dec. destruct (ident_dec (named i) (ad_ident a)); cbn; [|f_equal]; apply IH.
Qed.

Lemma values_remove : forall l i j,
  values (remove_data_of l i) j = if ident_dec (named i) j then [] else values l j.
Proof.
  unfold remove_data_of. induction l as [|a r IH]; intros i j; cbn.
  - destruct (ident_dec (named i) j); reflexivity.
  - rewrite arg_eqb_dec. destruct (ident_dec (named i) (ad_ident a)) as [E|E]; cbn.
    + rewrite IH, E. destruct (ident_dec (ad_ident a) j); reflexivity.
    + rewrite IH. destruct (ident_dec (ad_ident a) j); [|reflexivity].
      destruct (ident_dec (named i) j); [congruence|reflexivity].
Qed.

Lemma remove_absent : forall l i, ~ In (named i) (idents l) -> remove_data_of l i = l.
Proof.
  unfold remove_data_of. induction l as [|a r IH]; intros i H; cbn in *; [reflexivity|].
  rewrite arg_eqb_dec. destruct (ident_dec (named i) (ad_ident a)); [exfalso; apply H; left; congruence|].
  cbn. f_equal. apply IH. tauto.
Qed.

Lemma take_remove : forall l i, unique_idents l ->
  take_data_of l i = (values l (named i), remove_data_of l i).
Proof.
  unfold unique_idents. induction l as [|a r IH]; intros i U; [reflexivity|].
  cbn in U. inversion U as [|? ? N U']; subst.
  cbn [take_data_of values]. unfold remove_data_of. cbn [filter].
  rewrite arg_eqb_dec, (ident_dec_sym (ad_ident a)).
  destruct (ident_dec (named i) (ad_ident a)) as [E|E].
  - cbn [negb]. f_equal. symmetry. apply remove_absent. rewrite E. exact N.
  - rewrite IH by exact U'. reflexivity.
Qed.

(** The values taken do not need uniqueness. *)
Lemma take_fst : forall l i, fst (take_data_of l i) = values l (named i).
Proof.
  induction l as [|a r IH]; intros i; [reflexivity|]. cbn.
  rewrite arg_eqb_dec, (ident_dec_sym (ad_ident a)).
  destruct (ident_dec (named i) (ad_ident a)); [reflexivity|].
  rewrite <- IH. destruct (take_data_of r i). reflexivity.
Qed.

Lemma take_other : forall l i j, named i <> j -> values (snd (take_data_of l i)) j = values l j.
Proof.
  induction l as [|a r IH]; intros i j H; [reflexivity|]. cbn.
  rewrite arg_eqb_dec.
  destruct (ident_dec (named i) (ad_ident a)) as [E|E].
  - cbn. destruct (ident_dec (ad_ident a) j); [congruence|reflexivity].
  - specialize (IH i j H). destruct (take_data_of r i). cbn in *. rewrite IH. reflexivity.
Qed.

(** ** retain *)

Lemma filter_all_false : forall {A} (p : A -> bool) l, existsb p l = false -> filter p l = [].
Proof.
  induction l as [|x l IH]; cbn; intros H; [reflexivity|].
  apply orb_false_iff in H. destruct H as [-> H]. auto.
Qed.

Lemma filter_existsb : forall {A} (p : A -> bool) l, existsb p l = match filter p l with [] => false | _ => true end.
Proof.
  induction l as [|x l IH]; cbn; [reflexivity|]. destruct (p x); [reflexivity|exact IH].
Qed.

Lemma retain_of_view : forall l i p, unique_idents l ->
  view_eq (view_of (retain_data_of l i p)) (view_retain (view_of l) (named i) p).
Proof.
  unfold unique_idents, view_eq, view_retain, view_of. cbn [vw_order vw_values].
  induction l as [|a r IH]; intros i p U.
  - cbn. split; [reflexivity|]. intros j. unfold upd. destruct (ident_dec _ _); reflexivity.
  - cbn in U. inversion U as [|? ? N U']; subst. specialize (IH i p U').
    cbn [retain_data_of values]. rewrite arg_eqb_dec, (ident_dec_sym (ad_ident a)).
    destruct (ident_dec (named i) (ad_ident a)) as [E|E].
    + destruct (filter p (ad_data a)) as [|d ds] eqn:F; cbn [vw_order vw_values view_delete].
      * split.
        -- unfold delete_ident. cbn. destruct (ident_dec (named i) (ad_ident a)); [|contradiction].
           change (map ad_ident r) with (idents r) in *.
           rewrite <- (remove_absent r i) at 1 by (rewrite E; exact N).
           apply idents_remove.
        -- intros j. unfold upd. rewrite E. destruct (ident_dec (ad_ident a) j) as [G|G].
           ++ subst j. apply values_absent. exact N.
           ++ cbn. destruct (ident_dec (ad_ident a) j); [contradiction|reflexivity].
      * split; [reflexivity|]. intros j. unfold upd. cbn. rewrite E.
        destruct (ident_dec (ad_ident a) j); reflexivity.
    + destruct (filter p (values r (named i))) as [|d ds]; destruct IH as [IH1 IH2];
        cbn [vw_order vw_values view_delete] in *.
      * split.
        -- cbn. unfold idents in IH1. rewrite IH1. unfold delete_ident. cbn.
           destruct (ident_dec (named i) (ad_ident a)); [contradiction|]. reflexivity.
        -- intros j. specialize (IH2 j). unfold upd in *. cbn. rewrite IH2.
           destruct (ident_dec (ad_ident a) j); [|reflexivity].
           destruct (ident_dec (named i) j); [congruence|reflexivity].
      * split.
        -- cbn. unfold idents in IH1. rewrite IH1. reflexivity.
        -- intros j. specialize (IH2 j). unfold upd in *. cbn. rewrite IH2.
           destruct (ident_dec (ad_ident a) j); [|reflexivity].
           destruct (ident_dec (named i) j); [congruence|reflexivity].
Qed.

(** The loops of [retain_data] compute a filter. *)
Lemma retain_inner_filter : forall p d pre fuel, (length d <= fuel)%nat ->
  retain_inner fuel p (pre ++ d) (length pre) = pre ++ filter p d.
Proof.
  intros p. induction d as [|x d IH]; intros pre fuel H.
  - rewrite app_nil_r. destruct fuel; cbn; [rewrite app_nil_r; reflexivity|].
    rewrite (proj2 (nth_error_None pre (length pre))) by lia. rewrite app_nil_r. reflexivity.
  - destruct fuel as [|fuel]; [cbn in H; lia|]. cbn [retain_inner].
    rewrite nth_error_app2, Nat.sub_diag by lia. cbn [nth_error filter].
    destruct (p x) eqn:E.
    + specialize (IH (pre ++ [x]) fuel). rewrite app_length in IH. cbn [length] in IH.
      rewrite <- !app_assoc in IH. cbn [app] in IH. replace (S (length pre)) with (length pre + 1)%nat by lia.
      apply IH. cbn in H. lia.
    + replace (vec_remove (pre ++ x :: d) (length pre)) with (pre ++ d).
      * apply IH. cbn in H. lia.
      * clear. induction pre; cbn; [reflexivity|]. f_equal. exact IHpre.
Qed.

Definition retained (p : data_ident -> data -> bool) (l : atoms) : atoms :=
  filter (fun a => match ad_data a with [] => false | _ => true end)
         (map (fun a => AtomData (ad_ident a) (filter (p (ad_ident a)) (ad_data a))) l).

Lemma retain_outer_filter : forall p l pre fuel, (length l <= fuel)%nat ->
  retain_outer fuel p (pre ++ l) (length pre) = pre ++ retained p l.
Proof.
  intros p. induction l as [|a l IH]; intros pre fuel H.
  - rewrite app_nil_r. destruct fuel; cbn; [rewrite app_nil_r; reflexivity|].
    rewrite (proj2 (nth_error_None pre (length pre))) by lia. rewrite app_nil_r. reflexivity.
  - destruct fuel as [|fuel]; [cbn in H; lia|]. cbn [retain_outer].
    rewrite nth_error_app2, Nat.sub_diag by lia. cbn [nth_error].
    pose proof (retain_inner_filter (p (ad_ident a)) (ad_data a) [] (length (ad_data a))) as R.
    cbn [app length] in R. rewrite R by lia. clear R.
    unfold retained. cbn [map filter ad_data ad_ident]. fold (retained p l).
    destruct (filter (p (ad_ident a)) (ad_data a)) as [|d ds] eqn:E.
    + replace (vec_remove (pre ++ a :: l) (length pre)) with (pre ++ l).
      * apply IH. cbn in H. lia.
      * clear. induction pre; cbn; [reflexivity|]. f_equal. exact IHpre.
    + replace (vec_set (pre ++ a :: l) (length pre) (AtomData (ad_ident a) (d :: ds)))
        with ((pre ++ [AtomData (ad_ident a) (d :: ds)]) ++ l).
      * replace (S (length pre)) with (length (pre ++ [AtomData (ad_ident a) (d :: ds)]))
          by (rewrite app_length; cbn; lia).
        rewrite IH by (cbn in H; lia). rewrite <- app_assoc. reflexivity.
      * clear. induction pre; cbn; [reflexivity|]. f_equal. exact IHpre.
Qed.

Lemma retain_data_filter : forall l p, retain_data l p = retained p l.
Proof. intros. apply (retain_outer_filter p l [] (length l)). lia. Qed.

Lemma retained_view : forall l p, unique_idents l ->
  view_eq (view_of (retained p l)) (view_retain_all (view_of l) p).
Proof.
  unfold unique_idents, view_eq, view_retain_all, view_of. cbn [vw_order vw_values].
  induction l as [|a r IH]; intros p U; [split; reflexivity|].
  cbn in U. inversion U as [|? ? N U']; subst. specialize (IH p U'). destruct IH as [IH1 IH2].
  assert (X : filter (fun j => existsb (p j) (values (a :: r) j)) (idents r)
              = filter (fun j => existsb (p j) (values r j)) (idents r)).
  { apply filter_ext_in. intros j Hj. cbn. destruct (ident_dec (ad_ident a) j) as [E|E]; [|reflexivity].
    subst j. contradiction. }
  split.
  - unfold retained. cbn [map filter ad_data ad_ident idents]. fold (retained p r) (idents r).
    rewrite X. cbn [values]. rewrite ident_dec_refl, filter_existsb.
    destruct (filter (p (ad_ident a)) (ad_data a)); cbn; [|f_equal]; exact IH1.
  - intros j. unfold retained. cbn [map filter ad_data ad_ident values]. fold (retained p r).
    destruct (filter (p (ad_ident a)) (ad_data a)) as [|d ds] eqn:E.
    + rewrite IH2. destruct (ident_dec (ad_ident a) j) as [G|G]; [|reflexivity].
      subst j. rewrite values_absent by exact N. cbn. symmetry. exact E.
    + cbn [values ad_ident ad_data]. destruct (ident_dec (ad_ident a) j) as [G|G]; [|apply IH2].
      subst j. symmetry. exact E.
Qed.

(** ** changing values *)

Lemma idents_mut_of : forall g l i, idents (data_mut_of g l i) = idents l.
Proof.
  unfold idents. induction l as [|a r IH]; intros i; [reflexivity|]. cbn.
  destruct (arg_eqb i (ad_ident a)); cbn; [|rewrite IH]; reflexivity.
Qed.

Lemma values_mut_of : forall g l i j, g [] = [] ->
  values (data_mut_of g l i) j = if ident_dec (named i) j then g (values l j) else values l j.
Proof.
  intros g. induction l as [|a r IH]; intros i j G; cbn [data_mut_of values].
  - destruct (ident_dec (named i) j); congruence.
  - rewrite arg_eqb_dec. destruct (ident_dec (named i) (ad_ident a)) as [E|E]; cbn [values ad_ident ad_data].
    + rewrite E. destruct (ident_dec (ad_ident a) j); reflexivity.
    + rewrite IH by exact G. destruct (ident_dec (ad_ident a) j); [|reflexivity].
      destruct (ident_dec (named i) j); [congruence|reflexivity].
Qed.

Lemma idents_data_mut : forall g l, idents (data_mut g l) = idents l.
Proof. intros. unfold idents, data_mut. rewrite map_map. reflexivity. Qed.

Lemma values_data_mut : forall g l j, values (data_mut g l) j = mapi (g j) (values l j).
Proof.
  intros g. induction l as [|a r IH]; intros j; [reflexivity|]. cbn.
  destruct (ident_dec (ad_ident a) j) as [E|E]; [subst; reflexivity|apply IH].
Qed.

(** * Uniqueness of identifiers *)

Lemma unique_insert : forall o j, NoDup o -> NoDup (insert_ident o j).
Proof.
  intros o j H. unfold insert_ident. destruct (in_dec ident_dec j o) as [I|I]; [exact H|].
  rewrite <- (rev_involutive (o ++ [j])). apply NoDup_rev. rewrite rev_app_distr. cbn.
  constructor; [|apply NoDup_rev; exact H]. rewrite <- in_rev. exact I.
Qed.

Lemma unique_delete : forall o j, NoDup o -> NoDup (delete_ident o j).
Proof. intros. apply NoDup_filter. assumption. Qed.

Lemma unique_set_all : forall l i d, unique_idents l -> unique_idents (set_all_data l i d).
Proof. unfold unique_idents. intros. rewrite idents_set_all. apply unique_insert. assumption. Qed.
Lemma unique_set : forall l i d, unique_idents l -> unique_idents (set_data l i d).
Proof. intros. rewrite set_data_all. apply unique_set_all. assumption. Qed.
Lemma unique_add_all : forall l i d, unique_idents l -> unique_idents (add_all_data l i d).
Proof. unfold unique_idents. intros. rewrite idents_add_all. apply unique_insert. assumption. Qed.
Lemma unique_add : forall l i d, unique_idents l -> unique_idents (add_data l i d).
Proof. intros. rewrite add_data_all. apply unique_add_all. assumption. Qed.
Lemma unique_remove : forall l i, unique_idents l -> unique_idents (remove_data_of l i).
Proof. unfold unique_idents. intros. rewrite idents_remove. apply unique_delete. assumption. Qed.
Lemma unique_take : forall l i, unique_idents l -> unique_idents (snd (take_data_of l i)).
Proof. intros. rewrite take_remove by assumption. apply unique_remove. assumption. Qed.
Lemma unique_retain_of : forall l i p, unique_idents l -> unique_idents (retain_data_of l i p).
Proof.
  intros l i p U. unfold unique_idents. destruct (retain_of_view l i p U) as [E _].
  cbn in E. rewrite E. unfold view_retain. destruct (filter _ _); cbn; [apply unique_delete|]; exact U.
Qed.
Lemma unique_retain : forall l p, unique_idents l -> unique_idents (retain_data l p).
Proof.
  intros l p U. rewrite retain_data_filter. unfold unique_idents. destruct (retained_view l p U) as [E _].
  cbn in E. rewrite E. apply NoDup_filter. exact U.
Qed.
Lemma unique_mut_of : forall g l i, unique_idents l -> unique_idents (data_mut_of g l i).
Proof. unfold unique_idents. intros. rewrite idents_mut_of. assumption. Qed.
Lemma unique_data_mut : forall g l, unique_idents l -> unique_idents (data_mut g l).
Proof. unfold unique_idents. intros. rewrite idents_data_mut. assumption. Qed.

Lemma snd_take_bytes : forall l i, snd (take_bytes_of l i) = snd (take_data_of l i).
Proof. intros. unfold take_bytes_of. destruct (take_data_of l i). reflexivity. Qed.
Lemma snd_take_strings : forall l i, snd (take_strings_of l i) = snd (take_data_of l i).
Proof. intros. unfold take_strings_of. destruct (take_data_of l i). reflexivity. Qed.
Lemma snd_take_images : forall l i, snd (take_images_of l i) = snd (take_data_of l i).
Proof. intros. unfold take_images_of. destruct (take_data_of l i). reflexivity. Qed.
Lemma snd_take_string : forall l i, snd (take_string i l) = snd (take_data_of l i).
Proof. intros. unfold take_string, take_strings_of. destruct (take_data_of l i). reflexivity. Qed.
Lemma fst_take_bytes : forall l i, fst (take_bytes_of l i) = filter_map data_bytes (values l (named i)).
Proof. intros. rewrite <- take_fst. unfold take_bytes_of. destruct (take_data_of l i). reflexivity. Qed.
Lemma fst_take_strings : forall l i, fst (take_strings_of l i) = filter_map data_string (values l (named i)).
Proof. intros. rewrite <- take_fst. unfold take_strings_of. destruct (take_data_of l i). reflexivity. Qed.
Lemma fst_take_images : forall l i, fst (take_images_of l i) = filter_map data_image (values l (named i)).
Proof. intros. rewrite <- take_fst. unfold take_images_of. destruct (take_data_of l i). reflexivity. Qed.

Lemma unique_run_op : forall l o, unique_idents l -> unique_idents (run_op l o).
Proof.
  intros l o U. destruct o; cbn [run_op];
    unfold set_genre, set_genres, add_genre, remove_genres;
    unfold remove_bytes_of, remove_strings_of, remove_images_of, retain_bytes_of, retain_strings_of,
      retain_images_of, retain_bytes, retain_strings, retain_images, set_string, remove_item, set_strings,
      add_strings, add_string, take_all_strings, set_flag, set_int, take_artworks, set_artwork, set_artworks,
      add_artwork, add_artworks, remove_artworks, set_media_type, remove_media_type, set_advisory_rating,
      remove_advisory_rating, remove_pair, set_standard_genre, set_standard_genres, add_standard_genre,
      add_standard_genres, remove_standard_genres, clear;
    try (rewrite ?snd_take_bytes, ?snd_take_strings, ?snd_take_images, ?snd_take_string;
         auto using unique_set, unique_set_all, unique_add, unique_add_all, unique_remove, unique_take,
           unique_retain_of, unique_retain, unique_mut_of, unique_data_mut; fail).
  - constructor.
  - unfold take_artwork, take_images_of. pose proof (unique_take l (AFourcc ARTWORK) U).
    destruct (take_data_of l (AFourcc ARTWORK)). exact H.
  - unfold set_pair, set_new_pair, mut_first_bytes. destruct (first _); auto using unique_mut_of, unique_set.
  - unfold set_pair_number, set_new_pair, mut_first_bytes. destruct (first _); auto using unique_mut_of, unique_set.
  - unfold set_pair_total, set_new_pair, mut_first_bytes. destruct (first _); auto using unique_mut_of, unique_set.
  - unfold remove_pair_number, remove_pair, mut_first_bytes.
    destruct (first _); [destruct (negb _)|]; auto using unique_mut_of, unique_remove.
  - unfold remove_pair_total, remove_pair, mut_first_bytes.
    destruct (first _); [destruct (negb _)|]; auto using unique_mut_of, unique_remove.
  - unfold take_genres, take_all_strings. pose proof (unique_take l (AFourcc CUSTOM_GENRE) U).
    unfold take_strings_of. destruct (take_data_of l (AFourcc CUSTOM_GENRE)). exact H.
  - unfold take_genre. destruct (obind_opt _ _); [exact U|]. rewrite snd_take_string. apply unique_take, U.
Qed.

Lemma unique_run_ops : forall o l, unique_idents l -> unique_idents (run_ops l o).
Proof.
  induction o as [|x o IH]; intros l U; [exact U|]. apply IH, unique_run_op, U.
Qed.
