(** Tags that can be stored: those read from files, and what careful operations make of them. *)

From Coq Require Import List NArith ZArith Bool Lia Arith String.
From Verif Require Import Base BaseLemmas Utf Types TagApi TagOps TagSpec TagLemmas FileSpec ReadSpec ParseLemmas ReadProofs ReadFacts
  WriteBytes StoreSpec.
Import ListNotations.
Local Open Scope list_scope.

Definition item_ok (i : atom_data) : Prop := storable_ident (ad_ident i) /\ ad_data i <> [] /\ Forall storable_data (ad_data i).
Lemma storable_items : forall l, storable l <-> unique_idents l /\ Forall item_ok l.
Proof. intro l. reflexivity. Qed.

Lemma ok_set_all : forall i d l, storable_ident (named i) -> d <> [] -> Forall storable_data d -> Forall item_ok l -> Forall item_ok (set_all_data l i d).
Proof.
  intros i d l I N F. induction l as [|a r IH]; intro H; cbn [set_all_data].
  - constructor; [|constructor]. rewrite arg_into_named. split; [exact I|split; assumption].
  - inversion H; subst. destruct (arg_eqb i (ad_ident a)).
    + constructor; [|assumption]. split; [apply H2|split; assumption].
    + constructor; [assumption|apply IH; assumption].
Qed.
Lemma ok_set : forall i d l, storable_ident (named i) -> storable_data d -> Forall item_ok l -> Forall item_ok (set_data l i d).
Proof. intros i d l I F H. rewrite set_data_all. apply ok_set_all; auto. discriminate. Qed.
Lemma ok_add_all : forall i d l, storable_ident (named i) -> d <> [] -> Forall storable_data d -> Forall item_ok l -> Forall item_ok (add_all_data l i d).
Proof.
  intros i d l I N F. induction l as [|a r IH]; intro H; cbn [add_all_data].
  - constructor; [|constructor]. rewrite arg_into_named. split; [exact I|split; assumption].
  - inversion H; subst. destruct (arg_eqb i (ad_ident a)).
    + constructor; [|assumption]. destruct H2 as (A & B & C). split; [exact A|]. cbn [ad_data]. split; [|apply Forall_app; split; assumption].
      intro E. apply app_eq_nil in E. apply B, E.
    + constructor; [assumption|apply IH; assumption].
Qed.
Lemma ok_add : forall i d l, storable_ident (named i) -> storable_data d -> Forall item_ok l -> Forall item_ok (add_data l i d).
Proof. intros i d l I F H. rewrite add_data_all. apply ok_add_all; auto. discriminate. Qed.
Lemma ok_remove : forall i l, Forall item_ok l -> Forall item_ok (remove_data_of l i).
Proof. intros i l H. unfold remove_data_of. rewrite Forall_forall in *. intros x J. apply filter_In in J. apply H, J. Qed.
Lemma ok_take : forall i l, Forall item_ok l -> Forall item_ok (snd (take_data_of l i)).
Proof.
  intros i. induction l as [|a r IH]; intro H; [constructor|]. inversion H; subst. cbn [take_data_of].
  destruct (arg_eqb i (ad_ident a)); [assumption|]. destruct (take_data_of r i) as [d r']. cbn [snd] in *. constructor; [assumption|apply IH; assumption].
Qed.
Lemma ok_filter : forall (p : data -> bool) l, Forall storable_data l -> Forall storable_data (filter p l).
Proof. intros p l H. rewrite Forall_forall in *. intros x J. apply filter_In in J. apply H, J. Qed.
Lemma ok_retain : forall p l, Forall item_ok l -> Forall item_ok (retain_data l p).
Proof.
  intros p l H. rewrite retain_data_filter. unfold retained. rewrite Forall_forall in *. intros x J. apply filter_In in J. destruct J as [J K].
  apply in_map_iff in J. destruct J as (a & <- & J). destruct (H a J) as (A & _ & C). cbn [ad_data] in K. split; [exact A|]. cbn [ad_data].
  split; [intro E; rewrite E in K; discriminate K|apply ok_filter, C].
Qed.
Lemma ok_retain_of : forall i p l, Forall item_ok l -> Forall item_ok (retain_data_of l i p).
Proof.
  intros i p. induction l as [|a r IH]; intro H; [constructor|]. inversion H; subst. cbn [retain_data_of].
  destruct (arg_eqb i (ad_ident a)); [|constructor; [assumption|apply IH; assumption]].
  destruct H2 as (A & _ & C). pose proof (ok_filter p _ C) as F. destruct (filter p (ad_data a)); [assumption|].
  constructor; [|assumption]. split; [exact A|split; [discriminate|exact F]].
Qed.
Lemma ok_mut_of : forall g i l, (forall d, d <> [] -> Forall storable_data d -> g d <> [] /\ Forall storable_data (g d)) ->
  Forall item_ok l -> Forall item_ok (data_mut_of g l i).
Proof.
  intros g i l G. induction l as [|a r IH]; intro H; [constructor|]. inversion H; subst. cbn [data_mut_of].
  destruct (arg_eqb i (ad_ident a)); [|constructor; [assumption|apply IH; assumption]].
  constructor; [|assumption]. destruct H2 as (A & B & C). split; [exact A|apply G; assumption].
Qed.
Lemma ok_map_from : forall g l k, storable_change g -> Forall storable_data l -> Forall storable_data (map_from k g l).
Proof. intros g. induction l as [|d l IH]; intros k G H; [constructor|]. inversion H; subst. cbn [map_from]. constructor; [apply G; assumption|apply IH; assumption]. Qed.
Lemma ok_mapi : forall g, storable_change g -> forall d, d <> [] -> Forall storable_data d -> mapi g d <> [] /\ Forall storable_data (mapi g d).
Proof. intros g G d N F. split; [destruct d; [contradiction|discriminate]|apply ok_map_from; assumption]. Qed.
Lemma ok_data_mut : forall g l, (forall j, storable_change (g j)) -> Forall item_ok l -> Forall item_ok (data_mut g l).
Proof.
  intros g l G H. unfold data_mut. rewrite Forall_forall in *. intros x J. apply in_map_iff in J. destruct J as (a & <- & J).
  destruct (H a J) as (A & B & C). split; [exact A|]. cbn [ad_data ad_ident]. apply ok_mapi; auto.
Qed.
Lemma change_bytes : forall g, storable_change (fun k => on_bytes (g k)).
Proof. intros g k [v|s|s|v|v|v|v] H; exact H. Qed.
Lemma change_image : forall g, storable_change (fun k => on_image (g k)).
Proof. intros g k [v|s|s|v|v|v|v] H; exact H. Qed.
Lemma change_first : forall g d, d <> [] -> Forall storable_data d -> map_first_bytes g d <> [] /\ Forall storable_data (map_first_bytes g d).
Proof.
  intros g d N F. split; [destruct d as [|x r]; [contradiction|]; cbn [map_first_bytes]; destruct (data_bytes x); discriminate|].
  clear N. induction F as [|x r A F IH]; [constructor|]. cbn [map_first_bytes]. destruct x; cbn [data_bytes data_set_bytes]; constructor; assumption.
Qed.
Lemma ok_strings : forall s, Forall (fun x => wf_ustr x = true) s -> Forall storable_data (map DUtf8 s).
Proof. intros s H. induction H as [|x r A _ IH]; [constructor|]. cbn [map]. constructor; [split; [exact A|exact I]|exact IH]. Qed.
Lemma ok_images : forall x, Forall storable_data (map data_of_img x).
Proof. induction x as [|[[] b] x IH]; cbn [map]; constructor; try exact IH; split; exact I. Qed.
Lemma ok_codes : forall c, Forall storable_data (map (fun x => DReserved (be16 x)) c).
Proof. induction c as [|x c IH]; cbn [map]; constructor; try exact IH; split; exact I. Qed.
Lemma ok_img : forall x, storable_data (data_of_img x).
Proof. intros [[] b]; split; exact I. Qed.
Lemma map_some : forall {A B} (g : A -> B) l, l <> [] -> map g l <> [].
Proof. intros A B g [|x l] H; [contradiction|discriminate]. Qed.

Lemma ok_fourcc : forall x, x <> id4 "free" -> storable_ident (named (AFourcc x)).
Proof. intros x H. exact H. Qed.
Ltac other_id := apply ok_fourcc; discriminate.
Lemma ok_take_genres : forall l, Forall item_ok l -> Forall item_ok (snd (take_genres l)).
Proof.
  intros l H. unfold take_genres, take_all_strings, take_strings_of. pose proof (ok_take (AFourcc CUSTOM_GENRE) l H) as X.
  destruct (take_data_of l (AFourcc CUSTOM_GENRE)). exact X.
Qed.

Theorem storable_run_op : forall o l, storable l -> careful o -> storable (run_op l o).
Proof.
  intros o l S C. destruct S as [U H]. change (Forall item_ok l) in H. apply storable_items. split; [apply unique_run_op, U|].
  destruct o; cbn [run_op careful] in *;
    unfold set_genre, set_genres, add_genre, remove_genres;
    unfold remove_bytes_of, remove_strings_of, remove_images_of, retain_bytes_of, retain_strings_of,
      retain_images_of, retain_bytes, retain_strings, retain_images, set_string, remove_item, set_strings,
      add_strings, add_string, take_all_strings, set_flag, set_int, take_artworks, set_artwork, set_artworks,
      add_artwork, add_artworks, remove_artworks, set_media_type, remove_media_type, set_advisory_rating,
      remove_advisory_rating, remove_pair, set_standard_genre, set_standard_genres, add_standard_genre,
      add_standard_genres, remove_standard_genres, clear;
    rewrite ?snd_take_bytes, ?snd_take_strings, ?snd_take_images, ?snd_take_string;
    try (auto using ok_remove, ok_take, ok_retain_of, ok_retain, ok_img; fail);
    try (match type of C with
         | storable_target _ /\ storable_data _ => apply ok_set || apply ok_add; [apply C|apply C|exact H]
         | storable_target _ /\ storable_values _ => apply ok_set_all || apply ok_add_all; [apply C|apply C|apply C|exact H]
         | storable_target _ /\ storable_strings _ => apply ok_set_all || apply ok_add_all; [apply C|apply map_some, C|apply ok_strings, C|exact H]
         | storable_target _ /\ _ => apply ok_set || apply ok_add; [apply C|split; [apply C|exact I]|exact H]
         end);
    try (apply ok_set; [exact C|split; exact I|exact H]);
    try (apply ok_set || apply ok_add; [other_id|split; exact I|exact H]);
    try (apply ok_set || apply ok_add; [other_id|apply ok_img|exact H]);
    try (apply ok_set_all || apply ok_add_all; [other_id|apply map_some, C|apply ok_images || apply ok_codes|exact H]);
    try (apply ok_mut_of; [apply ok_mapi; auto using change_bytes, change_image|exact H]);
    try (apply ok_data_mut; [intro j; auto using change_bytes, change_image|exact H]).
  - unfold take_artwork, take_images_of. pose proof (ok_take (AFourcc ARTWORK) l H) as X. destruct (take_data_of l (AFourcc ARTWORK)). exact X.
  - unfold set_pair, set_new_pair, mut_first_bytes. destruct (first _); [apply ok_mut_of; [apply change_first|exact H]|].
    apply ok_set; [destruct disc; discriminate|split; exact I|exact H].
  - unfold set_pair_number, set_new_pair, mut_first_bytes. destruct (first _); [apply ok_mut_of; [apply change_first|exact H]|].
    apply ok_set; [destruct disc; discriminate|split; exact I|exact H].
  - unfold set_pair_total, set_new_pair, mut_first_bytes. destruct (first _); [apply ok_mut_of; [apply change_first|exact H]|].
    apply ok_set; [destruct disc; discriminate|split; exact I|exact H].
  - unfold remove_pair_number, remove_pair, mut_first_bytes.
    destruct (first _); [destruct (negb _)|]; auto using ok_remove. apply ok_mut_of; [apply change_first|exact H].
  - unfold remove_pair_total, remove_pair, mut_first_bytes.
    destruct (first _); [destruct (negb _)|]; auto using ok_remove. apply ok_mut_of; [apply change_first|exact H].
  - apply ok_take_genres, H.
  - unfold take_genre. destruct (obind_opt _ _); [exact H|]. rewrite snd_take_string. apply ok_take, H.
  - apply ok_remove, ok_set; [discriminate|split; [exact C|exact I]|exact H].
  - destruct C as [C1 C2]. apply ok_remove, ok_set_all; [discriminate|apply map_some, C1|apply ok_strings, C2|exact H].
  - apply ok_add; [discriminate|split; [exact C|exact I]|exact H].
Qed.
Theorem storable_run_ops : forall o l, storable l -> Forall careful o -> storable (run_ops l o).
Proof.
  induction o as [|x o IH]; intros l S C; [exact S|]. inversion C; subst. apply IH; [apply storable_run_op; assumption|assumption].
Qed.

(** * Tags read from files *)

Lemma first_occ_in : forall j l, In j (first_occurrences l) -> In j l.
Proof.
  intros j. induction l as [|x l IH]; [auto|]. cbn [first_occurrences]. intros [->|H]; [left; reflexivity|]. apply filter_In in H. right. apply IH, H.
Qed.
Lemma values_at : forall l a, unique_idents l -> In a l -> values l (ad_ident a) = ad_data a.
Proof.
  induction l as [|x l IH]; intros a U H; [destruct H|]. destruct H as [->|H]; cbn [values].
  - destruct (ident_dec (ad_ident a) (ad_ident a)); [reflexivity|contradiction].
  - inversion U; subst. destruct (ident_dec (ad_ident x) (ad_ident a)) as [E|]; [|apply IH; assumption].
    exfalso. apply H2. rewrite E. apply in_map, H.
Qed.
Lemma last_in : forall {A} (l : list A) x, last_opt l = Some x -> In x l.
Proof.
  intros A. induction l as [|y l IH]; intros x E; [discriminate E|]. rewrite last_opt_cons in E. destruct (last_opt l); [right; apply IH, E|left; congruence].
Qed.
Lemma forall2_right : forall {A B} (P : A -> B -> Prop) (Q : B -> Prop) l r, Forall2 P l r -> (forall a b, P a b -> Q b) -> Forall Q r.
Proof. intros A B P Q l r H K. induction H; constructor; eauto. Qed.

Lemma item_means_ok : forall a i, a_id a <> id4 "free" -> item_means a i ->
  storable_ident (ad_ident i) /\ ad_data i <> [] /\ Forall good_data (ad_data i).
Proof.
  intros a i N (_ & ds & ms & ns & D & M & Na & Ne & ->). cbn [ad_ident ad_data]. split; [|split; [exact Ne|eapply forall2_right; [exact D|intros ? ? X; apply X]]].
  unfold item_name. destruct (last_opt ms) as [x|] eqn:E1; [|exact N]. destruct (last_opt ns) as [y|] eqn:E2; [|exact N].
  destruct (fourcc_dec (a_id a) (id4 "----")); [|exact N].
  assert (Fm : Forall (fun s => wf_ustr s = true) ms) by (eapply forall2_right; [exact M|intros ? ? X; apply X]).
  assert (Fn : Forall (fun s => wf_ustr s = true) ns) by (eapply forall2_right; [exact Na|intros ? ? X; apply X]).
  rewrite Forall_forall in Fm, Fn. split; [apply Fm, last_in, E1|apply Fn, last_in, E2].
Qed.

(** What is read from a file can be stored, except UTF-16 text. *)
Theorem read_storable : forall f t, describes f t -> no_utf16 (tg_atoms t) -> storable (tg_atoms t).
Proof.
  intros f t D N16. pose proof (item_list_means f t D) as H. destruct (item_list f) as [il|].
  2: { rewrite H. split; constructor. }
  destruct H as (_ & l & F & M). pose proof (merged_unique _ _ M) as U. split; [exact U|].
  assert (P : Forall (fun i => storable_ident (ad_ident i) /\ ad_data i <> [] /\ Forall good_data (ad_data i)) l).
  { assert (Fr : Forall (fun k => a_id k <> id4 "free") (filter (fun k => negb (is_named (id4 "free") k)) (a_kids il))).
    { apply Forall_forall. intros k J. apply filter_In in J. destruct J as [_ J]. intro E. apply is_named_eq in E. rewrite E in J. discriminate J. }
    revert Fr F. generalize (filter (fun k => negb (is_named (id4 "free") k)) (a_kids il)). intros ks Fr F. clear - Fr F.
    induction F as [|k i ks l A F IH]; [constructor|]. inversion Fr; subst. constructor; [eapply item_means_ok; eassumption|apply IH; assumption]. }
  destruct M as [Mi Mv]. rewrite Forall_forall in P. unfold no_utf16 in N16. rewrite Forall_forall in *. intros a J.
  assert (Ji : In (ad_ident a) (idents l)). { apply first_occ_in. rewrite <- Mi. apply in_map, J. }
  apply in_map_iff in Ji. destruct Ji as (i & Ei & Ji). destruct (P i Ji) as (A & B & C).
  pose proof (values_at _ a U J) as V. rewrite Mv in V. split; [rewrite <- Ei; exact A|]. split.
  - rewrite <- V. unfold all_values. intro E. apply B. destruct (ad_data i) as [|d ds] eqn:Ed; [reflexivity|]. exfalso.
    assert (X : In d (flat_map ad_data (filter (fun a0 => if ident_dec (ad_ident a0) (ad_ident a) then true else false) l))).
    { apply in_flat_map. exists i. split; [|rewrite Ed; left; reflexivity]. apply filter_In. split; [exact Ji|]. rewrite Ei.
      destruct (ident_dec (ad_ident a) (ad_ident a)); [reflexivity|contradiction]. }
    rewrite E in X. exact X.
  - specialize (N16 a J). rewrite Forall_forall in *. intros d Jd. split.
    + rewrite <- V in Jd. unfold all_values in Jd. apply in_flat_map in Jd. destruct Jd as (i' & Ji' & Jd). apply filter_In in Ji'. destruct Ji' as [Ji' _].
      destruct (P i' Ji') as (_ & _ & C'). rewrite Forall_forall in C'. apply C', Jd.
    + specialize (N16 d Jd). destruct d; try exact I. apply N16. reflexivity.
Qed.
