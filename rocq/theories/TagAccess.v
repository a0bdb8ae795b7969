(** Laws of the named accessors. *)

From Coq Require Import List NArith ZArith Bool Lia Arith.
From Coq Require Import ZifyBool ZifyNat ZifyN.
From Verif Require Import Base BaseLemmas Utf UtfLemmas Types TagApi TagOps TagSpec TagOpsSpec TagLemmas TagProofs.
Import ListNotations.

Ltac Zify.zify_post_hook ::= Z.div_mod_to_equations.

Lemma bytes_of_values : forall l i, bytes_of l i = filter_map data_bytes (values l (named i)).
Proof. intros. unfold bytes_of. rewrite data_of_values. reflexivity. Qed.
Lemma strings_of_values : forall l i, strings_of l i = filter_map data_string (values l (named i)).
Proof. intros. unfold strings_of. rewrite data_of_values. reflexivity. Qed.
Lemma images_of_values : forall l i, images_of l i = filter_map data_image (values l (named i)).
Proof. intros. unfold images_of. rewrite data_of_values. reflexivity. Qed.

Lemma filter_map_app : forall {A B} (g : A -> option B) a b,
  filter_map g (a ++ b) = filter_map g a ++ filter_map g b.
Proof.
  intros. induction a as [|x a IH]; [reflexivity|]. cbn. destruct (g x); cbn; rewrite IH; reflexivity.
Qed.

Lemma filter_map_map : forall {A B C} (g : B -> option C) (h : A -> B) l,
  filter_map g (map h l) = filter_map (fun x => g (h x)) l.
Proof. intros. induction l as [|x l IH]; [reflexivity|]. cbn. destruct (g (h x)); rewrite IH; reflexivity. Qed.

Lemma filter_map_id : forall {A} (g : A -> option A) l, (forall x, g x = Some x) -> filter_map g l = l.
Proof. intros A g l H. induction l as [|x l IH]; [reflexivity|]. cbn. rewrite H, IH. reflexivity. Qed.

Lemma filter_map_ext : forall {A B} (g h : A -> option B) l, (forall x, g x = h x) -> filter_map g l = filter_map h l.
Proof. intros A B g h l H. induction l as [|x l IH]; [reflexivity|]. cbn. rewrite H, IH. reflexivity. Qed.

Lemma values_set : forall l i d j, values (set_data l i d) j = if ident_dec (named i) j then [d] else values l j.
Proof. intros. rewrite set_data_all. apply values_set_all. Qed.
Lemma values_add : forall l i d j,
  values (add_data l i d) j = if ident_dec (named i) j then values l j ++ [d] else values l j.
Proof. intros. rewrite add_data_all. apply values_add_all. Qed.

Lemma values_set_same : forall l i d, values (set_data l i d) (named i) = [d].
Proof. intros. rewrite values_set. apply ident_dec_refl. Qed.
Lemma values_set_all_same : forall l i d, values (set_all_data l i d) (named i) = d.
Proof. intros. rewrite values_set_all. apply ident_dec_refl. Qed.
Lemma values_add_same : forall l i d, values (add_data l i d) (named i) = values l (named i) ++ [d].
Proof. intros. rewrite values_add. apply ident_dec_refl. Qed.
Lemma values_add_all_same : forall l i d, values (add_all_data l i d) (named i) = values l (named i) ++ d.
Proof. intros. rewrite values_add_all. apply ident_dec_refl. Qed.
Lemma values_remove_same : forall l i, values (remove_data_of l i) (named i) = [].
Proof. intros. rewrite values_remove. apply ident_dec_refl. Qed.
Lemma values_take_same : forall l i, unique_idents l -> values (snd (take_data_of l i)) (named i) = [].
Proof. intros. rewrite take_remove by assumption. apply values_remove_same. Qed.

(** * Strings *)

Lemma strings_utf8 : forall s, filter_map data_string (map DUtf8 s) = s.
Proof. intros. rewrite filter_map_map. apply filter_map_id. reflexivity. Qed.

Lemma get_set_string : forall i l s, get_string i (set_string i l s) = Some s.
Proof. intros. unfold get_string, set_string. rewrite strings_of_values, values_set_same. reflexivity. Qed.

Lemma take_set_string : forall i l s, fst (take_string i (set_string i l s)) = Some s.
Proof.
  intros. unfold take_string, set_string.
  pose proof (fst_take_strings (set_data l i (DUtf8 s)) i) as E.
  destruct (take_strings_of _ _) as [x r]. cbn in E |- *. rewrite E, values_set_same. reflexivity.
Qed.

Lemma take_string_get : forall i l, fst (take_string i l) = get_string i l.
Proof.
  intros. unfold take_string, get_string. rewrite strings_of_values, <- fst_take_strings.
  destruct (take_strings_of l i). reflexivity.
Qed.

Lemma get_after_take : forall i l, unique_idents l -> get_string i (snd (take_string i l)) = None.
Proof.
  intros. rewrite snd_take_string. unfold get_string.
  rewrite strings_of_values, values_take_same by assumption. reflexivity.
Qed.

Lemma get_after_remove : forall i l, get_string i (remove_item i l) = None.
Proof.
  intros. unfold get_string, remove_item. rewrite strings_of_values, values_remove_same. reflexivity.
Qed.

Lemma gets_set_strings : forall i l s, get_strings i (set_strings i l s) = s.
Proof.
  intros. unfold get_strings, set_strings. rewrite strings_of_values, values_set_all_same. apply strings_utf8.
Qed.
Lemma gets_add_strings : forall i l s, get_strings i (add_strings i l s) = get_strings i l ++ s.
Proof.
  intros. unfold get_strings, add_strings. rewrite !strings_of_values, values_add_all_same, filter_map_app, strings_utf8.
  reflexivity.
Qed.
Lemma gets_add_string : forall i l s, get_strings i (add_string i l s) = get_strings i l ++ [s].
Proof.
  intros. unfold get_strings, add_string. rewrite !strings_of_values, values_add_same, filter_map_app. reflexivity.
Qed.
Lemma gets_set_string : forall i l s, get_strings i (set_string i l s) = [s].
Proof. intros. unfold get_strings, set_string. rewrite strings_of_values, values_set_same. reflexivity. Qed.
Lemma gets_take : forall i l, fst (take_all_strings i l) = get_strings i l.
Proof. intros. unfold take_all_strings, get_strings. rewrite fst_take_strings, strings_of_values. reflexivity. Qed.
Lemma gets_after_take : forall i l, unique_idents l -> get_strings i (snd (take_all_strings i l)) = [].
Proof.
  intros. unfold take_all_strings, get_strings.
  rewrite snd_take_strings, strings_of_values, values_take_same by assumption. reflexivity.
Qed.
Lemma gets_after_remove : forall i l, get_strings i (remove_item i l) = [].
Proof. intros. unfold get_strings, remove_item. rewrite strings_of_values, values_remove_same. reflexivity. Qed.

(** * Flags and integers *)

Lemma flag_set : forall i l, get_flag i (set_flag i l) = true.
Proof. intros. unfold get_flag, set_flag. rewrite bytes_of_values, values_set_same. reflexivity. Qed.
Lemma flag_remove : forall i l, get_flag i (remove_item i l) = false.
Proof. intros. unfold get_flag, remove_item. rewrite bytes_of_values, values_remove_same. reflexivity. Qed.
Lemma flag_absent : forall i l, ~ In (named i) (idents l) -> get_flag i l = false.
Proof. intros. unfold get_flag. rewrite bytes_of_values, values_absent by assumption. reflexivity. Qed.

Lemma be_int_be : forall k n, n < 256 ^ N.of_nat k -> be_int (be k n) 0 k = Some n.
Proof.
  intros k n H. unfold be_int. rewrite be_length, Nat.add_0_l, Nat.ltb_irrefl.
  cbn [skipn]. rewrite <- (be_length k n) at 1. rewrite firstn_all, unbe_be by assumption. reflexivity.
Qed.

Lemma int_set : forall k i l n, n < 256 ^ N.of_nat k -> get_int k i (set_int k i l n) = Some n.
Proof.
  intros. unfold get_int, set_int. rewrite bytes_of_values, values_set_same. cbn.
  apply be_int_be. assumption.
Qed.

Lemma int_spec : forall k i l,
  get_int k i l =
  match filter_map data_bytes (values l (named i)) with
  | [] => None
  | v :: _ => if (k <=? length v)%nat then Some (unbe (firstn k v)) else None
  end.
Proof.
  intros. unfold get_int. rewrite bytes_of_values.
  destruct (filter_map data_bytes (values l (named i))) as [|v r]; [reflexivity|]. cbn.
  unfold be_int. cbn [skipn]. rewrite Nat.add_0_l.
  destruct (length v <? k)%nat eqn:E.
  - apply Nat.ltb_lt in E. destruct (k <=? length v)%nat eqn:F; [|reflexivity].
    apply Nat.leb_le in F. lia.
  - apply Nat.ltb_ge in E. apply Nat.leb_le in E. rewrite E. reflexivity.
Qed.

(** * Track and disc *)

Lemma first_mut : forall (g : bytes -> bytes) d,
  filter_map data_bytes (map_first_bytes g d)
  = match filter_map data_bytes d with [] => [] | v :: r => g v :: r end.
Proof.
  intros g. induction d as [|x d IH]; [reflexivity|].
  cbn [map_first_bytes filter_map]. destruct x; cbn; try reflexivity; exact IH.
Qed.

Lemma bytes_of_mut : forall i l g,
  bytes_of (mut_first_bytes i l g) i
  = match bytes_of l i with [] => [] | v :: r => g v :: r end.
Proof.
  intros. unfold mut_first_bytes. rewrite !bytes_of_values, values_mut_of by reflexivity.
  rewrite ident_dec_refl. apply first_mut.
Qed.

Definition nz (n : N) : option N := if n =? 0 then None else Some n.

Lemma nonzero_some : forall n, nonzero (Some n) = nz n.
Proof. reflexivity. Qed.

Ltac six v :=
  destruct v as [|? [|? [|? [|? [|? [|? ?]]]]]].

Lemma unbe2 : forall n, n < 65536 -> unbe [n2b (n / 256 ^ N.of_nat 1); n2b (n / 256 ^ N.of_nat 0)] = n.
Proof. intros n H. change [_; _] with (be 2 n). apply unbe_be. exact H. Qed.

Lemma tnumber_set_number : forall v n, n < 65536 -> tnumber (tset_number v n) = nz n.
Proof.
  intros v n H. unfold tnumber, tset_number, set_be_int, be_int.
  six v; cbn -[unbe N.eqb]; rewrite ?unbe2 by assumption; reflexivity.
Qed.
Lemma ttotal_set_total : forall v n, n < 65536 -> ttotal (tset_total v n) = nz n.
Proof.
  intros v n H. unfold ttotal, tset_total, set_be_int, be_int.
  six v; cbn -[unbe N.eqb]; rewrite ?unbe2 by assumption; reflexivity.
Qed.
Lemma ttotal_set_number : forall v n, ttotal (tset_number v n) = ttotal v.
Proof.
  intros v n. unfold ttotal, tset_number, set_be_int, be_int. six v; reflexivity.
Qed.
Lemma tnumber_set_total : forall v n, length v <> 3%nat -> tnumber (tset_total v n) = tnumber v.
Proof.
  intros v n H. unfold tnumber, tset_total, set_be_int, be_int. six v; try reflexivity. exfalso. apply H. reflexivity.
Qed.
Lemma tail_set_number : forall v n, skipn 6 (tset_number v n) = skipn 6 v.
Proof. intros v n. unfold tset_number, set_be_int. six v; reflexivity. Qed.
Lemma tail_set_total : forall v n, skipn 6 (tset_total v n) = skipn 6 v.
Proof. intros v n. unfold tset_total, set_be_int. six v; reflexivity. Qed.
Lemma length_set_total : forall v n, (6 <= length (tset_total v n))%nat.
Proof.
  intros v n. unfold tset_total, set_be_int. six v; cbn -[Nat.le]; lia.
Qed.
Lemma tnew_number : forall n t, n < 65536 -> tnumber (tnew n t) = nz n.
Proof. intros. unfold tnumber, tnew, be_int. cbn -[unbe N.eqb]. rewrite unbe2 by assumption. reflexivity. Qed.
Lemma tnew_total : forall n t, t < 65536 -> ttotal (tnew n t) = nz t.
Proof. intros. unfold ttotal, tnew, be_int. cbn -[unbe N.eqb]. rewrite unbe2 by assumption. reflexivity. Qed.

Lemma get_pair_bytes : forall i l,
  get_pair i l = match bytes_of l i with [] => (None, None) | v :: _ => (tnumber v, ttotal v) end.
Proof. intros. unfold get_pair. destruct (bytes_of l i); reflexivity. Qed.

Lemma bytes_new_pair : forall i l n t, bytes_of (set_new_pair i l n t) i = [tnew n t].
Proof. intros. unfold set_new_pair. rewrite bytes_of_values, values_set_same. reflexivity. Qed.

Lemma pair_set : forall i l n t, n < 65536 -> t < 65536 -> get_pair i (set_pair i l n t) = (nz n, nz t).
Proof.
  intros i l n t Hn Ht. rewrite get_pair_bytes. unfold set_pair.
  destruct (bytes_of l i) as [|v r] eqn:E; cbn [first].
  - rewrite bytes_new_pair, tnew_number, tnew_total by assumption. reflexivity.
  - rewrite bytes_of_mut, E. rewrite tnumber_set_number, ttotal_set_number, ttotal_set_total by assumption.
    reflexivity.
Qed.

Lemma pair_set_number : forall i l n, n < 65536 ->
  get_pair i (set_pair_number i l n) = (nz n, snd (get_pair i l)).
Proof.
  intros i l n Hn. rewrite !get_pair_bytes. unfold set_pair_number.
  destruct (bytes_of l i) as [|v r] eqn:E; cbn [first].
  - rewrite bytes_new_pair, tnew_number, tnew_total by (assumption || reflexivity). reflexivity.
  - rewrite bytes_of_mut, E. rewrite tnumber_set_number, ttotal_set_number by assumption. reflexivity.
Qed.

Definition stored_not_3 (i : ident_arg) (l : atoms) : Prop :=
  forall v, first (bytes_of l i) = Some v -> length v <> 3%nat.

Lemma pair_set_total : forall i l t, t < 65536 -> stored_not_3 i l ->
  get_pair i (set_pair_total i l t) = (fst (get_pair i l), nz t).
Proof.
  intros i l t Ht H3. rewrite !get_pair_bytes. unfold set_pair_total. unfold stored_not_3 in H3.
  destruct (bytes_of l i) as [|v r] eqn:E; cbn [first] in *.
  - rewrite bytes_new_pair, tnew_number, tnew_total by (assumption || reflexivity). reflexivity.
  - rewrite bytes_of_mut, E. rewrite tnumber_set_total, ttotal_set_total by auto. reflexivity.
Qed.

Lemma nonzero_not_0 : forall o, onat_eqb (nonzero o) (Some 0) = false.
Proof.
  intros [n|]; [|reflexivity]. cbn. destruct (n =? 0) eqn:E; [reflexivity|]. cbn. exact E.
Qed.

Lemma remove_pair_number_eq : forall i l,
  remove_pair_number i l = match bytes_of l i with [] => remove_data_of l i
                                             | _ => mut_first_bytes i l (fun v => tset_number v 0) end.
Proof.
  intros. unfold remove_pair_number. destruct (bytes_of l i) as [|v r]; [reflexivity|]. cbn [first].
  unfold ttotal. rewrite nonzero_not_0. reflexivity.
Qed.
Lemma remove_pair_total_eq : forall i l,
  remove_pair_total i l = match bytes_of l i with [] => remove_data_of l i
                                            | _ => mut_first_bytes i l (fun v => tset_total v 0) end.
Proof.
  intros. unfold remove_pair_total. destruct (bytes_of l i) as [|v r]; [reflexivity|]. cbn [first].
  unfold tnumber. rewrite nonzero_not_0. reflexivity.
Qed.

Lemma bytes_remove : forall i l, bytes_of (remove_data_of l i) i = [].
Proof. intros. rewrite bytes_of_values, values_remove_same. reflexivity. Qed.

Lemma pair_remove_number : forall i l, get_pair i (remove_pair_number i l) = (None, snd (get_pair i l)).
Proof.
  intros. rewrite !get_pair_bytes, remove_pair_number_eq.
  destruct (bytes_of l i) as [|v r] eqn:E.
  - rewrite bytes_remove. reflexivity.
  - rewrite bytes_of_mut, E, tnumber_set_number, ttotal_set_number by reflexivity. reflexivity.
Qed.
Lemma pair_remove_total : forall i l, stored_not_3 i l ->
  get_pair i (remove_pair_total i l) = (fst (get_pair i l), None).
Proof.
  intros i l H3. rewrite !get_pair_bytes, remove_pair_total_eq. unfold stored_not_3 in H3.
  destruct (bytes_of l i) as [|v r] eqn:E.
  - rewrite bytes_remove. reflexivity.
  - rewrite bytes_of_mut, E, ttotal_set_total, tnumber_set_total by (reflexivity || auto). reflexivity.
Qed.
Lemma pair_remove : forall i l, get_pair i (remove_pair i l) = (None, None).
Proof. intros. rewrite get_pair_bytes. unfold remove_pair. rewrite bytes_remove. reflexivity. Qed.

Lemma get_number_pair : forall i l, get_number i l = fst (get_pair i l).
Proof. intros. unfold get_number, get_pair. destruct (first _); reflexivity. Qed.
Lemma get_total_pair : forall i l, get_total i l = snd (get_pair i l).
Proof. intros. unfold get_total, get_pair. destruct (first _); reflexivity. Qed.

(** * Genres *)

Lemma standard_genre_name_spec : forall c,
  standard_genre_name c = if c =? 0 then None else nth_error STANDARD_GENRES (N.to_nat (c - 1)).
Proof.
  intros c. unfold standard_genre_name. change (blen STANDARD_GENRES) with 80.
  destruct (c =? 0) eqn:E.
  - apply N.eqb_eq in E. subst. reflexivity.
  - destruct ((0 <? c) && (c <=? 80)) eqn:F; [reflexivity|].
    symmetry. apply nth_error_None. change (length STANDARD_GENRES) with 80%nat. lia.
Qed.

Lemma standard_genre_known : forall c, (exists s, standard_genre_name c = Some s) <-> 1 <= c <= 80.
Proof.
  intros c. rewrite standard_genre_name_spec. destruct (c =? 0) eqn:E.
  - split; [intros [s H]; discriminate|lia].
  - split.
    + intros [s H]. assert (nth_error STANDARD_GENRES (N.to_nat (c - 1)) <> None) by congruence.
      apply nth_error_Some in H0. change (length STANDARD_GENRES) with 80%nat in H0. lia.
    + intros H. destruct (nth_error STANDARD_GENRES (N.to_nat (c - 1))) eqn:F; [eauto|].
      apply nth_error_None in F. change (length STANDARD_GENRES) with 80%nat in F. lia.
Qed.

Lemma named_gnre_gen : named (AFourcc STANDARD_GENRE) <> named (AFourcc CUSTOM_GENRE).
Proof. cbn. discriminate. Qed.

Lemma genres_set_genre : forall l g, genres (set_genre l g) = [g].
Proof.
  intros. unfold genres, set_genre, remove_standard_genres, set_string, custom_genres, get_strings, standard_genres.
  rewrite strings_of_values, bytes_of_values, values_remove_same, frame_remove by apply named_gnre_gen.
  rewrite values_set_same. reflexivity.
Qed.

Lemma genres_set_genres : forall l g, genres (set_genres l g) = g.
Proof.
  intros. unfold genres, set_genres, remove_standard_genres, set_strings, custom_genres, get_strings, standard_genres.
  rewrite strings_of_values, bytes_of_values, values_remove_same, frame_remove by apply named_gnre_gen.
  rewrite values_set_all_same. apply strings_utf8.
Qed.

Lemma genres_add_genre : forall l g, genres (add_genre l g) = genres l ++ [g].
Proof.
  intros. unfold genres, add_genre, custom_genres, standard_genres. rewrite gets_add_string.
  rewrite app_assoc. f_equal. f_equal. f_equal. f_equal. unfold add_string.
  rewrite !bytes_of_values. rewrite frame_add; [reflexivity|]. intros H. symmetry in H. exact (named_gnre_gen H).
Qed.

Lemma genres_remove : forall l, genres (remove_genres l) = [].
Proof.
  intros. unfold genres, remove_genres, remove_standard_genres, custom_genres, get_strings, standard_genres.
  rewrite strings_of_values, bytes_of_values, values_remove_same.
  rewrite frame_remove by (intros H; symmetry in H; exact (named_gnre_gen H)).
  rewrite values_remove_same. reflexivity.
Qed.

Lemma codes_of_set : forall l c, c < 65536 -> standard_genres (set_standard_genre l c) = [c].
Proof.
  intros. unfold standard_genres, set_standard_genre. rewrite bytes_of_values, values_set_same.
  cbn -[unbe]. rewrite unbe2 by assumption. reflexivity.
Qed.

Lemma codes_map : forall c, Forall (fun x => x < 65536) c ->
  filter_map (fun v => match v with a :: b :: _ => Some (unbe [a; b]) | _ => None end)
   (filter_map data_bytes (map (fun x => DReserved (be16 x)) c)) = c.
Proof.
  induction 1 as [|x c Hx Hc IH]; [reflexivity|]. cbn -[unbe]. rewrite unbe2 by assumption. f_equal. exact IH.
Qed.

Lemma codes_of_set_all : forall l c, Forall (fun x => x < 65536) c -> standard_genres (set_standard_genres l c) = c.
Proof.
  intros. unfold standard_genres, set_standard_genres. rewrite bytes_of_values, values_set_all_same.
  apply codes_map. assumption.
Qed.
Lemma codes_of_add_all : forall l c, Forall (fun x => x < 65536) c ->
  standard_genres (add_standard_genres l c) = standard_genres l ++ c.
Proof.
  intros. unfold standard_genres, add_standard_genres. rewrite !bytes_of_values, values_add_all_same, !filter_map_app.
  rewrite codes_map by assumption. reflexivity.
Qed.
Lemma codes_of_add : forall l c, c < 65536 -> standard_genres (add_standard_genre l c) = standard_genres l ++ [c].
Proof.
  intros. unfold add_standard_genre. rewrite add_data_all. apply (codes_of_add_all l [c]). auto.
Qed.
Lemma codes_of_remove : forall l, standard_genres (remove_standard_genres l) = [].
Proof.
  intros. unfold standard_genres, remove_standard_genres. rewrite bytes_of_values, values_remove_same. reflexivity.
Qed.

(** * Artwork *)

Lemma image_of_img : forall x, data_image (data_of_img x) = Some x.
Proof. intros [[] d]; reflexivity. Qed.

Lemma images_map : forall x, filter_map data_image (map data_of_img x) = x.
Proof. intros. rewrite filter_map_map. apply filter_map_id. apply image_of_img. Qed.

(** * Enumerations *)

Lemma media_of_code : forall x, media_of (media_code x) = Some x.
Proof. destruct x; reflexivity. Qed.
Lemma media_code_byte : forall x, b2n (n2b (media_code x)) = media_code x.
Proof. destruct x; reflexivity. Qed.
Lemma rating_of_code : forall x, rating_of (rating_code x) = x.
Proof. destruct x; reflexivity. Qed.
Lemma rating_code_byte : forall x, b2n (n2b (rating_code x)) = rating_code x.
Proof. destruct x; reflexivity. Qed.

Lemma media_set : forall l x, get_media_type (set_media_type l x) = Some x.
Proof.
  intros. unfold get_media_type, set_media_type. rewrite bytes_of_values, values_set_same.
  cbn [filter_map data_bytes first]. rewrite media_code_byte. apply media_of_code.
Qed.
Lemma media_remove : forall l, get_media_type (remove_media_type l) = None.
Proof.
  intros. unfold get_media_type, remove_media_type. rewrite bytes_of_values, values_remove_same. reflexivity.
Qed.
Lemma rating_set : forall l x, get_advisory_rating (set_advisory_rating l x) = Some x.
Proof.
  intros. unfold get_advisory_rating, set_advisory_rating. rewrite bytes_of_values, values_set_same.
  cbn [filter_map data_bytes first]. rewrite rating_code_byte, rating_of_code. reflexivity.
Qed.
Lemma rating_remove : forall l, get_advisory_rating (remove_advisory_rating l) = None.
Proof.
  intros. unfold get_advisory_rating, remove_advisory_rating. rewrite bytes_of_values, values_remove_same. reflexivity.
Qed.

Lemma media_of_inv : forall n m, media_of n = Some m <-> n = media_code m.
Proof.
  intros n m. split.
  - unfold media_of. intros H.
    repeat match type of H with
           | Some _ = _ => injection H as <-; reflexivity
           | None = _ => discriminate H
           | match ?x with _ => _ end = _ => destruct x
           end.
  - intros ->. apply media_of_code.
Qed.
