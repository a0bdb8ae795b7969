(** Exactly when the accessors do what is wanted: C24, C26 and C48, second part (see properties.jsonl). *)

From Coq Require Import List NArith ZArith Bool Lia Arith String.
From Coq Require Import ZifyBool ZifyNat ZifyN.
From Coq Require Strings.Byte.
From Verif Require Import Base BaseLemmas Utf Types Stream Parse TagApi TagOps TagSpec TagOpsSpec TagLemmas TagProofs TagAccess TagRefine Display DisplaySpec
  Props_Tag Props_Display.
Import ListNotations.
Local Open Scope list_scope.

(** * C24 *)

Lemma number_of_three : forall a b c n, tnumber (tset_total [a; b; c] n) = tnumber [a; b; c] <-> c = Byte.x00.
Proof.
  intros a b c n. change (tnumber [a; b; c]) with (@None N).
  assert (E : tnumber (tset_total [a; b; c] n) = nz (unbe [c; Byte.x00])) by reflexivity. rewrite E. unfold nz. split.
  - destruct c; [reflexivity|discriminate..].
  - intros ->. reflexivity.
Qed.
(** Setting or removing the total keeps the number, except if exactly three bytes are stored and the last of them is not 0. *)
Theorem C24_exactly : forall i l t, t < 2 ^ 16 ->
  let bad := exists a b c, first (bytes_of l i) = Some [a; b; c] /\ c <> Byte.x00 in
  (get_pair i (set_pair_total i l t) = (fst (get_pair i l), present t) <-> ~ bad) /\
  (get_pair i (remove_pair_total i l) = (fst (get_pair i l), None) <-> ~ bad).
Proof.
  intros i l t L bad.
  assert (D : (~ bad /\ forall v, first (bytes_of l i) = Some v -> List.length v <> 3%nat) \/
    exists a b c r, bytes_of l i = [a; b; c] :: r /\ (bad <-> c <> Byte.x00)).
  { unfold bad. destruct (bytes_of l i) as [|v r]; cbn [first]; [left; split; [intros (? & ? & ? & X & _)|intros v X]; discriminate|].
    destruct v as [|a [|b [|c [|d v]]]]; try (left; split; [intros (? & ? & ? & X & _); discriminate|intros v' X; injection X as <-; cbn [List.length]; lia]).
    right. exists a, b, c, r. split; [reflexivity|]. split; [intros (a' & b' & c' & X & N); injection X as <- <- <-; exact N|intros N; exists a, b, c; split; [reflexivity|exact N]]. }
  destruct D as [[N H]|(a & b & c & r & E & B)].
  - destruct (C24_track_disc_partial i l 0 t eq_refl L) as (_ & _ & _ & _ & _ & _ & K). destruct (K H) as [K1 K2]. tauto.
  - assert (Z : ~ bad <-> c = Byte.x00).
    { rewrite B. split; [|tauto]. intros X. destruct (Coq.Strings.Byte.byte_eq_dec c Byte.x00) as [Y|Y]; [exact Y|exfalso; exact (X Y)]. }
    rewrite Z. rewrite remove_pair_total_eq, !get_pair_bytes. unfold set_pair_total. rewrite E. cbn [first]. rewrite !bytes_of_mut, E. cbn [fst].
    rewrite <- !(number_of_three a b c t). rewrite !ttotal_set_total by (exact L || reflexivity).
    split; split.
    + intros X. apply pair_equal_spec in X. apply X.
    + intros ->. reflexivity.
    + intros X. apply pair_equal_spec in X. destruct X as [X _]. apply number_of_three in X. apply number_of_three. exact X.
    + intros X. apply number_of_three in X. apply (number_of_three a b c 0) in X. rewrite X. reflexivity.
Qed.
Print Assumptions C24_exactly.
Definition three (c : byte) : list atom_data := [AtomData (IFourcc TRACK_NUMBER) [DReserved [Byte.x00; Byte.x00; c]]].
Example C24_exactly_example :
  get_pair (AFourcc TRACK_NUMBER) (set_pair_total (AFourcc TRACK_NUMBER) (three Byte.x00) 5) = (None, Some 5) /\
  get_pair (AFourcc TRACK_NUMBER) (set_pair_total (AFourcc TRACK_NUMBER) (three Byte.x01) 5) = (Some 256, Some 5).
Proof. split; reflexivity. Qed.

(** * C26 *)

Definition known (c : N) : Prop := 1 <= c <= 80.
Lemma known_name : forall c, known c <-> standard_genre_name c <> None.
Proof.
  intros c. unfold known. rewrite <- standard_genre_known. split; [intros [s ->]; discriminate|].
  destruct (standard_genre_name c) as [s|]; [exists s; reflexivity|intros H; exfalso; apply H; reflexivity].
Qed.
Lemma unknown_name : forall c, ~ known c <-> standard_genre_name c = None.
Proof. intros c. rewrite known_name. destruct (standard_genre_name c); split; intros H; try discriminate; try tauto. exfalso. apply H. discriminate. Qed.
(** [genre] is the first of [genres], except if the first standard code is unknown, a later one is known, and its name is not that
    of the first custom genre.  [take_genre] takes the custom genres away, except if there are some and the first standard code is known. *)
Theorem C26_exactly : forall l,
  (genre l = hd_error (genres l) <->
   forall c cs g gs, standard_genres l = c :: cs -> ~ known c -> filter_map standard_genre_name cs = g :: gs -> hd_error (custom_genres l) = Some g) /\
  (unique_idents l ->
   (strings_of (snd (take_genre l)) (AFourcc CUSTOM_GENRE) = [] <->
    custom_genres l = [] \/ forall c, standard_genre l = Some c -> ~ known c)).
Proof.
  intros l. split.
  - unfold genre, genres, standard_genre, custom_genre, get_string. fold (get_strings (AFourcc CUSTOM_GENRE) l). fold (custom_genres l).
    assert (F : first (custom_genres l) = hd_error (custom_genres l)) by (destruct (custom_genres l); reflexivity). rewrite F.
    destruct (standard_genres l) as [|c cs]; cbn [first obind_opt filter_map app]; [split; [discriminate|reflexivity]|].
    destruct (standard_genre_name c) as [s|] eqn:N.
    + split; [|reflexivity]. intros _ c' cs' g gs E U _. injection E as <- <-. apply unknown_name in U. rewrite N in U. discriminate.
    + destruct (filter_map standard_genre_name cs) as [|g gs] eqn:G; cbn [app hd_error].
      * split; [|reflexivity]. intros _ c' cs' g gs E U X. injection E as <- <-. rewrite G in X. discriminate.
      * split; [|intros H; apply (H c cs g gs eq_refl); [apply unknown_name, N|exact G]].
        intros H c' cs' g' gs' E U X. injection E as <- <-. rewrite G in X. injection X as <- <-. exact H.
  - intros U. unfold take_genre. unfold custom_genres, get_strings. destruct (standard_genre l) as [c|]; cbn [obind_opt].
    + destruct (standard_genre_name c) as [s|] eqn:N; cbn [snd].
      * split; [tauto|]. intros [H|H]; [exact H|]. exfalso. specialize (H c eq_refl). apply unknown_name in H. rewrite N in H. discriminate.
      * rewrite (strings_of_values (snd _)), snd_take_string, values_take_same by exact U. split; [|reflexivity]. intros _. right. intros c' E. injection E as <-.
        apply unknown_name, N.
    + rewrite (strings_of_values (snd _)), snd_take_string, values_take_same by exact U. split; [|reflexivity]. intros _. right. discriminate.
Qed.
Print Assumptions C26_exactly.
Example C26_exactly_example :
  (let l := run_ops [] [OpSetStandardGenres [200; 1]; OpAddGenre [65]] in genre l <> hd_error (genres l)) /\
  (let l := run_ops [] [OpSetStandardGenres [200]; OpAddGenre [65]] in genre l = Some [65] /\ strings_of (snd (take_genre l)) (AFourcc CUSTOM_GENRE) = []).
Proof. split; [vm_compute; discriminate|]. split; vm_compute; reflexivity. Qed.

(** * C48 *)

(** The text shows all genres, except if there is one only, which comes from a standard code behind an unknown one. *)
Theorem C48_exactly : forall dbg t, (forall s, one_line (dbg s)) -> tag_one_line t ->
  (fields (word "genre") (word "genres") (lines (display dbg t)) = genres (tg_atoms t) <->
   ~ exists c cs g, standard_genres (tg_atoms t) = c :: cs /\ ~ known c /\ filter_map standard_genre_name cs = [g] /\ custom_genres (tg_atoms t) = []).
Proof.
  intros dbg t D O. rewrite (C48_genres_partial dbg t D O). set (l := tg_atoms t).
  assert (G : (exists g, genres l = [g] /\ genre l = None) <->
    exists c cs g, standard_genres l = c :: cs /\ ~ known c /\ filter_map standard_genre_name cs = [g] /\ custom_genres l = []).
  { unfold genre, genres, standard_genre, custom_genre, get_string. fold (get_strings (AFourcc CUSTOM_GENRE) l). fold (custom_genres l). split.
    - intros (g & E & N). destruct (standard_genres l) as [|c cs]; cbn [first obind_opt filter_map] in *.
      + rewrite app_nil_l in E. rewrite E in N. discriminate.
      + destruct (standard_genre_name c) as [s|] eqn:X; [discriminate|]. destruct (custom_genres l) as [|x r]; [|discriminate]. rewrite app_nil_r in E.
        exists c, cs, g. split; [reflexivity|]. split; [apply unknown_name, X|]. split; [exact E|reflexivity].
    - intros (c & cs & g & E & U & F & C). apply unknown_name in U. rewrite E, C. cbn [first obind_opt filter_map]. rewrite U, F. exists g. split; reflexivity. }
  rewrite <- G. destruct (genres l) as [|g [|h r]].
  - split; [intros _ (x & E & _); discriminate|destruct (genre l); reflexivity].
  - destruct (genre l).
    + split; [intros _ (x & _ & N); discriminate|reflexivity].
    + split; [discriminate|]. intros H. exfalso. apply H. exists g. split; reflexivity.
  - split; [intros _ (x & E & _); discriminate|destruct (genre l); reflexivity].
Qed.
Print Assumptions C48_exactly.
Definition coded (c : list N) (g : list atom_data) : tag :=
  Tag [] (AudioInfo None None None None None) (AtomData (IFourcc STANDARD_GENRE) (map (fun x => DReserved (be 2 x)) c) :: g).
Example C48_exactly_example :
  tag_one_line (coded [200; 1] []) /\ tag_one_line (coded [200; 1; 2] []) /\
  genres (tg_atoms (coded [200; 1] [])) <> [] /\
  fields (word "genre") (word "genres") (lines (display (fun _ => []) (coded [200; 1] []))) = [] /\
  fields (word "genre") (word "genres") (lines (display (fun _ => []) (coded [200; 1; 2] []))) = genres (tg_atoms (coded [200; 1; 2] [])).
Proof.
  assert (T : forall c, tag_one_line (coded c [])).
  { intros c. split; [intros []|]. apply Forall_cons; [|apply Forall_nil]. split; [exact I|]. cbn [ad_data]. induction c; constructor; [exact I|assumption]. }
  split; [apply T|]. split; [apply T|]. split; [vm_compute; discriminate|]. split; vm_compute; reflexivity.
Qed.
