(** Property theorems about the tag API: C18-C30, C40. *)

From Coq Require Import List NArith ZArith Bool Lia Arith String.
From Verif Require Import Base BaseLemmas Utf Types Stream Parse TagApi TagOps TagSpec TagOpsSpec
  TagLemmas TagProofs TagAccess TagRefine.
Import ListNotations.
Local Open Scope list_scope.

(** * C18: a tag never holds two items with the same identifier *)

(** Any sequence of public operations, starting from the empty tag ([Tag::default]) or from any tag
    returned by reading any byte stream from any position, in both build profiles. *)
Theorem C18_unique_identifiers :
  (forall ops, unique_idents (run_ops (tg_atoms default_tag) ops)) /\
  (forall fuel m file pos t pos' ops,
     read_tag_from fuel m file pos = Ok (t, pos') -> unique_idents (run_ops (tg_atoms t) ops)).
Proof.
  split; intros.
  - apply unique_run_ops. constructor.
  - apply unique_run_ops. eapply read_unique. eassumption.
Qed.
Print Assumptions C18_unique_identifiers.

Definition c18_ops : list tag_op :=
  [OpSetString (AFourcc ALBUM) [65]; OpAddString (AFourcc ARTIST) [66]; OpAddString (AFourcc ARTIST) [67];
   OpAddData (AData (IFourcc ALBUM)) (DPng [Byte.x01]); OpSetPair false 3 4; OpSetString ISRC [68];
   OpAddData (AFreeform APPLE_ITUNES_MEAN [73; 83; 82; 67]) (DUtf8 [69])].
Example C18_example : List.length (run_ops [] c18_ops) = 4%nat.
Proof. vm_compute. reflexivity. Qed.

(** * C19: a tag behaves like an ordered map *)

(** Reading an identifier's values. *)
Theorem C19_data_of : forall l i, data_of l i = values l (named i).
Proof. exact data_of_values. Qed.
Print Assumptions C19_data_of.

(** Every sequence of public operations, whatever they are, acts on the tag exactly as the
    corresponding sequence of ordered map operations ([view_op]): same identifiers in the same order,
    same values, with the same type codes, under every identifier. *)
Theorem C19_ordered_map : forall ops l,
  unique_idents l -> view_eq (view_of (run_ops l ops)) (view_ops ops (view_of l)).
Proof. intros. apply run_ops_view; auto using view_eq_refl. Qed.
Print Assumptions C19_ordered_map.

(** The take operations return the values that were stored. *)
Theorem C19_take_returns : forall l i, fst (take_data_of l i) = values l (named i).
Proof. exact take_fst. Qed.
Print Assumptions C19_take_returns.

(** Different spellings of the same identifier are the same key, different ones are different keys. *)
Theorem C19_identifier_equality : forall i j, arg_eqb i j = true <-> named i = j.
Proof. exact arg_eqb_eq. Qed.
Print Assumptions C19_identifier_equality.

(** The public function that compares two identifiers agrees. *)
Theorem C19_idents_match : forall i j, idents_match i j = true <-> named i = named j.
Proof.
  intros i j. unfold idents_match.
  assert (F : forall a b, opt_eqb fourcc_eqb a b = true <-> a = b).
  { intros [a|] [b|]; cbn; try (split; congruence). rewrite fourcc_eqb_eq. split; congruence. }
  assert (G : forall a b, opt_eqb (fun x y => ustr_eqb (fst x) (fst y) && ustr_eqb (snd x) (snd y)) a b = true <-> a = b).
  { intros [[a1 a2]|] [[b1 b2]|]; cbn; try (split; congruence). rewrite Bool.andb_true_iff, !UtfLemmas.ustr_eqb_eq. split; [intros [-> ->]; reflexivity|intros [= -> ->]; auto]. }
  rewrite Bool.andb_true_iff, F, G.
  destruct i as [i|i1 i2|[i|i1 i2]], j as [j|j1 j2|[j|j1 j2]]; cbn;
    (split; [intros [A B]; congruence|intros A; split; congruence]).
Qed.
Print Assumptions C19_idents_match.

Definition c19_ops : list tag_op :=
  [OpSetData (AFourcc ALBUM) (DUtf8 [65]); OpAddData (AFourcc ARTIST) (DUtf8 [66]);
   OpAddAllData (AFourcc ARTIST) [DUtf8 [67]; DPng []]; OpRetainStringsOf (AFourcc ARTIST) (fun s => negb (ustr_eqb s [66]));
   OpTakeDataOf (AFourcc ALBUM); OpSetAllData (AFourcc TITLE) [DUtf8 [68]]].
Example C19_example :
  unique_idents [] /\ vw_order (view_ops c19_ops (view_of [])) = [IFourcc ARTIST; IFourcc TITLE] /\
  run_ops [] c19_ops = [AtomData (IFourcc ARTIST) [DUtf8 [67]; DPng []]; AtomData (IFourcc TITLE) [DUtf8 [68]]].
Proof. split; [constructor|split; vm_compute; reflexivity]. Qed.

(** * C20: single string accessors *)

Theorem C20_single_strings : forall i l s,
  get_string i (set_string i l s) = Some s /\
  fst (take_string i (set_string i l s)) = Some s /\
  fst (take_string i l) = get_string i l /\
  (unique_idents l -> get_string i (snd (take_string i l)) = None) /\
  get_string i (remove_item i l) = None /\
  (~ In (named i) (idents l) -> get_string i l = None) /\
  values (set_string i l s) (named i) = [DUtf8 s].
Proof.
  intros. repeat match goal with |- _ /\ _ => split end;
    auto using get_set_string, take_set_string, take_string_get, get_after_take, get_after_remove.
  - intros H. unfold get_string. rewrite strings_of_values, values_absent by exact H. reflexivity.
  - apply values_set_same.
Qed.
Print Assumptions C20_single_strings.
Example C20_example :
  In (AFourcc ALBUM) single_string_idents /\ unique_idents (run_ops [] c18_ops) /\
  get_string (AFourcc ALBUM) (run_ops [] c18_ops) = Some [65].
Proof. repeat split; [cbn; tauto|apply unique_run_ops; constructor]. Qed.

(** * C21: multi string accessors *)

Theorem C21_multi_strings : forall i l s ss,
  get_strings i (set_strings i l ss) = ss /\
  get_string i (set_strings i l ss) = hd_error ss /\
  get_strings i (set_string i l s) = [s] /\
  get_strings i (add_strings i l ss) = get_strings i l ++ ss /\
  get_strings i (add_string i l s) = get_strings i l ++ [s] /\
  get_string i l = hd_error (get_strings i l) /\
  fst (take_all_strings i l) = get_strings i l /\
  fst (take_string i l) = hd_error (get_strings i l) /\
  (unique_idents l -> get_strings i (snd (take_all_strings i l)) = [] /\ get_strings i (snd (take_string i l)) = []) /\
  get_strings i (remove_item i l) = [] /\
  values (set_strings i l ss) (named i) = map DUtf8 ss /\
  values (add_strings i l ss) (named i) = values l (named i) ++ map DUtf8 ss /\
  values (add_string i l s) (named i) = values l (named i) ++ [DUtf8 s].
Proof.
  intros. assert (F : forall x : list ustring, first x = hd_error x) by (intros []; reflexivity).
  assert (G : forall l, get_string i l = hd_error (get_strings i l)).
  { intros. unfold get_string, get_strings. apply F. }
  repeat match goal with |- _ /\ _ => split end;
    auto using gets_set_strings, gets_set_string, gets_add_strings, gets_add_string, gets_take, gets_after_remove.
  - rewrite G, gets_set_strings. reflexivity.
  - rewrite take_string_get. apply G.
  - intros U. split; [apply gets_after_take, U|].
    unfold get_strings. rewrite strings_of_values, snd_take_string, values_take_same by exact U. reflexivity.
  - apply values_set_all_same.
  - apply values_add_all_same.
  - apply values_add_same.
Qed.
Print Assumptions C21_multi_strings.
Example C21_example :
  In (AFourcc ARTIST) multi_string_idents /\ get_strings (AFourcc ARTIST) (run_ops [] c18_ops) = [[66]; [67]].
Proof. split; [cbn; tauto|reflexivity]. Qed.

(** * C22: flags *)

Theorem C22_flags : forall i l,
  get_flag i (set_flag i l) = true /\
  values (set_flag i l) (named i) = [DBeSigned [Byte.x01]] /\
  get_flag i (remove_item i l) = false /\
  (~ In (named i) (idents l) -> get_flag i l = false).
Proof. intros. repeat split; auto using flag_set, flag_remove, flag_absent. apply values_set_same. Qed.
Print Assumptions C22_flags.

(** Precisely: a flag is set iff the first byte-valued entry starts with a byte 1. *)
Theorem C22_flag_meaning : forall i l,
  get_flag i l = true <->
  exists v r, filter_map data_bytes (values l (named i)) = (n2b 1 :: v) :: r.
Proof.
  intros. unfold get_flag. rewrite bytes_of_values.
  destruct (filter_map data_bytes (values l (named i))) as [|v r]; cbn [first].
  - split; [discriminate|]. intros (v & r & H). discriminate.
  - destruct v as [|b v].
    + split; [discriminate|]. intros (v' & r' & H). discriminate.
    + split.
      * intros H. apply N.eqb_eq in H. exists v, r. rewrite <- (n2b_b2n b), H. reflexivity.
      * intros (v' & r' & [= -> -> ->]). reflexivity.
Qed.
Print Assumptions C22_flag_meaning.
Example C22_example : get_flag (AFourcc COMPILATION) (set_flag (AFourcc COMPILATION) (run_ops [] c18_ops)) = true.
Proof. reflexivity. Qed.

(** * C23: integers *)

Theorem C23_integers : forall i l n,
  (n < 2 ^ 16 -> get_int 2 i (set_int 2 i l n) = Some n) /\
  (n < 2 ^ 32 -> get_int 4 i (set_int 4 i l n) = Some n) /\
  values (set_int 2 i l n) (named i) = [DBeSigned (be 2 n)] /\
  values (set_int 4 i l n) (named i) = [DBeSigned (be 4 n)].
Proof. intros. repeat split; intros; try (apply int_set; assumption); apply values_set_same. Qed.
Print Assumptions C23_integers.

(** What is reported for arbitrary stored bytes: the big-endian value of the first [k] bytes of the
    first byte-valued entry if there are that many, nothing otherwise. *)
Theorem C23_stored_bytes : forall k i l,
  get_int k i l =
  match filter_map data_bytes (values l (named i)) with
  | [] => None
  | v :: _ => if (k <=? List.length v)%nat then Some (unbe (firstn k v)) else None
  end.
Proof. exact int_spec. Qed.
Print Assumptions C23_stored_bytes.
Example C23_example :
  get_int 2 (AFourcc BPM) (set_int 2 (AFourcc BPM) (run_ops [] c18_ops) 65535) = Some 65535 /\
  get_int 2 (AFourcc BPM) [AtomData (IFourcc BPM) [DUtf8 []; DBeSigned [Byte.x01]]] = None.
Proof. split; reflexivity. Qed.

(** * C24: track and disc numbers *)

(** 0 means absent. *)
Definition present (n : N) : option N := if n =? 0 then None else Some n.

(** The full property does not hold: setting or removing the total changes the number if the stored
    value has exactly three bytes (see the refutation below); otherwise it holds. *)
Theorem C24_track_disc_partial : forall i l n t, n < 2 ^ 16 -> t < 2 ^ 16 ->
  get_pair i (set_pair i l n t) = (present n, present t) /\
  get_pair i (set_pair_number i l n) = (present n, snd (get_pair i l)) /\
  get_pair i (remove_pair_number i l) = (None, snd (get_pair i l)) /\
  get_pair i (remove_pair i l) = (None, None) /\
  get_number i l = fst (get_pair i l) /\
  get_total i l = snd (get_pair i l) /\
  ((forall v, first (bytes_of l i) = Some v -> List.length v <> 3%nat) ->
     get_pair i (set_pair_total i l t) = (fst (get_pair i l), present t) /\
     get_pair i (remove_pair_total i l) = (fst (get_pair i l), None)).
Proof.
  intros. repeat match goal with |- _ /\ _ => split end;
    auto using pair_set, pair_set_number, pair_remove_number, pair_remove, get_number_pair, get_total_pair.
  intros H3. auto using pair_set_total, pair_remove_total.
Qed.
Print Assumptions C24_track_disc_partial.

(** A 3-byte value: the number is absent, but appears as soon as the total is set or removed. *)
Theorem C24_track_disc_refuted : exists l,
  get_pair (AFourcc TRACK_NUMBER) l = (None, None) /\
  get_pair (AFourcc TRACK_NUMBER) (set_pair_total (AFourcc TRACK_NUMBER) l 5) = (Some 256, Some 5) /\
  get_pair (AFourcc TRACK_NUMBER) (remove_pair_total (AFourcc TRACK_NUMBER) l) = (Some 256, None).
Proof.
  exists [AtomData (IFourcc TRACK_NUMBER) [DReserved [Byte.x00; Byte.x00; Byte.x01]]].
  repeat split; vm_compute; reflexivity.
Qed.
Print Assumptions C24_track_disc_refuted.

(** Bytes behind the pair, the kind of the value and all other values, before and behind it, are kept. *)
Definition like (x y : data) : Prop :=
  (exists v w, x = DReserved v /\ y = DReserved w) \/ (exists v w, x = DBeSigned v /\ y = DBeSigned w).
Lemma first_changed : forall g d v r, filter_map data_bytes d = v :: r ->
  exists a x b, d = a ++ x :: b /\ Forall (fun y => data_bytes y = None) a /\ data_bytes x = Some v /\
  exists y, map_first_bytes g d = a ++ y :: b /\ like x y /\ data_bytes y = Some (g v).
Proof.
  intros g. induction d as [|x d IH]; intros v r E; [discriminate|]. cbn [filter_map] in E. cbn [map_first_bytes].
  destruct (data_bytes x) as [u|] eqn:X.
  - injection E as <- <-. exists [], x, d. split; [reflexivity|split; [constructor|split; [exact X|]]].
    exists (data_set_bytes x (g u)). split; [reflexivity|]. destruct x; try discriminate X; injection X as <-; (split; [|reflexivity]); [left|right]; eauto.
  - destruct (IH _ _ E) as (a & z & b & -> & F & Z & y & M & K & B).
    exists (x :: a), z, b. split; [reflexivity|split; [now constructor|split; [exact Z|]]]. exists y. now rewrite M.
Qed.
Theorem C24_rest_kept : forall i l n t v r,
  bytes_of l i = v :: r ->
  exists a x b, values l (named i) = a ++ x :: b /\ Forall (fun y => data_bytes y = None) a /\ data_bytes x = Some v /\
  forall l', In l' [set_pair i l n t; set_pair_number i l n; set_pair_total i l t; remove_pair_number i l; remove_pair_total i l] ->
  exists y w, values l' (named i) = a ++ y :: b /\ like x y /\ data_bytes y = Some w /\ skipn 6 w = skipn 6 v.
Proof.
  intros i l n t v r E.
  assert (B := E). rewrite bytes_of_values in B.
  destruct (first_changed (fun v => v) _ _ _ B) as (a & x & b & D & F & X & _).
  exists a, x, b. split; [exact D|split; [exact F|split; [exact X|]]].
  assert (G : forall g, skipn 6 (g v) = skipn 6 v -> exists y w, values (mut_first_bytes i l g) (named i) = a ++ y :: b /\ like x y /\ data_bytes y = Some w /\ skipn 6 w = skipn 6 v).
  { intros g S. unfold mut_first_bytes. rewrite values_mut_of by reflexivity. rewrite ident_dec_refl.
    destruct (first_changed g _ _ _ B) as (a' & x' & b' & D' & F' & X' & y & M & K & Y).
    assert (Q : a = a' /\ x = x' /\ b = b').
    { rewrite D in D'. clear - D' F F' X X'. revert a' D' F'. induction a as [|u a IH]; intros [|u' a'] D' F'; cbn in D'.
      - injection D' as <- <-. auto.
      - injection D' as <- _. inversion F'; congruence.
      - injection D' as -> _. inversion F; congruence.
      - injection D' as <- D'. inversion F; inversion F'; subst. destruct (IH ltac:(assumption) _ D' ltac:(assumption)) as (-> & -> & ->). auto. }
    destruct Q as (-> & -> & ->). exists y, (g v). auto. }
  intros l' I. cbn [In] in I. repeat destruct I as [<-|I]; [..|destruct I].
  - unfold set_pair. rewrite E. apply G. now rewrite tail_set_number, tail_set_total.
  - unfold set_pair_number. rewrite E. apply G. apply tail_set_number.
  - unfold set_pair_total. rewrite E. apply G. apply tail_set_total.
  - rewrite remove_pair_number_eq, E. apply G. apply tail_set_number.
  - rewrite remove_pair_total_eq, E. apply G. apply tail_set_total.
Qed.
Print Assumptions C24_rest_kept.

(** A fresh pair is stored as two zero bytes, the number and the total, big-endian. *)
Theorem C24_layout : forall i l n t, bytes_of l i = [] ->
  values (set_pair i l n t) (named i) = [DReserved ([n2b 0; n2b 0] ++ be 2 n ++ be 2 t)].
Proof. intros i l n t E. unfold set_pair. rewrite E. cbn [first]. apply values_set_same. Qed.
Print Assumptions C24_layout.
Example C24_example :
  get_pair (AFourcc TRACK_NUMBER) (run_ops [] c18_ops) = (Some 3, Some 4) /\
  get_pair (AFourcc TRACK_NUMBER) (run_ops [] (c18_ops ++ [OpRemovePairNumber false])) = (None, Some 4).
Proof. split; reflexivity. Qed.

(** * C25: removing the last half of a pair removes the item *)

(** Refuted: after removing both halves the item is still there, so the tag is not empty. *)
Theorem C25_last_half_refuted : exists l,
  l = run_ops [] [OpSetPair false 3 4; OpRemovePairNumber false; OpRemovePairTotal false] /\
  get_pair (AFourcc TRACK_NUMBER) l = (None, None) /\ is_empty l = false /\
  idents l = [IFourcc TRACK_NUMBER].
Proof. eexists. split; [reflexivity|]. repeat split. Qed.
Print Assumptions C25_last_half_refuted.

(** In fact the item survives whenever it holds a byte value at all; it is removed exactly when it
    does not. *)
Theorem C25_last_half_partial : forall i l,
  (bytes_of l i = [] -> ~ In (named i) (idents (remove_pair_number i l)) /\ ~ In (named i) (idents (remove_pair_total i l))) /\
  (bytes_of l i <> [] -> idents (remove_pair_number i l) = idents l /\ idents (remove_pair_total i l) = idents l).
Proof.
  intros i l. rewrite remove_pair_number_eq, remove_pair_total_eq. split; intros H.
  - rewrite H, idents_remove. split; unfold delete_ident; intros I; apply filter_In in I;
      destruct I as [_ I]; destruct (ident_dec (named i) (named i)); congruence.
  - destruct (bytes_of l i); [contradiction|]. unfold mut_first_bytes. rewrite !idents_mut_of. auto.
Qed.
Print Assumptions C25_last_half_partial.
Example C25_example : exists l, bytes_of l (AFourcc TRACK_NUMBER) = [] /\ In (IFourcc TRACK_NUMBER) (idents l).
Proof. exists [AtomData (IFourcc TRACK_NUMBER) [DUtf8 [65]]]. cbn. auto. Qed.

(** * C26: genres *)

(** The name of a standard genre: exactly the codes 1 to 80 have one, and as UTF-8 text it is the
    entry of the table [genre_names]. *)
Theorem C26_standard_genre_names : forall c,
  option_map enc8 (standard_genre_name c) = genre_name_bytes c /\
  ((exists s, standard_genre_name c = Some s) <-> 1 <= c <= 80).
Proof.
  intros. split; [|apply standard_genre_known]. rewrite standard_genre_name_spec. unfold genre_name_bytes.
  destruct (c =? 0); [reflexivity|].
  assert (E : map enc8 STANDARD_GENRES = map list_byte_of_string genre_names) by (vm_compute; reflexivity).
  generalize (N.to_nat (c - 1)). intros n.
  transitivity (nth_error (map enc8 STANDARD_GENRES) n);
    [rewrite nth_error_map|rewrite E, nth_error_map]; destruct (nth_error _ n); reflexivity.
Qed.
Print Assumptions C26_standard_genre_names.

Theorem C26_genres_partial : forall l g gs,
  standard_genres l = genre_codes (values l (IFourcc STANDARD_GENRE)) /\
  genres l = filter_map standard_genre_name (standard_genres l) ++
             filter_map (fun d => match d with DUtf8 s | DUtf16 s => Some s | _ => None end)
               (values l (IFourcc CUSTOM_GENRE)) /\
  genres (set_genre l g) = [g] /\
  genres (set_genres l gs) = gs /\
  genres (add_genre l g) = genres l ++ [g] /\
  genres (remove_genres l) = [] /\
  fst (take_genres l) = genres l /\
  (unique_idents l -> genres (snd (take_genres l)) = filter_map standard_genre_name (standard_genres l)) /\
  (* genre() is the first of genres() if the first standard code is known or there is none *)
  ((forall c, standard_genre l = Some c -> 1 <= c <= 80) -> genre l = hd_error (genres l)) /\
  (* take_genre returns genre(); it removes the custom genres if the first standard code is unknown
     or there is none *)
  fst (take_genre l) = genre l /\
  (unique_idents l -> (forall c, standard_genre l = Some c -> ~ 1 <= c <= 80) ->
   strings_of (snd (take_genre l)) (AFourcc CUSTOM_GENRE) = []).
Proof.
  intros l g gs. repeat match goal with |- _ /\ _ => split end;
    auto using genres_set_genre, genres_set_genres, genres_add_genre, genres_remove, genre_codes_eq.
  - unfold genres, custom_genres, get_strings. rewrite strings_of_values. reflexivity.
  - unfold take_genres, genres, take_all_strings. pose proof (fst_take_strings l (AFourcc CUSTOM_GENRE)) as E.
    destruct (take_strings_of l (AFourcc CUSTOM_GENRE)). cbn [fst] in *. rewrite E.
    unfold custom_genres, get_strings. rewrite strings_of_values. reflexivity.
  - intros U. unfold take_genres, take_all_strings. pose proof (snd_take_strings l (AFourcc CUSTOM_GENRE)) as E.
    destruct (take_strings_of l (AFourcc CUSTOM_GENRE)) as [x r]. cbn [snd] in *. subst r.
    unfold genres, custom_genres, get_strings, standard_genres.
    rewrite strings_of_values, !bytes_of_values, values_take_same by exact U.
    rewrite take_other by discriminate. apply app_nil_r.
  - intros H. unfold genre, genres, standard_genre in *.
    destruct (standard_genres l) as [|c cs] eqn:E; cbn [first obind_opt filter_map app].
    + unfold custom_genre, get_string, custom_genres, get_strings. destruct (strings_of _ _); reflexivity.
    + destruct (proj2 (standard_genre_known c) (H c eq_refl)) as [s Hs]. rewrite Hs. reflexivity.
  - unfold take_genre, genre. destruct (obind_opt _ _); [reflexivity|]. apply take_string_get.
  - intros U H. unfold take_genre. unfold standard_genre in *.
    replace (obind_opt (first (standard_genres l)) standard_genre_name) with (@None ustring).
    + rewrite strings_of_values, snd_take_string, values_take_same by exact U. reflexivity.
    + destruct (first (standard_genres l)) as [c|] eqn:E; [|reflexivity]. cbn.
      destruct (standard_genre_name c) as [s|] eqn:F; [|reflexivity]. exfalso.
      apply (H c eq_refl). apply standard_genre_known. eauto.
Qed.
Print Assumptions C26_genres_partial.

(** The two clauses without their side conditions are false. *)
Theorem C26_genre_is_first_refuted : exists l, unique_idents l /\ genre l <> hd_error (genres l).
Proof.
  exists (run_ops [] [OpSetStandardGenres [200; 1]; OpAddGenre [65]]).
  split; [apply unique_run_ops; constructor|]. vm_compute. discriminate.
Qed.
Print Assumptions C26_genre_is_first_refuted.
Theorem C26_take_genre_refuted : exists l, unique_idents l /\
  strings_of (snd (take_genre l)) (AFourcc CUSTOM_GENRE) <> [].
Proof.
  exists (run_ops [] [OpSetStandardGenre 1; OpAddGenre [65]]).
  split; [apply unique_run_ops; constructor|]. vm_compute. discriminate.
Qed.
Print Assumptions C26_take_genre_refuted.

Theorem C26_standard_codes : forall l c cs, c < 2 ^ 16 -> Forall (fun x => x < 2 ^ 16) cs ->
  standard_genres (set_standard_genre l c) = [c] /\
  standard_genres (set_standard_genres l cs) = cs /\
  standard_genres (add_standard_genre l c) = standard_genres l ++ [c] /\
  standard_genres (add_standard_genres l cs) = standard_genres l ++ cs /\
  standard_genres (remove_standard_genres l) = [] /\
  standard_genre l = hd_error (standard_genres l).
Proof.
  intros. repeat split; auto using codes_of_set, codes_of_set_all, codes_of_add, codes_of_add_all, codes_of_remove.
Qed.
Print Assumptions C26_standard_codes.
Example C26_example : exists l, unique_idents l /\ (forall c, standard_genre l = Some c -> 1 <= c <= 80) /\
  List.length (genres l) = 3%nat.
Proof.
  exists (run_ops [] [OpSetStandardGenres [80; 1]; OpAddGenre [65]]).
  split; [apply unique_run_ops; constructor|]. split; [|reflexivity].
  intros c H. vm_compute in H. injection H as <-. lia.
Qed.

(** * C27: media type and advisory rating *)

Theorem C27_media_type_rating : forall l,
  (forall x, get_media_type (set_media_type l x) = Some x) /\
  (forall x, get_advisory_rating (set_advisory_rating l x) = Some x) /\
  get_media_type (remove_media_type l) = None /\
  get_advisory_rating (remove_advisory_rating l) = None /\
  (forall x, values (set_media_type l x) (IFourcc MEDIA_TYPE) = [DReserved [media_byte x]]) /\
  (forall x, values (set_advisory_rating l x) (IFourcc ADVISORY_RATING) = [DReserved [rating_byte x]]).
Proof.
  intros. repeat split; auto using media_set, rating_set, media_remove, rating_remove; intros x.
  - rewrite <- media_byte_eq. apply (values_set_same l (AFourcc MEDIA_TYPE)).
  - rewrite <- rating_byte_eq. apply (values_set_same l (AFourcc ADVISORY_RATING)).
Qed.
Print Assumptions C27_media_type_rating.

(** The documented code tables, for all stored codes. *)
Theorem C27_codes : forall n m,
  (media_of n = Some m <->
   (n, m) = (0, MTMovie) \/ (n, m) = (1, MTNormal) \/ (n, m) = (2, MTAudioBook) \/ (n, m) = (5, MTWhackedBookmark) \/
   (n, m) = (6, MTMusicVideo) \/ (n, m) = (9, MTShortFilm) \/ (n, m) = (10, MTTvShow) \/ (n, m) = (11, MTBooklet)) /\
  rating_of 0 = RInoffensive /\ rating_of 2 = RClean /\ (n <> 0 -> n <> 2 -> rating_of n = RExplicit).
Proof.
  intros n m. split; [|split; [reflexivity|split; [reflexivity|]]].
  - rewrite media_of_inv. destruct m; cbn;
      (split; [intros ->; tauto|intros H; repeat destruct H as [H|H]; injection H; congruence]).
  - intros H0 H2. unfold rating_of. destruct n as [|[p|[p|p|]|]]; try reflexivity; contradiction.
Qed.
Print Assumptions C27_codes.

(** What is reported for any tag: the first byte of the first byte string counts, whatever else is stored. *)
Theorem C27_meaning : forall l,
  (forall x, get_media_type l = Some x <-> exists r, first_byte_value (values l (IFourcc MEDIA_TYPE)) = Some (media_byte x :: r)) /\
  (forall x, get_advisory_rating l = Some x <->
     exists b r, first_byte_value (values l (IFourcc ADVISORY_RATING)) = Some (b :: r) /\
       match x with RInoffensive => b = Byte.x00 | RClean => b = Byte.x02 | RExplicit => b <> Byte.x00 /\ b <> Byte.x02 end).
Proof.
  intros l. unfold get_media_type, get_advisory_rating. split; intros x; rewrite bytes_of_values, <- first_byte_value_eq; cbn [named].
  - destruct (first_byte_value _) as [[|b r]|]; [split; [discriminate|intros [r E]; discriminate E]| |split; [discriminate|intros [r E]; discriminate E]].
    split.
    + intros E. exists r. rewrite media_of_inv in E. rewrite <- media_byte_eq, <- E, n2b_b2n. reflexivity.
    + intros [r' E]. injection E as -> _. rewrite <- media_byte_eq, media_code_byte. apply media_of_code.
  - destruct (first_byte_value _) as [[|b r]|]; [split; [discriminate|intros (b & r & E & _); discriminate E]| |split; [discriminate|intros (b & r & E & _); discriminate E]].
    split.
    + intros E. exists b, r. split; [reflexivity|]. injection E as <-. destruct b; cbn; try reflexivity; split; discriminate.
    + intros (b' & r' & E & C). injection E as <- _. f_equal. destruct x; [subst b; reflexivity|subst b; reflexivity|]. destruct C as [C0 C2]. destruct b; cbn; try reflexivity; congruence.
Qed.
Print Assumptions C27_meaning.
Example C27_example_more : get_media_type [AtomData (IFourcc MEDIA_TYPE) [DReserved [Byte.x0a; Byte.x00]; DBeSigned [Byte.x01]]] = Some MTTvShow /\
  get_media_type [AtomData (IFourcc MEDIA_TYPE) [DReserved []; DBeSigned [Byte.x01]]] = None /\
  get_advisory_rating [AtomData (IFourcc ADVISORY_RATING) [DBeSigned [Byte.x02; Byte.x04]]] = Some RClean.
Proof. repeat split. Qed.
Example C27_example : get_media_type (set_media_type (run_ops [] c18_ops) MTTvShow) = Some MTTvShow /\
  get_media_type [AtomData (IFourcc MEDIA_TYPE) [DReserved [Byte.x03]]] = None.
Proof. split; reflexivity. Qed.

(** * C28: artwork *)

Theorem C28_artwork : forall l x xs,
  artworks (set_artwork l x) = [x] /\
  artworks (set_artworks l xs) = xs /\
  artworks (add_artwork l x) = artworks l ++ [x] /\
  artworks (add_artworks l xs) = artworks l ++ xs /\
  artworks (remove_artworks l) = [] /\
  artwork l = hd_error (artworks l) /\
  fst (take_artworks l) = artworks l /\
  fst (take_artwork l) = artwork l /\
  (unique_idents l -> artworks (snd (take_artworks l)) = [] /\ artworks (snd (take_artwork l)) = []) /\
  (forall y, In y (artworks l) -> In (data_of_img y) (values l (IFourcc ARTWORK))).
Proof.
  intros l x xs. unfold artworks, artwork, set_artwork, set_artworks, add_artwork, add_artworks, remove_artworks, take_artworks.
  rewrite !images_of_values, values_set_same, values_set_all_same, values_add_same, values_add_all_same, values_remove_same.
  rewrite !filter_map_app, images_map. cbn [filter_map]. rewrite image_of_img.
  repeat match goal with |- _ /\ _ => split end; auto.
  - apply fst_take_images.
  - unfold take_artwork. pose proof (fst_take_images l (AFourcc ARTWORK)) as E.
    destruct (take_images_of _ _). cbn in *. rewrite E. reflexivity.
  - intros U. rewrite snd_take_images. rewrite values_take_same by exact U. split; [reflexivity|].
    unfold take_artwork. pose proof (snd_take_images l (AFourcc ARTWORK)) as E.
    destruct (take_images_of _ _) as [x' r]. cbn [snd] in *. subst r.
    rewrite values_take_same by exact U. reflexivity.
  - intros y H. cbn [named] in H. induction (values l (IFourcc ARTWORK)) as [|d ds IH]; [contradiction|].
    cbn in H. destruct d; cbn in H; try (right; apply IH, H);
      (destruct H as [<-|H]; [left; reflexivity|right; apply IH, H]).
Qed.
Print Assumptions C28_artwork.
Example C28_example : artworks (add_artwork (set_artwork (run_ops [] c18_ops) (Img FPng [Byte.x01])) (Img FBmp []))
  = [Img FPng [Byte.x01]; Img FBmp []].
Proof. reflexivity. Qed.

(** * C29: retain and typed removal *)

(** The values kept are exactly those satisfying the predicate, in order; other items are untouched;
    emptied items disappear. *)
Theorem C29_retain_of : forall l i p, unique_idents l ->
  values (retain_data_of l i p) (named i) = filter p (values l (named i)) /\
  (forall j, j <> named i -> values (retain_data_of l i p) j = values l j) /\
  idents (retain_data_of l i p) =
    (if existsb p (values l (named i)) then idents l else delete_ident (idents l) (named i)).
Proof.
  intros l i p U. destruct (retain_of_view l i p U) as [A B]. cbn in A, B.
  unfold view_retain in A, B. rewrite filter_existsb. split; [|split].
  - rewrite B. cbn [vw_values view_of]. destruct (filter p (values l (named i))); cbn; unfold upd; apply ident_dec_refl.
  - intros j N. rewrite B. cbn [vw_values view_of].
    destruct (filter p (values l (named i))); cbn; unfold upd; destruct (ident_dec (named i) j); congruence.
  - rewrite A. cbn [vw_values view_of]. destruct (filter p (values l (named i))); reflexivity.
Qed.
Print Assumptions C29_retain_of.

Theorem C29_retain_all : forall l p, unique_idents l ->
  (forall j, values (retain_data l p) j = filter (p j) (values l j)) /\
  idents (retain_data l p) = filter (fun j => existsb (p j) (values l j)) (idents l) /\
  Forall (fun a => ad_data a <> []) (retain_data l p).
Proof.
  intros l p U. rewrite retain_data_filter. destruct (retained_view l p U) as [A B]. cbn in A, B.
  split; [exact B|]. split; [exact A|]. unfold retained. apply Forall_forall. intros a H.
  apply filter_In in H. destruct H as [_ H]. destruct (ad_data a); congruence.
Qed.
Print Assumptions C29_retain_all.

(** The typed variants are [retain_data_of]/[retain_data] with predicates that keep every value of
    another type. *)
Theorem C29_typed : forall l i,
  (forall p, retain_bytes_of l i p =
     retain_data_of l i (fun d => match d with DReserved b | DBeSigned b => p b | _ => true end)) /\
  (forall p, retain_strings_of l i p =
     retain_data_of l i (fun d => match d with DUtf8 s | DUtf16 s => p s | _ => true end)) /\
  (forall p, retain_images_of l i p =
     retain_data_of l i (fun d => match d with DJpeg b => p (Img FJpeg b) | DPng b => p (Img FPng b)
                                          | DBmp b => p (Img FBmp b) | _ => true end)) /\
  remove_bytes_of l i = retain_bytes_of l i (fun _ => false) /\
  remove_strings_of l i = retain_strings_of l i (fun _ => false) /\
  remove_images_of l i = retain_images_of l i (fun _ => false) /\
  (forall p, retain_bytes l p =
     retain_data l (fun j d => match d with DReserved b | DBeSigned b => p j b | _ => true end)) /\
  (forall p, retain_strings l p =
     retain_data l (fun j d => match d with DUtf8 s | DUtf16 s => p j s | _ => true end)) /\
  (forall p, retain_images l p =
     retain_data l (fun j d => match d with DJpeg b => p j (Img FJpeg b) | DPng b => p j (Img FPng b)
                                       | DBmp b => p j (Img FBmp b) | _ => true end)).
Proof.
  intros l i.
  assert (X : forall p q, (forall d, p d = q d) -> retain_data_of l i p = retain_data_of l i q).
  { intros p q H. induction l as [|a r IH]; [reflexivity|]. cbn. rewrite (filter_ext p q H), IH. reflexivity. }
  assert (Y : forall p q, (forall j d, p j d = q j d) -> retain_data l p = retain_data l q).
  { intros p q H. rewrite !retain_data_filter. unfold retained. f_equal. apply map_ext. intros a.
    f_equal. apply filter_ext. apply H. }
  repeat match goal with |- _ /\ _ => split end; intros; (apply X || apply Y); intros; destruct d; reflexivity.
Qed.
Print Assumptions C29_typed.
Example C29_example :
  remove_strings_of [AtomData (IFourcc ALBUM) [DUtf8 [65]; DPng [Byte.x01]; DUtf16 []]] (AFourcc ALBUM)
  = [AtomData (IFourcc ALBUM) [DPng [Byte.x01]]] /\
  retain_data [AtomData (IFourcc ALBUM) [DUtf8 [65]]; AtomData (IFourcc TITLE) [DUtf8 [66]; DUtf8 [67]]]
    (fun _ d => match d with DUtf8 [67] => true | _ => false end)
  = [AtomData (IFourcc TITLE) [DUtf8 [67]]].
Proof. split; reflexivity. Qed.

(** * C30: named accessors do not interfere *)

(** Everything the accessors of identifier [i] can observe. *)
Definition same_observations (i : ident_arg) (l l' : atoms) : Prop :=
  data_of l' i = data_of l i /\ get_string i l' = get_string i l /\ get_strings i l' = get_strings i l /\
  get_flag i l' = get_flag i l /\ (forall k, get_int k i l' = get_int k i l) /\
  get_pair i l' = get_pair i l /\ images_of l' i = images_of l i /\ bytes_of l' i = bytes_of l i.

Theorem C30_no_interference : forall o ts i l,
  op_targets o = Some ts -> ~ In (named i) ts -> same_observations i l (run_op l o).
Proof.
  intros o ts i l H N. pose proof (frame o l ts (named i) H N) as F.
  unfold same_observations, get_string, get_strings, get_flag, get_int, get_pair, strings_of, images_of, bytes_of.
  rewrite !data_of_values, !F. repeat split.
Qed.
Print Assumptions C30_no_interference.

Theorem C30_distinct : NoDup (map named accessor_idents).
Proof.
  assert (G : forall l : list data_ident, (forall a b, In (a, b) (list_prod l l) -> True) ->
    (fix nd (l : list data_ident) : bool := match l with [] => true | x :: r => negb (existsb (ident_eqb x) r) && nd r end) l = true
    -> NoDup l).
  { induction l as [|x r IH]; intros _ H; constructor.
    - apply andb_true_iff in H. destruct H as [H _]. apply negb_true_iff in H. intros I.
      assert (existsb (ident_eqb x) r = true) by (apply existsb_exists; exists x; split; [exact I|apply ident_eqb_refl]).
      congruence.
    - apply IH; [auto|]. apply andb_true_iff in H. apply H. }
  apply G; [auto|]. vm_compute. reflexivity.
Qed.
Print Assumptions C30_distinct.

(** The documented items; '@' stands for the copyright sign (byte A9), "----:mean:name" for freeform items. *)
Definition bytes_of_string (s : string) : bytes :=
  map (fun a => let b := Ascii.byte_of_ascii a in if byte_eqb b Byte.x40 then Byte.xa9 else b) (list_ascii_of_string s).
Definition code_points (s : string) : ustring := map (fun a => Ascii.N_of_ascii a) (list_ascii_of_string s).
Inductive documented := DocCode (s : string) | DocFreeform (mean name : string).
Definition shown (i : data_ident) (d : documented) : Prop :=
  match i, d with
  | IFourcc f, DocCode s => fc_bytes f = bytes_of_string s
  | IFreeform me na, DocFreeform m n => me = code_points m /\ na = code_points n
  | _, _ => False
  end.
Local Open Scope string_scope.
Definition documented_items : list (string * documented) :=
  [("album", DocCode "@alb"); ("copyright", DocCode "cprt"); ("encoder", DocCode "@too"); ("lyrics", DocCode "@lyr");
   ("movement", DocCode "@mvn"); ("title", DocCode "@nam"); ("tv_episode_name", DocCode "tven");
   ("tv_network_name", DocCode "tvnn"); ("tv_show_name", DocCode "tvsh"); ("work", DocCode "@wrk");
   ("year", DocCode "@day"); ("isrc", DocFreeform "com.apple.iTunes" "ISRC");
   ("album_artist", DocCode "aART"); ("artist", DocCode "@ART"); ("category", DocCode "catg"); ("comment", DocCode "@cmt");
   ("composer", DocCode "@wrt"); ("custom_genre", DocCode "@gen"); ("description", DocCode "desc");
   ("grouping", DocCode "@grp"); ("keyword", DocCode "keyw"); ("lyricist", DocFreeform "com.apple.iTunes" "LYRICIST");
   ("compilation", DocCode "cpil"); ("gapless_playback", DocCode "pgap"); ("show_movement", DocCode "shwm");
   ("bpm", DocCode "tmpo"); ("movement_count", DocCode "@mvc"); ("movement_index", DocCode "@mvi");
   ("tv_episode", DocCode "tves"); ("tv_season", DocCode "tvsn");
   ("artwork", DocCode "covr"); ("media_type", DocCode "stik"); ("advisory_rating", DocCode "rtng");
   ("track", DocCode "trkn"); ("disc", DocCode "disk"); ("standard_genre", DocCode "gnre")].
Local Close Scope string_scope.

Theorem C30_documented : Forall2 (fun i d => shown (named i) (snd d)) accessor_idents documented_items.
Proof. repeat constructor. Qed.
Print Assumptions C30_documented.
Example C30_example : exists ts, op_targets (OpSetPair false 1 2) = Some ts /\ ~ In (named (AFourcc DISC_NUMBER)) ts.
Proof. eexists. split; [reflexivity|]. cbn. intros [H|[]]. discriminate. Qed.

(** * C40: iterators *)

Fixpoint tagged (j : data_ident) (ds : list data) : list (data_ident * data) :=
  match ds with [] => [] | d :: r => (j, d) :: tagged j r end.

Theorem C40_iterators : forall l,
  all_data l = List.concat (map (fun a => tagged (ad_ident a) (ad_data a)) l) /\
  take_data l = all_data l /\ take_bytes l = all_bytes l /\ take_strings l = all_strings l /\ take_images l = all_images l /\
  (forall j b, In (j, b) (all_bytes l) <-> In (j, DReserved b) (all_data l) \/ In (j, DBeSigned b) (all_data l)) /\
  (forall j s, In (j, s) (all_strings l) <-> In (j, DUtf8 s) (all_data l) \/ In (j, DUtf16 s) (all_data l)) /\
  (forall j x, In (j, x) (all_images l) <-> In (j, data_of_img x) (all_data l)) /\
  (List.length (all_data l) = List.length (all_bytes l) + List.length (all_strings l) + List.length (all_images l))%nat /\
  (unique_idents l -> forall i,
     data_of l i = map snd (filter (fun x => if ident_dec (fst x) (named i) then true else false) (all_data l))) /\
  (is_empty l = true <-> l = []).
Proof.
  intros l. repeat match goal with |- _ /\ _ => split end; try reflexivity.
  - unfold all_data. rewrite flat_map_concat_map. f_equal. apply map_ext. intros a.
    induction (ad_data a) as [|d r IH]; [reflexivity|]. cbn. f_equal. exact IH.
  - intros j b. unfold all_bytes. induction (all_data l) as [|[k d] r IH]; [cbn; tauto|].
    cbn [filter_map with_ident fst snd In]. unfold with_ident. cbn [fst snd].
    destruct d; cbn [data_bytes In]; rewrite IH; intuition (try congruence).
  - intros j b. unfold all_strings. induction (all_data l) as [|[k d] r IH]; [cbn; tauto|].
    cbn [filter_map with_ident fst snd In]. unfold with_ident. cbn [fst snd].
    destruct d; cbn [data_string In]; rewrite IH; intuition (try congruence).
  - intros j [x b]. unfold all_images. induction (all_data l) as [|[k d] r IH]; [cbn; tauto|].
    cbn [filter_map with_ident fst snd In]. unfold with_ident. cbn [fst snd].
    destruct d; cbn [data_image In]; rewrite IH; destruct x; cbn; intuition (try congruence).
  - unfold all_bytes, all_strings, all_images. induction (all_data l) as [|[k d] r IH]; [reflexivity|].
    cbn [filter_map List.length]. cbv [with_ident fst snd] in *.
    destruct d; cbn [data_bytes data_string data_image List.length]; rewrite IH; lia.
  - intros U i. rewrite data_of_values. unfold unique_idents in U.
    assert (K : forall j ds, filter (fun x : data_ident * data => if ident_dec (fst x) (named i) then true else false)
                   (map (fun d => (j, d)) ds) = if ident_dec j (named i) then map (fun d => (j, d)) ds else []).
    { intros j ds. induction ds as [|d r IH]; [destruct (ident_dec j (named i)); reflexivity|].
      cbn. rewrite IH. destruct (ident_dec j (named i)); reflexivity. }
    unfold all_data. induction l as [|a r IH]; [reflexivity|].
    cbn in U. inversion U as [|? ? N U']; subst. cbn [flat_map values].
    rewrite filter_app, K, map_app. destruct (ident_dec (ad_ident a) (named i)) as [E|E].
    + rewrite map_map. cbn [snd]. rewrite map_id.
      rewrite <- IH by exact U'. rewrite values_absent by (rewrite <- E; exact N). rewrite app_nil_r. reflexivity.
    + cbn. apply IH, U'.
  - destruct l; split; intros H; reflexivity || discriminate H.
Qed.
Print Assumptions C40_iterators.
Example C40_example : List.length (all_strings (run_ops [] c18_ops)) = 5%nat /\ List.length (all_data (run_ops [] c18_ops)) = 7%nat.
Proof. split; reflexivity. Qed.
