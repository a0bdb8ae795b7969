(** The text of a tag as a list of sections. *)

From Coq Require Import List NArith ZArith Bool Lia Arith String.
From Coq Require Import ZifyBool ZifyNat ZifyN.
From Verif Require Import Base BaseLemmas Utf UtfLemmas Types TagApi TagOps TagSpec TagOpsSpec TagLemmas TagProofs
  TagAccess Display DisplaySpec DisplayProofs.
Import ListNotations.
Local Open Scope list_scope.

Ltac Zify.zify_post_hook ::= Z.div_mod_to_equations.

(** * The sections *)

Definition many_block (l p : string) (vs : list ustring) : option block :=
  match vs with [] => None | [v] => Some (BOne (word l) v) | _ => Some (BMany (word p) vs) end.
Definition one_block (l : string) (o : option ustring) : option block :=
  match o with Some v => Some (BOne (word l) v) | None => None end.
Definition flag_block (l : string) (b : bool) : option block := if b then Some (BFlag (word l)) else None.

Definition sec_multi (l p : string) (i : ident_arg) (a : atoms) : sect :=
  ([word l; word p], many_block l p (get_strings i a)).
Definition sec_one (l : string) (o : option ustring) : sect := ([word l], one_block l o).
Definition sec_flag (l : string) (b : bool) : sect := ([word l], flag_block l b).

Definition genres_block (a : atoms) : option block :=
  if Nat.ltb 1 (List.length (genres a)) then Some (BMany (word "genres") (genres a))
  else one_block "genre" (genre a).

Definition pair_line (p : option N * option N) : option ustring :=
  match p with
  | (Some d, Some t) => Some (dec d ++ word " of " ++ dec t)
  | (Some d, None) => Some (dec d)
  | (None, Some t) => Some (word "? of " ++ dec t)
  | (None, None) => None
  end.

Definition art_line (x : img) : ustring :=
  match img_format x with FPng => word "png" | FJpeg => word "jpeg" | FBmp => word "bmp" end ++
  (let len := blen (img_data x) in
   if len <? 1024 then word " " ++ dec len
   else if len <? 1024 * 1024 then word " " ++ dec (len / 1024) ++ word "k"
   else word " " ++ dec (len / (1024 * 1024)) ++ word "M").

Definition omap {A B} (g : A -> B) (o : option A) : option B := match o with Some x => Some (g x) | None => None end.

Definition sections (t : tag) : list sect :=
  let l := tg_atoms t in
  let i := tg_info t in
  [ sec_multi "album artist" "album artists" (AFourcc ALBUM_ARTIST) l;
    sec_multi "artist" "artists" (AFourcc ARTIST) l;
    sec_multi "composer" "composers" (AFourcc COMPOSER) l;
    sec_multi "lyricist" "lyricists" LYRICIST l;
    sec_one "album" (get_string (AFourcc ALBUM) l);
    sec_one "title" (get_string (AFourcc TITLE) l);
    ([word "genre"; word "genres"], genres_block l);
    sec_one "year" (get_string (AFourcc YEAR) l);
    sec_one "track" (pair_line (get_pair (AFourcc TRACK_NUMBER) l));
    sec_one "disc" (pair_line (get_pair (AFourcc DISC_NUMBER) l));
    ([word "artwork"; word "artworks"], many_block "artwork" "artworks" (map art_line (artworks l)));
    sec_one "advisory rating" (omap rating_text (get_advisory_rating l));
    sec_one "media type" (omap media_text (get_media_type l));
    sec_multi "grouping" "groupings" (AFourcc GROUPING) l;
    sec_multi "description" "descriptions" (AFourcc DESCRIPTION) l;
    sec_multi "comment" "comments" (AFourcc COMMENT) l;
    sec_multi "category" "categories" (AFourcc CATEGORY) l;
    sec_multi "keyword" "keywords" (AFourcc KEYWORD) l;
    sec_one "copyright" (get_string (AFourcc COPYRIGHT) l);
    sec_one "encoder" (get_string (AFourcc ENCODER) l);
    sec_one "tv show name" (get_string (AFourcc TV_SHOW_NAME) l);
    sec_one "tv network name" (get_string (AFourcc TV_NETWORK_NAME) l);
    sec_one "tv episode name" (get_string (AFourcc TV_EPISODE_NAME) l);
    sec_one "tv episode" (omap dec (get_int 4 (AFourcc TV_EPISODE) l));
    sec_one "tv season" (omap dec (get_int 4 (AFourcc TV_SEASON) l));
    sec_one "bpm" (omap dec (get_int 2 (AFourcc BPM) l));
    sec_one "movement" (get_string (AFourcc MOVEMENT) l);
    sec_one "work" (get_string (AFourcc WORK) l);
    sec_one "movement count" (omap dec (get_int 2 (AFourcc MOVEMENT_COUNT) l));
    sec_one "movement index" (omap dec (get_int 2 (AFourcc MOVEMENT_INDEX) l));
    sec_one "duration" (omap duration_text (ai_duration i));
    sec_one "channel config" (omap channel_text (ai_channels i));
    sec_one "sample rate" (omap (fun r => dec (hz r) ++ word "Hz") (ai_rate i));
    sec_one "average bitrate" (omap (fun c => dec (c / 1024) ++ word "kbps") (ai_avg i));
    sec_one "maximum bitrate" (omap (fun c => dec (c / 1024) ++ word "kbps") (ai_max i));
    sec_flag "show movement" (get_flag (AFourcc SHOW_MOVEMENT) l);
    sec_flag "gapless playback" (get_flag (AFourcc GAPLESS_PLAYBACK) l);
    sec_flag "compilation" (get_flag (AFourcc COMPILATION) l);
    sec_one "isrc" (get_string ISRC l);
    sec_one "lyrics" (get_string (AFourcc LYRICS) l) ].

Definition free_lines (dbg : ustring -> ustring) (a : atom_data) : list ustring :=
  match ad_ident a with
  | IFreeform me na =>
    block_lines (BMany (45 :: (word "---:" ++ me ++ word ":" ++ na)) (map (debug_data dbg) (ad_data a)))
  | IFourcc _ => []
  end.

Definition tag_lines (dbg : ustring -> ustring) (t : tag) : list ustring :=
  all_lines (sections t) ++ List.concat (map (free_lines dbg) (tg_atoms t)) ++ [word "filetype" ++ word ": " ++ tg_ftyp t].

(** * [display] prints them *)

Definition sect_text (s : sect) : ustring := unlines (sect_lines s).

Lemma unlines_all : forall ss, unlines (all_lines ss) = List.concat (map sect_text ss).
Proof.
  induction ss as [|s ss IH]; [reflexivity|]. unfold all_lines in *. cbn [map List.concat].
  rewrite unlines_app, IH. reflexivity.
Qed.

Lemma unlines_entries : forall vs,
  unlines (map (fun v => word "    " ++ v) vs) = List.concat (map (fun s => txt "    " ++ s ++ nl) vs).
Proof. induction vs as [|v vs IH]; [reflexivity|]. unfold unlines in *. cbn [map List.concat]. rewrite IH, <- !app_assoc. reflexivity. Qed.

Lemma many_text : forall l p vs, sect_text ([word l; word p], many_block l p vs) =
  if Nat.ltb 1 (List.length vs)
  then word p ++ txt ":" ++ nl ++ List.concat (map (fun s => txt "    " ++ s ++ nl) vs)
  else match first vs with Some s => word l ++ txt ": " ++ s ++ nl | None => [] end.
Proof.
  intros l p [|v [|w vs]]; cbn [many_block List.length Nat.ltb Nat.leb first]; unfold sect_text; cbn [sect_lines snd block_lines].
  - reflexivity.
  - unfold unlines. cbn [map List.concat]. rewrite app_nil_r, <- !app_assoc. reflexivity.
  - change (unlines ((word p ++ word ":") :: map (fun v0 => word "    " ++ v0) (v :: w :: vs)))
      with (((word p ++ word ":") ++ [10]) ++ unlines (map (fun v0 => word "    " ++ v0) (v :: w :: vs))).
    rewrite unlines_entries, <- !app_assoc. reflexivity.
Qed.

Lemma one_text : forall l o, sect_text (sec_one l o) = match o with Some v => word l ++ txt ": " ++ v ++ nl | None => [] end.
Proof.
  intros l [v|]; [|reflexivity]. unfold sect_text, sec_one, one_block. cbn [sect_lines snd block_lines].
  unfold unlines. cbn [map List.concat]. rewrite app_nil_r, <- !app_assoc. reflexivity.
Qed.

Lemma flag_text : forall l b, sect_text (sec_flag l b) = if b then word l ++ nl else [].
Proof. intros l [|]; [|reflexivity]. unfold sect_text, sec_flag, flag_block. cbn [sect_lines snd block_lines].
  unfold unlines. cbn [map List.concat]. apply app_nil_r. Qed.

Lemma multi_text : forall vi l p i a, macro_name (txt vi) = word l -> macro_name (macro_plural (txt vi)) = word p ->
  format_multi vi i a = sect_text (sec_multi l p i a).
Proof. intros vi l p i a L P. unfold format_multi, sec_multi. rewrite many_text, L, P. reflexivity. Qed.

Lemma single_text : forall vi l i a, macro_name (txt vi) = word l ->
  format_single vi i a = sect_text (sec_one l (get_string i a)).
Proof. intros vi l i a L. unfold format_single. rewrite one_text, L. reflexivity. Qed.

Lemma int_text : forall k vi l i a, macro_name (txt vi) = word l ->
  format_int k vi i a = sect_text (sec_one l (omap dec (get_int k i a))).
Proof. intros k vi l i a L. unfold format_int. rewrite one_text, L. destruct (get_int k i a); reflexivity. Qed.

Lemma flags_text : forall vi l i a, macro_name (txt vi) = word l ->
  format_flag vi i a = sect_text (sec_flag l (get_flag i a)).
Proof. intros vi l i a L. unfold format_flag. rewrite flag_text, L. reflexivity. Qed.

Lemma genres_text : forall a, format_genres a = sect_text ([word "genre"; word "genres"], genres_block a).
Proof.
  intros a. unfold format_genres, genres_block. destruct (Nat.ltb 1 (List.length (genres a))) eqn:E.
  - pose proof (many_text "genre" "genres" (genres a)) as H. rewrite E in H.
    destruct (genres a) as [|x [|y r]]; [discriminate|discriminate|]. unfold many_block in H. rewrite H. reflexivity.
  - change (sect_text ([word "genre"; word "genres"], one_block "genre" (genre a))) with (sect_text (sec_one "genre" (genre a))).
    rewrite one_text. reflexivity.
Qed.

Lemma pair_text_eq : forall l i a, format_pair l i a = sect_text (sec_one l (pair_line (get_pair i a))).
Proof.
  intros l i a. unfold format_pair. rewrite one_text. destruct (get_pair i a) as [[d|] [t|]]; cbn [pair_line]; rewrite <- ?app_assoc; reflexivity.
Qed.

Lemma art_line_eq : forall x, format_artwork x = art_line x ++ nl.
Proof.
  intros x. unfold format_artwork, art_line. rewrite <- app_assoc. f_equal.
  cbv zeta. destruct (blen (img_data x) <? 1024); [rewrite <- app_assoc; reflexivity|].
  destruct (blen (img_data x) <? 1024 * 1024); rewrite <- !app_assoc; reflexivity.
Qed.

Lemma artworks_text : forall a, format_artworks a =
  sect_text ([word "artwork"; word "artworks"], many_block "artwork" "artworks" (map art_line (artworks a))).
Proof.
  intros a. rewrite many_text, map_length. unfold format_artworks. destruct (Nat.ltb 1 (List.length (artworks a))).
  - rewrite map_map. change (txt "artworks:") with (word "artworks" ++ txt ":"). rewrite <- app_assoc.
    do 4 f_equal. apply map_ext. intros x. rewrite art_line_eq. reflexivity.
  - change (artwork a) with (first (artworks a)). destruct (artworks a) as [|x r]; [reflexivity|]. cbn [first map].
    rewrite art_line_eq. reflexivity.
Qed.

Lemma free_text : forall dbg a, format_freeform dbg a = unlines (free_lines dbg a).
Proof.
  intros dbg a. unfold format_freeform, free_lines. destruct (ad_ident a) as [f|me na]; [reflexivity|].
  cbn [block_lines]. change (unlines (?h :: ?r)) with ((h ++ [10]) ++ unlines r).
  rewrite unlines_entries, map_map. cbn [ident_text]. unfold nl.
  change (txt "----:") with (45 :: word "---:"). change (txt ":") with (word ":").
  cbn [app]. rewrite <- !app_assoc. reflexivity.
Qed.

Lemma frees_text : forall dbg l, List.concat (map (format_freeform dbg) l) = unlines (List.concat (map (free_lines dbg) l)).
Proof.
  intros dbg l. induction l as [|a l IH]; [reflexivity|]. cbn [map List.concat].
  rewrite unlines_app, IH, free_text. reflexivity.
Qed.

Lemma display_lines : forall dbg t, display dbg t = unlines (tag_lines dbg t).
Proof.
  intros dbg t. unfold tag_lines. rewrite !unlines_app, unlines_all, <- frees_text.
  unfold display, sections. cbv zeta. cbn [map List.concat]. rewrite app_nil_r, <- !app_assoc.
  repeat (f_equal;
    [first [ apply multi_text; reflexivity | apply single_text; reflexivity | apply int_text; reflexivity
           | apply flags_text; reflexivity | apply genres_text | apply pair_text_eq | apply artworks_text
           | rewrite one_text; unfold format_advisory_rating, format_media_type, format_duration, format_channel_config,
               format_sample_rate, format_avg_bitrate, format_max_bitrate;
             match goal with |- match ?o with _ => _ end = _ => destruct o end; cbn [omap]; rewrite <- ?app_assoc; reflexivity
           | reflexivity ]|]).
  unfold unlines. cbn [map List.concat]. rewrite app_nil_r, <- !app_assoc. reflexivity.
Qed.

(** * The sections are well formed *)

Definition labels : list ustring := map word display_order.

Lemma keys_eq : forall t, all_keys (sections t) = labels.
Proof. intros t. reflexivity. Qed.

Fixpoint nodupb (l : list ustring) : bool :=
  match l with [] => true | x :: r => negb (existsb (ustr_eqb x) r) && nodupb r end.
Lemma nodupb_ok : forall l, nodupb l = true -> NoDup l.
Proof.
  induction l as [|x r IH]; intros H; constructor; cbn in H; apply andb_prop in H; destruct H as [A B]; [|auto].
  intros I. apply negb_true_iff in A. rewrite <- not_true_iff_false in A. apply A. apply existsb_exists.
  exists x. split; [exact I|]. destruct (ustr_eqb_spec x x); congruence.
Qed.

Lemma labels_nodup : NoDup labels.
Proof. apply nodupb_ok. vm_compute. reflexivity. Qed.

Lemma keys_nodup : forall t, NoDup (all_keys (sections t)).
Proof. intros t. rewrite keys_eq. apply labels_nodup. Qed.

Lemma wf_many : forall l p vs, plainb (word l) = true -> plainb (word p) = true ->
  wf_sect ([word l; word p], many_block l p vs).
Proof.
  intros l p vs L P. apply plainb_ok in L. apply plainb_ok in P.
  split; [repeat (apply Forall_cons; [assumption|]); apply Forall_nil|]. cbn [snd fst].
  destruct vs as [|v [|w vs]]; cbn [many_block wf_block key In]; auto 6.
Qed.

Lemma wf_one : forall l o, plainb (word l) = true -> wf_sect (sec_one l o).
Proof. intros l o L. apply plainb_ok in L. split; [repeat (apply Forall_cons; [assumption|]); apply Forall_nil|]. destruct o; cbn [sec_one sec_flag one_block flag_block fst snd wf_block key In]; auto 6. Qed.

Lemma wf_flag : forall l o, plainb (word l) = true -> wf_sect (sec_flag l o).
Proof. intros l o L. apply plainb_ok in L. split; [repeat (apply Forall_cons; [assumption|]); apply Forall_nil|]. destruct o; cbn [sec_one sec_flag one_block flag_block fst snd wf_block key In]; auto 6. Qed.

Lemma wf_genres : forall a, wf_sect ([word "genre"; word "genres"], genres_block a).
Proof.
  intros a. assert (plain (word "genre")) by (apply plainb_ok; reflexivity).
  assert (plain (word "genres")) by (apply plainb_ok; reflexivity).
  split; [repeat (apply Forall_cons; [assumption|]); apply Forall_nil|]. unfold genres_block. cbn [snd fst].
  destruct (Nat.ltb 1 (List.length (genres a))); [cbn [wf_block key In]; auto 6|].
  destruct (genre a); cbn [one_block wf_block key In]; auto 6.
Qed.

Lemma wf_sections : forall t, Forall wf_sect (sections t).
Proof.
  intros t. unfold sections. cbv zeta.
  repeat (constructor; [first [apply wf_many; reflexivity | apply wf_one; reflexivity | apply wf_flag; reflexivity | apply wf_genres]|]).
  constructor.
Qed.

(** * Every piece fits on a line *)

Lemma one_line_app : forall a b, one_line a -> one_line b -> one_line (a ++ b).
Proof. intros a b A B I. apply in_app_or in I. destruct I; contradiction. Qed.

Definition lineb (l : ustring) : bool := negb (existsb (N.eqb 10) l).
Lemma lineb_ok : forall l, lineb l = true -> one_line l.
Proof.
  intros l H I. unfold lineb in H. apply negb_true_iff in H. rewrite <- not_true_iff_false in H. apply H.
  apply existsb_exists. exists 10. auto.
Qed.

Lemma data_of_one_line : forall l i, Forall item_one_line l -> Forall data_one_line (data_of l i).
Proof.
  induction l as [|a l IH]; intros i H; [constructor|]. inversion H as [|? ? [_ A] B]; subst.
  cbn [data_of]. destruct (arg_eqb i (ad_ident a)); [exact A|apply IH, B].
Qed.

Lemma strings_one_line : forall d, Forall data_one_line d -> Forall one_line (filter_map data_string d).
Proof.
  induction d as [|x d IH]; intros H; [constructor|]. inversion H as [|? ? A B]; subst.
  destruct x; cbn [filter_map data_string]; try (apply IH; assumption); constructor; auto.
Qed.

Lemma get_strings_one_line : forall l i, Forall item_one_line l -> Forall one_line (get_strings i l).
Proof. intros l i H. apply strings_one_line, data_of_one_line, H. Qed.

Definition opt_one_line (o : option ustring) : Prop := match o with Some s => one_line s | None => True end.

Lemma get_string_one_line : forall l i, Forall item_one_line l -> opt_one_line (get_string i l).
Proof.
  intros l i H. pose proof (get_strings_one_line l i H) as G. unfold get_string, get_strings in *.
  destruct (strings_of l i); [exact I|]. inversion G; assumption.
Qed.

Lemma genre_name_one_line : forall c s, standard_genre_name c = Some s -> one_line s.
Proof.
  intros c s H. assert (A : In s STANDARD_GENRES).
  { unfold standard_genre_name in H. repeat match type of H with context [match ?x with _ => _ end] => destruct x end;
      try discriminate; eapply nth_error_In; eassumption. }
  apply lineb_ok. assert (B : forallb lineb STANDARD_GENRES = true) by (vm_compute; reflexivity).
  rewrite forallb_forall in B. apply B, A.
Qed.

Lemma genres_one_line : forall l, Forall item_one_line l -> Forall one_line (genres l).
Proof.
  intros l H. unfold genres. apply Forall_app. split; [|apply get_strings_one_line, H].
  induction (standard_genres l) as [|c r IH]; [constructor|]. cbn [filter_map].
  destruct (standard_genre_name c) eqn:E; [|exact IH]. constructor; [|exact IH]. eapply genre_name_one_line, E.
Qed.

Lemma genre_one_line : forall l, Forall item_one_line l -> opt_one_line (genre l).
Proof.
  intros l H. unfold genre. destruct (obind_opt (standard_genre l) standard_genre_name) as [s|] eqn:E.
  - destruct (standard_genre l); [|discriminate]. eapply genre_name_one_line, E.
  - apply get_string_one_line, H.
Qed.

Lemma one_sect_lines : forall l o, lineb (word l) = true -> opt_one_line o -> Forall one_line (sect_lines (sec_one l o)).
Proof.
  intros l [v|] L H; [|constructor]. constructor; [|constructor].
  apply one_line_app; [apply lineb_ok, L|]. apply one_line_app; [apply lineb_ok; reflexivity|exact H].
Qed.

Lemma many_lines : forall p vs, one_line p -> Forall one_line vs -> Forall one_line (block_lines (BMany p vs)).
Proof.
  intros p vs P V. constructor; [apply one_line_app; [exact P|apply lineb_ok; reflexivity]|].
  apply Forall_map. eapply Forall_impl; [|exact V]. intros v H. apply one_line_app; [apply lineb_ok; reflexivity|exact H].
Qed.

Lemma many_sect_lines : forall l p vs, lineb (word l) = true -> lineb (word p) = true -> Forall one_line vs ->
  Forall one_line (sect_lines ([word l; word p], many_block l p vs)).
Proof.
  intros l p [|v [|w vs]] L P V; unfold many_block.
  - constructor.
  - change (sect_lines ([word l; word p], Some (BOne (word l) v))) with (sect_lines (sec_one l (Some v))).
    apply one_sect_lines; [exact L|]. inversion V; assumption.
  - apply many_lines; [apply lineb_ok, P|exact V].
Qed.

Lemma flag_sect_lines : forall l b, lineb (word l) = true -> Forall one_line (sect_lines (sec_flag l b)).
Proof. intros l [|] L; [|constructor]. constructor; [apply lineb_ok, L|constructor]. Qed.

Lemma genres_sect_lines : forall a, Forall item_one_line a ->
  Forall one_line (sect_lines ([word "genre"; word "genres"], genres_block a)).
Proof.
  intros a H. unfold genres_block. destruct (Nat.ltb 1 (List.length (genres a))).
  - apply many_lines; [apply lineb_ok; reflexivity|apply genres_one_line, H].
  - apply one_sect_lines; [reflexivity|apply genre_one_line, H].
Qed.

Lemma art_one_line : forall x, one_line (art_line x).
Proof.
  intros x. unfold art_line. apply one_line_app; [destruct (img_format x); apply lineb_ok; reflexivity|].
  cbv zeta. destruct (blen (img_data x) <? 1024); [|destruct (blen (img_data x) <? 1024 * 1024)];
    repeat apply one_line_app; try apply dec_one_line; apply lineb_ok; reflexivity.
Qed.

Lemma pair_one_line : forall p, opt_one_line (pair_line p).
Proof.
  intros [[d|] [t|]]; cbn [pair_line opt_one_line]; repeat apply one_line_app; try apply dec_one_line; try exact I;
    apply lineb_ok; reflexivity.
Qed.

Lemma omap_one_line : forall {A} (g : A -> ustring) o, (forall x, one_line (g x)) -> opt_one_line (omap g o).
Proof. intros A g [x|] H; cbn; auto. Qed.

Lemma rating_one_line : forall x, one_line (rating_text x).
Proof. intros []; apply lineb_ok; reflexivity. Qed.
Lemma media_one_line : forall x, one_line (media_text x).
Proof. intros []; apply lineb_ok; reflexivity. Qed.
Lemma channel_one_line : forall x, one_line (channel_text x).
Proof. intros []; apply lineb_ok; reflexivity. Qed.
Lemma unit_one_line : forall n u, lineb (word u) = true -> one_line (dec n ++ word u).
Proof. intros n u H. apply one_line_app; [apply dec_one_line|apply lineb_ok, H]. Qed.
Lemma duration_one_line : forall d, one_line (duration_text d).
Proof.
  intros d. unfold duration_text. cbv zeta.
  repeat match goal with |- one_line (if ?c then _ else _) => destruct c end;
    repeat apply one_line_app; try apply dec_one_line; try apply pad_one_line; apply lineb_ok; reflexivity.
Qed.

Lemma sections_one_line : forall t, tag_one_line t -> Forall one_line (all_lines (sections t)).
Proof.
  intros t [_ H]. unfold all_lines. apply Forall_concat. apply Forall_map.
  pose proof (fun i => get_strings_one_line (tg_atoms t) i H) as S1.
  pose proof (fun i => get_string_one_line (tg_atoms t) i H) as S2.
  unfold sections. cbv zeta.
  repeat (constructor;
    [first [ apply many_sect_lines; [reflexivity|reflexivity|apply S1]
           | apply many_sect_lines; [reflexivity|reflexivity|apply Forall_map, Forall_forall; intros; apply art_one_line]
           | apply genres_sect_lines, H
           | apply flag_sect_lines; reflexivity
           | apply one_sect_lines; [reflexivity|apply S2]
           | apply one_sect_lines; [reflexivity|apply pair_one_line]
           | apply one_sect_lines; [reflexivity|]; apply omap_one_line; intros;
             first [apply dec_one_line | apply rating_one_line | apply media_one_line | apply duration_one_line
                   | apply channel_one_line | apply unit_one_line; reflexivity] ]|]).
  constructor.
Qed.

Lemma comma_one_line : forall l, Forall one_line l -> one_line (comma_separated l).
Proof.
  induction l as [|x l IH]; intros H; [intros []|]. inversion H; subst. cbn [comma_separated]. destruct l as [|y l]; [assumption|].
  repeat apply one_line_app; auto. apply lineb_ok. reflexivity.
Qed.

Lemma debug_one_line : forall dbg d, (forall s, one_line (dbg s)) -> one_line (debug_data dbg d).
Proof.
  intros dbg d H. assert (B : forall v, one_line (debug_bytes v)).
  { intros v. unfold debug_bytes. repeat apply one_line_app; try (apply lineb_ok; reflexivity).
    apply comma_one_line, Forall_map, Forall_forall. intros. apply dec_one_line. }
  destruct d; cbn [debug_data]; first [apply lineb_ok; reflexivity|
    apply one_line_app; [apply lineb_ok; reflexivity|apply one_line_app; [auto|apply lineb_ok; reflexivity]]].
Qed.

Lemma free_one_line : forall dbg a, (forall s, one_line (dbg s)) -> item_one_line a -> Forall one_line (free_lines dbg a).
Proof.
  intros dbg a D [I _]. unfold free_lines. destruct (ad_ident a) as [f|me na]; [constructor|]. destruct I as [A B].
  apply many_lines.
  - change (45 :: word "---:" ++ me ++ word ":" ++ na) with (word "----:" ++ me ++ word ":" ++ na).
    repeat apply one_line_app; try assumption; apply lineb_ok; reflexivity.
  - apply Forall_map, Forall_forall. intros d _. apply debug_one_line, D.
Qed.

Lemma lines_display : forall dbg t, (forall s, one_line (dbg s)) -> tag_one_line t ->
  lines (display dbg t) = tag_lines dbg t.
Proof.
  intros dbg t D T. rewrite display_lines. apply lines_unlines. unfold tag_lines.
  apply Forall_app. split; [apply sections_one_line, T|]. destruct T as [F T]. apply Forall_app. split.
  - apply Forall_concat, Forall_map. eapply Forall_impl; [|exact T]. intros a A. apply free_one_line; assumption.
  - constructor; [|constructor]. repeat apply one_line_app; try assumption; apply lineb_ok; reflexivity.
Qed.

(** * Finding things in the text *)

Lemma skip_free_field : forall dbg l a r, plain l -> field l (List.concat (map (free_lines dbg) a) ++ r) = field l r.
Proof.
  intros dbg l a r P. induction a as [|x a IH]; [reflexivity|]. cbn [map List.concat]. rewrite <- app_assoc.
  unfold free_lines at 1. destruct (ad_ident x) as [f|me na]; [exact IH|].
  rewrite field_skip; [exact IH|exact P|right; eexists; reflexivity|discriminate].
Qed.

Lemma skip_free_fields : forall dbg l p a r, plain l -> plain p ->
  fields l p (List.concat (map (free_lines dbg) a) ++ r) = fields l p r.
Proof.
  intros dbg l p a r P Q. induction a as [|x a IH]; [reflexivity|]. cbn [map List.concat]. rewrite <- app_assoc.
  unfold free_lines at 1. destruct (ad_ident x) as [f|me na]; [exact IH|].
  rewrite fields_skip; [exact IH|exact P|exact Q|right; eexists; reflexivity|..]; intros <-.
  - destruct P as [_ P]. cbn in P. destruct P. congruence.
  - destruct Q as [_ Q]. cbn in Q. destruct Q. congruence.
Qed.

Lemma skip_free_entries : forall dbg a r, entries r = [] -> entries (List.concat (map (free_lines dbg) a) ++ r) = [].
Proof.
  intros dbg a r E. induction a as [|x a IH]; [exact E|]. cbn [map List.concat]. rewrite <- app_assoc.
  unfold free_lines at 1. destruct (ad_ident x) as [f|me na]; [exact IH|]. reflexivity.
Qed.

Lemma word_plain : forall l, plainb (word l) = true -> plain (word l).
Proof. intros l. apply plainb_ok. Qed.

Lemma filetype_field : forall l v, plain l -> l <> word "filetype" -> field l [word "filetype" ++ word ": " ++ v] = None.
Proof.
  intros l v P N. cbn [field]. rewrite after_label.
  - destruct (ustr_eqb_spec l (word "filetype")); [contradiction|reflexivity].
  - apply plain_nc, P.
  - apply plain_nc, word_plain. reflexivity.
Qed.

Lemma filetype_fields : forall l p v, plain l -> plain p -> l <> word "filetype" ->
  fields l p [word "filetype" ++ word ": " ++ v] = [].
Proof.
  intros l p v P Q N. cbn [fields]. rewrite many_one, after_label; try (apply plain_nc; assumption);
    try (apply plain_nc, word_plain; reflexivity).
  destruct (ustr_eqb_spec l (word "filetype")); [contradiction|reflexivity].
Qed.

Lemma label_field : forall dbg t l o, In (sec_one l o) (sections t) -> plainb (word l) = true ->
  ustr_eqb (word l) (word "filetype") = false -> field (word l) (tag_lines dbg t) = o.
Proof.
  intros dbg t l o I P N. unfold tag_lines. pose proof (word_plain _ P) as W.
  erewrite find_field; [|apply keys_nodup|apply wf_sections|exact I|left; reflexivity|].
  - destruct o as [v|]; cbn [one_block]; [|reflexivity]. destruct (ustr_eqb_spec (word l) (word l)); congruence.
  - rewrite skip_free_field by exact W. apply filetype_field; [exact W|].
    intros E. rewrite E in N. discriminate.
Qed.

Lemma label_fields : forall dbg t l p vs, In ([word l; word p], many_block l p vs) (sections t) ->
  plainb (word l) = true -> plainb (word p) = true -> ustr_eqb (word l) (word "filetype") = false ->
  fields (word l) (word p) (tag_lines dbg t) = vs.
Proof.
  intros dbg t l p vs I P Q N. unfold tag_lines. apply word_plain in P. apply word_plain in Q.
  erewrite find_fields; [|apply keys_nodup|apply wf_sections|exact I|left; reflexivity|right; left; reflexivity|..].
  - destruct vs as [|v [|w vs]]; reflexivity.
  - rewrite skip_free_fields by assumption. apply filetype_fields; try assumption.
    intros E. rewrite E in N. discriminate.
  - apply skip_free_entries. reflexivity.
  - destruct vs as [|v [|w vs]]; cbn; auto.
Qed.

Lemma label_flag : forall dbg t l b, In (sec_flag l b) (sections t) -> plainb (word l) = true ->
  (In (word l) (tag_lines dbg t) <-> b = true).
Proof.
  intros dbg t l b I P. unfold tag_lines. pose proof (word_plain _ P) as W.
  erewrite find_flag; [|apply keys_nodup|apply wf_sections|exact I|left; reflexivity|].
  - destruct b; cbn; split; congruence.
  - intros H. apply in_app_or in H. destruct H as [H|[H|[]]].
    + apply in_concat in H. destruct H as (x & H & J). apply in_map_iff in H. destruct H as (a & <- & _).
      unfold free_lines in J. destruct (ad_ident a) as [f|me na]; [contradiction|].
      destruct J as [J|J].
      * rewrite <- J in W. destruct W as [_ W]. cbn in W. destruct W. congruence.
      * apply in_map_iff in J. destruct J as (v & J & _). rewrite <- J in W. destruct W as [_ W]. cbn in W. destruct W. congruence.
    + rewrite <- H in W. apply (plain_nc _ W). vm_compute. tauto.
Qed.

Lemma label_genres : forall dbg t, fields (word "genre") (word "genres") (tag_lines dbg t) =
  match genres (tg_atoms t), genre (tg_atoms t) with [_], None => [] | gs, _ => gs end.
Proof.
  intros dbg t. unfold tag_lines.
  erewrite find_fields with (ob := genres_block (tg_atoms t));
    [|apply keys_nodup|apply wf_sections|unfold sections; cbv zeta; do 6 right; left; reflexivity
     |left; reflexivity|right; left; reflexivity|..].
  - unfold genres_block. destruct (genres (tg_atoms t)) as [|x [|y r]] eqn:E; cbn [List.length Nat.ltb Nat.leb].
    + assert (G : genre (tg_atoms t) = None).
      { unfold genre, genres in *. apply app_eq_nil in E. destruct E as [E1 E2].
        unfold custom_genre, get_string. unfold custom_genres, get_strings in E2. rewrite E2.
        unfold standard_genre. destruct (standard_genres (tg_atoms t)) as [|c cs]; [reflexivity|]. cbn [filter_map] in E1.
        cbn. destruct (standard_genre_name c); [discriminate|reflexivity]. }
      rewrite G. reflexivity.
    + destruct (genre (tg_atoms t)) as [g|] eqn:G; cbn [one_block]; [|reflexivity].
      f_equal. unfold genre, genres, standard_genre in *. destruct (standard_genres (tg_atoms t)) as [|c cs].
      * cbn in G. cbn in E. unfold custom_genre, custom_genres, get_string, get_strings in *. rewrite E in G. cbn in G. congruence.
      * cbn [filter_map] in E. cbn in G. destruct (standard_genre_name c) as [s|].
        -- cbn [app] in E. congruence.
        -- unfold custom_genre, custom_genres, get_string, get_strings in *.
           destruct (filter_map standard_genre_name cs) as [|y ys] eqn:F.
           ++ cbn [app] in E. rewrite E in G. cbn in G. congruence.
           ++ cbn [app] in E. destruct ys; [|discriminate]. injection E as E1 E2. cbn in E2. rewrite E2 in G. discriminate.
    + reflexivity.
  - rewrite skip_free_fields by (apply word_plain; reflexivity). apply filetype_fields; try (apply word_plain; reflexivity).
    vm_compute. discriminate.
  - apply skip_free_entries. reflexivity.
  - unfold genres_block. destruct (Nat.ltb 1 (List.length (genres (tg_atoms t)))); [reflexivity|].
    destruct (genre (tg_atoms t)); cbn; auto.
Qed.

Lemma label_filetype : forall dbg t, field (word "filetype") (tag_lines dbg t) = Some (tg_ftyp t).
Proof.
  intros dbg t. unfold tag_lines. assert (P : plain (word "filetype")) by (apply word_plain; reflexivity).
  rewrite skip_field; [|exact P|apply wf_sections|].
  - rewrite skip_free_field by exact P. cbn [field]. rewrite after_label by (apply plain_nc, P). reflexivity.
  - rewrite keys_eq. assert (B : existsb (ustr_eqb (word "filetype")) labels = false) by (vm_compute; reflexivity).
    intros I. rewrite <- not_true_iff_false in B. apply B. apply existsb_exists. eexists. split; [exact I|].
    destruct (ustr_eqb_spec (word "filetype") (word "filetype")); congruence.
Qed.

(** * Numbers in the text *)

Lemma pair_line_read : forall p,
  match pair_line p with Some s => pair_text s | None => Some (None, None) end = Some p.
Proof.
  intros [[d|] [t|]]; cbn [pair_line].
  - unfold pair_text. destruct (dec_head d) as (x & xs & E & L & _).
    assert (A : after (word "? of ") (dec d ++ word " of " ++ dec t) = None).
    { rewrite E. cbn [app]. change (word "? of ") with (63 :: word " of "). cbn [after].
      destruct (N.eqb_spec 63 (48 + x)); [lia|reflexivity]. }
    rewrite A, number_dec by reflexivity. change (word " of " ++ dec t) with (32 :: word "of " ++ dec t).
    change (after (word " of ") (32 :: word "of " ++ dec t)) with (Some (dec t)). cbv iota. rewrite whole_dec. reflexivity.
  - unfold pair_text. destruct (dec_head d) as (x & xs & E & L & _).
    assert (A : after (word "? of ") (dec d) = None).
    { rewrite E. cbn [app]. change (word "? of ") with (63 :: word " of "). cbn [after].
      destruct (N.eqb_spec 63 (48 + x)); [lia|reflexivity]. }
    rewrite A. rewrite <- (app_nil_r (dec d)), number_dec by exact I. reflexivity.
  - unfold pair_text. change (after (word "? of ") (word "? of " ++ dec t)) with (Some (dec t)). cbv iota.
    rewrite whole_dec. reflexivity.
  - reflexivity.
Qed.

Definition unit_ok (u : string) : bool := match word u with [] => true | c :: _ => match digit c with None => true | _ => false end end.

Lemma unit_no_digit : forall u, unit_ok u = true -> no_digit (word u).
Proof. intros u H. unfold unit_ok in H. unfold no_digit. destruct (word u); [exact I|]. destruct (digit n); congruence. Qed.

Lemma with_unit_dec : forall n u v, unit_ok v = true ->
  with_unit u (dec n ++ word v) = if ustr_eqb (word v) (word u) then Some n else None.
Proof. intros n u v H. unfold with_unit. rewrite number_dec by (apply unit_no_digit, H). reflexivity. Qed.

Definition size_line (len : N) : ustring :=
  if len <? 1024 then dec len else if len <? 1024 * 1024 then dec (len / 1024) ++ word "k"
  else dec (len / (1024 * 1024)) ++ word "M".

Lemma size_line_read : forall len, exists q, size_text (size_line len) = Some q /\ rounded len q /\
  (snd q = 1 /\ len < 1024 \/ snd q = 1024 /\ 1024 <= len < 1024 * 1024 \/ snd q = 1048576 /\ 1024 * 1024 <= len).
Proof.
  intros len. unfold rounded, size_text, size_line. destruct (N.ltb_spec len 1024) as [L|L]; [|destruct (N.ltb_spec len (1024 * 1024)) as [M|M]].
  - exists (len, 1). rewrite <- (app_nil_r (dec len)). change (dec len ++ []) with (dec len ++ word "").
    rewrite with_unit_dec by reflexivity. cbn. repeat split; lia.
  - exists (len / 1024, 1024). rewrite !with_unit_dec by reflexivity. cbn. repeat split; lia.
  - exists (len / (1024 * 1024), 1048576). rewrite !with_unit_dec by reflexivity. cbn. repeat split; lia.
Qed.

Lemma art_line_read : forall x, exists q, image_text (art_line x) = Some (img_format x, q) /\
  rounded (blen (img_data x)) q /\
  (snd q = 1 /\ blen (img_data x) < 1024 \/ snd q = 1024 /\ 1024 <= blen (img_data x) < 1024 * 1024 \/
   snd q = 1048576 /\ 1024 * 1024 <= blen (img_data x)).
Proof.
  intros x. destruct (size_line_read (blen (img_data x))) as (q & E & R). exists q. split; [|exact R].
  assert (A : art_line x = match img_format x with FPng => word "png" | FJpeg => word "jpeg" | FBmp => word "bmp" end ++
    word " " ++ size_line (blen (img_data x))).
  { unfold art_line, size_line. cbv zeta. destruct (blen (img_data x) <? 1024); [reflexivity|].
    destruct (blen (img_data x) <? 1024 * 1024); reflexivity. }
  rewrite A. revert E. generalize (size_line (blen (img_data x))). intros s E.
  unfold image_text. destruct (img_format x); cbv iota.
  - change (after (word "png ") (word "bmp" ++ word " " ++ s)) with (@None ustring).
    change (after (word "jpeg ") (word "bmp" ++ word " " ++ s)) with (@None ustring).
    change (after (word "bmp ") (word "bmp" ++ word " " ++ s)) with (Some s). cbv iota. rewrite E. reflexivity.
  - change (after (word "png ") (word "jpeg" ++ word " " ++ s)) with (@None ustring).
    change (after (word "jpeg ") (word "jpeg" ++ word " " ++ s)) with (Some s). cbv iota. rewrite E. reflexivity.
  - change (after (word "png ") (word "png" ++ word " " ++ s)) with (Some s). cbv iota. rewrite E. reflexivity.
Qed.

Lemma duration_read : forall d, exists q, clock (duration_text d) = Some q /\ rounded d q /\ (0 < fst q \/ d = 0 /\ q = (0, 1)) /\
  In (snd q) [1; 1000; 1000000; 1000000000] /\ (snd q <> 1000000000 -> fst q < 1000).
Proof.
  intros d. unfold duration_text. cbv zeta.
  assert (C : forall (n : N) (u : ustring), no_digit u -> clock (dec n ++ u) =
    if ustr_eqb u (word "ns") then Some (n, 1) else if ustr_eqb u (181 :: word "s") then Some (n, 1000)
    else if ustr_eqb u (word "ms") then Some (n, 1000000) else if ustr_eqb u (word "s") then Some (n, 1000000000)
    else match after (word ":") u with
         | None => None
         | Some r1 =>
           match sixtieth r1 with
           | None => None
           | Some (b, []) => Some (60 * n + b, 1000000000)
           | Some (b, r2) =>
             match after (word ":") r2 with
             | None => None
             | Some r3 => match sixtieth r3 with
                          | Some (c, []) => Some (3600 * n + 60 * b + c, 1000000000)
                          | _ => None
                          end
             end
           end
         end).
  { intros n u H. unfold clock. rewrite number_dec by exact H. reflexivity. }
  remember (d / 1000000000) as T. remember (d mod 1000000000) as F.
  assert (DT : d = 1000000000 * T + F /\ F < 1000000000) by lia. clear HeqT HeqF.
  remember (F / 1000) as U. assert (1000 * U <= F < 1000 * U + 1000) by lia. clear HeqU.
  remember (F / 1000000) as M. assert (1000000 * M <= F < 1000000 * M + 1000000) by lia. clear HeqM.
  remember (T / 60) as Q. assert (60 * Q <= T < 60 * Q + 60) by lia. 
  remember (T mod 60) as S. assert (T = 60 * Q + S /\ S < 60) by lia. clear HeqQ HeqS.
  remember (Q / 60) as H'. remember (Q mod 60) as Mi. assert (Q = 60 * H' + Mi /\ Mi < 60) by lia. clear HeqH' HeqMi.
  unfold rounded.
  destruct (N.eqb_spec H' 0) as [Hz|Hz]; [destruct (N.eqb_spec Mi 0) as [Mz|Mz];
    [destruct (N.eqb_spec S 0) as [Sz|Sz]; [destruct (N.eqb_spec M 0) as [Lz|Lz]; [destruct (N.eqb_spec U 0) as [Uz|Uz]|]|]|]|].
  - exists (F, 1). rewrite C by reflexivity. split; [reflexivity|]. cbn [fst snd]. repeat split; try lia; try (cbn; tauto).
    destruct (N.eq_dec F 0) as [->|]; [right|left; lia]. split; [lia|reflexivity].
  - exists (U, 1000). change ([181] ++ txt "s") with (181 :: word "s"). rewrite C by reflexivity. split; [reflexivity|].
    cbn [fst snd]. repeat split; try lia; try (cbn; tauto).
  - exists (M, 1000000). rewrite C by reflexivity. split; [reflexivity|]. cbn [fst snd]. repeat split; try lia; try (cbn; tauto).
  - exists (S, 1000000000). rewrite C by reflexivity. split; [reflexivity|]. cbn [fst snd]. repeat split; try lia; try (cbn; tauto).
  - exists (60 * Mi + S, 1000000000). rewrite C by reflexivity. split.
    + change (after (word ":") (txt ":" ++ pad2 S)) with (Some (pad2 S)). cbv iota.
      rewrite <- (app_nil_r (pad2 S)), sixtieth_pad by lia. reflexivity.
    + cbn [fst snd]. repeat split; try lia; try (cbn; tauto).
  - exists (3600 * H' + 60 * Mi + S, 1000000000). rewrite C by reflexivity. split.
    + change (after (word ":") (txt ":" ++ pad2 Mi ++ txt ":" ++ pad2 S)) with (Some (pad2 Mi ++ txt ":" ++ pad2 S)). cbv iota.
      rewrite sixtieth_pad by lia. change (txt ":" ++ pad2 S) with (58 :: pad2 S). cbv iota.
      change (after (word ":") (58 :: pad2 S)) with (Some (pad2 S)). cbv iota.
      rewrite <- (app_nil_r (pad2 S)), sixtieth_pad by lia. reflexivity.
    + cbn [fst snd]. repeat split; try lia; try (cbn; tauto).
Qed.

(** * Named values *)

Lemma media_read : forall x, named_value media_names (media_text x) = Some x.
Proof. intros []; reflexivity. Qed.
Lemma rating_read : forall x, named_value rating_names (rating_text x) = Some x.
Proof. intros []; reflexivity. Qed.
Lemma channel_read : forall x, named_value channel_names (channel_text x) = Some x.
Proof. intros []; reflexivity. Qed.

Lemma read_omap : forall {A B} (g : ustring -> option B) (h : A -> ustring) (k : A -> B) o,
  (forall x, g (h x) = Some (k x)) -> read_line g (omap h o) = Some (omap k o).
Proof. intros A B g h k [x|] H; cbn; [rewrite H|]; reflexivity. Qed.

Lemma read_omap_id : forall {A} (g : ustring -> option A) (h : A -> ustring) o,
  (forall x, g (h x) = Some x) -> read_line g (omap h o) = Some o.
Proof. intros A g h [x|] H; cbn; [rewrite H|]; reflexivity. Qed.

(** * Freeform items *)

Lemma after_app : forall p r, after p (p ++ r) = Some r.
Proof. induction p as [|x p IH]; intros r; [reflexivity|]. cbn. rewrite N.eqb_refl. apply IH. Qed.

Lemma numbers_read : forall ns fuel r, ns <> [] -> (List.length ns <= fuel)%nat ->
  numbers fuel (comma_separated (map dec ns) ++ word "]" ++ r) = Some (ns, r).
Proof.
  induction ns as [|n ns IH]; intros fuel r H L; [congruence|]. destruct fuel as [|fuel]; [cbn in L; lia|].
  cbn [map comma_separated numbers]. destruct ns as [|m ns].
  - cbn [map]. rewrite number_dec by reflexivity.
    change (after (word ", ") (word "]" ++ r)) with (@None ustring). cbv iota. rewrite after_app. reflexivity.
  - destruct (map dec (m :: ns)) as [|y ys] eqn:E; [discriminate|]. rewrite <- E in *. clear E y ys.
    rewrite <- !app_assoc. rewrite number_dec by reflexivity. rewrite (after_app (word ", ")).
    rewrite IH; [reflexivity|discriminate|cbn in *; lia].
Qed.

Lemma comma_length : forall ns, (List.length ns <= List.length (comma_separated (map dec ns)))%nat.
Proof.
  induction ns as [|n ns IH]; [auto|]. destruct (dec_head n) as (d & ds & E & _).
  cbn [map comma_separated]. destruct ns as [|m ns]; [rewrite E; cbn; lia|].
  destruct (map dec (m :: ns)) as [|y ys] eqn:F; [discriminate|].
  rewrite E. cbn [app]. cbn [List.length] in *. rewrite app_length. cbn [List.length] in *. rewrite app_length. lia.
Qed.

Lemma bytes_read : forall v r, number_list (debug_bytes v ++ r) = Some (map b2n v, r).
Proof.
  intros v r. unfold debug_bytes, number_list. rewrite <- !app_assoc. change (txt "[") with (word "["). rewrite after_app.
  change (txt "]") with (word "]"). rewrite <- (map_map b2n dec).
  destruct v as [|b v]; [reflexivity|]. set (ns := map b2n (b :: v)).
  assert (A : after (word "]") (comma_separated (map dec ns) ++ word "]" ++ r) = None).
  { unfold ns. cbn [map comma_separated]. destruct (dec_head (b2n b)) as (d & ds & E & L & _).
    change (word "]") with [93]. destruct (map dec (map b2n v)); rewrite E; cbn [app after];
      destruct (N.eqb_spec 93 (48 + d)); (lia || reflexivity). }
  rewrite A. apply numbers_read; [discriminate|]. rewrite app_length. pose proof (comma_length ns). lia.
Qed.

Lemma debug_shows : forall dbg d, shows dbg d (debug_data dbg d).
Proof.
  intros dbg []; cbn [shows debug_data]; try reflexivity; eexists; (split; [apply after_app|apply bytes_read]).
Qed.

Lemma free_shows : forall dbg a, is_freeform a = true -> shows_item dbg a (free_lines dbg a).
Proof.
  intros dbg a H. unfold is_freeform in H. unfold shows_item, free_lines. destruct (ad_ident a) as [f|me na]; [discriminate|].
  cbn [block_lines]. split.
  - cbn [app]. rewrite <- !app_assoc. reflexivity.
  - rewrite map_map. induction (ad_data a) as [|d r IH]; [constructor|]. cbn [map]. constructor; [|exact IH].
    eexists. split; [apply indented_indent|apply debug_shows].
Qed.

Lemma frees_show : forall dbg l,
  exists bs, List.concat (map (free_lines dbg) l) = List.concat bs /\ Forall2 (shows_item dbg) (filter is_freeform l) bs.
Proof.
  intros dbg l. induction l as [|a l (bs & E & F)]; [exists []; split; [reflexivity|constructor]|].
  cbn [map List.concat filter]. destruct (is_freeform a) eqn:Ea.
  - exists (free_lines dbg a :: bs). split; [cbn; rewrite E; reflexivity|]. constructor; [apply free_shows, Ea|exact F].
  - exists bs. split; [|exact F]. unfold is_freeform in Ea. unfold free_lines at 1.
    destruct (ad_ident a); [exact E|discriminate].
Qed.
