(** Properties of the text of a tag ([Display]): C45-C48. *)

From Coq Require Import List NArith ZArith Bool Lia String.
From Verif Require Import Base Utf Types TagApi Display DisplaySpec DisplayProofs DisplayText.
Import ListNotations.
Local Open Scope list_scope.

(** A tag with a bit of everything. *)
Definition sample_tag : tag := {|
  tg_ftyp := word "M4A 0.0.2";
  tg_info := {| ai_duration := Some 3723004005006; ai_channels := Some FiveOne; ai_rate := Some Hz44100;
                ai_max := Some 320000; ai_avg := Some 256000 |};
  tg_atoms := [AtomData (IFourcc TITLE) [DUtf8 (word "year: 1999")];
               AtomData (IFourcc ARTIST) [DUtf8 (word "    x"); DUtf16 (word "filetype: y")];
               AtomData (IFourcc STANDARD_GENRE) [DReserved (be 2 5); DReserved (be 2 9)];
               AtomData (IFourcc TRACK_NUMBER) [DReserved (be 8 (12 * 65536))];
               AtomData (IFourcc COMPILATION) [DBeSigned (be 1 1)];
               AtomData (IFourcc BPM) [DBeSigned (be 2 128)];
               AtomData (IFourcc ARTWORK) [DPng (repeat Byte.x00 3000); DJpeg (be 2 7)];
               AtomData (IFourcc MEDIA_TYPE) [DBeSigned (be 1 10)];
               AtomData (IFreeform (word "a:b") (word "c")) [DUtf8 (word "d"); DBeSigned (be 3 66051)]] |}.

Lemma sample_one_line : tag_one_line sample_tag.
Proof.
  split; [apply lineb_ok; reflexivity|].
  repeat (apply Forall_cons; [split; [|repeat (apply Forall_cons; [exact I || (apply lineb_ok; reflexivity)|]); apply Forall_nil]|]);
    try exact I; [split; apply lineb_ok; reflexivity|apply Forall_nil].
Qed.

(** * C45: the text shows what the accessors return *)

Local Open Scope string_scope.
Theorem C45_strings : forall dbg t, (forall s, one_line (dbg s)) -> tag_one_line t ->
  Forall (fun '(label, i) => field (word label) (lines (display dbg t)) = get_string i (tg_atoms t))
    [("album", AFourcc ALBUM); ("title", AFourcc TITLE); ("year", AFourcc YEAR); ("copyright", AFourcc COPYRIGHT);
     ("encoder", AFourcc ENCODER); ("tv show name", AFourcc TV_SHOW_NAME);
     ("tv network name", AFourcc TV_NETWORK_NAME); ("tv episode name", AFourcc TV_EPISODE_NAME);
     ("movement", AFourcc MOVEMENT); ("work", AFourcc WORK); ("isrc", ISRC); ("lyrics", AFourcc LYRICS)] /\
  Forall (fun '(label, plural, i) => fields (word label) (word plural) (lines (display dbg t)) = get_strings i (tg_atoms t))
    [("album artist", "album artists", AFourcc ALBUM_ARTIST); ("artist", "artists", AFourcc ARTIST);
     ("composer", "composers", AFourcc COMPOSER); ("lyricist", "lyricists", LYRICIST);
     ("grouping", "groupings", AFourcc GROUPING); ("description", "descriptions", AFourcc DESCRIPTION);
     ("comment", "comments", AFourcc COMMENT); ("category", "categories", AFourcc CATEGORY);
     ("keyword", "keywords", AFourcc KEYWORD)] /\
  field (word "filetype") (lines (display dbg t)) = Some (tg_ftyp t).
Proof.
  intros dbg t D T. rewrite lines_display by assumption.
  assert (S : forall s, In s (sections t) -> In s (sections t)) by auto. unfold sections in S at 1. cbv zeta in S.
  split; [|split].
  - repeat (apply Forall_cons; [apply label_field; [apply S; cbn [In]; auto 60|reflexivity|reflexivity]|]). apply Forall_nil.
  - repeat (apply Forall_cons; [apply label_fields; [apply S; cbn [In]; unfold sec_multi; auto 60|reflexivity..]|]). apply Forall_nil.
  - apply label_filetype.
Qed.
Print Assumptions C45_strings.
Example C45_strings_example : let ls := lines (display (fun s => s) sample_tag) in
  field (word "title") ls = Some (word "year: 1999") /\ field (word "year") ls = None /\
  fields (word "artist") (word "artists") ls = [word "    x"; word "filetype: y"].
Proof. vm_compute. auto. Qed.

Theorem C45_numbers : forall dbg t, (forall s, one_line (dbg s)) -> tag_one_line t ->
  Forall (fun '(label, size, i) =>
      read_line whole_number (field (word label) (lines (display dbg t))) = Some (get_int size i (tg_atoms t)))
    [("tv episode", 4%nat, AFourcc TV_EPISODE); ("tv season", 4%nat, AFourcc TV_SEASON); ("bpm", 2%nat, AFourcc BPM);
     ("movement count", 2%nat, AFourcc MOVEMENT_COUNT); ("movement index", 2%nat, AFourcc MOVEMENT_INDEX)] /\
  Forall (fun '(label, i) =>
      match field (word label) (lines (display dbg t)) with
      | Some s => pair_text s
      | None => Some (None, None)
      end = Some (get_pair i (tg_atoms t)))
    [("track", AFourcc TRACK_NUMBER); ("disc", AFourcc DISC_NUMBER)] /\
  Forall (fun '(label, i) => In (word label) (lines (display dbg t)) <-> get_flag i (tg_atoms t) = true)
    [("show movement", AFourcc SHOW_MOVEMENT); ("gapless playback", AFourcc GAPLESS_PLAYBACK);
     ("compilation", AFourcc COMPILATION)] /\
  read_line (named_value media_names) (field (word "media type") (lines (display dbg t))) =
    Some (get_media_type (tg_atoms t)) /\
  read_line (named_value rating_names) (field (word "advisory rating") (lines (display dbg t))) =
    Some (get_advisory_rating (tg_atoms t)).
Proof.
  intros dbg t D T. rewrite lines_display by assumption.
  assert (S : forall s, In s (sections t) -> In s (sections t)) by auto. unfold sections in S at 1. cbv zeta in S.
  split; [|split; [|split; [|split]]].
  - repeat (apply Forall_cons; [erewrite label_field; [apply read_omap_id, whole_dec|apply S; cbn [In]; auto 60|reflexivity|reflexivity]|]).
    apply Forall_nil.
  - repeat (apply Forall_cons; [erewrite label_field; [apply pair_line_read|apply S; cbn [In]; auto 60|reflexivity|reflexivity]|]).
    apply Forall_nil.
  - repeat (apply Forall_cons; [apply label_flag; [apply S; cbn [In]; auto 60|reflexivity]|]). apply Forall_nil.
  - erewrite label_field; [apply read_omap_id, media_read|apply S; cbn [In]; auto 60|reflexivity|reflexivity].
  - erewrite label_field; [apply read_omap_id, rating_read|apply S; cbn [In]; auto 60|reflexivity|reflexivity].
Qed.
Print Assumptions C45_numbers.
Example C45_numbers_example : let ls := lines (display (fun s => s) sample_tag) in
  field (word "track") ls = Some (word "? of 12") /\ field (word "bpm") ls = Some (word "128").
Proof. vm_compute. auto. Qed.
Local Close Scope string_scope.

(** The text of different tags can be the same when a value contains a line break. *)
Theorem C45_line_break_refuted : exists t t', (forall dbg, display dbg t = display dbg t') /\
  get_string (AFourcc YEAR) (tg_atoms t) <> get_string (AFourcc YEAR) (tg_atoms t').
Proof.
  pose (mk := fun l => {| tg_ftyp := []; tg_info := tg_info sample_tag; tg_atoms := l |}).
  exists (mk [AtomData (IFourcc TITLE) [DUtf8 (word "x" ++ [10] ++ word "year: y")]]).
  exists (mk [AtomData (IFourcc TITLE) [DUtf8 (word "x")]; AtomData (IFourcc YEAR) [DUtf8 (word "y")]]).
  split; [intros dbg; vm_compute; reflexivity|vm_compute; discriminate].
Qed.
Print Assumptions C45_line_break_refuted.

(** * C46: amounts are rounded down *)

(** The duration: never the text of more than the duration, off by less than one unit; the unit is
    the coarsest of ns, us, ms and s in which the amount is not zero. *)
Theorem C46_audio : forall dbg t, (forall s, one_line (dbg s)) -> tag_one_line t ->
  let ls := lines (display dbg t) in
  let i := tg_info t in
  match ai_duration i, field (word "duration") ls with
  | None, None => True
  | Some d, Some s => exists q, clock s = Some q /\ rounded d q /\ (0 < fst q \/ d = 0 /\ q = (0, 1)) /\
      In (snd q) [1; 1000; 1000000; 1000000000] /\ (snd q <> 1000000000 -> fst q < 1000)
  | _, _ => False
  end /\
  read_line (named_value channel_names) (field (word "channel config") ls) = Some (ai_channels i) /\
  read_line (with_unit "Hz") (field (word "sample rate") ls) = Some (omap hz (ai_rate i)) /\
  read_line (with_unit "kbps") (field (word "average bitrate") ls) = Some (omap (fun c => c / 1024) (ai_avg i)) /\
  read_line (with_unit "kbps") (field (word "maximum bitrate") ls) = Some (omap (fun c => c / 1024) (ai_max i)).
Proof.
  intros dbg t D T. cbv zeta. rewrite lines_display by assumption.
  assert (S : forall s, In s (sections t) -> In s (sections t)) by auto. unfold sections in S at 1. cbv zeta in S.
  assert (U : forall u n, unit_ok u = true -> with_unit u (dec n ++ word u) = Some n).
  { intros u n H. rewrite with_unit_dec by exact H. destruct (ustr_eqb_spec (word u) (word u)); congruence. }
  split; [|split; [|split; [|split]]].
  - erewrite (label_field dbg t "duration"); [|apply S; cbn [In]; auto 60|reflexivity|reflexivity].
    destruct (ai_duration (tg_info t)) as [d|]; cbn [omap]; [apply duration_read|exact I].
  - erewrite label_field; [apply read_omap_id, channel_read|apply S; cbn [In]; auto 60|reflexivity|reflexivity].
  - erewrite label_field; [apply read_omap; intros; apply U; reflexivity|apply S; cbn [In]; auto 60|reflexivity|reflexivity].
  - erewrite label_field; [apply read_omap with (h := fun c => dec (c / 1024) ++ word "kbps"); intros; apply U; reflexivity
                          |apply S; cbn [In]; auto 60|reflexivity|reflexivity].
  - erewrite label_field; [apply read_omap with (h := fun c => dec (c / 1024) ++ word "kbps"); intros; apply U; reflexivity
                          |apply S; cbn [In]; auto 60|reflexivity|reflexivity].
Qed.
Print Assumptions C46_audio.
Example C46_audio_example : let ls := lines (display (fun s => s) sample_tag) in
  field (word "duration") ls = Some (word "1:02:03") /\ clock (word "1:02:03") = Some (3723, 1000000000) /\
  field (word "maximum bitrate") ls = Some (word "312kbps").
Proof. vm_compute. auto. Qed.

(** Artworks: as many as there are, in order, with their format and size. *)
Theorem C46_artworks : forall dbg t, (forall s, one_line (dbg s)) -> tag_one_line t ->
  Forall2 (fun x s => exists q, image_text s = Some (img_format x, q) /\ rounded (blen (img_data x)) q /\
      (snd q = 1 /\ blen (img_data x) < 1024 \/ snd q = 1024 /\ 1024 <= blen (img_data x) < 1024 * 1024 \/
       snd q = 1048576 /\ 1024 * 1024 <= blen (img_data x)))
    (artworks (tg_atoms t)) (fields (word "artwork") (word "artworks") (lines (display dbg t))).
Proof.
  intros dbg t D T. rewrite lines_display by assumption.
  assert (S : forall s, In s (sections t) -> In s (sections t)) by auto. unfold sections in S at 1. cbv zeta in S.
  erewrite label_fields; [|apply S; cbn [In]; auto 60|reflexivity..]. clear S.
  induction (artworks (tg_atoms t)) as [|x r IH]; [constructor|]. cbn [map]. constructor; [apply art_line_read|exact IH].
Qed.
Print Assumptions C46_artworks.
Example C46_artworks_example :
  map image_text (fields (word "artwork") (word "artworks") (lines (display (fun s => s) sample_tag))) =
  [Some (FPng, (2, 1024)); Some (FJpeg, (2, 1))].
Proof. vm_compute. reflexivity. Qed.

(** * C47: order *)

(** First the documented headings, in order and each at most once, then the freeform items in the
    order of the tag with all their values, then the file type. *)
Theorem C47_order : forall dbg t, (forall s, one_line (dbg s)) -> tag_one_line t ->
  exists front blocks,
    lines (display dbg t) = front ++ List.concat blocks ++ [word "filetype: " ++ tg_ftyp t] /\
    subseq (headings front) (map word display_order) /\
    Forall2 (shows_item dbg) (filter is_freeform (tg_atoms t)) blocks.
Proof.
  intros dbg t D T. rewrite lines_display by assumption. unfold tag_lines.
  destruct (frees_show dbg (tg_atoms t)) as (bs & E & F). exists (all_lines (sections t)), bs.
  split; [rewrite E; reflexivity|]. split; [|exact F].
  change (map word display_order) with labels. rewrite <- (keys_eq t). apply headings_sects, wf_sections.
Qed.
Print Assumptions C47_order.
Theorem C47_labels_distinct : NoDup (map word display_order).
Proof. exact labels_nodup. Qed.
Print Assumptions C47_labels_distinct.
Example C47_example : headings (lines (display (fun s => s) sample_tag)) = map word
  ["artists"; "title"; "genres"; "track"; "artworks"; "media type"; "bpm"; "duration"; "channel config"; "sample rate";
   "average bitrate"; "maximum bitrate"; "compilation"; "----"; "filetype"]%string.
Proof. vm_compute. reflexivity. Qed.
Example C47_no_item_dropped : forall dbg, exists r, shows dbg (DBeSigned (be 3 66051)) (word "Data::BeSigned(" ++ r).
Proof. intros dbg. exists (word "[1, 2, 3])"). eexists. split; [apply after_app|vm_compute; reflexivity]. Qed.

(** * C48: genres *)

(** All genres are shown, except that a single genre is hidden when the first standard genre code has
    no name and there is no custom genre. *)
Theorem C48_genres_partial : forall dbg t, (forall s, one_line (dbg s)) -> tag_one_line t ->
  fields (word "genre") (word "genres") (lines (display dbg t)) =
  match genres (tg_atoms t), genre (tg_atoms t) with [_], None => [] | gs, _ => gs end.
Proof. intros dbg t D T. rewrite lines_display by assumption. apply label_genres. Qed.
Print Assumptions C48_genres_partial.
Theorem C48_genres_refuted : exists t, tag_one_line t /\
  forall dbg, (forall s, one_line (dbg s)) ->
  fields (word "genre") (word "genres") (lines (display dbg t)) <> genres (tg_atoms t) /\ genres (tg_atoms t) <> [].
Proof.
  pose (t := {| tg_ftyp := []; tg_info := tg_info sample_tag;
                tg_atoms := [AtomData (IFourcc STANDARD_GENRE) [DReserved (be 2 200); DReserved (be 2 1)]] |}).
  assert (T : tag_one_line t).
  { split; [intros []|]. apply Forall_cons; [|apply Forall_nil]. split; [exact I|].
    repeat (apply Forall_cons; [exact I|]). apply Forall_nil. }
  exists t. split; [exact T|]. intros dbg D. rewrite lines_display by assumption. rewrite label_genres.
  split; vm_compute; discriminate.
Qed.
Print Assumptions C48_genres_refuted.
Theorem C48_all_genres_partial : forall dbg t, (forall s, one_line (dbg s)) -> tag_one_line t ->
  (forall c r, standard_genres (tg_atoms t) = c :: r -> standard_genre_name c <> None) ->
  fields (word "genre") (word "genres") (lines (display dbg t)) = genres (tg_atoms t).
Proof.
  intros dbg t D T H. rewrite C48_genres_partial by assumption.
  destruct (genres (tg_atoms t)) as [|g [|h r]] eqn:E; try reflexivity.
  destruct (genre (tg_atoms t)) as [x|] eqn:G; [reflexivity|exfalso].
  unfold genres, genre, standard_genre in *. destruct (standard_genres (tg_atoms t)) as [|c cs].
  - cbn in E, G. unfold custom_genre, custom_genres, get_string, get_strings in *. rewrite E in G. discriminate.
  - cbn in G. destruct (standard_genre_name c) eqn:N; [discriminate|]. apply (H c cs eq_refl N).
Qed.
Print Assumptions C48_all_genres_partial.
Example C48_example : (forall c r, standard_genres (tg_atoms sample_tag) = c :: r -> standard_genre_name c <> None) /\
  fields (word "genre") (word "genres") (lines (display (fun s => s) sample_tag)) = [word "Disco"; word "Jazz"].
Proof. split; [intros c r; vm_compute; intros [= <- _]; discriminate|vm_compute; reflexivity]. Qed.
