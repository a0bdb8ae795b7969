(** C52 (see properties.jsonl): guarantees for the bytes of a file, with hypotheses that can be evaluated; and
    the crate's own tests (tests/test.rs) on the crate's own files, run in the model. *)

From Coq Require Import List NArith ZArith Bool Lia Arith String.
From Coq Require Import ZifyBool ZifyNat ZifyN.
From Verif Require Import Base BaseLemmas Utf UtfLemmas Types Stream Parse Find Write TagApi TagOps TagSpec FileSpec ParseLemmas ReadProofs
  ExampleFile ReadFacts NewMeans WriteBytes DumpProofs ScanProofs AdjustProofs WriteProofs WriteMain UpdateMeans UpdateTwice
  EditSpec EditProofs OffsetProofs WriteExample Props_Read Props_ReadErr Props_Dump Props_Write Props_Write2 Accept Samples.
Import ListNotations.
Local Open Scope list_scope.

(** * C52: what an accepted file can rely on *)

(** Reading returns the tag found by taking the file apart. *)
Theorem C52_read : forall b f t m fuel, accept b = Some (f, t) -> blen b < N.of_nat fuel -> read_tag fuel m b = Ok t.
Proof.
  intros b f t m fuel A Fu. apply accept_ok in A. destruct A as (-> & D & G). apply C15_read_returns_content; assumption.
Qed.
Print Assumptions C52_read.

(** Writing succeeds, the written items are read, file type and audio parameters stay. *)
Theorem C52_write : forall b f t items cap fuel m m', accept b = Some (f, t) -> updatableb f items = true ->
  let w := write_tag cap fuel m items b in
  blen b < N.of_nat fuel -> blen (wr_file w) < N.of_nat fuel ->
  wr_res w = Ok tt /\ read_tag fuel m' (wr_file w) = Ok (Tag (tg_ftyp t) (tg_info t) items).
Proof.
  intros b f t items cap fuel m m' A U w Fu Fw. pose proof (updatableb_ok _ _ _ _ A U) as U'. apply accept_ok in A. destruct A as (-> & D & G).
  subst w. destruct (write_ok cap fuel m f items U' Fu) as (ops & W & _). rewrite W in *. cbn [wr_res wr_file] in *. split; [reflexivity|].
  apply C15_read_returns_content; [apply U'|apply updated_describes; assumption|exact Fw].
Qed.
Print Assumptions C52_write.

(** Chunk offsets: tests for the conditions of C04. *)
Definition noneb (id : fourcc) (l : list atom) : bool := match named_kids id l with [] => true | _ => false end.
Fixpoint one_sidedb (x l : list atom) : bool :=
  match l with
  | [] => true
  | a :: r => (negb (is_named (id4 "moov") a) || noneb (id4 "mdat") x || noneb (id4 "mdat") r) && one_sidedb (x ++ [a]) r
  end.
Fixpoint traks_before_udta (l : list atom) : bool :=
  match l with
  | [] => true
  | a :: r => (negb (is_named (id4 "udta") a) || noneb (id4 "trak") r) && traks_before_udta r
  end.
Lemma noneb_ok : forall id l, noneb id l = true -> named_kids id l = [].
Proof. intros id l. unfold noneb. destruct (named_kids id l); [reflexivity|discriminate]. Qed.
Lemma named_is : forall id a, a_id a = id -> is_named id a = true.
Proof. intros id a H. unfold is_named. destruct (fourcc_dec (a_id a) id); [reflexivity|contradiction]. Qed.
Lemma one_sidedb_ok : forall l, one_sidedb [] l = true -> one_sided l.
Proof.
  assert (H : forall x z mv y, one_sidedb z (x ++ mv :: y) = true -> a_id mv = id4 "moov" ->
            named_kids (id4 "mdat") (z ++ x) = [] \/ named_kids (id4 "mdat") y = []).
  { induction x as [|a x IH]; intros z mv y E J; cbn [app one_sidedb] in E; apply andb_true_iff in E; destruct E as [E E'].
    - rewrite (named_is _ _ J) in E. cbn [negb orb] in E. apply orb_true_iff in E. rewrite app_nil_r.
      destruct E; [left|right]; apply noneb_ok; assumption.
    - specialize (IH _ _ _ E' J). rewrite <- app_assoc in IH. exact IH. }
  intros l E x mv y -> J. exact (H x [] mv y E J).
Qed.
Lemma traks_before_udta_ok : forall x u y, traks_before_udta (x ++ u :: y) = true -> a_id u = id4 "udta" -> named_kids (id4 "trak") y = [].
Proof.
  induction x as [|a x IH]; intros u y E J; cbn [app traks_before_udta] in E; apply andb_true_iff in E; destruct E as [E E'].
  - rewrite (named_is _ _ J) in E. apply noneb_ok, E.
  - exact (IH _ _ E' J).
Qed.
Definition relocatable (f : list atom) (items : list atom_data) : bool :=
  one_sidedb [] f && forallb (fun mv => traks_before_udta (a_kids mv)) (named_kids (id4 "moov") f) &&
  forallb (in_rangeb (displacement items f)) (file_tables f).

(** Every chunk addressed by the file is found again, and so are all other atoms. *)
Theorem C52_media : forall b f t items cap fuel m, accept b = Some (f, t) -> updatableb f items = true -> relocatable f items = true ->
  blen b < N.of_nat fuel ->
  exists g, tiles (wr_file (write_tag cap fuel m items b)) g /\ chunks_kept f g /\ file_edit f g.
Proof.
  intros b f t items cap fuel m A U R Fu. pose proof (updatableb_ok _ _ _ _ A U) as U'. apply accept_ok in A. destruct A as (-> & D & G).
  unfold relocatable in R. repeat rewrite andb_true_iff in R. destruct R as ((O & T) & I).
  destruct (write_ok cap fuel m f items U' Fu) as (ops & -> & _). exists (update_file items f). split; [apply render_tiles, U'|].
  assert (E : editable f) by apply U'. split; [|exact (file_edit_update items f t D E)].
  apply (chunks_update items f t); try assumption; [apply in_reachb_ok, I|apply one_sidedb_ok, O|].
  intros mv x u y Im J K Ju. rewrite forallb_forall in T. specialize (T mv). rewrite K in T.
  eapply traks_before_udta_ok; [|exact Ju]. apply T. unfold named_kids. apply filter_In. split; [exact Im|apply named_is, J].
Qed.
Print Assumptions C52_media.

(** * The tests of the crate *)

Definition decide {A} (dec : forall a b : A, {a = b} + {a <> b}) (a b : A) : bool := if dec a b then true else false.
Definition option_dec {A} (dec : forall a b : A, {a = b} + {a <> b}) (a b : option A) : {a = b} + {a <> b}.
Proof. decide equality. Defined.
Definition ustring_dec : forall a b : ustring, {a = b} + {a <> b} := list_eq_dec N.eq_dec.
Definition img_dec (a b : img) : {a = b} + {a <> b}.
Proof. decide equality; [apply list_eq_dec, byte_dec|decide equality]. Defined.
Definition media_dec (a b : media_type) : {a = b} + {a <> b}.
Proof. decide equality. Defined.
Definition rating_dec (a b : advisory_rating) : {a = b} + {a <> b}.
Proof. decide equality. Defined.
Definition info_dec (a b : audio_info) : {a = b} + {a <> b}.
Proof. decide equality; apply option_dec; first [apply N.eq_dec|decide equality]. Defined.

Definition is_str (i : ident_arg) (s : string) (l : atoms) : bool := decide (option_dec ustring_dec) (get_string i l) (Some (str s)).
Definition are_strs (i : ident_arg) (s : list string) (l : atoms) : bool := decide (list_eq_dec ustring_dec) (get_strings i l) (map str s).
Definition is_num (a : option N) (b : option N) : bool := decide (option_dec N.eq_dec) a b.
Definition is_pair (i : ident_arg) (n t : option N) (l : atoms) : bool :=
  is_num (fst (get_pair i l)) n && is_num (snd (get_pair i l)) t && is_num (get_number i l) n && is_num (get_total i l) t.
Definition is_art (x : img) (l : atoms) : bool := decide (option_dec img_dec) (artwork l) (Some x).

Definition TRACKS := AFourcc TRACK_NUMBER.
Definition DISCS := AFourcc DISC_NUMBER.

(** [get_tag_1], [get_tag_2], tests/test.rs 40-94. *)
Definition get_tag (ra : advisory_rating) (kind : string) (bpm d dt : N) (enc : string) (mt : media_type) (n nt : N) (year : string) (art : img) : atoms :=
  let S i name := OpSetString i (str (kind ++ " " ++ name)) in
  TagOps.run_ops []
    [OpSetAdvisoryRating ra; S (AFourcc ALBUM) "ALBUM"; S (AFourcc ALBUM_ARTIST) "ALBUM ARTIST"; S (AFourcc ARTIST) "ARTIST";
     OpSetInt16 (AFourcc BPM) bpm; S (AFourcc CATEGORY) "CATEGORY"; S (AFourcc COMMENT) "COMMENT"; OpSetFlag (AFourcc COMPILATION);
     S (AFourcc COMPOSER) "COMPOSER"; S (AFourcc COPYRIGHT) "COPYRIGHT"; S (AFourcc DESCRIPTION) "DESCRIPTION"; OpSetPair true d dt;
     OpSetString (AFourcc ENCODER) (str enc); OpSetFlag (AFourcc GAPLESS_PLAYBACK); OpSetGenre (str "Hard Rock"); S (AFourcc GROUPING) "GROUPING";
     S (AFourcc KEYWORD) "KEYWORD"; S (AFourcc LYRICS) "LYRICS"; OpSetMediaType mt; S (AFourcc TITLE) "TITLE"; OpSetPair false n nt;
     OpSetString (AFourcc YEAR) (str year); OpSetArtwork art; S ISRC "ISRC"; S LYRICIST "LYRICIST"]%string.
Definition get_tag_1 : atoms := get_tag RExplicit "TEST" 132 1 2 "Lavf58.29.100" MTNormal 7 13 "2013" (Img FPng artwork_png).
Definition get_tag_2 : atoms := get_tag RInoffensive "NEW" 98 2 0 "Lavf58.12.100" MTAudioBook 3 7 "1998" (Img FJpeg (list_byte_of_string "NEW ARTWORK")).

(** The assertions common to [assert_tag_1] - [assert_tag_3], tests/test.rs 96-210. *)
Definition assert_tag (ra : advisory_rating) (kind : string) (bpm : N) (d dt : option N) (enc : string) (mt : media_type) (n nt : option N)
    (year : string) (art : img) (l : atoms) : bool :=
  let S i name := is_str i (kind ++ " " ++ name) l in
  (decide (option_dec rating_dec) (get_advisory_rating l) (Some ra) &&
   S (AFourcc ALBUM) "ALBUM" && S (AFourcc ALBUM_ARTIST) "ALBUM ARTIST" && is_num (get_int 2 (AFourcc BPM) l) (Some bpm) &&
   S (AFourcc CATEGORY) "CATEGORY" && S (AFourcc COMMENT) "COMMENT" && get_flag (AFourcc COMPILATION) l && S (AFourcc COMPOSER) "COMPOSER" &&
   S (AFourcc COPYRIGHT) "COPYRIGHT" && S (AFourcc DESCRIPTION) "DESCRIPTION" && is_pair DISCS d dt l && is_str (AFourcc ENCODER) enc l &&
   get_flag (AFourcc GAPLESS_PLAYBACK) l && S (AFourcc GROUPING) "GROUPING" && S (AFourcc KEYWORD) "KEYWORD" && S (AFourcc LYRICS) "LYRICS" &&
   decide (option_dec media_dec) (get_media_type l) (Some mt) && S (AFourcc TITLE) "TITLE" && is_pair TRACKS n nt l &&
   is_str (AFourcc YEAR) year l && is_art art l && S ISRC "ISRC")%string.
Definition is_genre (g : string) (l : atoms) : bool := decide (option_dec ustring_dec) (genre l) (Some (str g)).
Definition are_genres (g : list string) (l : atoms) : bool := decide (list_eq_dec ustring_dec) (genres l) (map str g).
Definition assert_tag_1 (l : atoms) : bool :=
  assert_tag RExplicit "TEST" 132 (Some 1) (Some 2) "Lavf58.29.100" MTNormal (Some 7) (Some 13) "2013" (Img FPng artwork_png) l &&
  is_str (AFourcc ARTIST) "TEST ARTIST" l && is_genre "Hard Rock" l && is_str LYRICIST "TEST LYRICIST" l.
Definition assert_tag_2 (l : atoms) : bool :=
  assert_tag RInoffensive "NEW" 98 (Some 2) None "Lavf58.12.100" MTAudioBook (Some 3) (Some 7) "1998" (Img FJpeg (list_byte_of_string "NEW ARTWORK")) l &&
  is_str (AFourcc ARTIST) "NEW ARTIST" l && is_genre "Hard Rock" l && is_str LYRICIST "NEW LYRICIST" l.
Definition assert_tag_3 (l : atoms) : bool :=
  (assert_tag RExplicit "TEST" 132 (Some 1) (Some 2) "Lavf58.29.100" MTNormal (Some 7) (Some 13) "2013" (Img FPng artwork_png) l &&
   are_strs (AFourcc ARTIST) ["ARTIST 1"; "ARTIST 2"; "ARTIST 3"] l && are_genres ["GENRE 1"; "GENRE 2"; "GENRE 3"; "GENRE 4"] l &&
   are_strs LYRICIST ["LYRICIST 1"; "LYRICIST 2"; "LYRICIST 3"; "LYRICIST 4"; "LYRICIST 5"] l)%string.
(** [assert_readonly], tests/test.rs 213-220. *)
Definition assert_readonly (t : tag) : bool :=
  decide info_dec (tg_info t) (AudioInfo (Some 486000000) (Some Mono) (Some Hz44100) (Some 69000) (Some 64776)) &&
  decide ustring_dec (tg_ftyp t) (str "M4A " ++ [0; 0; 2; 0] ++ str "isomiso2").

(** Reading with enough steps, in both profiles. *)
Definition reads_as (f : bytes) (p : tag -> bool) : bool :=
  forallb (fun m => match read_tag (S (List.length f)) m f with Ok t => p t | _ => false end) [Checked; Wrapping].
(** Writing with the capacity of [BufWriter]; the model and the specification agree on the new file. *)
Definition written (f : bytes) (items : atoms) : option bytes :=
  match accept f with
  | None => None
  | Some (a, t) =>
    let w := write_tag 8192 (S (List.length f)) Checked items f in
    if updatableb a items && relocatable a items && match wr_res w with Ok _ => true | _ => false end && same_bytes (wr_file w) (render_all (update_file items a))
    then Some (wr_file w) else None
  end.
Definition write_test (f : bytes) (items : atoms) (p : tag -> bool) : bool :=
  match written f items with Some g => reads_as g p | None => false end.

(** [read_sample], [read_sample_multi_data], tests/test.rs 271-285. *)
Example read_sample : reads_as sample_m4a (fun t => assert_tag_1 (tg_atoms t) && assert_readonly t) = true.
Proof. vm_compute. reflexivity. Qed.
Example read_sample_multi_data : reads_as sample_multi_data_m4a (fun t => assert_tag_3 (tg_atoms t) && assert_readonly t) = true.
Proof. vm_compute. reflexivity. Qed.
(** [write], [write_same], [write_bigger], [write_empty], tests/test.rs 287-356. *)
Example test_write : write_test sample_m4a get_tag_2 (fun t => assert_tag_2 (tg_atoms t) && assert_readonly t) = true.
Proof. vm_compute. reflexivity. Qed.
Example test_write_same : write_test sample_m4a get_tag_1 (fun t => assert_tag_1 (tg_atoms t) && assert_readonly t) = true.
Proof. vm_compute. reflexivity. Qed.
Example test_write_bigger :
  write_test sample_m4a (add_data get_tag_2 (AFourcc (id4 "test")) (DReserved (map (fun n => n2b (N.of_nat n mod 255)) (seq 0 2048))))
    (fun t => assert_tag_2 (tg_atoms t) && assert_readonly t) = true.
Proof. vm_compute. reflexivity. Qed.
Example test_write_empty : write_test sample_m4a [] (fun t => is_empty (tg_atoms t) && assert_readonly t) = true.
Proof. vm_compute. reflexivity. Qed.
(** [dump_1], [dump_2], tests/test.rs 358-384. *)
Definition dump_test (items : atoms) (p : atoms -> bool) : bool :=
  match dump_tag_to Checked items with (l, Ok _) => reads_as (List.concat l) (fun t => p (tg_atoms t)) | _ => false end.
Example dump_1 : dump_test get_tag_1 assert_tag_1 = true.
Proof. vm_compute. reflexivity. Qed.
Example dump_2 : dump_test get_tag_2 assert_tag_2 = true.
Proof. vm_compute. reflexivity. Qed.

(** The body of [sample_files], tests/test.rs 232-269: an empty tag, then the first, then the second. *)
Definition sample_files_test (f : bytes) : bool :=
  match accept f with
  | None => false
  | Some (_, t) =>
    let info s := decide info_dec (tg_info s) (tg_info t) in
    match written f [] with
    | None => false
    | Some f0 =>
      reads_as f0 (fun s => is_empty (tg_atoms s) && info s) &&
      match written f0 get_tag_1 with
      | None => false
      | Some f1 =>
        reads_as f1 (fun s => assert_tag_1 (tg_atoms s) && info s) &&
        match written f1 get_tag_2 with
        | None => false
        | Some f2 => reads_as f2 (fun s => assert_tag_2 (tg_atoms s) && info s)
        end
      end
    end
  end.
Example sample_files : sample_files_test sample_m4a && sample_files_test sample_multi_data_m4a = true.
Proof. vm_compute. reflexivity. Qed.

(** [multiple_values], tests/test.rs 386-425. *)
Example multiple_values :
  let A := AFourcc ARTIST in
  let l1 := TagOps.run_ops [] (map (fun s => OpAddString A (str s)) ["1"; "2"; "3"; "4"])%string in
  let l2 := TagOps.run_ops l1 [OpSetString A (str "5")] in
  let l3 := TagOps.run_ops l2 (map (fun s => OpAddString A (str s)) ["6"; "7"])%string in
  let l4 := TagOps.run_ops l3 [OpRemoveItem A] in
  (is_str A "1" l1 && are_strs A ["1"; "2"; "3"; "4"] l1 && is_str A "5" l2 && are_strs A ["5"] l2 &&
   is_str A "5" l3 && are_strs A ["5"; "6"; "7"] l3 && are_strs A [] l4)%string = true /\ get_string A l4 = None.
Proof. vm_compute. split; reflexivity. Qed.

(** [genre_handling], tests/test.rs 427-484. *)
Definition std_name (n : nat) : ustring := nth n STANDARD_GENRES [].
Example genre_handling :
  let l0 : atoms := [] in
  let l1 := TagOps.run_ops l0 [OpSetGenre (std_name 38)] in
  let l2 := TagOps.run_ops l1 [OpSetGenre (str "CUSTOM GENRE")] in
  let l3 := TagOps.run_ops l2 [OpRemoveGenres] in
  let l4 := TagOps.run_ops l3 [OpAddString (AFourcc CUSTOM_GENRE) (str "GENRE 1"); OpAddStandardGenre 7;
                        OpAddString (AFourcc CUSTOM_GENRE) (str "GENRE 2"); OpAddStandardGenre 24] in
  let l5 := TagOps.run_ops l4 [OpRemoveStandardGenres] in
  let l6 := TagOps.run_ops l5 [OpRemoveItem (AFourcc CUSTOM_GENRE)] in
  (genre l0, standard_genre l0, custom_genre l0) = (None, None, None) /\
  (genre l1, standard_genre l1, custom_genre l1) = (Some (std_name 38), None, Some (std_name 38)) /\
  (genre l2, standard_genre l2, custom_genre l2) = (Some (str "CUSTOM GENRE"), None, Some (str "CUSTOM GENRE")) /\
  (genre l3, genres l3) = (None, []) /\
  genres l4 = [std_name 6; std_name 23; str "GENRE 1"; str "GENRE 2"] /\ standard_genres l4 = [7; 24] /\
  custom_genres l4 = [str "GENRE 1"; str "GENRE 2"] /\
  standard_genres l5 = [] /\ hd_error (genres l5) = Some (str "GENRE 1") /\ custom_genres l6 = [] /\ genres l6 = [].
Proof. vm_compute. repeat split. Qed.

(** [track_disc_handling], tests/test.rs 486-531. *)
Example track_disc_handling :
  let l0 : atoms := [] in
  let l1 := TagOps.run_ops l0 [OpSetPairNumber false 4; OpSetPairTotal false 16; OpSetPairNumber true 2; OpSetPairTotal true 3] in
  let l2 := TagOps.run_ops l1 [OpRemovePairNumber false; OpRemovePairNumber true] in
  let l3 := TagOps.run_ops l2 [OpRemovePairTotal false; OpRemovePairTotal true] in
  is_pair TRACKS None None l0 && is_pair DISCS None None l0 &&
  is_pair TRACKS (Some 4) (Some 16) l1 && is_pair DISCS (Some 2) (Some 3) l1 &&
  is_pair TRACKS None (Some 16) l2 && is_pair DISCS None (Some 3) l2 &&
  is_pair TRACKS None None l3 && is_pair DISCS None None l3 = true.
Proof. vm_compute. reflexivity. Qed.

(** [work_movement_handling], tests/test.rs 533-559. *)
Example work_movement_handling :
  let l0 : atoms := [] in
  let l1 := TagOps.run_ops l0 [OpSetString (AFourcc MOVEMENT) (str "TEST MOVEMENT"); OpSetInt16 (AFourcc MOVEMENT_COUNT) 8;
                        OpSetInt16 (AFourcc MOVEMENT_INDEX) 1; OpSetFlag (AFourcc SHOW_MOVEMENT); OpSetString (AFourcc WORK) (str "TEST WORK")] in
  (get_string (AFourcc MOVEMENT) l0, get_int 2 (AFourcc MOVEMENT_COUNT) l0, get_int 2 (AFourcc MOVEMENT_INDEX) l0,
   get_flag (AFourcc SHOW_MOVEMENT) l0, get_string (AFourcc WORK) l0) = (None, None, None, false, None) /\
  (get_string (AFourcc MOVEMENT) l1, get_int 2 (AFourcc MOVEMENT_COUNT) l1, get_int 2 (AFourcc MOVEMENT_INDEX) l1,
   get_flag (AFourcc SHOW_MOVEMENT) l1, get_string (AFourcc WORK) l1) = (Some (str "TEST MOVEMENT"), Some 8, Some 1, true, Some (str "TEST WORK")).
Proof. vm_compute. split; reflexivity. Qed.

(** [tag_destructuring], tests/test.rs 561-617: every value is taken once. *)
Definition take_test (l : atoms) (x : ident_arg * string) : atoms :=
  let (r, l') := take_string (fst x) l in
  if decide (option_dec ustring_dec) r (Some (str (snd x))) && match get_string (fst x) l' with None => true | _ => false end then l' else l.
Example tag_destructuring :
  let vals := [(AFourcc ALBUM, "TEST ALBUM"); (AFourcc ALBUM_ARTIST, "TEST ALBUM ARTIST"); (AFourcc ARTIST, "TEST ARTIST");
               (AFourcc CATEGORY, "TEST CATEGORY"); (AFourcc COMMENT, "TEST COMMENT"); (AFourcc COMPOSER, "TEST COMPOSER");
               (AFourcc COPYRIGHT, "TEST COPYRIGHT"); (AFourcc DESCRIPTION, "TEST DESCRIPTION"); (AFourcc ENCODER, "Lavf58.29.100");
               (AFourcc GROUPING, "TEST GROUPING"); (AFourcc KEYWORD, "TEST KEYWORD"); (AFourcc LYRICS, "TEST LYRICS");
               (AFourcc TITLE, "TEST TITLE"); (AFourcc YEAR, "2013")]%string in
  let l0 := TagOps.run_ops [] (map (fun x => OpSetString (fst x) (str (snd x))) vals ++
                        [OpSetGenre (str "TEST GENRE"); OpSetArtwork (Img FPng (list_byte_of_string "TEST ARTWORK"))]) in
  let l1 := fold_left take_test vals l0 in
  fst (take_genre l1) = Some (str "TEST GENRE") /\
  fst (take_artwork (snd (take_genre l1))) = Some (Img FPng (list_byte_of_string "TEST ARTWORK")) /\
  snd (take_artwork (snd (take_genre l1))) = [].
Proof. vm_compute. repeat split. Qed.

(** The hypotheses of C52 hold for the sample file and the tags of the tests. *)
Definition C52_hypotheses (b : bytes) (items : atoms) : bool :=
  match accept b with Some (f, t) => updatableb f items && relocatable f items && (blen (tg_atoms t) =? 32) | None => false end.
Lemma C52_hypotheses_ok : forall b items, C52_hypotheses b items = true ->
  exists f t, accept b = Some (f, t) /\ updatableb f items = true /\ relocatable f items = true /\ blen (tg_atoms t) = 32.
Proof.
  intros b items H. unfold C52_hypotheses in H. destruct (accept b) as [[f t]|]; [|discriminate]. exists f, t.
  repeat rewrite andb_true_iff in H. destruct H as ((A & B) & C). apply N.eqb_eq in C. auto.
Qed.
Example C52_example : exists f t, accept sample_m4a = Some (f, t) /\ updatableb f get_tag_1 = true /\ relocatable f get_tag_1 = true /\
  blen (tg_atoms t) = 32.
Proof. apply C52_hypotheses_ok. vm_compute. reflexivity. Qed.
