(** Theorems about writing: C37, C38, C39 (see properties.jsonl and Props_Write). *)

From Coq Require Import List NArith ZArith Bool Lia Arith String.
From Coq Require Import ZifyBool ZifyNat ZifyN.
From Verif Require Import Base BaseLemmas Utf UtfLemmas Types Stream Parse Find Write TagApi TagOps TagSpec FileSpec ParseLemmas ReadProofs
  ExampleFile ReadFacts NewMeans WriteBytes DumpProofs WriteState ScanProofs AdjustProofs WriteProofs WriteMain UpdateMeans UpdateTwice
  EditSpec EditProofs OffsetProofs WriteExample StoreSpec StoreProofs SizeProofs Props_Read Props_ReadErr Props_Dump Props_Write Props_Write2.
Import ListNotations.
Local Open Scope list_scope.

(** * C38: reading a tag and writing it back *)

(** The file is smaller than 4 GiB (less 77 bytes, the space the missing containers could take). *)
Theorem C38_write_back : forall cap fuel m f t,
  describes f t -> editable f -> no_utf16 (tg_atoms t) ->
  blen (render_all f) + 77 < 2 ^ 32 -> blen (render_all f) + 77 < N.of_nat fuel ->
  read_tag fuel m (render_all f) = Ok t /\
  wr_res (write_tag cap fuel m (tg_atoms t) (render_all f)) = Ok tt /\
  read_tag fuel m (wr_file (write_tag cap fuel m (tg_atoms t) (render_all f))) = Ok t.
Proof.
  intros cap fuel m f t D E U L Fu. destruct (read_updatable f t D E U L) as [Up Le]. split; [|].
  - apply C15_read_returns_content; [apply small_good; lia|exact D|lia].
  - destruct (write_ok cap fuel m f (tg_atoms t) Up ltac:(lia)) as (ops & -> & _). split; [reflexivity|]. cbn [wr_file].
    apply C15_read_returns_content; [apply Up| |lia]. pose proof (updated_describes f t (tg_atoms t) Up D) as X. destruct t. exact X.
Qed.
Print Assumptions C38_write_back.
(** Writing it back once more changes no byte (the chunk offsets stay in range). *)
Theorem C38_twice : forall cap fuel m f t,
  describes f t -> editable f -> no_utf16 (tg_atoms t) -> in_reach (tg_atoms t) f ->
  blen (render_all f) + 77 < 2 ^ 32 -> blen (render_all f) + 77 < N.of_nat fuel ->
  let w1 := write_tag cap fuel m (tg_atoms t) (render_all f) in
  let w2 := write_tag cap fuel m (tg_atoms t) (wr_file w1) in
  wr_res w1 = Ok tt /\ wr_res w2 = Ok tt /\ wr_file w2 = wr_file w1.
Proof.
  intros cap fuel m f t D E U R L Fu. destruct (read_updatable f t D E U L) as [Up Le]. apply C07_idempotent; [exact Up|exact R|lia|lia].
Qed.
Print Assumptions C38_twice.
Lemma ex_no_utf16 : no_utf16 ex_items.
Proof. unfold no_utf16. repeat constructor; intros s E; discriminate E. Qed.
Lemma ex_editable : editable ex_file.
Proof. apply editableb_ok. vm_compute. reflexivity. Qed.
Example C38_example :
  describes ex_file ex_tag /\ editable ex_file /\ no_utf16 (tg_atoms ex_tag) /\ in_reach (tg_atoms ex_tag) ex_file /\
  blen (render_all ex_file) = 799 /\
  let w := write_tag 512 2000 Checked (tg_atoms ex_tag) (render_all ex_file) in
  wr_file w <> render_all ex_file /\ read_tag 2000 Checked (wr_file w) = Ok ex_tag.
Proof.
  split; [exact ex_describes|]. split; [exact ex_editable|]. split; [exact ex_no_utf16|]. split; [apply in_reachb_ok; vm_compute; reflexivity|].
  split; [vm_compute; reflexivity|]. split; vm_compute; [discriminate|reflexivity].
Qed.

(** * C37: tags built through the public API *)

(** Where a tag comes from: a new one, or one read from a file without UTF-16 text. *)
Definition source (l : list atom_data) : Prop :=
  l = [] \/ exists f t, describes f t /\ no_utf16 (tg_atoms t) /\ l = tg_atoms t.
(** The sizes of the items, as announced by the library. *)
Definition announced (l : list atom_data) : N := nsum (map ad_len l).

(** Proved for operations that give no item the name `free`, store no UTF-16 text and no empty list of
    values.  What is missing: nothing else holds, see the refutations. *)
Theorem C37_careful_partial : forall cap fuel m f t l ops,
  describes f t -> good_sizes f -> editable f -> source l -> Forall careful ops ->
  let items := TagOps.run_ops l ops in
  blen (render_all f) + announced items + 85 < 2 ^ 32 -> blen (render_all f) + announced items + 85 < N.of_nat fuel ->
  wr_res (write_tag cap fuel m items (render_all f)) = Ok tt /\
  read_tag fuel m (wr_file (write_tag cap fuel m items (render_all f))) = Ok (Tag (tg_ftyp t) (tg_info t) items).
Proof.
  intros cap fuel m f t l ops D G E S C items L Fu.
  assert (Sl : storable l) by (destruct S as [->|(f0 & t0 & D0 & U0 & ->)]; [split; constructor|exact (read_storable f0 t0 D0 U0)]).
  pose proof (storable_run_ops ops l Sl C) as Si. fold items in Si.
  pose proof (small_updatable f t items D G E Si L) as Up. destruct (write_ok cap fuel m f items Up ltac:(lia)) as (o & -> & _). split; [reflexivity|]. cbn [wr_file].
  apply C15_read_returns_content; [apply Up|apply updated_describes; assumption|].
  pose proof (update_file_size items f t D E). pose proof (new_ilst_size items Si). unfold announced, total in *. lia.
Qed.
Print Assumptions C37_careful_partial.
Definition c37_ops : list tag_op :=
  [OpAddString (AFourcc ARTIST) (str "D"); OpRemovePairTotal false; OpSetData (AFreeform (str "m") (str "n")) (DBeSigned (raw [1; 2]));
   OpRetainData (fun i _ => negb (ident_eqb i (IFourcc TITLE))); OpSetArtworks [Img FJpeg (raw [9; 9])]].
Example C37_example :
  source ex_items /\ Forall careful c37_ops /\ describes ex_file ex_tag /\ good_sizes ex_file /\ editable ex_file /\
  idents (TagOps.run_ops ex_items c37_ops) = [IFreeform (str "com.apple.iTunes") (str "ISRC"); IFourcc ARTIST; IFourcc TRACK_NUMBER;
    IFreeform (str "m") (str "n"); IFourcc ARTWORK] /\
  read_tag 2000 Checked (wr_file (write_tag 100 2000 Checked (TagOps.run_ops ex_items c37_ops) (render_all ex_file))) =
    Ok (Tag (tg_ftyp ex_tag) (tg_info ex_tag) (TagOps.run_ops ex_items c37_ops)).
Proof.
  split; [right; exists ex_file, ex_tag; split; [exact ex_describes|split; [exact ex_no_utf16|reflexivity]]|].
  split. { unfold c37_ops. repeat constructor; cbn; discriminate. }
  split; [exact ex_describes|]. split; [exact ex_sizes|]. split; [exact ex_editable|]. split; vm_compute; reflexivity.
Qed.

(** An empty list of values: the file cannot be read any more. *)
Theorem C37_empty_values_refuted : exists f t ops, describes f t /\ good_sizes f /\ editable f /\
  let w := write_tag 8192 2000 Checked (TagOps.run_ops [] ops) (render_all f) in
  wr_res w = Ok tt /\ forall t', read_tag 2000 Checked (wr_file w) <> Ok t'.
Proof.
  exists ex_file, ex_tag, [OpSetStrings (AFourcc ARTIST) []]. split; [exact ex_describes|]. split; [exact ex_sizes|]. split; [exact ex_editable|].
  cbv zeta. split; [vm_compute; reflexivity|]. intro t'. vm_compute. discriminate.
Qed.
(** An item called `free` is lost. *)
Theorem C37_free_refuted : exists f t ops, describes f t /\ good_sizes f /\ editable f /\ TagOps.run_ops [] ops <> [] /\
  let w := write_tag 8192 2000 Checked (TagOps.run_ops [] ops) (render_all f) in
  wr_res w = Ok tt /\ read_tag 2000 Checked (wr_file w) = Ok (Tag (tg_ftyp t) (tg_info t) []).
Proof.
  exists ex_file, ex_tag, [OpSetData (AFourcc (id4 "free")) (DUtf8 (str "x"))]. split; [exact ex_describes|]. split; [exact ex_sizes|]. split; [exact ex_editable|].
  split; [vm_compute; discriminate|]. split; vm_compute; reflexivity.
Qed.
(** UTF-16 text is cut: half of it is lost. *)
Theorem C37_utf16_refuted : exists f t ops ops', describes f t /\ good_sizes f /\ editable f /\ TagOps.run_ops [] ops <> TagOps.run_ops [] ops' /\
  let w := write_tag 8192 2000 Checked (TagOps.run_ops [] ops) (render_all f) in
  wr_res w = Ok tt /\ read_tag 2000 Checked (wr_file w) = Ok (Tag (tg_ftyp t) (tg_info t) (TagOps.run_ops [] ops')).
Proof.
  exists ex_file, ex_tag, [OpSetData (AFourcc TITLE) (DUtf16 (str "abcd"))], [OpSetData (AFourcc TITLE) (DUtf16 (str "ab"))].
  split; [exact ex_describes|]. split; [exact ex_sizes|]. split; [exact ex_editable|]. split; [vm_compute; discriminate|]. split; vm_compute; reflexivity.
Qed.
(** [Tag::new] accepts two items with one identifier; they are merged. *)
Theorem C37_duplicates_refuted : exists f t items, describes f t /\ good_sizes f /\ editable f /\
  let w := write_tag 8192 2000 Checked items (render_all f) in
  wr_res w = Ok tt /\ exists items', items' <> items /\ read_tag 2000 Checked (wr_file w) = Ok (Tag (tg_ftyp t) (tg_info t) items').
Proof.
  exists ex_file, ex_tag, [AtomData (IFourcc TITLE) [DUtf8 (str "a")]; AtomData (IFourcc TITLE) [DUtf8 (str "b")]].
  split; [exact ex_describes|]. split; [exact ex_sizes|]. split; [exact ex_editable|]. cbv zeta. split; [vm_compute; reflexivity|].
  exists [AtomData (IFourcc TITLE) [DUtf8 (str "a"); DUtf8 (str "b")]]. split; [discriminate|vm_compute; reflexivity].
Qed.
Print Assumptions C37_empty_values_refuted.
Print Assumptions C37_free_refuted.
Print Assumptions C37_utf16_refuted.
Print Assumptions C37_duplicates_refuted.

(** * C39: reading from and writing to one file handle *)

(** Without a movie atom behind the cursor, both reading and writing fail and nothing is written. *)
Lemma behind : forall cap fuel m items fb p ks,
  small fb -> sits fb p (render_all ks) -> p + blen (render_all ks) = blen fb -> forallb fits ks = true -> named_kids (id4 "moov") ks = [] ->
  blen fb < N.of_nat fuel ->
  exists e, read_tag_from fuel m fb p = Err e /\ write_tag_to cap fuel m items fb p = WResult (Err e) fb [] /\ (ks = [] -> e = EIoEof).
Proof.
  intros cap fuel m items fb p ks Sm S L F N Fu. destruct ks as [|a r].
  - change (render_all []) with (@nil byte) in L. rewrite blen_nil in L. exists EIoEof.
    assert (P : ftyp_parse m fb p = Err EIoEof). { unfold ftyp_parse, parse_head, read_u32, bind. rewrite read_exact_short by lia. reflexivity. }
    unfold read_tag_from, write_tag_to, prepare, scan, bind. rewrite P. auto.
  - cbn [forallb] in F. apply andb_true_iff in F. destruct F as [Fa F]. rewrite render_all_cons in S. apply sits_app in S. destruct S as [Sa Sr].
    rewrite blen_render_all_cons in L. pose proof Sa as Sc. apply sits_content in Sc. pose proof Sa as Sh. rewrite render_eq in Sh. apply sits_app in Sh. destruct Sh as [Sh _].
    pose proof (parses_head a Fa fb p Sm Sh) as Ph. rewrite blen_header in Ph. fold (hlen a) in Ph.
    destruct (fourcc_dec (a_id a) (id4 "ftyp")) as [I|I].
    + destruct (dec8 (a_content a)) as [s|] eqn:E.
      * assert (P : ftyp_parse m fb p = Ok (s, p + asize a)).
        { apply dec8_correct in E. destruct E as [W E]. apply (ftyp_parses m a s Fa I W (eq_sym E) fb p Sm Sa). }
        assert (Q : remaining_stream_len m fb (p + asize a) = Ok (blen (render_all r), p + asize a)).
        { rewrite remaining_ok by (exact Sm || lia). do 2 f_equal. lia. }
        assert (LL : (List.length r < fuel)%nat) by (pose proof (kids_count r); unfold blen in *; lia).
        rewrite named_other in N by (rewrite I; discriminate). unfold small in Sm. change (blen (render a)) with (asize a) in Sr.
        exists (EAtomNotFound (id4 "moov")). split; [|split; [|discriminate]].
        -- unfold read_tag_from. erewrite bind_ok by exact P. erewrite bind_ok by exact Q. unfold bind. rewrite find_moov_none with (ks := r); auto; lia.
        -- unfold write_tag_to, prepare, scan. unfold bind at 1. erewrite bind_ok by exact P. erewrite bind_ok by exact Q.
           destruct (top_none m fuel r fuel (blen (render_all r)) 0 (None, None) fb (p + asize a) F N Sm Sr) as (b & Hb); try lia.
           erewrite bind_ok by exact Hb. cbn [fst]. reflexivity.
      * assert (P : ftyp_parse m fb p = Err EUtf8).
        { unfold ftyp_parse. erewrite bind_ok by exact Ph. unfold head_of at 1. cbn [hd_fourcc]. rewrite I. change (negb (fourcc_eqb (id4 "ftyp") FILETYPE)) with false. cbv iota.
          unfold head_of. cbn [hd_size]. unfold bind at 1, lift. rewrite content_len_of. unfold read_utf8, bind. unfold csize. rewrite (parses_vec (a_content a) _ eq_refl fb _ Sm Sc). rewrite E. reflexivity. }
        exists EUtf8. unfold read_tag_from, write_tag_to, prepare, scan, bind. rewrite P. repeat split. discriminate.
    + assert (P : ftyp_parse m fb p = Err ENoTag).
      { unfold ftyp_parse. erewrite bind_ok by exact Ph. unfold head_of. cbn [hd_fourcc].
        assert (X : fourcc_eqb (a_id a) FILETYPE = false). { destruct (fourcc_eqb (a_id a) FILETYPE) eqn:X; [|reflexivity]. exfalso. apply I. apply fourcc_eqb_eq in X. exact X. }
        rewrite X. reflexivity. }
      exists ENoTag. unfold read_tag_from, write_tag_to, prepare, scan, bind. rewrite P. repeat split. discriminate.
Qed.

(** Reading leaves the cursor behind the movie atom; writing (or reading again) through the same handle
    then fails for every well-formed file, whatever the tag. *)
Theorem C39_same_handle_refuted : forall cap fuel m f t items,
  good_sizes f -> describes f t -> blen (render_all f) < N.of_nat fuel ->
  exists p e, read_tag_from fuel m (render_all f) 0 = Ok (t, p) /\
    write_tag_to cap fuel m items (render_all f) p = WResult (Err e) (render_all f) [] /\
    read_tag_from fuel m (render_all f) p = Err e.
Proof.
  intros cap fuel m f t items G D Fu.
  destruct (read_described_end f [] t fuel m G D) as (ft & pre & mv & post & -> & J & N & R); [rewrite app_nil_r; apply G|exact Fu|].
  rewrite app_nil_r in R. assert (E : render_all (ft :: pre ++ mv :: post) = render_all (ft :: pre ++ [mv]) ++ render_all post).
  { rewrite <- render_all_app. f_equal. cbn [app]. rewrite <- app_assoc. reflexivity. }
  destruct (behind cap fuel m items (render_all (ft :: pre ++ mv :: post)) (blen (render_all (ft :: pre ++ [mv]))) post) as (e & H1 & H2 & _).
  - apply G.
  - exists (render_all (ft :: pre ++ [mv])), []. rewrite app_nil_r. split; [exact E|reflexivity].
  - rewrite E. rewrite blen_app. reflexivity.
  - destruct G as [F _]. cbn [forallb] in F. apply andb_true_iff in F. destruct F as [_ F]. rewrite forallb_app in F. apply andb_true_iff in F. destruct F as [_ F].
    cbn [forallb] in F. apply andb_true_iff in F. apply F.
  - exact N.
  - exact Fu.
  - exists (blen (render_all (ft :: pre ++ [mv]))), e. auto.
Qed.
Print Assumptions C39_same_handle_refuted.
Example C39_example : exists p, read_tag_from 2000 Checked (render_all ex_file) 0 = Ok (ex_tag, p) /\ p = 774 /\
  wr_res (write_tag_to 8192 2000 Checked ex_items (render_all ex_file) p) = Err ENoTag.
Proof. exists 774. split; [vm_compute; reflexivity|]. split; vm_compute; reflexivity. Qed.
(** After rewinding, the tag can be written back through the handle. *)
Theorem C39_rewound_partial : forall cap fuel m f t,
  describes f t -> editable f -> no_utf16 (tg_atoms t) ->
  blen (render_all f) + 77 < 2 ^ 32 -> blen (render_all f) + 77 < N.of_nat fuel ->
  exists p, read_tag_from fuel m (render_all f) 0 = Ok (t, p) /\
    let w := write_tag_to cap fuel m (tg_atoms t) (render_all f) 0 in
    wr_res w = Ok tt /\ read_tag fuel m (wr_file w) = Ok t.
Proof.
  intros cap fuel m f t D E U L Fu.
  destruct (C39_same_handle_refuted cap fuel m f t [] (small_good f ltac:(lia)) D ltac:(lia)) as (p & e & R & _). exists p. split; [exact R|].
  destruct (C38_write_back cap fuel m f t D E U L Fu) as (_ & H). exact H.
Qed.
Print Assumptions C39_rewound_partial.
