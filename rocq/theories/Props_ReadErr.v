(** Theorems about reading files that are not well-formed, and about strings, atom heads and typed
    values: C13, C14, C33 - C36, C41 (see properties.jsonl). *)

From Coq Require Import List NArith ZArith Bool Lia Arith String.
From Coq Require Import ZifyBool ZifyNat ZifyN.
From Verif Require Import Base BaseLemmas Utf UtfLemmas Types Stream Parse Find Write TagSpec FileSpec ParseLemmas ReadProofs
  ExampleFile ReadMore ReadSpec ReadFacts ReadBad ReadErr ReadTerm Modes.
Import ListNotations.
Local Open Scope list_scope.

Lemma read_ok : forall f t m fuel, good_sizes f -> describes f t -> blen (render_all f) < N.of_nat fuel ->
  read_tag fuel m (render_all f) = Ok t.
Proof. intros f t m fuel G D L. unfold read_tag. edestruct read_described as (q & ->); try eassumption. reflexivity. Qed.

(** The example file, seen from its item with the artists. *)
Definition ex_place : place :=
  Place ex_ftyp [Atom false (id4 "free") (zeros 3) []] [ex_mdat; Atom false (id4 "junk") (raw [1]) []]
    false (ex_mvhd :: ex_traks) [Atom true (id4 "iods") (raw [9]) []]
    false [Atom false (id4 "Xtra") (zeros 2) []] [Atom false (id4 "chpl") (zeros 1) []]
    false (zeros 4) [new_hdlr] [Atom false (id4 "free") (zeros 9) []]
    true [item_atom (AtomData (IFourcc TITLE) [DUtf8 (str "Title")]);
          item_atom (AtomData (IFreeform (str "com.apple.iTunes") (str "ISRC")) [DUtf8 (str "X1")])]
    [Atom false (id4 "free") (zeros 5) [];
     item_atom (AtomData (IFourcc TRACK_NUMBER) [DReserved (raw [0; 0; 0; 3; 0; 9; 0; 0])]);
     item_atom (AtomData (IFourcc ARTIST) [DUtf8 (str "C")])].
Definition ex_artist : atom := item_atom (AtomData (IFourcc ARTIST) [DUtf8 (str "A"); DUtf8 (str "B")]).
Example ex_place_file : put ex_place ex_artist = ex_file /\ describes (put ex_place ex_artist) ex_tag /\ effective ex_place.
Proof. split; [reflexivity|]. split; [exact ex_describes|]. repeat split; reflexivity. Qed.

(** * C33: streams that are not MP4 or have no movie atom *)

Theorem C33_no_movie : forall cap fuel m items ft s rest,
  good_sizes (ft :: rest) -> a_id ft = id4 "ftyp" -> wf_ustr s = true -> a_content ft = enc8 s ->
  named_kids (id4 "moov") rest = [] -> blen (render_all (ft :: rest)) < N.of_nat fuel ->
  read_tag fuel m (render_all (ft :: rest)) = Err (EAtomNotFound (id4 "moov")) /\
  write_tag cap fuel m items (render_all (ft :: rest)) =
    WResult (Err (EAtomNotFound (id4 "moov"))) (render_all (ft :: rest)) [].
Proof. exact no_moov. Qed.
Print Assumptions C33_no_movie.
Example C33_example :
  (good_sizes [ex_ftyp; ex_mdat] /\ a_content ex_ftyp = enc8 (str "M4A isom") /\ named_kids (id4 "moov") [ex_mdat] = [] /\
   read_tag 100 Checked (render_all [ex_ftyp; ex_mdat]) = Err (EAtomNotFound (id4 "moov"))) /\
  (slice (render_all [ex_mdat]) 4 4 <> list_byte_of_string "ftyp" /\ read_tag 100 Checked (render_all [ex_mdat]) = Err ENoTag /\
   write_tag 8192 100 Checked ex_items (render_all [ex_mdat]) = WResult (Err ENoTag) (render_all [ex_mdat]) []).
Proof. repeat split; vm_compute; first [reflexivity|discriminate]. Qed.

(** * C34: strings are decoded exactly *)

(** A UTF-8 value, wherever it is stored, is accepted iff it is UTF-8, and then decoded exactly. *)
Theorem C34_utf8_value : forall c it t e e' id loc bs m fuel,
  describes (put c it) t -> effective c -> id <> id4 "free" -> List.length loc = 4%nat ->
  let f := put c (value_item e e' id 1 loc bs) in
  good_sizes f -> blen (render_all f) < N.of_nat fuel ->
  (forall s, wf_ustr s = true -> enc8 s = bs -> exists l1 l2 items,
     items_around c l1 l2 /\ merged (l1 ++ AtomData (IFourcc id) [DUtf8 s] :: l2) items /\
     read_tag fuel m (render_all f) = Ok (Tag (tg_ftyp t) (tg_info t) items)) /\
  (~ utf8_bytes bs -> read_tag fuel m (render_all f) = Err EUtf8).
Proof.
  intros c it t e e' id loc bs m fuel D Ef Hid Hloc f G L. split.
  - intros s W E. assert (M : item_means (value_item e e' id 1 loc bs) (AtomData (IFourcc id) [DUtf8 s])).
    { subst bs. apply (value_item_means e e' id (DUtf8 s) loc W Hloc). }
    edestruct (item_exchange c it) as (l1 & l2 & items & A & Mg & D'); [exact D|exact Ef| |exact M|]; [exact Hid|].
    exists l1, l2, items. split; [exact A|]. split; [exact Mg|]. apply read_ok; assumption.
  - intro Bad. apply (read_bad_item fuel m c it (value_item e e' id 1 loc bs) (BadErr EUtf8)) with (t := t); try assumption.
    split; [exact Hid|]. split; [reflexivity|]. left.
    exists [], (Atom e' (id4 "data") (n2b 0 :: be 3 1 ++ loc ++ bs) []), [], []. split; [reflexivity|].
    split; [split; [constructor|exists [], []; split; constructor]|]. left. split; [reflexivity|].
    unfold a_content. cbn [a_pre a_kids render_all flat_map]. rewrite app_nil_r.
    eapply bd_utf8; [reflexivity|exact Hloc|exact Bad].
Qed.
Print Assumptions C34_utf8_value.

(** The same for UTF-16 values with an even number of bytes. *)
Theorem C34_utf16_value_partial : forall c it t e e' id loc bs m fuel,
  describes (put c it) t -> effective c -> id <> id4 "free" -> List.length loc = 4%nat ->
  Nat.even (List.length bs) = true ->
  let f := put c (value_item e e' id 2 loc bs) in
  good_sizes f -> blen (render_all f) < N.of_nat fuel ->
  (forall s, wf_ustr s = true -> flat_map (be 2) (enc16 s) = bs -> exists l1 l2 items,
     items_around c l1 l2 /\ merged (l1 ++ AtomData (IFourcc id) [DUtf16 s] :: l2) items /\
     read_tag fuel m (render_all f) = Ok (Tag (tg_ftyp t) (tg_info t) items)) /\
  (~ utf16_be_bytes bs -> read_tag fuel m (render_all f) = Err EUtf16).
Proof.
  intros c it t e e' id loc bs m fuel D Ef Hid Hloc Ev f G L. split.
  - intros s W E. assert (M : item_means (value_item e e' id 2 loc bs) (AtomData (IFourcc id) [DUtf16 s])).
    { subst bs. apply (value_item_means e e' id (DUtf16 s) loc W Hloc). }
    edestruct (item_exchange c it) as (l1 & l2 & items & A & Mg & D'); [exact D|exact Ef| |exact M|]; [exact Hid|].
    exists l1, l2, items. split; [exact A|]. split; [exact Mg|]. apply read_ok; assumption.
  - intro Bad. apply (read_bad_item fuel m c it (value_item e e' id 2 loc bs) (BadErr EUtf16)) with (t := t); try assumption.
    split; [exact Hid|]. split; [reflexivity|]. left.
    exists [], (Atom e' (id4 "data") (n2b 0 :: be 3 2 ++ loc ++ bs) []), [], []. split; [reflexivity|].
    split; [split; [constructor|exists [], []; split; constructor]|]. left. split; [reflexivity|].
    unfold a_content. cbn [a_pre a_kids render_all flat_map]. rewrite app_nil_r.
    eapply bd_utf16; [reflexivity|exact Hloc|exact Ev|exact Bad].
Qed.
Print Assumptions C34_utf16_value_partial.

(** With an odd number of bytes the last byte is dropped instead of the value being rejected. *)
Theorem C34_utf16_odd_refuted : exists bs, ~ utf16_be_bytes bs /\ forall m,
  read_tag 1000 m (render_all (put ex_place (value_item false false TITLE 2 (zeros 4) bs))) =
  Ok (Tag (tg_ftyp ex_tag) (tg_info ex_tag)
    [AtomData (IFourcc TITLE) [DUtf8 (str "Title"); DUtf16 (str "A")];
     AtomData (IFreeform (str "com.apple.iTunes") (str "ISRC")) [DUtf8 (str "X1")];
     AtomData (IFourcc TRACK_NUMBER) [DReserved (raw [0; 0; 0; 3; 0; 9; 0; 0])];
     AtomData (IFourcc ARTIST) [DUtf8 (str "C")]]).
Proof.
  exists (raw [0; 65; 66]). split.
  - intros (s & _ & E). apply (f_equal (@List.length byte)) in E. rewrite utf16_bytes in E.
    pose proof (blen_units_bytes (enc16 s)) as X. unfold blen in X. rewrite E in X. cbn in X. lia.
  - intros []; vm_compute; reflexivity.
Qed.
Print Assumptions C34_utf16_odd_refuted.

Lemma utf8_dec : forall b, utf8_bytes b \/ ~ utf8_bytes b.
Proof.
  intro b. destruct (dec8 b) as [s|] eqn:E.
  - left. exists s. apply dec8_correct, E.
  - right. intros (s & H). apply dec8_correct in H. congruence.
Qed.

(** The namespace and the name of a freeform item. *)
Theorem C34_freeform_name : forall c it t e em en ed vm mean vn name loc d m fuel,
  describes (put c it) t -> effective c -> version0 vm -> version0 vn -> good_data d -> List.length loc = 4%nat ->
  let f := put c (freeform_item e em en ed vm mean vn name loc d) in
  good_sizes f -> blen (render_all f) < N.of_nat fuel ->
  (forall s s', wf_ustr s = true -> wf_ustr s' = true -> enc8 s = mean -> enc8 s' = name -> exists l1 l2 items,
     items_around c l1 l2 /\ merged (l1 ++ AtomData (IFreeform s s') [d] :: l2) items /\
     read_tag fuel m (render_all f) = Ok (Tag (tg_ftyp t) (tg_info t) items)) /\
  (~ (utf8_bytes mean /\ utf8_bytes name) -> read_tag fuel m (render_all f) = Err EUtf8).
Proof.
  intros c it t e em en ed vm mean vn name loc d m fuel D Ef Vm Vn Gd Hloc f G L.
  assert (Hid : a_id (freeform_item e em en ed vm mean vn name loc d) <> id4 "free") by discriminate.
  assert (Tx : forall e i v s, version0 v -> wf_ustr s = true -> text_means (Atom e i (v ++ enc8 s) []) s).
  { intros e0 i v s V W. split; [exact W|]. exists v. split; [exact V|]. unfold a_content. apply app_nil_r. }
  assert (Co : forall e i p, a_content (Atom e i p []) = p) by (intros; apply app_nil_r).
  split.
  - intros s s' W W' E E'.
    assert (M : item_means (freeform_item e em en ed vm mean vn name loc d) (AtomData (IFreeform s s') [d])).
    { split; [reflexivity|]. exists [d], [s], [s'].
      split; [constructor; [|constructor]; split; [exact Gd|exists loc; split; [exact Hloc|apply Co]]|].
      split; [constructor; [|constructor]; subst; apply Tx; assumption|].
      split; [constructor; [|constructor]; subst; apply Tx; assumption|].
      split; [discriminate|reflexivity]. }
    edestruct (item_exchange c it) as (l1 & l2 & items & A & Mg & D'); [exact D|exact Ef| |exact M|]; [exact Hid|].
    exists l1, l2, items. split; [exact A|]. split; [exact Mg|]. apply read_ok; assumption.
  - intro Bad.
    apply (read_bad_item fuel m c it (freeform_item e em en ed vm mean vn name loc d) (BadErr EUtf8)) with (t := t); try assumption.
    split; [exact Hid|]. split; [reflexivity|]. left.
    destruct (utf8_dec mean) as [(s & W & E)|Bm].
    + exists [Atom em (id4 "mean") (vm ++ mean) []]. eexists. eexists. exists []. split; [reflexivity|].
      split; [split; [constructor|]|].
      * exists [s], []. split; [constructor; [|constructor]; subst; apply Tx; assumption|constructor].
      * right. split; [right; reflexivity|]. eapply bt_utf8; [exact Vn|apply Co|]. intro X. apply Bad. split; [exists s; auto|exact X].
    + exists []. eexists. eexists. exists []. split; [reflexivity|]. split; [split; [constructor|exists [], []; split; constructor]|].
      right. split; [left; reflexivity|]. eapply bt_utf8; [exact Vm|apply Co|exact Bm].
Qed.
Print Assumptions C34_freeform_name.

(** The filetype string. *)
Theorem C34_filetype : forall ft rest t ft' m fuel,
  describes (ft :: rest) t -> a_id ft' = id4 "ftyp" ->
  good_sizes (ft' :: rest) -> blen (render_all (ft' :: rest)) < N.of_nat fuel ->
  (forall s, wf_ustr s = true -> enc8 s = a_content ft' ->
     read_tag fuel m (render_all (ft' :: rest)) = Ok (Tag s (tg_info t) (tg_atoms t))) /\
  (~ utf8_bytes (a_content ft') -> read_tag fuel m (render_all (ft' :: rest)) = Err EUtf8).
Proof. exact filetype_exchange. Qed.
Print Assumptions C34_filetype.

Example C34_example :
  (let f := put ex_place (value_item false true TITLE 1 (zeros 4) (raw [195; 164; 98])) in
   good_sizes f /\ enc8 [228; 98] = raw [195; 164; 98] /\ utf8_bytes (raw [195; 164; 98]) /\
   exists items, read_tag 1000 Checked (render_all f) = Ok (Tag (tg_ftyp ex_tag) (tg_info ex_tag) items) /\
     nth_error items 0 = Some (AtomData (IFourcc TITLE) [DUtf8 (str "Title"); DUtf8 [228; 98]])) /\
  (let f := put ex_place (value_item false true TITLE 1 (zeros 4) (raw [237; 160; 128])) in
   good_sizes f /\ ~ utf8_bytes (raw [237; 160; 128]) /\ read_tag 1000 Checked (render_all f) = Err EUtf8) /\
  (let f := put ex_place (value_item false true TITLE 2 (zeros 4) (raw [216; 52; 221; 30; 0; 65])) in
   good_sizes f /\ flat_map (be 2) (enc16 [119070; 65]) = raw [216; 52; 221; 30; 0; 65] /\
   exists items, read_tag 1000 Checked (render_all f) = Ok (Tag (tg_ftyp ex_tag) (tg_info ex_tag) items) /\
     nth_error items 0 = Some (AtomData (IFourcc TITLE) [DUtf8 (str "Title"); DUtf16 [119070; 65]])) /\
  (let f := put ex_place (freeform_item false false true false (zeros 4) (raw [97]) (zeros 4) (raw [195; 164]) (zeros 4) (DBeSigned (raw [7]))) in
   good_sizes f /\
   exists items, read_tag 1000 Checked (render_all f) = Ok (Tag (tg_ftyp ex_tag) (tg_info ex_tag) items) /\
     nth_error items 2 = Some (AtomData (IFreeform [97] [228]) [DBeSigned (raw [7])])).
Proof.
  split; [|split; [|split]]; (split; [split; vm_compute; reflexivity|]).
  - split; [vm_compute; reflexivity|]. split; [exists [228; 98]; split; reflexivity|].
    eexists. split; [vm_compute; reflexivity|reflexivity].
  - split; [|vm_compute; reflexivity]. intros (s & H). apply dec8_correct in H. discriminate H.
  - split; [vm_compute; reflexivity|]. eexists. split; [vm_compute; reflexivity|reflexivity].
  - eexists. split; [vm_compute; reflexivity|reflexivity].
Qed.

(** * C35: atom heads *)

(** What is written for a head are the bytes of ISO/IEC 14496-12, 4.2, and they are parsed back,
    wherever they stand in a file. *)
Theorem C35_head_roundtrip : forall s id a b,
  (if sz_ext s then sz_len s < 2 ^ 64 else 8 <= sz_len s < 2 ^ 32) ->
  let w := if sz_ext s then be 4 1 ++ fc_bytes id ++ be 8 (sz_len s) else be 4 (sz_len s) ++ fc_bytes id in
  blen (a ++ w ++ b) < 2 ^ 62 ->
  out (write_head s id) = w /\ parse_head (a ++ w ++ b) (blen a) = Ok (Head s id, blen a + blen w).
Proof.
  intros s id a b H w Sm. pose proof (write_head_bytes s id) as E. fold w in E. split; [exact E|].
  pose proof (head_roundtrip s id H) as P. rewrite E in P. apply P; [exact Sm|]. exists a, b. split; reflexivity.
Qed.
Print Assumptions C35_head_roundtrip.

(** Whatever is accepted as a head is what is written for it: decoding is faithful. *)
Theorem C35_head_faithful : forall f p h q, parse_head f p = Ok (h, q) ->
  slice f p (q - p) = out (write_head (hd_size h) (hd_fourcc h)) /\ p < q /\
  (sz_ext (hd_size h) = false -> 8 <= sz_len (hd_size h) < 2 ^ 32).
Proof.
  intros f p h q H. destruct (head_is_written f p h q H) as (-> & E).
  replace (p + head_len (hd_size h) - p) with (head_len (hd_size h)) by lia. split; [exact E|].
  split; [unfold head_len; destruct (sz_ext _); lia|]. intro X.
  destruct (head_checked f p h _ H) as [Y|Y]; [congruence|]. split; [exact Y|].
  destruct (head_inv _ _ _ _ H) as (_ & B & _ & Z). rewrite X in Z. destruct Z as [-> _].
  unfold head_len in B. rewrite X in B. apply (field_lt f p 4). lia.
Qed.
Print Assumptions C35_head_faithful.

(** The 64-bit form is chosen exactly when the total length does not fit 32 bits, and the resulting
    head is that of an atom with that content. *)
Theorem C35_size_from : forall n id m, n + 16 < 2 ^ 64 ->
  (sz_ext (size_from n) = true <-> 2 ^ 32 <= n + 8) /\ content_len m (size_from n) = Ok n /\
  out (write_head (size_from n) id) = header (sz_ext (size_from n)) id n.
Proof.
  intros n id m H. unfold size_from, content_len, header. rewrite write_head_bytes. cbn [sz_ext sz_len].
  destruct (N.ltb_spec 4294967295 (n + 8)) as [X|X]; cbn [sz_ext sz_len]; unfold sub64.
  - split; [split; [intros _; change (2 ^ 32) with 4294967296; lia|reflexivity]|].
    rewrite (proj2 (N.leb_le _ _)) by lia. replace (n + 8 + 8) with (n + 16) by lia. split; [f_equal; lia|reflexivity].
  - split; [split; [discriminate|intro; change (2 ^ 32) with 4294967296 in *; lia]|].
    rewrite (proj2 (N.leb_le _ _)) by lia. split; [f_equal; lia|reflexivity].
Qed.
Print Assumptions C35_size_from.

(** A length of 0 or 2 to 7 behind any number of atoms makes reading and writing fail, and the file is
    left untouched. *)
Theorem C35_short_lengths : forall cap fuel m items ft s pre n id g,
  let f := render_all (ft :: pre) ++ be 4 n ++ fc_bytes id ++ g in
  forallb fits (ft :: pre) = true -> blen f < 2 ^ 62 -> blen f < N.of_nat fuel ->
  a_id ft = id4 "ftyp" -> wf_ustr s = true -> a_content ft = enc8 s -> named_kids (id4 "moov") pre = [] ->
  n < 8 -> n <> 1 ->
  read_tag fuel m f = Err EParsing /\ write_tag cap fuel m items f = WResult (Err EParsing) f [].
Proof. exact short_head. Qed.
Print Assumptions C35_short_lengths.

Example C35_example :
  parse_head (raw [7] ++ (be 4 1 ++ fc_bytes TITLE ++ be 8 (2 ^ 40)) ++ raw [9]) 1 = Ok (Head (Size true (2 ^ 40)) TITLE, 17) /\
  parse_head (raw [7] ++ (be 4 4294967295 ++ fc_bytes TITLE) ++ raw [9]) 1 = Ok (Head (Size false 4294967295) TITLE, 9) /\
  size_from 4294967287 = Size false 4294967295 /\ size_from 4294967288 = Size true 4294967304 /\
  (forallb fits [ex_ftyp; ex_mdat] = true /\
   read_tag 100 Checked (render_all [ex_ftyp; ex_mdat] ++ be 4 7 ++ fc_bytes TITLE ++ raw [9]) = Err EParsing).
Proof. repeat split; vm_compute; reflexivity. Qed.

(** * C36: both build profiles agree *)

(** On well-formed files (writing: see Props_Write). *)
Theorem C36_reading : forall f t fuel, good_sizes f -> describes f t -> blen (render_all f) < N.of_nat fuel ->
  read_tag fuel Checked (render_all f) = Ok t /\ read_tag fuel Wrapping (render_all f) = Ok t.
Proof. intros. split; apply read_ok; assumption. Qed.
Print Assumptions C36_reading.

(** On any bytes, the profiles differ only where the checked one panics because of an overflow. *)
Theorem C36_reading_any : forall fuel f, read_tag fuel Checked f <> Panic POverflow ->
  read_tag fuel Wrapping f = read_tag fuel Checked f.
Proof. exact read_modes. Qed.
Print Assumptions C36_reading_any.
Theorem C36_writing_any : forall cap fuel items f pos,
  wr_res (write_tag_to cap fuel Checked items f pos) <> Panic POverflow ->
  write_tag_to cap fuel Wrapping items f pos = write_tag_to cap fuel Checked items f pos.
Proof. intros. apply write_modes. assumption. Qed.
Print Assumptions C36_writing_any.
Example C36_example :
  read_tag 1000 Checked (render_all ex_file ++ raw [1; 2; 3]) <> Panic POverflow /\
  wr_res (write_tag 8192 1000 Checked ex_items (render_all ex_file)) = Ok tt.
Proof. split; vm_compute; [discriminate|reflexivity]. Qed.

(** * C41: typed values *)

(** What is written for a value: version 0, type code, empty locale, payload. *)
Theorem C41_written : forall d,
  write_typed d = (fst (write_typed d), Ok tt) /\
  out (write_typed d) = n2b 0 :: be 3 (type_code d) ++ zeros 4 ++ payload d.
Proof. intro d. destruct (write_typed_bytes d) as (A & B). split; [|exact A]. rewrite <- B. destruct (write_typed d). reflexivity. Qed.
Print Assumptions C41_written.

(** A stored value with any locale is decoded to the value it encodes. *)
Theorem C41_decoded : forall c it t e e' id d loc m fuel,
  describes (put c it) t -> effective c -> id <> id4 "free" -> good_data d -> List.length loc = 4%nat ->
  let f := put c (value_item e e' id (type_code d) loc (payload d)) in
  good_sizes f -> blen (render_all f) < N.of_nat fuel ->
  exists l1 l2 items, items_around c l1 l2 /\ merged (l1 ++ AtomData (IFourcc id) [d] :: l2) items /\
    read_tag fuel m (render_all f) = Ok (Tag (tg_ftyp t) (tg_info t) items).
Proof.
  intros c it t e e' id d loc m fuel D Ef Hid Gd Hloc f G L.
  pose proof (value_item_means e e' id d loc Gd Hloc) as M.
  edestruct (item_exchange c it) as (l1 & l2 & items & A & Mg & D'); [exact D|exact Ef| |exact M|]; [exact Hid|].
  exists l1, l2, items. split; [exact A|]. split; [exact Mg|]. apply read_ok; assumption.
Qed.
Print Assumptions C41_decoded.

(** Unknown type codes are rejected with their code. *)
Theorem C41_unknown : forall c it t e e' id code loc pl m fuel,
  describes (put c it) t -> id <> id4 "free" -> ~ In code [0; 1; 2; 13; 14; 21; 27] -> code < 2 ^ 24 -> List.length loc = 4%nat ->
  let f := put c (value_item e e' id code loc pl) in
  good_sizes f -> blen (render_all f) < N.of_nat fuel ->
  read_tag fuel m (render_all f) = Err (EUnknownDataType code).
Proof.
  intros c it t e e' id code loc pl m fuel D Hid U Lt Hloc f G L.
  apply (read_bad_item fuel m c it (value_item e e' id code loc pl) (BadErr (EUnknownDataType code))) with (t := t); try assumption.
  split; [exact Hid|]. split; [reflexivity|]. left.
  exists [], (Atom e' (id4 "data") (n2b 0 :: be 3 code ++ loc ++ pl) []), [], []. split; [reflexivity|].
  split; [split; [constructor|exists [], []; split; constructor]|]. left. split; [reflexivity|].
  unfold a_content. cbn [a_pre a_kids render_all flat_map]. rewrite app_nil_r.
  eapply bd_type; [reflexivity|exact Lt|exact Hloc|exact U].
Qed.
Print Assumptions C41_unknown.

(** Nothing else is: the error names an unknown code, for any bytes. *)
Theorem C41_only_unknown : forall fuel m f code, read_tag fuel m f = Err (EUnknownDataType code) ->
  ~ In code [0; 1; 2; 13; 14; 21; 27].
Proof.
  intros fuel m f code H. unfold read_tag in H. apply (read_only_unknown fuel m f 0).
  destruct (read_tag_from fuel m f 0) as [[]| | |]; congruence.
Qed.
Print Assumptions C41_only_unknown.

Example C41_example :
  let f d := put ex_place (value_item false false TITLE (type_code d) (raw [1; 2; 3; 4]) (payload d)) in
  (forall d, In d [DReserved (raw [1]); DUtf8 (str "x"); DUtf16 [119070]; DJpeg (raw [2]); DPng (raw []); DBeSigned (raw [255]); DBmp (raw [3])] ->
    good_data d /\ good_sizes (f d) /\
    exists items, read_tag 1000 Checked (render_all (f d)) = Ok (Tag (tg_ftyp ex_tag) (tg_info ex_tag) items) /\
      nth_error items 0 = Some (AtomData (IFourcc TITLE) [DUtf8 (str "Title"); d])) /\
  read_tag 1000 Checked (render_all (put ex_place (value_item false false TITLE 12 (zeros 4) (raw [1])))) = Err (EUnknownDataType 12).
Proof.
  cbv zeta. split; [|vm_compute; reflexivity]. intros d H.
  repeat (destruct H as [<-|H]; [split; [first [exact I|reflexivity]|split; [split; vm_compute; reflexivity|eexists; split; vm_compute; reflexivity]]|]).
  destruct H.
Qed.

(** * C13: reading never panics *)

(** False: a movie header with time scale 0 makes reading panic, in both profiles; so does a value with
    less than eight bytes. *)
Theorem C13_zero_timescale_refuted : forall m fuel ft s pre e x mh y post,
  let f := ft :: pre ++ Atom e (id4 "moov") [] (x ++ mh :: y) :: post in
  good_sizes f -> blen (render_all f) < N.of_nat fuel ->
  a_id ft = id4 "ftyp" -> wf_ustr s = true -> a_content ft = enc8 s -> named_kids (id4 "moov") pre = [] ->
  named_kids (id4 "mvhd") x = [] -> named_kids (id4 "trak") x = [] -> named_kids (id4 "udta") x = [] ->
  a_id mh = id4 "mvhd" -> zero_timescale mh ->
  read_tag fuel m (render_all f) = Panic PDivZero.
Proof. exact read_zero_timescale. Qed.
Print Assumptions C13_zero_timescale_refuted.

Theorem C13_short_value_refuted : forall c it t e e' id code r fuel,
  describes (put c it) t -> id <> id4 "free" -> In code [0; 1; 2; 13; 14; 21; 27] -> (List.length r < 4)%nat ->
  let f := put c (Atom e id [] [Atom e' (id4 "data") (n2b 0 :: be 3 code ++ r) []]) in
  good_sizes f -> blen (render_all f) < N.of_nat fuel ->
  read_tag fuel Checked (render_all f) = Panic POverflow /\ read_tag fuel Wrapping (render_all f) = Panic PCapacity.
Proof.
  intros c it t e e' id code r fuel D Hid K Hr f G L.
  assert (X : forall m b, bad_data m (n2b 0 :: be 3 code ++ r) b ->
    bad_item m (Atom e id [] [Atom e' (id4 "data") (n2b 0 :: be 3 code ++ r) []]) b).
  { intros m b B. split; [exact Hid|]. split; [reflexivity|]. left.
    exists [], (Atom e' (id4 "data") (n2b 0 :: be 3 code ++ r) []), [], []. split; [reflexivity|].
    split; [split; [constructor|exists [], []; split; constructor]|]. left. split; [reflexivity|].
    unfold a_content. cbn [a_pre a_kids render_all flat_map]. rewrite app_nil_r. exact B. }
  split.
  - eapply (read_bad_item fuel Checked c it _ (BadPanic POverflow)); [apply X|exact D|exact G|exact L].
    eapply bd_short_debug; [reflexivity|reflexivity| |exact Hr]. reflexivity.
  - eapply (read_bad_item fuel Wrapping c it _ (BadPanic PCapacity)); [apply X|exact D|exact G|exact L].
    eapply bd_short_release; [reflexivity|reflexivity|exact K|exact Hr].
Qed.
Print Assumptions C13_short_value_refuted.

(** True for well-formed files, and for every truncation of any file that can be read. *)
Theorem C13_no_panic_partial : forall f t m fuel p,
  good_sizes f -> describes f t -> blen (render_all f) < N.of_nat fuel ->
  read_tag fuel m (render_all f) <> Panic p.
Proof. intros f t m fuel p G D L. rewrite (read_ok f t m fuel G D L). discriminate. Qed.
Print Assumptions C13_no_panic_partial.
Theorem C13_truncated_partial : forall fuel m f g t, read_tag fuel m (f ++ g) = Ok t ->
  read_tag fuel m f = Ok t \/ exists e, read_tag fuel m f = Err e.
Proof.
  intros fuel m f g t H. unfold read_tag in *. destruct (read_tag_from fuel m (f ++ g) 0) as [[t' q]| | |] eqn:E; try discriminate.
  injection H as ->. destruct (read_truncated fuel m f g t q E) as [->|(e & ->)]; [left; reflexivity|right; exists e; reflexivity].
Qed.
Print Assumptions C13_truncated_partial.
(** With checks disabled, reading any bytes panics only by a division by zero or an allocation. *)
Theorem C13_release_partial : forall fuel f p, read_tag fuel Wrapping f = Panic p -> p <> POverflow.
Proof.
  intros fuel f p H ->. unfold read_tag in H. apply (read_wrapping_panics fuel f 0).
  destruct (read_tag_from fuel Wrapping f 0) as [[]| | |]; congruence.
Qed.
Print Assumptions C13_release_partial.

Example C13_example :
  (exists mh, zero_timescale mh /\ let f := [ex_ftyp; Atom false (id4 "moov") [] [mh]] in
    good_sizes f /\ read_tag 1000 Wrapping (render_all f) = Panic PDivZero) /\
  (let f := put ex_place (Atom false TITLE [] [Atom false (id4 "data") (n2b 0 :: be 3 1 ++ raw [0]) []]) in
    good_sizes f /\ read_tag 1000 Checked (render_all f) = Panic POverflow /\ read_tag 1000 Wrapping (render_all f) = Panic PCapacity) /\
  read_tag 1000 Checked (firstn 100 (render_all ex_file)) = Err EIoEof.
Proof.
  split; [|repeat split; vm_compute; reflexivity].
  exists (Atom false (id4 "mvhd") (zeros 100) []).
  split; [left; repeat split; try (vm_compute; reflexivity); vm_compute; discriminate|]. repeat split; vm_compute; reflexivity.
Qed.

(** * C14: reading always terminates *)

(** Reading with this build profile returns [r], whatever number of steps the evaluator is given, from
    some number on. *)
Definition reads (m : mode) (f : bytes) (r : res tag) : Prop :=
  exists n, forall fuel, (n <= fuel)%nat -> read_tag fuel m f = r.
(** No number of steps is enough. *)
Definition diverges (m : mode) (f : bytes) : Prop := forall fuel, read_tag fuel m f = Fuel.

(** With overflow checks it does, on any bytes: some number of steps is enough, and the result does not
    depend on how many more are given. *)
Theorem C14_debug : forall f, exists r, reads Checked f r /\ r <> Fuel.
Proof.
  intro f. pose (n := N.to_nat (2 ^ 63 + 1)). assert (B : forall k, (n <= k)%nat -> big k).
  { intros k H. unfold big. subst n. assert (2 ^ 64 = 2 * 2 ^ 63) as -> by reflexivity. lia. }
  clearbody n. exists (read_tag n Checked f). split.
  - exists n. intros k L. unfold read_tag. rewrite (read_fuel Checked n k L f 0); [reflexivity|]. apply read_terminates, B. lia.
  - unfold read_tag. pose proof (read_terminates n (B n (le_n n)) f 0). destruct (read_tag_from n Checked f 0) as [[]| | |]; congruence.
Qed.
Print Assumptions C14_debug.

(** Without checks it does not: an atom with a 64-bit length of zero behind the filetype is skipped
    forever. *)
Theorem C14_release_refuted : forall ft s id g,
  fits ft = true -> a_id ft = id4 "ftyp" -> wf_ustr s = true -> a_content ft = enc8 s -> id <> id4 "moov" ->
  let f := render ft ++ (be 4 1 ++ fc_bytes id ++ be 8 0) ++ g in
  blen f < 2 ^ 62 -> diverges Wrapping f.
Proof. intros ft s id g H1 H2 H3 H4 H5 f H6 fuel. apply (read_spins ft s id g fuel); assumption. Qed.
Print Assumptions C14_release_refuted.

(** Without checks it does on files none of whose 64-bit length fields is zero or at least 2^63. *)
Theorem C14_release_partial : forall m f, blen f < 2 ^ 62 -> tame f -> exists r, reads m f r /\ r <> Fuel.
Proof.
  intros m f Sm T. pose (n := S (N.to_nat (blen f))). assert (L : blen f < N.of_nat n) by lia. clearbody n.
  exists (read_tag n m f). pose proof (read_tame f m Sm T n L) as H. split; [|exact H].
  exists n. intros k K. unfold read_tag in *. rewrite (read_fuel m n k K f 0); [reflexivity|].
  intro E. rewrite E in H. apply H. reflexivity.
Qed.
Print Assumptions C14_release_partial.
(** And on well-formed files. *)
Theorem C14_well_formed_partial : forall m f t, good_sizes f -> describes f t -> reads m (render_all f) (Ok t).
Proof.
  intros m f t G D. exists (S (N.to_nat (blen (render_all f)))). intros fuel H. apply read_ok; try assumption. lia.
Qed.
Print Assumptions C14_well_formed_partial.

Lemma tame_sample : tame (render_all [ex_ftyp; ex_mdat]).
Proof.
  intros p E L. exfalso. assert (p < 50) as X by (change (blen (render_all [ex_ftyp; ex_mdat])) with 32 in L; lia).
  assert (exists k, p = N.of_nat k /\ (k < 50)%nat) as (k & -> & K) by (exists (N.to_nat p); lia). clear X L.
  do 50 (destruct k as [|k]; [vm_compute in E; discriminate E|]). lia.
Qed.
Example C14_example :
  (tame (render_all [ex_ftyp; ex_mdat])) /\
  read_tag 300 Wrapping (render ex_ftyp ++ (be 4 1 ++ fc_bytes TITLE ++ be 8 0) ++ raw [1]) = Fuel /\
  read_tag 300 Checked (render ex_ftyp ++ (be 4 1 ++ fc_bytes TITLE ++ be 8 0) ++ raw [1]) = Panic POverflow.
Proof. split; [exact tame_sample|]. split; vm_compute; reflexivity. Qed.
