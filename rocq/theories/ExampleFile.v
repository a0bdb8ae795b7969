(** A concrete file used as a witness for the hypotheses of the theorems about files. *)

From Coq Require Import List NArith ZArith Bool String.
From Verif Require Import Base Utf Types TagSpec FileSpec.
Import ListNotations.
Local Open Scope list_scope.

Definition str (s : string) : ustring := map b2n (list_byte_of_string s).
Definition raw (l : list N) : bytes := map n2b l.

Definition ex_ftyp : atom := Atom false (id4 "ftyp") (list_byte_of_string "M4A isom") [].
(** Version 0, time scale 1000, duration 90500. *)
Definition ex_mvhd : atom := Atom false (id4 "mvhd") (zeros 12 ++ be 4 1000 ++ be 4 90500 ++ zeros 80) [].
(** AAC, frequency index 4, channel configuration 2; a two byte and a four byte descriptor length; an
    additional descriptor. *)
Definition ex_ds : desc := Desc Byte.x05 1 (raw [18; 16]).
Definition ex_dc : desc :=
  Desc Byte.x04 4 ((zeros 5 ++ be 4 256000 ++ be 4 128000) ++ flat_map render_desc [ex_ds]).
Definition ex_sl : desc := Desc Byte.x06 1 (raw [2]).
Definition ex_es : desc := Desc Byte.x03 2 (zeros 3 ++ flat_map render_desc [ex_dc; ex_sl]).
Definition ex_esds : atom := Atom false (id4 "esds") (zeros 4 ++ render_desc ex_es ++ raw [255]) [].
Definition ex_mp4a : atom := Atom false (id4 "mp4a") (zeros 28) [ex_esds; Atom false (id4 "btrt") (zeros 3) []].
Definition ex_stsd : atom := Atom false (id4 "stsd") (zeros 4 ++ be 4 1) [ex_mp4a].
Definition ex_stco (offs : list N) : atom :=
  Atom false (id4 "stco") (zeros 4 ++ be 4 (blen offs) ++ flat_map (be 4) offs) [].
Definition ex_co64 (offs : list N) : atom :=
  Atom true (id4 "co64") (zeros 4 ++ be 4 (blen offs) ++ flat_map (be 8) offs) [].
Definition ex_trak (kids : list atom) : atom :=
  Atom false (id4 "trak") []
    [Atom false (id4 "tkhd") (zeros 8) [];
     Atom false (id4 "mdia") [] [Atom true (id4 "minf") [] [Atom false (id4 "stbl") [] kids]]].

(** An item list with a freeform item, a repeated item, a `free` item and an item with two values. *)
Definition ex_items : list atom_data :=
  [AtomData (IFourcc TITLE) [DUtf8 (str "Title")];
   AtomData (IFreeform (str "com.apple.iTunes") (str "ISRC")) [DUtf8 (str "X1")];
   AtomData (IFourcc ARTIST) [DUtf8 (str "A"); DUtf8 (str "B"); DUtf8 (str "C")];
   AtomData (IFourcc TRACK_NUMBER) [DReserved (raw [0; 0; 0; 3; 0; 9; 0; 0])]].
Definition ex_ilst : atom :=
  Atom true (id4 "ilst") []
    [item_atom (AtomData (IFourcc TITLE) [DUtf8 (str "Title")]);
     item_atom (AtomData (IFreeform (str "com.apple.iTunes") (str "ISRC")) [DUtf8 (str "X1")]);
     item_atom (AtomData (IFourcc ARTIST) [DUtf8 (str "A"); DUtf8 (str "B")]);
     Atom false (id4 "free") (zeros 5) [];
     item_atom (AtomData (IFourcc TRACK_NUMBER) [DReserved (raw [0; 0; 0; 3; 0; 9; 0; 0])]);
     item_atom (AtomData (IFourcc ARTIST) [DUtf8 (str "C")])].
Definition ex_meta (kids : list atom) : atom := Atom false (id4 "meta") (zeros 4) kids.
Definition ex_udta (kids : list atom) : atom := Atom false (id4 "udta") [] kids.

(** Two tracks: one with an audio description, one without; offsets in a 32-bit and in a 64-bit table
    pointing into the media data behind the movie atom. *)
Definition ex_traks : list atom :=
  [ex_trak [ex_stco [782; 784]]; ex_trak [ex_stsd; Atom false (id4 "stsz") (zeros 7) []; ex_co64 [783; 786]]].
Definition ex_moov : atom :=
  Atom false (id4 "moov") []
    (ex_mvhd :: ex_traks ++
     [ex_udta [Atom false (id4 "Xtra") (zeros 2) [];
               ex_meta [new_hdlr; ex_ilst; Atom false (id4 "free") (zeros 9) []];
               Atom false (id4 "chpl") (zeros 1) []]; Atom true (id4 "iods") (raw [9]) []]).
Definition ex_mdat : atom := Atom false (id4 "mdat") (raw [10; 11; 12; 13; 14; 15; 16; 17]) [].
Definition ex_file : list atom := [ex_ftyp; Atom false (id4 "free") (zeros 3) []; ex_moov; ex_mdat; Atom false (id4 "junk") (raw [1]) []].
Definition ex_tag : tag :=
  Tag (str "M4A isom") (AudioInfo (Some 90500000000) (Some Stereo) (Some Hz44100) (Some 256000) (Some 128000)) ex_items.

(** Evaluate the list of children called [id]. *)
Ltac kids :=
  match goal with
  | |- context [named_kids ?i ?l] => let v := eval cbv in (named_kids i l) in change (named_kids i l) with v
  end.

Lemma ex_version0 : version0 (zeros 4).
Proof. exists (zeros 3). split; reflexivity. Qed.

(** Atoms written for an item mean the item (concrete cases only; the general fact is proved later). *)
Lemma ex_data : forall d, wf_ustr d = true -> data_means (data_atom (DUtf8 d)) (DUtf8 d).
Proof.
  intros d H. split; [exact H|]. exists (zeros 4). split; [reflexivity|].
  unfold a_content, data_atom. cbn [a_pre a_kids render_all flat_map]. apply app_nil_r.
Qed.

Lemma ex_ilst_means : ilst_means ex_ilst ex_items.
Proof.
  split; [reflexivity|].
  exists [AtomData (IFourcc TITLE) [DUtf8 (str "Title")];
     AtomData (IFreeform (str "com.apple.iTunes") (str "ISRC")) [DUtf8 (str "X1")];
     AtomData (IFourcc ARTIST) [DUtf8 (str "A"); DUtf8 (str "B")];
     AtomData (IFourcc TRACK_NUMBER) [DReserved (raw [0; 0; 0; 3; 0; 9; 0; 0])];
     AtomData (IFourcc ARTIST) [DUtf8 (str "C")]].
  split.
  - repeat constructor.
    + exists [DUtf8 (str "Title")], [], []. repeat (constructor; try discriminate); apply ex_data; reflexivity.
    + exists [DUtf8 (str "X1")], [str "com.apple.iTunes"], [str "ISRC"].
      repeat (constructor; try discriminate); try (apply ex_data; reflexivity); exists (zeros 4); split; try reflexivity; apply ex_version0.
    + exists [DUtf8 (str "A"); DUtf8 (str "B")], [], []. repeat (constructor; try discriminate); apply ex_data; reflexivity.
    + exists [DReserved (raw [0; 0; 0; 3; 0; 9; 0; 0])], [], []. repeat (constructor; try discriminate). exists (zeros 4). split; reflexivity.
    + exists [DUtf8 (str "C")], [], []. repeat (constructor; try discriminate); apply ex_data; reflexivity.
  - split; [vm_compute; reflexivity|]. intros j. unfold ex_items, all_values. cbn [filter values ad_ident].
    repeat match goal with |- context [ident_dec ?a ?b] => destruct (ident_dec a b); subst; try congruence end; try reflexivity;
    try (exfalso; discriminate).
Qed.

Lemma box_skip : forall {A} id (P : atom -> option A -> Prop) a k x,
  a_pre a = [] -> named_kids id (a_kids a) = [k] -> P k x -> box id P a x.
Proof.
  intros A id P a k x Pre N H. split; [exact Pre|]. exists (Some x). split; [|reflexivity].
  exists [x]. rewrite N. repeat constructor. exact H.
Qed.
Lemma box_none : forall {A} id (P : atom -> option A -> Prop) a,
  a_pre a = [] -> named_kids id (a_kids a) = [] -> box id P a None.
Proof.
  intros A id P a Pre N. split; [exact Pre|]. exists None. split; [|reflexivity].
  exists []. rewrite N. repeat constructor.
Qed.

Definition ex_audio : audio := Audio (Some Stereo) (Some Hz44100) (Some 256000) (Some 128000).

Lemma ex_mp4a_means : mp4a_means ex_mp4a ex_audio.
Proof.
  split; [reflexivity|]. exists ex_esds, [Atom false (id4 "btrt") (zeros 3) []]. split; [reflexivity|].
  split; [reflexivity|]. exists (zeros 4), ex_es, (raw [255]).
  split; [apply ex_version0|]. split; [reflexivity|]. split; [split; [repeat constructor|reflexivity]|]. split; [reflexivity|].
  exists (zeros 3), [ex_dc; ex_sl]. split; [reflexivity|]. split; [reflexivity|]. split; [repeat constructor|].
  change (tagged_desc 4 [ex_dc; ex_sl]) with [ex_dc]. cbv iota.
  exists (zeros 5 ++ be 4 256000 ++ be 4 128000), [ex_ds]. repeat split; repeat constructor.
Qed.

Lemma ex_trak_means : trak_means (nth 1 ex_traks ex_ftyp) (Some ex_audio).
Proof.
  eapply box_skip; [reflexivity|reflexivity|]. eapply box_skip; [reflexivity|reflexivity|].
  eapply box_skip; [reflexivity|reflexivity|]. eapply box_skip; [reflexivity|reflexivity|].
  split; [exists (zeros 4), (be 4 1); repeat split; apply ex_version0|].
  exists [ex_audio]. split; [|reflexivity]. repeat constructor. apply ex_mp4a_means.
Qed.
Lemma ex_trak0_means : trak_means (nth 0 ex_traks ex_ftyp) None.
Proof.
  eapply box_skip; [reflexivity|reflexivity|]. eapply box_skip; [reflexivity|reflexivity|].
  eapply box_skip; [reflexivity|reflexivity|]. apply box_none; reflexivity.
Qed.

Lemma ex_moov_means : moov_means ex_moov (tg_info ex_tag) (tg_atoms ex_tag).
Proof.
  split; [reflexivity|]. exists (Some 90500000000), [None; Some ex_audio], (Some (Some ex_items)).
  split; [|split; [|split; [|split; reflexivity]]].
  - exists [90500000000]. split; [|reflexivity]. constructor; [|constructor]. left. repeat split; try reflexivity; try discriminate.
  - constructor; [exact ex_trak0_means|]. constructor; [exact ex_trak_means|constructor].
  - exists [Some ex_items]. split; [|reflexivity]. constructor; [|constructor].
    eapply box_skip; [reflexivity|reflexivity|]. split; [apply ex_version0|].
    exists [ex_items]. split; [|reflexivity]. constructor; [exact ex_ilst_means|constructor].
Qed.

(** The example file is well-formed and means the example tag. *)
Lemma ex_describes : describes ex_file ex_tag.
Proof.
  exists ex_ftyp, [Atom false (id4 "free") (zeros 3) []], ex_moov, [ex_mdat; Atom false (id4 "junk") (raw [1]) []].
  do 6 (split; [reflexivity|]). exact ex_moov_means.
Qed.
Lemma ex_sizes : good_sizes ex_file.
Proof. split; vm_compute; reflexivity. Qed.
