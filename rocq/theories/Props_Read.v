(** Theorems about reading: C13 - C17, C31 - C36, C41 (see properties.jsonl).

    [blen (render_all f) < N.of_nat fuel] only says that the evaluator of the model is given enough
    steps; by C14 the result does not depend on how many. *)

From Coq Require Import List NArith ZArith Bool Lia Arith String Permutation Relations.
From Coq Require Import ZifyBool ZifyNat ZifyN.
From Verif Require Import Base BaseLemmas Utf UtfLemmas Types Stream Parse Find Write TagSpec FileSpec ParseLemmas ReadProofs
  ExampleFile ForeignSpec ForeignProofs ReadMore ReadSpec ReadFacts ReadBad ReadLayout.
Import ListNotations.
Local Open Scope list_scope.

Lemma read_tag_of : forall fuel m f t, (exists q, read_tag_from fuel m f 0 = Ok (t, q)) -> read_tag fuel m f = Ok t.
Proof. intros fuel m f t (q & H). unfold read_tag. rewrite H. reflexivity. Qed.

(** * C15: reading returns exactly what a well-formed file encodes *)

Theorem C15_read_returns_content : forall f t m fuel,
  good_sizes f -> describes f t -> blen (render_all f) < N.of_nat fuel ->
  read_tag fuel m (render_all f) = Ok t.
Proof. intros. apply read_tag_of, read_described; assumption. Qed.
Print Assumptions C15_read_returns_content.

(** A well-formed file describes one tag. *)
Theorem C15_unambiguous : forall f t t', good_sizes f -> describes f t -> describes f t' -> t = t'.
Proof.
  intros f t t' G D D'.
  pose (n := S (N.to_nat (blen (render_all f)))). assert (L : blen (render_all f) < N.of_nat n) by lia.
  pose proof (C15_read_returns_content f t Checked n G D L) as X.
  rewrite (C15_read_returns_content f t' Checked n G D' L) in X. congruence.
Qed.
Print Assumptions C15_unambiguous.
Example C15_example : good_sizes ex_file /\ describes ex_file ex_tag /\ read_tag 1000 Checked (render_all ex_file) = Ok ex_tag.
Proof. split; [exact ex_sizes|]. split; [exact ex_describes|]. vm_compute. reflexivity. Qed.

(** * C16: foreign atoms and 64-bit heads are transparent to readers *)

Theorem C16_foreign_atoms : forall f f' t m fuel,
  same_but_foreign f f' -> good_sizes f -> good_sizes f' -> describes f t ->
  blen (render_all f) < N.of_nat fuel -> blen (render_all f') < N.of_nat fuel ->
  read_tag fuel m (render_all f') = Ok t /\ read_tag fuel m (render_all f) = Ok t.
Proof.
  intros. split; [|apply C15_read_returns_content; assumption]. apply read_tag_of. eapply foreign_read; eassumption.
Qed.
Print Assumptions C16_foreign_atoms.

(** The example file without its `free` and `junk` atoms, with an unknown atom in the movie, and with
    a 64-bit size field for the metadata. *)
Definition c16_file : list atom :=
  [ex_ftyp;
   Atom false (id4 "moov") []
    (Atom false (id4 "wide") (zeros 40) [] :: ex_mvhd :: ex_traks ++
     [ex_udta [Atom false (id4 "Xtra") (zeros 2) [];
               Atom true (id4 "meta") (zeros 4) [new_hdlr; ex_ilst; Atom false (id4 "free") (zeros 9) []];
               Atom false (id4 "chpl") (zeros 1) []]; Atom true (id4 "iods") (raw [9]) []]);
   ex_mdat].
Example C16_example : same_but_foreign ex_file c16_file /\ good_sizes c16_file /\ render_all c16_file <> render_all ex_file.
Proof.
  split; [|split; [split; vm_compute; reflexivity|vm_compute; discriminate]].
  eapply rst_trans.
  { apply rst_sym, rst_step. apply (ef_rest ex_ftyp [ex_moov; ex_mdat; Atom false (id4 "junk") (raw [1]) []]).
    apply (ed_insert InFile [] (Atom false (id4 "free") (zeros 3) [])). reflexivity. }
  eapply rst_trans.
  { apply rst_sym, rst_step. apply (ef_rest ex_ftyp [ex_moov; ex_mdat]).
    apply (ed_insert InFile [ex_moov; ex_mdat] (Atom false (id4 "junk") (raw [1]) []) []). reflexivity. }
  eapply rst_trans.
  { apply rst_step. apply ef_rest. apply (ed_inside InFile InMoov [] false (id4 "moov") [] _
      (Atom false (id4 "wide") (zeros 40) [] :: a_kids ex_moov) [ex_mdat]); [reflexivity|].
    apply (ed_insert InMoov []). reflexivity. }
  apply rst_step. apply ef_rest. apply (ed_inside InFile InMoov [] false (id4 "moov") [] _ _ [ex_mdat]); [reflexivity|].
  apply (ed_inside InMoov InUdta (Atom false (id4 "wide") (zeros 40) [] :: ex_mvhd :: ex_traks) false (id4 "udta") [] _ _
    [Atom true (id4 "iods") (raw [9]) []]); [reflexivity|].
  apply (ed_head InUdta [Atom false (id4 "Xtra") (zeros 2) []] false true (id4 "meta") (zeros 4) _ [Atom false (id4 "chpl") (zeros 1) []]).
Qed.

(** * C17: repeated items are merged *)

(** One item per identifier in the order of first occurrence, holding all values in file order; `free`
    items are skipped; nothing is lost or duplicated. *)
Theorem C17_merged_items : forall f t il m fuel,
  good_sizes f -> describes f t -> item_list f = Some il -> blen (render_all f) < N.of_nat fuel ->
  read_tag fuel m (render_all f) = Ok t /\
  exists l, Forall2 item_means (real_items il) l /\
    idents (tg_atoms t) = first_occurrences (idents l) /\ NoDup (idents (tg_atoms t)) /\
    (forall j, values (tg_atoms t) j = all_values l j) /\
    Permutation (every_value (tg_atoms t)) (every_value l).
Proof.
  intros f t il m fuel G D I Fu. split; [apply C15_read_returns_content; assumption|].
  pose proof (item_list_means f t D) as M. rewrite I in M. destruct M as (_ & l & F & M).
  exists l. split; [exact F|]. split; [apply M|]. split; [apply (merged_unique _ _ M)|].
  split; [apply M|apply merged_values, M].
Qed.
Print Assumptions C17_merged_items.
(** Without an item list there are no items. *)
Theorem C17_no_item_list : forall f t m fuel,
  good_sizes f -> describes f t -> item_list f = None -> blen (render_all f) < N.of_nat fuel ->
  exists t', read_tag fuel m (render_all f) = Ok t' /\ tg_atoms t' = [].
Proof.
  intros f t m fuel G D I Fu. exists t. split; [apply C15_read_returns_content; assumption|].
  pose proof (item_list_means f t D) as M. rewrite I in M. exact M.
Qed.
Print Assumptions C17_no_item_list.
Example C17_example : item_list ex_file = Some ex_ilst /\ List.length (real_items ex_ilst) = 5%nat /\ List.length (tg_atoms ex_tag) = 4%nat.
Proof. repeat split. Qed.

(** * C31: duration *)

(** Whatever the version 0 header (with a non-zero time scale) a file is given: the duration is
    floor(duration * 10^9 / timescale), everything else is unchanged. *)
Theorem C31_duration_v0 : forall ft pre e x mh y post t mh' m fuel,
  let f := ft :: pre ++ Atom e (id4 "moov") [] (x ++ mh :: y) :: post in
  let f' := ft :: pre ++ Atom e (id4 "moov") [] (x ++ mh' :: y) :: post in
  let b := a_content mh' in
  describes f t -> named_kids (id4 "mvhd") y = [] -> a_id mh = id4 "mvhd" -> a_id mh' = id4 "mvhd" ->
  good_sizes f' -> blen (render_all f') < N.of_nat fuel ->
  20 <= blen b -> field b 0 1 = 0 -> field b 12 4 <> 0 ->
  read_tag fuel m (render_all f') =
    Ok (Tag (tg_ftyp t) (with_duration (field b 16 4 * 1000000000 / field b 12 4) (tg_info t)) (tg_atoms t)).
Proof.
  intros ft pre e x mh y post t mh' m fuel f f' b D N I I' G Fu L V T. apply C15_read_returns_content; auto.
  eapply header_exchange; try eassumption. apply mvhd_v0; assumption.
Qed.
Print Assumptions C31_duration_v0.
(** Version 1: if the product fits 64 bits. *)
Theorem C31_duration_v1 : forall ft pre e x mh y post t mh' m fuel,
  let f := ft :: pre ++ Atom e (id4 "moov") [] (x ++ mh :: y) :: post in
  let f' := ft :: pre ++ Atom e (id4 "moov") [] (x ++ mh' :: y) :: post in
  let b := a_content mh' in
  describes f t -> named_kids (id4 "mvhd") y = [] -> a_id mh = id4 "mvhd" -> a_id mh' = id4 "mvhd" ->
  good_sizes f' -> blen (render_all f') < N.of_nat fuel ->
  32 <= blen b -> field b 0 1 = 1 -> field b 20 4 <> 0 -> field b 24 8 * 1000000000 < 2 ^ 64 ->
  read_tag fuel m (render_all f') =
    Ok (Tag (tg_ftyp t) (with_duration (field b 24 8 * 1000000000 / field b 20 4) (tg_info t)) (tg_atoms t)).
Proof.
  intros ft pre e x mh y post t mh' m fuel f f' b D N I I' G Fu L V T P. apply C15_read_returns_content; auto.
  eapply header_exchange; try eassumption. right. repeat split; auto.
Qed.
Print Assumptions C31_duration_v1.

Definition c31_with (mh : atom) : list atom :=
  [ex_ftyp; Atom false (id4 "moov") [] (mh :: tl (a_kids ex_moov))].
(** A version 1 header: time scale 48000, duration 2^33. *)
Definition c31_v1 : atom := Atom false (id4 "mvhd") (n2b 1 :: zeros 19 ++ be 4 48000 ++ be 8 (2 ^ 33) ++ zeros 80) [].
Example C31_example :
  describes (c31_with ex_mvhd) ex_tag /\ good_sizes (c31_with c31_v1) /\
  32 <= blen (a_content c31_v1) /\ field (a_content c31_v1) 0 1 = 1 /\ field (a_content c31_v1) 20 4 <> 0 /\
  field (a_content c31_v1) 24 8 * 1000000000 < 2 ^ 64 /\
  read_tag 1000 Wrapping (render_all (c31_with c31_v1)) =
    Ok (Tag (tg_ftyp ex_tag) (with_duration 178956970666666 (tg_info ex_tag)) ex_items).
Proof.
  split.
  - exists ex_ftyp, [], ex_moov, []. do 6 (split; [reflexivity|]). exact ex_moov_means.
  - split; [split; vm_compute; reflexivity|]. repeat split; vm_compute; reflexivity || discriminate.
Qed.
(** When the product does not fit, debug builds panic and release builds report a wrong duration: here
    a time scale of 10^9 and a duration of 2^40, i.e. 2^40 nanoseconds. *)
Definition c31_big : atom := Atom false (id4 "mvhd") (n2b 1 :: zeros 19 ++ be 4 1000000000 ++ be 8 (2 ^ 40) ++ zeros 80) [].
Theorem C31_duration_overflow_refuted :
  read_tag 1000 Checked (render_all (c31_with c31_big)) = Panic POverflow /\
  exists t d, read_tag 1000 Wrapping (render_all (c31_with c31_big)) = Ok t /\
    ai_duration (tg_info t) = Some d /\ d <> 2 ^ 40 * 1000000000 / 1000000000.
Proof.
  split; [vm_compute; reflexivity|]. eexists _, _. split; [vm_compute; reflexivity|]. split; [reflexivity|]. vm_compute. discriminate.
Qed.
Print Assumptions C31_duration_overflow_refuted.

(** * C32: audio parameters *)

(** The parameters come from the first track that has a sample entry. *)
Theorem C32_first_track : forall f t m fuel,
  good_sizes f -> describes f t -> blen (render_all f) < N.of_nat fuel ->
  read_tag fuel m (render_all f) = Ok t /\
  forall i, (forall j k, (j < i)%nat -> nth_error (tracks f) j = Some k -> sample_entry k = None) ->
    match nth_error (tracks f) i with
    | None => tg_info t = info_of (ai_duration (tg_info t)) None
    | Some k =>
      match sample_entry k with
      | Some a => exists x, mp4a_means a x /\ tg_info t = info_of (ai_duration (tg_info t)) (Some x)
      | None => True
      end
    end.
Proof.
  intros f t m fuel G D Fu. split; [apply C15_read_returns_content; assumption|].
  destruct (tracks_mean f t D) as (auds & F & E). rewrite E. clear E. set (dur := ai_duration (tg_info t)).
  assert (Ed : forall o, ai_duration (info_of dur o) = dur) by (intros [[]|]; reflexivity). rewrite Ed.
  intros i. revert F. generalize (tracks f). intros ks F. revert i. induction F as [|k o ks auds P F IH]; intros i B.
  - destruct i; reflexivity.
  - pose proof (trak_entry k o P) as X. destruct i as [|i]; cbn [nth_error].
    + destruct (sample_entry k); [|exact I]. destruct X as (x & M & ->). exists x. split; [exact M|reflexivity].
    + assert (N : sample_entry k = None) by (apply (B 0%nat); [lia|reflexivity]). rewrite N in X. subst o. cbn [first_some].
      apply IH. intros j k' L. apply (B (S j)). lia.
Qed.
Print Assumptions C32_first_track.

(** Every layout of the sample entry is decoded: whatever the widths of the descriptor lengths, the
    additional descriptors and the uninterpreted bytes. *)
Theorem C32_every_layout : forall f t m fuel i k l ext mx av ds,
  good_sizes f -> describes f t -> blen (render_all f) < N.of_nat fuel ->
  nth_error (tracks f) i = Some k -> (forall j k', (j < i)%nat -> nth_error (tracks f) j = Some k' -> sample_entry k' = None) ->
  sample_entry k = Some (Atom ext (id4 "mp4a") (ly_entry l) (ly_kids l mx av ds)) ->
  good_layout l mx av ds -> mx < 2 ^ 32 -> av < 2 ^ 32 -> (2 <= List.length ds)%nat ->
  exists info, read_tag fuel m (render_all f) = Ok (Tag (tg_ftyp t) info (tg_atoms t)) /\
    ai_max info = Some mx /\ ai_avg info = Some av /\
    option_map hz (ai_rate info) = nth_error mpeg4_frequencies (N.to_nat (bits_value (firstn 4 (skipn 5 (bits ds))))) /\
    option_map channel_count (ai_channels info) = join (nth_error mpeg4_channels (N.to_nat (bits_value (firstn 4 (skipn 9 (bits ds)))))).
Proof.
  intros f t m fuel i k l ext mx av ds G D Fu K B E GL Hm Ha L. destruct (C32_first_track f t m fuel G D Fu) as [R X].
  specialize (X i B). rewrite K, E in X. destruct X as (x & M & Ei).
  destruct (ds_total ds L) as (ch & rate & Md). pose proof (layout_means l mx av ds ch rate ext GL Hm Ha Md) as M'.
  assert (x = Audio ch rate (Some mx) (Some av)).
  { assert (S : forall a ks, In a ks -> forallb fits ks = true -> fits a = true /\ asize a <= blen (render_all ks)).
    { intros a ks I F. split; [rewrite forallb_forall in F; apply F, I|apply kid_in_size, I]. }
    assert (T : forall a b, In b (a_kids a) -> fits a = true -> fits b = true /\ asize b <= asize a).
    { intros a b I F. destruct (S b (a_kids a) I (fits_kids a F)) as [F' S']. split; [exact F'|].
      rewrite (asize_eq a). unfold csize, a_content. rewrite blen_app. lia. }
    assert (LN : forall {A} (ks : list A) a, last_opt ks = Some a -> In a ks).
    { intros A ks a. induction ks as [|z r IH]; [discriminate|]. rewrite last_opt_cons. destruct (last_opt r); [right; auto|intros H; injection H as ->; left; reflexivity]. }
    assert (LI : forall id ks a, last_opt (named_kids id ks) = Some a -> In a ks).
    { intros id ks a H. apply LN in H. unfold named_kids in H. apply filter_In in H. apply H. }
    assert (Ksz : fits k = true /\ asize k <= blen (render_all f)).
    { destruct (named_moov f t D) as (mv & Nm & _). unfold tracks in K. cbn [last_at] in K. rewrite Nm in K. cbn in K.
      apply nth_error_In in K. unfold named_kids in K. apply filter_In in K. destruct K as [K _].
      assert (In mv f) as Im by (assert (In mv [mv]) as X by (left; reflexivity); rewrite <- Nm in X; unfold named_kids in X; apply filter_In in X; apply X).
      destruct (S mv f Im (proj1 G)) as [F1 S1]. destruct (T mv k K F1) as [F2 S2]. split; [exact F2|lia]. }
    unfold sample_entry in E. cbn [last_at] in E. destruct Ksz as [Fk Sk].
    repeat match type of E with
    | context [match last_opt (named_kids ?id (a_kids ?a)) with _ => _ end] =>
      let H := fresh in let b := fresh "b" in destruct (last_opt (named_kids id (a_kids a))) as [b|] eqn:H; [|discriminate E];
      apply LI in H; apply T in H; [|assumption]; destruct H
    end.
    apply LI, T in E; [|assumption]. destruct E as [Fa Sa].
    eapply mp4a_det; [exact Fa| |exact M|exact M']. unfold small. destruct G as [_ G]. unfold asize in *. lia. }
  subst x. exists (tg_info t). rewrite R. split; [destruct t; reflexivity|]. rewrite Ei.
  destruct Md as (_ & Hr & Hc). cbn. auto.
Qed.
Print Assumptions C32_every_layout.
(** Reserved indices are reported as absent. *)
Theorem C32_reserved : forall ds ch rate, ds_means ds ch rate ->
  (13 <= bits_value (firstn 4 (skipn 5 (bits ds))) <-> rate = None) /\
  (bits_value (firstn 4 (skipn 9 (bits ds))) = 0 \/ 8 <= bits_value (firstn 4 (skipn 9 (bits ds))) <-> ch = None).
Proof.
  intros ds ch rate (_ & R & C). split.
  - set (n := bits_value _) in *. clearbody n. split; intros H.
    + destruct (nth_error mpeg4_frequencies (N.to_nat n)) eqn:E; [|destruct rate; [discriminate|reflexivity]].
      assert (N.to_nat n < List.length mpeg4_frequencies)%nat as X by (apply nth_error_Some; congruence). cbn in X. lia.
    + subst rate. cbn in R. symmetry in R. apply nth_error_None in R. cbn in R. lia.
  - set (n := bits_value (firstn 4 (skipn 9 (bits ds)))) in *. clearbody n. split; intros H.
    + destruct ch as [c|]; [|reflexivity]. exfalso. cbn [option_map] in C.
      destruct H as [H|H]; [rewrite H in C; discriminate|].
      destruct (nth_error mpeg4_channels (N.to_nat n)) eqn:E; [|discriminate].
      assert (N.to_nat n < List.length mpeg4_channels)%nat as X by (apply nth_error_Some; congruence). cbn in X. lia.
    + subst ch. cbn [option_map] in C. assert (exists k, n = N.of_nat k) as (k & ->) by (exists (N.to_nat n); lia).
      rewrite Nat2N.id in C. do 8 (destruct k as [|k]; [first [left; reflexivity|discriminate C]|]). right. lia.
Qed.
Print Assumptions C32_reserved.

Definition c32_layout : layout :=
  Layout (zeros 28) (zeros 3) false 2 4 1 (zeros 3) (zeros 5) [] [ex_sl] [] [] (raw [255]) [Atom false (id4 "btrt") (zeros 3) []].
Example C32_example :
  nth_error (tracks ex_file) 1 = Some (nth 1 ex_traks ex_ftyp) /\ sample_entry (nth 0 ex_traks ex_ftyp) = None /\
  sample_entry (nth 1 ex_traks ex_ftyp) = Some (Atom false (id4 "mp4a") (ly_entry c32_layout) (ly_kids c32_layout 256000 128000 (raw [18; 16]))) /\
  good_layout c32_layout 256000 128000 (raw [18; 16]).
Proof. repeat split; try reflexivity; repeat constructor; try discriminate. Qed.

(** * C33: streams that are not MP4 *)

Theorem C33_not_mp4 : forall f, slice f 4 4 <> list_byte_of_string "ftyp" -> exists e,
  (forall fuel m, read_tag fuel m f = Err e) /\
  (forall cap fuel m items, write_tag cap fuel m items f = WResult (Err e) f []) /\
  (8 <= blen f /\ 8 <= field f 0 4 \/ 16 <= blen f /\ field f 0 4 = 1 -> e = ENoTag).
Proof.
  intros f H. destruct (ftyp_rejects f H) as (e & P & X). exists e. split; [|split].
  - intros. apply read_rejects, P.
  - intros. apply write_rejects, P.
  - exact X.
Qed.
Print Assumptions C33_not_mp4.
