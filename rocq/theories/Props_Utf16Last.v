(** Which tags come back from a file they have been written to: C37, third part (see properties.jsonl). *)

From Coq Require Import List NArith ZArith Bool Lia Arith String.
From Coq Require Import ZifyBool ZifyNat ZifyN.
From Verif Require Import Base BaseLemmas Utf UtfLemmas Types Stream Parse Find Write TagSpec FileSpec ParseLemmas ReadSpec ReadFacts ReadProofs ScanProofs ExampleFile WriteExample NewMeans UpdateMeans WriteBytes DumpProofs
  WriteMain Utf16Proofs WOutSpec WOutPlan SurviveSpec SurviveProofs RepairSpec RepairProofs Props_Repair SpillSpec SpillProofs SpillPlace SpillMain SpillRead Props_Spill Utf16Last.
Import ListNotations.
Local Open Scope list_scope.

(** ** Items without text in UTF-16 *)

Lemma storable_same : forall items, storable items -> same_list (stand_ins items) items.
Proof.
  intros items St. unfold same_list. rewrite !size_list; [|apply stand_exact|apply storable_exact, St]. rewrite (alike_len _ _ (stand_alike items)). reflexivity.
Qed.
Lemma small_items : forall c items, good_sizes (relist c (new_ilst (stand_ins items))) -> Forall (fun a => ad_len a < 2 ^ 32) items.
Proof.
  intros c items G. pose proof (good_inner _ _ G) as F. apply fits_eq in F. destruct F as [_ F]. apply (items_fit_len _ (stand_exact items)) in F.
  assert (M : map ad_len (stand_ins items) = map ad_len items).
  { clear. pose proof (stand_alike items) as A. unfold alike in A. revert A. generalize (stand_ins items). induction items as [|x l IH]; intros [|y r] A; try discriminate; [reflexivity|]. cbn [map] in *. injection A as A1 A2 A3.
    rewrite (IH r A3), !item_len_is. f_equal. apply shape_len. unfold shape. congruence. }
  apply (proj1 (Forall_map ad_len (fun n => n < 2 ^ 32) items)). rewrite <- M. apply (proj2 (Forall_map ad_len (fun n => n < 2 ^ 32) (stand_ins items))). exact F.
Qed.
Lemma storable_twin : forall items, storable items -> Forall (fun a => ad_len a < 2 ^ 32) items -> fits (new_ilst (stand_ins items)) = true -> twin (new_ilst (stand_ins items)) (new_ilst items).
Proof.
  intros items St L F. pose proof (storable_same items St) as S. unfold same_list in S. split; [symmetry; exact S|]. rewrite F. symmetry.
  assert (C : csize (new_ilst items) = csize (new_ilst (stand_ins items)) /\ a_ext (new_ilst items) = a_ext (new_ilst (stand_ins items))).
  { assert (C : csize (new_ilst items) = csize (new_ilst (stand_ins items))).
    { unfold csize, a_content. cbn [new_ilst new_box a_pre a_kids app]. rewrite (ilst_content _ (stand_exact items)), (ilst_content _ (storable_exact _ St)), !list_len_is, (alike_len _ _ (stand_alike items)). reflexivity. }
    split; [exact C|]. unfold csize, a_content in C. cbn [new_ilst new_box a_pre a_kids a_ext] in *. rewrite C. reflexivity. }
  apply fits_eq in F. destruct F as [F _]. apply fits_eq. destruct C as [-> ->]. split; [exact F|]. cbn [new_ilst new_box a_kids]. apply (items_fit_len _ (storable_exact _ St)), L.
Qed.

(** ** Where nothing of the movie is behind the list *)

(** Any items at all, whatever is behind the movie.  The list ends up as the last thing of the movie: the items come back exactly if
    they are storable.  In particular no text in UTF-16 with a character comes back, however the misplaced bytes are read. *)
Theorem C37_last : forall cap fuel fuel' m m' f s mv info items c, 8 < cap -> shell f s mv -> sounds mv info -> good_sizes f -> editable f ->
  lies f items c -> at_meta_post c = [] -> at_udta_post c = [] -> at_moov_post c = [] ->
  good_sizes (update_file (stand_ins items) f) -> blen (render_all f) < N.of_nat fuel ->
  let w := write_tag cap fuel m items (render_all f) in
  blen (wr_file w) < 2 ^ 62 -> blen (wr_file w) < N.of_nat fuel' ->
  wr_res w = Ok tt /\ ((exists t, read_tag fuel' m' (wr_file w) = Ok t /\ tg_atoms t = items) <-> storable items).
Proof.
  intros cap fuel fuel' m m' f s mv info items c C Sh So G E L Pm Pu Po G' Fu w Sw Fw. destruct (spill_writes cap fuel m f s mv items c C Sh G E L G' Fu) as [R W]. split; [exact R|].
  unfold lies in L. pose proof G' as G2. rewrite L in G2. pose proof (small_items c items G2) as L32. split.
  - intros (t & Rt & Et). apply storable_is.
    assert (D : readable_items items).
    { unfold read_tag in Rt. destruct (read_tag_from fuel' m' (wr_file w) 0) as [[t' q]| | |] eqn:Q; try discriminate. injection Rt as ->. rewrite <- Et. exact (read_readable _ _ _ _ _ _ Q). }
    split; [exact D|]. intros Lo. unfold w in *. rewrite W in *. revert Et.
    assert (Ds : describable (stand_ins items)).
    { destruct D as [U F]. split.
      - unfold unique_idents, idents in *. unfold stand_ins. rewrite map_map. cbn [ad_ident]. exact U.
      - unfold stand_ins. apply Forall_map. apply Forall_impl with (2 := F). intros a (I & N & V). split; [exact I|]. cbn [ad_data]. split; [destruct (ad_data a); [contradiction|discriminate]|].
        apply Forall_map. apply Forall_impl with (2 := V). intros [] Gd; exact Gd || exact Logic.I. }
    pose proof (shell_describes f s mv info (stand_ins items) Sh E So Ds) as De. rewrite L in De.
    apply (last_never fuel' m' c items _ (spilled c items) t De G2 (lies_alone _ _ _ _ _ Sh E L) Pm Pu Po); auto.
  - intros St. pose proof (lies_all _ c f s mv Sh E L items (storable_same items St)) as Li.
    assert (Gi : good_sizes (update_file items f)) by (rewrite Li; apply (twin_good c (new_ilst (stand_ins items))); [apply (storable_twin items St L32), (good_inner c), G2|exact G2]).
    destruct (shell_writes cap fuel m f s mv items Sh G E (storable_exact _ St) Gi Fu) as (ops & Ww). unfold w in *. rewrite Ww in *. cbn [wr_file] in *.
    exists (Tag s info items). split; [|reflexivity]. apply Props_Read.C15_read_returns_content; [exact Gi| |exact Fw]. eapply shell_describes; try eassumption. apply storable_describable, St.
Qed.
Print Assumptions C37_last.

(** A file without user data gets the list there. *)
Lemma fresh_place : forall f s mv items, shell f s mv -> named_kids (id4 "udta") (a_kids mv) = [] ->
  exists c, lies f items c /\ at_meta_post c = [] /\ at_udta_post c = [] /\ at_moov_post c = [].
Proof.
  intros f s mv items (ft & pre & post & -> & I & _ & _ & J & N & P & _ & _) U. set (i := stand_ins items).
  set (d := match named_kids (id4 "mdat") post with [] => 0%Z | _ => growth i mv end).
  exists (Place ft pre post (a_ext mv) (shift_traks d (a_kids mv)) [] (a_ext (new_udta i)) [] [] (a_ext (new_meta i)) (zeros 4) [new_hdlr] [] false [] []).
  split; [|repeat split]. unfold lies. fold i. rewrite (update_at i ft pre mv post I J N). fold d. unfold update_moov, with_kids.
  destruct (split_on (id4 "udta") (a_kids mv)) as [[[x o] y]|] eqn:S.
  { apply split_on_some in S. destruct S as (S & Io & _). rewrite S, named_app, named_this in U by exact Io. apply app_eq_nil in U. destruct U as [_ U]. discriminate U. }
  unfold relist. cbn [at_ft at_pre at_post app]. do 3 f_equal. unfold relist_moov, relist_udta, relist_meta.
  cbn [at_moov at_moov_pre at_moov_post at_udta at_udta_pre at_udta_post at_meta at_meta_head at_meta_pre at_meta_post]. rewrite J, P. reflexivity.
Qed.
Theorem C37_fresh : forall cap fuel fuel' m m' f s mv info items, 8 < cap -> shell f s mv -> sounds mv info -> good_sizes f -> editable f ->
  named_kids (id4 "udta") (a_kids mv) = [] ->
  good_sizes (update_file (stand_ins items) f) -> blen (render_all f) < N.of_nat fuel ->
  let w := write_tag cap fuel m items (render_all f) in
  blen (wr_file w) < 2 ^ 62 -> blen (wr_file w) < N.of_nat fuel' ->
  wr_res w = Ok tt /\ ((exists t, read_tag fuel' m' (wr_file w) = Ok t /\ tg_atoms t = items) <-> storable items).
Proof.
  intros cap fuel fuel' m m' f s mv info items C Sh So G E U G' Fu w Sw Fw. destruct (fresh_place f s mv items Sh U) as (c & L & Pm & Pu & Po).
  apply (C37_last cap fuel fuel' m m' f s mv info items c); assumption.
Qed.
Print Assumptions C37_fresh.

(** The file of [C90_example], and one without user data. *)
Definition c37_bare : list atom := [Atom false (id4 "ftyp") (enc8 dump_ftyp) []; Atom false (id4 "moov") [] [Atom false (id4 "free") (zeros 3) []]; Atom false (id4 "mdat") (zeros 20) []].
Example C37_last_example :
  sounds c90_moov (AudioInfo None None None None None) /\ at_meta_post (c90_place c90_free) = [] /\ at_udta_post (c90_place c90_free) = [] /\ at_moov_post (c90_place c90_free) = [] /\
  ~ storable c90_text.
Proof.
  split; [exists None, []; split; [exists []; split; [constructor|reflexivity]|]; split; [constructor|reflexivity]|]. repeat (split; [reflexivity|]).
  intros [_ F]. apply Forall_inv in F. destruct F as (_ & _ & F). apply Forall_inv in F. destruct F as [_ F]. discriminate F.
Qed.
Example C37_fresh_example : let mv := Atom false (id4 "moov") [] [Atom false (id4 "free") (zeros 3) []] in
  shell c37_bare dump_ftyp mv /\ sounds mv (AudioInfo None None None None None) /\ good_sizes c37_bare /\ editable c37_bare /\ named_kids (id4 "udta") (a_kids mv) = [] /\
  good_sizes (update_file (stand_ins c90_text) c37_bare) /\
  (let w i := wr_file (write_tag 64 1000 Checked i (render_all c37_bare)) in
   read_tag 1000 Checked (w c90_text) = Ok (Tag dump_ftyp (AudioInfo None None None None None) c90_half) /\
   read_tag 1000 Checked (w c90_old) = Ok (Tag dump_ftyp (AudioInfo None None None None None) c90_old)).
Proof.
  intros mv. split.
  { exists (Atom false (id4 "ftyp") (enc8 dump_ftyp) []), [], [Atom false (id4 "mdat") (zeros 20) []]. split; [reflexivity|]. split; [reflexivity|]. split; [vm_compute; reflexivity|]. split; [cbn; apply app_nil_r|].
    split; [reflexivity|]. split; [reflexivity|]. split; [reflexivity|]. split; constructor. }
  split; [exists None, []; split; [exists []; split; [constructor|reflexivity]|]; split; [constructor|reflexivity]|].
  split; [split; vm_compute; reflexivity|]. split; [apply editableb_ok; vm_compute; reflexivity|]. split; [reflexivity|]. split; [split; vm_compute; reflexivity|].
  cbv zeta. split; vm_compute; reflexivity.
Qed.

(** ** Where there is something behind the list *)

(** Here that is not so: text in UTF-16 can come back.  The second half of this text is read as the head of an atom, whose length leads into
    the content of the free atom behind the list, where a correct list of the same items happens to be. *)
Definition lucky_text : ustring := str "aaaaaaaa" ++ [0; 24; 26226; 25957] ++ str "aaaa".
Definition lucky_items : list atom_data := [AtomData (IFourcc TITLE) [DUtf16 lucky_text; DUtf8 []]].
Definition lucky_free : atom := Atom false (id4 "free") (render (new_udta lucky_items) ++ be 4 16 ++ fc_bytes (id4 "free")) [].
Definition lucky_moov : atom := Atom false (id4 "moov") [] [new_udta c90_old; lucky_free].
Definition lucky_file : list atom := [Atom false (id4 "ftyp") (enc8 dump_ftyp) []; lucky_moov].
Theorem C37_only_storable_refuted : exists f s mv info items,
  shell f s mv /\ sounds mv info /\ good_sizes f /\ editable f /\ good_sizes (update_file (stand_ins items) f) /\ blen (render_all f) < N.of_nat 1000 /\
  ~ storable items /\
  forall m, let w := write_tag 64 1000 m items (render_all f) in
  wr_res w = Ok tt /\ read_tag 1000 m (wr_file w) = Ok (Tag s info items).
Proof.
  exists lucky_file, dump_ftyp, lucky_moov, (AudioInfo None None None None None), lucky_items. split.
  { exists (Atom false (id4 "ftyp") (enc8 dump_ftyp) []), [], []. split; [reflexivity|]. split; [reflexivity|]. split; [vm_compute; reflexivity|]. split; [cbn; apply app_nil_r|].
    split; [reflexivity|]. split; [reflexivity|]. split; [reflexivity|]. split; [constructor|]. constructor; [|constructor]. split; [reflexivity|]. constructor; [|constructor]. exists (zeros 3). split; reflexivity. }
  split; [exists None, []; split; [exists []; split; [constructor|reflexivity]|]; split; [constructor|reflexivity]|].
  split; [split; vm_compute; reflexivity|]. split; [apply editableb_ok; vm_compute; reflexivity|]. split; [split; vm_compute; reflexivity|]. split; [vm_compute; reflexivity|].
  split; [intros [_ F]; apply Forall_inv in F; destruct F as (_ & _ & F); apply Forall_inv in F; destruct F as [_ F]; discriminate F|].
  intros m. cbv zeta. destruct m; (split; vm_compute; reflexivity).
Qed.
Print Assumptions C37_only_storable_refuted.

(** ** Copied metadata, and C12 for files that are there *)

(** Items that can be read at all come back exactly if none of their texts in UTF-16 has a character: so for the items of any file that are
    written to another one, *)
Lemma storable_if : forall items, readable_items items ->
  (storable items <-> forall i u, In i items -> In (DUtf16 u) (ad_data i) -> u = []).
Proof.
  intros items R. rewrite storable_is. split.
  - intros [_ N] i u Ii Id. destruct u as [|x u]; [reflexivity|]. exfalso. apply N. exists i, (x :: u). split; [exact Ii|]. split; [exact Id|discriminate].
  - intros H. split; [exact R|]. intros (i & u & Ii & Id & N). exact (N (H i u Ii Id)).
Qed.
Theorem C89_exactly : forall cap fuel fuel' m m' m'' src t f s mv info c, read_tag fuel m'' src = Ok t ->
  8 < cap -> shell f s mv -> sounds mv info -> good_sizes f -> editable f ->
  lies f (tg_atoms t) c -> at_meta_post c = [] -> at_udta_post c = [] -> at_moov_post c = [] ->
  good_sizes (update_file (stand_ins (tg_atoms t)) f) -> blen (render_all f) < N.of_nat fuel ->
  let w := write_tag cap fuel m (tg_atoms t) (render_all f) in
  blen (wr_file w) < 2 ^ 62 -> blen (wr_file w) < N.of_nat fuel' ->
  wr_res w = Ok tt /\
  ((exists t', read_tag fuel' m' (wr_file w) = Ok t' /\ tg_atoms t' = tg_atoms t) <-> forall i u, In i (tg_atoms t) -> In (DUtf16 u) (ad_data i) -> u = []).
Proof.
  intros cap fuel fuel' m m' m'' src t f s mv info c R C Sh So G E L Pm Pu Po G' Fu w Sw Fw.
  destruct (C37_last cap fuel fuel' m m' f s mv info (tg_atoms t) c C Sh So G E L Pm Pu Po G' Fu Sw Fw) as [A B]. split; [exact A|]. rewrite <- storable_if; [exact B|].
  unfold read_tag in R. destruct (read_tag_from fuel m'' src 0) as [[t' q]| | |] eqn:Q; try discriminate. injection R as ->. exact (read_readable _ _ _ _ _ _ Q).
Qed.
Print Assumptions C89_exactly.

(** and for all items that have different storable identifiers and values. *)
Theorem C12_written : forall cap fuel fuel' m m' f s mv info items c,
  unique_idents items -> Forall (fun i => storable_ident (ad_ident i) /\ ad_data i <> [] /\ Forall good_data (ad_data i)) items ->
  8 < cap -> shell f s mv -> sounds mv info -> good_sizes f -> editable f ->
  lies f items c -> at_meta_post c = [] -> at_udta_post c = [] -> at_moov_post c = [] ->
  good_sizes (update_file (stand_ins items) f) -> blen (render_all f) < N.of_nat fuel ->
  let w := write_tag cap fuel m items (render_all f) in
  blen (wr_file w) < 2 ^ 62 -> blen (wr_file w) < N.of_nat fuel' ->
  wr_res w = Ok tt /\
  ((exists t, read_tag fuel' m' (wr_file w) = Ok t /\ tg_atoms t = items) <-> forall i u, In i items -> In (DUtf16 u) (ad_data i) -> u = []).
Proof.
  intros cap fuel fuel' m m' f s mv info items c U F C Sh So G E L Pm Pu Po G' Fu w Sw Fw.
  destruct (C37_last cap fuel fuel' m m' f s mv info items c C Sh So G E L Pm Pu Po G' Fu Sw Fw) as [A B]. split; [exact A|]. rewrite <- storable_if; [exact B|]. split; [exact U|exact F].
Qed.
Print Assumptions C12_written.
(** The file of [C90_example] again, with the tag of a file with such a text. *)
Example C89_exactly_example :
  read_tag 1000 Checked (render_all (dump_file c90_text)) = Ok (Tag dump_ftyp (AudioInfo None None None None None) c90_text) /\
  lies (c90_file c90_free) c90_text (c90_place c90_free) /\ good_sizes (update_file (stand_ins c90_text) (c90_file c90_free)) /\
  unique_idents c90_text /\ Forall (fun i => storable_ident (ad_ident i) /\ ad_data i <> [] /\ Forall good_data (ad_data i)) c90_text.
Proof.
  split; [vm_compute; reflexivity|]. split; [vm_compute; reflexivity|]. split; [split; vm_compute; reflexivity|].
  split; [repeat constructor; cbn; intuition discriminate|repeat constructor; discriminate].
Qed.
