(** Theorems about UTF-16 text written to a file that is there: C90 (see properties.jsonl). *)

From Coq Require Import List NArith ZArith Bool Lia Arith String.
From Coq Require Import ZifyBool ZifyNat ZifyN.
From Verif Require Import Base BaseLemmas Utf UtfLemmas Types Stream Parse Find Write TagSpec FileSpec ParseLemmas ReadSpec ReadFacts ExampleFile WriteExample DumpProofs NewMeans UpdateMeans UpdateTwice WriteMain
  EditSpec EditProofs OffsetProofs WriteBytes Utf16Proofs WOutSpec WOutPlan RepairSpec RepairProofs SpillSpec SpillProofs SpillPlace SpillMain SpillChunks SpillRead SpillTail.
From Verif Require Props_Read ScanProofs.
Import ListNotations.
Local Open Scope list_scope.

Lemma lies_parts : forall i c f s mv, shell f s mv -> update_file i f = relist c (new_ilst i) -> a_id (at_ft c) = id4 "ftyp".
Proof.
  intros i c f s mv (ft & pre & post & -> & I & _ & _ & J & N & _) L. rewrite (update_at i ft pre mv post I J N) in L.
  cbn [app] in L. symmetry in L. destruct (relist_parts c (new_ilst i) ft pre _ post L N) as (<- & _). exact I.
Qed.
Lemma good_inner : forall c a, good_sizes (relist c a) -> fits a = true.
Proof.
  intros c a [G _]. unfold relist in G. cbn [forallb] in G. apply andb_true_iff in G. destruct G as [_ G]. rewrite forallb_app in G. apply andb_true_iff in G. destruct G as [_ G]. cbn [forallb] in G.
  apply andb_true_iff in G. destruct G as [G _]. apply fits_eq in G. destruct G as [_ G]. cbn [relist_moov a_kids] in G. rewrite forallb_app in G. apply andb_true_iff in G. destruct G as [_ G]. cbn [forallb] in G.
  apply andb_true_iff in G. destruct G as [G _]. apply fits_eq in G. destruct G as [_ G]. cbn [relist_udta a_kids] in G. rewrite forallb_app in G. apply andb_true_iff in G. destruct G as [_ G]. cbn [forallb] in G.
  apply andb_true_iff in G. destruct G as [G _]. apply fits_eq in G. destruct G as [_ G]. cbn [relist_meta a_kids] in G. rewrite forallb_app in G. apply andb_true_iff in G. destruct G as [_ G]. cbn [forallb] in G.
  apply andb_true_iff in G. apply G.
Qed.
Lemma stand_exact : forall items, exact_items (stand_ins items).
Proof. intros items. rewrite stand_fill. apply fill_exact. left. reflexivity. Qed.
Lemma stand_alike : forall items, alike (stand_ins items) items.
Proof. intros items. rewrite stand_fill. apply fill_alike. left. reflexivity. Qed.
Lemma cut_size : forall items, asize (cut_list items) = asize (new_ilst (stand_ins items)).
Proof. intros items. rewrite size_cut, size_list by apply stand_exact. rewrite (alike_len _ _ (stand_alike items)). reflexivity. Qed.
Lemma cut_twin : forall items, fits (new_ilst (stand_ins items)) = true -> twin (new_ilst (stand_ins items)) (cut_list items).
Proof.
  intros items F. split; [symmetry; apply cut_size|]. rewrite F. symmetry. apply fits_eq. split; [|reflexivity]. apply fits_eq in F. destruct F as [F _].
  assert (C : csize (cut_list items) = csize (new_ilst (stand_ins items)) /\ a_ext (cut_list items) = a_ext (new_ilst (stand_ins items))).
  { assert (C : csize (cut_list items) = csize (new_ilst (stand_ins items))).
    { unfold csize, a_content. cbn [cut_list new_ilst new_box a_pre a_kids app]. change (render_all []) with (@nil byte). rewrite app_nil_r, (ilst_content _ (stand_exact items)), list_len_is, (alike_len _ _ (stand_alike items)).
      pose proof (all_bytes_len items) as X. unfold blen, announced in *. rewrite firstn_length. lia. }
    split; [exact C|]. unfold csize, a_content in C. cbn [cut_list new_ilst new_box a_pre a_kids a_ext] in *. rewrite C. reflexivity. }
  destruct C as [-> ->]. exact F.
Qed.
Lemma cut_good : forall c items, good_sizes (relist c (new_ilst (stand_ins items))) -> good_sizes (relist c (cut_list items)).
Proof. intros c items G. apply (twin_good c (new_ilst (stand_ins items))); [apply cut_twin, (good_inner c), G|exact G]. Qed.

(** The list of every file has one place when items are written. *)
Theorem C90_place : forall f s mv items, shell f s mv -> exists c, lies f items c.
Proof. intros f s mv items Sh. destruct (place_of (stand_ins items) f s mv Sh) as [c H]. exists c. apply H. reflexivity. Qed.
Print Assumptions C90_place.

(** Writing succeeds.  The list gets the announced length, so it ends in the middle of the items; everything around it is as it
    would be for a list of that length; the bytes of the items beyond that length are overwritten by what is behind the list, and those that are
    beyond the end of that are left there. *)
Theorem C90_written : forall cap fuel m f s mv items c, 8 < cap -> shell f s mv -> good_sizes f -> editable f ->
  lies f items c -> good_sizes (update_file (stand_ins items) f) -> blen (render_all f) < N.of_nat fuel ->
  wr_res (write_tag cap fuel m items (render_all f)) = Ok tt /\
  wr_file (write_tag cap fuel m items (render_all f)) = render_all (relist c (cut_list items)) ++ spilled c items /\
  good_sizes (relist c (cut_list items)) /\ file_edit f (relist c (cut_list items)).
Proof.
  intros cap fuel m f s mv items c C Sh G E L G' Fu. destruct (spill_writes cap fuel m f s mv items c C Sh G E L G' Fu) as [R W]. split; [exact R|]. split; [exact W|].
  unfold lies in L. split; [apply cut_good; rewrite <- L; exact G'|].
  apply (edit_list f c (new_ilst (stand_ins items))); [eapply lies_parts; eassumption|reflexivity|reflexivity|eapply lies_alone; eassumption|].
  rewrite <- L. eapply shell_edit; eassumption.
Qed.
Print Assumptions C90_written.

(** How many bytes are left: half of the UTF-16 text, less what is behind the list. *)
Definition utf16_units (d : data) : N := match d with DUtf16 s => blen (enc16 s) | _ => 0 end.
Definition total (l : list N) : N := fold_right N.add 0 l.
Theorem C90_left_over : forall c items,
  blen (spilled c items) = total (map (fun i => total (map utf16_units (ad_data i))) items) - blen (behind c).
Proof.
  intros c items. pose proof (all_bytes_len items) as X. unfold spilled. change (total (map (fun i => total (map utf16_units (ad_data i))) items)) with (nsum (map (fun a => nsum (map units (ad_data a))) items)).
  unfold blen, announced in *. rewrite skipn_length. lia.
Qed.
Print Assumptions C90_left_over.

(** The media data is not damaged: chunks are where the tables say, if they are after writing other items of the length. *)
Theorem C90_chunks_kept : forall f s mv items c, shell f s mv -> editable f -> lies f items c -> in_reach (stand_ins items) f -> one_sided f -> tracks_first f ->
  chunks_kept f (relist c (cut_list items)).
Proof. intros f s mv items c Sh E L R O T. eapply (chunks_cut f s mv (stand_ins items)); try eassumption. apply cut_size. Qed.
Print Assumptions C90_chunks_kept.

(** If nothing is left over, the file can be written again, with the outcome of writing those items in the first place: the damage is
    gone. *)
Theorem C90_mended : forall cap fuel m f s mv items c b, 8 < cap -> shell f s mv -> good_sizes f -> editable f ->
  lies f items c -> good_sizes (update_file (stand_ins items) f) -> in_reach (stand_ins items) f ->
  storable b -> good_sizes (update_file b f) -> blen (render (new_udta (stand_ins items))) < 2 ^ 32 -> blen (render (new_udta b)) < 2 ^ 32 ->
  let w := wr_file (write_tag cap fuel m items (render_all f)) in
  blen (render_all f) < N.of_nat fuel -> blen w < N.of_nat fuel ->
  spilled c items = [] ->
  wr_res (write_tag cap fuel m b w) = Ok tt /\ wr_file (write_tag cap fuel m b w) = wr_file (write_tag cap fuel m b (render_all f)).
Proof.
  intros cap fuel m f s mv items c b C Sh G E L G' R Sb Gb La Lb w Fu Fw Sp. unfold w in *. clear w. rewrite (proj2 (spill_writes cap fuel m f s mv items c C Sh G E L G' Fu)), Sp, app_nil_r in *.
  pose proof (lies_parts _ _ _ _ _ Sh L) as Ft. pose proof (lies_alone _ _ _ _ _ Sh E L) as A. unfold lies in L. pose proof G' as G2. rewrite L in G2. apply cut_good in G2.
  destruct (shell_update (stand_ins items) f s mv Sh) as [mv' Sh']. pose proof (shell_update_editable _ _ _ _ Sh E R) as E'. rewrite L in Sh', E'.
  pose proof (shell_relist c (new_ilst (stand_ins items)) (cut_list items) s mv' Sh') as Sc. pose proof (relist_editable c (new_ilst (stand_ins items)) (cut_list items) eq_refl eq_refl E') as Ec.
  assert (U : update_file b (relist c (cut_list items)) = update_file b f).
  { rewrite <- (relist_file b c (new_ilst (stand_ins items)) (cut_list items)); [|reflexivity|reflexivity|symmetry; apply cut_size|exact Ft| |].
    - rewrite <- L. apply (shell_twice _ _ f s mv); [apply small_same; assumption|exact Sh|exact E].
    - destruct A as (A1 & A2 & _). rewrite ScanProofs.named_app, A1, A2. reflexivity.
    - apply (editable_moov (at_ft c) (at_pre c) (relist_moov c (new_ilst (stand_ins items))) (at_post c) eq_refl E'). }
  destruct (shell_writes cap fuel m _ _ _ b Sc G2 Ec (storable_exact _ Sb)) as [ops ->]; [rewrite U; exact Gb|exact Fw|].
  destruct (shell_writes cap fuel m f s mv b Sh G E (storable_exact _ Sb) Gb Fu) as [ops' ->]. cbn [wr_res wr_file]. rewrite U. split; reflexivity.
Qed.
Print Assumptions C90_mended.

(** The items are not in the file: if what is left of the list happens to make sense, as the atom [a], then as other items. *)
Theorem C90_read : forall cap fuel fuel' m m' f s mv items c a t, 8 < cap -> shell f s mv -> good_sizes f -> editable f ->
  lies f items c -> good_sizes (update_file (stand_ins items) f) -> blen (render_all f) < N.of_nat fuel ->
  describable items -> (exists i u, In i items /\ In (DUtf16 u) (ad_data i) /\ u <> []) ->
  spilled c items = [] ->
  a_id a = id4 "ilst" -> a_ext a = a_ext (cut_list items) -> a_content a = a_content (cut_list items) -> good_sizes (relist c a) -> describes (relist c a) t ->
  let w := wr_file (write_tag cap fuel m items (render_all f)) in
  blen w < N.of_nat fuel' -> read_tag fuel' m' w = Ok t /\ tg_atoms t <> items.
Proof.
  intros cap fuel fuel' m m' f s mv items c a t C Sh G E L G' Fu D Lo Sp Ia Xa Ca Ga De w Fw. unfold w in *. clear w. rewrite (proj2 (spill_writes cap fuel m f s mv items c C Sh G E L G' Fu)), Sp, app_nil_r in *.
  assert (Ra : render a = render (cut_list items)) by (rewrite !render_eq; unfold csize; rewrite Xa, Ia, Ca; reflexivity).
  assert (Rl : render_all (relist c a) = render_all (relist c (cut_list items))).
  { destruct (relist_bytes c a) as [X H]. rewrite (H a eq_refl), (H (cut_list items)) by (unfold asize; rewrite Ra; reflexivity). rewrite Ra. reflexivity. }
  rewrite <- Rl in *. split; [apply Props_Read.C15_read_returns_content; assumption|].
  apply (cut_never items a); [exact D|exact Lo| |eapply good_inner, Ga| | |apply (relist_list c); [exact Ia|eapply lies_alone; eassumption|exact De]].
  - unfold lies in L. rewrite L in G'. pose proof (good_inner _ _ G') as F. apply fits_eq in F. destruct F as [_ F]. apply (items_fit_len _ (stand_exact items)) in F.
    assert (M : map ad_len (stand_ins items) = map ad_len items).
    { clear. pose proof (stand_alike items) as A. unfold alike in A. revert A. generalize (stand_ins items). induction items as [|x l IH]; intros [|y r] A; try discriminate; [reflexivity|]. cbn [map] in *. injection A as A1 A2 A3.
      rewrite (IH r A3), !item_len_is. f_equal. apply shape_len. unfold shape. congruence. }
    apply (proj1 (Forall_map ad_len (fun n => n < 2 ^ 32) items)). rewrite <- M. apply (proj2 (Forall_map ad_len (fun n => n < 2 ^ 32) (stand_ins items))). exact F.
  - destruct Ga as [_ Ga]. destruct (relist_bytes c a) as [X H]. rewrite (H a eq_refl) in Ga. rewrite !blen_app in Ga. lia.
  - rewrite Ca. unfold a_content. cbn [cut_list new_box a_pre a_kids]. change (render_all []) with (@nil byte). apply app_nil_r.
Qed.
Print Assumptions C90_read.

(** If fewer than eight bytes are left over, the file cannot be written again: whatever the items, an early end of the file is reported, and the
    file stays as it is. *)
Theorem C90_locked : forall cap cap' fuel fuel' m m' f s mv items c b, 8 < cap -> shell f s mv -> good_sizes f -> editable f ->
  lies f items c -> good_sizes (update_file (stand_ins items) f) -> blen (render_all f) < N.of_nat fuel ->
  let w := wr_file (write_tag cap fuel m items (render_all f)) in
  blen w < 2 ^ 62 -> blen w < N.of_nat fuel' -> 0 < blen (spilled c items) < 8 ->
  wr_res (write_tag cap' fuel' m' b w) = Err EIoEof /\ wr_file (write_tag cap' fuel' m' b w) = w.
Proof.
  intros cap cap' fuel fuel' m m' f s mv items c b C Sh G E L G' Fu w Lw Fw Sp. unfold w in *. clear w. rewrite (proj2 (spill_writes cap fuel m f s mv items c C Sh G E L G' Fu)) in *.
  unfold lies in L. destruct (shell_update (stand_ins items) f s mv Sh) as [mv' Sh']. rewrite L in Sh', G'. apply cut_good in G'.
  pose proof (shell_relist c (new_ilst (stand_ins items)) (cut_list items) s mv' Sh') as Sc. rewrite (write_tail cap' fuel' m' _ _ _ _ b Sc (proj1 G') Lw Sp Fw). split; reflexivity.
Qed.
Print Assumptions C90_locked.

(** A title in UTF-16 is written to a file made by the library, with [n] bytes in another atom behind the movie: half of the text is
    read back.  With at least four bytes behind the list nothing is left over, and the file can be written again; without any it cannot. *)
Definition c90_old : list atom_data := [AtomData (IFourcc TITLE) [DUtf8 (str "abcd")]].
Definition c90_text : list atom_data := [AtomData (IFourcc TITLE) [DUtf16 (str "abcd")]].
Definition c90_half : list atom_data := [AtomData (IFourcc TITLE) [DUtf16 (str "ab")]].
Definition c90_file (tail : list atom) : list atom := dump_file c90_old ++ tail.
Definition c90_free : list atom := [Atom false (id4 "free") (zeros 4) []].
Definition c90_moov : atom := new_box (id4 "moov") [] [new_udta c90_old].
Definition c90_place (tail : list atom) : place :=
  Place (Atom false (id4 "ftyp") (enc8 dump_ftyp) []) [] tail false [] [] false [] [] false (zeros 4) [new_hdlr] [] false [] [].
Lemma c90_shell : forall tail, named_kids (id4 "moov") tail = [] -> shell (c90_file tail) dump_ftyp c90_moov.
Proof.
  intros tail N. exists (Atom false (id4 "ftyp") (enc8 dump_ftyp) []), [], tail. split; [reflexivity|]. split; [reflexivity|]. split; [vm_compute; reflexivity|]. split; [cbn; apply app_nil_r|]. split; [reflexivity|].
  split; [exact N|]. split; [reflexivity|]. split; [constructor|]. constructor; [|constructor]. split; [reflexivity|]. constructor; [|constructor]. exists (zeros 3). split; reflexivity.
Qed.
Example C90_example : forall tail, tail = [] \/ tail = c90_free ->
  let f := c90_file tail in
  shell f dump_ftyp c90_moov /\ good_sizes f /\ editable f /\ lies f c90_text (c90_place tail) /\ good_sizes (update_file (stand_ins c90_text) f) /\ blen (render_all f) < N.of_nat 1000 /\
  describable c90_text /\ storable c90_old /\ good_sizes (update_file c90_old f) /\ blen (render (new_udta (stand_ins c90_text))) < 2 ^ 32 /\ blen (render (new_udta c90_old)) < 2 ^ 32 /\
  in_reach (stand_ins c90_text) f /\ one_sided f /\ tracks_first f /\
  blen (spilled (c90_place tail) c90_text) = match tail with [] => 4 | _ => 0 end.
Proof.
  intros tail Ht f. assert (N : named_kids (id4 "moov") tail = []) by (destruct Ht as [-> | ->]; reflexivity). assert (Nm : named_kids (id4 "mdat") tail = []) by (destruct Ht as [-> | ->]; reflexivity).
  split; [apply c90_shell, N|]. split; [destruct Ht as [-> | ->]; split; vm_compute; reflexivity|]. split; [apply editableb_ok; destruct Ht as [-> | ->]; vm_compute; reflexivity|].
  split; [destruct Ht as [-> | ->]; vm_compute; reflexivity|]. split; [destruct Ht as [-> | ->]; split; vm_compute; reflexivity|]. split; [destruct Ht as [-> | ->]; vm_compute; reflexivity|].
  split; [split; [repeat constructor; cbn; intuition discriminate|repeat constructor; discriminate]|]. split; [apply storableb_ok; vm_compute; reflexivity|].
  split; [destruct Ht as [-> | ->]; split; vm_compute; reflexivity|]. split; [vm_compute; reflexivity|]. split; [vm_compute; reflexivity|].
  assert (P : forall x mv y, f = x ++ mv :: y -> a_id mv = id4 "moov" -> y = tail /\ mv = c90_moov /\ x = [Atom false (id4 "ftyp") (enc8 dump_ftyp) []]).
  { intros x mv y E J. unfold f, c90_file, dump_file in E. cbn [app] in E. destruct x as [|h x]; injection E as Eh E; [rewrite <- Eh in J; discriminate J|]. fold c90_moov in E.
    destruct (mid_one (id4 "moov") [] c90_moov tail x mv y E eq_refl J eq_refl N) as (<- & <- & <-). rewrite <- Eh. auto. }
  split; [intros (x & mv & y & E & J & M); destruct (P x mv y E J) as (-> & _); contradiction|].
  split; [intros x mv y E J; destruct (P x mv y E J) as (-> & _); right; exact Nm|].
  split.
  - intros mv x u y Im J E K. apply in_split in Im. destruct Im as (l & r & Ef). destruct (P l mv r Ef J) as (_ & -> & _). unfold c90_moov, new_box in E. cbn [a_kids] in E.
    destruct x as [|h x]; injection E as Eh E; [subst y; reflexivity|destruct x; discriminate E].
  - destruct Ht as [-> | ->]; vm_compute; reflexivity.
Qed.
Example C90_run :
  let w tail := wr_file (write_tag 64 1000 Checked c90_text (render_all (c90_file tail))) in
  read_tag 1000 Checked (w c90_free) = Ok (Tag dump_ftyp (AudioInfo None None None None None) c90_half) /\
  read_tag 1000 Checked (w []) = Ok (Tag dump_ftyp (AudioInfo None None None None None) c90_half) /\
  w c90_free = render_all (dump_file c90_half ++ c90_free) /\
  wr_res (write_tag 64 1000 Checked c90_old (w c90_free)) = Ok tt /\ wr_res (write_tag 64 1000 Checked c90_old (w [])) = Err EIoEof.
Proof. cbv zeta. split; [vm_compute; reflexivity|]. split; [vm_compute; reflexivity|]. split; [vm_compute; reflexivity|]. split; vm_compute; reflexivity. Qed.
(** What is left of the list makes sense, as an atom with children. *)
Example C90_read_example : let a := new_ilst c90_half in
  a_ext a = a_ext (cut_list c90_text) /\ a_content a = a_content (cut_list c90_text) /\ good_sizes (relist (c90_place c90_free) a) /\
  exists t, describes (relist (c90_place c90_free) a) t /\ tg_atoms t = c90_half.
Proof.
  split; [vm_compute; reflexivity|]. split; [vm_compute; reflexivity|]. split; [split; vm_compute; reflexivity|].
  assert (E : relist (c90_place c90_free) (new_ilst c90_half) = dump_file c90_half ++ c90_free) by reflexivity. rewrite E.
  assert (D : describable c90_half) by (split; [repeat constructor; cbn; intuition discriminate|repeat constructor; discriminate]).
  destruct (dump_describes c90_half D) as (ft & pre & mv & post & Ef & I & W & C & J & N & M). cbn [tg_ftyp] in W, C.
  exists (Tag dump_ftyp (AudioInfo None None None None None) c90_half). split; [|reflexivity]. rewrite Ef.
  exists ft, pre, mv, (post ++ c90_free). cbn [app]. rewrite <- app_assoc. split; [reflexivity|]. do 3 (split; [assumption|]). split; [exact J|]. split; [|exact M].
  rewrite app_assoc, ScanProofs.named_app, N. reflexivity.
Qed.
