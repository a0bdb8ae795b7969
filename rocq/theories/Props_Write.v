(** Theorems about writing: C01 - C07, C09, C36 (see properties.jsonl).

    [cap] is the capacity of the buffered writer; [blen (render_all f) < N.of_nat fuel] only says that
    the evaluator of the model is given enough steps.  [updatable f items]: [f] is well-formed, its
    chunk offset tables are sound and no container the library changes occurs twice; [items] can be
    stored; the resulting sizes fit their size fields. *)

From Coq Require Import List NArith ZArith Bool Lia Arith String.
From Coq Require Import ZifyBool ZifyNat ZifyN.
From Verif Require Import Base BaseLemmas Utf UtfLemmas Types Stream Parse Find Write TagSpec FileSpec ParseLemmas ReadProofs
  ExampleFile ReadFacts NewMeans WriteBytes DumpProofs WriteState ScanProofs AdjustProofs WriteProofs WriteMain UpdateMeans UpdateTwice
  EditSpec EditProofs OffsetProofs WriteExample Props_Read Props_ReadErr Props_Dump.
Import ListNotations.
Local Open Scope list_scope.

Lemma write_ok : forall cap fuel m f items, updatable f items -> blen (render_all f) < N.of_nat fuel ->
  exists ops, write_tag cap fuel m items (render_all f) = WResult (Ok tt) (render_all (update_file items f)) ops /\
    run_ops ops (render_all f) = render_all (update_file items f) /\
    forall ft pre mv post, f = ft :: pre ++ mv :: post -> a_id mv = id4 "moov" -> Forall (op_ge (blen (render_all (ft :: pre)))) ops.
Proof.
  intros cap fuel m f items U Fu. destruct (U) as ((G & t & D) & E & S & G').
  destruct (described_laid_out f t D) as (ft & pre & mv & post & L & GM).
  destruct (write_main cap fuel m items f ft pre mv post L G (GM items U) (storable_exact _ S) G' Fu) as (ops & W & R & O).
  exists ops. split; [exact W|]. split; [exact R|]. intros ft' pre' mv' post' E' J'. destruct L as (-> & I & _ & J & N & _).
  injection E' as <- E'. apply app_split in E'. apply named_two in N. destruct N as [N1 N2].
  destruct E' as [(<- & _ & _)|[(z & -> & ->)|(z & -> & ->)]]; [exact O| |].
  - rewrite named_app, named_this in N2 by exact J'. apply app_eq_nil in N2. destruct N2 as [_ N2]. discriminate N2.
  - rewrite named_app, named_this in N1 by exact J'. apply app_eq_nil in N1. destruct N1 as [_ N1]. discriminate N1.
Qed.
Lemma updated_describes : forall f t items, updatable f items -> describes f t -> describes (update_file items f) (Tag (tg_ftyp t) (tg_info t) items).
Proof. intros f t items (_ & E & S & _) D. apply update_describes; [apply storable_describable, S|exact E|exact D]. Qed.

(** ** The example *)

(** Tracks with both kinds of tables, items of other sizes than those of the file. *)
Definition ex_new_items : list atom_data :=
  [AtomData (IFourcc TITLE) [DUtf8 (str "A longer title than before")];
   AtomData (IFreeform (str "a") (str "b")) [DPng (raw [1; 2; 3]); DUtf8 (str "x")]].

Lemma ex_updatable : updatable ex_file ex_new_items.
Proof.
  split; [split; [exact ex_sizes|exists ex_tag; exact ex_describes]|]. split; [exact ex_editable|].
  split; [apply storableb_ok; vm_compute; reflexivity|]. split; vm_compute; reflexivity.
Qed.

(** * C01, C02: what is written is read back, the rest is kept *)

Theorem C01_written_metadata_is_read : forall cap fuel m m' f items,
  updatable f items ->
  blen (render_all f) < N.of_nat fuel -> blen (render_all (update_file items f)) < N.of_nat fuel ->
  wr_res (write_tag cap fuel m items (render_all f)) = Ok tt /\
  exists info ftyp, read_tag fuel m' (wr_file (write_tag cap fuel m items (render_all f))) = Ok (Tag ftyp info items).
Proof.
  intros cap fuel m m' f items U Fu Fu'. destruct (U) as ((_ & t & D) & _).
  destruct (write_ok cap fuel m f items U Fu) as (ops & -> & _). split; [reflexivity|].
  exists (tg_info t), (tg_ftyp t). cbn [wr_file]. apply C15_read_returns_content; [apply U|apply updated_describes; assumption|exact Fu'].
Qed.
Print Assumptions C01_written_metadata_is_read.
Theorem C02_filetype_and_audio_kept : forall cap fuel m m' f items,
  updatable f items ->
  blen (render_all f) < N.of_nat fuel -> blen (render_all (update_file items f)) < N.of_nat fuel ->
  exists t t', read_tag fuel m' (render_all f) = Ok t /\
    read_tag fuel m' (wr_file (write_tag cap fuel m items (render_all f))) = Ok t' /\
    tg_ftyp t' = tg_ftyp t /\ tg_info t' = tg_info t.
Proof.
  intros cap fuel m m' f items U Fu Fu'. destruct (U) as ((G & t & D) & _ & _ & G').
  destruct (write_ok cap fuel m f items U Fu) as (ops & -> & _). exists t, (Tag (tg_ftyp t) (tg_info t) items). cbn [wr_file].
  split; [apply C15_read_returns_content; assumption|]. split; [|split; reflexivity].
  apply C15_read_returns_content; [exact G'|apply updated_describes; assumption|exact Fu'].
Qed.
Print Assumptions C02_filetype_and_audio_kept.
Example C01_example :
  updatable ex_file ex_new_items /\ describes ex_file ex_tag /\
  read_tag 1000 Checked (wr_file (write_tag 16 1000 Checked ex_new_items (render_all ex_file))) = Ok (Tag (tg_ftyp ex_tag) (tg_info ex_tag) ex_new_items) /\
  blen (wr_file (write_tag 16 1000 Checked ex_new_items (render_all ex_file))) <> blen (render_all ex_file).
Proof. split; [exact ex_updatable|]. split; [exact ex_describes|]. split; vm_compute; [reflexivity|discriminate]. Qed.

(** * C03: everything else is preserved *)

(** The new file is an edit of the old one: [file_edit] lists what may change. *)
Theorem C03_rest_preserved : forall cap fuel m f items,
  updatable f items -> blen (render_all f) < N.of_nat fuel ->
  exists g, wr_file (write_tag cap fuel m items (render_all f)) = render_all g /\ file_edit f g.
Proof.
  intros cap fuel m f items U Fu. destruct (write_ok cap fuel m f items U Fu) as (ops & -> & _). exists (update_file items f). split; [reflexivity|].
  destruct (U) as ((_ & t & D) & E & _). exact (file_edit_update items f t D E).
Qed.
Print Assumptions C03_rest_preserved.
(** In terms of bytes: what is in front of and behind the movie atom is kept, and so are all media
    data atoms. *)
Theorem C03_media_preserved : forall cap fuel m ft pre mv post items,
  let f := ft :: pre ++ mv :: post in
  updatable f items -> a_id mv = id4 "moov" -> blen (render_all f) < N.of_nat fuel ->
  exists mv', wr_file (write_tag cap fuel m items (render_all f)) = render_all (ft :: pre) ++ render mv' ++ render_all post /\
    a_id mv' = id4 "moov" /\
    named_kids (id4 "mdat") (ft :: pre ++ mv' :: post) = named_kids (id4 "mdat") f.
Proof.
  intros cap fuel m ft pre mv post items f U J Fu. destruct (write_ok cap fuel m f items U Fu) as (ops & -> & _). cbn [wr_file].
  destruct (U) as ((_ & t & D) & E & _). pose proof (file_edit_update items f t D E) as FE.
  destruct D as (ft' & pre' & mv' & post' & Ef & I & _ & _ & J' & N & _).
  assert (X : ft' = ft /\ pre' = pre /\ mv' = mv /\ post' = post).
  { unfold f in Ef. injection Ef as <- Ef. symmetry in Ef. apply app_split in Ef. apply named_two in N. destruct N as [N1 N2].
    destruct Ef as [(-> & -> & ->)|[(z & -> & ->)|(z & -> & ->)]]; [auto| |].
    - rewrite named_app, named_this in N2 by exact J. apply app_eq_nil in N2. destruct N2 as [_ N2]. discriminate N2.
    - rewrite named_app, named_this in N1 by exact J. apply app_eq_nil in N1. destruct N1 as [_ N1]. discriminate N1. }
  destruct X as (-> & -> & -> & ->). subst f. rewrite (update_at items ft pre mv post I J N) in *. eexists. split; [|split; [|]].
  - rewrite render_all_app, render_all_cons. reflexivity.
  - rewrite update_moov_id. exact J.
  - change (ft :: pre ++ mv :: post) with ((ft :: pre) ++ mv :: post) in *. symmetry. apply (file_edit_others (id4 "mdat") _ _); [discriminate|exact FE].
Qed.
Print Assumptions C03_media_preserved.
Example C03_example : updatable ex_file ex_new_items /\ file_edit ex_file (update_file ex_new_items ex_file) /\ update_file ex_new_items ex_file <> ex_file.
Proof.
  split; [exact ex_updatable|]. split; [exact (file_edit_update _ _ _ ex_describes ex_editable)|]. intro H. apply (f_equal render_all) in H. revert H. vm_compute. discriminate.
Qed.

(** * C05: sizes stay consistent *)

Theorem C05_sizes_consistent : forall cap fuel m f items,
  updatable f items -> blen (render_all f) < N.of_nat fuel ->
  exists g, tiles (wr_file (write_tag cap fuel m items (render_all f))) g /\ well_formed g.
Proof.
  intros cap fuel m f items U Fu. destruct (write_ok cap fuel m f items U Fu) as (ops & -> & _). exists (update_file items f).
  destruct (U) as ((_ & t & D) & E & _ & G'). split; [apply render_tiles, G'|]. split; [exact G'|]. eexists. apply updated_describes; eassumption.
Qed.
Print Assumptions C05_sizes_consistent.
(** The tree is the old one with the metadata replaced. *)
Theorem C05_tree : forall cap fuel m f items,
  updatable f items -> blen (render_all f) < N.of_nat fuel ->
  exists g, tiles (wr_file (write_tag cap fuel m items (render_all f))) g /\ file_edit f g.
Proof.
  intros cap fuel m f items U Fu. destruct (write_ok cap fuel m f items U Fu) as (ops & -> & _). exists (update_file items f).
  destruct (U) as ((_ & t & D) & E & _ & G'). split; [apply render_tiles, G'|exact (file_edit_update items f t D E)].
Qed.
Print Assumptions C05_tree.
Example C05_example : tiles (render_all ex_file) ex_file /\ ~ tiles (render_all ex_file ++ raw [0]) ex_file.
Proof.
  split; [apply render_tiles, ex_sizes|]. intro H. apply tiles_render in H. apply (f_equal blen) in H. revert H. vm_compute. discriminate.
Qed.

(** * C06: the missing parts of the hierarchy are created *)

Lemma updated_at : forall cap fuel m ft pre mv post items, let f := ft :: pre ++ mv :: post in
  updatable f items -> a_id mv = id4 "moov" -> blen (render_all f) < N.of_nat fuel ->
  good_moov mv /\ exists d ops, write_tag cap fuel m items (render_all f) = WResult (Ok tt) (render_all (ft :: pre ++ update_moov items d mv :: post)) ops.
Proof.
  intros cap fuel m ft pre mv post items f U J Fu. destruct (write_ok cap fuel m f items U Fu) as (ops & -> & _).
  destruct (U) as ((_ & t & D) & E & _). split; [exact (editable_moov ft pre mv post J E)|].
  destruct D as (ft' & pre' & mv' & post' & Ef & I & _ & _ & J' & N & _).
  assert (X : ft' = ft /\ pre' = pre /\ mv' = mv /\ post' = post).
  { unfold f in Ef. injection Ef as <- Ef. symmetry in Ef. apply app_split in Ef. apply named_two in N. destruct N as [N1 N2].
    destruct Ef as [(-> & -> & ->)|[(z & -> & ->)|(z & -> & ->)]]; [auto| |].
    - rewrite named_app, named_this in N2 by exact J. apply app_eq_nil in N2. destruct N2 as [_ N2]. discriminate N2.
    - rewrite named_app, named_this in N1 by exact J. apply app_eq_nil in N1. destruct N1 as [_ N1]. discriminate N1. }
  destruct X as (-> & -> & -> & ->). subst f. rewrite (update_at items ft pre mv post I J N). cbn [app].
  exists (match named_kids (id4 "mdat") post with [] => 0%Z | _ => growth items mv end), ops. reflexivity.
Qed.

(** No user data atom: one is appended to the movie atom ([k]: the children with adjusted chunk
    offset tables). *)
Theorem C06_no_udta : forall cap fuel m items ft pre mv post, let f := ft :: pre ++ mv :: post in
  updatable f items -> a_id mv = id4 "moov" -> blen (render_all f) < N.of_nat fuel ->
  named_kids (id4 "udta") (a_kids mv) = [] ->
  exists k ops, except (id4 "trak") trak_edit (a_kids mv) k /\
    write_tag cap fuel m items (render_all f) =
      WResult (Ok tt) (render_all (ft :: pre ++ with_kids mv (k ++ [FileSpec.new_udta items]) :: post)) ops.
Proof.
  intros cap fuel m items ft pre mv post f U J Fu N. destruct (updated_at cap fuel m ft pre mv post items U J Fu) as ([G _] & d & ops & E).
  exists (shift_traks d (a_kids mv)), ops. split; [apply traks_edit_shift, G|]. unfold f. rewrite E. unfold update_moov. rewrite split_on_none by exact N. reflexivity.
Qed.
Print Assumptions C06_no_udta.
(** A user data atom without metadata atom: one is appended to it. *)
Theorem C06_no_meta : forall cap fuel m items ft pre mv post x u y, let f := ft :: pre ++ mv :: post in
  updatable f items -> a_id mv = id4 "moov" -> blen (render_all f) < N.of_nat fuel ->
  a_kids mv = x ++ u :: y -> a_id u = id4 "udta" -> named_kids (id4 "meta") (a_kids u) = [] ->
  exists k ops, except (id4 "trak") trak_edit x k /\
    write_tag cap fuel m items (render_all f) =
      WResult (Ok tt) (render_all (ft :: pre ++ with_kids mv (k ++ with_kids u (a_kids u ++ [FileSpec.new_meta items]) :: y) :: post)) ops.
Proof.
  intros cap fuel m items ft pre mv post x u y f U J Fu Ek Iu N. destruct (updated_at cap fuel m ft pre mv post items U J Fu) as ([G [O _]] & d & ops & E).
  rewrite Ek in G, O. assert (Nx : named_kids (id4 "udta") x = []).
  { unfold at_most_one in O. rewrite named_app, named_this, app_length in O by exact Iu. cbn [List.length] in O. destruct (named_kids (id4 "udta") x); [reflexivity|cbn [List.length] in O; lia]. }
  exists (shift_traks d x), ops. apply good_sub in G. split; [apply traks_edit_shift, G|]. unfold f. rewrite E. unfold update_moov. rewrite Ek, split_on_at by assumption.
  unfold update_udta. rewrite split_on_none by exact N. reflexivity.
Qed.
Print Assumptions C06_no_meta.
(** A metadata atom without item list: one is appended to it, behind a handler if there is none. *)
Theorem C06_no_ilst : forall cap fuel m items ft pre mv post x u y p me q, let f := ft :: pre ++ mv :: post in
  updatable f items -> a_id mv = id4 "moov" -> blen (render_all f) < N.of_nat fuel ->
  a_kids mv = x ++ u :: y -> a_id u = id4 "udta" -> a_kids u = p ++ me :: q -> a_id me = id4 "meta" ->
  named_kids (id4 "ilst") (a_kids me) = [] ->
  exists k ops, except (id4 "trak") trak_edit x k /\
    write_tag cap fuel m items (render_all f) =
      WResult (Ok tt) (render_all (ft :: pre ++ with_kids mv (k ++
        with_kids u (p ++ with_kids me (a_kids me ++ missing_hdlr me ++ [new_ilst items]) :: q) :: y) :: post)) ops.
Proof.
  intros cap fuel m items ft pre mv post x u y p me q f U J Fu Ek Iu Ep Ime N. destruct (updated_at cap fuel m ft pre mv post items U J Fu) as ([G [O F]] & d & ops & E).
  rewrite Ek in G, O, F. assert (Nx : named_kids (id4 "udta") x = []).
  { unfold at_most_one in O. rewrite named_app, named_this, app_length in O by exact Iu. cbn [List.length] in O. destruct (named_kids (id4 "udta") x); [reflexivity|cbn [List.length] in O; lia]. }
  assert (Np : named_kids (id4 "meta") p = []).
  { rewrite named_app, named_this in F by exact Iu. apply Forall_app in F. destruct F as [_ F]. inversion F as [|? ? [O2 _] _]; subst. rewrite Ep in O2.
    unfold at_most_one in O2. rewrite named_app, named_this, app_length in O2 by exact Ime. cbn [List.length] in O2. destruct (named_kids (id4 "meta") p); [reflexivity|cbn [List.length] in O2; lia]. }
  exists (shift_traks d x), ops. apply good_sub in G. split; [apply traks_edit_shift, G|]. unfold f. rewrite E. unfold update_moov. rewrite Ek, split_on_at by assumption.
  unfold update_udta. rewrite Ep, split_on_at by assumption. unfold update_meta. rewrite split_on_none by exact N. reflexivity.
Qed.
Print Assumptions C06_no_ilst.
(** An existing item list is replaced in place; a missing handler is added in front of it. *)
Theorem C06_replaced : forall cap fuel m items ft pre mv post x u y p me q r il s, let f := ft :: pre ++ mv :: post in
  updatable f items -> a_id mv = id4 "moov" -> blen (render_all f) < N.of_nat fuel ->
  a_kids mv = x ++ u :: y -> a_id u = id4 "udta" -> a_kids u = p ++ me :: q -> a_id me = id4 "meta" ->
  a_kids me = r ++ il :: s -> a_id il = id4 "ilst" ->
  exists k ops, except (id4 "trak") trak_edit x k /\
    write_tag cap fuel m items (render_all f) =
      WResult (Ok tt) (render_all (ft :: pre ++ with_kids mv (k ++
        with_kids u (p ++ with_kids me (r ++ missing_hdlr me ++ [new_ilst items] ++ s) :: q) :: y) :: post)) ops.
Proof.
  intros cap fuel m items ft pre mv post x u y p me q r il s f U J Fu Ek Iu Ep Ime Er Iil.
  destruct (updated_at cap fuel m ft pre mv post items U J Fu) as ([G [O F]] & d & ops & E).
  rewrite Ek in G, O, F. assert (Nx : named_kids (id4 "udta") x = []).
  { unfold at_most_one in O. rewrite named_app, named_this, app_length in O by exact Iu. cbn [List.length] in O. destruct (named_kids (id4 "udta") x); [reflexivity|cbn [List.length] in O; lia]. }
  rewrite named_app, named_this in F by exact Iu. apply Forall_app in F. destruct F as [_ F]. inversion F as [|? ? [O2 F2] _]; subst. rewrite Ep in O2, F2.
  assert (Np : named_kids (id4 "meta") p = []).
  { unfold at_most_one in O2. rewrite named_app, named_this, app_length in O2 by exact Ime. cbn [List.length] in O2. destruct (named_kids (id4 "meta") p); [reflexivity|cbn [List.length] in O2; lia]. }
  rewrite named_app, named_this in F2 by exact Ime. apply Forall_app in F2. destruct F2 as [_ F2]. inversion F2 as [|? ? O3 _]; subst. unfold good_meta in O3. rewrite Er in O3.
  assert (Nr : named_kids (id4 "ilst") r = []).
  { unfold at_most_one in O3. rewrite named_app, named_this, app_length in O3 by exact Iil. cbn [List.length] in O3. destruct (named_kids (id4 "ilst") r); [reflexivity|cbn [List.length] in O3; lia]. }
  exists (shift_traks d x), ops. apply good_sub in G. split; [apply traks_edit_shift, G|]. unfold f. rewrite E. unfold update_moov. rewrite Ek, split_on_at by assumption.
  unfold update_udta. rewrite Ep, split_on_at by assumption. unfold update_meta. rewrite Er, split_on_at by assumption. reflexivity.
Qed.
Print Assumptions C06_replaced.

(** Files with an increasing part of the hierarchy. *)
Definition c06_moov (kids : list atom) : atom := Atom false (id4 "moov") [] (ex_mvhd :: ex_traks ++ kids).
Definition c06_file (kids : list atom) : list atom := [ex_ftyp; c06_moov kids; ex_mdat].
Definition c06_udta (kids : list atom) : list atom := [ex_udta (Atom false (id4 "Xtra") (zeros 2) [] :: kids)].
Definition c06_meta (kids : list atom) : list atom := [ex_meta (Atom false (id4 "free") (zeros 3) [] :: kids)].
Lemma c06_describes : forall kids o, Forall2 udta_means (named_kids (id4 "udta") kids) (match o with Some x => [x] | None => [] end) ->
  named_kids (id4 "trak") kids = [] -> named_kids (id4 "mvhd") kids = [] ->
  describes (c06_file kids) (Tag (str "M4A isom") (tg_info ex_tag) (match join o with Some l => l | None => [] end)).
Proof.
  intros kids o F T M. exists ex_ftyp, [], (c06_moov kids), [ex_mdat]. do 6 (split; [reflexivity|]). split; [reflexivity|].
  exists (Some 90500000000), [None; Some ex_audio], o.
  assert (E : forall id, named_kids id (a_kids (c06_moov kids)) = named_kids id (ex_mvhd :: ex_traks) ++ named_kids id kids).
  { intro id. unfold c06_moov. cbn [a_kids]. change (ex_mvhd :: ex_traks ++ kids) with ((ex_mvhd :: ex_traks) ++ kids). apply named_app. }
  split; [|split; [|split; [|split; reflexivity]]].
  - exists [90500000000]. split; [|reflexivity]. rewrite E, M. constructor; [|constructor]. left. repeat split; try reflexivity; try discriminate.
  - rewrite E, T. constructor; [exact ex_trak0_means|]. constructor; [exact ex_trak_means|constructor].
  - exists (match o with Some x => [x] | None => [] end). rewrite E. split; [exact F|]. destruct o; reflexivity.
Qed.
Lemma c06_updatable : forall kids t, describes (c06_file kids) t -> good_sizes (c06_file kids) -> editableb (c06_file kids) = true ->
  good_sizes (update_file ex_new_items (c06_file kids)) -> updatable (c06_file kids) ex_new_items.
Proof.
  intros kids t D G E G'. split; [split; [exact G|exists t; exact D]|]. split; [apply editableb_ok, E|].
  split; [apply storableb_ok; vm_compute; reflexivity|exact G'].
Qed.
Example C06_example :
  updatable (c06_file []) ex_new_items /\
  updatable (c06_file (c06_udta [])) ex_new_items /\
  updatable (c06_file (c06_udta (c06_meta []))) ex_new_items /\
  updatable (c06_file (c06_udta (c06_meta [new_hdlr]))) ex_new_items /\
  updatable ex_file ex_new_items.
Proof.
  assert (S : forall kids, forallb fits (c06_file kids) && (blen (render_all (c06_file kids)) <? 2 ^ 62) = true -> good_sizes (c06_file kids)).
  { intros kids H. apply andb_true_iff in H. split; [apply H|apply N.ltb_lt, H]. }
  split; [|split; [|split; [|split; [|exact ex_updatable]]]].
  - eapply c06_updatable; [apply (c06_describes [] None); [constructor|reflexivity|reflexivity]|apply S; vm_compute; reflexivity|vm_compute; reflexivity|split; vm_compute; reflexivity].
  - eapply c06_updatable; [apply (c06_describes (c06_udta []) (Some None)); [|reflexivity|reflexivity]|apply S; vm_compute; reflexivity|vm_compute; reflexivity|split; vm_compute; reflexivity].
    constructor; [|constructor]. apply box_none; reflexivity.
  - eapply c06_updatable; [apply (c06_describes (c06_udta (c06_meta [])) (Some None)); [|reflexivity|reflexivity]|apply S; vm_compute; reflexivity|vm_compute; reflexivity|split; vm_compute; reflexivity].
    constructor; [|constructor]. eapply box_skip; [reflexivity|reflexivity|]. split; [apply ex_version0|]. exists []. split; [constructor|reflexivity].
  - eapply c06_updatable; [apply (c06_describes (c06_udta (c06_meta [new_hdlr])) (Some None)); [|reflexivity|reflexivity]|apply S; vm_compute; reflexivity|vm_compute; reflexivity|split; vm_compute; reflexivity].
    constructor; [|constructor]. eapply box_skip; [reflexivity|reflexivity|]. split; [apply ex_version0|]. exists []. split; [constructor|reflexivity].
Qed.
