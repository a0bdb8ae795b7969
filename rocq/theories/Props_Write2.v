(** Theorems about writing: C04, C07, C09, C36 (see properties.jsonl and Props_Write). *)

From Coq Require Import List NArith ZArith Bool Lia Arith String.
From Coq Require Import ZifyBool ZifyNat ZifyN.
From Verif Require Import Base BaseLemmas Utf UtfLemmas Types Stream Parse Find Write TagSpec FileSpec ParseLemmas ReadProofs
  ExampleFile ReadFacts NewMeans WriteBytes DumpProofs WriteState ScanProofs AdjustProofs WriteProofs WriteMain UpdateMeans UpdateTwice
  EditSpec EditProofs OffsetProofs WriteExample Props_Read Props_ReadErr Props_Dump Props_Write.
Import ListNotations.
Local Open Scope list_scope.

(** * C04: chunk offsets keep addressing the same media bytes *)

(** Proved for files whose media data is on one side of the movie atom, whose tracks precede the user
    data, and whose offsets stay in range.  What is missing: nothing else holds, see the refutations. *)
Theorem C04_chunks_kept_partial : forall cap fuel m f items,
  updatable f items -> blen (render_all f) < N.of_nat fuel ->
  one_sided f -> tracks_first f -> in_reach items f ->
  exists g, tiles (wr_file (write_tag cap fuel m items (render_all f))) g /\ chunks_kept f g.
Proof.
  intros cap fuel m f items U Fu S T R. destruct (write_ok cap fuel m f items U Fu) as (ops & -> & _). exists (update_file items f).
  destruct (U) as ((_ & t & D) & E & _ & G'). split; [apply render_tiles, G'|]. eapply chunks_update; eassumption.
Qed.
Print Assumptions C04_chunks_kept_partial.

(** The example: entries 782, 784 (32 bit) and 783, 786 (64 bit) address bytes of the media data behind
    the movie atom, whose content starts at 782. *)
Lemma ex_one_sided : one_sided ex_file.
Proof.
  intros x mv y E J. unfold ex_file in E.
  destruct x as [|a x]; [injection E as <- _; discriminate J|]. injection E as <- E.
  destruct x as [|b x]; [injection E as <- _; discriminate J|]. injection E as <- E.
  destruct x as [|c x]; [left; reflexivity|]. injection E as <- E.
  destruct x as [|d x]; [injection E as <- _; discriminate J|]. injection E as <- E.
  destruct x as [|e x]; [injection E as <- _; discriminate J|]. injection E as <- E.
  destruct x; discriminate E.
Qed.
Lemma ex_tracks_first : tracks_first ex_file.
Proof.
  intros mv x u y I J E K.
  assert (mv = ex_moov) as -> by (cbn in I; destruct I as [<-|[<-|[<-|[<-|[<-|[]]]]]]; try discriminate J; reflexivity).
  cbn [a_kids ex_moov ex_traks app] in E.
  destruct x as [|k x]; [injection E as <- _; discriminate K|]. injection E as <- E.
  destruct x as [|k x]; [injection E as <- _; discriminate K|]. injection E as <- E.
  destruct x as [|k x]; [injection E as <- _; discriminate K|]. injection E as <- E.
  destruct x as [|k x]; [injection E as _ <-; reflexivity|]. injection E as <- E.
  destruct x as [|k x]; [injection E as <- _; discriminate K|]. injection E as <- E.
  destruct x; discriminate E.
Qed.
Lemma ex_in_reach : in_reach ex_new_items ex_file.
Proof.
  apply in_reachb_ok. vm_compute. reflexivity.
Qed.
Example C04_example :
  updatable ex_file ex_new_items /\ one_sided ex_file /\ tracks_first ex_file /\ in_reach ex_new_items ex_file /\
  map offsets (file_tables ex_file) = [[782; 784]; [783; 786]] /\ in_mdat ex_file 784 2 /\
  map offsets (file_tables (update_file ex_new_items ex_file)) = [[683; 685]; [684; 687]] /\
  slice (render_all ex_file) 784 2 = raw [12; 13] /\ slice (render_all (update_file ex_new_items ex_file)) 685 2 = raw [12; 13].
Proof.
  split; [exact ex_updatable|]. split; [exact ex_one_sided|]. split; [exact ex_tracks_first|]. split; [exact ex_in_reach|].
  split; [vm_compute; reflexivity|]. split; [|repeat split; vm_compute; reflexivity].
  exists (firstn 3 ex_file), ex_mdat, [Atom false (id4 "junk") (raw [1]) []]. repeat split; vm_compute; discriminate.
Qed.

(** What happens to every entry of a track in front of the user data: the displacement is added modulo
    2^32 or 2^64, without any error when an entry leaves its range. *)
Theorem C04_wrap_refuted : forall cap fuel m f items i j t o,
  updatable f items -> blen (render_all f) < N.of_nat fuel -> mdat_follows f -> tracks_first f ->
  nth_error (file_tables f) i = Some t -> nth_error (offsets t) j = Some o ->
  exists g ops, write_tag cap fuel m items (render_all f) = WResult (Ok tt) (render_all g) ops /\
    entry g i j (Z.to_N ((Z.of_N o + displacement items f) mod 2 ^ (8 * Z.of_nat (fst t)))).
Proof.
  intros cap fuel m f items i j tb o U Fu (x & mv0 & y & Ef & J0 & Np) T Hi Hj. destruct (write_ok cap fuel m f items U Fu) as (ops & W & _).
  exists (update_file items f), ops. split; [exact W|]. destruct (U) as ((_ & t & D) & E & _ & G').
  destruct D as (ft & pre & mv & post & Ef' & I & _ & _ & J & N & _).
  pose proof (named_two (id4 "moov") pre post) as [N12 _]. specialize (N12 N). destruct N12 as [N1 N2].
  assert (X : y = post).
  { rewrite Ef in Ef'. change (ft :: pre ++ mv :: post) with ((ft :: pre) ++ mv :: post) in Ef'. apply app_split in Ef'.
    destruct Ef' as [(_ & _ & ->)|[(z & Ez & ->)|(z & _ & ->)]]; [reflexivity| |].
    - assert (Z1 : named_kids (id4 "moov") (ft :: pre) = []) by (rewrite named_other by (rewrite I; discriminate); exact N1).
      rewrite Ez in Z1. rewrite named_app, named_this in Z1 by exact J0. apply app_eq_nil in Z1. destruct Z1 as [_ Z1]. discriminate Z1.
    - rewrite named_app, named_this in N2 by exact J0. apply app_eq_nil in N2. destruct N2 as [_ N2]. discriminate N2. }
  subst y. clear Ef. subst f. pose proof (editable_moov _ _ _ _ J E) as G. rewrite (displacement_growth items ft pre mv post I J N G).
  assert (Bk : kid_tables (back_kids mv) = []).
  { unfold back_kids. destruct (split_on (id4 "udta") (a_kids mv)) as [[[a u] b]|] eqn:Sp; [|reflexivity]. apply split_on_some in Sp. destruct Sp as (Sp & Iu & _).
    unfold kid_tables. rewrite (T mv a u b); [reflexivity| |exact J|exact Sp|exact Iu]. right. apply in_or_app. right. left. reflexivity. }
  rewrite (update_at items ft pre mv post I J N). destruct (named_kids (id4 "mdat") post) as [|md0 mds]; [contradiction|].
  change (ft :: pre ++ mv :: post) with ((ft :: pre) ++ mv :: post) in Hi. rewrite file_tables_at in Hi by assumption.
  assert (Ok : table_ok tb).
  { pose proof (kid_tables_ok (a_kids mv) (proj1 G)) as K. rewrite Forall_forall in K. apply K. apply nth_error_In in Hi. exact Hi. }
  exists (shift_pair (growth items mv) tb). split.
  - rewrite file_tables_at by (rewrite ?update_moov_id; assumption). rewrite update_moov_tables, Bk, app_nil_r. apply map_nth_error.
    rewrite moov_tables_parts, Bk, app_nil_r in Hi. exact Hi.
  - destruct tb as [w a]. unfold shift_pair. cbn [fst snd]. rewrite offsets_shift by apply Ok. erewrite map_nth_error by exact Hj. reflexivity.
Qed.
Print Assumptions C04_wrap_refuted.

(** A track behind the user data, media data behind the movie: the offset is not adjusted. *)
Definition c04_moov (l : list atom) : atom := Atom false (id4 "moov") [] l.
Lemma c04_describes : forall pre kids post,
  Forall (fun k => trak_means k None) (named_kids (id4 "trak") kids) -> named_kids (id4 "mvhd") kids = [] ->
  Forall (fun k => udta_means k None) (named_kids (id4 "udta") kids) -> named_kids (id4 "moov") (pre ++ post) = [] ->
  describes (ex_ftyp :: pre ++ c04_moov kids :: post) (Tag (str "M4A isom") (AudioInfo None None None None None) []).
Proof.
  assert (Q : forall (P : atom -> option audio -> Prop) l, Forall (fun k => P k None) l -> Forall2 P l (map (fun _ => None) l)).
  { intros P l H. induction H; constructor; auto. }
  assert (Q2 : forall l, Forall (fun k => udta_means k None) l -> Forall2 udta_means l (map (fun _ => None) l)).
  { intros l H. induction H; constructor; auto. }
  assert (F : forall {A} (l : list A), first_some (map (fun _ => @None audio) l) = None) by (intros A l; induction l; auto).
  assert (L : forall {A B} (l : list A) o, (o = None \/ o = Some None) -> join (fold_left (fun _ x => Some x) (map (fun _ => @None B) l) o) = None).
  { intros A B l. induction l as [|a l IH]; intros o H; [destruct H as [-> | ->]; reflexivity|]. cbn [map fold_left]. apply IH. right. reflexivity. }
  intros pre kids post T M U N. exists ex_ftyp, pre, (c04_moov kids), post. do 4 (split; [reflexivity|]). split; [reflexivity|]. split; [exact N|]. split; [reflexivity|].
  exists None, (map (fun _ => None) (named_kids (id4 "trak") kids)), (last_opt (map (fun _ => None) (named_kids (id4 "udta") kids))).
  cbn [a_kids c04_moov]. split; [exists []; cbn [a_kids c04_moov]; rewrite M; split; [constructor|reflexivity]|]. split; [apply Q, T|].
  split; [eexists; split; [apply Q2, U|reflexivity]|]. rewrite F. split; [reflexivity|]. unfold last_opt. rewrite L by (left; reflexivity). reflexivity.
Qed.
Lemma c04_trak : forall k, trak_means (ex_trak [ex_stco [k]]) None.
Proof.
  intro k. eapply box_skip; [reflexivity|reflexivity|]. eapply box_skip; [reflexivity|reflexivity|].
  eapply box_skip; [reflexivity|reflexivity|]. apply box_none; reflexivity.
Qed.
Definition c04_behind : list atom := [ex_ftyp; c04_moov [ex_udta []; ex_trak [ex_stco [116]]]; ex_mdat].
Theorem C04_track_behind_udta_refuted : exists f items,
  updatable f items /\ one_sided f /\ in_reach items f /\ ~ chunks_kept f (update_file items f).
Proof.
  exists c04_behind, ex_new_items. split; [|split; [|split]].
  - split; [split; [split; vm_compute; reflexivity|]|]. { eexists. apply (c04_describes [] _ [ex_mdat]); try reflexivity.
      - constructor; [apply c04_trak|constructor].
      - constructor; [|constructor]. apply box_none; reflexivity. }
    split; [apply editableb_ok; vm_compute; reflexivity|]. split; [apply storableb_ok; vm_compute; reflexivity|split; vm_compute; reflexivity].
  - intros x mv y E J. unfold c04_behind in E. destruct x as [|a x]; [injection E as <- _; discriminate J|]. injection E as <- E.
    destruct x as [|b x]; [left; reflexivity|]. injection E as <- E. destruct x as [|c x]; [injection E as <- _; discriminate J|]. injection E as <- E. destruct x; discriminate E.
  - apply in_reachb_ok. vm_compute. reflexivity.
  - intro H. destruct (H 0%nat 0%nat 116 8) as (o' & (t & A & B) & C).
    + eexists. split; vm_compute; reflexivity.
    + exists (firstn 2 c04_behind), ex_mdat, []. repeat split; vm_compute; discriminate.
    + vm_compute in A. injection A as <-. vm_compute in B. injection B as <-. vm_compute in C. discriminate C.
Qed.
Print Assumptions C04_track_behind_udta_refuted.
(** Media data on both sides of the movie: offsets into the front part are shifted although it does not
    move. *)
Definition c04_both : list atom := [ex_ftyp; ex_mdat; c04_moov [ex_trak [ex_stco [24]]]; ex_mdat].
Theorem C04_two_sided_refuted : exists f items,
  updatable f items /\ tracks_first f /\ in_reach items f /\ ~ chunks_kept f (update_file items f).
Proof.
  exists c04_both, ex_new_items. split; [|split; [|split]].
  - split; [split; [split; vm_compute; reflexivity|]|]. { eexists. apply (c04_describes [ex_mdat] _ [ex_mdat]); try reflexivity.
      - constructor; [apply c04_trak|constructor].
      - constructor. }
    split; [apply editableb_ok; vm_compute; reflexivity|]. split; [apply storableb_ok; vm_compute; reflexivity|split; vm_compute; reflexivity].
  - intros mv x u y I J E K. cbn in I. destruct I as [<-|[<-|[<-|[<-|[]]]]]; try discriminate J. cbn [a_kids c04_moov] in E.
    destruct x as [|a x]; [injection E as <- _; discriminate K|]. injection E as <- E. destruct x; discriminate E.
  - apply in_reachb_ok. vm_compute. reflexivity.
  - intro H. destruct (H 0%nat 0%nat 24 8) as (o' & (t & A & B) & C).
    + eexists. split; vm_compute; reflexivity.
    + exists (firstn 1 c04_both), ex_mdat, (skipn 2 c04_both). repeat split; vm_compute; discriminate.
    + vm_compute in A. injection A as <-. vm_compute in B. injection B as <-. vm_compute in C. discriminate C.
Qed.
Print Assumptions C04_two_sided_refuted.

(** A 32-bit entry close to 2^32 becomes a small number (the file itself may be small: whether an entry
    points into the file is not looked at). *)
Definition c04_wrap : list atom := [ex_ftyp; c04_moov [ex_trak [ex_stco [4294967290]]]; ex_mdat].
Example C04_wrap_example :
  updatable c04_wrap ex_new_items /\ mdat_follows c04_wrap /\ tracks_first c04_wrap /\
  displacement ex_new_items c04_wrap = 181%Z /\ map offsets (file_tables (update_file ex_new_items c04_wrap)) = [[175]].
Proof.
  split; [|split; [|split]].
  - split; [split; [split; vm_compute; reflexivity|]|]. { eexists. apply (c04_describes [] _ [ex_mdat]); try reflexivity.
      - constructor; [apply c04_trak|constructor].
      - constructor. }
    split; [apply editableb_ok; vm_compute; reflexivity|]. split; [apply storableb_ok; vm_compute; reflexivity|split; vm_compute; reflexivity].
  - exists [ex_ftyp], (c04_moov [ex_trak [ex_stco [4294967290]]]), [ex_mdat]. split; [reflexivity|]. split; [reflexivity|]. discriminate.
  - intros mv x u y I J E K. cbn in I. destruct I as [<-|[<-|[<-|[]]]]; try discriminate J. cbn [a_kids c04_moov] in E.
    destruct x as [|a x]; [injection E as <- _; discriminate K|]. injection E as <- E. destruct x; discriminate E.
  - split; vm_compute; reflexivity.
Qed.

(** * C07: the last write wins *)

Lemma written_updatable : forall f a b, updatable f a -> updatable f b -> in_reach a f -> same_heads a b -> updatable (update_file a f) b.
Proof.
  intros f a b Ua Ub R H. destruct (Ua) as ((G & t & D) & E & Sa & Ga). destruct (Ub) as (_ & _ & Sb & Gb).
  split; [split; [exact Ga|eexists; apply updated_describes; eassumption]|]. split; [eapply update_editable; eassumption|]. split; [exact Sb|].
  rewrite update_twice; [exact Gb|exact H|exists t; exact D|exact E].
Qed.

(** Both tags are smaller than 4 GiB; the chunk offsets stay in range in between. *)
Theorem C07_last_write_wins : forall cap fuel m f a b,
  updatable f a -> updatable f b -> in_reach a f ->
  blen (render (FileSpec.new_udta a)) < 2 ^ 32 -> blen (render (FileSpec.new_udta b)) < 2 ^ 32 ->
  blen (render_all f) < N.of_nat fuel -> blen (render_all (update_file a f)) < N.of_nat fuel ->
  let w1 := write_tag cap fuel m a (render_all f) in
  let w2 := write_tag cap fuel m b (wr_file w1) in
  let w := write_tag cap fuel m b (render_all f) in
  wr_res w1 = Ok tt /\ wr_res w2 = Ok tt /\ wr_res w = Ok tt /\ wr_file w2 = wr_file w.
Proof.
  intros cap fuel m f a b Ua Ub R La Lb Fu Fu' w1 w2 w. pose proof (small_same a b La Lb) as H.
  destruct (write_ok cap fuel m f a Ua Fu) as (ops & E1 & _). destruct (write_ok cap fuel m f b Ub Fu) as (ops3 & E3 & _).
  destruct (write_ok cap fuel m (update_file a f) b (written_updatable f a b Ua Ub R H) Fu') as (ops2 & E2 & _).
  subst w2 w1 w. rewrite E1, E3. cbn [wr_file wr_res]. rewrite E2. cbn [wr_file wr_res]. repeat split. f_equal.
  destruct (Ua) as ((_ & t & D) & E & _). apply update_twice; [exact H|exists t; exact D|exact E].
Qed.
Print Assumptions C07_last_write_wins.
Theorem C07_idempotent : forall cap fuel m f a,
  updatable f a -> in_reach a f ->
  blen (render_all f) < N.of_nat fuel -> blen (render_all (update_file a f)) < N.of_nat fuel ->
  let w1 := write_tag cap fuel m a (render_all f) in
  let w2 := write_tag cap fuel m a (wr_file w1) in
  wr_res w1 = Ok tt /\ wr_res w2 = Ok tt /\ wr_file w2 = wr_file w1.
Proof.
  intros cap fuel m f a Ua R Fu Fu' w1 w2. assert (H : same_heads a a) by (split; reflexivity).
  destruct (write_ok cap fuel m f a Ua Fu) as (ops & E1 & _).
  destruct (write_ok cap fuel m (update_file a f) a (written_updatable f a a Ua Ua R H) Fu') as (ops2 & E2 & _).
  subst w2 w1. rewrite E1. cbn [wr_file wr_res]. rewrite E2. cbn [wr_file wr_res]. repeat split. f_equal.
  destruct (Ua) as ((_ & t & D) & E & _). apply update_twice; [exact H|exists t; exact D|exact E].
Qed.
Print Assumptions C07_idempotent.
(** For larger tags it is false: the user data atom created for [a] keeps its 64-bit size field. *)
Theorem C07_large_refuted : forall cap fuel m ft pre mv post a b,
  let f := ft :: pre ++ mv :: post in
  updatable f a -> updatable f b -> updatable (update_file a f) b -> a_id mv = id4 "moov" ->
  named_kids (id4 "udta") (a_kids mv) = [] ->
  2 ^ 32 < blen (render (FileSpec.new_udta a)) -> blen (render (FileSpec.new_udta b)) < 2 ^ 32 ->
  blen (render_all f) < N.of_nat fuel -> blen (render_all (update_file a f)) < N.of_nat fuel ->
  let w1 := write_tag cap fuel m a (render_all f) in
  let w2 := write_tag cap fuel m b (wr_file w1) in
  let w := write_tag cap fuel m b (render_all f) in
  wr_res w2 = Ok tt /\ wr_res w = Ok tt /\ blen (wr_file w) < blen (wr_file w2).
Proof.
  intros cap fuel m ft pre mv post a b f Ua Ub Uab J N La Lb Fu Fu' w1 w2 w.
  destruct (write_ok cap fuel m f a Ua Fu) as (ops & E1 & _). destruct (write_ok cap fuel m f b Ub Fu) as (ops3 & E3 & _).
  destruct (write_ok cap fuel m (update_file a f) b Uab Fu') as (ops2 & E2 & _).
  subst w2 w1 w. rewrite E1, E3. cbn [wr_file wr_res]. rewrite E2. cbn [wr_file wr_res]. split; [reflexivity|]. split; [reflexivity|].
  destruct (Ua) as ((_ & t & D) & E & _). pose proof (editable_moov ft pre mv post J E) as G.
  destruct D as (ft' & pre' & mv' & post' & Ef & I & _ & _ & J' & Nm & _).
  assert (X : ft' = ft /\ pre' = pre /\ mv' = mv /\ post' = post).
  { unfold f in Ef. injection Ef as <- Ef. symmetry in Ef. apply app_split in Ef. apply named_two in Nm. destruct Nm as [N1 N2].
    destruct Ef as [(-> & -> & ->)|[(z & -> & ->)|(z & -> & ->)]]; [auto| |].
    - rewrite named_app, named_this in N2 by exact J. apply app_eq_nil in N2. destruct N2 as [_ N2]. discriminate N2.
    - rewrite named_app, named_this in N1 by exact J. apply app_eq_nil in N1. destruct N1 as [_ N1]. discriminate N1. }
  destruct X as (-> & -> & -> & ->). subst f. rewrite !(update_at _ ft pre mv post I J Nm). cbn [app].
  rewrite update_at by (rewrite ?update_moov_id; assumption).
  set (d1 := match named_kids (id4 "mdat") post with [] => 0%Z | _ => growth b mv end).
  set (d2 := match named_kids (id4 "mdat") post with [] => 0%Z | _ => growth a mv end).
  set (d3 := match named_kids (id4 "mdat") post with [] => 0%Z | _ => growth b (update_moov a d2 mv) end).
  change (ft :: pre ++ update_moov b d1 mv :: post) with ((ft :: pre) ++ update_moov b d1 mv :: post).
  rewrite !render_all_app, !render_all_cons, !blen_app.
  assert (Ea : forall z w, update_moov z w mv = with_kids mv (shift_traks w (a_kids mv) ++ [FileSpec.new_udta z])).
  { intros z w. unfold update_moov. rewrite split_on_none by exact N. reflexivity. }
  assert (E5 : update_moov b d3 (update_moov a d2 mv) = with_kids mv (shift_traks (d2 + d3) (a_kids mv) ++ [update_udta b (FileSpec.new_udta a)])).
  { rewrite Ea. unfold update_moov. change (a_kids (with_kids mv (shift_traks d2 (a_kids mv) ++ [FileSpec.new_udta a]))) with (shift_traks d2 (a_kids mv) ++ FileSpec.new_udta a :: []).
    rewrite split_on_at; [|reflexivity|unfold shift_traks; rewrite named_map_other by (discriminate || reflexivity); exact N].
    rewrite shift_traks_add by apply G. reflexivity. }
  rewrite E5, Ea. fold (asize (with_kids mv (shift_traks d1 (a_kids mv) ++ [FileSpec.new_udta b]))).
  fold (asize (with_kids mv (shift_traks (d2 + d3) (a_kids mv) ++ [update_udta b (FileSpec.new_udta a)]))).
  rewrite !asize_eq. unfold csize, a_content, with_kids, hlen. cbn [a_ext a_pre a_kids].
  rewrite !render_all_app, !blen_app, !shift_traks_size by apply G.
  assert (K : blen (render_all [FileSpec.new_udta b]) < blen (render_all [update_udta b (FileSpec.new_udta a)])).
  { cbn [render_all flat_map]. rewrite !app_nil_r. change (update_udta b (FileSpec.new_udta a)) with (Atom (a_ext (FileSpec.new_udta a)) (id4 "udta") [] [update_meta b (FileSpec.new_meta a)]).
    change (update_meta b (FileSpec.new_meta a)) with (Atom (a_ext (FileSpec.new_meta a)) (id4 "meta") (zeros 4) [new_hdlr; new_ilst b]).
    destruct (small_heads b Lb) as [Hm Hu].
    assert (La' : a_ext (FileSpec.new_udta a) = true).
    { destruct (a_ext (FileSpec.new_udta a)) eqn:Z; [reflexivity|]. exfalso. unfold FileSpec.new_udta, new_box in Z. cbn [a_ext] in Z. apply N.leb_gt in Z.
      fold (asize (FileSpec.new_udta a)) in La. rewrite asize_eq in La. unfold FileSpec.new_udta, new_box, csize, a_content, hlen in La. cbn [a_ext a_pre a_kids] in La.
      destruct (2 ^ 32 <=? blen ([] ++ render_all [FileSpec.new_meta a]) + 8) eqn:Y; [apply N.leb_le in Y|]; lia. }
    rewrite La'. fold (asize (FileSpec.new_udta b)).
    match goal with |- _ < blen (render ?k) => fold (asize k) end. rewrite !asize_eq. unfold csize, a_content, hlen.
    rewrite Hu. cbn [a_ext a_pre a_kids app render_all flat_map FileSpec.new_udta new_box]. rewrite !app_nil_r.
    match goal with |- _ < _ + blen (render ?k) => fold (asize k) end. fold (asize (FileSpec.new_meta b)). rewrite !asize_eq. unfold csize, a_content, hlen. rewrite Hm.
    cbn [a_ext a_pre a_kids]. change (a_pre (FileSpec.new_meta b)) with (zeros 4). change (a_kids (FileSpec.new_meta b)) with [new_hdlr; new_ilst b].
    destruct (a_ext (FileSpec.new_meta a)); lia. }
  lia.
Qed.
Print Assumptions C07_large_refuted.
(** An empty movie atom with a 64-bit size field; two values of 2 GiB. *)
Definition c07_file : list atom := [ex_ftyp; Atom true (id4 "moov") [] []].
Definition c07_items (z : bytes) : list atom_data := [AtomData (IFourcc TITLE) [DReserved z]; AtomData (IFourcc ARTIST) [DReserved z]].
Lemma c07_describes : forall k items, describable items \/ items = [] -> k = [FileSpec.new_udta items] \/ (k = [] /\ items = []) ->
  describes [ex_ftyp; Atom true (id4 "moov") [] k] (Tag (str "M4A isom") (AudioInfo None None None None None) items).
Proof.
  intros k items Ds K. exists ex_ftyp, [], (Atom true (id4 "moov") [] k), []. do 6 (split; [reflexivity|]). split; [reflexivity|].
  exists None, [], (match k with [] => None | _ => Some (Some items) end). destruct K as [->|[-> ->]].
  - split; [exists []; split; [constructor|reflexivity]|]. split; [constructor|]. split; [|split; reflexivity].
    exists [Some items]. split; [|reflexivity]. constructor; [|constructor]. apply new_udta_means. destruct Ds as [Ds| ->]; [exact Ds|].
    apply storable_describable, storableb_ok. reflexivity.
  - split; [exists []; split; [constructor|reflexivity]|]. split; [constructor|]. split; [|split; reflexivity]. exists []. split; [constructor|reflexivity].
Qed.
Lemma c07_witness : forall z, blen z = 2 ^ 31 -> let a := c07_items z in
  updatable c07_file a /\ updatable c07_file [] /\ updatable (update_file a c07_file) [] /\
  2 ^ 32 < blen (render (FileSpec.new_udta a)) /\ blen (render (FileSpec.new_udta [])) < 2 ^ 32.
Proof.
  intros z Lz a.
  assert (Sa : storable a).
  { split; [|repeat constructor; discriminate]. unfold unique_idents. repeat constructor; cbn; intuition discriminate. }
  pose proof (storable_exact a Sa) as Ex.
  assert (Fa : items_fit a).
  { apply items_fit_len; [exact Ex|]. change (2 ^ 31) with 2147483648 in Lz. change (2 ^ 32) with 4294967296.
    repeat constructor; unfold ad_len; cbn [ad_ident ad_data map nsum fold_right data_len]; rewrite Lz; lia. }
  assert (Ln : nsum (map ad_len a) = 4294967344).
  { change (2 ^ 31) with 2147483648 in Lz. unfold a, c07_items, ad_len. cbn [ad_ident ad_data map nsum fold_right data_len]. rewrite Lz. lia. }
  assert (Li : asize (new_ilst a) = 4294967360).
  { unfold new_ilst. rewrite <- (new_box_size (id4 "ilst") [] (map item_atom a) (nsum (map ad_len a))).
    - rewrite Ln. reflexivity.
    - cbn [app]. symmetry. apply ilst_content, Ex. }
  assert (Lm : asize (FileSpec.new_meta a) = 4294967413).
  { unfold FileSpec.new_meta. rewrite <- (new_box_size (id4 "meta") (zeros 4) [new_hdlr; new_ilst a] (4294967397)); [reflexivity|].
    rewrite blen_app, blen_render_all_cons. cbn [render_all flat_map]. rewrite app_nil_r. fold (asize (new_ilst a)). rewrite Li. reflexivity. }
  assert (Lu : asize (FileSpec.new_udta a) = 4294967429).
  { unfold FileSpec.new_udta. rewrite <- (new_box_size (id4 "udta") [] [FileSpec.new_meta a] 4294967413); [reflexivity|].
    rewrite <- one_kid. symmetry. exact Lm. }
  assert (Hu : a_ext (FileSpec.new_udta a) = true).
  { unfold FileSpec.new_udta, new_box. cbn [a_ext]. rewrite <- one_kid, Lm. reflexivity. }
  assert (Hm : a_ext (FileSpec.new_meta a) = true).
  { unfold FileSpec.new_meta, new_box. cbn [a_ext]. rewrite blen_app, blen_render_all_cons. cbn [render_all flat_map]. rewrite app_nil_r.
    fold (asize (new_ilst a)). rewrite Li. reflexivity. }
  assert (U0 : forall i, update_file i c07_file = [ex_ftyp; Atom true (id4 "moov") [] [FileSpec.new_udta i]]) by (intro i; reflexivity).
  assert (Gs : forall i, items_fit i -> asize (FileSpec.new_udta i) < 2 ^ 33 -> good_sizes [ex_ftyp; Atom true (id4 "moov") [] [FileSpec.new_udta i]]).
  { intros i Fi L. assert (E33 : 2 ^ 33 = 8589934592) by reflexivity. rewrite E33 in L.
    assert (Fu : fits (FileSpec.new_udta i) = true) by (apply new_udta_fits; [exact Fi|fold (asize (FileSpec.new_udta i)); lia]).
    assert (Lr : blen ([] ++ flat_map render [FileSpec.new_udta i]) = asize (FileSpec.new_udta i)) by (symmetry; apply (one_kid (FileSpec.new_udta i))).
    split.
    - cbn [forallb]. rewrite (eq_refl : fits ex_ftyp = true). cbn [andb]. rewrite andb_true_r. cbn [fits]. rewrite Lr. cbn [forallb]. rewrite Fu. cbn [andb].
      change (2 ^ 64) with 18446744073709551616. lia.
    - rewrite !blen_render_all_cons. change (blen (render_all [])) with 0. rewrite asize_eq. rewrite asize_eq. unfold csize, a_content, hlen. cbn [a_ext a_pre a_kids].
      change (render_all [FileSpec.new_udta i]) with (flat_map render [FileSpec.new_udta i]). rewrite Lr. change (blen (a_pre ex_ftyp ++ render_all (a_kids ex_ftyp))) with 8.
      change (2 ^ 62) with 4611686018427387904. destruct (a_ext ex_ftyp); lia. }
  assert (W : well_formed c07_file).
  { split; [split; vm_compute; reflexivity|]. eexists. apply (c07_describes [] []); [right; reflexivity|right; split; reflexivity]. }
  assert (Ed : editable c07_file) by (apply editableb_ok; vm_compute; reflexivity).
  split; [|split; [|split; [|split]]].
  - split; [exact W|]. split; [exact Ed|]. split; [exact Sa|]. rewrite U0. apply Gs; [exact Fa|rewrite Lu; reflexivity].
  - split; [exact W|]. split; [exact Ed|]. split; [apply storableb_ok; reflexivity|]. rewrite U0. apply Gs; [reflexivity|vm_compute; reflexivity].
  - rewrite U0. split; [|split; [|split; [apply storableb_ok; reflexivity|]]].
    + split; [apply Gs; [exact Fa|rewrite Lu; reflexivity]|]. eexists. apply (c07_describes [FileSpec.new_udta a] a); [left; apply storable_describable, Sa|left; reflexivity].
    + unfold editable. change (named_kids (id4 "moov") [ex_ftyp; Atom true (id4 "moov") [] [FileSpec.new_udta a]]) with [Atom true (id4 "moov") [] [FileSpec.new_udta a]].
      constructor; [|constructor]. split; [constructor|]. split; [unfold at_most_one; cbn; lia|].
      change (named_kids (id4 "udta") (a_kids (Atom true (id4 "moov") [] [FileSpec.new_udta a]))) with [FileSpec.new_udta a]. constructor; [apply good_new_udta|constructor].
    + change (update_file [] [ex_ftyp; Atom true (id4 "moov") [] [FileSpec.new_udta a]]) with
        [ex_ftyp; Atom true (id4 "moov") [] [Atom (a_ext (FileSpec.new_udta a)) (id4 "udta") [] [Atom (a_ext (FileSpec.new_meta a)) (id4 "meta") (zeros 4) [new_hdlr; new_ilst []]]]].
      rewrite Hu, Hm. split; vm_compute; reflexivity.
  - fold (asize (FileSpec.new_udta a)). rewrite Lu. reflexivity.
  - vm_compute. reflexivity.
Qed.
Example C07_large_example : let a := c07_items (zeros (2 ^ 31)) in
  updatable c07_file a /\ updatable c07_file [] /\ updatable (update_file a c07_file) [] /\
  2 ^ 32 < blen (render (FileSpec.new_udta a)) /\ blen (render (FileSpec.new_udta [])) < 2 ^ 32.
Proof. apply c07_witness, blen_zeros. Qed.
Example C07_example :
  updatable ex_file ex_new_items /\ updatable ex_file ex_items /\ in_reach ex_new_items ex_file /\
  (blen (render (FileSpec.new_udta ex_new_items)) <? 2 ^ 32) = true /\ (blen (render (FileSpec.new_udta ex_items)) <? 2 ^ 32) = true /\
  wr_file (write_tag 64 1000 Checked ex_new_items (render_all ex_file)) <> wr_file (write_tag 64 1000 Checked ex_items (render_all ex_file)).
Proof.
  split; [exact ex_updatable|]. split.
  - split; [split; [exact ex_sizes|exists ex_tag; exact ex_describes]|]. split; [exact ex_editable|]. split; [exact ex_items_storable|]. split; vm_compute; reflexivity.
  - split; [exact ex_in_reach|]. split; [vm_compute; reflexivity|]. split; [vm_compute; reflexivity|]. vm_compute. discriminate.
Qed.

(** * C09: interrupted writes *)

(** Some calls have been made, and possibly a prefix of the bytes of the next one has been written. *)
Definition interrupted (ops : list fop) (f g : bytes) : Prop :=
  exists made rest, ops = made ++ rest /\
    (g = run_ops made f \/ exists p d r k, rest = OWrite p d :: r /\ g = write_at (run_ops made f) p (firstn k d)).

Lemma op_keeps : forall lo o f, op_ge lo o -> lo <= blen f -> firstn (N.to_nat lo) (apply_op f o) = firstn (N.to_nat lo) f /\ lo <= blen (apply_op f o).
Proof.
  intros lo o f H L. destruct o as [p d|n]; cbn [apply_op op_ge] in *.
  - assert (Lf : List.length (firstn (N.to_nat p) (f ++ zeros (p - blen f))) = N.to_nat p).
    { rewrite firstn_length, app_length, zeros_length. unfold blen. lia. }
    unfold write_at. split.
    + rewrite firstn_app, Lf. replace (N.to_nat lo - N.to_nat p)%nat with 0%nat by lia. rewrite firstn_O, app_nil_r, firstn_firstn, Nat.min_l by lia.
      rewrite firstn_app. replace (N.to_nat lo - List.length f)%nat with 0%nat by (unfold blen in L; lia). rewrite firstn_O. apply app_nil_r.
    + rewrite blen_app. assert (Lb : blen (firstn (N.to_nat p) (f ++ zeros (p - blen f))) = p) by (apply N2Nat.inj; rewrite to_nat_blen; exact Lf). lia.
  - unfold set_length. split.
    + destruct (N.le_gt_cases n (blen f)) as [A|A].
      * replace (n - blen f) with 0 by lia. cbn [zeros]. change (zeros 0) with (@nil byte). rewrite app_nil_r, firstn_firstn, Nat.min_l by lia. reflexivity.
      * rewrite (firstn_all2 f) by (unfold blen in A; lia). rewrite firstn_app. replace (N.to_nat lo - List.length f)%nat with 0%nat by (unfold blen in L; lia).
        rewrite firstn_O. apply app_nil_r.
    + unfold blen. rewrite app_length, firstn_length, zeros_length. unfold blen in *. lia.
Qed.
Lemma ops_keep : forall lo ops f, Forall (op_ge lo) ops -> lo <= blen f -> firstn (N.to_nat lo) (run_ops ops f) = firstn (N.to_nat lo) f /\ lo <= blen (run_ops ops f).
Proof.
  intros lo ops. induction ops as [|o r IH]; intros f H L; [split; [reflexivity|exact L]|]. inversion H; subst. destruct (op_keeps lo o f) as [A B]; [assumption|exact L|].
  cbn [run_ops fold_left]. destruct (IH (apply_op f o)) as [C D]; [assumption|exact B|]. unfold run_ops in *. split; [congruence|exact D].
Qed.

(** The calls made by a write produce the new file ... *)
Theorem C09_calls : forall cap fuel m f items, updatable f items -> blen (render_all f) < N.of_nat fuel ->
  let w := write_tag cap fuel m items (render_all f) in run_ops (wr_ops w) (render_all f) = wr_file w.
Proof. intros cap fuel m f items U Fu w. destruct (write_ok cap fuel m f items U Fu) as (ops & E & R & _). subst w. rewrite E. exact R. Qed.
Print Assumptions C09_calls.
(** ... and wherever they are interrupted, everything in front of the movie atom is as before. *)
Theorem C09_front_intact : forall cap fuel m ft pre mv post items g,
  let f := ft :: pre ++ mv :: post in
  updatable f items -> a_id mv = id4 "moov" -> blen (render_all f) < N.of_nat fuel ->
  interrupted (wr_ops (write_tag cap fuel m items (render_all f))) (render_all f) g ->
  exists rest, g = render_all (ft :: pre) ++ rest.
Proof.
  intros cap fuel m ft pre mv post items g f U J Fu (made & rest & Eo & C). destruct (write_ok cap fuel m f items U Fu) as (ops & E & _ & O).
  rewrite E in Eo. cbn [wr_ops] in Eo. specialize (O ft pre mv post eq_refl J). subst ops. apply Forall_app in O. destruct O as [O1 O2].
  assert (Ef : render_all f = render_all (ft :: pre) ++ render_all (mv :: post)) by (unfold f; apply (render_all_app (ft :: pre))).
  assert (L : blen (render_all (ft :: pre)) <= blen (render_all f)) by (rewrite Ef, blen_app; lia).
  destruct (ops_keep _ made (render_all f) O1 L) as [A B].
  assert (X : firstn (N.to_nat (blen (render_all (ft :: pre)))) g = firstn (N.to_nat (blen (render_all (ft :: pre)))) (render_all f)).
  { destruct C as [->|(p & d & r & k & -> & ->)]; [exact A|]. inversion O2 as [|? ? H _]; subst.
    destruct (op_keeps (blen (render_all (ft :: pre))) (OWrite p (firstn k d)) (run_ops made (render_all f)) H B) as [X _]. cbn [apply_op] in X. congruence. }
  exists (skipn (N.to_nat (blen (render_all (ft :: pre)))) g). rewrite <- (firstn_skipn (N.to_nat (blen (render_all (ft :: pre)))) g) at 1. f_equal.
  rewrite X, Ef, firstn_app, to_nat_blen, Nat.sub_diag, firstn_O, app_nil_r. apply firstn_all.
Qed.
Print Assumptions C09_front_intact.
(** Media data behind the movie atom is not protected: a crash can lose it. *)
Fixpoint occurs (p l : bytes) : bool :=
  if list_eq_dec byte_dec (firstn (List.length p) l) p then true
  else match l with [] => false | _ :: r => occurs p r end.
Lemma occurs_in : forall p x y, occurs p (x ++ p ++ y) = true.
Proof.
  intros p x y. induction x as [|a x IH].
  - cbn [app]. assert (E : firstn (List.length p) (p ++ y) = p) by (rewrite firstn_app, Nat.sub_diag, firstn_O, app_nil_r; apply firstn_all).
    destruct (p ++ y); cbn [occurs]; destruct (list_eq_dec byte_dec _ p); try reflexivity; contradiction.
  - cbn [app occurs]. destruct (list_eq_dec byte_dec _ p); [reflexivity|exact IH].
Qed.
Theorem C09_behind_refuted : exists f items g media, updatable f items /\ In media f /\ a_id media = id4 "mdat" /\
  interrupted (wr_ops (write_tag 8192 1000 Checked items (render_all f))) (render_all f) g /\
  ~ exists x y, g = x ++ a_content media ++ y.
Proof.
  set (ops := wr_ops (write_tag 8192 1000 Checked ex_new_items (render_all ex_file))).
  exists ex_file, ex_new_items, (run_ops (firstn 5 ops) (render_all ex_file)), ex_mdat. split; [exact ex_updatable|].
  split; [do 3 right; left; reflexivity|]. split; [reflexivity|]. split.
  - exists (firstn 5 ops), (skipn 5 ops). split; [symmetry; apply firstn_skipn|left; reflexivity].
  - intros (x & y & E). pose proof (occurs_in (a_content ex_mdat) x y) as O. rewrite <- E in O. revert O. vm_compute. discriminate.
Qed.
Print Assumptions C09_behind_refuted.
(** Ten calls, one of which is interrupted in the middle. *)
Example C09_example : let w := write_tag 64 1000 Checked ex_new_items (render_all ex_file) in
  updatable ex_file ex_new_items /\ List.length (wr_ops w) = 10%nat /\
  exists g, interrupted (wr_ops w) (render_all ex_file) g /\ g <> render_all ex_file /\ g <> wr_file w.
Proof.
  intro w. split; [exact ex_updatable|]. split; [vm_compute; reflexivity|].
  exists (write_at (run_ops (firstn 6 (wr_ops w)) (render_all ex_file)) 504 (firstn 30 (match nth 6 (wr_ops w) (OSetLen 0) with OWrite _ d => d | _ => [] end))). split.
  - exists (firstn 6 (wr_ops w)), (skipn 6 (wr_ops w)). split; [symmetry; apply firstn_skipn|]. right.
    exists 504, (match nth 6 (wr_ops w) (OSetLen 0) with OWrite _ d => d | _ => [] end), (skipn 7 (wr_ops w)), 30%nat. split; [vm_compute; reflexivity|reflexivity].
  - split; vm_compute; discriminate.
Qed.

(** * C36: both build profiles agree when writing *)

Theorem C36_writing : forall cap fuel f items, updatable f items -> blen (render_all f) < N.of_nat fuel ->
  write_tag cap fuel Wrapping items (render_all f) = write_tag cap fuel Checked items (render_all f) /\
  wr_res (write_tag cap fuel Checked items (render_all f)) = Ok tt.
Proof.
  intros cap fuel f items U Fu. destruct (write_ok cap fuel Checked f items U Fu) as (ops & E & _). split; [|rewrite E; reflexivity].
  apply C36_writing_any. unfold write_tag in E. rewrite E. discriminate.
Qed.
Print Assumptions C36_writing.
