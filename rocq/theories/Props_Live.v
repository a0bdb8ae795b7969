(** Theorems about using files with repeated containers again and again: C92 (see properties.jsonl). *)

From Coq Require Import List NArith ZArith Bool Lia Arith String.
From Coq Require Import ZifyBool ZifyNat ZifyN.
From Verif Require Import Base BaseLemmas Utf UtfLemmas Types Stream Parse Find Write TagApi TagOps TagSpec TagOpsSpec TagRefine FileSpec
  ParseLemmas ExampleFile ReadFacts NewMeans WriteBytes ScanProofs WriteMain UpdateMeans UpdateTwice EditSpec EditProofs WriteExample StoreSpec StoreProofs SizeProofs
  RepairSpec LastSpec LastProofs LastWrite LastMeans LastTwice LastSize LiveSpec LiveProofs TidySpec
  Props_Tag Props_Read Props_Write Props_Write2 Props_Write3 Props_Session Props_Last Props_Tidy.
Import ListNotations.
Local Open Scope list_scope.

(** * C92: files with repeated containers can be used like others *)

(** The tables that are changed are sound exactly if the last tables of each track are. *)
Theorem C92_sound : forall f, sound_tables f <-> Forall (fun t => good_table (fst t) (snd t)) (live_tables f).
Proof.
  intro f. rewrite sound_live. split; intro H.
  - eapply Forall_impl; [|exact H]. intros t [_ G]. exact G.
  - assert (W : Forall (fun t : nat * atom => fst t = 4%nat \/ fst t = 8%nat) (live_tables f)).
    { assert (L : forall id (g : atom -> list (nat * atom)) a (P : nat * atom -> Prop), (forall c, Forall P (g c)) -> Forall P (in_last id g a)).
      { intros id g a P X. unfold in_last. destruct (last_opt (named_kids id (a_kids a))); [apply X|constructor]. }
      unfold live_tables. destruct (last_opt (named_kids (id4 "moov") f)) as [mv|]; [|constructor]. apply forall_flat. apply Forall_forall. intros k _.
      apply L. intro. apply L. intro. apply L. intro. apply Forall_app. split; apply L; intro; constructor; cbn [fst]; auto. }
    apply Forall_forall. intros t I. rewrite Forall_forall in H, W. specialize (H t I). specialize (W t I). split; [lia|exact H].
Qed.
Print Assumptions C92_sound.

(** Reading a tag and writing it back (C38). *)
Theorem C92_write_back : forall cap fuel m f t,
  describes f t -> sound_tables f -> no_utf16 (tg_atoms t) ->
  blen (render_all f) + 77 < 2 ^ 32 -> blen (render_all f) + 77 < N.of_nat fuel ->
  read_tag fuel m (render_all f) = Ok t /\
  wr_res (write_tag cap fuel m (tg_atoms t) (render_all f)) = Ok tt /\
  read_tag fuel m (wr_file (write_tag cap fuel m (tg_atoms t) (render_all f))) = Ok t.
Proof.
  intros cap fuel m f t D S U L Fu. destruct (last_read f t D S U L) as (St & G' & Le). assert (G : good_sizes f) by (apply small_good; lia).
  split; [apply C15_read_returns_content; [exact G|exact D|lia]|]. split.
  - apply (C88_written cap fuel m f (tg_atoms t)); auto; [apply (described_outline f t D)|lia].
  - rewrite (C88_read cap fuel m m f t (tg_atoms t)) by (auto; lia). destruct t; reflexivity.
Qed.
Print Assumptions C92_write_back.

(** After any number of sessions the tag is small enough, and no chunk offset that counts leaves its range. *)
Definition spacious (fuel : nat) (f : list atom) (items : list atom_data) : Prop :=
  blen (render_all f) + Props_Write3.announced items + 85 < 2 ^ 32 /\
  blen (render_all f) + Props_Write3.announced items + 85 < N.of_nat fuel /\
  live_reach items f.
Definition always_spacious (fuel : nat) (f : list atom) (items : list atom_data) (l : list session) : Prop :=
  forall a b, l = a ++ b -> a <> [] -> spacious fuel f (TagOps.run_ops items (ops_of a)).

Lemma spacious_ok : forall fuel f t items, describes f t -> sound_tables f -> storable items -> spacious fuel f items ->
  good_sizes (last_file items f) /\ blen (render (FileSpec.new_udta items)) < 2 ^ 32 /\ blen (render_all (last_file items f)) < N.of_nat fuel.
Proof.
  intros fuel f t items D So St (L & Fu & _). destruct (last_small f t items D So St L) as [G Le]. pose proof (new_ilst_size items St). pose proof (new_udta_size items) as N.
  unfold asize in N. unfold Props_Write3.announced, total in *. split; [exact G|]. split; [|lia]. unfold asize in *. lia.
Qed.

(** The file after the sessions [a]. *)
Definition by_now (f : list atom) (items : list atom_data) (a : list session) : list atom :=
  match a with [] => f | _ => last_file (TagOps.run_ops items (ops_of a)) f end.
Lemma by_now_some : forall f items a s, by_now f items (a ++ [s]) = last_file (TagOps.run_ops items (ops_of (a ++ [s]))) f.
Proof. intros f items [|x a] s; reflexivity. Qed.

Section Sessions.
  Context (fuel : nat) (f : list atom) (t : tag).
  Hypothesis D : describes f t.
  Hypothesis G : good_sizes f.
  Hypothesis So : sound_tables f.
  Hypothesis U : no_utf16 (tg_atoms t).
  Hypothesis Fu : blen (render_all f) < N.of_nat fuel.
  Let items := tg_atoms t.
  Let tag_after (a : list session) : tag := Tag (tg_ftyp t) (tg_info t) (TagOps.run_ops items (ops_of a)).

  Lemma by_now_storable : forall a, Forall careful (ops_of a) -> storable (TagOps.run_ops items (ops_of a)).
  Proof. intros a C. apply storable_run_ops; [exact (read_storable f t D U)|exact C]. Qed.

  (** The state between sessions. *)
  Lemma by_now_ok : forall a, Forall careful (ops_of a) -> (a <> [] -> spacious fuel f (TagOps.run_ops items (ops_of a))) ->
    describes (by_now f items a) (tag_after a) /\ good_sizes (by_now f items a) /\ sound_tables (by_now f items a) /\ blen (render_all (by_now f items a)) < N.of_nat fuel /\
    forall b, storable b -> spacious fuel f b -> good_sizes (last_file b f) /\ last_file b (by_now f items a) = last_file b f.
  Proof.
    intros a C R. destruct a as [|s a].
    - cbn [by_now]. unfold tag_after. cbn [ops_of flat_map TagOps.run_ops fold_left]. split; [destruct t; exact D|]. split; [exact G|]. split; [exact So|]. split; [exact Fu|].
      intros b Sb Rb. split; [apply (spacious_ok fuel f t b D So Sb Rb)|reflexivity].
    - specialize (R ltac:(discriminate)). pose proof (by_now_storable _ C) as S. set (x := s :: a) in *.
      assert (Ex : by_now f items x = last_file (TagOps.run_ops items (ops_of x)) f) by reflexivity. rewrite Ex.
      pose proof (described_outline f t D) as O. destruct (spacious_ok fuel f t _ D So S R) as (Ga & La & Fa).
      split; [apply last_describes; [apply storable_describable, S|exact D]|]. split; [exact Ga|]. split; [apply last_sound; [exact O|exact So|apply R]|]. split; [exact Fa|].
      intros b Sb Rb. destruct (spacious_ok fuel f t b D So Sb Rb) as (Gb & Lb & _). split; [exact Gb|]. apply last_twice; [apply small_same; assumption|exact O|exact So].
  Qed.

  Lemma sessions_by_now : forall l a, Forall careful (ops_of (a ++ l)) -> always_spacious fuel f items (a ++ l) ->
    run_sessions fuel l (render_all (by_now f items a)) = Some (render_all (by_now f items (a ++ l))).
  Proof.
    induction l as [|s l IH]; intros a C R; [rewrite app_nil_r; reflexivity|]. cbn [run_sessions]. unfold run_session.
    assert (Ea : a ++ s :: l = (a ++ [s]) ++ l) by (rewrite <- app_assoc; reflexivity).
    assert (Ca : Forall careful (ops_of a)) by (rewrite ops_of_app in C; apply Forall_app in C; apply C).
    assert (Cs : Forall careful (ops_of (a ++ [s]))) by (rewrite Ea, ops_of_app in C; apply Forall_app in C; apply C).
    destruct (by_now_ok a Ca (R a (s :: l) eq_refl)) as (Da & Ga & Sa & Fa & Wr).
    rewrite (C15_read_returns_content _ _ (se_mode s) fuel Ga Da Fa). unfold tag_after at 1 2. cbn [tg_atoms].
    replace (TagOps.run_ops (TagOps.run_ops items (ops_of a)) (se_ops s)) with (TagOps.run_ops items (ops_of (a ++ [s])))
      by (rewrite ops_of_app, Props_Session.run_ops_app; cbn [ops_of flat_map]; rewrite app_nil_r; reflexivity).
    pose proof (by_now_storable _ Cs) as Ss.
    destruct (Wr _ Ss (R (a ++ [s]) l Ea ltac:(destruct a; discriminate))) as [Gn Tw].
    destruct (last_written (se_cap s) fuel (se_mode s) (TagOps.run_ops items (ops_of (a ++ [s]))) (by_now f items a) (described_outline _ _ Da) Sa Ga (storable_exact _ Ss)) as (ops & W);
      [rewrite Tw; exact Gn|exact Fa|].
    rewrite W. cbn [wr_res wr_file]. rewrite Tw, <- by_now_some. rewrite Ea in C, R. rewrite (IH (a ++ [s]) C R), <- Ea. reflexivity.
  Qed.
End Sessions.

(** Any number of sessions (C51). *)
Theorem C92_sessions : forall fuel m f t l,
  describes f t -> good_sizes f -> sound_tables f -> no_utf16 (tg_atoms t) -> blen (render_all f) < N.of_nat fuel ->
  Forall (fun s => Forall careful (se_ops s)) l -> always_spacious fuel f (tg_atoms t) l ->
  exists g, run_sessions fuel l (render_all f) = Some g /\
    read_tag fuel m g = Ok (Tag (tg_ftyp t) (tg_info t) (TagOps.run_ops (tg_atoms t) (ops_of l))).
Proof.
  intros fuel m f t l D G So U Fu C R.
  assert (C' : Forall careful (ops_of l)) by (apply Forall_flat_map; exact C).
  pose proof (sessions_by_now fuel f t D G So U Fu l [] C' R) as X. cbn [app by_now] in X. eexists. split; [exact X|].
  destruct (by_now_ok fuel f t D G So U Fu l C' (R l [] (eq_sym (app_nil_r l)))) as (Da & Ga & _ & Fa & _).
  apply (C15_read_returns_content _ _ m fuel Ga Da Fa).
Qed.
Print Assumptions C92_sessions.

(** The file is, byte by byte, the one that a single session with all the operations makes. *)
Theorem C92_one_session : forall fuel cap m f t l,
  describes f t -> good_sizes f -> sound_tables f -> no_utf16 (tg_atoms t) -> blen (render_all f) < N.of_nat fuel ->
  Forall (fun s => Forall careful (se_ops s)) l -> always_spacious fuel f (tg_atoms t) l -> l <> [] ->
  run_sessions fuel l (render_all f) = run_session fuel (Session cap m (ops_of l)) (render_all f).
Proof.
  intros fuel cap m f t l D G So U Fu C R Nl.
  assert (C' : Forall careful (ops_of l)) by (apply Forall_flat_map; exact C).
  pose proof (sessions_by_now fuel f t D G So U Fu l [] C' R) as X. cbn [app by_now] in X. rewrite X.
  set (one := [Session cap m (ops_of l)]).
  assert (E1 : ops_of one = ops_of l) by (unfold one; cbn [ops_of flat_map se_ops]; apply app_nil_r).
  pose proof (sessions_by_now fuel f t D G So U Fu one []) as Y. cbn [app] in Y. rewrite E1 in Y. specialize (Y C').
  assert (R1 : always_spacious fuel f (tg_atoms t) one).
  { intros a b Ea Na. destruct a as [|s a]; [contradiction|]. unfold one in Ea. injection Ea as <- Ea. symmetry in Ea. apply app_eq_nil in Ea. destruct Ea as [-> ->].
    change (ops_of [Session cap m (ops_of l)]) with (ops_of one). rewrite E1. apply (R l [] (eq_sym (app_nil_r l)) Nl). }
  specialize (Y R1). cbn [by_now one run_sessions] in Y.
  destruct (run_session fuel (Session cap m (ops_of l)) (render_all f)) as [g|] eqn:Eg; [|discriminate Y].
  rewrite Y. f_equal. f_equal. unfold by_now. rewrite E1. destruct l; [contradiction|reflexivity].
Qed.
Print Assumptions C92_one_session.

(** The tables that count keep addressing the same media bytes, and nothing else in the file is changed but the metadata (C04 and C09). *)
Theorem C92_chunks : forall fuel f t l,
  describes f t -> good_sizes f -> sound_tables f -> no_utf16 (tg_atoms t) -> blen (render_all f) < N.of_nat fuel ->
  Forall (fun s => Forall careful (se_ops s)) l -> always_spacious fuel f (tg_atoms t) l -> l <> [] ->
  one_sided f -> tracks_before f ->
  exists g h, run_sessions fuel l (render_all f) = Some g /\ tiles g h /\ live_kept f h /\ file_edit f h.
Proof.
  intros fuel f t l D G So U Fu C R Nl S T.
  assert (C' : Forall careful (ops_of l)) by (apply Forall_flat_map; exact C).
  pose proof (sessions_by_now fuel f t D G So U Fu l [] C' R) as X. cbn [app by_now] in X.
  pose proof (R l [] (eq_sym (app_nil_r l)) Nl) as Rl.
  destruct (spacious_ok fuel f t _ D So (by_now_storable f t D U l C') Rl) as (Up & _).
  exists (render_all (last_file (TagOps.run_ops (tg_atoms t) (ops_of l)) f)), (last_file (TagOps.run_ops (tg_atoms t) (ops_of l)) f).
  split; [rewrite X; destruct l; [contradiction|reflexivity]|]. split; [apply render_tiles, Up|]. split.
  - eapply last_chunks; eauto. apply Rl.
  - apply file_edit_last; [exact (described_outline f t D)|exact So].
Qed.
Print Assumptions C92_chunks.

(** One write, with items from anywhere. *)
Theorem C92_write_chunks : forall cap fuel m f t items,
  describes f t -> good_sizes f -> sound_tables f -> storable items -> good_sizes (last_file items f) -> live_reach items f ->
  one_sided f -> tracks_before f -> blen (render_all f) < N.of_nat fuel ->
  exists h, wr_res (write_tag cap fuel m items (render_all f)) = Ok tt /\ tiles (wr_file (write_tag cap fuel m items (render_all f))) h /\ live_kept f h /\ sound_tables h.
Proof.
  intros cap fuel m f t items D G So St G' R S T Fu. pose proof (described_outline f t D) as O. exists (last_file items f).
  destruct (C88_written cap fuel m f items O So G St G' Fu) as (W & Ti & _). split; [exact W|]. split; [exact Ti|]. split; [eapply last_chunks; eauto|apply last_sound; assumption].
Qed.
Print Assumptions C92_write_chunks.

(** For every properly laid out file that is read, whatever is repeated in it (C91). *)
Theorem C92_laid_out : forall fuel m f t l,
  good_sizes f -> tidy f -> read_tag fuel Checked (render_all f) = Ok t -> sound_tables f -> no_utf16 (tg_atoms t) -> blen (render_all f) < N.of_nat fuel ->
  Forall (fun s => Forall careful (se_ops s)) l -> always_spacious fuel f (tg_atoms t) l ->
  exists g, run_sessions fuel l (render_all f) = Some g /\
    read_tag fuel m g = Ok (Tag (tg_ftyp t) (tg_info t) (TagOps.run_ops (tg_atoms t) (ops_of l))).
Proof.
  intros fuel m f t l G Ti Rd So U Fu C R. apply (proj1 (C91_exactly f Checked fuel t G Ti (or_introl eq_refl) Fu)) in Rd. apply C92_sessions; assumption.
Qed.
Print Assumptions C92_laid_out.

(** The file of [C88_example] with chunks inside the media data, used in three sessions. *)
Definition c92_moov : atom :=
  Atom false (id4 "moov") []
    (ex_mvhd :: ex_trak [Atom false (id4 "stco") (raw [255]) []; ex_stco [987; 990]] ::
     [ex_udta [ex_meta [ex_ilst]];
      ex_udta [ex_meta [ex_ilst]; ex_meta [Atom false (id4 "ilst") [] []; ex_ilst]]; Atom true (id4 "iods") (raw [9]) []]).
Definition c92_file : list atom := [ex_ftyp; c92_moov; ex_mdat].
Lemma c92_describes : describes c92_file c88_tag.
Proof.
  exists ex_ftyp, [], c92_moov, [ex_mdat]. do 6 (split; [reflexivity|]). split; [reflexivity|]. exists (Some 90500000000), [None], (Some (Some ex_items)).
  assert (M : forall l n, Forall2 ilst_means (named_kids (id4 "ilst") l) n -> last_opt n = Some ex_items -> meta_means (ex_meta l) (Some ex_items)).
  { intros l n F E. split; [apply ex_version0|]. exists n. split; [exact F|symmetry; exact E]. }
  assert (M1 : meta_means (ex_meta [ex_ilst]) (Some ex_items)) by (eapply (M _ [ex_items]); [repeat constructor; exact (proj2 ex_ilst_means)|reflexivity]).
  split; [|split; [|split; [|split; reflexivity]]].
  - exists [90500000000]. split; [|reflexivity]. constructor; [|constructor]. left. repeat split; try reflexivity; try discriminate.
  - constructor; [|constructor]. eapply box_skip; [reflexivity|reflexivity|]. eapply box_skip; [reflexivity|reflexivity|]. eapply box_skip; [reflexivity|reflexivity|]. apply box_none; reflexivity.
  - exists [Some ex_items; Some ex_items]. split; [|reflexivity]. constructor; [|constructor; [|constructor]].
    + eapply box_skip; [reflexivity|reflexivity|]. exact M1.
    + split; [reflexivity|]. exists (Some (Some ex_items)). split; [|reflexivity]. exists [Some ex_items; Some ex_items]. split; [|reflexivity].
      constructor; [exact M1|]. constructor; [|constructor]. eapply (M _ [[]; ex_items]); [|reflexivity]. constructor; [|constructor; [exact ex_ilst_means|constructor]].
      split; [reflexivity|]. exists []. split; [constructor|]. split; [reflexivity|]. intro j. reflexivity.
Qed.
Lemma live_reachb_ok : forall items f,
  forallb (in_rangeb (Z.of_N (blen (render_all (last_file items f))) - Z.of_N (blen (render_all f)))) (live_tables f) = true -> live_reach items f.
Proof. intros items f H _. eapply forallb_ok; [|exact H]. intros t F. eapply forallb_ok; [|exact F]. cbv beta. intros o E. lia. Qed.

Example C92_example :
  describes c92_file c88_tag /\ tidy c92_file /\ sound_tables c92_file /\ good_sizes c92_file /\ no_utf16 (tg_atoms c88_tag) /\ ~ editable c92_file /\
  Forall (fun s => Forall careful (se_ops s)) ex_sessions /\ always_spacious 2000 c92_file (tg_atoms c88_tag) ex_sessions /\
  one_sided c92_file /\ tracks_before c92_file /\ live_entry c92_file 0 1 990 /\ in_mdat c92_file 990 5 /\
  exists g, run_sessions 2000 ex_sessions (render_all c92_file) = Some g /\ blen g <> blen (render_all c92_file).
Proof.
  split; [exact c92_describes|]. split; [apply (TidyMeans.describes_tidy _ _ c92_describes)|].
  split. { repeat constructor; apply good_tableb_ok; vm_compute; reflexivity. }
  split; [split; vm_compute; reflexivity|]. split; [exact Props_Write3.ex_no_utf16|].
  split. { intro E. inversion E as [|? ? [_ [O _]] _]; subst. vm_compute in O. lia. }
  split. { unfold ex_sessions, c37_ops. repeat constructor; cbn; discriminate. }
  split.
  { intros a b Ea Na. unfold ex_sessions in Ea.
    destruct a as [|s1 a]; [contradiction|]. injection Ea as <- Ea.
    destruct a as [|s2 a]; [(split; [vm_compute; reflexivity|split; [vm_compute; reflexivity|apply live_reachb_ok; vm_compute; reflexivity]])|].
    injection Ea as <- Ea.
    destruct a as [|s3 a]; [(split; [vm_compute; reflexivity|split; [vm_compute; reflexivity|apply live_reachb_ok; vm_compute; reflexivity]])|].
    injection Ea as <- Ea. symmetry in Ea. apply app_eq_nil in Ea. destruct Ea as [-> ->].
    (split; [vm_compute; reflexivity|split; [vm_compute; reflexivity|apply live_reachb_ok; vm_compute; reflexivity]]). }
  split.
  { intros x mv y E J. unfold c92_file in E. destruct x as [|a x]; [injection E as <- _; discriminate J|]. injection E as <- E.
    destruct x as [|b x]; [left; reflexivity|]. injection E as <- E. destruct x as [|c x]; [injection E as <- _; discriminate J|]. injection E as <- E. destruct x; discriminate E. }
  split.
  { intros mv x u y I J E K Ny. cbn in I. destruct I as [<-|[<-|[<-|[]]]]; try discriminate J. cbn [a_kids c92_moov] in E.
    do 4 (destruct x as [|k x]; [injection E as <- E; try discriminate K; subst y; reflexivity || discriminate Ny|]; injection E as <- E).
    destruct x as [|k x]; [injection E as <- _; discriminate K|]. injection E as <- E. destruct x; discriminate E. }
  split; [eexists; split; vm_compute; reflexivity|].
  split; [exists (firstn 2 c92_file), ex_mdat, []; repeat split; vm_compute; discriminate|].
  eexists. split; [vm_compute; reflexivity|]. vm_compute. discriminate.
Qed.
