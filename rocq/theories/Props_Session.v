(** Theorems about programs that open a file again and again: C51 (see properties.jsonl). *)

From Coq Require Import List NArith ZArith Bool Lia Arith String.
From Coq Require Import ZifyBool ZifyNat ZifyN.
From Verif Require Import Base BaseLemmas Utf UtfLemmas Types Stream Parse Find Write TagApi TagOps TagSpec TagOpsSpec TagRefine FileSpec
  ParseLemmas ExampleFile ReadFacts UpdateMeans UpdateTwice EditSpec EditProofs WriteExample StoreSpec StoreProofs SizeProofs
  Props_Tag Props_Read Props_Write Props_Write2 Props_Write3.
Import ListNotations.
Local Open Scope list_scope.

(** One session: the tag is read from the file, changed by public operations and written to the file.
    Buffer sizes and build profiles may differ. *)
Record session := Session { se_cap : N; se_mode : mode; se_ops : list tag_op }.
Definition run_session (fuel : nat) (s : session) (f : bytes) : option bytes :=
  match read_tag fuel (se_mode s) f with
  | Ok t => let w := write_tag (se_cap s) fuel (se_mode s) (TagOps.run_ops (tg_atoms t) (se_ops s)) f in
            match wr_res w with Ok _ => Some (wr_file w) | _ => None end
  | _ => None
  end.
Fixpoint run_sessions (fuel : nat) (l : list session) (f : bytes) : option bytes :=
  match l with
  | [] => Some f
  | s :: r => match run_session fuel s f with Some g => run_sessions fuel r g | None => None end
  end.

(** All operations of the sessions. *)
Definition ops_of (l : list session) : list tag_op := flat_map se_ops l.

(** After any number of sessions the tag is small enough, and no chunk offset leaves its range. *)
Definition roomy (fuel : nat) (f : list atom) (items : list atom_data) : Prop :=
  blen (render_all f) + Props_Write3.announced items + 85 < 2 ^ 32 /\
  blen (render_all f) + Props_Write3.announced items + 85 < N.of_nat fuel /\
  in_reach items f.
Definition always_roomy (fuel : nat) (f : list atom) (items : list atom_data) (l : list session) : Prop :=
  forall a b, l = a ++ b -> a <> [] -> roomy fuel f (TagOps.run_ops items (ops_of a)).

(** ** One more session *)

Lemma room_updatable : forall fuel f t items, describes f t -> good_sizes f -> editable f -> storable items -> roomy fuel f items ->
  updatable f items /\ blen (render (FileSpec.new_udta items)) < 2 ^ 32 /\ blen (render_all (update_file items f)) < N.of_nat fuel.
Proof.
  intros fuel f t items D G E S (L & Fu & _). pose proof (update_file_size items f t D E). pose proof (new_ilst_size items S). pose proof (new_udta_size items) as N.
  unfold asize in N. unfold Props_Write3.announced, total in *. split; [apply (small_updatable f t); auto; unfold total; lia|]. split; [|lia].
  unfold asize in *. lia.
Qed.

Lemma ops_of_app : forall a b, ops_of (a ++ b) = ops_of a ++ ops_of b.
Proof. intros. apply flat_map_app. Qed.
Lemma run_ops_app : forall a b l, TagOps.run_ops l (a ++ b) = TagOps.run_ops (TagOps.run_ops l a) b.
Proof. intros a b l. unfold TagOps.run_ops. apply fold_left_app. Qed.

(** The file after the sessions [a]. *)
Definition now (f : list atom) (items : list atom_data) (a : list session) : list atom :=
  match a with [] => f | _ => update_file (TagOps.run_ops items (ops_of a)) f end.
Lemma now_some : forall f items a s, now f items (a ++ [s]) = update_file (TagOps.run_ops items (ops_of (a ++ [s]))) f.
Proof. intros f items [|x a] s; reflexivity. Qed.

Section Sessions.
  Context (fuel : nat) (f : list atom) (t : tag).
  Hypothesis D : describes f t.
  Hypothesis G : good_sizes f.
  Hypothesis E : editable f.
  Hypothesis U : no_utf16 (tg_atoms t).
  Hypothesis Fu : blen (render_all f) < N.of_nat fuel.
  Let items := tg_atoms t.
  Let tag_after (a : list session) : tag := Tag (tg_ftyp t) (tg_info t) (TagOps.run_ops items (ops_of a)).

  Lemma after_storable : forall a, Forall careful (ops_of a) -> storable (TagOps.run_ops items (ops_of a)).
  Proof. intros a C. apply storable_run_ops; [exact (read_storable f t D U)|exact C]. Qed.

  (** The state between sessions. *)
  Lemma now_ok : forall a, Forall careful (ops_of a) -> (a <> [] -> roomy fuel f (TagOps.run_ops items (ops_of a))) ->
    describes (now f items a) (tag_after a) /\ good_sizes (now f items a) /\ blen (render_all (now f items a)) < N.of_nat fuel /\
    forall b, storable b -> roomy fuel f b -> updatable (now f items a) b /\ update_file b (now f items a) = update_file b f.
  Proof.
    intros a C R. destruct a as [|s a].
    - cbn [now]. unfold tag_after. cbn [ops_of flat_map TagOps.run_ops fold_left]. split; [destruct t; exact D|]. split; [exact G|]. split; [exact Fu|].
      intros b Sb Rb. split; [apply (room_updatable fuel f t b D G E Sb Rb)|reflexivity].
    - specialize (R ltac:(discriminate)). pose proof (after_storable _ C) as S. set (x := s :: a) in *.
      assert (Ex : now f items x = update_file (TagOps.run_ops items (ops_of x)) f) by reflexivity. rewrite Ex.
      destruct (room_updatable fuel f t _ D G E S R) as (Ua & La & Fa).
      split; [apply updated_describes; assumption|]. split; [apply Ua|]. split; [exact Fa|]. intros b Sb Rb.
      destruct (room_updatable fuel f t b D G E Sb Rb) as (Ub & Lb & _). pose proof (small_same _ b La Lb) as H.
      split; [apply written_updatable; auto; apply R|]. apply update_twice; [exact H|exists t; exact D|exact E].
  Qed.

  Lemma sessions_now : forall l a, Forall careful (ops_of (a ++ l)) -> always_roomy fuel f items (a ++ l) ->
    run_sessions fuel l (render_all (now f items a)) = Some (render_all (now f items (a ++ l))).
  Proof.
    induction l as [|s l IH]; intros a C R; [rewrite app_nil_r; reflexivity|]. cbn [run_sessions]. unfold run_session.
    assert (Ea : a ++ s :: l = (a ++ [s]) ++ l) by (rewrite <- app_assoc; reflexivity).
    assert (Ca : Forall careful (ops_of a)) by (rewrite ops_of_app in C; apply Forall_app in C; apply C).
    assert (Cs : Forall careful (ops_of (a ++ [s]))) by (rewrite Ea, ops_of_app in C; apply Forall_app in C; apply C).
    destruct (now_ok a Ca (R a (s :: l) eq_refl)) as (Da & Ga & Fa & Wr).
    rewrite (C15_read_returns_content _ _ (se_mode s) fuel Ga Da Fa). unfold tag_after at 1 2. cbn [tg_atoms].
    replace (TagOps.run_ops (TagOps.run_ops items (ops_of a)) (se_ops s)) with (TagOps.run_ops items (ops_of (a ++ [s])))
      by (rewrite ops_of_app, run_ops_app; cbn [ops_of flat_map]; rewrite app_nil_r; reflexivity).
    destruct (Wr _ (after_storable _ Cs) (R (a ++ [s]) l Ea ltac:(destruct a; discriminate))) as [Up Tw].
    destruct (write_ok (se_cap s) fuel (se_mode s) (now f items a) _ Up Fa) as (ops & W & _). rewrite W. cbn [wr_res wr_file]. rewrite Tw, <- now_some.
    rewrite Ea in C, R. rewrite (IH (a ++ [s]) C R), <- Ea. reflexivity.
  Qed.
End Sessions.

(** * C51: any number of sessions *)

(** Whatever operations the sessions apply (with the exceptions of C37): all of them succeed, and the
    tag read in the end is the first one changed by all the operations; the file type and the audio
    information are those of the first file. *)
Theorem C51_sessions : forall fuel m f t l,
  describes f t -> good_sizes f -> editable f -> no_utf16 (tg_atoms t) -> blen (render_all f) < N.of_nat fuel ->
  Forall (fun s => Forall careful (se_ops s)) l -> always_roomy fuel f (tg_atoms t) l ->
  exists g t', run_sessions fuel l (render_all f) = Some g /\ read_tag fuel m g = Ok t' /\
    tg_ftyp t' = tg_ftyp t /\ tg_info t' = tg_info t /\ tg_atoms t' = TagOps.run_ops (tg_atoms t) (ops_of l) /\
    view_eq (view_of (tg_atoms t')) (view_ops (ops_of l) (view_of (tg_atoms t))).
Proof.
  intros fuel m f t l D G E U Fu C R.
  assert (C' : Forall careful (ops_of l)) by (apply Forall_flat_map; exact C).
  pose proof (sessions_now fuel f t D G E U Fu l [] C' R) as X. cbn [app now] in X. eexists. eexists. split; [exact X|].
  destruct (now_ok fuel f t D G E U Fu l C' (R l [] (eq_sym (app_nil_r l)))) as (Da & Ga & Fa & _).
  split; [apply (C15_read_returns_content _ _ m fuel Ga Da Fa)|]. cbn [tg_ftyp tg_info tg_atoms]. repeat split; try reflexivity.
  - apply C19_ordered_map. apply (read_storable f t D U).
  - apply C19_ordered_map. apply (read_storable f t D U).
Qed.
Print Assumptions C51_sessions.

(** The file is, byte by byte, the one that a single session with all the operations makes. *)
Theorem C51_one_session : forall fuel cap m f t l,
  describes f t -> good_sizes f -> editable f -> no_utf16 (tg_atoms t) -> blen (render_all f) < N.of_nat fuel ->
  Forall (fun s => Forall careful (se_ops s)) l -> always_roomy fuel f (tg_atoms t) l -> l <> [] ->
  run_sessions fuel l (render_all f) = run_session fuel (Session cap m (ops_of l)) (render_all f).
Proof.
  intros fuel cap m f t l D G E U Fu C R Nl.
  assert (C' : Forall careful (ops_of l)) by (apply Forall_flat_map; exact C).
  pose proof (sessions_now fuel f t D G E U Fu l [] C' R) as X. cbn [app now] in X. rewrite X.
  set (one := [Session cap m (ops_of l)]).
  assert (E1 : ops_of one = ops_of l) by (unfold one; cbn [ops_of flat_map se_ops]; apply app_nil_r).
  pose proof (sessions_now fuel f t D G E U Fu one []) as Y. cbn [app] in Y. rewrite E1 in Y. specialize (Y C').
  assert (R1 : always_roomy fuel f (tg_atoms t) one).
  { intros a b Ea Na. destruct a as [|s a]; [contradiction|]. unfold one in Ea. injection Ea as <- Ea. symmetry in Ea. apply app_eq_nil in Ea. destruct Ea as [-> ->].
    change (ops_of [Session cap m (ops_of l)]) with (ops_of one). rewrite E1. apply (R l [] (eq_sym (app_nil_r l)) Nl). }
  specialize (Y R1). cbn [now one run_sessions] in Y.
  destruct (run_session fuel (Session cap m (ops_of l)) (render_all f)) as [g|] eqn:Eg; [|discriminate Y].
  rewrite Y. f_equal. f_equal. unfold now. rewrite E1. destruct l; [contradiction|reflexivity].
Qed.
Print Assumptions C51_one_session.

(** All chunks keep addressing the media bytes they addressed at first (see C04 for the conditions). *)
Theorem C51_chunks : forall fuel f t l,
  describes f t -> good_sizes f -> editable f -> no_utf16 (tg_atoms t) -> blen (render_all f) < N.of_nat fuel ->
  Forall (fun s => Forall careful (se_ops s)) l -> always_roomy fuel f (tg_atoms t) l -> l <> [] ->
  one_sided f -> tracks_first f ->
  exists g h, run_sessions fuel l (render_all f) = Some g /\ tiles g h /\ chunks_kept f h /\ file_edit f h.
Proof.
  intros fuel f t l D G E U Fu C R Nl S T.
  assert (C' : Forall careful (ops_of l)) by (apply Forall_flat_map; exact C).
  pose proof (sessions_now fuel f t D G E U Fu l [] C' R) as X. cbn [app now] in X.
  pose proof (R l [] (eq_sym (app_nil_r l)) Nl) as Rl.
  destruct (room_updatable fuel f t _ D G E (after_storable f t D U l C') Rl) as (Up & _).
  exists (render_all (update_file (TagOps.run_ops (tg_atoms t) (ops_of l)) f)), (update_file (TagOps.run_ops (tg_atoms t) (ops_of l)) f).
  split; [rewrite X; destruct l; [contradiction|reflexivity]|]. split; [apply render_tiles, Up|]. split.
  - eapply OffsetProofs.chunks_update; eauto. apply Rl.
  - exact (file_edit_update _ f t D E).
Qed.
Print Assumptions C51_chunks.

(** Three sessions, with different buffers and profiles. *)
Definition ex_sessions : list session :=
  [Session 16 Checked c37_ops; Session 8192 Wrapping [OpSetString (AFourcc ALBUM) (str "X"); OpRemovePairNumber false];
   Session 64 Checked [OpTakeArtworks; OpAddGenre (str "Jazz")]].
Example C51_example :
  describes ex_file ex_tag /\ good_sizes ex_file /\ editable ex_file /\ no_utf16 (tg_atoms ex_tag) /\
  Forall (fun s => Forall careful (se_ops s)) ex_sessions /\ always_roomy 2000 ex_file (tg_atoms ex_tag) ex_sessions /\
  one_sided ex_file /\ tracks_first ex_file /\
  exists g t', run_sessions 2000 ex_sessions (render_all ex_file) = Some g /\ read_tag 2000 Wrapping g = Ok t' /\
    idents (tg_atoms t') = [IFreeform (str "com.apple.iTunes") (str "ISRC"); IFourcc ARTIST; IFourcc TRACK_NUMBER;
      IFreeform (str "m") (str "n"); IFourcc ALBUM; IFourcc CUSTOM_GENRE].
Proof.
  split; [exact ex_describes|]. split; [exact ex_sizes|]. split; [exact ex_editable|]. split; [exact ex_no_utf16|].
  split. { unfold ex_sessions, c37_ops. repeat constructor; cbn; discriminate. }
  split.
  { intros a b Ea Na. unfold ex_sessions in Ea.
    destruct a as [|s1 a]; [contradiction|]. injection Ea as <- Ea.
    destruct a as [|s2 a]; [(split; [vm_compute; reflexivity|split; [vm_compute; reflexivity|apply in_reachb_ok; vm_compute; reflexivity]])|].
    injection Ea as <- Ea.
    destruct a as [|s3 a]; [(split; [vm_compute; reflexivity|split; [vm_compute; reflexivity|apply in_reachb_ok; vm_compute; reflexivity]])|].
    injection Ea as <- Ea. symmetry in Ea. apply app_eq_nil in Ea. destruct Ea as [-> ->].
    (split; [vm_compute; reflexivity|split; [vm_compute; reflexivity|apply in_reachb_ok; vm_compute; reflexivity]]). }
  split; [exact ex_one_sided|]. split; [exact ex_tracks_first|].
  eexists. eexists. split; [vm_compute; reflexivity|]. split; vm_compute; reflexivity.
Qed.
