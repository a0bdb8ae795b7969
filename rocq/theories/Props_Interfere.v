(** Theorems about files that others change at the same time: C95 (see properties.jsonl). *)

From Coq Require Import List NArith ZArith Bool Lia Arith String.
From Coq Require Import ZifyBool ZifyNat ZifyN.
From Verif Require Import Base BaseLemmas Utf UtfLemmas Types Stream Parse Find Write Fault TagSpec FileSpec ParseLemmas ReadProofs ReadSpec ReadFacts
  NewMeans WriteBytes WriteState ScanProofs WriteMain UpdateMeans ExampleFile WriteExample StoreSpec StoreProofs EditSpec EditProofs RepairSpec LastSpec LastProofs LastWrite LastMeans
  Accept Props_Read Props_Write Props_Last Props_LiveCrash Interfere InterfereProofs InterfereFront LateProofs.
Import ListNotations.
Local Open Scope list_scope.

(** * C95: others change the file *)

(** Without others it is the call of the other theorems. *)
Theorem C95_alone : forall cap fuel m items f,
  sr_res (shared_write [] cap fuel m items f) = wr_res (write_tag cap fuel m items f) /\ sr_file (shared_write [] cap fuel m items f) = wr_file (write_tag cap fuel m items f).
Proof.
  intros cap fuel m items f. unfold write_tag, write_tag_to. destruct (prepare fuel m items f 0) as [[p q]|e|x|] eqn:P; [|unfold shared_write; rewrite P; split; reflexivity..].
  rewrite (proj2 (shared_late cap fuel m items f p q (fun x => x) P)). unfold late. destruct (execute cap m p (Wst f 0 [] [])) as [r s]. destruct (bw_flush s) as [r' s']. split; reflexivity.
Qed.
Print Assumptions C95_alone.

Lemma split_file : forall ft pre mv post, render_all (ft :: pre ++ mv :: post) = render_all (ft :: pre) ++ render mv ++ render_all post.
Proof. intros ft pre mv post. change (ft :: pre ++ mv :: post) with ((ft :: pre) ++ mv :: post). rewrite ParseLemmas.render_all_app, render_all_cons. reflexivity. Qed.
Lemma live_late : forall cap fuel m ft pre mv post items A' T', let f := ft :: pre ++ mv :: post in
  outline f -> sound_tables f -> good_sizes f -> storable items -> good_sizes (last_file items f) -> blen (render_all f) < N.of_nat fuel ->
  a_id mv = id4 "moov" -> named_kids (id4 "moov") post = [] ->
  blen A' = blen (render_all (ft :: pre)) -> blen (A' ++ render mv ++ T') < 2 ^ 62 ->
  exists p q mv', prepare fuel m items (render_all f) 0 = Ok (p, q) /\
    safe_plan (render_all (ft :: pre)) m p /\ last_file items f = ft :: pre ++ mv' :: post /\
    late cap m p (A' ++ render mv ++ T') = SResult (Ok tt) (A' ++ render mv' ++ render_all post).
Proof.
  intros cap fuel m ft pre mv post items A' T' f (ft' & s & rest & E & I & W & C & N & B) So G St G' Fu J N2 LA LS. injection E as <- <-.
  rewrite named_end in B by assumption. apply Forall_app in B. destruct B as [B1 B2]. inversion B2; subst. unfold f in *. pose proof (last_at items ft pre mv post J N2) as El. rewrite El in G'.
  destruct (late_llast cap fuel m items ft s pre mv post A' T' I W C J B1 N2) as (p & q & Pr & Pl & La); try assumption; [exact (sound_at _ _ _ _ J N2 So)|apply storable_exact, St|].
  destruct Pl as (P1 & P2 & P3 & P4 & P5 & P6 & _). exists p, q. eexists. split; [exact Pr|]. split; [|split; [exact El|exact La]].
  split; [rewrite P1; apply safe_moov, P2|]. split; [exact P3|]. split; [exact P4|]. split; assumption.
Qed.

(** Whatever others do behind the beginning of the last movie, and whenever they do it: writing leaves everything in front of it as it is.
    (Everything else may be destroyed, see below.) *)
Theorem C95_front : forall others cap fuel m ft pre mv post items, let f := ft :: pre ++ mv :: post in
  outline f -> sound_tables f -> good_sizes f -> storable items -> good_sizes (last_file items f) -> blen (render_all f) < N.of_nat fuel ->
  a_id mv = id4 "moov" -> named_kids (id4 "moov") post = [] ->
  Forall (fun g => forall x, exists y, g (render_all (ft :: pre) ++ x) = render_all (ft :: pre) ++ y) others ->
  exists z, sr_file (shared_write others cap fuel m items (render_all f)) = render_all (ft :: pre) ++ z.
Proof.
  intros others cap fuel m ft pre mv post items f O So G St G' Fu J N2 H.
  assert (Ef : render_all f = render_all (ft :: pre) ++ render mv ++ render_all post) by apply split_file.
  destruct (live_late cap fuel m ft pre mv post items (render_all (ft :: pre)) (render_all post) O So G St G' Fu J N2 eq_refl) as (p & q & mv' & Pr & Sp & _); [rewrite <- Ef; apply G|].
  fold f in Pr. rewrite Ef in *. exact (shared_front _ others cap fuel m items _ p q H Pr Sp).
Qed.
Print Assumptions C95_front.

(** Others change the file between the reading and the first call that changes it, but not its last movie: what they did in front of the movie
    stays, what they did behind it is lost, and the result is success. *)
Theorem C95_between : forall g cap fuel m ft pre mv post items A' T', let f := ft :: pre ++ mv :: post in
  outline f -> sound_tables f -> good_sizes f -> storable items -> good_sizes (last_file items f) -> blen (render_all f) < N.of_nat fuel ->
  a_id mv = id4 "moov" -> named_kids (id4 "moov") post = [] ->
  g (render_all f) = A' ++ render mv ++ T' -> blen A' = blen (render_all (ft :: pre)) -> blen (g (render_all f)) < 2 ^ 62 ->
  exists mv', last_file items f = ft :: pre ++ mv' :: post /\
    shared_write [g] cap fuel m items (render_all f) = SResult (Ok tt) (A' ++ render mv' ++ render_all post).
Proof.
  intros g cap fuel m ft pre mv post items A' T' f O So G St G' Fu J N2 E LA LS. rewrite E in LS.
  destruct (live_late cap fuel m ft pre mv post items A' T' O So G St G' Fu J N2 LA LS) as (p & q & mv' & Pr & _ & El & La). fold f in Pr, El. exists mv'. split; [exact El|].
  rewrite <- La, <- E. exact (proj1 (shared_late cap fuel m items (render_all f) p q g Pr)).
Qed.
Print Assumptions C95_between.

(** "What others append to the file meanwhile stays in it" is false for all files and everything appended. *)
Theorem C95_appended_refuted : forall x cap fuel m ft pre mv post items, let f := ft :: pre ++ mv :: post in
  outline f -> sound_tables f -> good_sizes f -> storable items -> good_sizes (last_file items f) -> blen (render_all f) < N.of_nat fuel ->
  a_id mv = id4 "moov" -> named_kids (id4 "moov") post = [] -> blen (render_all f ++ x) < 2 ^ 62 ->
  let w := shared_write [fun b => b ++ x] cap fuel m items (render_all f) in
  sr_res w = Ok tt /\ sr_file w = wr_file (write_tag cap fuel m items (render_all f)).
Proof.
  intros x cap fuel m ft pre mv post items f O So G St G' Fu J N2 L w.
  assert (Ef : render_all f = render_all (ft :: pre) ++ render mv ++ render_all post) by apply split_file.
  destruct (C95_between (fun b => b ++ x) cap fuel m ft pre mv post items (render_all (ft :: pre)) (render_all post ++ x) O So G St G' Fu J N2) as (mv' & E1 & E2); [|reflexivity|exact L|].
  { cbv beta. rewrite split_file, <- !app_assoc. reflexivity. }
  destruct (C95_between (fun b => b) cap fuel m ft pre mv post items (render_all (ft :: pre)) (render_all post) O So G St G' Fu J N2) as (mv2 & E3 & E4); [exact Ef|reflexivity|apply G|].
  fold f in E1, E2, E3, E4. rewrite E1 in E3. apply (app_inv_head (ft :: pre) (mv' :: post) (mv2 :: post)) in E3. injection E3 as <-. assert (Ew : w = SResult (Ok tt) (render_all (ft :: pre) ++ render mv' ++ render_all post)) by exact E2. clearbody w. subst w. split; [reflexivity|]. cbn [sr_file].
  destruct (C95_alone cap fuel m items (render_all f)) as [_ A]. rewrite <- A.
  destruct (live_late cap fuel m ft pre mv post items (render_all (ft :: pre)) (render_all post) O So G St G' Fu J N2 eq_refl) as (p & q & mv3 & Pr & _ & El & La); [rewrite <- Ef; apply G|].
  fold f in Pr, El. rewrite E1 in El. apply (app_inv_head (ft :: pre) (mv' :: post) (mv3 :: post)) in El. injection El as <-.
  pose proof (proj2 (shared_late cap fuel m items (render_all f) p q (fun b => b) Pr)) as Z. rewrite Z. rewrite <- Ef in La. rewrite La. reflexivity.
Qed.
Print Assumptions C95_appended_refuted.

(** "If two programs write tags to a file at the same time, the file has one of the tags afterwards and can be played" is false: both calls succeed and the second tag is read,
    but no chunk is where the file says. *)
Definition c95_other (b : bytes) : bytes := wr_file (write_tag 64 2000 Checked [] b).
Theorem C95_two_writers_refuted : exists f t items, describes f t /\ good_sizes f /\ editable f /\ storable items /\
  wr_res (write_tag 64 2000 Checked [] (render_all f)) = Ok tt /\
  let w := shared_write [c95_other] 64 2000 Checked items (render_all f) in
  sr_res w = Ok tt /\ exists h t', sr_file w = render_all h /\ describes h t' /\ tg_atoms t' = items /\ ~ chunks_kept f h.
Proof.
  exists ex_file, ex_tag, ex_new_items. split; [exact ex_describes|]. split; [exact ex_sizes|]. split; [exact ex_editable|]. split; [apply C88_example|].
  split; [vm_compute; reflexivity|]. cbv zeta. split; [vm_compute; reflexivity|].
  destruct (accept (sr_file (shared_write [c95_other] 64 2000 Checked ex_new_items (render_all ex_file)))) as [[h t']|] eqn:E.
  - exists h, t'. destruct (accept_ok _ _ _ E) as (E1 & E2 & _). split; [exact E1|]. split; [exact E2|]. vm_compute in E. injection E as <- <-. split; [vm_compute; reflexivity|].
    intros K. destruct (K 0%nat 0%nat 782 1) as (o' & (tb & H1 & H2) & H3).
    + eexists. split; vm_compute; reflexivity.
    + exists (firstn 3 ex_file), (nth 3 ex_file ex_mdat), (skipn 4 ex_file). split; [reflexivity|]. split; [reflexivity|]. vm_compute. split; discriminate.
    + vm_compute in H1. injection H1 as <-. vm_compute in H2. injection H2 as <-. vm_compute in H3. discriminate H3.
  - vm_compute in E. discriminate E.
Qed.
Print Assumptions C95_two_writers_refuted.

(** The file of C09, where containers are repeated; others cut the file, append to it or overwrite the movie. *)
Example C95_example :
  outline c09_file /\ sound_tables c09_file /\ good_sizes c09_file /\ storable ex_new_items /\ good_sizes (last_file ex_new_items c09_file) /\
  c09_file = ex_ftyp :: [ex_mdat] ++ c88_moov :: [ex_mdat] /\
  (let F := render_all (ex_ftyp :: [ex_mdat]) in
   let others := [fun b => b ++ raw [1; 2; 3]; fun b => firstn (List.length F) b; fun b => firstn (List.length F) b ++ raw [9; 9; 9]] in
   Forall (fun g => forall x, exists y, g (F ++ x) = F ++ y) others /\
   sr_file (shared_write others 64 1500 Checked ex_new_items (render_all c09_file)) <> wr_file (write_tag 64 1500 Checked ex_new_items (render_all c09_file)) /\
   (fun b => b ++ raw [1]) (render_all c09_file) = F ++ render c88_moov ++ render_all [ex_mdat] ++ raw [1]).
Proof.
  destruct C09_repeated_example as (A & B & C & D & E & _). repeat (split; [assumption|]). split; [reflexivity|]. cbv zeta. split; [|split].
  - assert (K : forall F x : bytes, firstn (List.length F) (F ++ x) = F) by (intros F x; rewrite firstn_app, Nat.sub_diag, firstn_all, app_nil_r; reflexivity).
    repeat constructor; intros x; [rewrite <- app_assoc; eexists; reflexivity| |]; rewrite K; [exists []; rewrite app_nil_r; reflexivity|eexists; reflexivity].
  - vm_compute. discriminate.
  - unfold c09_file. rewrite split_file, <- !app_assoc. reflexivity.
Qed.
