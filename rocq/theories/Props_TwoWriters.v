(** Theorems about two programs writing tags to a file at the same time: C95 (see properties.jsonl). *)

From Coq Require Import List NArith ZArith Bool Lia Arith String.
From Coq Require Import ZifyBool ZifyNat ZifyN.
From Verif Require Import Base BaseLemmas Utf UtfLemmas Types Stream Parse Find Write Fault TagSpec FileSpec ParseLemmas ReadProofs ReadSpec ReadFacts
  UpdateTwice NewMeans WriteBytes WriteState ScanProofs WriteMain UpdateMeans ExampleFile WriteExample StoreSpec StoreProofs EditSpec EditProofs OffsetProofs RepairSpec LastSpec LastProofs LastWrite LastMeans LastTwice
  LiveSpec LiveProofs Props_Read Props_Write Props_Last Props_Live Props_LiveCrash Interfere InterfereProofs LateProofs LateTwo.
Import ListNotations.
Local Open Scope list_scope.

(** * C95: two writers *)

(** By how many bytes writing the items changes the length of the file. *)
Definition grows (items : list atom_data) (f : list atom) : Z := (Z.of_N (blen (render_all (last_file items f))) - Z.of_N (blen (render_all f)))%Z.

(** Another program writes the tag [b], the whole of it, between the reading and the first change of the call that writes [a].  Both succeed and the tag [a] is there.  If no media data is behind the movie, or if [b]
    does not change the length, the file is that of [a] alone.  Otherwise the chunks are where [a] moves them, but each entry of the tables that count is larger by what [a] and what [b] add. *)
Theorem C95_two_writers : forall cap cap' fuel fuel' m m' f t a b,
  describes f t -> sound_tables f -> good_sizes f -> storable a -> storable b -> good_sizes (last_file a f) -> good_sizes (last_file b f) ->
  blen (render_all f) < 2 ^ 61 -> blen (render_all (last_file a f)) < 2 ^ 61 -> blen (render_all (last_file b f)) < 2 ^ 61 ->
  blen (render_all f) < N.of_nat fuel -> blen (render_all f) < N.of_nat fuel' -> tracks_before f -> live_reach b f ->
  let other := fun x => wr_file (write_tag cap' fuel' m' b x) in
  wr_res (write_tag cap' fuel' m' b (render_all f)) = Ok tt /\
  exists h, shared_write [other] cap fuel m a (render_all f) = SResult (Ok tt) (render_all h) /\
    describes h (Tag (tg_ftyp t) (tg_info t) a) /\
    (~ mdat_follows f \/ grows b f = 0%Z -> h = last_file a f) /\
    (mdat_follows f -> Forall (in_range (grows a f + grows b f)) (live_tables f) -> one_sided f ->
     forall i j o n, live_entry f i j o -> in_mdat f o n ->
       live_entry h i j (Z.to_N (Z.of_N o + (grows a f + grows b f))) /\
       slice (render_all h) (Z.to_N (Z.of_N o + grows a f)) n = slice (render_all f) o n).
Proof.
  intros cap cap' fuel fuel' m m' f t a b D So G Sa Sb Ga Gb S1 S2 S3 Fu Fu' T Rb other.
  pose proof (described_outline f t D) as O. destruct (last_written cap' fuel' m' b f O So G (storable_exact b Sb) Gb Fu') as (ops & Wb).
  split; [rewrite Wb; reflexivity|].
  destruct D as (ft & pre & mv & post & Ef & I & W & C & J & N & M). subst f. destruct (proj1 (named_two _ _ _) N) as [N1 N2]. pose proof (sound_at _ _ _ _ J N2 So) as GM.
  assert (Nt : named_kids (id4 "trak") (aft mv) = []).
  { unfold aft. destruct (split_last (id4 "udta") (a_kids mv)) as [[[x u] y]|] eqn:Sp; [|reflexivity]. apply split_last_some in Sp. destruct Sp as (Sp & Iu & Nu).
    apply (T mv x u y); [right; apply in_or_app; right; left; reflexivity|exact J|exact Sp|exact Iu|exact Nu]. }
  assert (Pm : plain_moov mv).
  { destruct O as (ft' & s' & rest & E & _ & _ & _ & _ & B). injection E as <- <-. rewrite named_end in B by assumption. apply Forall_app in B. destruct B as [_ B]. inversion B; subst. assumption. }
  assert (Ea : (grows a (ft :: pre ++ mv :: post) = last_growth a mv)%Z) by (apply moved_growth; assumption).
  assert (Eb : (grows b (ft :: pre ++ mv :: post) = last_growth b mv)%Z) by (apply moved_growth; assumption).
  pose proof (moved_range b ft pre mv post J N2 GM Rb) as MR.
  pose proof (last_at a ft pre mv post J N2) as La. pose proof (last_at b ft pre mv post J N2) as Lb. rewrite La in Ga, S2. rewrite Lb in Gb, S3, Wb.
  assert (P0 : Forall plain_moov (named_kids (id4 "moov") pre)) by (rewrite N1; constructor).
  destruct (late_second cap fuel m a b ft _ pre mv post I W C J P0 N2 Pm G GM (storable_exact a Sa) Ga (storable_exact b Sb) Gb Fu S1 S2 S3 Nt MR) as (p & q & Pr & Lt).
  set (d := (moved a mv post + moved b mv post)%Z) in *.
  exists (ft :: pre ++ last_moov a d mv :: post). split.
  { rewrite (proj1 (shared_late cap fuel m a _ p q other Pr)). unfold other. rewrite Wb. cbn [wr_file]. exact Lt. }
  split.
  { eexists ft, pre, _, post. cbn [tg_ftyp tg_info tg_atoms]. split; [reflexivity|]. do 3 (split; [assumption|]). split; [rewrite last_moov_id; exact J|]. split; [exact N|].
    eapply last_moov_means; [apply storable_describable, Sa|exact M]. }
  split.
  { intros Nm. rewrite La. unfold llast. rewrite Eb in Nm. unfold d, moved. destruct (named_kids (id4 "mdat") post) eqn:E; [reflexivity|].
    destruct Nm as [Nm| ->]; [|rewrite Z.add_0_r; reflexivity]. exfalso. apply Nm. exists (ft :: pre), mv, post. rewrite E. repeat split; [exact J|discriminate]. }
  intros Mf Rg S i j o n (tb & Hi & Hj) (x & md & y & Ed & Im & Lo & Hi2). rewrite Ea, Eb in *.
  assert (Np : named_kids (id4 "mdat") post <> []).
  { destruct Mf as (x' & mv' & y' & E & J' & Ny). change (ft :: pre ++ mv :: post) with ((ft :: pre) ++ mv :: post) in E.
    apply app_split in E. destruct E as [(_ & <- & <-)|[(z & _ & E)|(z & E & ->)]]; [exact Ny| |].
    - rewrite E in N2. rewrite named_app, named_this in N2 by exact J'. apply app_eq_nil in N2. destruct N2 as [_ N2]. discriminate N2.
    - assert (X : named_kids (id4 "moov") (ft :: pre) = []) by (rewrite named_other by (rewrite I; discriminate); exact N1). rewrite E, named_app, named_this in X by exact J'. apply app_eq_nil in X. destruct X as [_ X]. discriminate X. }
  assert (Edd : d = (last_growth a mv + last_growth b mv)%Z) by (unfold d, moved; destruct (named_kids (id4 "mdat") post); [contradiction|reflexivity]).
  change (ft :: pre ++ mv :: post) with ((ft :: pre) ++ mv :: post) in Hi, Ed, Rg, S. rewrite live_tables_at in Hi, Rg by assumption.
  split.
  - assert (Bk : flat_map live_trak (named_kids (id4 "trak") (aft mv)) = []) by (rewrite Nt; reflexivity).
    assert (Ok : table_ok tb) by (pose proof (proj1 (live_kids_ok (a_kids mv)) GM) as K; rewrite Forall_forall in K; apply K; apply nth_error_In in Hi; exact Hi).
    assert (Ir : in_range d tb) by (rewrite Edd; rewrite Forall_forall in Rg; apply Rg; apply nth_error_In in Hi; exact Hi).
    rewrite <- Edd. exists (shift_pair d tb). split.
    + change (ft :: pre ++ last_moov a d mv :: post) with ((ft :: pre) ++ last_moov a d mv :: post). rewrite live_tables_at by (rewrite ?last_moov_id; assumption). rewrite live_moov_last, Bk, app_nil_r. apply map_nth_error.
      rewrite live_moov_parts, Bk, app_nil_r in Hi. exact Hi.
    + destruct tb as [w c]. unfold shift_pair. cbn [fst snd]. rewrite offsets_shift by apply Ok.
      erewrite map_nth_error by exact Hj. f_equal. apply shift_entry_in. unfold in_range in Ir. rewrite Forall_forall in Ir. apply (Ir o). apply nth_error_In in Hj. exact Hj.
  - destruct (S (ft :: pre) mv post eq_refl J) as [S0|S0]; [|contradiction].
    apply app_split in Ed. destruct Ed as [(_ & X & _)|[(z & Ex & Ep)|(z & Ex & _)]].
    + subst md. rewrite J in Im. discriminate Im.
    + assert (Gr : (last_growth a mv = Z.of_N (blen (render (last_moov a d mv))) - Z.of_N (blen (render mv)))%Z).
      { unfold last_growth. fold (asize (last_moov a 0 mv)). rewrite (last_moov_size a 0 d mv GM). reflexivity. }
      change (ft :: pre ++ last_moov a d mv :: post) with ((ft :: pre) ++ last_moov a d mv :: post). change (ft :: pre ++ mv :: post) with ((ft :: pre) ++ mv :: post).
      rewrite Ex in Lo. rewrite !ParseLemmas.render_all_app, !render_all_cons in *. rewrite !blen_app in *. rewrite !(app_assoc (render ft ++ render_all pre)).
      rewrite !slice_app_r by (rewrite !blen_app; lia). f_equal. rewrite !blen_app. lia.
    + rewrite Ex, named_app, named_this in S0 by exact Im. apply app_eq_nil in S0. destruct S0 as [_ S0]. discriminate S0.
Qed.
Print Assumptions C95_two_writers.

(** A file in which containers are repeated and media data follows: the second tag is shorter than that of the file, the first is another one. *)
Example C95_two_writers_example :
  describes c92_file c88_tag /\ sound_tables c92_file /\ good_sizes c92_file /\ storable Props_Write.ex_new_items /\ storable [] /\
  good_sizes (last_file Props_Write.ex_new_items c92_file) /\ good_sizes (last_file [] c92_file) /\ tracks_before c92_file /\ live_reach [] c92_file /\
  mdat_follows c92_file /\ one_sided c92_file /\ Forall (in_range (grows Props_Write.ex_new_items c92_file + grows [] c92_file)) (live_tables c92_file) /\
  live_entry c92_file 0 1 990 /\ in_mdat c92_file 990 5 /\ grows [] c92_file <> 0%Z.
Proof.
  destruct C92_example as (A & _ & B & C & _ & _ & _ & _ & E & F & H & I & _). split; [exact A|]. split; [exact B|]. split; [exact C|].
  split; [apply C88_example|]. split; [split; constructor|]. split; [split; vm_compute; reflexivity|]. split; [split; vm_compute; reflexivity|]. split; [exact F|].
  split; [apply live_reachb_ok; vm_compute; reflexivity|]. split; [exists [ex_ftyp], c92_moov, [ex_mdat]; repeat split; vm_compute; discriminate|]. split; [exact E|].
  split; [|split; [exact H|split; [exact I|vm_compute; discriminate]]]. 
  assert (K : forallb (in_rangeb (grows Props_Write.ex_new_items c92_file + grows [] c92_file)) (live_tables c92_file) = true) by (vm_compute; reflexivity).
  eapply forallb_ok; [|exact K]. intros t Ft. eapply forallb_ok; [|exact Ft]. cbv beta. intros o Eo. lia.
Qed.
