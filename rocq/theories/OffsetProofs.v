(** Chunk offsets of the updated file, and that it can be updated again. *)

From Coq Require Import List NArith ZArith Bool Lia Arith String.
From Coq Require Import ZifyBool ZifyNat ZifyN.
From Verif Require Import Base BaseLemmas Utf UtfLemmas Types TagSpec FileSpec ParseLemmas ReadProofs ReadFacts NewMeans
  ScanProofs AdjustProofs WriteProofs WriteMain UpdateMeans UpdateTwice EditSpec EditProofs.
Import ListNotations.
Local Open Scope list_scope.

(** * The updated file can be updated again *)

Lemma shift_entry_in : forall w d o, (0 <= Z.of_N o + d < 2 ^ (8 * Z.of_nat w))%Z -> shift_entry w d o = Z.to_N (Z.of_N o + d).
Proof. intros w d o H. unfold shift_entry. rewrite Z.mod_small by exact H. reflexivity. Qed.

Lemma table_shift_ok : forall d t, table_ok t -> in_range d t -> table_ok (shift_pair d t).
Proof.
  intros d [w a] [W G] R. cbn [fst snd] in *. split; [exact W|]. unfold shift_pair. cbn [fst snd].
  unfold in_range, offsets in R. cbn [fst snd] in R.
  destruct G as (K & v & offs & V & E & L & F).
  assert (F' : Forall (fun o => o < 2 ^ (8 * N.of_nat w)) offs) by (eapply Forall_impl; [|exact F]; cbv beta; tauto).
  rewrite E, entries_of in R by assumption.
  rewrite (shift_table_pre d w a v offs W V E F'). split; [exact K|]. exists v, (map (shift_entry w d) offs).
  split; [exact V|]. split; [cbn [a_pre]; rewrite blen_map; reflexivity|]. split; [rewrite blen_map; exact L|].
  apply Forall_forall. intros o I. apply in_map_iff in I. destruct I as (o' & <- & I). rewrite Forall_forall in R. specialize (R o' I).
  split; [apply shift_entry_lt|]. rewrite shift_entry_in by apply R. lia.
Qed.

Lemma one_map_other : forall id id' h ks, id <> id' -> (forall c, a_id (h c) = a_id c) -> at_most_one id ks -> at_most_one id (map_kids id' h ks).
Proof. intros id id' h ks D H O. unfold at_most_one. rewrite named_map_other by assumption. exact O. Qed.
Lemma one_map_same : forall id h ks, (forall c, a_id (h c) = a_id c) -> at_most_one id ks -> at_most_one id (map_kids id h ks).
Proof. intros id h ks H O. unfold at_most_one. rewrite named_map_same by exact H. rewrite map_length. exact O. Qed.
Lemma only_map : forall id (P : atom -> Prop) h a, (forall c, a_id (h c) = a_id c) -> (forall c, In c (a_kids a) -> a_id c = id -> P c -> P (h c)) ->
  only_child id P a -> only_child id P (map_child id h a).
Proof.
  intros id P h a Hi H [O F]. split; unfold map_child, with_kids; cbn [a_kids]; [apply one_map_same; assumption|].
  rewrite named_map_same by exact Hi. apply Forall_forall. intros c I. apply in_map_iff in I. destruct I as (k & <- & I). pose proof I as I2.
  apply filter_In in I2. destruct I2 as [I2 E]. apply is_named_eq in E. rewrite Forall_forall in F. apply H; auto.
Qed.
Lemma under_in : forall id g (P : nat * atom -> Prop) a c, Forall P (under id g a) -> In c (a_kids a) -> a_id c = id -> Forall P (g c).
Proof.
  intros id g P a c F I E. apply Forall_forall. intros t T. rewrite Forall_forall in F. apply F. apply in_flat_map. exists c. split; [|exact T].
  apply filter_In. split; [exact I|apply is_named_eq, E].
Qed.

Lemma good_stbl_shift : forall d a, good_stbl a -> Forall (in_range d) (stbl_tables a) -> good_stbl (shift_stbl d a).
Proof.
  intros d a (O1 & O2 & T1 & T2) R. unfold stbl_tables in R. apply Forall_app in R. destruct R as [R1 R2]. rewrite Forall_forall in R1, R2.
  rewrite Forall_forall in T1, T2. unfold good_stbl, shift_stbl, map_child, with_kids. cbn [a_kids].
  split; [apply one_map_same; [reflexivity|]; apply one_map_other; [discriminate|reflexivity|exact O1]|].
  split; [apply one_map_other; [discriminate|reflexivity|]; apply one_map_same; [reflexivity|exact O2]|]. split.
  - rewrite named_map_same by reflexivity. rewrite named_map_other by (discriminate || reflexivity). apply Forall_forall. intros k I.
    apply in_map_iff in I. destruct I as (c & <- & I). destruct (table_shift_ok d (4%nat, c)) as [_ X]; [|apply R1, in_map, I|exact X].
    split; [cbn [fst]; lia|apply T1, I].
  - rewrite named_map_other by (discriminate || reflexivity). rewrite named_map_same by reflexivity. apply Forall_forall. intros k I.
    apply in_map_iff in I. destruct I as (c & <- & I). destruct (table_shift_ok d (8%nat, c)) as [_ X]; [|apply R2, in_map, I|exact X].
    split; [cbn [fst]; lia|apply T2, I].
Qed.
Lemma good_trak_shift : forall d a, good_trak a -> Forall (in_range d) (trak_tables a) -> good_trak (shift_trak d a).
Proof.
  intros d a G R. apply only_map; [reflexivity| |exact G]. intros c I E Gc. pose proof (under_in _ _ _ _ c R I E) as R1.
  apply only_map; [reflexivity| |exact Gc]. intros c2 I2 E2 G2. pose proof (under_in _ _ _ _ c2 R1 I2 E2) as R2.
  apply only_map; [reflexivity| |exact G2]. intros c3 I3 E3 G3. pose proof (under_in _ _ _ _ c3 R2 I3 E3) as R3.
  apply good_stbl_shift; assumption.
Qed.
Lemma good_traks_shift : forall d ks, Forall good_trak (named_kids (id4 "trak") ks) -> Forall (in_range d) (kid_tables ks) ->
  Forall good_trak (named_kids (id4 "trak") (shift_traks d ks)).
Proof.
  intros d ks. unfold shift_traks. rewrite named_map_same by reflexivity. unfold kid_tables. induction (named_kids (id4 "trak") ks) as [|c r IH]; intros G R; [constructor|].
  cbn [map flat_map] in *. apply Forall_app in R. inversion G; subst. constructor; [apply good_trak_shift; tauto|apply IH; tauto].
Qed.

Lemma one_app3 : forall id x a b y, at_most_one id (x ++ a :: y) -> a_id a = id -> a_id b = id -> at_most_one id (x ++ b :: y).
Proof. intros id x a b y H A B. unfold at_most_one in *. rewrite named_app, named_this in * by assumption. rewrite app_length in *. exact H. Qed.

Lemma good_meta_update : forall items me, good_meta me -> good_meta (update_meta items me).
Proof.
  intros items me G. unfold good_meta, update_meta. unfold good_meta in G. destruct (split_on (id4 "ilst") (a_kids me)) as [[[x c] y]|] eqn:E; unfold with_kids; cbn [a_kids].
  - apply split_on_some in E. destruct E as (E & I & Nx). rewrite E in G. cbn [app]. rewrite app_assoc. unfold at_most_one in *. rewrite !named_app, missing_other by discriminate.
    rewrite named_this by reflexivity. rewrite named_app, named_this in G by exact I. rewrite Nx in *. exact G.
  - apply split_on_empty in E. unfold at_most_one. rewrite !named_app, E, missing_other by discriminate. cbn. lia.
Qed.
Lemma good_new_meta : forall items, good_meta (new_meta items).
Proof. intro. unfold good_meta, at_most_one. cbn. lia. Qed.
Lemma good_udta_update : forall items u, good_udta u -> good_udta (update_udta items u).
Proof.
  intros items u [O F]. unfold good_udta, only_child, update_udta. destruct (split_on (id4 "meta") (a_kids u)) as [[[x c] y]|] eqn:E; unfold with_kids; cbn [a_kids].
  - apply split_on_some in E. destruct E as (E & I & Nx). rewrite E in *. split; [eapply one_app3; [exact O|exact I|rewrite update_meta_id; exact I]|].
    rewrite named_app, named_this in * by (rewrite ?update_meta_id; exact I). apply Forall_app in F. destruct F as [F1 F2]. inversion F2; subst. apply Forall_app.
    split; [exact F1|]. constructor; [apply good_meta_update|]; assumption.
  - apply split_on_empty in E. unfold at_most_one. rewrite named_app, E. split; [cbn; lia|]. cbn. constructor; [apply good_new_meta|constructor].
Qed.
Lemma good_new_udta : forall items, good_udta (new_udta items).
Proof.
  intro. split; [unfold at_most_one; cbn; lia|]. change (named_kids (id4 "meta") (a_kids (new_udta items))) with [new_meta items]. constructor; [apply good_new_meta|constructor].
Qed.
Lemma good_moov_update : forall items d mv, good_moov mv -> Forall (in_range d) (kid_tables (front_kids mv)) -> good_moov (update_moov items d mv).
Proof.
  intros items d mv [GT [O F]] R. unfold good_moov, only_child, update_moov. unfold front_kids in R. destruct (split_on (id4 "udta") (a_kids mv)) as [[[x u] y]|] eqn:E; unfold with_kids; cbn [a_kids].
  - apply split_on_some in E. destruct E as (E & I & Nx). rewrite E in *. apply good_sub in GT. destruct GT as [G1 G2]. rewrite named_other in G2 by (rewrite I; discriminate).
    assert (Ns : named_kids (id4 "udta") (shift_traks d x) = []) by (unfold shift_traks; rewrite named_map_other by (discriminate || reflexivity); exact Nx).
    split; [|split].
    + rewrite named_app, named_other by (rewrite update_udta_id, I; discriminate). apply Forall_app. split; [apply good_traks_shift; assumption|exact G2].
    + unfold at_most_one in *. rewrite named_app, named_this in * by (rewrite ?update_udta_id; exact I). rewrite Ns. rewrite Nx in O. exact O.
    + rewrite named_app, named_this in * by (rewrite ?update_udta_id; exact I). rewrite Ns. rewrite Nx in F. cbn [app] in *. inversion F; subst. constructor; [apply good_udta_update|]; assumption.
  - apply split_on_empty in E. assert (Ns : named_kids (id4 "udta") (shift_traks d (a_kids mv)) = []) by (unfold shift_traks; rewrite named_map_other by (discriminate || reflexivity); exact E).
    split; [|split].
    + rewrite named_app. apply Forall_app. split; [apply good_traks_shift; assumption|constructor].
    + unfold at_most_one. rewrite named_app, Ns. cbn. lia.
    + rewrite named_app, Ns. cbn. constructor; [apply good_new_udta|constructor].
Qed.

Lemma in_range_0 : forall t, table_ok t -> in_range 0 t.
Proof.
  intros [w a] [W (K & v & offs & V & E & L & F)]. unfold in_range, offsets. cbn [fst snd] in *.
  assert (F' : Forall (fun o => o < 2 ^ (8 * N.of_nat w)) offs) by (eapply Forall_impl; [|exact F]; cbv beta; tauto).
  rewrite E, entries_of by assumption. eapply Forall_impl; [|exact F]. cbv beta. intros o [A B].
  assert (X : (2 ^ (8 * Z.of_nat w))%Z = Z.of_N (2 ^ (8 * N.of_nat w))) by (rewrite N2Z.inj_pow; f_equal; lia). rewrite X. lia.
Qed.

(** The shift that is applied keeps the tables in front in range. *)
Lemma front_in_range : forall items ft pre mv post, a_id ft = id4 "ftyp" -> a_id mv = id4 "moov" -> named_kids (id4 "moov") (pre ++ post) = [] ->
  good_moov mv -> in_reach items (ft :: pre ++ mv :: post) ->
  Forall (in_range (match named_kids (id4 "mdat") post with [] => 0%Z | _ => growth items mv end)) (moov_tables mv).
Proof.
  intros items ft pre mv post I J N G R. destruct (named_kids (id4 "mdat") post) eqn:E.
  - rewrite moov_tables_kids. eapply Forall_impl; [|apply kid_tables_ok, G]. intros t. apply in_range_0.
  - assert (M : mdat_follows (ft :: pre ++ mv :: post)).
    { exists (ft :: pre), mv, post. split; [reflexivity|]. split; [exact J|]. rewrite E. discriminate. }
    apply R in M. rewrite (displacement_growth items ft pre mv post I J N G) in M.
    change (ft :: pre ++ mv :: post) with ((ft :: pre) ++ mv :: post) in M. rewrite file_tables_at in M by assumption. exact M.
Qed.
Lemma update_editable : forall items f t, describes f t -> editable f -> in_reach items f -> editable (update_file items f).
Proof.
  intros items f t (ft & pre & mv & post & -> & I & _ & _ & J & N & _) E R. pose proof (editable_moov _ _ _ _ J E) as G.
  pose proof (front_in_range items ft pre mv post I J N G R) as FR. rewrite moov_tables_parts in FR. apply Forall_app in FR. destruct FR as [FR _].
  rewrite (update_at items ft pre mv post I J N). unfold editable. cbn [app]. rewrite named_other by (rewrite I; discriminate).
  apply named_two in N. destruct N as [N1 N2]. rewrite named_app, N1, named_this by (rewrite update_moov_id; exact J). rewrite N2. cbn [app].
  constructor; [|constructor]. apply good_moov_update; assumption.
Qed.

(** * The chunks *)

Lemma slice_app_l : forall (a b : bytes) o n, o + n <= blen a -> slice (a ++ b) o n = slice a o n.
Proof.
  intros a b o n H. unfold slice. rewrite skipn_app, firstn_app. rewrite skipn_length.
  replace (N.to_nat n - (List.length a - N.to_nat o))%nat with 0%nat by (unfold blen in H; lia). rewrite firstn_O. apply app_nil_r.
Qed.
Lemma slice_app_r : forall (a b : bytes) o n, blen a <= o -> slice (a ++ b) o n = slice b (o - blen a) n.
Proof.
  intros a b o n H. unfold slice. rewrite skipn_app, skipn_all2 by (unfold blen in H; lia). cbn [app]. do 2 f_equal. unfold blen. lia.
Qed.

Lemma nth_error_shift : forall d ts i t, nth_error ts i = Some t -> nth_error (map (shift_pair d) ts) i = Some (shift_pair d t).
Proof. intros d ts i t H. apply map_nth_error, H. Qed.

(** Splitting the file at two places. *)
Lemma app_split : forall {A} (x x' y y' : list A) a b, x ++ a :: y = x' ++ b :: y' ->
  (x = x' /\ a = b /\ y = y') \/ (exists z, x' = x ++ a :: z /\ y = z ++ b :: y') \/ (exists z, x = x' ++ b :: z /\ y' = z ++ a :: y).
Proof.
  intros A. induction x as [|h x IH]; intros [|h' x'] y y' a b E; cbn [app] in E.
  - injection E as -> ->. left. auto.
  - injection E as -> ->. right. left. exists x'. split; reflexivity.
  - injection E as -> <-. right. right. exists x. split; reflexivity.
  - injection E as -> E. apply IH in E. destruct E as [(-> & -> & ->)|[(z & -> & ->)|(z & -> & ->)]]; [left; auto|right; left|right; right]; exists z; split; reflexivity.
Qed.

Theorem chunks_update : forall items f t, describes f t -> editable f -> in_reach items f -> one_sided f -> tracks_first f ->
  chunks_kept f (update_file items f).
Proof.
  intros items f t (ft & pre & mv & post & Ef & I & _ & _ & J & N & _) E R S T. subst f. pose proof (editable_moov _ _ _ _ J E) as G.
  pose proof (front_in_range items ft pre mv post I J N G R) as FR.
  assert (Bk : kid_tables (back_kids mv) = []).
  { unfold back_kids. destruct (split_on (id4 "udta") (a_kids mv)) as [[[x u] y]|] eqn:Sp; [|reflexivity]. apply split_on_some in Sp. destruct Sp as (Sp & Iu & _).
    unfold kid_tables. rewrite (T mv x u y); [reflexivity| |exact J|exact Sp|exact Iu]. right. apply in_or_app. right. left. reflexivity. }
  rewrite (update_at items ft pre mv post I J N). set (d := match named_kids (id4 "mdat") post with [] => 0%Z | _ => growth items mv end) in *.
  intros i j o n (tb & Hi & Hj) (x & md & y & Ed & Im & Lo & Hi2).
  change (ft :: pre ++ mv :: post) with ((ft :: pre) ++ mv :: post) in *.
  rewrite file_tables_at in Hi by assumption.
  assert (Hi' : nth_error (file_tables ((ft :: pre) ++ update_moov items d mv :: post)) i = Some (shift_pair d tb)).
  { rewrite file_tables_at by (rewrite ?update_moov_id; assumption). rewrite update_moov_tables, Bk, app_nil_r. apply map_nth_error.
    rewrite moov_tables_parts, Bk, app_nil_r in Hi. exact Hi. }
  assert (Ok : table_ok tb).
  { pose proof (kid_tables_ok (a_kids mv) (proj1 G)) as K. rewrite Forall_forall in K. apply K. apply nth_error_In in Hi. exact Hi. }
  assert (Ir : in_range d tb) by (rewrite Forall_forall in FR; apply FR; apply nth_error_In in Hi; exact Hi).
  exists (Z.to_N (Z.of_N o + d)). split.
  - exists (shift_pair d tb). split; [exact Hi'|]. destruct tb as [w a]. unfold shift_pair. cbn [fst snd]. rewrite offsets_shift by apply Ok.
    erewrite map_nth_error by exact Hj. f_equal. apply shift_entry_in. unfold in_range in Ir. rewrite Forall_forall in Ir. apply (Ir o). apply nth_error_In in Hj. exact Hj.
  - specialize (S (ft :: pre) mv post eq_refl J).
    assert (Md : named_kids (id4 "mdat") [md] = [md]) by (rewrite named_this by exact Im; reflexivity).
    apply app_split in Ed. destruct Ed as [(_ & X & _)|[(z & -> & ->)|(z & Ex & ->)]].
    + subst md. rewrite J in Im. discriminate Im.
    + (* behind the movie *)
      assert (Np : named_kids (id4 "mdat") (z ++ md :: y) <> []).
      { rewrite named_app, named_this by exact Im. intro X. apply app_eq_nil in X. destruct X as [_ X]. discriminate X. }
      assert (Ed : d = growth items mv) by (unfold d; destruct (named_kids (id4 "mdat") (z ++ md :: y)); [contradiction|reflexivity]).
      rewrite !render_all_app, !render_all_cons in *. rewrite !blen_app in *.
      set (A := render ft ++ render_all pre) in *. set (P := render_all (z ++ md :: y)) in *.
      assert (Gr : (d = Z.of_N (blen (render (update_moov items d mv))) - Z.of_N (blen (render mv)))%Z).
      { rewrite Ed at 1. unfold growth. fold (asize (update_moov items 0 mv)). rewrite (update_moov_size items 0 d mv G). reflexivity. }
      assert (LA : blen A = blen (render ft) + blen (render_all pre)) by (unfold A; apply blen_app). rewrite !(app_assoc A). rewrite !slice_app_r by (rewrite blen_app; lia). f_equal. rewrite !blen_app. lia.
    + (* in front of it *)
      assert (Np : named_kids (id4 "mdat") (ft :: pre) <> []).
      { rewrite Ex, named_app, named_this by exact Im. intro X. apply app_eq_nil in X. destruct X as [_ X]. discriminate X. }
      destruct S as [S|S]; [contradiction|]. assert (Ed : d = 0%Z) by (unfold d; rewrite S; reflexivity).
      assert (L : o + n <= blen (render_all (x ++ md :: z))).
      { rewrite !render_all_app, !render_all_cons, !blen_app in *. change (blen (render_all [])) with 0 in Hi2. lia. }
      rewrite Ex. rewrite !(render_all_app (x ++ md :: z)). rewrite Ed, Z.add_0_r, N2Z.id. rewrite !slice_app_l by exact L. reflexivity.
Qed.
