(** Foreign atoms do not matter to readers. *)

From Coq Require Import List NArith Bool String Relations Lia.
From Verif Require Import Base BaseLemmas Utf Types TagSpec FileSpec ForeignSpec ParseLemmas ReadProofs.
Import ListNotations.
Local Open Scope list_scope.

(** The file without foreign atoms, all size fields 32-bit. *)
Definition unflag (a : atom) : atom := Atom false (a_id a) (a_pre a) (a_kids a).

Fixpoint core (pl : place) (a : atom) : atom :=
  match a with
  | Atom e i p k =>
    Atom false i p
      match pl with
      | InMp4a => firstn 1 (map unflag k)
      | _ => flat_map (fun b => match meaningful pl (a_id b) with
                                | None => []
                                | Some None => [unflag b]
                                | Some (Some pl') => [core pl' b]
                                end) k
      end
  end.
Definition core_child (pl : place) (b : atom) : list atom :=
  match meaningful pl (a_id b) with
  | None => []
  | Some None => [unflag b]
  | Some (Some pl') => [core pl' b]
  end.
Definition core_kids (pl : place) (k : list atom) : list atom :=
  match pl with
  | InMp4a => firstn 1 (map unflag k)
  | _ => flat_map (core_child pl) k
  end.

Lemma core_eq : forall pl e i p k, core pl (Atom e i p k) = Atom false i p (core_kids pl k).
Proof. intros [] e i p k; reflexivity. Qed.

Lemma firstn_map_app : forall (x : list atom) a b y, unflag a = unflag b ->
  firstn 1 (map unflag (x ++ a :: y)) = firstn 1 (map unflag (x ++ b :: y)).
Proof. intros [|c x] a b y E; cbn; [rewrite E|]; reflexivity. Qed.

Lemma core_head : forall pl e e' i p k, core pl (Atom e i p k) = core pl (Atom e' i p k).
Proof. intros. rewrite !core_eq. reflexivity. Qed.

Lemma core_child_head : forall pl e e' i p k, core_child pl (Atom e i p k) = core_child pl (Atom e' i p k).
Proof.
  intros. unfold core_child. cbn [a_id]. destruct (meaningful pl i) as [[pl0|]|]; reflexivity.
Qed.

Lemma edit_core : forall pl l l', edit pl l l' -> core_kids pl l = core_kids pl l'.
Proof.
  induction 1 as [pl x k y M|e x y|pl x e e' i p k y|pl pl' x e i p k k' y M E IH].
  - destruct pl; try discriminate M; cbn [core_kids]; rewrite !flat_map_app; cbn [flat_map]; unfold core_child at 4; rewrite M; reflexivity.
  - reflexivity.
  - destruct pl; try (cbn [core_kids]; rewrite !flat_map_app; cbn [flat_map]; rewrite (core_child_head _ e e'); reflexivity).
    apply firstn_map_app. reflexivity.
  - destruct pl; try discriminate M;
      (cbn [core_kids]; rewrite !flat_map_app; cbn [flat_map]; f_equal; f_equal; unfold core_child; cbn [a_id]; rewrite M, !core_eq, IH; reflexivity).
Qed.

(** ** The meaning only depends on the core *)

Lemma named_core : forall pl id o l, pl <> InMp4a -> meaningful pl id = Some o ->
  named_kids id (core_kids pl l) = map (fun b => match o with None => unflag b | Some pl' => core pl' b end) (named_kids id l).
Proof.
  intros pl id o l NM M. assert (core_kids pl l = flat_map (core_child pl) l) as -> by (destruct pl; reflexivity || contradiction).
  assert (I : forall pl' b, a_id (core pl' b) = a_id b) by (intros pl' []; reflexivity).
  induction l as [|b r IH]; [reflexivity|]. cbn [flat_map named_kids filter]. unfold named_kids in *. rewrite filter_app, IH. clear IH.
  unfold core_child. destruct (is_named id b) eqn:E.
  - pose proof E as E'. apply is_named_eq in E'. rewrite E', M. destruct o as [pl'|]; cbn [filter map app]; unfold is_named in *; rewrite ?I; cbn [a_id unflag];
      destruct (fourcc_dec (a_id b) id); congruence || reflexivity.
  - destruct (meaningful pl (a_id b)) as [[pl'|]|]; cbn [filter app]; unfold is_named in *; rewrite ?I; cbn [a_id unflag]; try rewrite E; reflexivity.
Qed.

Lemma forall2_map : forall {A B} (P : A -> B -> Prop) (g : A -> A) l r,
  (forall a v, P (g a) v <-> P a v) -> (Forall2 P (map g l) r <-> Forall2 P l r).
Proof.
  intros A B P g l r H. revert r. induction l as [|x l IH]; intros r; cbn; [reflexivity|].
  split; intros F; inversion F; subst; constructor; try (apply H; assumption); apply IH; assumption.
Qed.

Lemma unflag_content : forall a, a_content (unflag a) = a_content a.
Proof. intros []; reflexivity. Qed.
Lemma core_pre : forall pl a, a_pre (core pl a) = a_pre a.
Proof. intros pl []; reflexivity. Qed.
Lemma core_id : forall pl a, a_id (core pl a) = a_id a.
Proof. intros pl []; reflexivity. Qed.
Lemma core_kids_of : forall pl a, a_kids (core pl a) = core_kids pl (a_kids a).
Proof. intros pl []. rewrite core_eq. reflexivity. Qed.

Lemma last_child_core : forall {A} pl id pl' (P : atom -> A -> Prop) a o, pl <> InMp4a -> meaningful pl id = Some (Some pl') ->
  (forall b v, P (core pl' b) v <-> P b v) -> (last_child id P (core pl a) o <-> last_child id P a o).
Proof.
  intros A pl id pl' P a o NM M H. unfold last_child. rewrite core_kids_of, (named_core pl id (Some pl')) by assumption.
  split; intros (l & F & E); exists l; (split; [|exact E]); eapply forall2_map; eassumption.
Qed.
Lemma box_core : forall {A} pl id pl' (P : atom -> option A -> Prop) a o, pl <> InMp4a -> meaningful pl id = Some (Some pl') ->
  (forall b v, P (core pl' b) v <-> P b v) -> (box id P (core pl a) o <-> box id P a o).
Proof.
  intros A pl id pl' P a o NM M H. unfold box. rewrite core_pre.
  split; intros (E & oo & L & J); (split; [exact E|]); exists oo; (split; [|exact J]); eapply last_child_core; eassumption.
Qed.

Lemma esds_core : forall a v, esds_means (unflag a) v <-> esds_means a v.
Proof. intros a v. unfold esds_means. rewrite unflag_content. destruct a; reflexivity. Qed.

Lemma mp4a_core : forall a v, mp4a_means (core InMp4a a) v <-> mp4a_means a v.
Proof.
  intros a v. unfold mp4a_means. rewrite core_pre, core_kids_of. cbn [core_kids].
  split; intros (L & e & rest & K & E); (split; [exact L|]).
  - destruct (a_kids a) as [|x r]; [discriminate|]. cbn in K. injection K as <- _. exists x, r. split; [reflexivity|]. apply esds_core, E.
  - rewrite K. exists (unflag e), []. split; [reflexivity|]. apply esds_core, E.
Qed.

Lemma stsd_core : forall a v, stsd_means (core InStsd a) v <-> stsd_means a v.
Proof.
  intros a v. unfold stsd_means. rewrite core_pre.
  rewrite (last_child_core InStsd (id4 "mp4a") InMp4a) by (try discriminate; try reflexivity; apply mp4a_core). reflexivity.
Qed.
Lemma stbl_core : forall a v, stbl_means (core InStbl a) v <-> stbl_means a v.
Proof. intros. apply (box_core InStbl (id4 "stsd") InStsd); [discriminate|reflexivity|apply stsd_core]. Qed.
Lemma minf_core : forall a v, minf_means (core InMinf a) v <-> minf_means a v.
Proof. intros. apply (box_core InMinf (id4 "stbl") InStbl); [discriminate|reflexivity|apply stbl_core]. Qed.
Lemma mdia_core : forall a v, mdia_means (core InMdia a) v <-> mdia_means a v.
Proof. intros. apply (box_core InMdia (id4 "minf") InMinf); [discriminate|reflexivity|apply minf_core]. Qed.
Lemma trak_core : forall a v, trak_means (core InTrak a) v <-> trak_means a v.
Proof. intros. apply (box_core InTrak (id4 "mdia") InMdia); [discriminate|reflexivity|apply mdia_core]. Qed.

Lemma data_core : forall a v, data_means (unflag a) v <-> data_means a v.
Proof. intros. unfold data_means. rewrite unflag_content. reflexivity. Qed.
Lemma text_core : forall a v, text_means (unflag a) v <-> text_means a v.
Proof. intros. unfold text_means. rewrite unflag_content. reflexivity. Qed.
Lemma mvhd_core : forall a v, mvhd_means (unflag a) v <-> mvhd_means a v.
Proof. intros. unfold mvhd_means. rewrite unflag_content. reflexivity. Qed.

Lemma item_core : forall a v, item_means (core InItem a) v <-> item_means a v.
Proof.
  intros a v. unfold item_means. rewrite core_pre, core_id, core_kids_of.
  rewrite !(named_core InItem _ None) by (discriminate || reflexivity).
  split; intros (Pre & ds & ms & ns & F1 & F2 & F3 & Ne & E); (split; [exact Pre|]); exists ds, ms, ns;
    (split; [|split; [|split; [|split; [exact Ne|exact E]]]]).
  - eapply forall2_map; [apply data_core|exact F1].
  - eapply forall2_map; [apply text_core|exact F2].
  - eapply forall2_map; [apply text_core|exact F3].
  - apply forall2_map; [apply data_core|exact F1].
  - apply forall2_map; [apply text_core|exact F2].
  - apply forall2_map; [apply text_core|exact F3].
Qed.

Lemma ilst_core_kids : forall l, filter not_free (core_kids InIlst l) = map (core InItem) (filter not_free l).
Proof.
  intros l. cbn [core_kids]. induction l as [|b r IH]; [reflexivity|]. cbn [flat_map filter]. rewrite filter_app, IH. clear IH.
  unfold core_child. cbn [meaningful]. unfold not_free, is_named.
  destruct (fourcc_dec (a_id b) (id4 "free")) as [E|E] eqn:D; cbn [negb filter map app]; [reflexivity|].
  unfold is_named. rewrite core_id, D. reflexivity.
Qed.
Lemma ilst_core : forall a v, ilst_means (core InIlst a) v <-> ilst_means a v.
Proof.
  intros a v. unfold ilst_means. fold not_free. rewrite core_pre, core_kids_of, ilst_core_kids.
  split; intros (Pre & l & F & M); (split; [exact Pre|]); exists l; (split; [|exact M]).
  - eapply forall2_map; [apply item_core|exact F].
  - apply forall2_map; [apply item_core|exact F].
Qed.
Lemma meta_core : forall a v, meta_means (core InMeta a) v <-> meta_means a v.
Proof.
  intros a v. unfold meta_means. rewrite core_pre.
  rewrite (last_child_core InMeta (id4 "ilst") InIlst) by (try discriminate; try reflexivity; apply ilst_core). reflexivity.
Qed.
Lemma udta_core : forall a v, udta_means (core InUdta a) v <-> udta_means a v.
Proof. intros. apply (box_core InUdta (id4 "meta") InMeta); [discriminate|reflexivity|apply meta_core]. Qed.

Lemma moov_core : forall a i v, moov_means (core InMoov a) i v <-> moov_means a i v.
Proof.
  intros a i v. unfold moov_means, last_child. rewrite core_pre, core_kids_of.
  rewrite (named_core InMoov (id4 "mvhd") None) by (discriminate || reflexivity).
  rewrite (named_core InMoov (id4 "trak") (Some InTrak)) by (discriminate || reflexivity).
  rewrite (named_core InMoov (id4 "udta") (Some InUdta)) by (discriminate || reflexivity).
  split; intros (Pre & dur & auds & uo & (l1 & F1 & E1) & F2 & (l3 & F3 & E3) & E); (split; [exact Pre|]); exists dur, auds, uo.
  - split; [exists l1; split; [eapply forall2_map; [apply mvhd_core|exact F1]|exact E1]|].
    split; [eapply forall2_map; [apply trak_core|exact F2]|].
    split; [exists l3; split; [eapply forall2_map; [apply udta_core|exact F3]|exact E3]|exact E].
  - split; [exists l1; split; [apply forall2_map; [apply mvhd_core|exact F1]|exact E1]|].
    split; [apply forall2_map; [apply trak_core|exact F2]|].
    split; [exists l3; split; [apply forall2_map; [apply udta_core|exact F3]|exact E3]|exact E].
Qed.

(** ** Files *)

Lemma named_one : forall id l a, named_kids id l = [a] -> exists x y, l = x ++ a :: y /\ named_kids id (x ++ y) = [].
Proof.
  intros id l a. induction l as [|b r IH]; [discriminate|]. cbn [named_kids filter]. destruct (is_named id b) eqn:E; intros H.
  - injection H as -> H. exists [], r. auto.
  - destruct (IH H) as (x & y & -> & N). exists (b :: x), y. split; [reflexivity|]. cbn [app named_kids filter]. rewrite E. exact N.
Qed.

Definition describes' (f : list atom) (t : tag) : Prop :=
  exists ft rest mv, f = ft :: rest /\
    a_id ft = id4 "ftyp" /\ wf_ustr (tg_ftyp t) = true /\ a_content ft = enc8 (tg_ftyp t) /\
    named_kids (id4 "moov") rest = [mv] /\ moov_means mv (tg_info t) (tg_atoms t).

Lemma describes_alt : forall f t, describes f t <-> describes' f t.
Proof.
  intros f t. split.
  - intros (ft & pre & mv & post & -> & I & W & C & Im & N & M). exists ft, (pre ++ mv :: post), mv.
    repeat (split; [assumption || reflexivity|]). split; [|exact M]. unfold named_kids in *. rewrite filter_app in *. cbn [filter].
    apply app_eq_nil in N. destruct N as [-> ->]. apply is_named_eq in Im. rewrite Im. reflexivity.
  - intros (ft & rest & mv & -> & I & W & C & N & M). pose proof (named_one _ _ _ N) as (x & y & -> & N').
    exists ft, x, mv, y. repeat (split; [assumption || reflexivity|]). split; [|split; assumption].
    assert (In mv (named_kids (id4 "moov") (x ++ mv :: y))) as H by (rewrite N; left; reflexivity).
    unfold named_kids in H. apply filter_In in H. apply is_named_eq, H.
Qed.

Lemma core_file : forall l, core_kids InFile l = map (core InMoov) (named_kids (id4 "moov") l).
Proof.
  cbn [core_kids]. induction l as [|b r IH]; [reflexivity|]. cbn [flat_map named_kids filter]. rewrite IH. unfold core_child, is_named.
  cbn [meaningful]. unfold look. cbn [find fst snd]. destruct (fourcc_dec (id4 "moov") (a_id b)) as [E|E]; destruct (fourcc_dec (a_id b) (id4 "moov")); try congruence; reflexivity.
Qed.

Lemma edit_file_describes : forall f f' t, edit_file f f' -> (describes f t <-> describes f' t).
Proof.
  intros f f' t H. rewrite !describes_alt. destruct H as [e e' i p k r|a x y E].
  - split; intros (ft & rest & mv & H & I & W & C & N & M); injection H as <- <-;
      [exists (Atom e' i p k), r, mv|exists (Atom e i p k), r, mv]; repeat (split; [assumption || reflexivity|]); exact M.
  - apply edit_core in E. rewrite !core_file in E.
    assert (G : forall x y, map (core InMoov) (named_kids (id4 "moov") x) = map (core InMoov) (named_kids (id4 "moov") y) ->
      describes' (a :: x) t -> describes' (a :: y) t).
    { clear. intros x y E (ft & rest & mv & H & I & W & C & N & M). injection H as <- <-. rewrite N in E. cbn [map] in E.
      destruct (named_kids (id4 "moov") y) as [|mv' [|? ?]] eqn:N'; try discriminate. injection E as E.
      exists a, y, mv'. repeat (split; [assumption || reflexivity|]). apply moov_core. rewrite <- E. apply moov_core, M. }
    split; apply G; auto.
Qed.

Lemma foreign_describes : forall f f' t, same_but_foreign f f' -> (describes f t <-> describes f' t).
Proof.
  induction 1 as [f f' H|f|f f' _ IH|f g h _ IH1 _ IH2].
  - apply edit_file_describes, H.
  - reflexivity.
  - symmetry. exact IH.
  - rewrite IH1. exact IH2.
Qed.

Theorem foreign_read : forall f f' t fuel m, same_but_foreign f f' -> good_sizes f' -> describes f t ->
  blen (render_all f') < N.of_nat fuel -> exists q, Parse.read_tag_from fuel m (render_all f') 0 = Ok (t, q).
Proof.
  intros f f' t fuel m S G D Fu. apply read_described; [exact G| |exact Fu]. apply (foreign_describes f f' t S), D.
Qed.
