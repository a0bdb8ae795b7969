(** New atoms mean the items they are made from. *)

From Coq Require Import List NArith ZArith Bool Lia Arith String.
From Coq Require Import ZifyBool ZifyNat ZifyN.
From Verif Require Import Base BaseLemmas Utf UtfLemmas Types TagSpec FileSpec ParseLemmas ReadProofs.
Import ListNotations.
Local Open Scope list_scope.

Lemma zeros4_version0 : version0 (zeros 4).
Proof. exists (zeros 3). split; reflexivity. Qed.

Lemma data_atom_means : forall d, good_data d -> data_means (data_atom d) d.
Proof.
  intros d G. split; [exact G|]. exists (zeros 4). split; [reflexivity|]. unfold a_content. cbn [data_atom a_pre a_kids render_all flat_map].
  rewrite app_nil_r. reflexivity.
Qed.
Lemma text_atom_means : forall id s, wf_ustr s = true -> text_means (text_atom id s) s.
Proof.
  intros id s W. split; [exact W|]. exists (zeros 4). split; [apply zeros4_version0|]. unfold a_content. cbn [text_atom a_pre a_kids render_all flat_map].
  apply app_nil_r.
Qed.

Lemma named_data : forall l, named_kids (id4 "data") (map data_atom l) = map data_atom l.
Proof. induction l as [|d r IH]; [reflexivity|]. cbn [map named_kids filter]. fold (named_kids (id4 "data")). cbn. f_equal. exact IH. Qed.
Lemma named_no_data : forall i l, id4 "data" <> i -> named_kids i (map data_atom l) = [].
Proof.
  intros i l N. induction l as [|d r IH]; [reflexivity|]. cbn [map named_kids filter].
  rewrite (id_neq (data_atom d) (id4 "data") i eq_refl N). exact IH.
Qed.
Lemma datas_mean : forall l, Forall good_data l -> Forall2 data_means (map data_atom l) l.
Proof. intros l F. induction F; constructor; auto using data_atom_means. Qed.

Definition good_ident (i : data_ident) : Prop :=
  match i with IFourcc _ => True | IFreeform m n => wf_ustr m = true /\ wf_ustr n = true end.
Lemma item_atom_means : forall a, good_ident (ad_ident a) -> ad_data a <> [] -> Forall good_data (ad_data a) -> item_means (item_atom a) a.
Proof.
  intros [i ds] Gi Ne F. cbn [ad_ident ad_data] in *. unfold item_atom. cbn [ad_ident ad_data]. destruct i as [f|me na].
  - split; [reflexivity|]. exists ds, [], []. cbn [a_kids a_id]. rewrite named_data, !named_no_data by discriminate.
    repeat split; auto using datas_mean.
  - destruct Gi as [Wm Wn]. split; [reflexivity|]. exists ds, [me], [na]. cbn [a_kids a_id].
    change (id4 "data") with (id4 "data"). unfold named_kids. cbn [filter].
    repeat match goal with |- context [is_named ?i (text_atom ?j ?s)] =>
      let v := eval cbv in (if fourcc_dec j i then true else false) in change (is_named i (text_atom j s)) with v end.
    cbv iota. fold (named_kids (id4 "data") (map data_atom ds)) (named_kids (id4 "mean") (map data_atom ds)) (named_kids (id4 "name") (map data_atom ds)).
    rewrite named_data, !named_no_data by discriminate.
    repeat split; auto using datas_mean; constructor; auto using text_atom_means.
Qed.

Lemma first_occ_unique : forall l, NoDup l -> first_occurrences l = l.
Proof.
  intros l N. induction N as [|j l H N IH]; [reflexivity|]. cbn [first_occurrences]. rewrite IH. f_equal.
  clear IH N. induction l as [|k r IH]; [reflexivity|]. cbn [filter]. destruct (ident_dec j k) as [->|E]; [exfalso; apply H; left; reflexivity|].
  f_equal. apply IH. intros X. apply H. right. exact X.
Qed.
Lemma values_unique : forall l j, unique_idents l -> values l j = all_values l j.
Proof.
  intros l j. unfold unique_idents, all_values. induction l as [|a r IH]; intros N; [reflexivity|]. inversion N as [|? ? X N']; subst.
  cbn [values filter]. destruct (ident_dec (ad_ident a) j) as [E|E]; [|apply IH, N'].
  cbn [flat_map]. replace (filter _ r) with (@nil atom_data); [cbn; rewrite app_nil_r; reflexivity|].
  symmetry. clear IH N N'. subst j. induction r as [|b r IH]; [reflexivity|]. cbn [filter].
  destruct (ident_dec (ad_ident b) (ad_ident a)) as [E|E]; [exfalso; apply X; left; exact E|]. apply IH. intros Y. apply X. right. exact Y.
Qed.
Lemma merged_self : forall l, unique_idents l -> merged l l.
Proof. intros l N. split; [symmetry; apply first_occ_unique, N|]. intros. apply values_unique, N. Qed.

Lemma item_atom_id : forall a, storable_ident (ad_ident a) -> is_named (id4 "free") (item_atom a) = false.
Proof.
  intros [i ds] S. unfold item_atom. cbn [ad_ident ad_data] in *. destruct i as [f|me na].
  - apply (id_neq _ f); [reflexivity|exact S].
  - apply (id_neq _ (id4 "----")); [reflexivity|discriminate].
Qed.

(** Items as they have to be to be read back: like [storable], but with any UTF-16 strings. *)
Definition describable (items : list atom_data) : Prop :=
  unique_idents items /\
  Forall (fun i => storable_ident (ad_ident i) /\ ad_data i <> [] /\ Forall good_data (ad_data i)) items.
Lemma storable_describable : forall items, storable items -> describable items.
Proof.
  intros items [U F]. split; [exact U|]. apply Forall_impl with (2 := F). intros a (A & B & C). repeat split; auto.
  apply Forall_impl with (2 := C). intros d [X _]. exact X.
Qed.

Lemma new_ilst_means : forall items, describable items -> ilst_means (new_ilst items) items.
Proof.
  intros items [U F]. split; [reflexivity|]. exists items. split; [|apply merged_self, U].
  cbn [new_ilst new_box a_kids]. clear U. induction F as [|a l (S & Ne & G) F IH]; [constructor|].
  cbn [map filter]. rewrite item_atom_id by exact S. cbn [negb]. constructor; [|exact IH].
  apply item_atom_means; auto. destruct (ad_ident a); [exact I|exact S].
Qed.
Lemma new_meta_means : forall items, describable items -> meta_means (new_meta items) (Some items).
Proof.
  intros items S. split; [apply zeros4_version0|]. exists [items]. split; [|reflexivity].
  cbn [new_meta new_box a_kids]. change (named_kids (id4 "ilst") [new_hdlr; new_ilst items]) with [new_ilst items].
  constructor; [apply new_ilst_means, S|constructor].
Qed.
Lemma new_udta_means : forall items, describable items -> udta_means (new_udta items) (Some items).
Proof.
  intros items S. split; [reflexivity|]. exists (Some (Some items)). split; [|reflexivity]. exists [Some items]. split; [|reflexivity].
  cbn [new_udta new_box a_kids]. change (named_kids (id4 "meta") [new_meta items]) with [new_meta items].
  constructor; [apply new_meta_means, S|constructor].
Qed.
