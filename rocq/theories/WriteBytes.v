(** What the writing functions produce. *)

From Coq Require Import List NArith ZArith Bool Lia Arith String.
From Coq Require Import ZifyBool ZifyNat ZifyN.
From Verif Require Import Base BaseLemmas Utf UtfLemmas Types Stream Parse Find Write TagSpec TagLemmas FileSpec ParseLemmas ReadProofs ReadSpec ReadFacts.
Import ListNotations.
Local Open Scope list_scope.
Ltac Zify.zify_post_hook ::= Z.div_mod_to_equations.

(** [o] succeeds after producing [bs]. *)
Definition writes (o : Out unit) (bs : bytes) : Prop := out o = bs /\ snd o = Ok tt.
Lemma writes_ret : writes (oret tt) []. Proof. split; reflexivity. Qed.
Lemma writes_emit : forall b, writes (emit b) b. Proof. intros. split; [apply app_nil_r|reflexivity]. Qed.
Lemma writes_bind : forall x (k : unit -> Out unit) a b, writes x a -> writes (k tt) b -> writes (obind x k) (a ++ b).
Proof.
  intros x k a b [A1 A2] [B1 B2]. unfold writes, obind. rewrite A2. cbn [fst snd]. unfold out in *. cbn [fst].
  rewrite concat_app, A1, B1. auto.
Qed.
Lemma writes_lift : forall {A} (r : res A) (v : A) k b, r = Ok v -> writes (k v) b -> writes (obind (olift r) k) b.
Proof. intros A r v k b -> [B1 B2]. unfold writes, obind, olift, out in *. cbn [fst snd app]. auto. Qed.
Lemma writes_omap : forall {A} (g : A -> Out unit) (h : A -> bytes) l, (forall x, In x l -> writes (g x) (h x)) ->
  writes (omap g l) (flat_map h l).
Proof.
  intros A g h l. induction l as [|x r IH]; intros H; [apply writes_ret|]. cbn [omap flat_map].
  apply writes_bind; [apply H; left; reflexivity|]. apply IH. intros; apply H; right; assumption.
Qed.
Lemma writes_eq : forall o a b, writes o a -> a = b -> writes o b.
Proof. intros; subst; assumption. Qed.

Lemma writes_head : forall s id, writes (write_head s id)
  (if sz_ext s then be 4 1 ++ fc_bytes id ++ be 8 (sz_len s) else be 4 (sz_len s) ++ fc_bytes id).
Proof. intros [[] n] id; split; try reflexivity; rewrite write_head_bytes; reflexivity. Qed.
Lemma writes_typed : forall d, writes (write_typed d) (n2b 0 :: be 3 (type_code d) ++ zeros 4 ++ payload d).
Proof. intros d. destruct (write_typed_bytes d). split; assumption. Qed.

(** * Items *)

Definition raw_data (d : data) : bytes :=
  be 4 (16 + data_len d) ++ fc_bytes DATA ++ n2b 0 :: be 3 (type_code d) ++ zeros 4 ++ payload d.
Definition raw_text (id : fourcc) (s : ustring) : bytes :=
  be 4 (12 + blen (enc8 s)) ++ fc_bytes id ++ zeros 4 ++ enc8 s.
Definition raw_item (a : atom_data) : bytes :=
  be 4 (ad_len a) ++
  match ad_ident a with
  | IFourcc f => fc_bytes f
  | IFreeform m n => fc_bytes FREEFORM ++ raw_text MEAN m ++ raw_text NAME n
  end ++ flat_map raw_data (ad_data a).

Lemma nsum_in : forall {A} (g : A -> N) l x, In x l -> g x <= nsum (map g l).
Proof.
  intros A g l x. induction l as [|y r IH]; [contradiction|]. intros [->|H]; cbn; [lia|]. specialize (IH H). unfold nsum in IH. lia.
Qed.

Lemma ad_write_raw : forall m a, ad_len a < 2 ^ 32 -> writes (ad_write m a) (raw_item a).
Proof.
  intros m a H. unfold ad_write, raw_item. rewrite as_u32_small by exact H.
  apply writes_bind; [apply writes_emit|]. unfold ad_len in H.
  apply writes_bind.
  - destruct (ad_ident a) as [f|me na]; [apply writes_emit|].
    apply writes_bind; [apply writes_emit|]. unfold raw_text. rewrite <- !app_assoc.
    eapply writes_lift; [rewrite as_u32_small by (unfold two32; lia); apply add32_ok; unfold two32; lia|].
    do 4 (apply writes_bind; [apply writes_emit|]).
    eapply writes_lift; [rewrite as_u32_small by (unfold two32; lia); apply add32_ok; unfold two32; lia|].
    do 3 (apply writes_bind; [apply writes_emit|]). apply writes_emit.
  - apply writes_omap. intros d I. unfold raw_data.
    assert (L : 16 + data_len d < 2 ^ 32).
    { pose proof (nsum_in (fun d => 16 + data_len d) _ _ I) as X. cbv beta in X. destruct (ad_ident a); lia. }
    eapply writes_lift; [rewrite as_u32_small by (unfold two32; lia); apply add32_ok; unfold two32; lia|].
    do 2 (apply writes_bind; [apply writes_emit|]). apply writes_typed.
Qed.

(** UTF-16 code units in a value. *)
Definition units (d : data) : N := match d with DUtf16 s => blen (enc16 s) | _ => 0 end.

Lemma payload_len : forall d, blen (payload d) = data_len d + units d.
Proof.
  intros []; cbn [payload units data_len]; try lia. rewrite utf16_bytes, blen_units_bytes. lia.
Qed.
Lemma raw_data_len : forall d, blen (raw_data d) = 16 + data_len d + units d.
Proof. intros. unfold raw_data. rewrite !blen_app, blen_cons, !blen_app, !blen_be, blen_fc, payload_len, blen_zeros. lia. Qed.
Lemma raw_datas_len : forall l, blen (flat_map raw_data l) = nsum (map (fun d => 16 + data_len d) l) + nsum (map units l).
Proof.
  induction l as [|d r IH]; [reflexivity|]. cbn [flat_map map nsum fold_right]. rewrite blen_app, raw_data_len, IH. unfold nsum. lia.
Qed.
Lemma raw_text_len : forall id s, blen (raw_text id s) = 12 + blen (enc8 s).
Proof. intros. unfold raw_text. rewrite !blen_app, blen_be, blen_fc, blen_zeros. lia. Qed.
Lemma raw_item_len : forall a, blen (raw_item a) = ad_len a + nsum (map units (ad_data a)).
Proof.
  intros a. unfold raw_item, ad_len. rewrite !blen_app, blen_be, raw_datas_len. destruct (ad_ident a).
  - rewrite blen_fc. lia.
  - rewrite !blen_app, blen_fc, !raw_text_len. lia.
Qed.

(** Values whose announced length is right. *)
Definition exact_data (d : data) : Prop := units d = 0.
Definition exact_items (l : list atom_data) : Prop := Forall (fun a => Forall exact_data (ad_data a)) l.

Lemma nsum_0 : forall {A} (g : A -> N) l, Forall (fun x => g x = 0) l -> nsum (map g l) = 0.
Proof. intros A g l F. induction F as [|x l H F IH]; [reflexivity|]. cbn. unfold nsum in IH. lia. Qed.

Lemma storable_exact : forall items, storable items -> exact_items items.
Proof.
  intros items [_ F]. apply Forall_impl with (2 := F). intros a (_ & _ & D). apply Forall_impl with (2 := D).
  intros d [_ X]. unfold exact_data. destruct d; try reflexivity. subst. reflexivity.
Qed.

Lemma data_atom_bytes : forall d, exact_data d -> render (data_atom d) = raw_data d.
Proof.
  intros d E. unfold raw_data, data_atom. cbn [render flat_map]. rewrite app_nil_r. unfold header.
  rewrite blen_cons, !blen_app, blen_be, blen_zeros, payload_len, E, <- app_assoc.
  f_equal. f_equal. unfold data_len. lia.
Qed.
Lemma text_atom_bytes : forall id s, render (text_atom id s) = raw_text id s.
Proof.
  intros. unfold raw_text, text_atom. cbn [render flat_map]. rewrite app_nil_r. unfold header.
  rewrite blen_app, blen_zeros, <- app_assoc. f_equal. f_equal. lia.
Qed.
Lemma data_atoms_bytes : forall l, Forall exact_data l -> flat_map render (map data_atom l) = flat_map raw_data l.
Proof. intros l F. induction F as [|d l E F IH]; [reflexivity|]. cbn [map flat_map]. rewrite IH, data_atom_bytes by exact E. reflexivity. Qed.

Lemma item_atom_bytes : forall a, Forall exact_data (ad_data a) -> render (item_atom a) = raw_item a.
Proof.
  intros a F. pose proof (raw_datas_len (ad_data a)) as L. rewrite (nsum_0 _ _ F) in L.
  unfold raw_item, item_atom, ad_len. destruct (ad_ident a) as [f|me na]; cbn [render app].
  - rewrite data_atoms_bytes by exact F. unfold header. rewrite L, <- app_assoc. f_equal. f_equal. lia.
  - cbn [flat_map]. rewrite !text_atom_bytes, data_atoms_bytes by exact F. unfold header.
    rewrite !blen_app, !raw_text_len, L. rewrite <- !app_assoc. f_equal. f_equal. lia.
Qed.
Lemma item_atom_size : forall a, Forall exact_data (ad_data a) -> asize (item_atom a) = ad_len a.
Proof. intros a F. unfold asize. rewrite item_atom_bytes, raw_item_len, (nsum_0 _ _ F) by exact F. lia. Qed.

Lemma item_atom_ext : forall a, a_ext (item_atom a) = false.
Proof. intros. unfold item_atom. destruct (ad_ident a); reflexivity. Qed.
Lemma item_atom_fits : forall a, Forall exact_data (ad_data a) -> (fits (item_atom a) = true <-> ad_len a < 2 ^ 32).
Proof.
  intros a F. split.
  - intros H. apply fits_eq in H. destruct H as [H _]. rewrite item_atom_ext in H.
    pose proof (asize_eq (item_atom a)) as E. rewrite item_atom_size in E by exact F. unfold hlen in E. rewrite item_atom_ext in E. lia.
  - intros H. apply fits_eq. rewrite item_atom_ext. pose proof (asize_eq (item_atom a)) as E.
    rewrite item_atom_size in E by exact F. unfold hlen in E. rewrite item_atom_ext in E. split; [lia|].
    apply forallb_forall. intros k I.
    assert (X : a_ext k = false /\ a_kids k = []).
    { clear -I. unfold item_atom in I. destruct (ad_ident a); cbn in I; repeat (destruct I as [<-|I]; [split; reflexivity|]);
      apply in_map_iff in I; destruct I as (d & <- & _); split; reflexivity. }
    apply kid_in_size in I. unfold csize, a_content in E. rewrite blen_app in E.
    apply fits_eq. rewrite asize_eq in I. destruct X as [X1 X2]. rewrite X1, X2. unfold hlen in I. rewrite X1 in I. split; [lia|reflexivity].
Qed.
Lemma items_fit_len : forall items, exact_items items -> (items_fit items <-> Forall (fun a => ad_len a < 2 ^ 32) items).
Proof.
  intros items E. unfold items_fit. induction E as [|a l Ea E IH]; [split; constructor|].
  cbn [map forallb]. rewrite andb_true_iff, IH, (item_atom_fits a Ea). split; [intros []; constructor; auto|].
  intros F. inversion F; auto.
Qed.

Lemma ad_write_bytes : forall m a, Forall exact_data (ad_data a) -> ad_len a < 2 ^ 32 -> writes (ad_write m a) (render (item_atom a)).
Proof. intros m a E L. rewrite item_atom_bytes by exact E. apply ad_write_raw, L. Qed.

(** * Containers *)

Lemma ilst_content : forall items, exact_items items -> blen (render_all (map item_atom items)) = nsum (map ad_len items).
Proof.
  intros items E. induction E as [|a l Ea E IH]; [reflexivity|]. cbn [map]. rewrite blen_render_all_cons, IH, item_atom_size by exact Ea. reflexivity.
Qed.

Lemma new_box_head : forall id pre kids n, n = blen (pre ++ render_all kids) ->
  writes (write_head (size_from n) id) (header (a_ext (new_box id pre kids)) id n).
Proof.
  intros id pre kids n ->. eapply writes_eq; [apply writes_head|]. unfold size_from, new_box, header. cbn [sz_ext sz_len a_ext].
  set (n := blen (pre ++ render_all kids)). replace (4294967295 <? n + 8) with (2 ^ 32 <=? n + 8) by lia.
  destruct (2 ^ 32 <=? n + 8); [|reflexivity]. do 3 f_equal. lia.
Qed.
Lemma new_box_size : forall id pre kids n, n = blen (pre ++ render_all kids) ->
  sz_len (size_from n) = asize (new_box id pre kids).
Proof.
  intros id pre kids n ->. rewrite asize_eq. unfold hlen, csize, a_content, size_from, new_box. cbn [sz_len a_ext a_pre a_kids].
  set (n := blen (pre ++ render_all kids)). replace (4294967295 <? n + 8) with (2 ^ 32 <=? n + 8) by lia.
  destruct (2 ^ 32 <=? n + 8); lia.
Qed.
Lemma render_new_box : forall id pre kids, render (new_box id pre kids) =
  header (a_ext (new_box id pre kids)) id (blen (pre ++ render_all kids)) ++ pre ++ render_all kids.
Proof. reflexivity. Qed.

Lemma ilst_size_eq : forall items, exact_items items -> sz_len (ilst_size items) = asize (new_ilst items).
Proof. intros items E. apply new_box_size. cbn [app]. symmetry. apply ilst_content, E. Qed.

Lemma ilst_write_bytes : forall m items, exact_items items -> items_fit items -> writes (ilst_write m items) (render (new_ilst items)).
Proof.
  intros m items E F. apply items_fit_len in F; [|exact E]. unfold ilst_write, new_ilst, ilst_size. rewrite render_new_box.
  apply writes_bind; [rewrite <- ilst_content by exact E; apply new_box_head; reflexivity|]. cbn [app].
  unfold render_all. rewrite flat_map_concat_map, map_map, <- flat_map_concat_map.
  apply writes_omap. intros a I. rewrite Forall_forall in F. unfold exact_items in E. rewrite Forall_forall in E.
  apply ad_write_bytes; [apply E, I|apply F, I].
Qed.

Lemma hdlr_write_bytes : writes (hdlr_write meta_hdlr) (render new_hdlr).
Proof. split; vm_compute; reflexivity. Qed.
Lemma hdlr_size_eq : sz_len (hdlr_size meta_hdlr) = asize new_hdlr.
Proof. vm_compute. reflexivity. Qed.

Lemma meta_content : forall items, exact_items items ->
  hdlr_len_or_zero (Some meta_hdlr) + sz_len (ilst_size items) + 4 = blen (zeros 4 ++ render_all [new_hdlr; new_ilst items]).
Proof.
  intros items E. cbn [hdlr_len_or_zero]. rewrite hdlr_size_eq, ilst_size_eq by exact E.
  rewrite blen_app, blen_zeros, !blen_render_all_cons. change (render_all []) with (@nil byte). rewrite blen_nil. lia.
Qed.
Lemma meta_size_eq : forall items, exact_items items -> sz_len (meta_size (NewMeta (Some meta_hdlr) items)) = asize (new_meta items).
Proof. intros items E. apply new_box_size. cbn [nm_hdlr nm_ilst]. apply meta_content, E. Qed.
Lemma meta_write_bytes : forall m items, exact_items items -> items_fit items ->
  writes (meta_write m (NewMeta (Some meta_hdlr) items)) (render (new_meta items)).
Proof.
  intros m items E F. unfold meta_write, meta_size, new_meta. rewrite render_new_box. cbn [nm_hdlr nm_ilst].
  rewrite meta_content by exact E. apply writes_bind; [apply new_box_head; reflexivity|].
  apply writes_bind; [eapply writes_eq; [apply writes_bind; apply writes_emit|reflexivity]|].
  rewrite render_all_cons. apply writes_bind; [apply hdlr_write_bytes|]. rewrite render_all_cons. cbn [render_all flat_map]. rewrite app_nil_r.
  apply ilst_write_bytes; assumption.
Qed.

Lemma one_kid : forall k, asize k = blen ([] ++ render_all [k]).
Proof. intros. cbn [app render_all flat_map]. rewrite app_nil_r. reflexivity. Qed.
Lemma udta_size_eq : forall items, exact_items items -> sz_len (udta_size (NewMeta (Some meta_hdlr) items)) = asize (new_udta items).
Proof.
  intros items E. apply new_box_size. rewrite meta_size_eq by exact E. cbn [app render_all flat_map]. rewrite app_nil_r. reflexivity.
Qed.
Lemma udta_write_bytes : forall m items, exact_items items -> items_fit items ->
  writes (udta_write m (NewMeta (Some meta_hdlr) items)) (render (new_udta items)).
Proof.
  intros m items E F. unfold udta_write, udta_size, new_udta. rewrite render_new_box, meta_size_eq by exact E.
  rewrite (one_kid (new_meta items)).
  apply writes_bind; [apply new_box_head; reflexivity|].
  cbn [app render_all flat_map]. rewrite app_nil_r. apply meta_write_bytes; assumption.
Qed.

(** The file [dump_to] produces. *)
Definition dump_file (items : list atom_data) : list atom :=
  [Atom false (id4 "ftyp") (enc8 dump_ftyp) []; new_box (id4 "moov") [] [new_udta items]].

Lemma dump_bytes : forall m items, exact_items items -> items_fit items ->
  writes (dump_tag_to m items) (render_all (dump_file items)).
Proof.
  intros m items E F. unfold dump_tag_to, dump_file. rewrite render_all_cons. apply writes_bind.
  - split; vm_compute; reflexivity.
  - cbn [render_all flat_map]. rewrite app_nil_r. unfold moov_write, moov_size. rewrite render_new_box, udta_size_eq by exact E.
    rewrite (one_kid (new_udta items)).
    apply writes_bind; [apply new_box_head; reflexivity|]. cbn [app render_all flat_map]. rewrite app_nil_r.
    apply udta_write_bytes; assumption.
Qed.
