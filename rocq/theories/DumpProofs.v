(** Proofs about [Tag::dump_to] and about announced lengths. *)

From Coq Require Import List NArith ZArith Bool Lia Arith String.
From Coq Require Import ZifyBool ZifyNat ZifyN.
From Verif Require Import Base BaseLemmas Utf UtfLemmas Types Stream Parse Find Write TagSpec FileSpec ParseLemmas ReadProofs
  ReadFacts WriteBytes NewMeans.
Import ListNotations.
Local Open Scope list_scope.

Lemma new_box_fits : forall id pre kids, forallb fits kids = true -> blen (pre ++ render_all kids) < 2 ^ 63 ->
  fits (new_box id pre kids) = true.
Proof.
  intros id pre kids K L. apply fits_eq. split; [|exact K]. unfold csize, new_box. cbn [a_ext a_pre a_kids].
  unfold a_content. cbn [a_pre a_kids]. set (n := blen _) in *. clearbody n.
  assert (2 ^ 64 = 2 * 2 ^ 63) as E by reflexivity. assert (32 < 2 ^ 63) by reflexivity.
  destruct (N.leb_spec (2 ^ 32) (n + 8)); lia.
Qed.

Lemma new_udta_fits : forall items, items_fit items -> blen (render (new_udta items)) < 2 ^ 62 -> fits (new_udta items) = true.
Proof.
  intros items F L. unfold new_udta, new_meta, new_ilst in *.
  rewrite render_new_box, !blen_app in L. cbn [render_all flat_map] in L. rewrite app_nil_r, render_new_box, !blen_app in L.
  cbn [render_all flat_map] in L. rewrite !app_nil_r, blen_app, render_new_box, !blen_app in L.
  assert (E : 2 ^ 63 = 2 * 2 ^ 62) by reflexivity.
  apply new_box_fits.
  - cbn [forallb]. rewrite andb_true_r. apply new_box_fits.
    + cbn [forallb]. change (fits new_hdlr) with true. rewrite andb_true_r. cbn [andb]. apply new_box_fits; [exact F|].
      cbn [app]. lia.
    + cbn [render_all flat_map]. rewrite !app_nil_r, !blen_app, render_new_box, !blen_app. lia.
  - cbn [render_all flat_map app]. rewrite !app_nil_r, render_new_box, !blen_app. cbn [render_all flat_map].
    rewrite !app_nil_r, !blen_app, render_new_box, !blen_app. lia.
Qed.

Lemma dump_sizes : forall items, items_fit items -> blen (render_all (dump_file items)) < 2 ^ 62 -> good_sizes (dump_file items).
Proof.
  intros items F L. split; [|exact L]. unfold dump_file in *. rewrite !render_all_cons, !blen_app in L.
  cbn [render_all flat_map] in L. rewrite render_new_box, !blen_app in L.
  cbn [render_all flat_map] in L. rewrite !app_nil_r in L.
  assert (E : 2 ^ 63 = 2 * 2 ^ 62) by reflexivity.
  cbn [forallb]. apply andb_true_intro. split; [vm_compute; reflexivity|]. rewrite andb_true_r.
  apply new_box_fits; [cbn [forallb]; rewrite andb_true_r; apply new_udta_fits; [exact F|lia]|].
  cbn [render_all flat_map app]. rewrite app_nil_r. lia.
Qed.

Lemma dump_describes : forall items, describable items ->
  describes (dump_file items) (Tag dump_ftyp (AudioInfo None None None None None) items).
Proof.
  intros items D. exists (Atom false (id4 "ftyp") (enc8 dump_ftyp) []), [], (new_box (id4 "moov") [] [new_udta items]), [].
  split; [reflexivity|]. do 5 (split; [vm_compute; reflexivity|]).
  split; [reflexivity|]. exists None, [], (Some (Some items)).
  split; [exists []; split; [constructor|reflexivity]|]. split; [constructor|].
  split; [|split; reflexivity]. exists [Some items]. split; [|reflexivity].
  unfold named_kids. cbn [new_box a_kids filter]. change (is_named (id4 "udta") (new_udta items)) with true. cbv iota.
  constructor; [apply new_udta_means, D|constructor].
Qed.

Theorem dump_read : forall m m' items fuel, storable items -> items_fit items ->
  blen (out (dump_tag_to m items)) < 2 ^ 62 -> blen (out (dump_tag_to m items)) < N.of_nat fuel ->
  snd (dump_tag_to m items) = Ok tt /\
  read_tag fuel m' (out (dump_tag_to m items)) = Ok (Tag dump_ftyp (AudioInfo None None None None None) items).
Proof.
  intros m m' items fuel S F L Fu. destruct (dump_bytes m items (storable_exact _ S) F) as [E X]. split; [exact X|].
  rewrite E in *. unfold read_tag.
  edestruct read_described as (q & ->); [apply dump_sizes; eassumption|apply dump_describes, storable_describable, S|exact Fu|].
  reflexivity.
Qed.

(** ** UTF-16 *)

(** If the announced length of [items] is the length of the atoms for [js], and what is written for
    [items] starts with these atoms, then the same holds for the file. *)
Lemma dump_tail : forall m items js g,
  blen (render_all (map item_atom js)) = nsum (map ad_len items) ->
  writes (omap (ad_write m) items) (render_all (map item_atom js) ++ g) ->
  writes (dump_tag_to m items) (render_all (dump_file js) ++ g).
Proof.
  intros m items js g E W.
  assert (I1 : sz_len (ilst_size items) = asize (new_ilst js)) by (apply new_box_size; symmetry; exact E).
  assert (I2 : writes (ilst_write m items) (render (new_ilst js) ++ g)).
  { unfold ilst_write, new_ilst, ilst_size. rewrite render_new_box, <- app_assoc. cbn [app].
    apply writes_bind; [rewrite <- E; apply new_box_head; reflexivity|exact W]. }
  assert (M0 : hdlr_len_or_zero (Some meta_hdlr) + sz_len (ilst_size items) + 4 = blen (zeros 4 ++ render_all [new_hdlr; new_ilst js])).
  { cbn [hdlr_len_or_zero]. rewrite hdlr_size_eq, I1.
    rewrite blen_app, blen_zeros, !blen_render_all_cons. change (render_all []) with (@nil byte). rewrite blen_nil. lia. }
  assert (M1 : sz_len (meta_size (NewMeta (Some meta_hdlr) items)) = asize (new_meta js)) by (apply new_box_size; exact M0).
  assert (M2 : writes (meta_write m (NewMeta (Some meta_hdlr) items)) (render (new_meta js) ++ g)).
  { unfold meta_write, meta_size, new_meta. rewrite render_new_box. cbn [nm_hdlr nm_ilst].
    rewrite M0, <- !app_assoc. apply writes_bind; [apply new_box_head; reflexivity|].
    apply writes_bind; [eapply writes_eq; [apply writes_bind; apply writes_emit|reflexivity]|].
    rewrite render_all_cons, <- app_assoc. apply writes_bind; [apply hdlr_write_bytes|].
    rewrite render_all_cons. cbn [render_all flat_map]. rewrite app_nil_r. exact I2. }
  assert (U1 : sz_len (udta_size (NewMeta (Some meta_hdlr) items)) = asize (new_udta js)).
  { apply new_box_size. rewrite M1. apply one_kid. }
  assert (U2 : writes (udta_write m (NewMeta (Some meta_hdlr) items)) (render (new_udta js) ++ g)).
  { unfold udta_write, udta_size, new_udta. rewrite render_new_box, M1, (one_kid (new_meta js)), <- !app_assoc.
    apply writes_bind; [apply new_box_head; reflexivity|].
    cbn [app render_all flat_map]. rewrite app_nil_r. exact M2. }
  unfold dump_tag_to, dump_file. rewrite render_all_cons, <- app_assoc. apply writes_bind.
  - split; vm_compute; reflexivity.
  - cbn [render_all flat_map]. rewrite app_nil_r. unfold moov_write, moov_size. rewrite render_new_box, U1.
    rewrite (one_kid (new_udta js)), <- !app_assoc.
    apply writes_bind; [apply new_box_head; reflexivity|]. cbn [app render_all flat_map]. rewrite app_nil_r. exact U2.
Qed.

Lemma enc16_app : forall a b, enc16 (a ++ b) = enc16 a ++ enc16 b.
Proof. intros a b. unfold enc16. rewrite map_app. apply concat_app. Qed.

Definition one16 (id : fourcc) (s : ustring) : list atom_data := [AtomData (IFourcc id) [DUtf16 s]].

(** Dumping one item with one UTF-16 value whose second half has as many code units as the first. *)
Lemma dump_half : forall m id a b, blen (enc16 a) = blen (enc16 b) -> 2 * blen (enc16 a) < 2 ^ 31 ->
  writes (dump_tag_to m (one16 id (a ++ b))) (render_all (dump_file (one16 id a)) ++ payload (DUtf16 b)).
Proof.
  intros m id a b E L.
  assert (Pl : forall x, blen (payload (DUtf16 x)) = 2 * blen (enc16 x)).
  { intro x. rewrite payload_len. cbn [data_len units]. lia. }
  assert (DL : data_len (DUtf16 (a ++ b)) = 2 * blen (enc16 a)) by (cbn [data_len]; rewrite enc16_app, blen_app; lia).
  assert (IL : ad_len (AtomData (IFourcc id) [DUtf16 (a ++ b)]) = 24 + 2 * blen (enc16 a)).
  { unfold ad_len. cbn [ad_ident ad_data map nsum fold_right]. rewrite DL. lia. }
  set (body := n2b 0 :: be 3 (type_code (DUtf16 a)) ++ zeros 4 ++ payload (DUtf16 a)).
  assert (BL : blen body = 8 + 2 * blen (enc16 a)).
  { unfold body. rewrite blen_cons, !blen_app, blen_be, Pl. change (blen (zeros 4)) with 4. lia. }
  assert (RD : render (data_atom (DUtf16 a)) = be 4 (16 + 2 * blen (enc16 a)) ++ fc_bytes DATA ++ body).
  { unfold data_atom. cbn [render flat_map]. fold body. rewrite app_nil_r, BL. unfold header. rewrite <- app_assoc. do 2 f_equal. lia. }
  assert (RJ : render_all (map item_atom (one16 id a)) =
    be 4 (24 + 2 * blen (enc16 a)) ++ fc_bytes id ++ be 4 (16 + 2 * blen (enc16 a)) ++ fc_bytes DATA ++ body).
  { unfold one16, item_atom, render_all. cbn [map ad_ident ad_data flat_map render]. rewrite !app_nil_r. cbn [app].
    rewrite RD. unfold header. rewrite !blen_app, !blen_be, !blen_fc, BL, <- !app_assoc. do 2 f_equal. lia. }
  apply dump_tail.
  - rewrite RJ, !blen_app, !blen_be, !blen_fc, BL. cbn [one16 map nsum fold_right]. rewrite IL. lia.
  - eapply writes_eq; [apply (writes_omap (ad_write m) raw_item)|].
    + intros x [<-|[]]. apply ad_write_raw. rewrite IL. change (2 ^ 32) with 4294967296. change (2 ^ 31) with 2147483648 in L. lia.
    + rewrite RJ. unfold one16. cbn [flat_map]. rewrite app_nil_r. unfold raw_item. rewrite IL. cbn [ad_ident ad_data flat_map].
      unfold raw_data. rewrite DL, app_nil_r. unfold body. cbn [payload type_code]. rewrite enc16_app, flat_map_app, <- !app_assoc.
      cbn [app]. rewrite <- !app_assoc. reflexivity.
Qed.

Lemma dump_file_sizes16 : forall id a, 2 * blen (enc16 a) < 2 ^ 31 -> blen (render_all (dump_file (one16 id a))) < 2 ^ 62 ->
  good_sizes (dump_file (one16 id a)).
Proof.
  intros id a L S. apply dump_sizes; [|exact S].
  assert (Pl : blen (payload (DUtf16 a)) = 2 * blen (enc16 a)) by (rewrite payload_len; cbn [data_len units]; lia).
  unfold items_fit, one16, item_atom. cbn [map ad_ident ad_data forallb fits data_atom]. rewrite !andb_true_r.
  cbn [flat_map app]. unfold data_atom. cbn [render flat_map]. unfold header.
  repeat rewrite ?app_nil_r, ?blen_app, ?blen_be, ?blen_cons, ?blen_fc, ?Pl, ?blen_nil. change (blen (zeros 4)) with 4.
  change (2 ^ 32) with 4294967296. change (2 ^ 31) with 2147483648 in L. lia.
Qed.

Theorem dump_half_read : forall m m' id a b fuel, wf_ustr a = true -> id <> id4 "free" ->
  blen (enc16 a) = blen (enc16 b) -> 2 * blen (enc16 a) < 2 ^ 31 ->
  blen (out (dump_tag_to m (one16 id (a ++ b)))) < 2 ^ 62 ->
  blen (out (dump_tag_to m (one16 id (a ++ b)))) < N.of_nat fuel ->
  snd (dump_tag_to m (one16 id (a ++ b))) = Ok tt /\
  read_tag fuel m' (out (dump_tag_to m (one16 id (a ++ b)))) =
    Ok (Tag dump_ftyp (AudioInfo None None None None None) (one16 id a)).
Proof.
  intros m m' id a b fuel W Hid E L S Fu. destruct (dump_half m id a b E L) as [O R]. split; [exact R|].
  rewrite O in *. rewrite blen_app in S, Fu. unfold read_tag.
  edestruct read_described_tail as (q & ->); [apply dump_file_sizes16; [exact L|lia]|apply dump_describes| | |reflexivity].
  - split; [repeat constructor; intros []|]. repeat constructor; try discriminate; assumption.
  - rewrite blen_app. exact S.
  - lia.
Qed.

(** ** Announced lengths *)

Lemma head_field : forall x (k : unit -> Out unit) b, (List.length x = 4)%nat -> firstn 4 (out (obind (emit x) k) ++ b) = x.
Proof.
  intros x k b L. unfold obind, emit, out. cbn [snd fst]. destruct (k tt) as [l r]. cbn [fst]. cbn [List.concat].
  change (List.concat ([x] ++ l)) with (x ++ List.concat l).
  rewrite <- app_assoc, <- L, firstn_app, firstn_all, Nat.sub_diag. apply app_nil_r.
Qed.
Lemma ad_write_field : forall m a, field (out (ad_write m a)) 0 4 = ad_len a mod 2 ^ 32.
Proof.
  intros m a. unfold field, slice. change (N.to_nat 0) with 0%nat. change (N.to_nat 4) with 4%nat. cbn [skipn].
  rewrite <- (app_nil_r (out _)). unfold ad_write. rewrite head_field by reflexivity.
  unfold be32, as_u32. rewrite unbe_be; [reflexivity|]. apply N.mod_lt. discriminate.
Qed.
