(** Theorems about [Tag::dump_to] and the bytes written for items: C10 - C12 (see properties.jsonl). *)

From Coq Require Import List NArith ZArith Bool Lia Arith String.
From Coq Require Import ZifyBool ZifyNat ZifyN.
From Verif Require Import Base BaseLemmas Utf UtfLemmas Types Stream Parse Find Write TagSpec FileSpec ParseLemmas ReadProofs
  ExampleFile ReadFacts WriteBytes NewMeans DumpProofs.
Import ListNotations.
Local Open Scope list_scope.

(** * C10: a dumped tag is read back unchanged *)

(** [m] is the profile of the writer and [m'] that of the reader. *)
Theorem C10_dump_read : forall m m' items fuel,
  storable items -> items_fit items ->
  let f := out (dump_tag_to m items) in
  blen f < 2 ^ 62 -> blen f < N.of_nat fuel ->
  snd (dump_tag_to m items) = Ok tt /\
  read_tag fuel m' f =
    Ok (Tag (map b2n (list_byte_of_string "M4A " ++ map n2b [0; 0; 2; 0] ++ list_byte_of_string "isomiso2"))
            (AudioInfo None None None None None) items).
Proof. exact dump_read. Qed.
Print Assumptions C10_dump_read.

Lemma ex_items_storable : storable ex_items.
Proof.
  split; [repeat constructor; cbn; intuition discriminate|].
  repeat constructor; try discriminate.
Qed.
Example C10_example :
  storable ex_items /\ items_fit ex_items /\
  read_tag 1000 Wrapping (out (dump_tag_to Checked ex_items)) = Ok (Tag dump_ftyp (AudioInfo None None None None None) ex_items).
Proof. split; [exact ex_items_storable|]. split; vm_compute; reflexivity. Qed.

(** * C11: announced lengths *)

(** An item smaller than 4 GiB without UTF-16 text: [len()], the size field and the number of bytes
    written agree. *)
Theorem C11_items_partial : forall m a,
  Forall (fun d => forall s, d = DUtf16 s -> s = []) (ad_data a) -> ad_len a < 2 ^ 32 ->
  snd (ad_write m a) = Ok tt /\ blen (out (ad_write m a)) = ad_len a /\ field (out (ad_write m a)) 0 4 = ad_len a.
Proof.
  intros m a E L. destruct (ad_write_raw m a L) as [O R]. split; [exact R|]. split.
  - rewrite O, raw_item_len. rewrite nsum_0; [lia|].
    eapply Forall_impl; [|exact E]. intros d H. destruct d; try reflexivity. rewrite (H _ eq_refl). reflexivity.
  - rewrite ad_write_field. apply N.mod_small, L.
Qed.
Print Assumptions C11_items_partial.

(** The containers: the number of bytes written is the announced size. *)
Theorem C11_containers_partial : forall m items, storable items -> items_fit items ->
  blen (out (ilst_write m items)) = sz_len (ilst_size items) /\
  (forall h, h = Some meta_hdlr ->
   blen (out (meta_write m (NewMeta h items))) = sz_len (meta_size (NewMeta h items)) /\
   blen (out (udta_write m (NewMeta h items))) = sz_len (udta_size (NewMeta h items)) /\
   blen (out (moov_write m (NewMeta h items))) = sz_len (moov_size (NewMeta h items))) /\
  blen (out (hdlr_write meta_hdlr)) = sz_len (hdlr_size meta_hdlr).
Proof.
  intros m items S F. pose proof (storable_exact _ S) as E. split; [|split; [|reflexivity]].
  - rewrite (proj1 (ilst_write_bytes m items E F)), ilst_size_eq by exact E. reflexivity.
  - intros h ->. split; [|split].
    + rewrite (proj1 (meta_write_bytes m items E F)), meta_size_eq by exact E. reflexivity.
    + rewrite (proj1 (udta_write_bytes m items E F)), udta_size_eq by exact E. reflexivity.
    + assert (W : writes (moov_write m (NewMeta (Some meta_hdlr) items)) (render (new_box (id4 "moov") [] [FileSpec.new_udta items]))).
      { unfold moov_write, moov_size. rewrite render_new_box, udta_size_eq by exact E. rewrite (one_kid (FileSpec.new_udta items)).
        apply writes_bind; [apply new_box_head; reflexivity|]. cbn [app render_all flat_map]. rewrite app_nil_r.
        apply udta_write_bytes; assumption. }
      rewrite (proj1 W). unfold moov_size. rewrite udta_size_eq by exact E. rewrite (one_kid (FileSpec.new_udta items)).
      symmetry. apply new_box_size. reflexivity.
Qed.
Print Assumptions C11_containers_partial.

(** With UTF-16 text, more is written than announced: one byte per code unit. *)
Theorem C11_utf16_refuted : forall m a, ad_len a < 2 ^ 32 ->
  blen (out (ad_write m a)) =
  ad_len a + nsum (map (fun d => match d with DUtf16 s => blen (enc16 s) | _ => 0 end) (ad_data a)).
Proof. intros m a L. rewrite (proj1 (ad_write_raw m a L)). apply raw_item_len. Qed.
Print Assumptions C11_utf16_refuted.

(** The size field of an item of at least 4 GiB is truncated to 32 bits. *)
Theorem C11_large_refuted : forall m a, 2 ^ 32 <= ad_len a ->
  field (out (ad_write m a)) 0 4 = ad_len a mod 2 ^ 32 /\ field (out (ad_write m a)) 0 4 <> ad_len a.
Proof.
  intros m a L. rewrite ad_write_field. split; [reflexivity|]. pose proof (N.mod_lt (ad_len a) (2 ^ 32)). lia.
Qed.
Print Assumptions C11_large_refuted.

Example C11_example :
  (let a := AtomData (IFreeform (str "com") (str "x")) [DUtf8 (str "abc"); DPng (raw [1; 2])] in
   ad_len a < 2 ^ 32 /\ blen (out (ad_write Checked a)) = 73) /\
  (let a := AtomData (IFourcc TITLE) [DUtf16 (str "abc")] in
   ad_len a = 27 /\ field (out (ad_write Checked a)) 0 4 = 27 /\ blen (out (ad_write Checked a)) = 30) /\
  2 ^ 32 <= ad_len (AtomData (IFourcc TITLE) [DReserved (zeros (2 ^ 32))]).
Proof.
  split; [repeat split; vm_compute; reflexivity|]. split; [repeat split; vm_compute; reflexivity|].
  unfold ad_len. cbn [ad_ident ad_data map nsum fold_right data_len]. rewrite blen_zeros. lia.
Qed.

(** * C12: UTF-16 values survive a write/read cycle *)

(** False: of a text whose two halves have the same number of code units, only the first half is read
    back. *)
Theorem C12_utf16_refuted : forall m m' id a b fuel,
  wf_ustr a = true -> id <> id4 "free" -> blen (enc16 a) = blen (enc16 b) -> 2 * blen (enc16 a) < 2 ^ 31 ->
  let f := out (dump_tag_to m [AtomData (IFourcc id) [DUtf16 (a ++ b)]]) in
  blen f < 2 ^ 62 -> blen f < N.of_nat fuel ->
  snd (dump_tag_to m [AtomData (IFourcc id) [DUtf16 (a ++ b)]]) = Ok tt /\
  read_tag fuel m' f = Ok (Tag dump_ftyp (AudioInfo None None None None None) [AtomData (IFourcc id) [DUtf16 a]]).
Proof. exact dump_half_read. Qed.
Print Assumptions C12_utf16_refuted.
Example C12_example :
  let f := out (dump_tag_to Checked [AtomData (IFourcc TITLE) [DUtf16 (str "ab" ++ str "cd")]]) in
  blen (enc16 (str "ab")) = blen (enc16 (str "cd")) /\
  read_tag 1000 Checked f = Ok (Tag dump_ftyp (AudioInfo None None None None None) [AtomData (IFourcc TITLE) [DUtf16 (str "ab")]]).
Proof. split; vm_compute; reflexivity. Qed.
(** True for empty texts. *)
Theorem C12_empty_partial : forall m m' items fuel,
  storable items -> (exists a, In a items /\ In (DUtf16 []) (ad_data a)) -> items_fit items ->
  let f := out (dump_tag_to m items) in
  blen f < 2 ^ 62 -> blen f < N.of_nat fuel ->
  read_tag fuel m' f = Ok (Tag dump_ftyp (AudioInfo None None None None None) items).
Proof. intros m m' items fuel S _ F f L Fu. exact (proj2 (dump_read m m' items fuel S F L Fu)). Qed.
Print Assumptions C12_empty_partial.
Example C12_empty_example : storable [AtomData (IFourcc TITLE) [DUtf16 []; DUtf8 (str "x")]].
Proof. split; [repeat constructor; intros []|]. repeat constructor; try discriminate. Qed.
