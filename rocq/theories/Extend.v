(** What reading a file that goes on after its end does: every step of the read path gives the
    same result on a longer file, unless it ran into the end. *)

From Coq Require Import List NArith ZArith Bool Lia ZifyBool ZifyNat ZifyN.
From Verif Require Import Base BaseLemmas Utf Types Stream Parse OffsetProofs ReadMore.
Import ListNotations.

Definition stable {A} (x : R A) : Prop :=
  forall g h p, x g p <> Err EIoEof -> x (g ++ h) p = x g p.

Lemma st_ret : forall {A} (a : A), stable (ret a).
Proof. intros A a g h p H. reflexivity. Qed.
Lemma st_fail : forall {A} e, stable (@fail A e).
Proof. intros A a g h p H. reflexivity. Qed.
Lemma st_lift : forall {A} (r : res A), stable (lift r).
Proof. intros A r g h p H. reflexivity. Qed.
Lemma st_fuel : forall {A}, stable (@outOfFuel A).
Proof. intros A g h p H. reflexivity. Qed.
Lemma st_pos : stable position.
Proof. intros g h p H. reflexivity. Qed.
Lemma st_seek : forall d, stable (seek_cur d).
Proof. intros d g h p H. reflexivity. Qed.
Lemma st_bind : forall {A B} (x : R A) (k : A -> R B), stable x -> (forall a, stable (k a)) -> stable (bind x k).
Proof.
  intros A B x k Sx Sk g h p H. unfold bind in *.
  assert (D : x g p <> Err EIoEof) by (intros E; rewrite E in H; contradiction).
  rewrite (Sx g h p D). destruct (x g p) as [[a q]|e|q|]; try reflexivity. apply Sk. exact H.
Qed.
Lemma st_exact : forall n, stable (read_exact n).
Proof.
  intros n g h p H. unfold read_exact in *. destruct (n =? 0) eqn:Z; [reflexivity|].
  destruct (p + n <=? blen g) eqn:L; [|contradiction].
  rewrite blen_app. replace (p + n <=? blen g + blen h) with true by lia.
  rewrite slice_app_l by lia. reflexivity.
Qed.

Create HintDb st.
#[export] Hint Resolve st_ret st_fail st_lift st_fuel st_pos st_seek st_exact : st.

(** Follows the shape of the definition. *)
Ltac st_go :=
  repeat first
    [ solve [auto with st]
    | apply st_bind; [|intros ?]
    | match goal with
      | |- stable (match ?x with _ => _ end) => destruct x
      | |- stable (let '(_, _) := ?x in _) => destruct x
      | |- stable (if ?b then _ else _) => destruct b
      end ].

Lemma st_u8 : stable read_u8. Proof. unfold read_u8. st_go. Qed.
Lemma st_u16 : stable read_u16. Proof. unfold read_u16. st_go. Qed.
Lemma st_u32 : stable read_u32. Proof. unfold read_u32. st_go. Qed.
Lemma st_u64 : stable read_u64. Proof. unfold read_u64. st_go. Qed.
Lemma st_vec : forall n, stable (read_u8_vec n). Proof. intros n. unfold read_u8_vec. st_go. Qed.
#[export] Hint Resolve st_u8 st_u16 st_u32 st_u64 st_vec : st.
Lemma st_utf8 : forall n, stable (read_utf8 n). Proof. intros n. unfold read_utf8. st_go. Qed.
Lemma st_utf16 : forall n, stable (read_utf16 n). Proof. intros n. unfold read_utf16. st_go. Qed.
Lemma st_head : stable parse_head. Proof. unfold parse_head. cbv zeta. st_go. Qed.
Lemma st_full : stable parse_full_head. Proof. unfold parse_full_head. st_go. Qed.
#[export] Hint Resolve st_utf8 st_utf16 st_head st_full : st.
Lemma st_bounds : forall m s, stable (find_bounds m s). Proof. intros m s. unfold find_bounds. st_go. Qed.
Lemma st_to_end : forall m s, stable (seek_to_end m s). Proof. intros m s. unfold seek_to_end. st_go. Qed.
Lemma st_skip : forall m s, stable (skip_atom m s). Proof. intros m s. unfold skip_atom. st_go. Qed.
#[export] Hint Resolve st_bounds st_to_end st_skip : st.

Lemma st_loop : forall {S} m limit (body : head -> S -> R S), (forall h s, stable (body h s)) ->
  forall fuel parsed s, stable (atom_loop fuel m limit body parsed s).
Proof.
  intros S m limit body B. induction fuel as [|fuel IH]; intros parsed s; cbn [atom_loop]; st_go.
Qed.
Lemma st_desc_len : forall k hl len, stable (desc_len_loop k hl len).
Proof. induction k as [|k IH]; intros hl len; cbn [desc_len_loop]; cbv zeta; st_go. Qed.
Lemma st_desc_head : stable parse_desc_head.
Proof. unfold parse_desc_head. apply st_bind; [auto with st|]. intros t. apply st_bind; [apply st_desc_len|]. intros hl. st_go. Qed.
#[export] Hint Resolve st_desc_head : st.
Lemma st_descs : forall {S} m len (body : N -> N -> S -> R S), (forall t d s, stable (body t d s)) ->
  forall fuel parsed s, stable (desc_loop fuel m len body parsed s).
Proof.
  intros S m len body B. induction fuel as [|fuel IH]; intros parsed s; cbn [desc_loop]; st_go.
Qed.

Lemma st_data : forall t n, stable (data_parse t n).
Proof. intros t n. unfold data_parse. st_go. Qed.
#[export] Hint Resolve st_data : st.
Lemma st_item_body : forall m h a, stable (item_body m h a).
Proof. intros m h a. unfold item_body. cbv zeta. st_go. Qed.
Lemma st_item : forall fuel m id len, stable (atom_data_parse fuel m id len).
Proof. intros. unfold atom_data_parse. apply st_bind; [apply st_loop; apply st_item_body|]. intros a. st_go. Qed.
#[export] Hint Resolve st_item : st.
Lemma st_ilst : forall fuel m s, stable (ilst_parse fuel m s).
Proof. intros. unfold ilst_parse. apply st_loop. intros h l. unfold ilst_body. st_go. Qed.
#[export] Hint Resolve st_ilst : st.
Lemma st_meta : forall fuel m s, stable (meta_parse fuel m s).
Proof. intros. unfold meta_parse. st_go. apply st_loop. intros h l. unfold meta_body. st_go. Qed.
#[export] Hint Resolve st_meta : st.
Lemma st_udta : forall fuel m s, stable (udta_parse fuel m s).
Proof. intros. unfold udta_parse. apply st_loop. intros h l. unfold udta_body. st_go. Qed.
#[export] Hint Resolve st_udta : st.

Lemma st_ds : forall m i n, stable (parse_ds_desc m i n).
Proof. intros. unfold parse_ds_desc. cbv zeta. st_go. Qed.
#[export] Hint Resolve st_ds : st.
Lemma st_dc : forall fuel m i n, stable (parse_dc_desc fuel m i n).
Proof. intros. unfold parse_dc_desc. st_go. apply st_descs. intros t d s. unfold dc_body. st_go. Qed.
#[export] Hint Resolve st_dc : st.
Lemma st_es : forall fuel m i n, stable (parse_es_desc fuel m i n).
Proof. intros. unfold parse_es_desc. st_go. apply st_descs. intros t d s. unfold es_body. st_go. Qed.
#[export] Hint Resolve st_es : st.
Lemma st_esds : forall fuel m i s, stable (parse_esds fuel m i s).
Proof. intros. unfold parse_esds. st_go. Qed.
#[export] Hint Resolve st_esds : st.
Lemma st_mp4a : forall fuel m s, stable (mp4a_parse fuel m s).
Proof. intros. unfold mp4a_parse. st_go. Qed.
#[export] Hint Resolve st_mp4a : st.
Lemma st_stsd : forall fuel m s, stable (stsd_parse fuel m s).
Proof. intros. unfold stsd_parse. st_go. apply st_loop. intros h r. unfold stsd_body. st_go. Qed.
#[export] Hint Resolve st_stsd : st.
Lemma st_stbl : forall fuel m s, stable (stbl_parse fuel m s).
Proof. intros. unfold stbl_parse. apply st_loop. intros h r. unfold stbl_body. st_go. Qed.
#[export] Hint Resolve st_stbl : st.
Lemma st_minf : forall fuel m s, stable (minf_parse fuel m s).
Proof. intros. unfold minf_parse. apply st_loop. intros h r. unfold minf_body. st_go. Qed.
#[export] Hint Resolve st_minf : st.
Lemma st_mdia : forall fuel m s, stable (mdia_parse fuel m s).
Proof. intros. unfold mdia_parse. apply st_loop. intros h r. unfold mdia_body. st_go. Qed.
#[export] Hint Resolve st_mdia : st.
Lemma st_trak : forall fuel m s, stable (trak_parse fuel m s).
Proof. intros. unfold trak_parse. apply st_loop. intros h r. unfold trak_body. st_go. Qed.
#[export] Hint Resolve st_trak : st.
Lemma st_mvhd : forall m s, stable (mvhd_parse m s).
Proof. intros. unfold mvhd_parse. st_go. Qed.
#[export] Hint Resolve st_mvhd : st.
Lemma st_moov : forall fuel m s, stable (moov_parse fuel m s).
Proof. intros. unfold moov_parse. apply st_loop. intros h r. unfold moov_body. cbv zeta. st_go. Qed.
#[export] Hint Resolve st_moov : st.
Lemma st_ftyp : forall m, stable (ftyp_parse m).
Proof. intros m. unfold ftyp_parse. st_go. Qed.

Lemma find_moov_longer : forall inner m fuel g h len len' parsed p, len <= len' ->
  find_moov fuel m inner len parsed g p <> Err EIoEof ->
  find_moov fuel m inner len parsed g p <> Err (EAtomNotFound MOVIE) ->
  find_moov fuel m inner len' parsed (g ++ h) p = find_moov fuel m inner len parsed g p.
Proof.
  intros inner m. induction fuel as [|fuel IH]; intros g h len len' parsed p L NE NM; cbn [find_moov] in *; [reflexivity|].
  destruct (len <=? parsed) eqn:C; [contradiction|].
  replace (len' <=? parsed) with false by lia.
  unfold bind in *. pose proof (st_head g h p) as SH. destruct (parse_head g p) as [[hd q]|e|pp|] eqn:E; [|rewrite SH; congruence..].
  rewrite SH by discriminate. destruct (fourcc_eqb (hd_fourcc hd) MOVIE); [apply st_moov; exact NE|].
  pose proof (st_skip m hd g h q) as SS. destruct (skip_atom m hd g q) as [[u q']|e|pp|] eqn:E2; [|rewrite SS; congruence..].
  rewrite SS by discriminate. unfold lift in *. destruct (add64 m parsed (sz_len (hd_size hd))) as [pa|e|pp|]; try reflexivity.
  apply IH; assumption.
Qed.

Lemma read_longer : forall fuel m g h,
  read_tag fuel m g <> Err EIoEof -> read_tag fuel m g <> Err (EAtomNotFound MOVIE) ->
  read_tag fuel m (g ++ h) = read_tag fuel m g.
Proof.
  intros fuel m g h NE NM. unfold read_tag, read_tag_from, bind in *.
  pose proof (st_ftyp m g h 0) as SF. destruct (ftyp_parse m g 0) as [[t q]|e|pp|] eqn:E; [|rewrite SF; congruence..].
  rewrite SF by discriminate.
  assert (I : q <= blen g) by (eapply ftyp_inside; [exact E|apply N.le_0_l]).
  unfold remaining_stream_len, bind, position, seek_end, lift in *.
  assert (I' : q <= blen (g ++ h)) by (rewrite blen_app; lia).
  rewrite (sub64_ok m (blen g) q I) in *. rewrite (sub64_ok m (blen (g ++ h)) q I').
  unfold seek_start in *. destruct (q <? two63); [|reflexivity].
  unfold ret in *.
  assert (L : blen g - q <= blen (g ++ h) - q) by (rewrite blen_app; lia).
  pose proof (find_moov_longer fuel m fuel g h _ _ 0 q L) as F.
  destruct (find_moov fuel m fuel (blen g - q) 0 g q) as [[r q']|e|pp|]; rewrite F; congruence.
Qed.
