(** With overflow checks, reading seeks backwards only if it meets a 64-bit size of 2^63 or more. *)

From Coq Require Import List NArith ZArith Bool Lia Arith.
From Coq Require Import ZifyBool ZifyNat ZifyN.
From Verif Require Import Base BaseLemmas Utf UtfLemmas Types Stream Parse Find Write TagSpec FileSpec ParseLemmas ReadProofs ReadMore ReadSpec ReadFacts ReadBad ReadErr ReadTerm.
From Verif Require Import Fault ReadIO IoProofs IoCost.
Import ListNotations.

Section Forward.
  Context (f : bytes) (Sm : blen f < 2 ^ 62)
          (NH : forall p, field f p 4 = 1 -> p + 16 <= blen f -> field f (p + 8) 8 < 2 ^ 63).

  Definition fwd {A} (x : IO A) (p : N) : Prop :=
    forallb ahead (asked x f p) = true /\
    match run x f p with Ok (_, q) => p <= q /\ q < two63 | _ => True end.

  Lemma fwd_bind : forall {A B} (x : IO A) (k : A -> IO B) p, fwd x p ->
    (forall a q, run x f p = Ok (a, q) -> p <= q -> q < two63 -> fwd (k a) q) -> fwd (io_bind x k) p.
  Proof.
    intros A B x k p [H1 H2] K. unfold fwd. rewrite run_bind, asked_bind, forallb_app, H1.
    destruct (run x f p) as [[a q]| | |]; auto. destruct H2 as [H2 H3]. destruct (K a q eq_refl H2 H3) as [K1 K2].
    split; [exact K1|]. destruct (run (k a) f q) as [[b q']| | |]; auto. lia.
  Qed.
  Lemma fwd_stop : forall {A} (r : res A) p, p < two63 -> fwd (Stop r) p.
  Proof. intros A r p L. split; [reflexivity|]. destruct r; cbn; auto. lia. Qed.
  Lemma fwd_read : forall n p, p < two63 -> fwd (io_read_exact n) p.
  Proof.
    intros n p L. unfold fwd. cbn. unfold read_exact. destruct (N.eqb_spec n 0); [cbn; split; [reflexivity|lia]|].
    destruct (N.leb_spec (p + n) (blen f)); cbn; split; auto. unfold two63. lia.
  Qed.
  Lemma fwd_vec : forall n p, p < two63 -> fwd (io_read_u8_vec n) p.
  Proof.
    intros n p L. unfold fwd. cbn. destruct (two63 <=? n); [auto|]. unfold read_exact. destruct (N.eqb_spec n 0); [cbn; split; [reflexivity|lia]|].
    destruct (N.leb_spec (p + n) (blen f)); cbn; split; auto. unfold two63. lia.
  Qed.
  Lemma fwd_seek : forall d p, p < two63 -> (0 <= d)%Z -> fwd (io_seek_cur d) p.
  Proof.
    intros d p L D. unfold fwd. cbn. unfold seek_cur. rewrite (proj2 (Z.leb_le 0 d) D).
    destruct ((0 <=? Z.of_N p + d) && (Z.of_N p + d <? Z.of_N two63))%Z eqn:E; cbn; split; auto. apply andb_true_iff in E. lia.
  Qed.
  Lemma fwd_pos : forall p, p < two63 -> fwd io_position p.
  Proof. intros p L. unfold fwd. cbn. split; [reflexivity|lia]. Qed.
  Lemma fwd_if : forall {A} (b : bool) (x y : IO A) p, fwd x p -> fwd y p -> fwd (if b then x else y) p.
  Proof. intros A [] x y p; auto. Qed.

  Create HintDb fwd.
  Hint Resolve fwd_read fwd_vec fwd_pos : fwd.
  Ltac step :=
    match goal with
    | |- fwd (io_bind _ _) _ => apply fwd_bind; [|intros ? ? ? ? ?]
    | |- fwd (io_seek_cur _) _ => apply fwd_seek; [assumption|lia]
    | |- fwd (if ?b then _ else _) _ => apply fwd_if
    | |- fwd (match ?x with _ => _ end) _ => destruct x
    | |- fwd (io_ret _) _ => now apply fwd_stop
    | |- fwd (io_fail _) _ => now apply fwd_stop
    | |- fwd (io_lift _) _ => now apply fwd_stop
    | |- fwd _ _ => solve [eauto with fwd]
    end.
  Ltac fwds := repeat (cbv zeta; step).

  Lemma w_u8 : forall p, p < two63 -> fwd io_read_u8 p. Proof. intros. unfold io_read_u8. fwds. Qed.
  Lemma w_u16 : forall p, p < two63 -> fwd io_read_u16 p. Proof. intros. unfold io_read_u16. fwds. Qed.
  Lemma w_u32 : forall p, p < two63 -> fwd io_read_u32 p. Proof. intros. unfold io_read_u32. fwds. Qed.
  Lemma w_u64 : forall p, p < two63 -> fwd io_read_u64 p. Proof. intros. unfold io_read_u64. fwds. Qed.
  Lemma w_utf8 : forall n p, p < two63 -> fwd (io_read_utf8 n) p. Proof. intros. unfold io_read_utf8. fwds. Qed.
  Lemma w_utf16 : forall n p, p < two63 -> fwd (io_read_utf16 n) p. Proof. intros. unfold io_read_utf16. fwds. Qed.
  Hint Resolve w_u8 w_u16 w_u32 w_u64 w_utf8 w_utf16 : fwd.
  Lemma w_head : forall p, p < two63 -> fwd io_parse_head p. Proof. intros. unfold io_parse_head. fwds. Qed.
  Lemma w_full : forall p, p < two63 -> fwd io_parse_full_head p. Proof. intros. unfold io_parse_full_head. fwds. Qed.
  Lemma w_bounds : forall s p, p < two63 -> fwd (io_find_bounds Checked s) p. Proof. intros. unfold io_find_bounds. fwds. Qed.
  Lemma w_data : forall t n p, p < two63 -> fwd (io_data_parse t n) p. Proof. intros. unfold io_data_parse. fwds. Qed.
  Hint Resolve w_head w_full w_bounds w_data : fwd.

  Lemma bounds_at : forall s p b q, run (io_find_bounds Checked s) f p = Ok (b, q) -> q = p /\ b_pos b <= p /\ b_size b = s.
  Proof.
    intros s p b q. rewrite (is_bounds Checked s f p). unfold find_bounds, bind, position, lift, sub64.
    destruct (N.leb_spec (head_len s) p); [|discriminate]. intros H'. injection H' as <- <-. cbn. repeat split; lia.
  Qed.
  (** A head that was read from this file. *)
  Definition fine (s : size) : Prop := sz_len s < two63.
  Lemma head_fine : forall p h q, run io_parse_head f p = Ok (h, q) -> fine (hd_size h).
  Proof.
    intros p h q. rewrite (is_head f p). intros H. destruct (head_inv f p h q H) as (Q & L & _ & X). unfold fine, head_len in *.
    destruct (sz_ext (hd_size h)).
    - destruct X as [E ->]. apply NH; [exact E|lia].
    - destruct X as [-> E]. pose proof (field_lt f p 4 ltac:(lia)). change (256 ^ 4) with 4294967296 in *. unfold two63. lia.
  Qed.
  Lemma w_skip : forall h p, fine (hd_size h) -> p < two63 -> fwd (io_skip_atom Checked h) p.
  Proof.
    intros h p F L. unfold io_skip_atom. apply fwd_bind; [now apply fwd_stop|]. intros c q H _ Lq.
    apply fwd_seek; [exact Lq|]. cbn in H. unfold fine in F.
    assert (c < two63). { unfold content_len, sub64 in H. destruct (sz_ext (hd_size h)), (_ <=? _); try discriminate; injection H as <- _; lia. }
    rewrite as_i64_small by assumption. lia.
  Qed.
  Hint Resolve w_skip : fwd.
  Lemma w_to_end : forall b p, fine (b_size b) -> b_pos b <= p -> p < two63 -> fwd (io_seek_to_end Checked b) p.
  Proof.
    intros b p F B L. unfold io_seek_to_end. apply fwd_bind; [now apply fwd_pos|]. intros cur q H _ Lq.
    cbn in H. injection H as <- <-.
    apply fwd_bind; [now apply fwd_stop|]. intros e q H _ Lq'.
    cbn in H. unfold bounds_end, add64 in H. destruct (_ <? _); [|discriminate]. injection H as <- <-.
    apply fwd_bind; [now apply fwd_stop|]. intros d q H _ Lq2. cbn in H. unfold sub64 in H.
    destruct (N.leb_spec p (b_pos b + sz_len (b_size b))); [|discriminate]. injection H as <- <-.
    apply fwd_seek; [exact Lq2|]. unfold fine in F. rewrite as_i64_small by lia. lia.
  Qed.
  Lemma w_loop : forall {S} limit (body : head -> S -> IO S),
    (forall h s p, fine (hd_size h) -> p < two63 -> fwd (body h s) p) ->
    forall fuel parsed s p, p < two63 -> fwd (io_atom_loop fuel Checked limit body parsed s) p.
  Proof.
    intros S limit body H. induction fuel as [|fuel IH]; intros parsed s p L; cbn [io_atom_loop]; [now apply fwd_stop|].
    fwds. apply H; [eapply head_fine; eassumption|assumption].
  Qed.
  Lemma w_item : forall h a p, fine (hd_size h) -> p < two63 -> fwd (io_item_body Checked h a) p.
  Proof. intros. unfold io_item_body. fwds. Qed.
  Lemma w_atom_data : forall fuel i n p, p < two63 -> fwd (io_atom_data_parse fuel Checked i n) p.
  Proof. intros. unfold io_atom_data_parse. pose proof (w_loop (Ok n) _ w_item). fwds. Qed.
  Hint Resolve w_atom_data : fwd.
  Lemma w_ilst : forall fuel s p, p < two63 -> fwd (io_ilst_parse fuel Checked s) p.
  Proof. intros. apply w_loop; [|assumption]. intros. unfold io_ilst_body. fwds. Qed.
  Hint Resolve w_ilst : fwd.
  Lemma w_meta : forall fuel s p, p < two63 -> fwd (io_meta_parse fuel Checked s) p.
  Proof.
    intros. unfold io_meta_parse. step; [fwds|]. step; [fwds|]. apply w_loop; [|assumption]. intros. unfold io_meta_body. fwds.
  Qed.
  Hint Resolve w_meta : fwd.
  Lemma w_udta : forall fuel s p, p < two63 -> fwd (io_udta_parse fuel Checked s) p.
  Proof. intros. apply w_loop; [|assumption]. intros. unfold io_udta_body. fwds. Qed.
  Hint Resolve w_udta : fwd.
  Lemma w_desc_len : forall k hl len p, p < two63 -> fwd (io_desc_len_loop k hl len) p.
  Proof. induction k as [|k IH]; intros hl len p L; cbn [io_desc_len_loop]; fwds. Qed.
  Hint Resolve w_desc_len : fwd.
  Lemma w_desc_head : forall p, p < two63 -> fwd io_parse_desc_head p. Proof. intros. unfold io_parse_desc_head. fwds. Qed.
  Hint Resolve w_desc_head : fwd.
  Lemma desc_len_small : forall k hl len p r q, run (io_desc_len_loop k hl len) f p = Ok (r, q) -> snd r < (len + 1) * 128 ^ N.of_nat k.
  Proof.
    induction k as [|k IH]; intros hl len p r q; cbn [io_desc_len_loop].
    - intros H. cbn in H. injection H as <- _. cbn. change (128 ^ N.of_nat 0) with 1. lia.
    - rewrite run_bind. destruct (run io_read_u8 f p) as [[b q']| | |]; try discriminate. cbv zeta.
      assert (P : 128 ^ N.of_nat (S k) = 128 * 128 ^ N.of_nat k) by (rewrite Nat2N.inj_succ, N.pow_succ_r'; reflexivity).
      pose proof (N.mod_lt b 128 ltac:(lia)) as M. rewrite P.
      assert (1 <= 128 ^ N.of_nat k) by (pose proof (N.pow_nonzero 128 (N.of_nat k)); lia).
      destruct (b <? 128).
      + intros H'. cbn in H'. injection H' as <- _. cbn. nia.
      + intros H'. apply IH in H'. nia.
  Qed.
  Lemma desc_small : forall p t hl dl q, run io_parse_desc_head f p = Ok ((t, hl, dl), q) -> dl < 2 ^ 28.
  Proof.
    intros p t hl dl q. unfold io_parse_desc_head. rewrite run_bind. destruct (run io_read_u8 f p) as [[b q']| | |]; try discriminate.
    rewrite run_bind. destruct (run (io_desc_len_loop 4 1 0) f q') as [[r q2]| | |] eqn:E; try discriminate.
    intros H. cbn in H. injection H as _ _ <- _. apply desc_len_small in E. change (2 ^ 28) with ((0 + 1) * 128 ^ N.of_nat 4). exact E.
  Qed.
  Lemma w_desc_loop : forall {S} len (body : N -> N -> S -> IO S),
    (forall t dl s p, dl < 2 ^ 28 -> p < two63 -> fwd (body t dl s) p) ->
    forall fuel parsed s p, p < two63 -> fwd (io_desc_loop fuel Checked len body parsed s) p.
  Proof.
    intros S len body H. induction fuel as [|fuel IH]; intros parsed s p L; cbn [io_desc_loop]; [now apply fwd_stop|].
    apply fwd_if; [|now apply fwd_stop].
    apply fwd_bind; [now apply w_desc_head|]. intros [[t hl] dl] q1 Hh _ L1. apply desc_small in Hh.
    apply fwd_bind; [now apply H|]. intros s' q2 _ _ L2. fwds.
  Qed.
  Lemma w_dseek : forall dl p, dl < 2 ^ 28 -> p < two63 -> fwd (io_seek_cur (as_i64 dl)) p.
  Proof. intros dl p D L. apply fwd_seek; [exact L|]. rewrite as_i64_small by (unfold two63; lia). lia. Qed.
  Lemma w_dc_body : forall t dl i p, dl < 2 ^ 28 -> p < two63 -> fwd (io_dc_body Checked t dl i) p.
  Proof.
    intros t dl i p D L. unfold io_dc_body. apply fwd_if.
    - unfold io_parse_ds_desc. apply fwd_bind; [now apply w_u16|]. intros n q _ _ Lq. cbv zeta.
      apply fwd_bind; [now apply fwd_stop|]. intros d q1 H _ L1.
      assert (d < 2 ^ 28). { cbn in H. unfold sub64 in H. destruct (_ <=? _); [|discriminate]. injection H as <- _. lia. }
      apply fwd_bind; [now apply w_dseek|]. intros u q2 _ _ L2. now apply fwd_stop.
    - apply fwd_bind; [now apply w_dseek|]. intros u q _ _ Lq. now apply fwd_stop.
  Qed.
  Lemma w_dc : forall fuel i dl p, p < two63 -> fwd (io_parse_dc_desc fuel Checked i dl) p.
  Proof. intros fuel i dl p L. unfold io_parse_dc_desc. pose proof (w_desc_loop dl _ w_dc_body). fwds. Qed.
  Lemma w_es_body : forall fuel t dl i p, dl < 2 ^ 28 -> p < two63 -> fwd (io_es_body fuel Checked t dl i) p.
  Proof.
    intros fuel t dl i p D L. unfold io_es_body. apply fwd_if; [now apply w_dc|].
    apply fwd_bind; [now apply w_dseek|]. intros u q _ _ Lq. now apply fwd_stop.
  Qed.
  Lemma w_es : forall fuel i dl p, p < two63 -> fwd (io_parse_es_desc fuel Checked i dl) p.
  Proof. intros fuel i dl p L. unfold io_parse_es_desc. pose proof (w_desc_loop dl _ (w_es_body fuel)). fwds. Qed.
  Hint Resolve w_es : fwd.
  Lemma w_esds : forall fuel i s p, p < two63 -> fwd (io_parse_esds fuel Checked i s) p.
  Proof. intros fuel i s p L. unfold io_parse_esds. fwds. Qed.
  Hint Resolve w_esds : fwd.
  Lemma w_mp4a : forall fuel s p, fine s -> p < two63 -> fwd (io_mp4a_parse fuel Checked s) p.
  Proof.
    intros fuel s p F L. unfold io_mp4a_parse.
    apply fwd_bind; [now apply w_bounds|]. intros b q Hb _ Lq. apply bounds_at in Hb. destruct Hb as (-> & B & E).
    apply fwd_bind; [apply fwd_seek; [assumption|lia]|]. intros u q1 _ Q1 L1.
    apply fwd_bind; [now apply w_head|]. intros h q2 _ Q2 L2.
    apply fwd_if; [now apply fwd_stop|].
    apply fwd_bind; [now apply w_esds|]. intros r q3 _ Q3 L3.
    apply fwd_bind; [apply w_to_end; [now rewrite E|lia|assumption]|]. intros v q4 _ _ L4. now apply fwd_stop.
  Qed.
  Hint Resolve w_mp4a : fwd.
  Lemma w_stsd : forall fuel s p, p < two63 -> fwd (io_stsd_parse fuel Checked s) p.
  Proof.
    intros fuel s p L. unfold io_stsd_parse.
    assert (H : forall fuel' parsed st q, q < two63 -> fwd (io_atom_loop fuel' Checked (content_len Checked s) (io_stsd_body fuel Checked) parsed st) q).
    { apply w_loop. intros. unfold io_stsd_body. fwds. }
    fwds.
  Qed.
  Hint Resolve w_stsd : fwd.
  Lemma w_stbl : forall fuel s p, p < two63 -> fwd (io_stbl_parse fuel Checked s) p.
  Proof. intros; apply w_loop; [|assumption]. intros. unfold io_stbl_body. fwds. Qed.
  Hint Resolve w_stbl : fwd.
  Lemma w_minf : forall fuel s p, p < two63 -> fwd (io_minf_parse fuel Checked s) p.
  Proof. intros; apply w_loop; [|assumption]. intros. unfold io_minf_body. fwds. Qed.
  Hint Resolve w_minf : fwd.
  Lemma w_mdia : forall fuel s p, p < two63 -> fwd (io_mdia_parse fuel Checked s) p.
  Proof. intros; apply w_loop; [|assumption]. intros. unfold io_mdia_body. fwds. Qed.
  Hint Resolve w_mdia : fwd.
  Lemma w_trak : forall fuel s p, p < two63 -> fwd (io_trak_parse fuel Checked s) p.
  Proof. intros; apply w_loop; [|assumption]. intros. unfold io_trak_body. fwds. Qed.
  Hint Resolve w_trak : fwd.
  Lemma w_mvhd : forall s p, fine s -> p < two63 -> fwd (io_mvhd_parse Checked s) p.
  Proof.
    intros s p F L. unfold io_mvhd_parse.
    apply fwd_bind; [now apply w_bounds|]. intros b q Hb _ Lq. apply bounds_at in Hb. destruct Hb as (-> & B & E).
    apply fwd_bind; [now apply w_full|]. intros vf q1 _ Q1 L1.
    apply fwd_bind; [fwds|]. intros d q2 _ Q2 L2.
    apply fwd_bind; [apply w_to_end; [now rewrite E|lia|assumption]|]. intros v q4 _ _ L4. now apply fwd_stop.
  Qed.
  Hint Resolve w_mvhd : fwd.
  Lemma w_moov : forall fuel s p, p < two63 -> fwd (io_moov_parse fuel Checked s) p.
  Proof. intros; apply w_loop; [|assumption]. intros. unfold io_moov_body. fwds. Qed.
  Hint Resolve w_moov : fwd.
  Lemma w_ftyp : forall p, p < two63 -> fwd (io_ftyp_parse Checked) p. Proof. intros. unfold io_ftyp_parse. fwds. Qed.
  Lemma w_rest : forall p, p < two63 -> fwd (io_remaining_stream_len Checked) p.
  Proof.
    intros p L. unfold fwd, io_remaining_stream_len. rewrite !run_bind, !asked_bind. cbn.
    unfold sub64. destruct (N.leb_spec p (blen f)); cbn; [|auto].
    unfold seek_start. destruct (N.ltb_spec p two63); cbn; split; auto. lia.
  Qed.
  Hint Resolve w_ftyp w_rest : fwd.
  Lemma w_find_moov : forall inner len fuel parsed p, p < two63 -> fwd (io_find_moov fuel Checked inner len parsed) p.
  Proof.
    intros inner len. induction fuel as [|fuel IH]; intros parsed p L; cbn [io_find_moov]; [now apply fwd_stop|].
    fwds. apply w_skip; [eapply head_fine; eassumption|assumption].
  Qed.
  Hint Resolve w_find_moov : fwd.
  Lemma w_read : forall fuel p, p < two63 -> fwd (io_read_tag_from fuel Checked) p.
  Proof. intros fuel p L. unfold io_read_tag_from. fwds. Qed.

  (** The scan of the write path. *)
  Lemma w_leaf : forall s p, fine s -> p < two63 -> fwd (io_leaf_find Checked s) p.
  Proof.
    intros s p F L. unfold io_leaf_find.
    apply fwd_bind; [now apply w_bounds|]. intros b q Hb _ Lq. apply bounds_at in Hb. destruct Hb as (-> & B & E).
    apply fwd_bind; [apply w_to_end; [now rewrite E|lia|assumption]|]. intros v q4 _ _ L4. now apply fwd_stop.
  Qed.
  Hint Resolve w_leaf : fwd.
  Ltac with_loop body :=
    let H := fresh in
    assert (H : forall fuel' limit parsed st q, q < two63 -> fwd (io_atom_loop fuel' Checked limit body parsed st) q)
      by (intros fuel' limit; apply w_loop; intros; (unfold io_stbl_fbody, io_minf_fbody, io_mdia_fbody, io_trak_fbody, io_meta_fbody, io_udta_fbody, io_moov_fbody, io_top_fbody); fwds);
    fwds.
  Lemma w_stblf : forall fuel s p, p < two63 -> fwd (io_stbl_find fuel Checked s) p.
  Proof. intros fuel s p L. unfold io_stbl_find. with_loop (io_stbl_fbody Checked). Qed.
  Hint Resolve w_stblf : fwd.
  Lemma w_minff : forall fuel s p, p < two63 -> fwd (io_minf_find fuel Checked s) p.
  Proof. intros fuel s p L. unfold io_minf_find. with_loop (io_minf_fbody fuel Checked). Qed.
  Hint Resolve w_minff : fwd.
  Lemma w_mdiaf : forall fuel s p, p < two63 -> fwd (io_mdia_find fuel Checked s) p.
  Proof. intros fuel s p L. unfold io_mdia_find. with_loop (io_mdia_fbody fuel Checked). Qed.
  Hint Resolve w_mdiaf : fwd.
  Lemma w_trakf : forall fuel s p, p < two63 -> fwd (io_trak_find fuel Checked s) p.
  Proof. intros fuel s p L. unfold io_trak_find. with_loop (io_trak_fbody fuel Checked). Qed.
  Hint Resolve w_trakf : fwd.
  Lemma w_metaf : forall fuel s p, p < two63 -> fwd (io_meta_find fuel Checked s) p.
  Proof. intros fuel s p L. unfold io_meta_find. with_loop (io_meta_fbody Checked). Qed.
  Hint Resolve w_metaf : fwd.
  Lemma w_udtaf : forall fuel s p, p < two63 -> fwd (io_udta_find fuel Checked s) p.
  Proof. intros fuel s p L. unfold io_udta_find. with_loop (io_udta_fbody fuel Checked). Qed.
  Hint Resolve w_udtaf : fwd.
  Lemma w_moovf : forall fuel s p, p < two63 -> fwd (io_moov_find fuel Checked s) p.
  Proof. intros fuel s p L. unfold io_moov_find. with_loop (io_moov_fbody fuel Checked). Qed.
  Hint Resolve w_moovf : fwd.
  Lemma w_scan : forall fuel p, p < two63 -> fwd (io_scan fuel Checked) p.
  Proof. intros fuel p L. unfold io_scan. with_loop (io_top_fbody fuel Checked). Qed.
End Forward.
