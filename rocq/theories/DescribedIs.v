(** Reading with descriptions is reading. *)

From Coq Require Import List NArith ZArith Bool String.
From Verif Require Import Base Utf Types Stream Parse Display Described.
Import ListNotations.
Local Open Scope list_scope.

Definition same {A} (x : D A) (y : R A) : Prop := forall f p, undress (x f p) = y f p.
Lemma same_ret : forall {A} (a : A), same (dret a) (ret a). Proof. intros A a f p. reflexivity. Qed.
Lemma same_fail : forall {A} e t, same (@dfail A e t) (fail e). Proof. intros A e t f p. reflexivity. Qed.
Lemma same_fuel : forall {A}, same (@dfuel A) outOfFuel. Proof. intros A f p. reflexivity. Qed.
Lemma same_plainly : forall {A} (x : R A), same (plainly x) x. Proof. intros A x f p. unfold plainly. destruct (x f p); reflexivity. Qed.
Lemma same_saying : forall {A} t (x : R A), same (saying t x) x. Proof. intros A t x f p. unfold saying. destruct (x f p); reflexivity. Qed.
Lemma same_parsing : forall {A} i (x : D A) y, same x y -> same (parsing i x) y.
Proof. intros A i x y H f p. specialize (H f p). unfold parsing. destruct (x f p); exact H. Qed.
Lemma same_bind : forall {A B} (x : D A) y (k : A -> D B) k', same x y -> (forall a, same (k a) (k' a)) -> same (dbind x k) (bind y k').
Proof.
  intros A B x y k k' H K f p. specialize (H f p). unfold dbind, bind. rewrite <- H. destruct (x f p) as [[a q]|e t|q|]; cbn [undress]; try reflexivity. apply K.
Qed.
Create HintDb same.
Global Hint Resolve same_ret same_fail same_fuel same_plainly same_saying same_parsing : same.
Ltac same_step :=
  match goal with
  | |- same (dbind _ _) (bind _ _) => apply same_bind; [|intros]
  | |- same (parsing _ _) _ => apply same_parsing
  | |- same (if ?c then _ else _) _ => destruct c
  | |- same (match ?x with _ => _ end) _ => destruct x
  end.
Ltac same_auto := repeat (cbv zeta; first [solve [auto with same] | same_step]).

Lemma same_head : same d_head parse_head. Proof. unfold d_head, parse_head. same_auto. Qed.
Lemma same_full : same d_full parse_full_head. Proof. unfold d_full, parse_full_head. same_auto. Qed.
Global Hint Resolve same_head same_full : same.
Lemma same_loop : forall {S} m limit (b : head -> S -> D S) b', (forall h s, same (b h s) (b' h s)) -> forall fuel parsed s, same (d_loop fuel m limit b parsed s) (atom_loop fuel m limit b' parsed s).
Proof. intros S m limit b b' H. induction fuel as [|fuel IH]; intros parsed s; cbn [d_loop atom_loop]; same_auto. Qed.
Lemma same_data : forall t n, same (d_data t n) (data_parse t n). Proof. intros t n. unfold d_data, data_parse. same_auto. Qed.
Global Hint Resolve same_loop same_data : same.
Lemma same_item_body : forall m h a, same (d_item_body m h a) (item_body m h a). Proof. intros m h a. unfold d_item_body, item_body. same_auto. Qed.
Global Hint Resolve same_item_body : same.
Lemma same_item : forall fuel m i n, same (d_item fuel m i n) (atom_data_parse fuel m i n). Proof. intros. unfold d_item, atom_data_parse. same_auto. Qed.
Global Hint Resolve same_item : same.
Lemma same_ilst_body : forall fuel m h l, same (d_ilst_body fuel m h l) (ilst_body fuel m h l). Proof. intros. unfold d_ilst_body, ilst_body. same_auto. Qed.
Global Hint Resolve same_ilst_body : same.
Lemma same_ilst : forall fuel m s, same (d_ilst fuel m s) (ilst_parse fuel m s). Proof. intros. unfold d_ilst, ilst_parse. same_auto. Qed.
Global Hint Resolve same_ilst : same.
Lemma same_meta_body : forall fuel m h r, same (d_meta_body fuel m h r) (meta_body fuel m h r). Proof. intros. unfold d_meta_body, meta_body. same_auto. Qed.
Global Hint Resolve same_meta_body : same.
Lemma same_meta : forall fuel m s, same (d_meta fuel m s) (meta_parse fuel m s). Proof. intros. unfold d_meta, meta_parse. same_auto. Qed.
Global Hint Resolve same_meta : same.
Lemma same_udta_body : forall fuel m h r, same (d_udta_body fuel m h r) (udta_body fuel m h r). Proof. intros. unfold d_udta_body, udta_body. same_auto. Qed.
Global Hint Resolve same_udta_body : same.
Lemma same_udta : forall fuel m s, same (d_udta fuel m s) (udta_parse fuel m s). Proof. intros. unfold d_udta, udta_parse. same_auto. Qed.
Lemma same_desc_head : same d_desc_head parse_desc_head. Proof. apply same_plainly. Qed.
Lemma same_ds_desc : forall m i n, same (d_ds_desc m i n) (parse_ds_desc m i n). Proof. intros. apply same_plainly. Qed.
Global Hint Resolve same_udta same_desc_head same_ds_desc : same.
Lemma same_desc_loop : forall {S} m len (b : N -> N -> S -> D S) b', (forall t n s, same (b t n s) (b' t n s)) -> forall fuel parsed s, same (d_desc_loop fuel m len b parsed s) (desc_loop fuel m len b' parsed s).
Proof. intros S m len b b' H. induction fuel as [|fuel IH]; intros parsed s; cbn [d_desc_loop desc_loop]; same_auto. Qed.
Global Hint Resolve same_desc_loop : same.
Lemma same_dc_body : forall m t n i, same (d_dc_body m t n i) (dc_body m t n i). Proof. intros. unfold d_dc_body, dc_body. same_auto. Qed.
Global Hint Resolve same_dc_body : same.
Lemma same_dc_desc : forall fuel m i n, same (d_dc_desc fuel m i n) (parse_dc_desc fuel m i n). Proof. intros. unfold d_dc_desc, parse_dc_desc. same_auto. Qed.
Global Hint Resolve same_dc_desc : same.
Lemma same_es_body : forall fuel m t n i, same (d_es_body fuel m t n i) (es_body fuel m t n i). Proof. intros. unfold d_es_body, es_body. same_auto. Qed.
Global Hint Resolve same_es_body : same.
Lemma same_es_desc : forall fuel m i n, same (d_es_desc fuel m i n) (parse_es_desc fuel m i n). Proof. intros. unfold d_es_desc, parse_es_desc. same_auto. Qed.
Global Hint Resolve same_es_desc : same.
Lemma same_esds : forall fuel m i s, same (d_esds fuel m i s) (parse_esds fuel m i s). Proof. intros. unfold d_esds, parse_esds. same_auto. Qed.
Global Hint Resolve same_esds : same.
Lemma same_mp4a : forall fuel m s, same (d_mp4a fuel m s) (mp4a_parse fuel m s). Proof. intros. unfold d_mp4a, mp4a_parse. same_auto. Qed.
Global Hint Resolve same_mp4a : same.
Lemma same_stsd_body : forall fuel m h r, same (d_stsd_body fuel m h r) (stsd_body fuel m h r). Proof. intros. unfold d_stsd_body, stsd_body. same_auto. Qed.
Global Hint Resolve same_stsd_body : same.
Lemma same_stsd : forall fuel m s, same (d_stsd fuel m s) (stsd_parse fuel m s). Proof. intros. unfold d_stsd, stsd_parse. same_auto. Qed.
Global Hint Resolve same_stsd : same.
Lemma same_stbl_body : forall fuel m h r, same (d_stbl_body fuel m h r) (stbl_body fuel m h r). Proof. intros. unfold d_stbl_body, stbl_body. same_auto. Qed.
Global Hint Resolve same_stbl_body : same.
Lemma same_stbl : forall fuel m s, same (d_stbl fuel m s) (stbl_parse fuel m s). Proof. intros. unfold d_stbl, stbl_parse. same_auto. Qed.
Global Hint Resolve same_stbl : same.
Lemma same_minf_body : forall fuel m h r, same (d_minf_body fuel m h r) (minf_body fuel m h r). Proof. intros. unfold d_minf_body, minf_body. same_auto. Qed.
Global Hint Resolve same_minf_body : same.
Lemma same_minf : forall fuel m s, same (d_minf fuel m s) (minf_parse fuel m s). Proof. intros. unfold d_minf, minf_parse. same_auto. Qed.
Global Hint Resolve same_minf : same.
Lemma same_mdia_body : forall fuel m h r, same (d_mdia_body fuel m h r) (mdia_body fuel m h r). Proof. intros. unfold d_mdia_body, mdia_body. same_auto. Qed.
Global Hint Resolve same_mdia_body : same.
Lemma same_mdia : forall fuel m s, same (d_mdia fuel m s) (mdia_parse fuel m s). Proof. intros. unfold d_mdia, mdia_parse. same_auto. Qed.
Global Hint Resolve same_mdia : same.
Lemma same_trak_body : forall fuel m h r, same (d_trak_body fuel m h r) (trak_body fuel m h r). Proof. intros. unfold d_trak_body, trak_body. same_auto. Qed.
Global Hint Resolve same_trak_body : same.
Lemma same_trak : forall fuel m s, same (d_trak fuel m s) (trak_parse fuel m s). Proof. intros. unfold d_trak, trak_parse. same_auto. Qed.
Lemma same_mvhd : forall m s, same (d_mvhd m s) (mvhd_parse m s). Proof. intros. unfold d_mvhd, mvhd_parse. same_auto. Qed.
Global Hint Resolve same_trak same_mvhd : same.
Lemma same_moov_body : forall fuel m h r, same (d_moov_body fuel m h r) (moov_body fuel m h r). Proof. intros. unfold d_moov_body, moov_body. same_auto. Qed.
Global Hint Resolve same_moov_body : same.
Lemma same_moov : forall fuel m s, same (d_moov fuel m s) (moov_parse fuel m s). Proof. intros. unfold d_moov, moov_parse. same_auto. Qed.
Lemma same_ftyp : forall m, same (d_ftyp m) (ftyp_parse m). Proof. intros. unfold d_ftyp, ftyp_parse. same_auto. Qed.
Global Hint Resolve same_moov same_ftyp : same.
Lemma same_find_moov : forall fuel m inner len parsed, same (d_find_moov fuel m inner len parsed) (find_moov fuel m inner len parsed).
Proof. induction fuel as [|fuel IH]; intros m inner len parsed; cbn [d_find_moov find_moov]; same_auto. Qed.
Global Hint Resolve same_find_moov : same.
Lemma same_read_from : forall fuel m, same (d_read_from fuel m) (read_tag_from fuel m). Proof. intros. unfold d_read_from, read_tag_from. same_auto. Qed.
Theorem described_is_read : forall fuel m f, undress (d_read fuel m f) = read_tag fuel m f.
Proof.
  intros fuel m f. pose proof (same_read_from fuel m f 0) as H. unfold d_read, read_tag. rewrite <- H. destruct (d_read_from fuel m f 0) as [[t p]|e t|q|]; reflexivity.
Qed.
