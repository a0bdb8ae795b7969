(** The trees of [ReadIO.v] are the programs of [Parse.v] and [Find.v]; facts about all trees. *)

From Coq Require Import List NArith ZArith Bool Lia Arith.
From Coq Require Import ZifyBool ZifyNat ZifyN.
From Verif Require Import Base BaseLemmas Utf Types Stream Parse Find Write Fault ReadIO.
Import ListNotations.

(** * Running a tree is running the program *)

Definition is {A} (x : IO A) (r : R A) : Prop := forall f p, run x f p = r f p.

Lemma is_bind : forall {A B} (x : IO A) (r : R A) (k : A -> IO B) (k' : A -> R B),
  is x r -> (forall a, is (k a) (k' a)) -> is (io_bind x k) (bind r k').
Proof.
  intros A B x r k k' H K f p. unfold bind. rewrite <- (H f p). clear H r. revert p.
  induction x as [[a|e|q|]|o c IH]; intro p; cbn; try reflexivity; [apply K|].
  destruct (perform o f p) as [[a q]| | |]; try reflexivity. apply IH.
Qed.
Lemma is_ret : forall {A} (a : A), is (io_ret a) (ret a). Proof. intros A a f p. reflexivity. Qed.
Lemma is_fail : forall {A} e, is (@io_fail A e) (fail e). Proof. intros A e f p. reflexivity. Qed.
Lemma is_lift : forall {A} (r : res A), is (io_lift r) (lift r). Proof. intros A [a|e|q|] f p; reflexivity. Qed.
Lemma is_fuel : forall {A}, is (@io_outOfFuel A) outOfFuel. Proof. intros A f p. reflexivity. Qed.
Lemma is_read : forall n, is (io_read_exact n) (read_exact n).
Proof. intros n f p. cbn. destruct (read_exact n f p) as [[]| | |]; reflexivity. Qed.
Lemma is_vec : forall n, is (io_read_u8_vec n) (read_u8_vec n).
Proof. intros n f p. cbn. unfold read_u8_vec. destruct (two63 <=? n); [reflexivity|]. destruct (read_exact n f p) as [[]| | |]; reflexivity. Qed.
Lemma is_seek : forall d, is (io_seek_cur d) (seek_cur d).
Proof. intros d f p. cbn. destruct (seek_cur d f p) as [[[]]| | |]; reflexivity. Qed.
Lemma is_seek_start : forall d, is (io_seek_start d) (seek_start d).
Proof. intros d f p. cbn. destruct (seek_start d f p) as [[[]]| | |]; reflexivity. Qed.
Lemma is_end : is io_seek_end seek_end. Proof. intros f p. reflexivity. Qed.
Lemma is_pos : is io_position position. Proof. intros f p. reflexivity. Qed.

Create HintDb io.
#[local] Hint Resolve is_ret is_fail is_lift is_fuel is_read is_vec is_seek is_seek_start is_end is_pos : io.
Ltac iss :=
  repeat match goal with
  | |- is (io_bind _ _) (bind _ _) => apply is_bind; [|intro]
  | |- is (if ?b then _ else _) _ => destruct b
  | |- is (match ?x with _ => _ end) _ => destruct x
  | |- is (let '_ := ?x in _) _ => destruct x
  | |- is _ _ => solve [auto with io]
  end.

Lemma is_u8 : is io_read_u8 read_u8. Proof. unfold io_read_u8, read_u8. iss. Qed.
Lemma is_u16 : is io_read_u16 read_u16. Proof. unfold io_read_u16, read_u16. iss. Qed.
Lemma is_u32 : is io_read_u32 read_u32. Proof. unfold io_read_u32, read_u32. iss. Qed.
Lemma is_u64 : is io_read_u64 read_u64. Proof. unfold io_read_u64, read_u64. iss. Qed.
Lemma is_utf8 : forall n, is (io_read_utf8 n) (read_utf8 n). Proof. intro. unfold io_read_utf8, read_utf8. iss. Qed.
Lemma is_utf16 : forall n, is (io_read_utf16 n) (read_utf16 n). Proof. intro. unfold io_read_utf16, read_utf16. iss. Qed.
Lemma is_rest : forall m, is (io_remaining_stream_len m) (remaining_stream_len m).
Proof. intro. unfold io_remaining_stream_len, remaining_stream_len. iss. Qed.
#[local] Hint Resolve is_u8 is_u16 is_u32 is_u64 is_utf8 is_utf16 is_rest : io.
Lemma is_head : is io_parse_head parse_head. Proof. unfold io_parse_head, parse_head. iss. Qed.
Lemma is_full : is io_parse_full_head parse_full_head. Proof. unfold io_parse_full_head, parse_full_head. iss. Qed.
Lemma is_bounds : forall m s, is (io_find_bounds m s) (find_bounds m s). Proof. intros. unfold io_find_bounds, find_bounds. iss. Qed.
Lemma is_to_end : forall m b, is (io_seek_to_end m b) (seek_to_end m b). Proof. intros. unfold io_seek_to_end, seek_to_end. iss. Qed.
Lemma is_skip : forall m h, is (io_skip_atom m h) (skip_atom m h). Proof. intros. unfold io_skip_atom, skip_atom. iss. Qed.
#[local] Hint Resolve is_head is_full is_bounds is_to_end is_skip : io.
Lemma is_loop : forall {S} m limit (b : head -> S -> IO S) (b' : head -> S -> R S),
  (forall h s, is (b h s) (b' h s)) ->
  forall fuel parsed s, is (io_atom_loop fuel m limit b parsed s) (atom_loop fuel m limit b' parsed s).
Proof.
  intros S m limit b b' H. induction fuel as [|fuel IH]; intros; cbn [io_atom_loop atom_loop]; iss.
Qed.
Lemma is_data : forall t n, is (io_data_parse t n) (data_parse t n).
Proof. intros. unfold io_data_parse, data_parse. iss. Qed.
#[local] Hint Resolve is_data : io.
Lemma is_item : forall m h a, is (io_item_body m h a) (item_body m h a).
Proof. intros. unfold io_item_body, item_body. iss. Qed.
Lemma is_atom_data : forall fuel m i n, is (io_atom_data_parse fuel m i n) (atom_data_parse fuel m i n).
Proof. intros. unfold io_atom_data_parse, atom_data_parse. iss. apply is_loop, is_item. Qed.
#[local] Hint Resolve is_atom_data : io.
Lemma is_ilst : forall fuel m s, is (io_ilst_parse fuel m s) (ilst_parse fuel m s).
Proof. intros. apply is_loop. intros. unfold io_ilst_body, ilst_body. iss. Qed.
#[local] Hint Resolve is_ilst : io.
Lemma is_meta : forall fuel m s, is (io_meta_parse fuel m s) (meta_parse fuel m s).
Proof. intros. unfold io_meta_parse, meta_parse. iss. apply is_loop. intros. unfold io_meta_body, meta_body. iss. Qed.
#[local] Hint Resolve is_meta : io.
Lemma is_udta : forall fuel m s, is (io_udta_parse fuel m s) (udta_parse fuel m s).
Proof. intros. apply is_loop. intros. unfold io_udta_body, udta_body. iss. Qed.
#[local] Hint Resolve is_udta : io.
Lemma is_desc_len : forall k hl len, is (io_desc_len_loop k hl len) (desc_len_loop k hl len).
Proof. induction k as [|k IH]; intros; cbn [io_desc_len_loop desc_len_loop]; iss. Qed.
#[local] Hint Resolve is_desc_len : io.
Lemma is_desc_head : is io_parse_desc_head parse_desc_head. Proof. unfold io_parse_desc_head, parse_desc_head. iss. Qed.
#[local] Hint Resolve is_desc_head : io.
Lemma is_desc_loop : forall {S} m len (b : N -> N -> S -> IO S) (b' : N -> N -> S -> R S),
  (forall t n s, is (b t n s) (b' t n s)) ->
  forall fuel parsed s, is (io_desc_loop fuel m len b parsed s) (desc_loop fuel m len b' parsed s).
Proof.
  intros S m limit b b' H. induction fuel as [|fuel IH]; intros; cbn [io_desc_loop desc_loop]; iss.
Qed.
Lemma is_ds : forall m i n, is (io_parse_ds_desc m i n) (parse_ds_desc m i n).
Proof. intros. unfold io_parse_ds_desc, parse_ds_desc. iss. Qed.
#[local] Hint Resolve is_ds : io.
Lemma is_dc : forall fuel m i n, is (io_parse_dc_desc fuel m i n) (parse_dc_desc fuel m i n).
Proof. intros. unfold io_parse_dc_desc, parse_dc_desc. iss. apply is_desc_loop. intros. unfold io_dc_body, dc_body. iss. Qed.
#[local] Hint Resolve is_dc : io.
Lemma is_es : forall fuel m i n, is (io_parse_es_desc fuel m i n) (parse_es_desc fuel m i n).
Proof. intros. unfold io_parse_es_desc, parse_es_desc. iss. apply is_desc_loop. intros. unfold io_es_body, es_body. iss. Qed.
#[local] Hint Resolve is_es : io.
Lemma is_esds : forall fuel m i s, is (io_parse_esds fuel m i s) (parse_esds fuel m i s).
Proof. intros. unfold io_parse_esds, parse_esds. iss. Qed.
#[local] Hint Resolve is_esds : io.
Lemma is_mp4a : forall fuel m s, is (io_mp4a_parse fuel m s) (mp4a_parse fuel m s).
Proof. intros. unfold io_mp4a_parse, mp4a_parse. iss. Qed.
#[local] Hint Resolve is_mp4a : io.
Lemma is_stsd : forall fuel m s, is (io_stsd_parse fuel m s) (stsd_parse fuel m s).
Proof. intros. unfold io_stsd_parse, stsd_parse. iss. apply is_loop. intros. unfold io_stsd_body, stsd_body. iss. Qed.
#[local] Hint Resolve is_stsd : io.
Lemma is_stbl : forall fuel m s, is (io_stbl_parse fuel m s) (stbl_parse fuel m s).
Proof. intros. apply is_loop. intros. unfold io_stbl_body, stbl_body. iss. Qed.
#[local] Hint Resolve is_stbl : io.
Lemma is_minf : forall fuel m s, is (io_minf_parse fuel m s) (minf_parse fuel m s).
Proof. intros. apply is_loop. intros. unfold io_minf_body, minf_body. iss. Qed.
#[local] Hint Resolve is_minf : io.
Lemma is_mdia : forall fuel m s, is (io_mdia_parse fuel m s) (mdia_parse fuel m s).
Proof. intros. apply is_loop. intros. unfold io_mdia_body, mdia_body. iss. Qed.
#[local] Hint Resolve is_mdia : io.
Lemma is_trak : forall fuel m s, is (io_trak_parse fuel m s) (trak_parse fuel m s).
Proof. intros. apply is_loop. intros. unfold io_trak_body, trak_body. iss. Qed.
#[local] Hint Resolve is_trak : io.
Lemma is_mvhd : forall m s, is (io_mvhd_parse m s) (mvhd_parse m s).
Proof. intros. unfold io_mvhd_parse, mvhd_parse. iss. Qed.
#[local] Hint Resolve is_mvhd : io.
Lemma is_moov : forall fuel m s, is (io_moov_parse fuel m s) (moov_parse fuel m s).
Proof. intros. apply is_loop. intros. unfold io_moov_body, moov_body. iss. Qed.
#[local] Hint Resolve is_moov : io.
Lemma is_ftyp : forall m, is (io_ftyp_parse m) (ftyp_parse m).
Proof. intros. unfold io_ftyp_parse, ftyp_parse. iss. Qed.
#[local] Hint Resolve is_ftyp : io.
Lemma is_find_moov : forall m inner len fuel parsed, is (io_find_moov fuel m inner len parsed) (find_moov fuel m inner len parsed).
Proof. intros m inner len. induction fuel as [|fuel IH]; intros; cbn [io_find_moov find_moov]; iss. Qed.
#[local] Hint Resolve is_find_moov : io.

Theorem read_is : forall fuel m, is (io_read_tag_from fuel m) (read_tag_from fuel m).
Proof. intros. unfold io_read_tag_from, read_tag_from. iss. Qed.

Lemma is_leaf : forall m s, is (io_leaf_find m s) (leaf_find m s).
Proof. intros. unfold io_leaf_find, leaf_find. iss. Qed.
#[local] Hint Resolve is_leaf : io.
Lemma is_stblf : forall fuel m s, is (io_stbl_find fuel m s) (stbl_find fuel m s).
Proof. intros. unfold io_stbl_find, stbl_find. iss. apply is_loop. intros. unfold io_stbl_fbody, stbl_fbody. iss. Qed.
#[local] Hint Resolve is_stblf : io.
Lemma is_minff : forall fuel m s, is (io_minf_find fuel m s) (minf_find fuel m s).
Proof. intros. unfold io_minf_find, minf_find. iss. apply is_loop. intros. unfold io_minf_fbody, minf_fbody. iss. Qed.
#[local] Hint Resolve is_minff : io.
Lemma is_mdiaf : forall fuel m s, is (io_mdia_find fuel m s) (mdia_find fuel m s).
Proof. intros. unfold io_mdia_find, mdia_find. iss. apply is_loop. intros. unfold io_mdia_fbody, mdia_fbody. iss. Qed.
#[local] Hint Resolve is_mdiaf : io.
Lemma is_trakf : forall fuel m s, is (io_trak_find fuel m s) (trak_find fuel m s).
Proof. intros. unfold io_trak_find, trak_find. iss. apply is_loop. intros. unfold io_trak_fbody, trak_fbody. iss. Qed.
#[local] Hint Resolve is_trakf : io.
Lemma is_metaf : forall fuel m s, is (io_meta_find fuel m s) (meta_find fuel m s).
Proof. intros. unfold io_meta_find, meta_find. iss. apply is_loop. intros. unfold io_meta_fbody, meta_fbody. iss. Qed.
#[local] Hint Resolve is_metaf : io.
Lemma is_udtaf : forall fuel m s, is (io_udta_find fuel m s) (udta_find fuel m s).
Proof. intros. unfold io_udta_find, udta_find. iss. apply is_loop. intros. unfold io_udta_fbody, udta_fbody. iss. Qed.
#[local] Hint Resolve is_udtaf : io.
Lemma is_moovf : forall fuel m s, is (io_moov_find fuel m s) (moov_find fuel m s).
Proof. intros. unfold io_moov_find, moov_find. iss. apply is_loop. intros. unfold io_moov_fbody, moov_fbody. iss. Qed.
#[local] Hint Resolve is_moovf : io.
Theorem scan_is : forall fuel m, is (io_scan fuel m) (scan fuel m).
Proof. intros. unfold io_scan, scan. iss. apply is_loop. intros. unfold io_top_fbody, top_fbody. iss. Qed.
