(** Proofs for Reader.v. *)

From Coq Require Import List NArith ZArith Bool Lia Arith.
From Coq Require Import ZifyBool ZifyNat ZifyN.
From Verif Require Import Base BaseLemmas Utf Types Stream Parse Find Write Fault ReadIO IoProofs IoCost Reader.
Import ListNotations.
Local Open Scope io_scope.

Lemma perform_file : forall o f p, perform_on file_places o f p = perform o f p.
Proof.
  intros [n|n| |d|s|] f p; try reflexivity; cbn [perform_on perform].
  - unfold seek_cur, file_places. destruct (0 <=? Z.of_N p + d)%Z eqn:E; cbn [andb]; [|reflexivity].
    replace (Z.to_N (Z.of_N p + d) <? two63) with (Z.of_N p + d <? Z.of_N two63)%Z by lia. destruct (_ <? _)%Z; reflexivity.
  - unfold seek_start, file_places. destruct (s <? two63); reflexivity.
Qed.
Lemma run_file : forall {A} (x : IO A) f p, run_on file_places x f p = run x f p.
Proof.
  intros A x f. induction x as [[a|e|q|]|o k IH]; intro p; cbn [run_on run]; try reflexivity.
  rewrite perform_file. destruct (perform o f p) as [[a q]| | |]; try reflexivity. apply IH.
Qed.

(** More places: the same, or the reader with less of them has refused one. *)
Lemma perform_more : forall (P Q : places) o f p, (forall q, P q = true -> Q q = true) -> perform_on P o f p = perform_on Q o f p \/ perform_on P o f p = Err EIoSeek.
Proof.
  intros P Q [n|n| |d|s|] f p H; try (now left); cbn [perform_on].
  - destruct (0 <=? _)%Z; cbn [andb]; [|now left]. destruct (P _) eqn:E; [|now right]. rewrite (H _ E). now left.
  - destruct (P s) eqn:E; [|now right]. rewrite (H _ E). now left.
Qed.
Lemma run_more : forall (P Q : places) {A} (x : IO A) f p, (forall q, P q = true -> Q q = true) -> run_on P x f p = run_on Q x f p \/ run_on P x f p = Err EIoSeek.
Proof.
  intros P Q A x f p H. revert p. induction x as [[a|e|q|]|o k IH]; intro p; cbn [run_on]; try (now left).
  destruct (perform_more P Q o f p H) as [-> | ->]; [|now right]. destruct (perform_on Q o f p) as [[a q]| | |]; try (now left). apply IH.
Qed.

(** * Programs that only go on from where they are *)

Fixpoint stays {A} (x : IO A) : Prop :=
  match x with Stop _ => True | Ask o k => match o with OSeekStart _ | OSeekEnd => False | _ => True end /\ forall a, stays (k a) end.
Lemma stays_bind : forall {A B} (x : IO A) (k : A -> IO B), stays x -> (forall a, stays (k a)) -> stays (io_bind x k).
Proof. intros A B x k H K. induction x as [[a|e|q|]|o c IH]; cbn; auto. destruct H as [O H]. split; [exact O|]. intro a. apply IH, H. Qed.
Ltac stay := repeat match goal with
  | |- stays (io_bind _ _) => apply stays_bind; [|intro]
  | |- stays (if ?b then _ else _) => destruct b
  | |- stays (match ?x with _ => _ end) => destruct x
  | |- stays _ => solve [auto with stay] || (cbn; solve [auto]) || (cbn; split; [exact I|intro; exact I])
  end.
Create HintDb stay.
Lemma stays_ret : forall {A} (r : res A), stays (io_lift r). Proof. exact (fun _ _ => I). Qed.
#[local] Hint Resolve stays_ret : stay.
Lemma stays_utf8 : forall n, stays (io_read_utf8 n). Proof. intro. unfold io_read_utf8. stay. Qed.
Lemma stays_utf16 : forall n, stays (io_read_utf16 n). Proof. intro. unfold io_read_utf16. stay. Qed.
Lemma stays_u8 : stays io_read_u8. Proof. unfold io_read_u8. stay. Qed.
Lemma stays_u16 : stays io_read_u16. Proof. unfold io_read_u16. stay. Qed.
Lemma stays_u32 : stays io_read_u32. Proof. unfold io_read_u32. stay. Qed.
Lemma stays_u64 : stays io_read_u64. Proof. unfold io_read_u64. stay. Qed.
#[local] Hint Resolve stays_utf8 stays_utf16 stays_u8 stays_u16 stays_u32 stays_u64 : stay.
Lemma stays_head : stays io_parse_head. Proof. unfold io_parse_head. stay. Qed.
Lemma stays_full : stays io_parse_full_head. Proof. unfold io_parse_full_head. stay. Qed.
Lemma stays_bounds : forall m s, stays (io_find_bounds m s). Proof. intros. unfold io_find_bounds. stay. Qed.
Lemma stays_to_end : forall m b, stays (io_seek_to_end m b). Proof. intros. unfold io_seek_to_end. stay. Qed.
Lemma stays_skip : forall m h, stays (io_skip_atom m h). Proof. intros. unfold io_skip_atom. stay. Qed.
#[local] Hint Resolve stays_head stays_full stays_bounds stays_to_end stays_skip : stay.
Lemma stays_loop : forall {T} m limit (b : head -> T -> IO T), (forall h s, stays (b h s)) -> forall fuel parsed s, stays (io_atom_loop fuel m limit b parsed s).
Proof. intros T m limit b H. induction fuel as [|fuel IH]; intros; cbn [io_atom_loop]; stay. Qed.
Lemma stays_data : forall t n, stays (io_data_parse t n). Proof. intros. unfold io_data_parse. stay. Qed.
#[local] Hint Resolve stays_data : stay.
Lemma stays_atom_data : forall fuel m i n, stays (io_atom_data_parse fuel m i n).
Proof. intros. unfold io_atom_data_parse. stay. apply stays_loop. intros. unfold io_item_body. stay. Qed.
#[local] Hint Resolve stays_atom_data : stay.
Lemma stays_ilst : forall fuel m s, stays (io_ilst_parse fuel m s). Proof. intros. apply stays_loop. intros. unfold io_ilst_body. stay. Qed.
#[local] Hint Resolve stays_ilst : stay.
Lemma stays_meta : forall fuel m s, stays (io_meta_parse fuel m s).
Proof. intros. unfold io_meta_parse. stay. apply stays_loop. intros. unfold io_meta_body. stay. Qed.
#[local] Hint Resolve stays_meta : stay.
Lemma stays_udta : forall fuel m s, stays (io_udta_parse fuel m s). Proof. intros. apply stays_loop. intros. unfold io_udta_body. stay. Qed.
#[local] Hint Resolve stays_udta : stay.
Lemma stays_desc_len : forall k hl len, stays (io_desc_len_loop k hl len). Proof. induction k as [|k IH]; intros; cbn [io_desc_len_loop]; stay. Qed.
#[local] Hint Resolve stays_desc_len : stay.
Lemma stays_desc_head : stays io_parse_desc_head. Proof. unfold io_parse_desc_head. stay. Qed.
#[local] Hint Resolve stays_desc_head : stay.
Lemma stays_desc_loop : forall {T} m len (b : N -> N -> T -> IO T), (forall t n s, stays (b t n s)) -> forall fuel parsed s, stays (io_desc_loop fuel m len b parsed s).
Proof. intros T m limit b H. induction fuel as [|fuel IH]; intros; cbn [io_desc_loop]; stay. Qed.
Lemma stays_ds : forall m i n, stays (io_parse_ds_desc m i n). Proof. intros. unfold io_parse_ds_desc. stay. Qed.
#[local] Hint Resolve stays_ds : stay.
Lemma stays_dc : forall fuel m i n, stays (io_parse_dc_desc fuel m i n).
Proof. intros. unfold io_parse_dc_desc. stay. apply stays_desc_loop. intros. unfold io_dc_body. stay. Qed.
#[local] Hint Resolve stays_dc : stay.
Lemma stays_es : forall fuel m i n, stays (io_parse_es_desc fuel m i n).
Proof. intros. unfold io_parse_es_desc. stay. apply stays_desc_loop. intros. unfold io_es_body. stay. Qed.
#[local] Hint Resolve stays_es : stay.
Lemma stays_esds : forall fuel m i s, stays (io_parse_esds fuel m i s). Proof. intros. unfold io_parse_esds. stay. Qed.
#[local] Hint Resolve stays_esds : stay.
Lemma stays_mp4a : forall fuel m s, stays (io_mp4a_parse fuel m s). Proof. intros. unfold io_mp4a_parse. stay. Qed.
#[local] Hint Resolve stays_mp4a : stay.
Lemma stays_stsd : forall fuel m s, stays (io_stsd_parse fuel m s).
Proof. intros. unfold io_stsd_parse. stay. apply stays_loop. intros. unfold io_stsd_body. stay. Qed.
#[local] Hint Resolve stays_stsd : stay.
Lemma stays_stbl : forall fuel m s, stays (io_stbl_parse fuel m s). Proof. intros. apply stays_loop. intros. unfold io_stbl_body. stay. Qed.
#[local] Hint Resolve stays_stbl : stay.
Lemma stays_minf : forall fuel m s, stays (io_minf_parse fuel m s). Proof. intros. apply stays_loop. intros. unfold io_minf_body. stay. Qed.
#[local] Hint Resolve stays_minf : stay.
Lemma stays_mdia : forall fuel m s, stays (io_mdia_parse fuel m s). Proof. intros. apply stays_loop. intros. unfold io_mdia_body. stay. Qed.
#[local] Hint Resolve stays_mdia : stay.
Lemma stays_trak : forall fuel m s, stays (io_trak_parse fuel m s). Proof. intros. apply stays_loop. intros. unfold io_trak_body. stay. Qed.
#[local] Hint Resolve stays_trak : stay.
Lemma stays_mvhd : forall m s, stays (io_mvhd_parse m s). Proof. intros. unfold io_mvhd_parse. stay. Qed.
#[local] Hint Resolve stays_mvhd : stay.
Lemma stays_moov : forall fuel m s, stays (io_moov_parse fuel m s). Proof. intros. apply stays_loop. intros. unfold io_moov_body. stay. Qed.
#[local] Hint Resolve stays_moov : stay.
Lemma stays_find : forall m inner len fuel parsed, stays (io_find_moov fuel m inner len parsed).
Proof. intros m inner len. induction fuel as [|fuel IH]; intros; cbn [io_find_moov]; stay. Qed.
Lemma stays_ftyp : forall m, stays (io_ftyp_parse m). Proof. intros. unfold io_ftyp_parse. stay. Qed.

(** * Reading without going back *)

Lemma ahead_up : forall {A} (x : IO A) f p a q, stays x -> forallb ahead (asked x f p) = true -> run x f p = Ok (a, q) -> p <= q.
Proof.
  intros A x f p a q. revert p. induction x as [[b|e|s|]|o k IH]; intros p S H R; cbn [run] in R; try discriminate; [injection R as <- <-; lia|].
  cbn [stays asked forallb] in *. destruct S as [O S]. apply andb_prop in H. destruct H as [H1 H2].
  destruct (perform o f p) as [[b r]| | |] eqn:E; try discriminate. pose proof (IH b r (S b) H2 R) as G. clear IH R H2 S.
  destruct o as [n|n| |d|s|]; try contradiction; cbn [perform ahead] in E, H1.
  - unfold read_exact in E. destruct (n =? 0); [injection E as <- <-; lia|]. destruct (p + n <=? blen f); [injection E as <- <-; lia|discriminate].
  - unfold read_exact in E. destruct (two63 <=? n); [discriminate|]. destruct (n =? 0); [injection E as <- <-; lia|]. destruct (p + n <=? blen f); [injection E as <- <-; lia|discriminate].
  - injection E as <- <-. lia.
  - unfold seek_cur in E. destruct (_ && _) eqn:X; [injection E as <- <-|discriminate]. lia.
Qed.
Lemma ahead_on : forall (P : places) {A} (x : IO A) f p a q, stays x -> forallb ahead (asked x f p) = true -> run x f p = Ok (a, q) ->
  (forall t, t <= q -> P t = true) -> run_on P x f p = Ok (a, q).
Proof.
  intros P A x f p a q. revert p. induction x as [[b|e|s|]|o k IH]; intros p S H R HP; cbn [run run_on] in R |- *; try discriminate; [exact R|].
  cbn [stays asked forallb] in *. destruct S as [O S]. apply andb_prop in H. destruct H as [H1 H2].
  destruct (perform o f p) as [[b r]| | |] eqn:E; try discriminate. pose proof (ahead_up (k b) f r a q (S b) H2 R) as G.
  assert (W : perform_on P o f p = perform o f p).
  { destruct o as [n|n| |d|s|]; try contradiction; try reflexivity. cbn [perform perform_on] in *. unfold seek_cur in *.
    destruct ((0 <=? Z.of_N p + d)%Z && (Z.of_N p + d <? Z.of_N two63)%Z) eqn:X; [|discriminate]. injection E as <- <-. apply andb_prop in X. destruct X as [-> _]. rewrite (HP _ G). reflexivity. }
  rewrite W, E. exact (IH b r (S b) H2 R HP).
Qed.
Lemma run_bind : forall {A B} (x : IO A) (k : A -> IO B) f p, run (io_bind x k) f p = match run x f p with Ok (a, q) => run (k a) f q | Err e => Err e | Panic s => Panic s | Fuel => Fuel end.
Proof.
  intros A B x k f. induction x as [[a|e|q|]|o c IH]; intro p; cbn; try reflexivity.
  destruct (perform o f p) as [[a q]| | |]; try reflexivity. apply IH.
Qed.
Lemma run_on_bind : forall (P : places) {A B} (x : IO A) (k : A -> IO B) f p, run_on P (io_bind x k) f p = match run_on P x f p with Ok (a, q) => run_on P (k a) f q | Err e => Err e | Panic s => Panic s | Fuel => Fuel end.
Proof.
  intros P A B x k f. induction x as [[a|e|q|]|o c IH]; intro p; cbn; try reflexivity.
  destruct (perform_on P o f p) as [[a q]| | |]; try reflexivity. apply IH.
Qed.
(** Places up to where the reader ends are enough. *)
Lemma read_on_ahead : forall (P : places) fuel m f t q, forallb ahead (asked (io_read_tag_from fuel m) f 0) = true -> run (io_read_tag_from fuel m) f 0 = Ok (t, q) ->
  (forall s, s <= q -> P s = true) -> run_on P (io_read_tag_from fuel m) f 0 = Ok (t, q).
Proof.
  intros P fuel m f t q H R HP. unfold io_read_tag_from in *. rewrite run_bind in R. rewrite run_on_bind. rewrite asked_bind, forallb_app in H. apply andb_prop in H. destruct H as [H1 H].
  destruct (run (io_ftyp_parse m) f 0) as [[ft q1]| | |] eqn:E1; try discriminate.
  assert (T : exists len, run (io_remaining_stream_len m) f q1 = Ok (len, q1) /\ forallb ahead (asked (r <- io_find_moov fuel m fuel len 0;; io_ret (Tag ft (moov_info r) (moov_atoms r))) f q1) = true /\
    run (r <- io_find_moov fuel m fuel len 0;; io_ret (Tag ft (moov_info r) (moov_atoms r))) f q1 = Ok (t, q) /\ (P q1 = true -> run_on P (io_remaining_stream_len m) f q1 = Ok (len, q1))).
  { rewrite run_bind in R. rewrite asked_bind, forallb_app in H. apply andb_prop in H. destruct H as [_ H].
    unfold io_remaining_stream_len in *. cbn [io_bind io_position io_seek_end run perform position seek_end get_pos] in R, H. cbn [io_bind io_position io_seek_end run run_on perform perform_on position seek_end get_pos].
    destruct (sub64 m (blen f) q1) as [len| | |]; cbn [io_lift io_bind io_seek_start run perform] in R, H; try discriminate. exists len. cbn [io_lift io_bind io_seek_start run run_on perform perform_on].
    unfold seek_start in *. destruct (q1 <? two63); [|discriminate]. cbn [run io_ret] in *. split; [reflexivity|]. split; [exact H|]. split; [exact R|]. intros ->. reflexivity. }
  destruct T as (len & _ & T2 & T3 & T4).
  assert (S2 : stays (r <- io_find_moov fuel m fuel len 0;; io_ret (Tag ft (moov_info r) (moov_atoms r)))) by (apply stays_bind; [apply stays_find|intro; exact I]).
  pose proof (ahead_up _ _ _ _ _ S2 T2 T3) as G. rewrite (ahead_on P _ f 0 ft q1 (stays_ftyp m) H1 E1) by (intros; apply HP; lia).
  rewrite run_on_bind, T4 by (apply HP; exact G). exact (ahead_on P _ f q1 t q S2 T2 T3 HP).
Qed.

(** * No seek that far *)

From Coq Require Import String.
From Verif Require Import TagSpec FileSpec FailSpec PanicSpec Display ErrSpec FirstSpec OutSpec.

Section Near.
  Context (m : mode) (f : bytes) (Lf : blen f < 2 ^ 62) (Sz : forall q id head size, box_at f q id head size -> size < 2 ^ 62).
  Definition near (o : out) : Prop := forall s, o <> Stops (Fails EIoSeek s).

  Lemma near_skipped : forall q id head size o, box_at f q id head size -> skipped m q head size o -> near o.
  Proof.
    intros q id head size o B H s E. pose proof (Sz _ _ _ _ B) as Z. destruct B as [B _]. assert (P62 : 2 ^ 62 = 4611686018427387904) by reflexivity. assert (P63 : 2 ^ 63 = 9223372036854775808) by reflexivity.
    destruct H; try discriminate; lia.
  Qed.
  Lemma near_ended : forall q id head size cur o, box_at f q id head size -> ended m q size cur o -> near o.
  Proof.
    intros q id head size cur o B H s E. pose proof (Sz _ _ _ _ B) as Z. destruct B as [B _]. assert (P62 : 2 ^ 62 = 4611686018427387904) by reflexivity. assert (P63 : 2 ^ 63 = 9223372036854775808) by reflexivity. assert (P64 : 2 ^ 64 = 18446744073709551616) by reflexivity.
    destruct H as [|e K _|e K _ L|]; try discriminate. destruct K as [[_ ->]|(_ & K & _)]; lia.
  Qed.
  Lemma near_head : forall q e s, head_wrong f q e s -> near (Stops (Fails e s)).
  Proof. intros q e s H t E. injection E as -> ->. inversion H. Qed.
  Lemma near_full : forall p top said e s, full_wrong f p top said e s -> near (Stops (Fails e s)).
  Proof. intros p top said e s H t E. injection E as -> ->. inversion H. Qed.
  Lemma near_taken : forall p n good bad o, near (Stops bad) -> taken f p n good bad o -> near o.
  Proof. intros p n good bad o N H. destruct H; try exact N; intros t E; discriminate. Qed.
  Lemma near_breaks : forall p, near (Stops (Breaks p)). Proof. intros p s E. discriminate. Qed.
  Lemma near_goes : forall p, near (Goes p). Proof. intros p s E. discriminate. Qed.
  Lemma near_fails : forall e s, e <> EIoSeek -> near (Stops (Fails e s)). Proof. intros e s N t E. injection E as -> _. now elim N. Qed.
  Ltac ns := first [apply near_breaks | apply near_goes | apply near_fails; discriminate | eapply near_head; eassumption | eapply near_full; eassumption | eapply near_skipped; eassumption | eapply near_ended; eassumption
    | eapply near_taken; [|eassumption]; apply near_fails; discriminate].
  Lemma near_type : forall o, type_out m f o -> near o. Proof. intros o H. destruct H; ns. Qed.
  Lemma near_value : forall q head size o, value_out m f q head size o -> near o. Proof. intros q head size o H. destruct H; ns. Qed.
  Lemma near_name : forall q head size o, name_out m f q head size o -> near o. Proof. intros q head size o H. destruct H; ns. Qed.
  Lemma near_header : forall q id head size o, box_at f q id head size -> header_out m f q head size o -> near o.
  Proof. intros q id head size o B H. destruct H as [e s W| | |]; try ns. destruct W; ns. Qed.
  Lemma near_descs : forall n p o, descs_out m f n p o -> near o. Proof. intros n p o H. destruct H; ns. Qed.
  Lemma near_entry : forall q id head size a o, box_at f q id head size -> entry_out m f q size a o -> near o.
  Proof. intros q id head size a o B H. pose proof (fun cur o => near_ended q id head size cur o B) as En. destruct H; try ns; [eapply near_descs; eassumption|eapply En; eassumption]. Qed.
  Lemma near_part : forall q id head size o, box_at f q id head size -> part_out m f q id head size o -> near o.
  Proof. intros q id head size o B H. destruct H; [eapply near_value|eapply near_name|ns]; eassumption. Qed.
  Lemma near_item : forall name n q0 o, item_out m f name n q0 o -> near o.
  Proof. intros name n q0 o H. destruct H; try ns. eapply near_part; eassumption. Qed.
  Lemma near_leaf : forall l q id head size ns o, box_at f q id head size -> leaf_out m f l q id head size ns o -> near o.
  Proof. intros l q id head size n o B H. destruct H; [eapply near_header|eapply near_entry| |eapply near_item|]; try eassumption; ns. Qed.
  Lemma near_enter : forall l skip q head size o, enter_out m f l skip q head size o -> near o.
  Proof. intros l skip q head size o H. destruct H; ns. Qed.
  Lemma near_stops : forall ns x, stops_with m f ns x -> near (Stops x).
  Proof.
    intros ns x H. destruct H; try ns.
    - now apply near_type.
    - eapply near_leaf; eassumption.
    - eapply near_enter; eassumption.
  Qed.
End Near.
