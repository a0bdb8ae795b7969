(** The read path on arbitrary bytes: truncated input, panics, termination. *)

From Coq Require Import List NArith ZArith Bool Lia Arith.
From Coq Require Import ZifyBool ZifyNat ZifyN.
From Verif Require Import Base BaseLemmas Utf UtfLemmas Types Stream Parse.
Import ListNotations.
Ltac Zify.zify_post_hook ::= Z.div_mod_to_equations.

(** * Predicates on readers closed under everything the parser uses *)

Record closed (m : mode) (Q : forall A, R A -> Prop) : Prop := {
  cl_ret : forall A (a : A), Q A (ret a);
  cl_bind : forall A B (r : R A) (k : A -> R B), Q A r -> (forall a, Q B (k a)) -> Q B (bind r k);
  cl_fail : forall A e, (forall c, e <> EUnknownDataType c) -> Q A (fail e);
  cl_unknown : forall c, ~ In c [0; 1; 2; 13; 14; 21; 27] -> Q data (fail (EUnknownDataType c));
  cl_read : forall n, Q bytes (read_exact n);
  cl_seek : forall d, Q unit (seek_cur d);
  cl_pos : Q N position;
  cl_add : forall a b, Q N (lift (add64 m a b));
  cl_sub : forall a b, Q N (lift (sub64 m a b));
  cl_ok : forall A (a : A), Q A (lift (Ok a));
  cl_cap : forall A, Q A (lift (Panic PCapacity));
  cl_nanos : forall a b, Q N (lift (mvhd_nanos m a b));
  cl_fuel : forall A, Q A outOfFuel
}.

Lemma data_unknown_fail : forall t n, ~ In t [0; 1; 2; 13; 14; 21; 27] -> data_parse t n = fail (EUnknownDataType t).
Proof.
  intros t n H. unfold data_parse.
  repeat match goal with |- match ?x with _ => _ end = _ => destruct x; try reflexivity end; exfalso; apply H; cbn; tauto.
Qed.

Section Closed.
  Context (m : mode) (Q : forall A, R A -> Prop) (C : closed m Q).

  Ltac step :=
    match goal with
    | |- Q _ (bind _ _) => apply (cl_bind m Q C); [|intro]
    | |- Q _ (ret _) => apply (cl_ret m Q C)
    | |- Q _ (fail _) => apply (cl_fail m Q C); discriminate
    | |- Q _ (read_exact _) => apply (cl_read m Q C)
    | |- Q _ (seek_cur _) => apply (cl_seek m Q C)
    | |- Q _ position => apply (cl_pos m Q C)
    | |- Q _ (lift (add64 _ _ _)) => apply (cl_add m Q C)
    | |- Q _ (lift (sub64 _ _ _)) => apply (cl_sub m Q C)
    | |- Q _ (lift (Ok _)) => apply (cl_ok m Q C)
    | |- Q _ (lift (Panic PCapacity)) => apply (cl_cap m Q C)
    | |- Q _ (lift (mvhd_nanos _ _ _)) => apply (cl_nanos m Q C)
    | |- Q _ outOfFuel => apply (cl_fuel m Q C)
    | |- Q _ (if ?b then _ else _) => destruct b
    | |- Q _ (let '(_, _) := ?x in _) => destruct x
    | |- Q _ (match ?x with _ => _ end) => destruct x
    | |- Q _ (let _ := _ in _) => cbv zeta
    | |- Q _ _ => assumption
    end.
  Ltac steps_ := repeat step.

  Lemma cl_u8 : Q _ read_u8. Proof. unfold read_u8. steps_. Qed.
  Lemma cl_u16 : Q _ read_u16. Proof. unfold read_u16. steps_. Qed.
  Lemma cl_u32 : Q _ read_u32. Proof. unfold read_u32. steps_. Qed.
  Lemma cl_u64 : Q _ read_u64. Proof. unfold read_u64. steps_. Qed.
  Lemma cl_vec : forall n, Q _ (read_u8_vec n). Proof. intros. unfold read_u8_vec. steps_. Qed.
  Lemma cl_utf8 : forall n, Q _ (read_utf8 n). Proof. intros. unfold read_utf8. steps_. apply cl_vec. Qed.
  Lemma cl_utf16 : forall n, Q _ (read_utf16 n). Proof. intros. unfold read_utf16. steps_. apply cl_vec. Qed.
  Lemma cl_head : Q _ parse_head.
  Proof. unfold parse_head. steps_; (apply cl_u32 || apply cl_u64). Qed.
  Lemma cl_full : Q _ parse_full_head. Proof. unfold parse_full_head. steps_. apply cl_u8. Qed.
  Lemma cl_content : forall s, Q _ (lift (content_len m s)).
  Proof. intros. unfold content_len. destruct (sz_ext s); steps_. Qed.
  Lemma cl_bounds : forall s, Q _ (find_bounds m s). Proof. intros. unfold find_bounds. steps_. Qed.
  Lemma cl_to_end : forall b, Q _ (seek_to_end m b).
  Proof. intros. unfold seek_to_end, bounds_end. steps_. Qed.
  Lemma cl_skip : forall h, Q _ (skip_atom m h).
  Proof. intros. unfold skip_atom. steps_. apply cl_content. Qed.

  Lemma cl_loop : forall {S} fuel limit (body : head -> S -> R S) parsed s,
    Q _ (lift limit) -> (forall h s, Q _ (body h s)) -> Q _ (atom_loop fuel m limit body parsed s).
  Proof.
    intros S fuel limit body. induction fuel as [|fuel IH]; intros parsed s L B; cbn [atom_loop]; [steps_|].
    apply (cl_bind m Q C); [exact L|intro]. step; [|steps_]. apply (cl_bind m Q C); [apply cl_head|intro].
    apply (cl_bind m Q C); [apply B|intro]. steps_. apply IH; assumption.
  Qed.
  Lemma cl_dloop : forall {S} fuel len (body : N -> N -> S -> R S) parsed s,
    (forall t l s, Q _ (body t l s)) -> Q _ (desc_loop fuel m len body parsed s).
  Proof.
    intros S fuel len body.
    assert (D : forall k hl l, Q _ (desc_len_loop k hl l)).
    { induction k as [|k IH]; intros hl l; cbn [desc_len_loop]; steps_; [apply cl_u8|apply IH]. }
    induction fuel as [|fuel IH]; intros parsed s B; cbn [desc_loop]; [steps_|].
    step; [|steps_]. apply (cl_bind m Q C); [unfold parse_desc_head; steps_; [apply cl_u8|apply D]|intros [[t hl] dl]].
    apply (cl_bind m Q C); [apply B|intro]. steps_. apply IH; assumption.
  Qed.
  Lemma cl_desc_head : Q _ parse_desc_head.
  Proof.
    assert (D : forall k hl l, Q _ (desc_len_loop k hl l)).
    { induction k as [|k IH]; intros hl l; cbn [desc_len_loop]; steps_; [apply cl_u8|apply IH]. }
    unfold parse_desc_head; steps_; [apply cl_u8|apply D].
  Qed.

  Lemma cl_data : forall t n, Q _ (data_parse t n).
  Proof.
    intros. destruct (in_dec N.eq_dec t [0; 1; 2; 13; 14; 21; 27]) as [I|I].
    - cbn in I. repeat (destruct I as [<-|I]; [unfold data_parse; steps_; (apply cl_vec || apply cl_utf8 || apply cl_utf16)|]). contradiction.
    - rewrite data_unknown_fail by exact I. apply (cl_unknown m Q C), I.
  Qed.
  Lemma cl_item_body : forall h a, Q _ (item_body m h a).
  Proof.
    intros. unfold item_body. steps_; (apply cl_full || apply cl_content || apply cl_data || apply cl_utf8 || apply cl_skip).
  Qed.
  Lemma cl_item : forall fuel i n, Q _ (atom_data_parse fuel m i n).
  Proof. intros. unfold atom_data_parse. steps_. apply cl_loop; [steps_|apply cl_item_body]. Qed.
  Lemma cl_ilst : forall fuel s, Q _ (ilst_parse fuel m s).
  Proof.
    intros. apply cl_loop; [apply cl_content|intros h l]. unfold ilst_body. steps_; (apply cl_skip || apply cl_content || apply cl_item).
  Qed.
  Lemma cl_meta : forall fuel s, Q _ (meta_parse fuel m s).
  Proof.
    intros. unfold meta_parse. steps_; [apply cl_full|]. apply cl_loop; [apply cl_content|intros h l]. unfold meta_body.
    steps_; (apply cl_skip || apply cl_ilst).
  Qed.
  Lemma cl_udta : forall fuel s, Q _ (udta_parse fuel m s).
  Proof.
    intros. apply cl_loop; [apply cl_content|intros h l]. unfold udta_body. steps_; (apply cl_skip || apply cl_meta).
  Qed.
  Lemma cl_ds : forall i n, Q _ (parse_ds_desc m i n).
  Proof. intros. unfold parse_ds_desc. steps_. apply cl_u16. Qed.
  Lemma cl_dc : forall fuel i n, Q _ (parse_dc_desc fuel m i n).
  Proof.
    intros. unfold parse_dc_desc. steps_; try apply cl_u32. apply cl_dloop. intros. unfold dc_body. steps_. apply cl_ds.
  Qed.
  Lemma cl_es : forall fuel i n, Q _ (parse_es_desc fuel m i n).
  Proof.
    intros. unfold parse_es_desc. steps_. apply cl_dloop. intros. unfold es_body. steps_. apply cl_dc.
  Qed.
  Lemma cl_esds : forall fuel i s, Q _ (parse_esds fuel m i s).
  Proof.
    intros. unfold parse_esds. steps_; (apply cl_full || apply cl_desc_head || apply cl_content || apply cl_es).
  Qed.
  Lemma cl_mp4a : forall fuel s, Q _ (mp4a_parse fuel m s).
  Proof.
    intros. unfold mp4a_parse. steps_; (apply cl_bounds || apply cl_head || apply cl_esds || apply cl_to_end).
  Qed.
  Lemma cl_stsd : forall fuel s, Q _ (stsd_parse fuel m s).
  Proof.
    intros. unfold stsd_parse. steps_; [apply cl_full|]. apply cl_loop; [apply cl_content|intros h l]. unfold stsd_body.
    steps_; (apply cl_skip || apply cl_mp4a).
  Qed.
  Lemma cl_stbl : forall fuel s, Q _ (stbl_parse fuel m s).
  Proof. intros. apply cl_loop; [apply cl_content|intros h l]. unfold stbl_body. steps_; (apply cl_skip || apply cl_stsd). Qed.
  Lemma cl_minf : forall fuel s, Q _ (minf_parse fuel m s).
  Proof. intros. apply cl_loop; [apply cl_content|intros h l]. unfold minf_body. steps_; (apply cl_skip || apply cl_stbl). Qed.
  Lemma cl_mdia : forall fuel s, Q _ (mdia_parse fuel m s).
  Proof. intros. apply cl_loop; [apply cl_content|intros h l]. unfold mdia_body. steps_; (apply cl_skip || apply cl_minf). Qed.
  Lemma cl_trak : forall fuel s, Q _ (trak_parse fuel m s).
  Proof. intros. apply cl_loop; [apply cl_content|intros h l]. unfold trak_body. steps_; (apply cl_skip || apply cl_mdia). Qed.
  Lemma cl_mvhd : forall s, Q _ (mvhd_parse m s).
  Proof.
    intros. unfold mvhd_parse. apply (cl_bind m Q C); [apply cl_bounds|intro]. apply (cl_bind m Q C); [apply cl_full|intro].
    apply (cl_bind m Q C); [|intro; steps_; apply cl_to_end]. destruct (fst a0) as [|[]]; steps_; (apply cl_u32 || apply cl_u64).
  Qed.
  Lemma cl_moov : forall fuel s, Q _ (moov_parse fuel m s).
  Proof.
    intros. apply cl_loop; [apply cl_content|intros h l]. unfold moov_body.
    steps_; (apply cl_skip || apply cl_mvhd || apply cl_trak || apply cl_udta).
  Qed.
  Lemma cl_ftyp : Q _ (ftyp_parse m).
  Proof. unfold ftyp_parse. steps_; (apply cl_head || apply cl_content || apply cl_utf8). Qed.
  Lemma cl_find : forall fuel inner len parsed, Q _ (find_moov fuel m inner len parsed).
  Proof.
    induction fuel as [|fuel IH]; intros; cbn [find_moov]; steps_; (apply cl_head || apply cl_moov || apply cl_skip || apply IH).
  Qed.
End Closed.

(** * Only unknown type codes are reported as unknown *)

Definition only_unknown (A : Type) (r : R A) : Prop :=
  forall f p c, r f p = Err (EUnknownDataType c) -> ~ In c [0; 1; 2; 13; 14; 21; 27].
Lemma closed_only_unknown : forall m, closed m only_unknown.
Proof.
  intros m. constructor; unfold only_unknown; intros; try discriminate.
  - unfold bind in H1. destruct (r f p) as [[]| | |] eqn:E; try discriminate; [eapply H0; eassumption|].
    eapply H. rewrite E. congruence.
  - unfold fail in H0. injection H0 as ->. exfalso. eapply H. reflexivity.
  - unfold fail in H0. injection H0 as <-. exact H.
  - unfold read_exact in H. destruct (n =? 0); [discriminate|]. destruct (_ <=? _); discriminate.
  - unfold seek_cur in H. destruct (_ && _)%bool; discriminate.
  - unfold lift, add64 in H. destruct (_ <? _); [|destruct m]; discriminate.
  - unfold lift, sub64 in H. destruct (_ <=? _); [|destruct m]; discriminate.
  - unfold lift, mvhd_nanos, mul64, rbind, div64 in H. destruct (_ <? _); destruct m; try destruct (a =? 0); discriminate.
Qed.
Theorem read_only_unknown : forall fuel m f p c, read_tag_from fuel m f p = Err (EUnknownDataType c) -> ~ In c [0; 1; 2; 13; 14; 21; 27].
Proof.
  intros fuel m. change (only_unknown _ (read_tag_from fuel m)). pose proof (closed_only_unknown m) as C. unfold read_tag_from.
  apply (cl_bind _ _ C); [apply (cl_ftyp _ _ C)|intro]. apply (cl_bind _ _ C).
  { intros f p c. unfold remaining_stream_len, bind, position, seek_end, lift, sub64, seek_start, ret.
    destruct (_ <=? _); cbn; [|destruct m]; try destruct (_ <? _); discriminate. }
  intro. apply (cl_bind _ _ C); [apply (cl_find _ _ C)|intro; apply (cl_ret _ _ C)].
Qed.

(** * Panics with overflow checks off *)

Definition no_overflow (A : Type) (r : R A) : Prop := forall f p, r f p <> Panic POverflow.
Lemma closed_no_overflow : closed Wrapping no_overflow.
Proof.
  constructor; unfold no_overflow; intros; try discriminate.
  - unfold bind. specialize (H f p). destruct (r f p) as [[]| | |]; try discriminate; [apply H0|congruence].
  - unfold read_exact. destruct (n =? 0); [discriminate|]. destruct (_ <=? _); discriminate.
  - unfold seek_cur. destruct (_ && _)%bool; discriminate.
  - unfold lift, add64. destruct (_ <? _); discriminate.
  - unfold lift, sub64. destruct (_ <=? _); discriminate.
  - unfold lift, mvhd_nanos, mul64, rbind, div64. destruct (_ <? _); destruct (a =? 0); discriminate.
Qed.

Theorem read_wrapping_panics : forall fuel f p, read_tag_from fuel Wrapping f p <> Panic POverflow.
Proof.
  intros fuel. change (no_overflow _ (read_tag_from fuel Wrapping)). pose proof closed_no_overflow as C. unfold read_tag_from.
  apply (cl_bind _ _ C); [apply (cl_ftyp _ _ C)|intro]. apply (cl_bind _ _ C).
  { intros f p. unfold remaining_stream_len, bind, position, seek_end, lift, sub64, seek_start, ret.
    destruct (_ <=? _); cbn; destruct (_ <? _); discriminate. }
  intro. apply (cl_bind _ _ C); [apply (cl_find _ _ C)|intro]. apply (cl_ret _ _ C).
Qed.

(** * Truncated input *)

Definition tolerant (A : Type) (r : R A) : Prop :=
  forall f g p v q, r (f ++ g) p = Ok (v, q) -> r f p = Ok (v, q) \/ r f p = Err EIoEof.

Lemma closed_tolerant : forall m, closed m tolerant.
Proof.
  intros m. constructor; unfold tolerant; intros; try (left; assumption); try discriminate.
  - unfold bind in *. destruct (r (f ++ g) p) as [[a q']| | |] eqn:E; try discriminate.
    destruct (H f g p a q' E) as [->| ->]; [|right; reflexivity]. apply (H0 a f g q' v q H1).
  - unfold read_exact in *. destruct (n =? 0); [left; exact H|]. rewrite blen_app in H.
    destruct (p + n <=? blen f + blen g) eqn:E; [|discriminate]. destruct (p + n <=? blen f) eqn:E2; [left|right; reflexivity].
    injection H as <- <-. unfold slice. rewrite skipn_app, firstn_app. unfold blen in *.
    rewrite skipn_length. replace (N.to_nat n - _)%nat with 0%nat by lia. rewrite firstn_O, app_nil_r. reflexivity.
Qed.

(** The loop over the top-level atoms with a smaller length. *)
Lemma find_moov_trunc : forall m fuel inner len len' parsed f g p y q, len' <= len ->
  find_moov fuel m inner len parsed (f ++ g) p = Ok (y, q) ->
  find_moov fuel m inner len' parsed f p = Ok (y, q) \/ find_moov fuel m inner len' parsed f p = Err EIoEof \/
  find_moov fuel m inner len' parsed f p = Err (EAtomNotFound MOVIE).
Proof.
  intros m. pose proof (closed_tolerant m) as C.
  induction fuel as [|fuel IH]; intros inner len len' parsed f g p y q L H; [discriminate|]. cbn [find_moov] in *.
  destruct (len <=? parsed) eqn:E1; [discriminate|]. destruct (len' <=? parsed) eqn:E2; [right; right; reflexivity|].
  unfold bind in H |- *. destruct (parse_head (f ++ g) p) as [[h p1]| | |] eqn:E3; try discriminate.
  destruct (cl_head m _ C _ _ _ _ _ E3) as [->| ->]; [|right; left; reflexivity].
  destruct (fourcc_eqb (hd_fourcc h) MOVIE).
  - destruct (cl_moov m _ C inner (hd_size h) _ _ _ _ _ H) as [->| ->]; [left|right; left]; reflexivity.
  - destruct (skip_atom m h (f ++ g) p1) as [[[] p2]| | |] eqn:E4; try discriminate.
    destruct (cl_skip m _ C h _ _ _ _ _ E4) as [->| ->]; [|right; left; reflexivity].
    unfold lift in *. destruct (add64 m parsed (sz_len (hd_size h))); try discriminate. eapply IH; [|eassumption]. exact L.
Qed.

(** Readers that do not seek stay inside the file. *)
Definition inside {A} (r : R A) : Prop := forall f p v q, r f p = Ok (v, q) -> p <= blen f -> q <= blen f.
Lemma inside_bind : forall {A B} (r : R A) (k : A -> R B), inside r -> (forall a, inside (k a)) -> inside (bind r k).
Proof.
  intros A B r k H K f p v q. unfold bind. destruct (r f p) as [[a q']| | |] eqn:E; try discriminate.
  intros E2 P. eapply K; [exact E2|]. eapply H; eassumption.
Qed.
Lemma inside_read : forall n, inside (read_exact n).
Proof.
  intros n f p v q. unfold read_exact. destruct (n =? 0); [congruence|]. destruct (p + n <=? blen f) eqn:E; [|discriminate].
  intros H _. injection H as _ <-. lia.
Qed.
Lemma inside_ret : forall {A} (a : A), inside (ret a).
Proof. intros A a f p v q H. injection H as _ <-. auto. Qed.
Lemma inside_lift : forall {A} (a : res A), inside (lift a).
Proof. intros A a f p v q H. unfold lift in H. destruct a; try discriminate. injection H as _ <-. auto. Qed.
Lemma inside_fail : forall {A} e, inside (@fail A e).
Proof. intros A e f p v q H. discriminate. Qed.
Lemma ftyp_inside : forall m, inside (ftyp_parse m).
Proof.
  intros m. unfold ftyp_parse, parse_head, read_u32, read_u64, read_utf8, read_u8_vec.
  repeat match goal with
  | |- inside (bind _ _) => apply inside_bind; [|intro]
  | |- inside (ret _) => apply inside_ret
  | |- inside (fail _) => apply inside_fail
  | |- inside (lift _) => apply inside_lift
  | |- inside (read_exact _) => apply inside_read
  | |- inside (let _ := _ in _) => cbv zeta
  | |- inside (if ?b then _ else _) => destruct b
  | |- inside (match ?x with _ => _ end) => destruct x
  end.
Qed.

Theorem read_truncated : forall fuel m f g t q,
  read_tag_from fuel m (f ++ g) 0 = Ok (t, q) ->
  read_tag_from fuel m f 0 = Ok (t, q) \/ (exists e, read_tag_from fuel m f 0 = Err e) .
Proof.
  intros fuel m f g t q H. pose proof (closed_tolerant m) as C. unfold read_tag_from, bind in *.
  destruct (ftyp_parse m (f ++ g) 0) as [[ft p1]| | |] eqn:E1; try discriminate.
  assert (P1 : ftyp_parse m f 0 = Ok (ft, p1) -> p1 <= blen f) by (intros E; eapply ftyp_inside; [exact E|apply N.le_0_l]).
  destruct (cl_ftyp m _ C _ _ _ _ _ E1) as [E2|E2]; rewrite E2; [|right; eexists; reflexivity].
  specialize (P1 E2). unfold remaining_stream_len, bind, position, seek_end, lift, seek_start, ret in *.
  rewrite sub64_ok in H by (rewrite blen_app; lia). rewrite sub64_ok by exact P1.
  destruct (p1 <? two63); [|discriminate].
  destruct (find_moov fuel m fuel (blen (f ++ g) - p1) 0 (f ++ g) p1) as [[y q']| | |] eqn:E3; try discriminate.
  destruct (find_moov_trunc m fuel fuel (blen (f ++ g) - p1) (blen f - p1) 0 f g p1 y q' ltac:(rewrite blen_app; lia) E3) as [->|[->| ->]];
    [left; exact H|right; eexists; reflexivity|right; eexists; reflexivity].
Qed.

(** * Termination with overflow checks on *)

Definition nf {A} (r : R A) : Prop := forall f p, r f p <> Fuel.
Lemma nf_bind : forall {A B} (r : R A) (k : A -> R B), nf r -> (forall a, nf (k a)) -> nf (bind r k).
Proof.
  intros A B r k H K f p. unfold bind. specialize (H f p). destruct (r f p) as [[a q]| | |]; try discriminate; [apply K|congruence].
Qed.
(** A bind whose continuation is only interesting for results the first part can have. *)
Lemma nf_bind_p : forall {A B} (r : R A) (k : A -> R B) (P : A -> Prop), nf r ->
  (forall f p a q, r f p = Ok (a, q) -> P a) -> (forall a, P a -> nf (k a)) -> nf (bind r k).
Proof.
  intros A B r k P H HP K f p. unfold bind. specialize (H f p). destruct (r f p) as [[a q]| | |] eqn:E; try discriminate; [|congruence].
  apply K. eapply HP, E.
Qed.
Lemma nf_ret : forall {A} (a : A), nf (ret a). Proof. intros A a f p. discriminate. Qed.
Lemma nf_fail : forall {A} e, nf (@fail A e). Proof. intros A a f p. discriminate. Qed.
Lemma nf_read : forall n, nf (read_exact n).
Proof. intros n f p. unfold read_exact. destruct (n =? 0); [discriminate|]. destruct (_ <=? _); discriminate. Qed.
Lemma nf_seek : forall n, nf (seek_cur n).
Proof. intros n f p. unfold seek_cur. destruct (_ && _)%bool; discriminate. Qed.
Lemma nf_pos : nf position. Proof. intros f p. discriminate. Qed.
Lemma nf_lift : forall {A} (r : res A), r <> Fuel -> nf (lift r).
Proof. intros A r H f p. unfold lift. destruct r; congruence. Qed.
Lemma nf_add : forall m a b, add64 m a b <> Fuel.
Proof. intros. unfold add64. destruct (_ <? _); [discriminate|]. destruct m; discriminate. Qed.
Lemma nf_sub : forall m a b, sub64 m a b <> Fuel.
Proof. intros. unfold sub64. destruct (_ <=? _); [discriminate|]. destruct m; discriminate. Qed.
Lemma nf_content : forall m s, content_len m s <> Fuel.
Proof. intros. unfold content_len. destruct (sz_ext s); apply nf_sub. Qed.
Lemma nf_nanos : forall m a b, mvhd_nanos m a b <> Fuel.
Proof.
  intros. unfold mvhd_nanos, mul64, rbind, div64. destruct (_ <? _); [|destruct m]; try discriminate; destruct (a =? 0); discriminate.
Qed.

Ltac nf :=
  repeat match goal with
  | |- nf (bind _ _) => apply nf_bind; [|intro]
  | |- nf (ret _) => apply nf_ret
  | |- nf (fail _) => apply nf_fail
  | |- nf (read_exact _) => apply nf_read
  | |- nf (seek_cur _) => apply nf_seek
  | |- nf position => apply nf_pos
  | |- nf (lift (add64 _ _ _)) => apply nf_lift, nf_add
  | |- nf (lift (sub64 _ _ _)) => apply nf_lift, nf_sub
  | |- nf (lift (content_len _ _)) => apply nf_lift, nf_content
  | |- nf (lift (mvhd_nanos _ _ _)) => apply nf_lift, nf_nanos
  | |- nf (lift (Panic _)) => apply nf_lift; discriminate
  | |- nf (lift (Ok _)) => apply nf_lift; discriminate
  | |- nf (if ?b then _ else _) => destruct b
  | |- nf (let '(_, _) := ?x in _) => destruct x
  | |- nf (match ?x with _ => _ end) => destruct x
  | |- nf (let _ := _ in _) => cbv zeta
  end.

Lemma nf_head : nf parse_head. Proof. unfold parse_head, read_u32, read_u64. nf. Qed.
Lemma nf_full : nf parse_full_head. Proof. unfold parse_full_head, read_u8. nf. Qed.
Lemma nf_skip : forall m h, nf (skip_atom m h). Proof. intros. unfold skip_atom. nf. Qed.
Lemma nf_dlen : forall k hl l, nf (desc_len_loop k hl l).
Proof. induction k as [|k IH]; intros; cbn [desc_len_loop]; unfold read_u8; nf. apply IH. Qed.
Lemma nf_dhead : nf parse_desc_head. Proof. unfold parse_desc_head, read_u8. nf. apply nf_dlen. Qed.
Lemma nf_data : forall t n, nf (data_parse t n).
Proof. intros. unfold data_parse, read_utf8, read_utf16, read_u8_vec. nf. Qed.
Lemma nf_utf8 : forall n, nf (read_utf8 n). Proof. intros. unfold read_utf8, read_u8_vec. nf. Qed.

(** Inversion of successful runs. *)
Lemma bind_inv : forall {A B} (r : R A) (k : A -> R B) f p v q, bind r k f p = Ok (v, q) ->
  exists a p', r f p = Ok (a, p') /\ k a f p' = Ok (v, q).
Proof. intros A B r k f p v q H. unfold bind in H. destruct (r f p) as [[a p']| | |]; try discriminate. eauto. Qed.
Lemma lift_inv : forall {A} (x : res A) f p v q, lift x f p = Ok (v, q) -> x = Ok v /\ q = p.
Proof. intros A x f p v q H. unfold lift in H. destruct x; try discriminate. injection H as <- <-. auto. Qed.
Lemma sub_checked : forall a b v, sub64 Checked a b = Ok v -> b <= a /\ v = a - b.
Proof. intros a b v. unfold sub64. destruct (b <=? a) eqn:E; [|discriminate]. intros H. injection H as <-. lia. Qed.
Lemma add_checked : forall a b v, add64 Checked a b = Ok v -> a + b < two64 /\ v = a + b.
Proof. intros a b v. unfold add64. destruct (a + b <? two64) eqn:E; [|discriminate]. intros H. injection H as <-. lia. Qed.

Definition sane (s : size) : Prop := if sz_ext s then 16 <= sz_len s else 8 <= sz_len s.
Lemma content_checked : forall s v, content_len Checked s = Ok v -> sane s.
Proof. intros s v. unfold content_len, sane. destruct (sz_ext s); intros H; apply sub_checked in H; lia. Qed.
Lemma head_checked : forall f p h q, parse_head f p = Ok (h, q) -> sz_ext (hd_size h) = true \/ 8 <= sz_len (hd_size h).
Proof.
  intros f p h q H. unfold parse_head in H. apply bind_inv in H. destruct H as (len & p1 & _ & H).
  apply bind_inv in H. destruct H as (id & p2 & _ & H). cbv zeta in H. destruct (len =? 1).
  - apply bind_inv in H. destruct H as (l & p3 & _ & H). injection H as <- <-. left. reflexivity.
  - destruct (len <? 8) eqn:E; [discriminate|]. injection H as <- <-. right. cbn. lia.
Qed.

(** [r] succeeds only for sane sizes. *)
Definition guards {A} (s : size) (r : R A) : Prop := forall f p v q, r f p = Ok (v, q) -> sane s.
Lemma guards_l : forall {A B} s (r : R A) (k : A -> R B), guards s r -> guards s (bind r k).
Proof. intros A B s r k H f p v q E. apply bind_inv in E. destruct E as (a & p' & E & _). eapply H, E. Qed.
Lemma guards_r : forall {A B} s (r : R A) (k : A -> R B), (forall a, guards s (k a)) -> guards s (bind r k).
Proof. intros A B s r k H f p v q E. apply bind_inv in E. destruct E as (a & p' & _ & E). eapply H, E. Qed.
Lemma guards_content : forall s, guards s (lift (content_len Checked s)).
Proof. intros s f p v q E. apply lift_inv in E. eapply content_checked, E. Qed.
Lemma guards_fail : forall {A} s e, guards s (@fail A e). Proof. intros A s e f p v q E. discriminate. Qed.
Lemma guards_skip : forall h, guards (hd_size h) (skip_atom Checked h).
Proof. intros h. apply guards_l, guards_content. Qed.
Lemma guards_loop : forall {S} fuel s body parsed (x : S), guards s (atom_loop fuel Checked (content_len Checked s) body parsed x).
Proof. intros S [|fuel] s body parsed x; [intros f p v q E; discriminate|]. cbn [atom_loop]. apply guards_l, guards_content. Qed.

(** Readers that never move backwards. *)
Definition fwd {A} (r : R A) : Prop := forall f p v q, r f p = Ok (v, q) -> p <= q.
Lemma fwd_bind : forall {A B} (r : R A) (k : A -> R B), fwd r -> (forall a, fwd (k a)) -> fwd (bind r k).
Proof.
  intros A B r k H K f p v q E. apply bind_inv in E. destruct E as (a & p' & E1 & E2). apply H in E1. apply K in E2. lia.
Qed.
Lemma fwd_bind_p : forall {A B} (r : R A) (k : A -> R B) (P : A -> Prop), fwd r ->
  (forall f p a q, r f p = Ok (a, q) -> P a) -> (forall a, P a -> fwd (k a)) -> fwd (bind r k).
Proof.
  intros A B r k P H HP K f p v q E. apply bind_inv in E. destruct E as (a & p' & E1 & E2).
  pose proof (HP _ _ _ _ E1) as Pa. apply H in E1. apply (K a Pa) in E2. lia.
Qed.
Lemma fwd_ret : forall {A} (a : A), fwd (ret a). Proof. intros A a f p v q H. injection H as _ <-. lia. Qed.
Lemma fwd_fail : forall {A} e, fwd (@fail A e). Proof. intros A e f p v q H. discriminate. Qed.
Lemma fwd_lift : forall {A} (x : res A), fwd (lift x).
Proof. intros A x f p v q H. apply lift_inv in H. destruct H as [_ ->]. lia. Qed.
Lemma fwd_read : forall n, fwd (read_exact n).
Proof.
  intros n f p v q. unfold read_exact. destruct (n =? 0); [intros H; injection H as _ <-; lia|].
  destruct (_ <=? _); [|discriminate]. intros H; injection H as _ <-; lia.
Qed.
Lemma fwd_seek : forall d, (0 <= d)%Z -> fwd (seek_cur d).
Proof.
  intros d D f p v q. unfold seek_cur. destruct (_ && _)%bool; [|discriminate]. intros H; injection H as _ <-. lia.
Qed.
Lemma fwd_full : fwd parse_full_head.
Proof. unfold parse_full_head, read_u8. repeat (apply fwd_bind; [|intro]); try apply fwd_read; apply fwd_ret. Qed.
Lemma fwd_head : fwd parse_head.
Proof.
  unfold parse_head, read_u32, read_u64. apply fwd_bind; [apply fwd_bind; [apply fwd_read|intro; apply fwd_ret]|intro].
  apply fwd_bind; [apply fwd_read|intro]. cbv zeta. destruct (_ =? 1).
  - apply fwd_bind; [apply fwd_bind; [apply fwd_read|intro; apply fwd_ret]|intro; apply fwd_ret].
  - destruct (_ <? 8); [apply fwd_fail|apply fwd_ret].
Qed.
Lemma fwd_u8 : fwd read_u8. Proof. apply fwd_bind; [apply fwd_read|intro; apply fwd_ret]. Qed.
Lemma fwd_u16 : fwd read_u16. Proof. apply fwd_bind; [apply fwd_read|intro; apply fwd_ret]. Qed.
Lemma fwd_u32 : fwd read_u32. Proof. apply fwd_bind; [apply fwd_read|intro; apply fwd_ret]. Qed.
Lemma fwd_u64 : fwd read_u64. Proof. apply fwd_bind; [apply fwd_read|intro; apply fwd_ret]. Qed.
Lemma fwd_dlen : forall k hl l, fwd (desc_len_loop k hl l).
Proof.
  induction k as [|k IH]; intros; cbn [desc_len_loop]; [apply fwd_ret|]. apply fwd_bind; [apply fwd_u8|intro].
  cbv zeta. destruct (_ <? 128); [apply fwd_ret|apply IH].
Qed.
Lemma fwd_dhead : fwd parse_desc_head.
Proof. apply fwd_bind; [apply fwd_u8|intro]. apply fwd_bind; [apply fwd_dlen|intro]. apply fwd_ret. Qed.

(** Descriptor lengths have at most 28 bits. *)
Lemma dlen_inv : forall k hl l f p v q, desc_len_loop k hl l f p = Ok (v, q) ->
  snd v < (l + 1) * 128 ^ N.of_nat k /\ hl + (if (k =? 0)%nat then 0 else 1) <= fst v.
Proof.
  induction k as [|k IH]; intros hl l f p v q H; cbn [desc_len_loop] in H.
  - injection H as <- <-. cbn [fst snd]. change (128 ^ N.of_nat 0) with 1. cbn. lia.
  - apply bind_inv in H. destruct H as (b & p' & _ & H). cbv zeta in H.
    replace (N.of_nat (S k)) with (N.of_nat k + 1) by lia. rewrite N.pow_add_r, N.pow_1_r.
    assert (P : 1 <= 128 ^ N.of_nat k) by (pose proof (N.pow_nonzero 128 (N.of_nat k)); lia).
    pose proof (N.mod_lt b 128 ltac:(lia)). cbn [Nat.eqb]. destruct (b <? 128).
    + injection H as <- <-. cbn [fst snd]. set (x := 128 ^ N.of_nat k) in *. clearbody x. nia.
    + apply IH in H. destruct H as [H1 H2]. split; [|destruct (k =? 0)%nat; lia].
      set (x := 128 ^ N.of_nat k) in *. clearbody x. nia.
Qed.
Lemma dhead_inv : forall f p v q, parse_desc_head f p = Ok (v, q) -> snd v < 2 ^ 28 /\ 2 <= snd (fst v).
Proof.
  intros f p v q H. apply bind_inv in H. destruct H as (t & p1 & _ & H). apply bind_inv in H. destruct H as (h & p2 & E & H).
  apply dlen_inv in E. injection H as <- <-. cbn [fst snd]. change ((0 + 1) * 128 ^ N.of_nat 4) with (2 ^ 28) in E. cbn in E. lia.
Qed.

Lemma fwd_dloop : forall {S} fuel len (body : N -> N -> S -> R S) parsed s,
  (forall t l s, l < 2 ^ 28 -> fwd (body t l s)) -> fwd (desc_loop fuel Checked len body parsed s).
Proof.
  intros S fuel len body. induction fuel as [|fuel IH]; intros parsed s B; [intros f p v q H; discriminate|]. cbn [desc_loop].
  destruct (_ <? _); [|apply fwd_ret].
  eapply fwd_bind_p; [apply fwd_dhead|intros f p a q H; exact (proj1 (dhead_inv f p a q H))|].
  intros [[t hl] dl] Hd. cbn [snd] in Hd. apply fwd_bind; [apply B, Hd|intro]. apply fwd_bind; [apply fwd_lift|intro].
  apply fwd_bind; [apply fwd_lift|intro]. apply IH, B.
Qed.
Lemma fwd_esds : forall fuel i s, fwd (parse_esds fuel Checked i s).
Proof.
  intros. unfold parse_esds. apply fwd_bind; [apply fwd_full|intro]. destruct (negb _); [apply fwd_fail|].
  apply fwd_bind; [apply fwd_dhead|intros [[t hl] dl]]. destruct (negb _); [apply fwd_fail|].
  do 3 (apply fwd_bind; [apply fwd_lift|intro]). unfold parse_es_desc. apply fwd_bind; [apply fwd_seek; lia|intro].
  apply fwd_dloop. intros t' l s' L. unfold es_body. destruct (_ =? 4).
  - unfold parse_dc_desc. apply fwd_bind; [apply fwd_seek; lia|intro]. do 2 (apply fwd_bind; [apply fwd_u32|intro]).
    apply fwd_dloop. intros t2 l2 s2 L2. unfold dc_body. destruct (_ =? 5).
    + unfold parse_ds_desc. apply fwd_bind; [apply fwd_u16|intro]. cbv zeta.
      eapply fwd_bind_p with (P := fun d => d < two63); [apply fwd_lift| |].
      * intros f p v q H. apply lift_inv in H. destruct H as [H _]. apply sub_checked in H. unfold two63. lia.
      * intros d D. apply fwd_bind; [apply fwd_seek; rewrite as_i64_small by exact D; lia|intro; apply fwd_ret].
    + apply fwd_bind; [apply fwd_seek; rewrite as_i64_small by (unfold two63; lia); lia|intro; apply fwd_ret].
  - apply fwd_bind; [apply fwd_seek; rewrite as_i64_small by (unfold two63; lia); lia|intro; apply fwd_ret].
Qed.

(** Atoms skipped with [seek_to_end] (mvhd, mp4a). *)
Lemma to_end_sane : forall {A} (r : R A) s, (sz_ext s = true \/ 8 <= sz_len s) -> fwd r ->
  guards s (b <- find_bounds Checked s ;; x <- r ;; seek_to_end Checked b ;;; ret x).
Proof.
  intros A r s Hs F f p v q H. apply bind_inv in H. destruct H as (b & p1 & E & H).
  unfold find_bounds in E. apply bind_inv in E. destruct E as (c & p2 & Ec & E). injection Ec as <- <-.
  apply bind_inv in E. destruct E as (pos & p3 & Ep & E). apply lift_inv in Ep. destruct Ep as [Ep ->]. injection E as <- <-.
  apply sub_checked in Ep. apply bind_inv in H. destruct H as (x & p4 & Er & H). apply F in Er.
  apply bind_inv in H. destruct H as (u & p5 & Ee & _). unfold seek_to_end in Ee. apply bind_inv in Ee.
  destruct Ee as (cur & p6 & Ec & Ee). injection Ec as <- <-. apply bind_inv in Ee. destruct Ee as (e & p7 & E1 & Ee).
  apply lift_inv in E1. destruct E1 as [E1 ->]. unfold bounds_end in E1. apply add_checked in E1. cbn [b_pos b_size] in E1.
  apply bind_inv in Ee. destruct Ee as (d & p8 & E2 & _). apply lift_inv in E2. destruct E2 as [E2 ->]. apply sub_checked in E2.
  unfold sane, head_len in *. destruct (sz_ext s); lia.
Qed.

Lemma bind_assoc : forall {A B C} (r : R A) (g : A -> R B) (h : B -> R C) f p,
  bind r (fun x => bind (g x) h) f p = bind (bind r g) h f p.
Proof. intros A B C r g h f p. unfold bind. destruct (r f p) as [[]| | |]; reflexivity. Qed.

Lemma guards_mvhd : forall s, (sz_ext s = true \/ 8 <= sz_len s) -> guards s (mvhd_parse Checked s).
Proof.
  intros s Hs f p v q H.
  refine (to_end_sane (vf <- parse_full_head ;; _) s Hs _ f p v q _).
  2:{ unfold mvhd_parse in H. unfold bind at 1 in H. unfold bind at 1. destruct (find_bounds Checked s f p) as [[b p1]| | |]; try discriminate.
      rewrite bind_assoc in H. exact H. }
  apply fwd_bind; [apply fwd_full|intro]. destruct (fst a) as [|[?|?|]]; try apply fwd_fail;
    (apply fwd_bind; [apply fwd_seek; lia|intro]; apply fwd_bind; [apply fwd_u32|intro]; apply fwd_bind; [apply fwd_u32 || apply fwd_u64|intro]; apply fwd_lift).
Qed.
Lemma guards_mp4a : forall fuel s, (sz_ext s = true \/ 8 <= sz_len s) -> guards s (mp4a_parse fuel Checked s).
Proof.
  intros fuel s Hs f p v q H.
  refine (to_end_sane (seek_cur 28 ;;; h <- parse_head ;;
     (if negb (fourcc_eqb (hd_fourcc h) ELEMENTARY_STREAM_DESCRIPTION)
      then fail (EAtomNotFound ELEMENTARY_STREAM_DESCRIPTION) else parse_esds fuel Checked mp4a_default (hd_size h))) s Hs _ f p v q _).
  - apply fwd_bind; [apply fwd_seek; lia|intro]. apply fwd_bind; [apply fwd_head|intro]. destruct (negb _); [apply fwd_fail|apply fwd_esds].
  - unfold mp4a_parse in H. unfold bind at 1 in H. unfold bind at 1. destruct (find_bounds Checked s f p) as [[b p1]| | |]; try discriminate.
    rewrite <- bind_assoc. unfold bind at 1 in H. unfold bind at 1. destruct (seek_cur 28 f p1) as [[u p2]| | |]; try discriminate.
    rewrite <- bind_assoc. unfold bind at 1 in H. unfold bind at 1. destruct (parse_head f p2) as [[h p3]| | |]; try discriminate.
    destruct (negb _); [discriminate|]. exact H.
Qed.

(** A loop body that succeeds only for sane heads. *)
Definition guarded {S} (body : head -> S -> R S) : Prop :=
  forall h s, (sz_ext (hd_size h) = true \/ 8 <= sz_len (hd_size h)) -> guards (hd_size h) (body h s).

Definition big (fuel : nat) : Prop := 2 ^ 64 < 2 * N.of_nat fuel.

Lemma nf_loop : forall {S} fuel limit (body : head -> S -> R S) parsed s,
  limit <> Fuel -> (forall h s, nf (body h s)) -> guarded body ->
  parsed < 2 ^ 64 -> 2 ^ 64 < parsed + 2 * N.of_nat fuel -> nf (atom_loop fuel Checked limit body parsed s).
Proof.
  intros S fuel limit body. induction fuel as [|fuel IH]; intros parsed s L B G P Fu; [lia|]. cbn [atom_loop].
  apply nf_bind; [apply nf_lift, L|intro]. destruct (_ <? _); [|apply nf_ret].
  intros f p. unfold bind at 1. pose proof (nf_head f p). destruct (parse_head f p) as [[h p1]| | |] eqn:E; try discriminate; [|congruence].
  unfold bind at 1. pose proof (B h s f p1). destruct (body h s f p1) as [[s1 p2]| | |] eqn:E2; try discriminate; [|congruence].
  pose proof (G h s (head_checked _ _ _ _ E) _ _ _ _ E2) as Sn.
  unfold bind, lift. destruct (add64 Checked parsed (sz_len (hd_size h))) as [parsed'| | |] eqn:E3; try discriminate.
  - apply add_checked in E3. apply IH; auto; unfold sane, two64 in *; destruct (sz_ext (hd_size h)); lia.
  - apply nf_add in E3. contradiction.
Qed.
Lemma nf_dloop : forall {S} fuel len (body : N -> N -> S -> R S) parsed s,
  (forall t l s, nf (body t l s)) -> parsed < 2 ^ 64 -> 2 ^ 64 < parsed + 2 * N.of_nat fuel ->
  nf (desc_loop fuel Checked len body parsed s).
Proof.
  intros S fuel len body. induction fuel as [|fuel IH]; intros parsed s B P Fu; [lia|]. cbn [desc_loop].
  destruct (_ <? _); [|apply nf_ret].
  eapply nf_bind_p; [apply nf_dhead|intros f p a q H; exact (dhead_inv f p a q H)|]. intros [[t hl] dl] [D1 D2]. cbn [fst snd] in *.
  apply nf_bind; [apply B|intro]. eapply nf_bind_p; [apply nf_lift, nf_add|intros f p v q H; exact (add_checked _ _ _ (proj1 (lift_inv _ _ _ _ _ H)))|].
  intros k [K ->]. eapply nf_bind_p; [apply nf_lift, nf_add|intros f p v q H; exact (add_checked _ _ _ (proj1 (lift_inv _ _ _ _ _ H)))|].
  intros k' [K' ->]. apply IH; auto; unfold two64 in *; lia.
Qed.

Section Terminates.
  Context (fuel : nat) (F : big fuel).
  Ltac loop := apply nf_loop; [apply nf_content || discriminate|intros h l|intros h l Hh| lia|unfold big in F; lia].

  Lemma t_item : forall i n, nf (atom_data_parse fuel Checked i n).
  Proof.
    intros. unfold atom_data_parse. apply nf_bind; [|intro; nf]. loop.
    - unfold item_body. nf; (apply nf_full || apply nf_data || apply nf_utf8 || apply nf_skip).
    - unfold item_body. destruct (fourcc_eqb _ DATA); [|destruct (fourcc_eqb _ MEAN); [|destruct (fourcc_eqb _ NAME)]].
      + apply guards_r. intro. destruct (negb _); [apply guards_fail|]. cbv zeta. apply guards_r. intro. apply guards_l, guards_content.
      + apply guards_r. intro. destruct (negb _); [apply guards_fail|]. apply guards_l, guards_content.
      + apply guards_r. intro. destruct (negb _); [apply guards_fail|]. apply guards_l, guards_content.
      + apply guards_l, guards_skip.
  Qed.
  Lemma t_ilst : forall s, nf (ilst_parse fuel Checked s).
  Proof.
    intros. loop; unfold ilst_body.
    - nf; (apply nf_skip || apply t_item).
    - destruct (fourcc_eqb _ _); [apply guards_l, guards_skip|apply guards_l, guards_content].
  Qed.
  Lemma t_meta : forall s, nf (meta_parse fuel Checked s).
  Proof.
    intros. unfold meta_parse. nf; [apply nf_full|]. loop; unfold meta_body.
    - nf; (apply nf_skip || apply t_ilst).
    - destruct (fourcc_eqb _ _); [apply guards_l, guards_loop|apply guards_l, guards_skip].
  Qed.
  Lemma t_udta : forall s, nf (udta_parse fuel Checked s).
  Proof.
    intros. loop; unfold udta_body.
    - nf; (apply nf_skip || apply t_meta).
    - destruct (fourcc_eqb _ _); [|apply guards_l, guards_skip]. apply guards_l. unfold meta_parse. apply guards_r. intro.
      destruct (negb _); [apply guards_fail|apply guards_loop].
  Qed.
  Lemma t_mp4a : forall s, nf (mp4a_parse fuel Checked s).
  Proof.
    intros. unfold mp4a_parse, find_bounds, seek_to_end, bounds_end. nf; try apply nf_head. unfold parse_esds.
    nf; try apply nf_full; try apply nf_dhead. unfold parse_es_desc. nf. apply nf_dloop; [|lia|unfold big in F; lia].
    intros. unfold es_body. nf. unfold parse_dc_desc, read_u32. nf. apply nf_dloop; [|lia|unfold big in F; lia].
    intros. unfold dc_body, parse_ds_desc, read_u16. nf.
  Qed.
  Lemma t_stsd : forall s, nf (stsd_parse fuel Checked s).
  Proof.
    intros. unfold stsd_parse. nf; [apply nf_full|]. loop; unfold stsd_body.
    - nf; (apply nf_skip || apply t_mp4a).
    - destruct (fourcc_eqb _ _); [apply guards_l, guards_mp4a, Hh|apply guards_l, guards_skip].
  Qed.
  Lemma t_stbl : forall s, nf (stbl_parse fuel Checked s).
  Proof.
    intros. loop; unfold stbl_body.
    - nf; (apply nf_skip || apply t_stsd).
    - destruct (fourcc_eqb _ _); [|apply guards_l, guards_skip]. apply guards_l. unfold stsd_parse. apply guards_r. intro.
      destruct (negb _); [apply guards_fail|]. apply guards_r. intro. apply guards_loop.
  Qed.
  Lemma t_minf : forall s, nf (minf_parse fuel Checked s).
  Proof.
    intros. loop; unfold minf_body.
    - nf; (apply nf_skip || apply t_stbl).
    - destruct (fourcc_eqb _ _); [apply guards_l, guards_loop|apply guards_l, guards_skip].
  Qed.
  Lemma t_mdia : forall s, nf (mdia_parse fuel Checked s).
  Proof.
    intros. loop; unfold mdia_body.
    - nf; (apply nf_skip || apply t_minf).
    - destruct (fourcc_eqb _ _); [apply guards_l, guards_loop|apply guards_l, guards_skip].
  Qed.
  Lemma t_trak : forall s, nf (trak_parse fuel Checked s).
  Proof.
    intros. loop; unfold trak_body.
    - nf; (apply nf_skip || apply t_mdia).
    - destruct (fourcc_eqb _ _); [apply guards_l, guards_loop|apply guards_l, guards_skip].
  Qed.
  Lemma t_mvhd : forall s, nf (mvhd_parse Checked s).
  Proof.
    intros. unfold mvhd_parse, find_bounds, seek_to_end, bounds_end, read_u32, read_u64. apply nf_bind; [nf|intro]. apply nf_bind; [apply nf_full|intro].
    apply nf_bind; [|intro; nf]. destruct (fst a0) as [|[]]; nf.
  Qed.
  Lemma t_moov : forall s, nf (moov_parse fuel Checked s).
  Proof.
    intros. loop; unfold moov_body.
    - nf; (apply nf_skip || apply t_mvhd || apply t_trak || apply t_udta).
    - destruct (fourcc_eqb _ MOVIE_HEADER); [apply guards_l, guards_mvhd, Hh|].
      destruct (fourcc_eqb _ TRACK); [apply guards_l, guards_loop|].
      destruct (fourcc_eqb _ USER_DATA); [apply guards_l, guards_loop|apply guards_l, guards_skip].
  Qed.
  Lemma t_find : forall n len parsed, parsed < 2 ^ 64 -> 2 ^ 64 < parsed + 2 * N.of_nat n -> nf (find_moov n Checked fuel len parsed).
  Proof.
    induction n as [|n IH]; intros len parsed P Fu; [lia|]. cbn [find_moov]. destruct (_ <=? _); [apply nf_fail|].
    intros f p. unfold bind at 1. pose proof (nf_head f p). destruct (parse_head f p) as [[h p1]| | |] eqn:E; try discriminate; [|congruence].
    destruct (fourcc_eqb _ _); [apply t_moov|]. unfold bind at 1. pose proof (nf_skip Checked h f p1).
    destruct (skip_atom Checked h f p1) as [[u p2]| | |] eqn:E2; try discriminate; [|congruence]. apply guards_skip in E2.
    unfold bind, lift. destruct (add64 Checked parsed (sz_len (hd_size h))) as [parsed'| | |] eqn:E3; try discriminate.
    - apply add_checked in E3. apply IH; unfold sane, two64 in *; destruct (sz_ext (hd_size h)); lia.
    - apply nf_add in E3. contradiction.
  Qed.
  Theorem read_terminates : forall f p, read_tag_from fuel Checked f p <> Fuel.
  Proof.
    change (nf (read_tag_from fuel Checked)). unfold read_tag_from. apply nf_bind.
    - unfold ftyp_parse. nf; [apply nf_head|apply nf_utf8].
    - intro. apply nf_bind; [|intro; apply nf_bind; [apply t_find; [lia|unfold big in F; lia]|intro; apply nf_ret]].
      unfold remaining_stream_len, seek_end, seek_start. nf; intros f p; [discriminate|]. destruct (_ <? _); discriminate.
  Qed.
End Terminates.

(** * More fuel does not change a result *)

Definition refines {A} (r r' : R A) : Prop := forall f p, r f p = Fuel \/ r' f p = r f p.
Lemma rf_refl : forall {A} (r : R A), refines r r. Proof. intros A r f p. right. reflexivity. Qed.
Lemma rf_bind : forall {A B} (r r' : R A) (k k' : A -> R B), refines r r' -> (forall a, refines (k a) (k' a)) ->
  refines (bind r k) (bind r' k').
Proof.
  intros A B r r' k k' H K f p. unfold bind. destruct (H f p) as [E|E]; rewrite E; [left; reflexivity|].
  destruct (r f p) as [[a q]| | |]; [apply K|right..]; reflexivity.
Qed.
Ltac rf :=
  repeat match goal with
  | |- refines ?r ?r => apply rf_refl
  | |- refines (bind _ _) (bind _ _) => apply rf_bind; [|intro]
  | |- refines (if ?b then _ else _) _ => destruct b
  | |- refines (let '(_, _) := ?x in _) _ => destruct x
  | |- refines (match ?x with _ => _ end) _ => destruct x
  | |- refines (let _ := _ in _) _ => cbv zeta
  end.
Lemma rf_loop : forall {S} n n' m limit (b b' : head -> S -> R S) parsed s, (n <= n')%nat ->
  (forall h s, refines (b h s) (b' h s)) -> refines (atom_loop n m limit b parsed s) (atom_loop n' m limit b' parsed s).
Proof.
  intros S. induction n as [|n IH]; intros n' m limit b b' parsed s L B; [intros f p; left; reflexivity|].
  destruct n' as [|n']; [lia|]. cbn [atom_loop]. rf; [apply B|]. apply IH; [lia|exact B].
Qed.
Lemma rf_dloop : forall {S} n n' m len (b b' : N -> N -> S -> R S) parsed s, (n <= n')%nat ->
  (forall t l s, refines (b t l s) (b' t l s)) -> refines (desc_loop n m len b parsed s) (desc_loop n' m len b' parsed s).
Proof.
  intros S. induction n as [|n IH]; intros n' m len b b' parsed s L B; [intros f p; left; reflexivity|].
  destruct n' as [|n']; [lia|]. cbn [desc_loop]. rf; [apply B|]. apply IH; [lia|exact B].
Qed.

Section More.
  Context (m : mode) (n n' : nat) (L : (n <= n')%nat).
  Ltac lp := apply rf_loop; [exact L|intros ? ?].
  Lemma m_ilst : forall s, refines (ilst_parse n m s) (ilst_parse n' m s).
  Proof.
    intros. lp. unfold ilst_body. rf. unfold atom_data_parse. rf. lp. rf.
  Qed.
  Lemma m_meta : forall s, refines (meta_parse n m s) (meta_parse n' m s).
  Proof. intros. unfold meta_parse. rf. lp. unfold meta_body. rf. apply m_ilst. Qed.
  Lemma m_udta : forall s, refines (udta_parse n m s) (udta_parse n' m s).
  Proof. intros. lp. unfold udta_body. rf. apply m_meta. Qed.
  Lemma m_mp4a : forall s, refines (mp4a_parse n m s) (mp4a_parse n' m s).
  Proof.
    intros. unfold mp4a_parse. rf. unfold parse_esds. rf. unfold parse_es_desc. rf. apply rf_dloop; [exact L|intros].
    unfold es_body. rf. unfold parse_dc_desc. rf. apply rf_dloop; [exact L|intros; rf].
  Qed.
  Lemma m_trak : forall s, refines (trak_parse n m s) (trak_parse n' m s).
  Proof.
    intros. lp. unfold trak_body. rf. lp. unfold mdia_body. rf. lp. unfold minf_body. rf. lp. unfold stbl_body. rf.
    unfold stsd_parse. rf. lp. unfold stsd_body. rf. apply m_mp4a.
  Qed.
  Lemma m_moov : forall s, refines (moov_parse n m s) (moov_parse n' m s).
  Proof. intros. lp. unfold moov_body. rf; [apply m_trak|apply m_udta]. Qed.
  Lemma m_find : forall k k' len parsed, (k <= k')%nat -> refines (find_moov k m n len parsed) (find_moov k' m n' len parsed).
  Proof.
    induction k as [|k IH]; intros k' len parsed K; [intros f p; left; reflexivity|]. destruct k' as [|k']; [lia|].
    cbn [find_moov]. rf; [apply m_moov|]. apply IH. lia.
  Qed.
  Theorem read_fuel : forall f p, read_tag_from n m f p <> Fuel -> read_tag_from n' m f p = read_tag_from n m f p.
  Proof.
    intros f p H. assert (X : refines (read_tag_from n m) (read_tag_from n' m)).
    { unfold read_tag_from. rf. apply m_find, L. }
    destruct (X f p); congruence.
  Qed.
End More.
