(** Inputs on which reading panics or does not terminate. *)

From Coq Require Import List NArith ZArith Bool Lia Arith String.
From Coq Require Import ZifyBool ZifyNat ZifyN.
From Verif Require Import Base BaseLemmas Utf UtfLemmas Types Stream Parse TagSpec FileSpec ParseLemmas ReadProofs ReadSpec ReadFacts.
Import ListNotations.
Local Open Scope list_scope.
Ltac Zify.zify_post_hook ::= Z.div_mod_to_equations.

Lemma head_at : forall f p k, small f -> fits k = true -> sits f p (render k) -> parse_head f p = Ok (head_of k, p + hlen k).
Proof.
  intros f p k Sm F S. rewrite render_eq in S. apply sits_app in S. destruct S as [Sh _].
  rewrite (parses_head k F f p Sm Sh), blen_header. reflexivity.
Qed.

(** A head with a 64-bit size of zero, in front of which there is a file type atom: without overflow
    checks the reader returns to the same position again and again. *)
Lemma find_moov_spin : forall inner len f p id g a, small f -> f = a ++ (be 4 1 ++ fc_bytes id ++ be 8 0) ++ g -> blen a = p ->
  id <> MOVIE -> 0 < len -> forall fuel, find_moov fuel Wrapping inner len 0 f p = Fuel.
Proof.
  intros inner len f p id g a Sm E P N L. induction fuel as [|fuel IH]; [reflexivity|]. cbn [find_moov].
  rewrite (proj2 (N.leb_gt len 0)) by exact L.
  assert (H : parse_head f p = Ok (Head (Size true 0) id, p + 16)).
  { pose proof (head_roundtrip (Size true 0) id ltac:(reflexivity) f p Sm) as X. rewrite write_head_bytes in X. cbn [sz_ext sz_len] in X.
    rewrite !blen_app, !blen_be, blen_fc in X. apply X. exists a, g. auto. }
  erewrite bind_ok by exact H. cbn [hd_fourcc hd_size sz_len]. rewrite (proj2 (fourcc_eqb_neq _ _) N).
  assert (K : skip_atom Wrapping (Head (Size true 0) id) f (p + 16) = Ok (tt, p)).
  { unfold skip_atom. cbn [hd_size]. change (content_len Wrapping (Size true 0)) with (@Ok BinNums.N 18446744073709551600).
    unfold bind, lift. change (as_i64 18446744073709551600) with (-16)%Z. unfold seek_cur.
    assert (B : p + 16 <= blen f) by (subst; rewrite !blen_app, !blen_be, blen_fc; lia). unfold small in Sm.
    replace (Z.of_N (p + 16) + -16)%Z with (Z.of_N p) by lia.
    rewrite (proj2 (Z.leb_le _ _)), (proj2 (Z.ltb_lt _ _)) by (unfold two63; lia). cbn [andb]. rewrite N2Z.id. reflexivity. }
  erewrite bind_ok by exact K. erewrite bind_ok by reflexivity. exact IH.
Qed.

Lemma read_spins : forall ft s id g fuel, fits ft = true -> a_id ft = id4 "ftyp" -> wf_ustr s = true -> a_content ft = enc8 s ->
  id <> MOVIE -> small (render ft ++ (be 4 1 ++ fc_bytes id ++ be 8 0) ++ g) ->
  read_tag fuel Wrapping (render ft ++ (be 4 1 ++ fc_bytes id ++ be 8 0) ++ g) = Fuel.
Proof.
  intros ft s id g fuel F I W C N Sm. set (f := render ft ++ _) in *.
  assert (P : ftyp_parse Wrapping f 0 = Ok (s, asize ft)).
  { pose proof (ftyp_parses Wrapping ft s F I W C f 0 Sm) as X. rewrite N.add_0_l in X. apply X.
    eexists [], _. split; reflexivity. }
  assert (B : blen f = asize ft + 16 + blen g).
  { unfold f. rewrite !blen_app, !blen_be, blen_fc. unfold asize. lia. }
  unfold read_tag, read_tag_from. erewrite bind_ok by exact P. erewrite bind_ok by (apply remaining_ok; [lia|exact Sm]).
  unfold bind. rewrite (find_moov_spin fuel (blen f - asize ft) f (asize ft) id g (render ft)); auto. lia.
Qed.

(** A movie header with time scale 0. *)
Definition zero_timescale (a : atom) : Prop :=
  let b := a_content a in
  (field b 0 1 = 0 /\ 20 <= blen b /\ field b 12 4 = 0) \/ (field b 0 1 = 1 /\ 32 <= blen b /\ field b 20 4 = 0 /\ field b 24 8 * 1000000000 < 2 ^ 64).

Lemma field_read : forall f p b pos n k r, small f -> sits f p b -> pos + n <= blen b -> n = N.of_nat k ->
  r = (x <- read_exact n ;; ret (unbe x)) -> r f (p + pos) = Ok (field b pos n, p + pos + n).
Proof.
  intros f p b pos n k r Sm S L K ->. erewrite bind_ok.
  2:{ apply read_exact_sits with (bs := slice b pos n).
      - destruct S as (x & y & -> & <-). exists (x ++ firstn (N.to_nat pos) b), (skipn (N.to_nat (pos + n)) b ++ y).
        split; [|rewrite blen_app; f_equal; unfold blen in *; rewrite firstn_length; lia].
        rewrite <- !app_assoc. f_equal. rewrite <- (firstn_skipn (N.to_nat pos) b) at 1. rewrite <- app_assoc. f_equal.
        rewrite (slice_skipn b pos n L), <- app_assoc. reflexivity.
      - symmetry. apply blen_slice, L. }
  reflexivity.
Qed.

Lemma mvhd_panics : forall m k f p, small f -> sits f p (render k) -> zero_timescale k ->
  mvhd_parse m (size_of k) f (p + hlen k) = Panic PDivZero.
Proof.
  intros m k f p Sm S Z. pose proof (sits_content _ _ _ S) as Sc. set (p0 := p + hlen k) in *. unfold mvhd_parse.
  erewrite bind_ok by apply find_bounds_of. fold p0. unfold zero_timescale in Z. cbv zeta in Z. set (b := a_content k) in *.
  pose proof (sits_len _ _ _ Sc) as Lb. unfold small in Sm.
  assert (L20 : 20 <= blen b) by lia.
  assert (V : exists fl, parse_full_head f p0 = Ok ((field b 0 1, fl), p0 + 4)).
  { unfold parse_full_head. exists (slice f (p0 + 1) 3). erewrite bind_ok.
    2:{ pose proof (field_read f p0 b 0 1 1 read_u8 Sm Sc ltac:(lia) eq_refl eq_refl) as X. rewrite N.add_0_r in X. exact X. }
    erewrite bind_ok by (apply read_exact_in; lia). unfold ret. do 2 f_equal. lia. }
  destruct V as (fl & V). unfold bind at 1. rewrite V. cbn [fst].
  assert (Sk : forall d, d <= 16 -> seek_cur (Z.of_N d) f (p0 + 4) = Ok (tt, p0 + 4 + d)).
  { intros d D. unfold seek_cur. rewrite (proj2 (Z.leb_le _ _)), (proj2 (Z.ltb_lt _ _)) by (unfold two63; lia). cbn [andb]. do 2 f_equal. lia. }
  destruct Z as [(Z0 & L & T)|(Z1 & L & T & D)].
  - rewrite Z0. unfold bind at 2. change 8%Z with (Z.of_N 8) at 1. unfold bind at 1. rewrite Sk by lia.
    unfold bind at 1. replace (p0 + 4 + 8) with (p0 + 12) by lia.
    rewrite (field_read f p0 b 12 4 4 read_u32 Sm Sc) by (reflexivity || lia). rewrite T.
    unfold bind. replace (p0 + 12 + 4) with (p0 + 16) by lia.
    rewrite (field_read f p0 b 16 4 4 read_u32 Sm Sc) by (reflexivity || lia).
    pose proof (field_lt b 16 4 ltac:(lia)) as X. change (256 ^ 4) with 4294967296 in X.
    unfold mvhd_nanos, mul64. rewrite (proj2 (N.ltb_lt _ _)) by (unfold two64; lia). reflexivity.
  - rewrite Z1. unfold bind at 2. change 16%Z with (Z.of_N 16) at 1. unfold bind at 1. rewrite Sk by lia.
    unfold bind at 1. replace (p0 + 4 + 16) with (p0 + 20) by lia.
    rewrite (field_read f p0 b 20 4 4 read_u32 Sm Sc) by (reflexivity || lia). rewrite T.
    unfold bind. replace (p0 + 20 + 4) with (p0 + 24) by lia.
    rewrite (field_read f p0 b 24 8 8 read_u64 Sm Sc) by (reflexivity || lia).
    unfold mvhd_nanos, mul64. rewrite (proj2 (N.ltb_lt _ _)) by (unfold two64; lia). reflexivity.
Qed.

(** The loop up to a child on which the body fails. *)
Lemma loop_fails : forall {S} m body x k y fuel limit parsed (s s1 : S) f p r,
  small f -> forallb fits (x ++ k :: y) = true -> steps body x s s1 ->
  (forall p, sits f p (render k) -> body (head_of k) s1 f (p + hlen k) = r) -> (forall v, r <> Ok v) ->
  sits f p (render_all (x ++ k :: y)) ->
  parsed + blen (render_all (x ++ k :: y)) = limit -> limit < 2 ^ 64 -> (List.length (x ++ k :: y) < fuel)%nat ->
  match r with
  | Err e => atom_loop fuel m (Ok limit) body parsed s f p = Err e
  | Panic e => atom_loop fuel m (Ok limit) body parsed s f p = Panic e
  | _ => True
  end.
Proof.
  intros S m body x k y. induction x as [|z x IH]; intros fuel limit parsed s s1 f p r Sm F St B NO Si L L64 Fu;
    (destruct fuel as [|fuel]; [cbn in Fu; lia|]).
  - cbn [app] in *. cbn [steps] in St. subst s1. cbn [forallb] in F. apply andb_true_iff in F. destruct F as [Fk _].
    rewrite render_all_cons in Si. apply sits_app in Si. destruct Si as [Sk _]. rewrite blen_render_all_cons in L. pose proof (asize_pos k).
    assert (U : atom_loop (Datatypes.S fuel) m (Ok limit) body parsed s f p =
                (s' <- body (head_of k) s ;; parsed' <- lift (add64 m parsed (sz_len (hd_size (head_of k)))) ;; atom_loop fuel m (Ok limit) body parsed' s') f (p + hlen k)).
    { cbn [atom_loop]. unfold bind at 1, lift at 1. rewrite (proj2 (N.ltb_lt parsed limit)) by lia.
      unfold bind at 1. rewrite (head_at f p k Sm Fk Sk). reflexivity. }
    rewrite !U. unfold bind. rewrite (B p Sk). destruct r as [v|e|e|]; reflexivity || exact I.
  - cbn [app] in *. destruct St as (s2 & Hz & St). cbn [forallb] in F. apply andb_true_iff in F. destruct F as [Fz F].
    rewrite render_all_cons in Si. apply sits_app in Si. destruct Si as [Sz Sr]. rewrite blen_render_all_cons in L. pose proof (asize_pos z).
    fold (asize z) in Sr.
    assert (U : atom_loop (Datatypes.S fuel) m (Ok limit) body parsed s f p = atom_loop fuel m (Ok limit) body (parsed + asize z) s2 f (p + asize z)).
    { cbn [atom_loop]. unfold bind at 1, lift at 1. rewrite (proj2 (N.ltb_lt parsed limit)) by lia.
      unfold bind at 1. rewrite (head_at f p z Sm Fz Sz). unfold bind at 1. rewrite (Hz f p Sm Sz). unfold bind at 1, lift at 1.
      cbn [hd_size head_of sz_len size_of]. rewrite add64_ok by (unfold two64; lia). reflexivity. }
    rewrite !U. apply (IH fuel limit (parsed + asize z) s2 s1 f (p + asize z) r); auto; [lia|cbn in Fu; lia].
Qed.

Lemma moov_skips : forall fuel m ks s, named_kids (id4 "mvhd") ks = [] -> named_kids (id4 "trak") ks = [] -> named_kids (id4 "udta") ks = [] ->
  steps (moov_body fuel m) ks s s.
Proof.
  intros fuel m ks s. unfold named_kids. induction ks as [|k r IH]; intros N1 N2 N3; [reflexivity|]. cbn [filter] in *.
  destruct (is_named (id4 "mvhd") k) eqn:E1; [discriminate|]. destruct (is_named (id4 "trak") k) eqn:E2; [discriminate|].
  destruct (is_named (id4 "udta") k) eqn:E3; [discriminate|]. exists s. split; [|apply IH; assumption].
  unfold moov_body. cbn [hd_fourcc head_of]. change MOVIE_HEADER with (id4 "mvhd"). change TRACK with (id4 "trak"). change USER_DATA with (id4 "udta").
  rewrite !fourcc_eqb_named, E1, E2, E3. apply kid_skip_ret.
Qed.

(** What [find_moov] does on a file is what [moov_parse] does on its first movie atom. *)
Lemma find_moov_at : forall m inner pre fuel len parsed k f p,
  forallb fits pre = true -> fits k = true -> named_kids (id4 "moov") pre = [] -> a_id k = id4 "moov" ->
  small f -> sits f p (render_all pre ++ render k) ->
  parsed + blen (render_all pre) + asize k <= len -> len < 2 ^ 64 -> (List.length pre < fuel)%nat ->
  find_moov fuel m inner len parsed f p = moov_parse inner m (size_of k) f (p + blen (render_all pre) + hlen k).
Proof.
  intros m inner pre. induction pre as [|x r IH]; intros fuel len parsed k f p Fp Fk Np I Sm S L L64 Fu;
    (destruct fuel as [|fuel]; [cbn in Fu; lia|]); cbn [find_moov].
  - change (render_all []) with (@nil byte) in *. rewrite blen_nil in *. pose proof (asize_pos k).
    rewrite (proj2 (N.leb_gt len parsed)) by lia. erewrite bind_ok by (apply (head_at f p k Sm Fk S)).
    cbn [hd_fourcc hd_size head_of]. rewrite I. change (fourcc_eqb (id4 "moov") MOVIE) with true. cbv iota. rewrite N.add_0_r. reflexivity.
  - cbn [forallb] in Fp. apply andb_true_iff in Fp. destruct Fp as [Fx Fr]. rewrite blen_render_all_cons in *. pose proof (asize_pos x).
    rewrite (proj2 (N.leb_gt len parsed)) by lia. rewrite render_all_cons, <- app_assoc in S. apply sits_app in S. destruct S as [Sx Sr].
    erewrite bind_ok by (apply (head_at f p x Sm Fx Sx)).
    cbn [hd_fourcc hd_size head_of sz_len size_of]. change MOVIE with (id4 "moov"). rewrite fourcc_eqb_named.
    cbn [named_kids filter] in Np. destruct (is_named (id4 "moov") x); [discriminate|].
    erewrite bind_ok by (apply (kid_skip m x f p Sm Sx)).
    erewrite bind_ok by (unfold lift; rewrite add64_ok by (unfold two64; lia); reflexivity).
    rewrite IH with (k := k); auto; [f_equal; lia|lia|cbn in Fu; lia].
Qed.

Lemma read_zero_timescale : forall m fuel ft s pre e x mh y post,
  let f := ft :: pre ++ Atom e (id4 "moov") [] (x ++ mh :: y) :: post in
  good_sizes f -> blen (render_all f) < N.of_nat fuel ->
  a_id ft = id4 "ftyp" -> wf_ustr s = true -> a_content ft = enc8 s -> named_kids (id4 "moov") pre = [] ->
  named_kids (id4 "mvhd") x = [] -> named_kids (id4 "trak") x = [] -> named_kids (id4 "udta") x = [] ->
  a_id mh = id4 "mvhd" -> zero_timescale mh ->
  read_tag fuel m (render_all f) = Panic PDivZero.
Proof.
  intros m fuel ft s pre e x mh y post f (F & Sm) Fu I W C Np N1 N2 N3 Im Z. unfold f in *. set (mv := Atom e (id4 "moov") [] (x ++ mh :: y)) in *.
  set (fb := render_all (ft :: pre ++ mv :: post)) in *.
  cbn [forallb] in F. apply andb_true_iff in F. destruct F as [Fft F]. rewrite forallb_app in F. apply andb_true_iff in F.
  destruct F as [Fpre F]. cbn [forallb] in F. apply andb_true_iff in F. destruct F as [Fmv _].
  assert (E : fb = render ft ++ render_all pre ++ render mv ++ render_all post).
  { unfold fb. rewrite render_all_cons, render_all_app, render_all_cons. reflexivity. }
  assert (Lf : blen fb = asize ft + blen (render_all pre) + asize mv + blen (render_all post)).
  { rewrite E, !blen_app. unfold asize. lia. }
  assert (P : ftyp_parse m fb 0 = Ok (s, asize ft)).
  { pose proof (ftyp_parses m ft s Fft I W C fb 0 Sm) as X. rewrite N.add_0_l in X. apply X.
    eexists [], _. rewrite E. split; reflexivity. }
  unfold read_tag, read_tag_from. erewrite bind_ok by exact P. erewrite bind_ok by (apply remaining_ok; [lia|exact Sm]).
  assert (S : sits fb (asize ft) (render_all pre ++ render mv)).
  { exists (render ft), (render_all post). rewrite E, <- !app_assoc. split; reflexivity. }
  assert (Lp : (List.length pre < fuel)%nat) by (pose proof (kids_count pre); unfold blen in *; lia).
  unfold bind. rewrite (find_moov_at m fuel pre fuel (blen fb - asize ft) 0 mv fb (asize ft)); auto; try lia.
  unfold moov_parse. rewrite content_len_of. apply sits_app in S. destruct S as [_ S]. apply sits_content in S.
  set (p := asize ft + blen (render_all pre) + hlen mv) in *.
  assert (K : a_content mv = render_all (x ++ mh :: y)) by reflexivity. rewrite K in S.
  pose proof (loop_fails m (moov_body fuel m) x mh y fuel (csize mv) 0 (Moov None [] None) (Moov None [] None) fb p (Panic PDivZero) Sm (fits_kids mv Fmv)) as X.
  cbv beta iota in X. rewrite X; auto.
  - apply moov_skips; assumption.
  - intros p' S'. unfold moov_body. cbn [hd_fourcc hd_size head_of]. rewrite Im. change (fourcc_eqb (id4 "mvhd") MOVIE_HEADER) with true. cbv iota.
    unfold bind. rewrite mvhd_panics by assumption. reflexivity.
  - intros v. discriminate.
  - apply fits_csize in Fmv. lia.
  - pose proof (kids_count (x ++ mh :: y)). pose proof (asize_eq mv) as A. unfold csize in A. rewrite K in A. unfold blen in *. lia.
Qed.
