(** Errors inside the metadata reach the caller. *)

From Coq Require Import List NArith ZArith Bool Lia Arith String.
From Coq Require Import ZifyBool ZifyNat ZifyN.
From Verif Require Import Base BaseLemmas Utf UtfLemmas Types Stream Parse TagSpec FileSpec ParseLemmas ReadProofs ReadSpec ReadFacts ReadBad ReadLayout.
Import ListNotations.
Local Open Scope list_scope.
Ltac Zify.zify_post_hook ::= Z.div_mod_to_equations.

Definition kid_raises {A} (r : R A) (k : atom) (b : bad) : Prop :=
  forall f p, small f -> sits f p (render k) -> r f (p + hlen k) = raise b.

Lemma raise_bind : forall {A B} (r : R A) (g : A -> R B) f p b, r f p = raise b -> bind r g f p = raise b.
Proof. intros A B r g f p b H. unfold bind. rewrite H. destruct b; reflexivity. Qed.
Lemma kid_raises_bind : forall {A B} (r : R A) (g : A -> R B) k b, kid_raises r k b -> kid_raises (bind r g) k b.
Proof. intros A B r g k b H f p Sm S. apply raise_bind, H; assumption. Qed.

Lemma loop_raises : forall {S} m body x k y fuel limit parsed (s s1 : S) f p b,
  small f -> forallb fits (x ++ k :: y) = true -> steps body x s s1 ->
  kid_raises (body (head_of k) s1) k b ->
  sits f p (render_all (x ++ k :: y)) ->
  parsed + blen (render_all (x ++ k :: y)) = limit -> limit < 2 ^ 64 -> (List.length (x ++ k :: y) < fuel)%nat ->
  atom_loop fuel m (Ok limit) body parsed s f p = raise b.
Proof.
  intros S m body x k y fuel limit parsed s s1 f p b Sm F St B Si L L64 Fu.
  pose proof (loop_fails m body x k y fuel limit parsed s s1 f p (raise b) Sm F St) as X.
  specialize (X (fun p S => B f p Sm S) ltac:(destruct b; discriminate) Si L L64 Fu). destruct b; exact X.
Qed.

(** A container whose child [k] fails. *)
Lemma container_raises : forall {S} m body a x k y fuel (s s1 : S) b,
  fits a = true -> fuel_for fuel a -> a_kids a = x ++ k :: y -> steps body x s s1 ->
  kid_raises (body (head_of k) s1) k b ->
  forall f p, small f -> sits f p (render a) ->
  atom_loop fuel m (content_len m (size_of a)) body (blen (a_pre a)) s f (p + hlen a + blen (a_pre a)) = raise b.
Proof.
  intros S m body a x k y fuel s s1 b F Fu K St B f p Sm Si. rewrite content_len_of.
  apply sits_content in Si. unfold a_content in Si. apply sits_app in Si. destruct Si as [_ Si]. rewrite K in Si.
  eapply loop_raises; try eassumption.
  - rewrite <- K. apply fits_kids, F.
  - unfold csize, a_content. rewrite blen_app, K. reflexivity.
  - apply fits_csize in F. lia.
  - rewrite <- K. apply enough_length, fuel_enough, Fu.
Qed.

Lemma raises_lift : forall {A B} (r : res A) v (g : A -> R B) f p, r = Ok v -> bind (lift r) g f p = g v f p.
Proof. intros A B r v g f p ->. reflexivity. Qed.

(** * Values *)

Lemma full_head_at : forall f p v r, small f -> sits f p (v :: r) -> (3 <= List.length r)%nat ->
  parse_full_head f p = Ok ((b2n v, firstn 3 r), p + 4).
Proof.
  intros f p v r Sm S L. rewrite <- (firstn_skipn 3 r) in S.
  change (v :: firstn 3 r ++ skipn 3 r) with ((v :: firstn 3 r) ++ skipn 3 r) in S.
  apply sits_app in S. destruct S as [S _].
  assert (L3 : List.length (firstn 3 r) = 3%nat) by (apply firstn_length_le, L).
  rewrite (parses_full_head v (firstn 3 r) L3 f p Sm S). do 2 f_equal. unfold blen. cbn [List.length]. rewrite L3. reflexivity.
Qed.

Lemma vec_panics : forall n f p, two63 <= n -> read_u8_vec n f p = Panic PCapacity.
Proof. intros n f p H. unfold read_u8_vec. rewrite (proj2 (N.leb_le _ _)) by exact H. reflexivity. Qed.

Lemma data_raises : forall m k a b, a_id k = id4 "data" -> bad_data m (a_content k) b ->
  kid_raises (item_body m (head_of k) a) k b.
Proof.
  intros m k a b I B f p Sm S. pose proof (sits_content _ _ _ S) as Sc. unfold item_body. cbn [hd_fourcc hd_size head_of].
  rewrite I. change (fourcc_eqb (id4 "data") DATA) with true. cbv iota. set (q := p + hlen k) in *.
  assert (Z : forall c r loc, a_content k = n2b 0 :: c ++ loc ++ r -> List.length c = 3%nat -> List.length loc = 4%nat ->
     (vf <- parse_full_head;;
      (if negb (fst vf =? 0) then fail (EUnknownVersion (fst vf))
       else seek_cur 4;;; c <- lift (content_len m (size_of k));; n <- lift (sub64 m c 8);; d <- data_parse (unbe (snd vf)) n;;
       ret (ItemAcc (ia_data a ++ [d]) (ia_mean a) (ia_name a)))) f q =
     (d <- data_parse (unbe c) (blen r) ;; ret (ItemAcc (ia_data a ++ [d]) (ia_mean a) (ia_name a))) f (q + 8) /\ sits f (q + 8) r).
  { intros c r loc E Lc Ll. rewrite E in Sc. pose proof (sits_len _ _ _ Sc) as Le. split.
    - erewrite bind_ok by (apply (full_head_at f q (n2b 0)); [exact Sm|exact Sc|rewrite !app_length; lia]).
      cbn [fst snd]. change (negb (b2n (n2b 0) =? 0)) with false. cbv iota.
      rewrite firstn_app, Lc, Nat.sub_diag, firstn_O, app_nil_r, firstn_all2 by lia.
      change 4%Z with (Z.of_N 4). rewrite blen_cons, !blen_app in Le. unfold blen in Le at 1 2. rewrite Lc, Ll in Le.
      erewrite bind_ok by (apply seek_cur_ok; [exact Sm|lia|lia]).
      rewrite (raises_lift _ _ _ _ _ (content_len_of m k)).
      assert (Ck : csize k = 8 + blen r) by (rewrite (csize_eq _ _ E), blen_cons, !blen_app; unfold blen; rewrite Lc, Ll; lia).
      rewrite (raises_lift _ (blen r)) by (rewrite sub64_ok by lia; f_equal; lia). replace (q + 4 + 4) with (q + 8) by lia. reflexivity.
    - change (n2b 0 :: c ++ loc ++ r) with ([n2b 0] ++ c ++ loc ++ r) in Sc. rewrite !app_assoc in Sc. apply sits_app in Sc.
      destruct Sc as [_ Sc]. replace (blen (([n2b 0] ++ c) ++ loc)) with 8 in Sc; [exact Sc|].
      unfold blen. rewrite !app_length, Lc, Ll. reflexivity. }
  destruct B as [v r E L V|code loc r E Hc L N|loc r E L N|loc r E L Ev N|fl r -> E Lf L|code r -> E Hc L].
  - rewrite E in Sc. erewrite bind_ok by (apply (full_head_at f q v r); assumption). cbn [fst].
    rewrite (proj2 (N.eqb_neq _ _)) by exact V. reflexivity.
  - destruct (Z (be 3 code) r loc E (be_length 3 code) L) as [-> Sr]. rewrite unbe_be by exact Hc. apply raise_bind.
    apply (proj1 (data_unknown code (blen r) f (q + 8))), N.
  - destruct (Z (be 3 1) r loc E (be_length 3 1) L) as [-> Sr]. change (unbe (be 3 1)) with 1. apply raise_bind. cbn [data_parse].
    apply raise_bind. apply (proj2 (utf8_read f (q + 8) r Sm Sr)). intros s W X. apply N. exists s. auto.
  - destruct (Z (be 3 2) r loc E (be_length 3 2) L) as [-> Sr]. change (unbe (be 3 2)) with 2. apply raise_bind. cbn [data_parse].
    apply raise_bind. apply (proj2 (utf16_read f (q + 8) r Sm Sr Ev)). intros s W X. apply N. exists s. auto.
  - rewrite E in Sc. erewrite bind_ok by (apply (full_head_at f q (n2b 0)); [exact Sm|exact Sc|rewrite app_length; lia]).
    cbn [fst snd]. change (negb (b2n (n2b 0) =? 0)) with false. cbv iota.
    pose proof (sits_len _ _ _ Sc) as Le. unfold small in Sm.
    assert (Ck : csize k = 4 + blen r) by (rewrite (csize_eq _ _ E), blen_cons, !blen_app; unfold blen; rewrite Lf; lia).
    assert (Sk : seek_cur 4 f (q + 4) = Ok (tt, q + 8)).
    { unfold seek_cur. rewrite (proj2 (Z.leb_le _ _)), (proj2 (Z.ltb_lt _ _)) by (unfold two63; rewrite blen_cons in Le; lia). cbn [andb]. do 2 f_equal. lia. }
    erewrite bind_ok by exact Sk. rewrite (raises_lift _ _ _ _ _ (content_len_of Checked k)).
    unfold bind, lift, sub64. rewrite (proj2 (N.leb_gt _ _)) by (unfold blen in *; lia). reflexivity.
  - rewrite E in Sc. erewrite bind_ok by (apply (full_head_at f q (n2b 0)); [exact Sm|exact Sc|rewrite app_length, be_length; lia]).
    cbn [fst snd]. change (negb (b2n (n2b 0) =? 0)) with false. cbv iota.
    pose proof (sits_len _ _ _ Sc) as Le. unfold small in Sm.
    assert (Ck : csize k = 4 + blen r) by (rewrite (csize_eq _ _ E), blen_cons, !blen_app, blen_be; lia).
    assert (Sk : seek_cur 4 f (q + 4) = Ok (tt, q + 8)).
    { unfold seek_cur. rewrite (proj2 (Z.leb_le _ _)), (proj2 (Z.ltb_lt _ _)) by (unfold two63; rewrite blen_cons in Le; lia). cbn [andb]. do 2 f_equal. lia. }
    erewrite bind_ok by exact Sk. rewrite (raises_lift _ _ _ _ _ (content_len_of Wrapping k)).
    rewrite firstn_app, be_length, Nat.sub_diag, firstn_O, app_nil_r, firstn_all2 by (rewrite be_length; lia).
    unfold bind at 1, lift at 1, sub64. rewrite (proj2 (N.leb_gt _ _)) by (unfold blen in *; lia).
    assert (Hlt : code < 2 ^ 24) by (cbn in Hc; lia). rewrite unbe_be by exact Hlt. match goal with |- context [data_parse code ?x] => set (n := x) end.
    assert (Hn : two63 <= n) by (unfold n, two63, two64, blen in *; lia).
    apply raise_bind. pose proof (vec_panics n f (q + 8) Hn) as V.
    cbn in Hc. destruct Hc as [<-|[<-|[<-|[<-|[<-|[<-|[<-|[]]]]]]]]; cbn [data_parse]; unfold read_utf8, read_utf16, bind; rewrite V; reflexivity.
Qed.

Lemma text_raises : forall m k b (g : ustring -> item_acc), bad_text (a_content k) b ->
  kid_raises (vf <- parse_full_head ;;
    (if negb (fst vf =? 0) then fail (EUnknownVersion (fst vf)) else
     c <- lift (content_len m (size_of k)) ;;
     n <- lift (sub64 m c 4) ;;
     s <- read_utf8 n ;; ret (g s))) k b.
Proof.
  intros m k b g B f p Sm S. pose proof (sits_content _ _ _ S) as Sc. set (q := p + hlen k) in *.
  destruct B as [v r E L V|v r (fl & L & ->) E N].
  - rewrite E in Sc. erewrite bind_ok by (apply (full_head_at f q v r); assumption). cbn [fst].
    rewrite (proj2 (N.eqb_neq _ _)) by exact V. reflexivity.
  - pose proof (csize_eq _ _ E) as Ck. rewrite E in Sc. pose proof (sits_app _ _ _ _ Sc) as [_ Sr].
    change ((n2b 0 :: fl) ++ r) with (n2b 0 :: fl ++ r) in Sc.
    erewrite bind_ok by (apply (full_head_at f q (n2b 0)); [exact Sm|exact Sc|rewrite app_length; lia]).
    cbn [fst]. change (negb (b2n (n2b 0) =? 0)) with false. cbv iota.
    assert (B4 : blen (n2b 0 :: fl) = 4) by (rewrite blen_cons; unfold blen; rewrite L; reflexivity).
    rewrite blen_app, B4 in Ck. rewrite B4 in Sr.
    rewrite (raises_lift _ _ _ _ _ (content_len_of m k)).
    rewrite (raises_lift _ (blen r)) by (rewrite sub64_ok by lia; f_equal; lia).
    apply raise_bind. apply (proj2 (utf8_read f (q + 4) r Sm Sr)). intros s W X. apply N. exists s. auto.
Qed.

Lemma kid_bad : forall m k a b, bad_kid m k b -> kid_raises (item_body m (head_of k) a) k b.
Proof.
  intros m k a b [[I B]|[[I|I] B]].
  - apply data_raises; assumption.
  - unfold item_body. cbn [hd_fourcc hd_size head_of]. rewrite I.
    change (fourcc_eqb (id4 "mean") DATA) with false. change (fourcc_eqb (id4 "mean") MEAN) with true. cbv iota.
    apply (text_raises m k b (fun s => ItemAcc (ia_data a) (Some s) (ia_name a)) B).
  - unfold item_body. cbn [hd_fourcc hd_size head_of]. rewrite I.
    change (fourcc_eqb (id4 "name") DATA) with false. change (fourcc_eqb (id4 "name") MEAN) with false.
    change (fourcc_eqb (id4 "name") NAME) with true. cbv iota.
    apply (text_raises m k b (fun s => ItemAcc (ia_data a) (ia_mean a) (Some s)) B).
Qed.

(** * Containers *)

Lemma item_raises : forall fuel m it b s, fits it = true -> fuel_for fuel it -> bad_item m it b ->
  kid_raises (ilst_body fuel m (head_of it) s) it b.
Proof.
  intros fuel m it b s F Fu (Nf & Pre & H) f p Sm S. unfold ilst_body. cbn [hd_fourcc hd_size head_of].
  change FREE with (id4 "free"). rewrite (proj2 (fourcc_eqb_neq _ _) Nf).
  rewrite (raises_lift _ _ _ _ _ (content_len_of m it)). apply raise_bind. unfold atom_data_parse.
  destruct H as [(x & k & y & ds & K & (Fd & ms & ns & Fm & Fn) & B)|((Fd & ms & ns & Fm & Fn) & ->)].
  - apply raise_bind. pose proof (container_raises m (item_body m) it x k y fuel (ItemAcc [] None None) _ b F Fu K
      (item_steps m x ds ms ns _ Fd Fm Fn) (kid_bad _ _ _ _ B) f p Sm S) as X.
    rewrite Pre, blen_nil, N.add_0_r, content_len_of in X. exact X.
  - pose proof (item_steps m (a_kids it) [] ms ns (ItemAcc [] None None) Fd Fm Fn) as St.
    pose proof (loop_parses m (item_body m) (a_kids it) fuel (csize it) 0 _ _ (fits_kids it F) St) as X.
    assert (Sc : sits f (p + hlen it) (render_all (a_kids it))).
    { apply sits_content in S. unfold a_content in S. rewrite Pre in S. exact S. }
    erewrite bind_ok; [|apply X; [| | |exact Sm|exact Sc]].
    + reflexivity.
    + unfold csize, a_content. rewrite Pre. reflexivity.
    + apply fits_csize in F. lia.
    + apply enough_length, fuel_enough, Fu.
Qed.

Lemma one_raises : forall {Y} id m (sub : size -> R Y) k b s, a_id k = id -> kid_raises (sub (size_of k)) k b ->
  kid_raises (one_body id m sub (head_of k) s) k b.
Proof.
  intros Y id m sub k b s I H. unfold one_body. cbn [hd_fourcc hd_size head_of]. rewrite fourcc_eqb_named, (proj2 (is_named_eq id k) I).
  apply kid_raises_bind, H.
Qed.

Lemma mid_forall2 : forall {X} (P : atom -> X -> Prop) id x k y l, Forall2 P (named_kids id (x ++ k :: y)) l ->
  a_id k = id -> exists l1 v, Forall2 P (named_kids id x) l1 /\ P k v.
Proof.
  intros X P id x k y l F I. rewrite named_mid, (proj2 (is_named_eq id k) I) in F.
  apply Forall2_app_inv_l in F. destruct F as (l1 & l2 & F1 & F2 & ->). inversion F2; subst. eauto.
Qed.

Lemma fits_left : forall x y, forallb fits (x ++ y) = true -> forallb fits x = true.
Proof. intros x y H. rewrite forallb_app in H. apply andb_true_iff in H. apply H. Qed.

(** ** The containers around an item *)

Section Place.
Variables (fuel : nat) (m : mode) (c : place) (it it' : atom) (b : bad).
Hypothesis B : bad_item m it' b.

Lemma bad_ilst : forall items, ilst_means (put_ilst c it) items ->
  fits (put_ilst c it') = true -> fuel_for fuel (put_ilst c it') ->
  kid_raises (ilst_parse fuel m (size_of (put_ilst c it'))) (put_ilst c it') b.
Proof.
  intros items (_ & l & F2 & _) F Fu f p Sm S. cbn [put_ilst a_kids] in F2. rewrite filter_app in F2. cbn [filter] in F2.
  apply Forall2_app_inv_l in F2. destruct F2 as (l1 & l2 & F1 & _ & _).
  assert (I : In it' (a_kids (put_ilst c it'))) by (apply in_or_app; right; left; reflexivity).
  unfold ilst_parse.
  pose proof (container_raises m (ilst_body fuel m) (put_ilst c it') (at_ilst_pre c) it' (at_ilst_post c) fuel [] _ b F Fu eq_refl
    (ilst_steps fuel m _ l1 [] (fits_left _ _ (fits_kids _ F))
        (fun k I => fuel_kid fuel (put_ilst c it') k Fu (in_or_app _ _ _ (or_introl I))) F1)) as X.
  specialize (X (item_raises fuel m it' b _ (kid_fits _ _ F I) (fuel_kid _ _ _ Fu I) B) f p Sm S).
  change (blen (a_pre (put_ilst c it'))) with 0 in X. rewrite N.add_0_r in X. exact X.
Qed.

Lemma bad_meta : forall o, meta_means (put_meta c it) o ->
  fits (put_meta c it') = true -> fuel_for fuel (put_meta c it') ->
  kid_raises (meta_parse fuel m (size_of (put_meta c it'))) (put_meta c it') b.
Proof.
  intros o (V & l & F2 & _) F Fu f p Sm S. apply mid_forall2 in F2; [|reflexivity]. destruct F2 as (l1 & items & F1 & M).
  assert (I : In (put_ilst c it') (a_kids (put_meta c it'))) by (apply in_or_app; right; left; reflexivity).
  destruct (one_steps (id4 "ilst") m (ilst_parse fuel m) ilst_means (fun x => x) (at_meta_pre c) l1 None F1) as (s1 & St & _).
  { intros k x Ik _ P. exists x. split; [|reflexivity].
    assert (Ik' : In k (a_kids (put_meta c it'))) by (apply in_or_app; left; exact Ik).
    apply ilst_kid; [eapply kid_fits; eassumption|eapply fuel_kid; eassumption|exact P]. }
  change (a_pre (put_meta c it)) with (at_meta_head c) in V. destruct (parses_version0 _ V) as (fl & _ & Pv). unfold meta_parse.
  assert (Sh : sits f (p + hlen (put_meta c it')) (at_meta_head c)).
  { apply sits_content in S. unfold a_content in S. apply sits_app in S. apply S. }
  erewrite bind_ok by (apply (Pv f _ Sm Sh)). cbn [fst]. change (negb (0 =? 0)) with false. cbv iota.
  pose proof (container_raises m (one_body (id4 "ilst") m (ilst_parse fuel m)) (put_meta c it') (at_meta_pre c) (put_ilst c it')
    (at_meta_post c) fuel None s1 b F Fu eq_refl St
    (one_raises (id4 "ilst") m (ilst_parse fuel m) (put_ilst c it') b s1 eq_refl
      (bad_ilst items M (kid_fits _ _ F I) (fuel_kid _ _ _ Fu I))) f p Sm S) as X.
  change (a_pre (put_meta c it')) with (at_meta_head c) in X. rewrite (blen_version0 _ V) in *. exact X.
Qed.

Lemma bad_udta : forall o, udta_means (put_udta c it) o ->
  fits (put_udta c it') = true -> fuel_for fuel (put_udta c it') ->
  kid_raises (udta_parse fuel m (size_of (put_udta c it'))) (put_udta c it') b.
Proof.
  intros o (V & oo & (l & F2 & _) & _) F Fu f p Sm S. apply mid_forall2 in F2; [|reflexivity]. destruct F2 as (l1 & items & F1 & M).
  assert (I : In (put_meta c it') (a_kids (put_udta c it'))) by (apply in_or_app; right; left; reflexivity).
  destruct (one_steps (id4 "meta") m (meta_parse fuel m) meta_means (fun x => x) (at_udta_pre c) l1 None F1) as (s1 & St & _).
  { intros k x Ik _ P. exists x. split; [|reflexivity].
    assert (Ik' : In k (a_kids (put_udta c it'))) by (apply in_or_app; left; exact Ik).
    apply meta_kid; [eapply kid_fits; eassumption|eapply fuel_kid; eassumption|exact P]. }
  pose proof (container_raises m (one_body (id4 "meta") m (meta_parse fuel m)) (put_udta c it') (at_udta_pre c) (put_meta c it')
    (at_udta_post c) fuel None s1 b F Fu eq_refl St
    (one_raises (id4 "meta") m (meta_parse fuel m) (put_meta c it') b s1 eq_refl
      (bad_meta items M (kid_fits _ _ F I) (fuel_kid _ _ _ Fu I))) f p Sm S) as X.
  change (blen (a_pre (put_udta c it'))) with 0 in X. rewrite N.add_0_r in X. exact X.
Qed.

Lemma bad_moov : forall info items, moov_means (put_moov c it) info items ->
  fits (put_moov c it') = true -> fuel_for fuel (put_moov c it') ->
  kid_raises (moov_parse fuel m (size_of (put_moov c it'))) (put_moov c it') b.
Proof.
  intros info items (_ & dur & auds & uo & (ds & Fd & _) & Ft & (us & F2 & _) & _) F Fu f p Sm S.
  cbn [put_moov a_kids] in Fd, Ft. unfold named_kids in Fd, Ft. rewrite filter_app in Fd, Ft.
  apply Forall2_app_inv_l in Fd. destruct Fd as (d1 & ? & Fd & _ & _).
  apply Forall2_app_inv_l in Ft. destruct Ft as (t1 & ? & Ft & _ & _).
  apply mid_forall2 in F2; [|reflexivity]. destruct F2 as (l1 & o & F1 & M).
  assert (I : In (put_udta c it') (a_kids (put_moov c it'))) by (apply in_or_app; right; left; reflexivity).
  destruct (moov_steps fuel m (at_moov_pre c) d1 t1 l1 (Moov None [] None)) as (ts & u & St & _); auto.
  { intros k Ik. assert (Ik' : In k (a_kids (put_moov c it'))) by (apply in_or_app; left; exact Ik).
    split; [eapply kid_fits|eapply fuel_kid]; eassumption. }
  pose proof (container_raises m (moov_body fuel m) (put_moov c it') (at_moov_pre c) (put_udta c it')
    (at_moov_post c) fuel _ _ b F Fu eq_refl St) as X. 
  assert (Y : forall s, kid_raises (moov_body fuel m (head_of (put_udta c it')) s) (put_udta c it') b).
  { intros s. unfold moov_body. cbn [hd_fourcc hd_size head_of put_udta a_id].
    change (fourcc_eqb (id4 "udta") MOVIE_HEADER) with false. change (fourcc_eqb (id4 "udta") TRACK) with false.
    change (fourcc_eqb (id4 "udta") USER_DATA) with true. cbv iota. apply kid_raises_bind.
    apply (bad_udta o M (kid_fits _ _ F I) (fuel_kid _ _ _ Fu I)). }
  specialize (X (Y _) f p Sm S). change (blen (a_pre (put_moov c it'))) with 0 in X. rewrite N.add_0_r in X. exact X.
Qed.

Theorem read_bad_item : forall t, describes (put c it) t -> good_sizes (put c it') -> blen (render_all (put c it')) < N.of_nat fuel ->
  read_tag fuel m (render_all (put c it')) = raise b.
Proof.
  intros t D (F & Sm) Fu. pose proof (named_moov _ _ D) as (mv & Nm & MM).
  destruct D as (ft2 & pre2 & mv2 & post2 & E & Ift & W & C & _). injection E as <- E2.
  unfold put in Nm. change (at_ft c :: at_pre c ++ put_moov c it :: at_post c) with ((at_ft c :: at_pre c) ++ put_moov c it :: at_post c) in Nm.
  rewrite named_mid in Nm. change (is_named (id4 "moov") (put_moov c it)) with true in Nm. cbv iota in Nm.
  destruct (named_kids (id4 "moov") (at_ft c :: at_pre c)) as [|? l] eqn:E3; [|injection Nm as _ Nm; apply app_eq_nil in Nm; destruct Nm as [_ Nm]; discriminate].
  cbn [app] in Nm. injection Nm as <- Nm. cbn [named_kids filter] in E3.
  destruct (is_named (id4 "moov") (at_ft c)); [discriminate|].
  set (mo := put_moov c it') in *. set (fb := render_all (put c it')) in *. set (ft := at_ft c) in *.
  cbn [put forallb] in F. fold mo ft in F. apply andb_true_iff in F. destruct F as [Fft F]. rewrite forallb_app in F. apply andb_true_iff in F.
  destruct F as [Fpre F]. cbn [forallb] in F. apply andb_true_iff in F. destruct F as [Fmv _].
  assert (Eb : fb = render ft ++ render_all (at_pre c) ++ render mo ++ render_all (at_post c)).
  { unfold fb, put. rewrite render_all_cons, render_all_app, render_all_cons. reflexivity. }
  assert (Lf : blen fb = asize ft + blen (render_all (at_pre c)) + asize mo + blen (render_all (at_post c))).
  { rewrite Eb, !blen_app. unfold asize. lia. }
  assert (P : ftyp_parse m fb 0 = Ok (tg_ftyp t, asize ft)).
  { pose proof (ftyp_parses m ft (tg_ftyp t) Fft Ift W C fb 0 Sm) as X. rewrite N.add_0_l in X. apply X.
    eexists [], _. rewrite Eb. split; reflexivity. }
  unfold read_tag, read_tag_from. erewrite bind_ok by exact P. erewrite bind_ok by (apply remaining_ok; [lia|exact Sm]).
  assert (S : sits fb (asize ft) (render_all (at_pre c) ++ render mo)).
  { exists (render ft), (render_all (at_post c)). rewrite Eb, <- !app_assoc. split; reflexivity. }
  assert (Lp : (List.length (at_pre c) < fuel)%nat) by (pose proof (kids_count (at_pre c)); unfold blen in *; lia).
  pose proof (find_moov_at m fuel (at_pre c) fuel (blen fb - asize ft) 0 mo fb (asize ft) Fpre Fmv E3 eq_refl Sm S
    ltac:(lia) ltac:(lia) Lp) as X.
  apply sits_app in S. destruct S as [_ S].
  assert (Fum : fuel_for fuel mo) by (unfold fuel_for; pose proof (asize_eq mo); lia).
  pose proof (bad_moov _ _ MM Fmv Fum fb _ Sm S) as Y. fold mo in Y. rewrite Y in X. unfold bind. rewrite X. destruct b; reflexivity.
Qed.
End Place.

(** * Exchanging an item *)

Lemma last_mid_none : forall {X} (P : atom -> X -> Prop) id x k y k' v' l,
  Forall2 P (named_kids id (x ++ k :: y)) l -> named_kids id y = [] -> a_id k = id -> a_id k' = id -> P k' v' ->
  exists l' v, P k v /\ last_opt l = Some v /\ Forall2 P (named_kids id (x ++ k' :: y)) l' /\ last_opt l' = Some v'.
Proof.
  intros X P id x k y k' v' l F N I I' M. rewrite named_mid, N, (proj2 (is_named_eq id k) I) in F. cbn [app] in F.
  apply Forall2_app_inv_l in F. destruct F as (l1 & l2 & F1 & F2 & ->). inversion F2 as [|? v ? ? Pv F3]; subst. inversion F3; subst.
  exists (l1 ++ [v']), v. split; [exact Pv|]. split; [apply last_opt_app|]. split; [|apply last_opt_app].
  rewrite named_mid, N, (proj2 (is_named_eq _ k') I'). cbn [app]. apply Forall2_app; [exact F1|]. constructor; [exact M|constructor].
Qed.

Theorem item_exchange : forall c it it' t i, describes (put c it) t -> effective c ->
  a_id it' <> id4 "free" -> item_means it' i ->
  exists l1 l2 items, items_around c l1 l2 /\ merged (l1 ++ i :: l2) items /\
    describes (put c it') (Tag (tg_ftyp t) (tg_info t) items).
Proof.
  intros c it it' t i D (Nu & Ne & Ni) Nf M. pose proof (named_moov _ _ D) as (mv & Nm & MM).
  destruct D as (ft2 & pre2 & mv2 & post2 & E & Ift & W & C & _). injection E as <- E2.
  unfold put in Nm. change (at_ft c :: at_pre c ++ put_moov c it :: at_post c) with ((at_ft c :: at_pre c) ++ put_moov c it :: at_post c) in Nm.
  rewrite named_mid in Nm. change (is_named (id4 "moov") (put_moov c it)) with true in Nm. cbv iota in Nm.
  destruct (named_kids (id4 "moov") (at_ft c :: at_pre c)) as [|? l] eqn:E3; [|injection Nm as _ Nm; apply app_eq_nil in Nm; destruct Nm as [_ Nm]; discriminate].
  cbn [app] in Nm. injection Nm as <- Nm. cbn [named_kids filter] in E3.
  destruct (is_named (id4 "moov") (at_ft c)); [discriminate|].
  destruct MM as (_ & dur & auds & uo & (ds & Fd & ->) & Ft & (us & Fu & ->) & Ei & Ea).
  (* the old item list *)
  pose proof Fu as Fu0. apply mid_forall2 in Fu0; [|reflexivity]. destruct Fu0 as (_ & ou & _ & (_ & oo & (ms & Fm & _) & _)).
  pose proof Fm as Fm0. apply mid_forall2 in Fm0; [|reflexivity]. destruct Fm0 as (_ & om & _ & (V & ls & Fl & _)).
  pose proof Fl as Fl0. apply mid_forall2 in Fl0; [|reflexivity]. destruct Fl0 as (_ & its & _ & (_ & l & F2 & _)).
  cbn [put_ilst a_kids] in F2. rewrite filter_app in F2. apply Forall2_app_inv_l in F2. destruct F2 as (l1 & l3 & F1 & F3 & ->).
  assert (exists l2, Forall2 item_means (filter (fun k => negb (is_named (id4 "free") k)) (at_ilst_post c)) l2) as (l2 & F4).
  { cbn [filter] in F3. destruct (negb (is_named (id4 "free") it)); [inversion F3; eauto|eauto]. }
  (* the new one *)
  set (items := fold_left ilst_add (l1 ++ i :: l2) []).
  assert (Mi : ilst_means (put_ilst c it') items).
  { split; [reflexivity|]. exists (l1 ++ i :: l2). split; [|apply merged_fold]. cbn [put_ilst a_kids]. rewrite filter_app.
    apply Forall2_app; [exact F1|]. cbn [filter]. destruct (is_named (id4 "free") it') eqn:E; [apply is_named_eq in E; contradiction|].
    cbn [negb]. constructor; assumption. }
  destruct (last_mid_none ilst_means (id4 "ilst") _ _ _ (put_ilst c it') items _ Fl Ni eq_refl eq_refl Mi) as (ls' & v1 & _ & _ & Fl' & El').
  assert (Mm : meta_means (put_meta c it') (Some items)) by (split; [exact V|]; exists ls'; split; [exact Fl'|auto]).
  destruct (last_mid_none meta_means (id4 "meta") _ _ _ (put_meta c it') _ _ Fm Ne eq_refl eq_refl Mm) as (ms' & v2 & _ & _ & Fm' & Em').
  assert (Mu : udta_means (put_udta c it') (Some items)).
  { split; [reflexivity|]. exists (Some (Some items)). split; [|reflexivity]. exists ms'. split; [exact Fm'|auto]. }
  destruct (last_mid_none udta_means (id4 "udta") _ _ _ (put_udta c it') _ _ Fu Nu eq_refl eq_refl Mu) as (us' & v3 & _ & _ & Fu' & Eu').
  exists l1, l2, items. split; [split; assumption|]. split; [apply merged_fold|].
  exists (at_ft c), (at_pre c), (put_moov c it'), (at_post c). cbn [tg_ftyp tg_info tg_atoms].
  do 5 (split; [assumption || reflexivity|]). split; [unfold named_kids in *; rewrite filter_app, E3, Nm; reflexivity|].
  split; [reflexivity|]. exists (last_opt ds), auds, (Some (Some items)). split; [|split; [|split; [|split]]].
  - exists ds. split; [|reflexivity]. cbn [put_moov a_kids] in *. rewrite named_mid in *. exact Fd.
  - cbn [put_moov a_kids] in *. rewrite named_mid in *. exact Ft.
  - exists us'. split; [exact Fu'|auto].
  - exact Ei.
  - reflexivity.
Qed.

Lemma value_item_means : forall e e' id d loc, good_data d -> List.length loc = 4%nat ->
  item_means (value_item e e' id (type_code d) loc (payload d)) (AtomData (IFourcc id) [d]).
Proof.
  intros e e' id d loc G L. split; [reflexivity|]. exists [d], [], [].
  split; [|split; [constructor|split; [constructor|split; [discriminate|reflexivity]]]].
  constructor; [|constructor]. split; [exact G|]. exists loc. split; [exact L|].
  unfold a_content. cbn [a_pre a_kids]. apply app_nil_r.
Qed.

(** * The file type *)

Lemma filetype_exchange : forall ft rest t ft' m fuel, describes (ft :: rest) t -> a_id ft' = id4 "ftyp" ->
  good_sizes (ft' :: rest) -> blen (render_all (ft' :: rest)) < N.of_nat fuel ->
  (forall s, wf_ustr s = true -> enc8 s = a_content ft' ->
     read_tag fuel m (render_all (ft' :: rest)) = Ok (Tag s (tg_info t) (tg_atoms t))) /\
  (~ utf8_bytes (a_content ft') -> read_tag fuel m (render_all (ft' :: rest)) = Err EUtf8).
Proof.
  intros ft rest t ft' m fuel (ft2 & pre & mv & post & E & Ift & W & C & Imv & Nm & M) I G Fu. injection E as <- ->. split.
  - intros s Ws Es. unfold read_tag.
    destruct (read_described (ft' :: pre ++ mv :: post) (Tag s (tg_info t) (tg_atoms t)) fuel m G) as (q & ->); [|exact Fu|reflexivity].
    exists ft', pre, mv, post. do 6 (split; [auto|]). exact M.
  - intros N. destruct G as [F Sm]. cbn [forallb] in F. apply andb_true_iff in F. destruct F as [F _].
    assert (S : sits (render_all (ft' :: pre ++ mv :: post)) 0 (render ft')) by (eexists [], _; split; reflexivity).
    apply read_rejects. unfold ftyp_parse. erewrite bind_ok by (apply head_at; [exact Sm|exact F|exact S]).
    cbn [hd_fourcc hd_size head_of]. rewrite I. change (negb (fourcc_eqb (id4 "ftyp") FILETYPE)) with false. cbv iota.
    rewrite (raises_lift _ _ _ _ _ (content_len_of m ft')). apply sits_content in S. rewrite N.add_0_l in *.
    apply (proj2 (utf8_read _ _ _ Sm S)). intros s Ws Es. apply N. exists s. auto.
Qed.
