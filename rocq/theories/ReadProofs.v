(** Reading a described file returns what the description says. *)

From Coq Require Import List NArith ZArith Bool Lia Arith String.
From Coq Require Import ZifyBool ZifyNat ZifyN.
From Verif Require Import Base BaseLemmas Utf UtfLemmas Types Stream Parse TagSpec TagLemmas FileSpec ParseLemmas.
Import ListNotations.
Local Open Scope list_scope.
Ltac Zify.zify_post_hook ::= Z.div_mod_to_equations.

Lemma bind_ok : forall {A B} (r : R A) (k : A -> R B) f p v q, r f p = Ok (v, q) -> bind r k f p = k v f q.
Proof. intros A B r k f p v q H. unfold bind. rewrite H. reflexivity. Qed.

Lemma sits_prefix : forall f p x y, sits f p (x ++ y) -> sits f p x.
Proof. intros f p x y H. apply sits_app in H. apply H. Qed.

Lemma skipn_skipn : forall {A} i j (l : list A), skipn i (skipn j l) = skipn (i + j) l.
Proof.
  intros A i j. revert i. induction j as [|j IH]; intros i l; [rewrite Nat.add_0_r; reflexivity|].
  rewrite Nat.add_succ_r. destruct l; [rewrite !skipn_nil; reflexivity|]. cbn. apply IH.
Qed.

(** * Items *)

Lemma parses_full_head : forall b fl, List.length fl = 3%nat -> parses parse_full_head (b :: fl) (b2n b, fl).
Proof.
  intros b fl H. unfold parse_full_head. change (b :: fl) with ([b] ++ fl).
  eapply parses_bind; [apply parses_read_u8|]. eapply parses_bind_r; [apply parses_read_exact; unfold blen; rewrite H; reflexivity|].
  apply parses_ret.
Qed.
Lemma parses_version0 : forall v, version0 v -> exists fl, List.length fl = 3%nat /\ parses parse_full_head v (0, fl).
Proof.
  intros v (fl & L & ->). exists fl. split; [exact L|]. apply (parses_full_head (n2b 0) fl L).
Qed.
Lemma blen_version0 : forall v, version0 v -> blen v = 4.
Proof. intros v (fl & L & ->). rewrite blen_cons. unfold blen. rewrite L. reflexivity. Qed.

Lemma parses_data : forall d n, good_data d -> n = blen (payload d) -> parses (data_parse (type_code d) n) (payload d) d.
Proof.
  intros d n G ->. unfold data_parse. destruct d; cbn [type_code payload good_data] in *;
    try (eapply parses_bind_r; [apply parses_vec; reflexivity|apply parses_ret]).
  - eapply parses_bind_r; [apply parses_utf8; auto|apply parses_ret].
  - rewrite flat_map_concat_map. eapply parses_bind_r; [apply parses_utf16; auto|apply parses_ret].
Qed.

Lemma type_code_lt : forall d, type_code d < 2 ^ 24.
Proof. intros []; reflexivity. Qed.

Lemma csize_eq : forall a b, a_content a = b -> csize a = blen b.
Proof. intros a b <-. reflexivity. Qed.

Lemma id_neq : forall k i j, a_id k = i -> i <> j -> is_named j k = false.
Proof. intros k i j <- H. unfold is_named. destruct (fourcc_dec (a_id k) j); congruence. Qed.

Lemma item_data : forall m k d a, a_id k = id4 "data" -> data_means k d ->
  kid_parses (item_body m (head_of k) a) k (ItemAcc (ia_data a ++ [d]) (ia_mean a) (ia_name a)).
Proof.
  intros m k d a I (G & loc & L & C). apply kid_of_parses. pose proof (csize_eq _ _ C) as S. rewrite C.
  unfold item_body. cbn [hd_fourcc hd_size head_of]. rewrite I. change (fourcc_eqb (id4 "data") DATA) with true. cbv iota.
  change (n2b 0 :: be 3 (type_code d) ++ loc ++ payload d) with ((n2b 0 :: be 3 (type_code d)) ++ loc ++ payload d) in *.
  eapply parses_bind; [apply parses_full_head; apply be_length|]. cbv beta zeta. cbn [fst snd].
  change (negb (b2n (n2b 0) =? 0)) with false. cbv iota.
  eapply parses_bind; [apply parses_seek; unfold blen; rewrite L; reflexivity|].
  rewrite content_len_of. eapply parses_bind_l; [apply parses_lift; reflexivity|].
  rewrite !blen_app, blen_cons, blen_be in S. unfold blen at 1 in S. rewrite L in S.
  eapply parses_bind_l; [apply parses_lift; apply sub64_ok; lia|].
  eapply parses_bind_r; [rewrite unbe_be by apply type_code_lt; apply parses_data; [exact G|lia]|]. apply parses_ret.
Qed.

Lemma text_parse : forall m k s (g : ustring -> item_acc), text_means k s ->
  kid_parses (vf <- parse_full_head ;;
    (if negb (fst vf =? 0) then fail (EUnknownVersion (fst vf)) else
     c <- lift (content_len m (size_of k)) ;;
     n <- lift (sub64 m c 4) ;;
     s <- read_utf8 n ;; ret (g s))) k (g s).
Proof.
  intros m k s g (W & v & V & C). apply kid_of_parses. pose proof (csize_eq _ _ C) as S. rewrite C.
  destruct (parses_version0 v V) as (fl & _ & Pv). eapply parses_bind; [exact Pv|]. cbn [fst].
  change (negb (0 =? 0)) with false. cbv iota.
  rewrite content_len_of. eapply parses_bind_l; [apply parses_lift; reflexivity|].
  rewrite blen_app, (blen_version0 v V) in S.
  eapply parses_bind_l; [apply parses_lift; apply sub64_ok; lia|].
  eapply parses_bind_r; [apply parses_utf8; [exact W|lia]|]. apply parses_ret.
Qed.

Lemma item_mean : forall m k s a, a_id k = id4 "mean" -> text_means k s ->
  kid_parses (item_body m (head_of k) a) k (ItemAcc (ia_data a) (Some s) (ia_name a)).
Proof.
  intros m k s a I T. unfold item_body. cbn [hd_fourcc hd_size head_of]. rewrite I.
  change (fourcc_eqb (id4 "mean") DATA) with false. change (fourcc_eqb (id4 "mean") MEAN) with true. cbv iota.
  apply (text_parse m k s (fun s => ItemAcc (ia_data a) (Some s) (ia_name a)) T).
Qed.
Lemma item_name_atom : forall m k s a, a_id k = id4 "name" -> text_means k s ->
  kid_parses (item_body m (head_of k) a) k (ItemAcc (ia_data a) (ia_mean a) (Some s)).
Proof.
  intros m k s a I T. unfold item_body. cbn [hd_fourcc hd_size head_of]. rewrite I.
  change (fourcc_eqb (id4 "name") DATA) with false. change (fourcc_eqb (id4 "name") MEAN) with false.
  change (fourcc_eqb (id4 "name") NAME) with true. cbv iota.
  apply (text_parse m k s (fun s => ItemAcc (ia_data a) (ia_mean a) (Some s)) T).
Qed.
Lemma item_other : forall m k a, is_named (id4 "data") k = false -> is_named (id4 "mean") k = false ->
  is_named (id4 "name") k = false -> kid_parses (item_body m (head_of k) a) k a.
Proof.
  intros m k a H1 H2 H3. unfold item_body. cbn [hd_fourcc head_of].
  change DATA with (id4 "data"). change MEAN with (id4 "mean"). change NAME with (id4 "name").
  rewrite !fourcc_eqb_named, H1, H2, H3. apply kid_skip_ret.
Qed.

Definition or_else {A} (o p : option A) : option A := match o with Some x => Some x | None => p end.

Lemma item_steps : forall m ks ds ms ns a,
  Forall2 data_means (named_kids (id4 "data") ks) ds ->
  Forall2 text_means (named_kids (id4 "mean") ks) ms ->
  Forall2 text_means (named_kids (id4 "name") ks) ns ->
  steps (item_body m) ks a
    (ItemAcc (ia_data a ++ ds) (or_else (last_opt ms) (ia_mean a)) (or_else (last_opt ns) (ia_name a))).
Proof.
  intros m ks. induction ks as [|k r IH]; intros ds ms ns a Fd Fm Fn.
  - inversion Fd; inversion Fm; inversion Fn; subst. cbn. rewrite app_nil_r. destruct a; reflexivity.
  - cbn [named_kids filter] in Fd, Fm, Fn. cbn [steps].
    destruct (is_named (id4 "data") k) eqn:Ed.
    + apply is_named_eq in Ed. rewrite (id_neq k _ (id4 "mean") Ed) in Fm by discriminate.
      rewrite (id_neq k _ (id4 "name") Ed) in Fn by discriminate.
      inversion Fd as [|? d ? ds' Pd Fd']; subst. eexists. split; [apply item_data; eassumption|].
      specialize (IH ds' ms ns (ItemAcc (ia_data a ++ [d]) (ia_mean a) (ia_name a)) Fd' Fm Fn).
      cbn [ia_data ia_mean ia_name] in IH. rewrite <- app_assoc in IH. exact IH.
    + destruct (is_named (id4 "mean") k) eqn:Em.
      * apply is_named_eq in Em. rewrite (id_neq k _ (id4 "name") Em) in Fn by discriminate.
        inversion Fm as [|? s ? ms' Pm Fm']; subst. eexists. split; [apply item_mean; eassumption|].
        specialize (IH ds ms' ns (ItemAcc (ia_data a) (Some s) (ia_name a)) Fd Fm' Fn).
        cbn [ia_data ia_mean ia_name] in IH. rewrite last_opt_cons. unfold or_else in *.
        destruct (last_opt ms'); exact IH.
      * destruct (is_named (id4 "name") k) eqn:En.
        -- apply is_named_eq in En. inversion Fn as [|? s ? ns' Pn Fn']; subst.
           eexists. split; [apply item_name_atom; eassumption|].
           specialize (IH ds ms ns' (ItemAcc (ia_data a) (ia_mean a) (Some s)) Fd Fm Fn').
           cbn [ia_data ia_mean ia_name] in IH. rewrite last_opt_cons. unfold or_else in *.
           destruct (last_opt ns'); exact IH.
        -- exists a. split; [apply item_other; assumption|]. apply IH; assumption.
Qed.

Lemma item_name_model : forall id m n, item_ident id m n = item_name id m n.
Proof.
  intros id [m|] [n|]; try reflexivity. unfold item_ident, item_name. rewrite fourcc_eqb_dec. change FREEFORM with (id4 "----").
  destruct (fourcc_dec id (id4 "----")); reflexivity.
Qed.

Lemma item_parse : forall fuel m k i, fits k = true -> fuel_for fuel k -> item_means k i ->
  kid_parses (c <- lift (content_len m (size_of k)) ;; atom_data_parse fuel m (a_id k) c) k i.
Proof.
  intros fuel m k i F Fu (Pre & ds & ms & ns & Fd & Fm & Fn & Ne & ->). apply kid_of_parses.
  rewrite content_len_of. eapply parses_bind_l; [apply parses_lift; reflexivity|].
  unfold atom_data_parse, a_content. rewrite Pre. cbn [app].
  eapply parses_bind_r.
  - apply loop_parses with (ks := a_kids k);
      [apply fits_kids, F|apply (item_steps m _ ds ms ns); assumption| |apply fits_csize in F; lia|apply enough_length, fuel_enough, Fu].
    unfold csize, a_content. rewrite Pre. reflexivity.
  - cbn [ia_data ia_mean ia_name app]. destruct ds as [|d ds]; [contradiction|].
    assert (E : forall o : option ustring, or_else o None = o) by (intros []; reflexivity).
    rewrite !E, item_name_model. apply parses_ret.
Qed.

(** ** Merging *)

Lemma ilst_add_ids : forall l a, idents (ilst_add l a) = insert_ident (idents l) (ad_ident a).
Proof.
  intros l a. unfold insert_ident. induction l as [|o r IH]; [reflexivity|].
  cbn [ilst_add idents map]. destruct (ident_eqb (ad_ident a) (ad_ident o)) eqn:E.
  - apply ident_eqb_eq in E. cbn [map ad_ident]. destruct (in_dec ident_dec (ad_ident a) (ad_ident o :: map ad_ident r)) as [I|I]; [reflexivity|].
    exfalso. apply I. left. auto.
  - cbn [map]. fold (idents (ilst_add r a)). rewrite IH. fold (idents r).
    assert (ad_ident o <> ad_ident a). { intros X. rewrite X in E. assert (ident_eqb (ad_ident a) (ad_ident a) = true) by (apply ident_eqb_eq; reflexivity). congruence. }
    destruct (in_dec ident_dec (ad_ident a) (idents r)) as [I|I];
      destruct (in_dec ident_dec (ad_ident a) (ad_ident o :: idents r)) as [J|J]; try reflexivity.
    + exfalso. apply J. right. exact I.
    + exfalso. destruct J as [J|J]; congruence.
Qed.
Lemma ilst_add_values : forall l a j,
  values (ilst_add l a) j = values l j ++ (if ident_dec (ad_ident a) j then ad_data a else []).
Proof.
  intros l a j. induction l as [|o r IH].
  - cbn. destruct (ident_dec (ad_ident a) j); reflexivity.
  - cbn [ilst_add]. destruct (ident_eqb (ad_ident a) (ad_ident o)) eqn:E.
    + apply ident_eqb_eq in E. cbn [values ad_ident ad_data]. rewrite E. destruct (ident_dec (ad_ident o) j); [reflexivity|].
      rewrite app_nil_r. reflexivity.
    + cbn [values]. destruct (ident_dec (ad_ident o) j) as [E'|E']; [|exact IH].
      destruct (ident_dec (ad_ident a) j) as [E2|E2]; [|rewrite app_nil_r; reflexivity].
      exfalso. assert (ident_eqb (ad_ident a) (ad_ident o) = true) by (apply ident_eqb_eq; congruence). congruence.
Qed.

Lemma fold_ids : forall l s, idents (fold_left ilst_add l s) = fold_left insert_ident (idents l) (idents s).
Proof. induction l as [|a r IH]; intros s; [reflexivity|]. cbn. rewrite IH, ilst_add_ids. reflexivity. Qed.
Lemma fold_values : forall l s j, values (fold_left ilst_add l s) j = values s j ++ all_values l j.
Proof.
  induction l as [|a r IH]; intros s j; [cbn; rewrite app_nil_r; reflexivity|].
  cbn [fold_left]. rewrite IH, ilst_add_values, <- app_assoc. f_equal. unfold all_values. cbn [filter].
  destruct (ident_dec (ad_ident a) j); reflexivity.
Qed.

Definition outside (o : list data_ident) (k : data_ident) : bool := if in_dec ident_dec k o then false else true.
Lemma filter_filter : forall {A} (p q : A -> bool) l, filter p (filter q l) = filter (fun x => q x && p x) l.
Proof.
  induction l as [|x r IH]; [reflexivity|]. cbn. destruct (q x); cbn; [destruct (p x)|]; rewrite IH; reflexivity.
Qed.
Lemma insert_fold : forall l o, fold_left insert_ident l o = o ++ filter (outside o) (first_occurrences l).
Proof.
  induction l as [|j r IH]; intros o; [cbn; rewrite app_nil_r; reflexivity|].
  cbn [fold_left first_occurrences filter]. rewrite IH, filter_filter. unfold insert_ident.
  unfold outside at 2. destruct (in_dec ident_dec j o) as [I|I].
  - f_equal. apply filter_ext. intros k. unfold outside. destruct (ident_dec j k) as [<-|]; cbn; [|reflexivity].
    destruct (in_dec ident_dec j o); [reflexivity|contradiction].
  - rewrite <- app_assoc. cbn. f_equal. f_equal. apply filter_ext. intros k. unfold outside.
    destruct (ident_dec j k) as [<-|N]; cbn.
    + destruct (in_dec ident_dec j (o ++ [j])) as [J|J]; [reflexivity|]. exfalso. apply J, in_app_iff. right. left. reflexivity.
    + destruct (in_dec ident_dec k (o ++ [j])) as [J|J]; destruct (in_dec ident_dec k o) as [K|K]; try reflexivity; exfalso.
      * apply in_app_iff in J. destruct J as [J|[J|[]]]; contradiction.
      * apply J, in_app_iff. auto.
Qed.

Lemma first_occ_in : forall l j, In j (first_occurrences l) <-> In j l.
Proof.
  induction l as [|k r IH]; intros j; [tauto|]. cbn. rewrite filter_In, IH. destruct (ident_dec k j); intuition congruence.
Qed.
Lemma first_occ_nodup : forall l, NoDup (first_occurrences l).
Proof.
  induction l as [|k r IH]; [constructor|]. cbn. constructor.
  - rewrite filter_In. intros [_ H]. destruct (ident_dec k k); congruence.
  - apply NoDup_filter, IH.
Qed.

Lemma merged_fold : forall l, merged l (fold_left ilst_add l []).
Proof.
  intros l. split.
  - rewrite fold_ids, insert_fold. cbn. rewrite <- (map_id (first_occurrences (idents l))) at 2. rewrite map_id.
    induction (first_occurrences (idents l)) as [|x r IH]; [reflexivity|]. cbn. rewrite IH. reflexivity.
  - intros j. rewrite fold_values. reflexivity.
Qed.

(** Items are determined by identifiers and values. *)
Lemma items_ext : forall l r, unique_idents l -> idents l = idents r -> (forall j, values l j = values r j) -> l = r.
Proof.
  unfold unique_idents. induction l as [|a l IH]; intros [|b r] U I V; try discriminate; [reflexivity|].
  cbn in U, I. injection I as Ia Ir. inversion U as [|? ? N U']; subst.
  assert (Hd : ad_data a = ad_data b).
  { specialize (V (ad_ident a)). cbn in V. rewrite Ia in V. destruct (ident_dec (ad_ident b) (ad_ident b)); congruence. }
  f_equal.
  - destruct a, b. cbn in *. congruence.
  - apply IH; [exact U'|exact Ir|]. intros j. specialize (V j). cbn in V. rewrite Ia in V.
    destruct (ident_dec (ad_ident b) j) as [E|E]; [|exact V].
    rewrite !values_absent; [reflexivity| |]; rewrite <- E, <- Ia; [unfold idents; rewrite <- Ir|]; exact N.
Qed.
Lemma merged_unique : forall l r, merged l r -> unique_idents r.
Proof. intros l r [H _]. unfold unique_idents. rewrite H. apply first_occ_nodup. Qed.
Lemma merged_det : forall l r r', merged l r -> merged l r' -> r = r'.
Proof.
  intros l r r' M M'. apply items_ext; [eapply merged_unique; eassumption| |].
  - destruct M as [-> _], M' as [-> _]. reflexivity.
  - intros j. destruct M as [_ ->], M' as [_ ->]. reflexivity.
Qed.

(** ** Item list, metadata, user data *)

Definition not_free (k : atom) : bool := negb (is_named (id4 "free") k).

Lemma ilst_steps : forall fuel m ks l s, forallb fits ks = true -> (forall k, In k ks -> fuel_for fuel k) ->
  Forall2 item_means (filter not_free ks) l -> steps (ilst_body fuel m) ks s (fold_left ilst_add l s).
Proof.
  intros fuel m ks. induction ks as [|k r IH]; intros l s F Fu H.
  - inversion H; subst. reflexivity.
  - cbn [forallb] in F. apply andb_true_iff in F. destruct F as [Fk Fr]. cbn [filter] in H. cbn [steps].
    unfold ilst_body at 1. cbn [hd_fourcc hd_size head_of]. change FREE with (id4 "free"). rewrite fourcc_eqb_named.
    unfold not_free in H. destruct (is_named (id4 "free") k) eqn:E; cbn in H.
    + exists s. split; [apply kid_skip_ret|]. apply IH; auto. intros; apply Fu; right; auto.
    + inversion H as [|? i ? l' Pi H']; subst. exists (ilst_add s i). split.
      * pose proof (item_parse fuel m k i Fk (Fu k (or_introl eq_refl)) Pi) as P. intros f p Sm S.
        specialize (P f p Sm S). unfold bind in *. destruct (lift (content_len m (size_of k)) f (p + hlen k)) as [[c q]|e|e|]; try discriminate.
        rewrite P. reflexivity.
      * cbn [fold_left]. apply IH; auto. intros; apply Fu; right; auto.
Qed.

Lemma ilst_kid : forall fuel m k l, fits k = true -> fuel_for fuel k -> ilst_means k l ->
  kid_parses (ilst_parse fuel m (size_of k)) k l.
Proof.
  intros fuel m k l F Fu (Pre & its & F2 & M). apply kid_of_parses. unfold ilst_parse.
  rewrite content_len_of. unfold a_content. rewrite Pre. cbn [app].
  rewrite <- (merged_det its _ _ (merged_fold its) M). apply loop_parses.
  - apply fits_kids, F.
  - apply ilst_steps; [apply fits_kids, F|intros; eapply fuel_kid; eassumption|exact F2].
  - unfold csize, a_content. rewrite Pre. reflexivity.
  - apply fits_csize in F. lia.
  - apply enough_length, fuel_enough, Fu.
Qed.

Lemma meta_kid : forall fuel m k o, fits k = true -> fuel_for fuel k -> meta_means k o ->
  kid_parses (meta_parse fuel m (size_of k)) k o.
Proof.
  intros fuel m k o F Fu (V & LC). apply kid_of_parses. unfold meta_parse, a_content.
  destruct (parses_version0 _ V) as (fl & _ & Pv). eapply parses_bind; [exact Pv|]. cbn [fst].
  change (negb (0 =? 0)) with false. cbv iota.
  destruct (last_child_loop (id4 "ilst") m fuel (ilst_parse fuel m) ilst_means (fun x => x) k o F Fu LC) as (r & Pr & E).
  { intros k' x _ F' Fu' _ Px. exists x. split; [apply ilst_kid; assumption|reflexivity]. }
  rewrite (blen_version0 _ V) in Pr.
  assert (r = o) by (destruct r; exact E). subst r. exact Pr.
Qed.

Lemma udta_kid : forall fuel m k o, fits k = true -> fuel_for fuel k -> udta_means k o ->
  exists y, kid_parses (udta_parse fuel m (size_of k)) k y /\ ojoin y = o.
Proof.
  intros fuel m k o F Fu H.
  destruct (box_loop (id4 "meta") m fuel (meta_parse fuel m) meta_means (fun x => x) k o F Fu H) as (r & Pr & E).
  { intros k' x _ F' Fu' _ Px. exists x. split; [apply meta_kid; assumption|reflexivity]. }
  exists r. split; [exact Pr|]. destruct r; exact E.
Qed.

(** * Descriptors *)

Lemma len7_S : forall w n, len7 (S (S w)) n = n2b (128 + (n / 128 ^ N.of_nat (S w)) mod 128) :: len7 (S w) n.
Proof. reflexivity. Qed.
Lemma len7_length : forall w n, List.length (len7 w n) = w.
Proof.
  induction w as [|w IH]; intros n; [reflexivity|]. destruct w; [reflexivity|].
  rewrite len7_S. cbn [List.length]. rewrite IH. reflexivity.
Qed.

Lemma parses_desc_len : forall w k hl acc n, (w <= k)%nat ->
  parses (desc_len_loop (S k) hl acc) (len7 (S w) n) (hl + N.of_nat (S w), acc * 128 ^ N.of_nat (S w) + n mod 128 ^ N.of_nat (S w)).
Proof.
  induction w as [|w IH]; intros k hl acc n H.
  - cbn [desc_len_loop len7]. eapply parses_bind_r; [apply parses_read_u8|]. cbv zeta. rewrite b2n_n2b.
    rewrite (N.mod_small (n mod 128) 256) by (pose proof (N.mod_lt n 128); lia).
    rewrite (proj2 (N.ltb_lt _ 128)) by (apply N.mod_lt; lia). rewrite N.mod_mod by lia.
    eapply parses_eq; [apply parses_ret|reflexivity|]. change (N.of_nat 1) with 1. rewrite N.pow_1_r. reflexivity.
  - rewrite len7_S. destruct k as [|k]; [lia|].
    change (desc_len_loop (S (S k)) hl acc) with
      (b <- read_u8 ;; let len' := acc * 128 + b mod 128 in
       if b <? 128 then ret (hl + 1, len') else desc_len_loop (S k) (hl + 1) len').
    change (n2b ?x :: ?y) with ([n2b x] ++ y). eapply parses_bind; [apply parses_read_u8|]. cbv zeta. rewrite b2n_n2b.
    set (q := n / 128 ^ N.of_nat (S w)). pose proof (N.mod_lt q 128). rewrite (N.mod_small (128 + q mod 128) 256) by lia.
    rewrite (proj2 (N.ltb_ge _ 128)) by lia.
    replace ((128 + q mod 128) mod 128) with (q mod 128) by (rewrite N.add_mod, N.mod_same, N.add_0_l, !N.mod_mod by lia; reflexivity).
    eapply parses_eq; [apply IH; lia|reflexivity|]. f_equal; [lia|].
    replace (N.of_nat (S (S w))) with (N.of_nat (S w) + 1) by lia. rewrite N.pow_add_r, N.pow_1_r.
    assert (P0 : 128 ^ N.of_nat (S w) <> 0) by (apply N.pow_nonzero; lia).
    rewrite (N.mod_mul_r n (128 ^ N.of_nat (S w)) 128) by (assumption || discriminate).
    fold q. clearbody q. generalize dependent (128 ^ N.of_nat (S w)). intros c _.
    rewrite N.mul_add_distr_r. lia.
Qed.

Lemma parses_desc_head : forall t w n, (1 <= w <= 4)%nat -> n < 128 ^ N.of_nat w ->
  parses parse_desc_head (t :: len7 w n) (b2n t, 1 + N.of_nat w, n).
Proof.
  intros t w n Hw Hn. unfold parse_desc_head. change (t :: len7 w n) with ([t] ++ len7 w n).
  eapply parses_bind; [apply parses_read_u8|]. destruct w as [|w]; [lia|].
  eapply parses_bind_r; [apply (parses_desc_len w 3 1 0 n); lia|]. cbn [fst snd].
  eapply parses_eq; [apply parses_ret|reflexivity|]. rewrite N.mod_small by exact Hn. f_equal.
Qed.

Fixpoint dsteps {S} (body : N -> N -> S -> R S) (ds : list desc) (s s' : S) : Prop :=
  match ds with
  | [] => s = s'
  | d :: r => exists s1, parses (body (b2n (d_tag d)) (blen (d_body d)) s) (d_body d) s1 /\ dsteps body r s1 s'
  end.

Lemma render_desc_eq : forall d, render_desc d = (d_tag d :: len7 (d_width d) (blen (d_body d))) ++ d_body d.
Proof. reflexivity. Qed.
Lemma blen_render_desc : forall d, blen (render_desc d) = 1 + N.of_nat (d_width d) + blen (d_body d).
Proof. intros. rewrite render_desc_eq, blen_app, blen_cons. unfold blen at 1. rewrite len7_length. lia. Qed.

Lemma desc_loop_parses : forall {S} m body ds fuel len parsed (s s' : S),
  Forall good_desc ds -> dsteps body ds s s' ->
  parsed + blen (flat_map render_desc ds) = len -> len < 2 ^ 63 -> (List.length ds < fuel)%nat ->
  parses (desc_loop fuel m len body parsed s) (flat_map render_desc ds) s'.
Proof.
  intros S m body ds. induction ds as [|d r IH]; intros fuel len parsed s s' G St L L63 Fu;
    (destruct fuel as [|fuel]; [cbn in Fu; lia|]).
  - cbn [desc_loop dsteps flat_map] in *. subst s'. rewrite blen_nil in L.
    rewrite (proj2 (N.ltb_ge parsed len)) by lia. apply parses_ret.
  - inversion G as [|? ? (W & B) G']; subst. destruct St as (s1 & Hd & St). cbn [flat_map] in *.
    rewrite blen_app, blen_render_desc in *.
    cbn [desc_loop]. rewrite (proj2 (N.ltb_lt parsed _)) by lia.
    rewrite render_desc_eq, <- app_assoc.
    eapply parses_bind; [apply parses_desc_head; assumption|]. cbv beta iota.
    eapply parses_bind; [exact Hd|].
    eapply parses_bind_l; [apply parses_lift, add64_ok; unfold two64; lia|].
    eapply parses_bind_l; [apply parses_lift, add64_ok; unfold two64; lia|].
    apply IH; auto; [lia|cbn in Fu; lia].
Qed.

Lemma descs_count : forall ds, Forall good_desc ds -> 2 * blen ds <= blen (flat_map render_desc ds).
Proof.
  induction 1 as [|d r (W & B) G IH]; [vm_compute; discriminate|]. cbn [flat_map].
  rewrite blen_app, blen_render_desc, blen_cons. lia.
Qed.

(** A loop interested in one tag that occurs at most once. *)
Definition tag_body {S} (t : N) (sub : S -> N -> R S) (tag dl : N) (s : S) : R S :=
  if tag =? t then sub s dl else seek_cur (as_i64 dl) ;;; ret s.

Lemma body_skip : forall {S} t (sub : S -> N -> R S) d s, good_desc d -> (b2n (d_tag d) =? t) = false ->
  parses (tag_body t sub (b2n (d_tag d)) (blen (d_body d)) s) (d_body d) s.
Proof.
  intros S t sub d s _ E. unfold tag_body. rewrite E. eapply parses_bind_r; [|apply parses_ret].
  intros f p Sm H. pose proof (sits_len _ _ _ H). unfold small in Sm.
  rewrite as_i64_small by (unfold two63; lia). apply parses_seek; auto.
Qed.
Lemma dsteps_none : forall {S} t (sub : S -> N -> R S) ds s, Forall good_desc ds -> tagged_desc t ds = [] ->
  dsteps (tag_body t sub) ds s s.
Proof.
  intros S t sub ds. induction ds as [|d r IH]; intros s G H; [reflexivity|]. inversion G; subst.
  cbn [tagged_desc filter] in H. destruct (b2n (d_tag d) =? t) eqn:E; [discriminate|].
  exists s. split; [apply body_skip; assumption|]. apply IH; assumption.
Qed.
Lemma dsteps_one : forall {S} t (sub : S -> N -> R S) ds d s s', Forall good_desc ds -> tagged_desc t ds = [d] ->
  parses (sub s (blen (d_body d))) (d_body d) s' -> dsteps (tag_body t sub) ds s s'.
Proof.
  intros S t sub ds d. induction ds as [|x r IH]; intros s s' G H P; [discriminate|]. inversion G; subst.
  cbn [tagged_desc filter] in H. destruct (b2n (d_tag x) =? t) eqn:E.
  - injection H as -> H. exists s'. split; [unfold tag_body; rewrite E; exact P|]. apply dsteps_none; assumption.
  - exists s. split; [apply body_skip; assumption|]. apply IH; assumption.
Qed.

(** ** Decoder specific info *)

Definition all_bytes : bytes := map (fun k => n2b (N.of_nat k)) (seq 0 256).
Lemma all_bytes_in : forall b, In b all_bytes.
Proof.
  intros b. unfold all_bytes. apply in_map_iff. exists (N.to_nat (b2n b)). split.
  - rewrite N2Nat.id. apply n2b_b2n.
  - apply in_seq. pose proof (b2n_lt b). lia.
Qed.
Lemma bits_sweep : forallb (fun a => forallb (fun b =>
    let num := unbe [a; b] in
    let l := bits [a; b] in
    (bits_value (firstn 4 (skipn 5 l)) =? (num / 128) mod 16) && (bits_value (firstn 4 (skipn 9 l)) =? (num / 8) mod 16))
    all_bytes) all_bytes = true.
Proof. vm_compute. reflexivity. Qed.
Lemma bits_ds : forall a b r,
  bits_value (firstn 4 (skipn 5 (bits (a :: b :: r)))) = (unbe [a; b] / 128) mod 16 /\
  bits_value (firstn 4 (skipn 9 (bits (a :: b :: r)))) = (unbe [a; b] / 8) mod 16.
Proof.
  intros a b r. pose proof bits_sweep as H. rewrite forallb_forall in H. specialize (H a (all_bytes_in a)).
  rewrite forallb_forall in H. specialize (H b (all_bytes_in b)). cbv zeta in H. apply andb_true_iff in H.
  rewrite !N.eqb_eq in H. exact H.
Qed.

Lemma sample_rate_spec : forall i r, i < 16 -> option_map hz r = nth_error mpeg4_frequencies (N.to_nat i) -> sample_rate_of i = r.
Proof.
  intros i r Hi H. assert (exists n, i = N.of_nat n /\ (n < 16)%nat) as (n & -> & Hn) by (exists (N.to_nat i); lia).
  rewrite Nat2N.id in H. do 16 (destruct n as [|n]; [destruct r as [[]|]; (reflexivity || discriminate)|]). lia.
Qed.
Lemma channels_spec : forall i c, i < 16 -> option_map channel_count c = join (nth_error mpeg4_channels (N.to_nat i)) -> channel_config_of i = c.
Proof.
  intros i r Hi H. assert (exists n, i = N.of_nat n /\ (n < 16)%nat) as (n & -> & Hn) by (exists (N.to_nat i); lia).
  rewrite Nat2N.id in H. do 16 (destruct n as [|n]; [destruct r as [[]|]; (reflexivity || discriminate)|]). lia.
Qed.

Lemma parses_ds : forall m info b ch rate, ds_means b ch rate -> blen b < 2 ^ 62 ->
  parses (parse_ds_desc m info (blen b)) b (Mp4a ch rate (ma_max info) (ma_avg info)).
Proof.
  intros m info b ch rate (L & Hr & Hc) Sm. destruct b as [|x [|y r]]; cbn in L; try lia.
  unfold parse_ds_desc. rewrite !blen_cons in *. change (x :: y :: r) with ([x; y] ++ r).
  eapply parses_bind; [apply (parses_read_unbe 2); reflexivity|]. cbv zeta.
  eapply parses_bind_l; [apply parses_lift, sub64_ok; lia|].
  eapply parses_bind_r; [apply parses_seek; rewrite as_i64_small by (unfold two63; lia); f_equal; lia|].
  destruct (bits_ds x y r) as [E1 E2]. rewrite E1 in Hr. rewrite E2 in Hc.
  rewrite (sample_rate_spec _ rate (N.mod_lt _ 16 ltac:(lia)) Hr), (channels_spec _ ch (N.mod_lt _ 16 ltac:(lia)) Hc). apply parses_ret.
Qed.

Definition mp4a_of (a : audio) : mp4a := Mp4a (au_channels a) (au_rate a) (au_max a) (au_avg a).
Definition audio_of (a : mp4a) : audio := Audio (ma_channels a) (ma_rate a) (ma_max a) (ma_avg a).

Lemma split3 : forall (h : bytes) n k, (n + k <= List.length h)%nat -> h = firstn n h ++ firstn k (skipn n h) ++ skipn (n + k) h.
Proof.
  intros h n k H. rewrite <- (firstn_skipn n h) at 1. f_equal. rewrite <- (firstn_skipn k (skipn n h)) at 1. f_equal.
  rewrite skipn_skipn. f_equal. lia.
Qed.

Lemma parses_dc : forall fuel m b a, dc_means b a -> blen b < N.of_nat fuel -> blen b < 2 ^ 62 ->
  parses (parse_dc_desc fuel m mp4a_default (blen b)) b (mp4a_of a).
Proof.
  intros fuel m b a (h & l & L & -> & G & Hmx & Hav & D) Fu Sm. unfold parse_dc_desc.
  pose proof (split3 h 5 4 ltac:(lia)) as E. pose proof (descs_count l G) as Cn.
  rewrite blen_app in *. assert (Lh : blen h = 13) by (unfold blen; rewrite L; reflexivity). rewrite Lh in *.
  rewrite E, <- !app_assoc.
  eapply parses_bind; [apply parses_seek; unfold blen; rewrite firstn_length, L; reflexivity|].
  eapply parses_bind; [apply (parses_read_unbe 4); [rewrite firstn_length, skipn_length, L|]; reflexivity|].
  eapply parses_bind; [apply (parses_read_unbe 4); [rewrite skipn_length, L|]; reflexivity|].
  cbn [ma_channels ma_rate mp4a_default]. rewrite <- Hmx. change (5 + 4)%nat with 9%nat. rewrite <- Hav.
  apply desc_loop_parses; auto; try (unfold blen in *; lia).
  change (dc_body m) with (tag_body 5 (parse_ds_desc m)).
  destruct (tagged_desc 5 l) as [|d [|? ?]] eqn:T; [| |contradiction].
  - destruct D as [D1 D2]. unfold mp4a_of. rewrite D1, D2. apply dsteps_none; assumption.
  - eapply dsteps_one; [assumption|exact T|].
    eapply parses_eq; [eapply parses_ds; [exact D|]|reflexivity|reflexivity].
    assert (In d l). { assert (In d (tagged_desc 5 l)) by (rewrite T; left; reflexivity). unfold tagged_desc in H. apply filter_In in H. apply H. }
    clear - H Sm. induction l as [|x r IH]; [contradiction|]. cbn [flat_map] in Sm. rewrite blen_app, blen_render_desc in Sm.
    destruct H as [->|H]; [lia|]. apply IH; [|exact H]. lia.
Qed.

Lemma desc_in : forall l d, In d l -> blen (d_body d) <= blen (flat_map render_desc l).
Proof.
  induction l as [|x r IH]; intros d H; [contradiction|]. cbn [flat_map]. rewrite blen_app, blen_render_desc.
  destruct H as [->|H]; [lia|]. specialize (IH d H). lia.
Qed.

Lemma parses_es : forall fuel m b a, es_means b a -> blen b < N.of_nat fuel -> blen b < 2 ^ 62 ->
  parses (parse_es_desc fuel m mp4a_default (blen b)) b (mp4a_of a).
Proof.
  intros fuel m b a (h & l & L & -> & G & D) Fu Sm. unfold parse_es_desc. pose proof (descs_count l G) as Cn.
  rewrite blen_app in *. assert (Lh : blen h = 3) by (unfold blen; rewrite L; reflexivity). rewrite Lh in *.
  eapply parses_bind; [apply parses_seek; rewrite Lh; reflexivity|].
  apply desc_loop_parses; auto; try (unfold blen in *; lia).
  change (es_body fuel m) with (tag_body 4 (parse_dc_desc fuel m)).
  destruct (tagged_desc 4 l) as [|d [|? ?]] eqn:T; [| |contradiction].
  - subst a. apply dsteps_none; assumption.
  - eapply dsteps_one; [assumption|exact T|].
    assert (In d l). { assert (In d (tagged_desc 4 l)) by (rewrite T; left; reflexivity). unfold tagged_desc in H. apply filter_In in H. apply H. }
    apply desc_in in H. apply parses_dc; [exact D| |]; lia.
Qed.

Lemma esds_parses : forall fuel m k a, fits k = true -> fuel_for fuel k -> esds_means k a -> csize k < 2 ^ 62 ->
  exists x y, a_content k = x ++ y /\ parses (parse_esds fuel m mp4a_default (size_of k)) x (mp4a_of a).
Proof.
  intros fuel m k a F Fu (I & v & d & rest & V & T & (W & B) & C & E) Sm.
  exists (v ++ render_desc d), rest. split; [rewrite C, <- app_assoc; reflexivity|].
  pose proof (csize_eq _ _ C) as S. rewrite !blen_app, blen_render_desc, (blen_version0 v V) in S.
  unfold parse_esds. destruct (parses_version0 v V) as (fl & _ & Pv). eapply parses_bind; [exact Pv|]. cbn [fst].
  change (negb (0 =? 0)) with false. cbv iota. rewrite render_desc_eq.
  eapply parses_bind; [apply parses_desc_head; assumption|]. cbv beta iota. rewrite T.
  change (negb (3 =? 3)) with false. cbv iota.
  rewrite content_len_of. eapply parses_bind_l; [apply parses_lift; reflexivity|].
  eapply parses_bind_l; [apply parses_lift, sub64_ok; lia|].
  eapply parses_bind_l; [apply parses_lift, sub64_ok; lia|].
  rewrite N.min_l by lia. unfold fuel_for in Fu. apply parses_es; [exact E|lia|lia].
Qed.

Lemma mp4a_kid : forall fuel m k a, fits k = true -> fuel_for fuel k -> mp4a_means k a ->
  kid_parses (mp4a_parse fuel m (size_of k)) k (mp4a_of a).
Proof.
  intros fuel m k a F Fu (L & e & rest & K & E) f p Sm S. unfold mp4a_parse.
  pose proof (sits_content _ _ _ S) as Sc. pose proof (sits_len _ _ _ S) as SL. fold (asize k) in SL.
  unfold small in Sm. rewrite asize_eq in *. pose proof (hlen_pos k) as H8.
  unfold a_content in Sc. rewrite K in Sc. apply sits_app in Sc. destruct Sc as [_ Sc]. rewrite render_all_cons in Sc.
  apply sits_app in Sc. destruct Sc as [Se _].
  assert (Lp : blen (a_pre k) = 28) by (unfold blen; rewrite L; reflexivity). rewrite Lp in Se.
  assert (In e (a_kids k)) as Ie by (rewrite K; left; reflexivity).
  pose proof (kid_fits _ _ F Ie) as Fe. pose proof (fuel_kid _ _ _ Fu Ie) as Fue.
  assert (asize e + 28 <= csize k) as Sz.
  { unfold csize, a_content. rewrite blen_app, Lp. apply kid_in_size in Ie. lia. }
  pose proof (asize_eq e) as Ae. pose proof (hlen_pos e) as He8.
  rewrite (bind_ok _ _ _ _ _ _ (find_bounds_of m k f p)).
  erewrite bind_ok by (apply (seek_cur_ok f _ 28); [exact Sm|lia|lia]).
  pose proof Se as Se'. rewrite render_eq in Se'. apply sits_app in Se'. destruct Se' as [Sh _].
  erewrite bind_ok by (apply (parses_head e Fe f _ Sm Sh)). rewrite blen_header. fold (hlen e).
  cbn [hd_fourcc hd_size head_of]. destruct (esds_parses fuel m e a Fe Fue E) as (x & y & Cx & Px); [lia|].
  destruct E as (Ide & _). rewrite Ide. change (negb (fourcc_eqb (id4 "esds") ELEMENTARY_STREAM_DESCRIPTION)) with false. cbv iota.
  pose proof (sits_content _ _ _ Se) as Sce. rewrite Cx in Sce. apply sits_app in Sce. destruct Sce as [Sx _].
  erewrite bind_ok by (apply (Px f _ Sm Sx)).
  assert (csize e = blen x + blen y) as Cxy by (unfold csize; rewrite Cx, blen_app; reflexivity).
  erewrite bind_ok by (apply seek_to_end_of; [exact Sm|exact S|rewrite (asize_eq k); lia]).
  unfold ret. rewrite (asize_eq k). reflexivity.
Qed.

(** * Tracks *)

Lemma stsd_kid : forall fuel m k o, fits k = true -> fuel_for fuel k -> stsd_means k o ->
  exists y, kid_parses (stsd_parse fuel m (size_of k)) k y /\ option_map audio_of y = o.
Proof.
  intros fuel m k o F Fu ((v & n & V & Ln & Pre) & LC).
  destruct (last_child_loop (id4 "mp4a") m fuel (mp4a_parse fuel m) mp4a_means audio_of k o F Fu LC) as (r & Pr & E).
  { intros k' x _ F' Fu' _ Px. exists (mp4a_of x). split; [apply mp4a_kid; assumption|destruct x; reflexivity]. }
  exists r. split; [|exact E]. apply kid_of_parses. unfold stsd_parse, a_content. rewrite Pre, <- app_assoc.
  destruct (parses_version0 v V) as (fl & _ & Pv). eapply parses_bind; [exact Pv|]. cbn [fst].
  change (negb (0 =? 0)) with false. cbv iota.
  eapply parses_bind; [apply parses_seek; unfold blen; rewrite Ln; reflexivity|].
  rewrite Pre, blen_app, (blen_version0 v V) in Pr. unfold blen at 1 in Pr. rewrite Ln in Pr. exact Pr.
Qed.

Ltac box_kid id sub P g lem :=
  intros fuel m k o F Fu H;
  destruct (box_loop (id4 id) m fuel (sub fuel m) P g k o F Fu H) as (r & Pr & E);
  [intros k' x _ F' Fu' _ Px; apply lem; assumption|exists r; split; [exact Pr|exact E]].

Lemma stbl_kid : forall fuel m k o, fits k = true -> fuel_for fuel k -> stbl_means k o ->
  exists y, kid_parses (stbl_parse fuel m (size_of k)) k y /\ join (option_map (option_map audio_of) y) = o.
Proof. box_kid "stsd"%string stsd_parse stsd_means (option_map audio_of) stsd_kid. Qed.
Lemma minf_kid : forall fuel m k o, fits k = true -> fuel_for fuel k -> minf_means k o ->
  exists y, kid_parses (minf_parse fuel m (size_of k)) k y /\
            join (option_map (fun y => join (option_map (option_map audio_of) y)) y) = o.
Proof.
  box_kid "stbl"%string stbl_parse stbl_means (fun y => join (option_map (option_map audio_of) y)) stbl_kid.
Qed.
Lemma mdia_kid : forall fuel m k o, fits k = true -> fuel_for fuel k -> mdia_means k o ->
  exists y, kid_parses (mdia_parse fuel m (size_of k)) k y /\
            join (option_map (fun y => join (option_map (fun y => join (option_map (option_map audio_of) y)) y)) y) = o.
Proof.
  box_kid "minf"%string minf_parse minf_means (fun y => join (option_map (fun y => join (option_map (option_map audio_of) y)) y)) minf_kid.
Qed.
Lemma trak_kid : forall fuel m k o, fits k = true -> fuel_for fuel k -> trak_means k o ->
  exists y, kid_parses (trak_parse fuel m (size_of k)) k y /\ option_map audio_of (trak_mp4a y) = o.
Proof.
  intros fuel m k o F Fu H.
  destruct (box_loop (id4 "mdia") m fuel (mdia_parse fuel m) mdia_means
    (fun y => join (option_map (fun y => join (option_map (fun y => join (option_map (option_map audio_of) y)) y)) y)) k o F Fu H) as (r & Pr & E);
  [intros k' x _ F' Fu' _ Px; apply mdia_kid; assumption|exists r; split; [exact Pr|rewrite <- E]].
  destruct r as [[[[[]|]|]|]|]; reflexivity.
Qed.

(** * Movie header *)

Lemma slice_skipn : forall b p n, p + n <= blen b -> skipn (N.to_nat p) b = slice b p n ++ skipn (N.to_nat (p + n)) b.
Proof.
  intros b p n H. unfold slice. rewrite <- (firstn_skipn (N.to_nat n) (skipn (N.to_nat p) b)) at 1. f_equal.
  rewrite skipn_skipn. f_equal. lia.
Qed.
Lemma slice_length : forall b p n, p + n <= blen b -> List.length (slice b p n) = N.to_nat n.
Proof. intros b p n H. pose proof (blen_slice b p n H) as E. unfold blen in E at 1. lia. Qed.

Lemma nanos_ok : forall m t d n, nanos t d n -> mvhd_nanos m t d = Ok n.
Proof.
  intros m t d n (Ht & Hd & ->). unfold mvhd_nanos, mul64, div64, two64, rbind.
  rewrite (proj2 (N.ltb_lt _ _)) by exact Hd. rewrite (proj2 (N.eqb_neq _ _)) by exact Ht. reflexivity.
Qed.

Lemma mvhd_kid : forall m k d, mvhd_means k d -> kid_parses (mvhd_parse m (size_of k)) k d.
Proof.
  intros m k d H f p Sm S. unfold mvhd_parse.
  rewrite (bind_ok _ _ _ _ _ _ (find_bounds_of m k f p)).
  pose proof (sits_content _ _ _ S) as Sc. set (b := a_content k) in *.
  assert (G : forall x rest, b = x ++ rest -> forall r : R N, parses r x d ->
     (y <- r ;; seek_to_end m (bounds_of p k) ;;; ret y) f (p + hlen k) = Ok (d, p + asize k)).
  { intros x rest E r P. rewrite E in Sc. apply sits_app in Sc. destruct Sc as [Sx _].
    erewrite bind_ok by (apply (P f _ Sm Sx)).
    erewrite bind_ok; [reflexivity|]. apply seek_to_end_of; [exact Sm|exact S|].
    rewrite asize_eq. assert (csize k = blen x + blen rest) by (unfold csize; fold b; rewrite E, blen_app; reflexivity). lia. }
  assert (As : forall {A B C} (r : R A) (g : A -> R B) (h : B -> R C) f p, bind r (fun x => bind (g x) h) f p = bind (bind r g) h f p).
  { intros A B C r g h f0 p0. unfold bind. destruct (r f0 p0) as [[]| | |]; reflexivity. }
  rewrite As.
  assert (V : forall n, 20 <= blen b -> b = slice b 0 1 ++ slice b 1 3 ++ skipn 4 b /\ n = field b 0 1 ->
     exists x, slice b 0 1 = [x] /\ b2n x = n).
  { intros n L [_ ->]. unfold field. pose proof (slice_length b 0 1 ltac:(lia)) as L1.
    destruct (slice b 0 1) as [|x [|? ?]]; try discriminate. exists x. split; reflexivity. }
  destruct H as [(F0 & L & Nn)|(F0 & L & Nn)]; fold b in F0, L, Nn.
  - assert (E : b = (slice b 0 1 ++ slice b 1 3 ++ slice b 4 8 ++ slice b 12 4 ++ slice b 16 4) ++ skipn 20 b).
    { rewrite <- !app_assoc. change 20%nat with (N.to_nat (16 + 4)). rewrite <- slice_skipn by lia.
      change 16 with (12 + 4) at 1. rewrite <- slice_skipn by lia. change 12 with (4 + 8) at 1. rewrite <- slice_skipn by lia.
      change 4 with (1 + 3) at 1. rewrite <- slice_skipn by lia. change 1 with (0 + 1) at 2. rewrite <- slice_skipn by lia. reflexivity. }
    eapply G; [exact E|]. destruct (V 0 ltac:(lia)) as (x & -> & Hx).
    { split; [|auto]. change 4%nat with (N.to_nat (1 + 3)). rewrite <- slice_skipn by lia. change 1 with (0 + 1) at 2. rewrite <- slice_skipn by lia. reflexivity. }
    rewrite app_assoc. change ([x] ++ slice b 1 3) with (x :: slice b 1 3).
    eapply parses_bind; [apply parses_full_head, slice_length; lia|]. cbn [fst]. rewrite Hx.
    eapply parses_bind; [apply parses_seek; rewrite blen_slice by lia; reflexivity|].
    eapply parses_bind; [apply (parses_read_unbe 4); [apply slice_length; lia|reflexivity]|].
    eapply parses_bind_r; [apply (parses_read_unbe 4); [apply slice_length; lia|reflexivity]|].
    apply parses_lift, nanos_ok, Nn.
  - assert (E : b = (slice b 0 1 ++ slice b 1 3 ++ slice b 4 16 ++ slice b 20 4 ++ slice b 24 8) ++ skipn 32 b).
    { rewrite <- !app_assoc. change 32%nat with (N.to_nat (24 + 8)). rewrite <- slice_skipn by lia.
      change 24 with (20 + 4) at 1. rewrite <- slice_skipn by lia. change 20 with (4 + 16) at 1. rewrite <- slice_skipn by lia.
      change 4 with (1 + 3) at 1. rewrite <- slice_skipn by lia. change 1 with (0 + 1) at 2. rewrite <- slice_skipn by lia. reflexivity. }
    eapply G; [exact E|]. destruct (V 1 ltac:(lia)) as (x & -> & Hx).
    { split; [|auto]. change 4%nat with (N.to_nat (1 + 3)). rewrite <- slice_skipn by lia. change 1 with (0 + 1) at 2. rewrite <- slice_skipn by lia. reflexivity. }
    rewrite app_assoc. change ([x] ++ slice b 1 3) with (x :: slice b 1 3).
    eapply parses_bind; [apply parses_full_head, slice_length; lia|]. cbn [fst]. rewrite Hx.
    eapply parses_bind; [apply parses_seek; rewrite blen_slice by lia; reflexivity|].
    eapply parses_bind; [apply (parses_read_unbe 4); [apply slice_length; lia|reflexivity]|].
    eapply parses_bind_r; [apply (parses_read_unbe 8); [apply slice_length; lia|reflexivity]|].
    apply parses_lift, nanos_ok, Nn.
Qed.

(** * Movie *)

Lemma moov_steps : forall fuel m ks durs auds us s,
  (forall k, In k ks -> fits k = true /\ fuel_for fuel k) ->
  Forall2 mvhd_means (named_kids (id4 "mvhd") ks) durs ->
  Forall2 trak_means (named_kids (id4 "trak") ks) auds ->
  Forall2 udta_means (named_kids (id4 "udta") ks) us ->
  exists ts u, steps (moov_body fuel m) ks s
    (Moov (or_else (last_opt durs) (mv_mvhd s)) (mv_trak s ++ ts) u) /\
    map (fun t => option_map audio_of (trak_mp4a t)) ts = auds /\
    option_map ojoin u = or_else (last_opt us) (option_map ojoin (mv_udta s)).
Proof.
  intros fuel m ks. induction ks as [|k r IH]; intros durs auds us s Fk Fd Ft Fu.
  - inversion Fd; inversion Ft; inversion Fu; subst. exists [], (mv_udta s). cbn. rewrite app_nil_r. destruct s; auto.
  - assert (Fr : forall k, In k r -> fits k = true /\ fuel_for fuel k) by (intros; apply Fk; right; auto).
    destruct (Fk k (or_introl eq_refl)) as [Fi Fue].
    cbn [named_kids filter] in Fd, Ft, Fu. unfold moov_body at 1. cbn [steps]. cbn [hd_fourcc hd_size head_of].
    change MOVIE_HEADER with (id4 "mvhd"). change TRACK with (id4 "trak"). change USER_DATA with (id4 "udta").
    rewrite !fourcc_eqb_named.
    destruct (is_named (id4 "mvhd") k) eqn:E1.
    { apply is_named_eq in E1. rewrite (id_neq k _ (id4 "trak") E1) in Ft by discriminate.
      rewrite (id_neq k _ (id4 "udta") E1) in Fu by discriminate. inversion Fd as [|? d ? durs' Pd Fd']; subst.
      destruct (IH durs' auds us (Moov (Some d) (mv_trak s) (mv_udta s)) Fr Fd' Ft Fu) as (ts & u & St & Hts & Hu).
      exists ts, u. split; [|auto]. exists (Moov (Some d) (mv_trak s) (mv_udta s)). split.
      - apply (kid_ret (mvhd_parse m (size_of k)) (fun d => Moov (Some d) (mv_trak s) (mv_udta s))), mvhd_kid, Pd.
      - cbn [mv_mvhd mv_trak] in St. rewrite last_opt_cons. unfold or_else in *. destruct (last_opt durs'); exact St. }
    destruct (is_named (id4 "trak") k) eqn:E2.
    { apply is_named_eq in E2. rewrite (id_neq k _ (id4 "udta") E2) in Fu by discriminate.
      inversion Ft as [|? a ? auds' Pa Ft']; subst. destruct (trak_kid fuel m k a Fi Fue Pa) as (y & Py & Ey).
      destruct (IH durs auds' us (Moov (mv_mvhd s) (mv_trak s ++ [y]) (mv_udta s)) Fr Fd Ft' Fu) as (ts & u & St & Hts & Hu).
      exists (y :: ts), u. split; [|cbn; rewrite Hts, Ey; auto]. exists (Moov (mv_mvhd s) (mv_trak s ++ [y]) (mv_udta s)). split.
      - apply (kid_ret (trak_parse fuel m (size_of k)) (fun t => Moov (mv_mvhd s) (mv_trak s ++ [t]) (mv_udta s))), Py.
      - cbn [mv_mvhd mv_trak] in St. rewrite <- app_assoc in St. exact St. }
    destruct (is_named (id4 "udta") k) eqn:E3.
    { inversion Fu as [|? x ? us' Px Fu']; subst. destruct (udta_kid fuel m k x Fi Fue Px) as (y & Py & Ey).
      destruct (IH durs auds us' (Moov (mv_mvhd s) (mv_trak s) (Some y)) Fr Fd Ft Fu') as (ts & u & St & Hts & Hu).
      exists ts, u. split; [|split; [exact Hts|]].
      - exists (Moov (mv_mvhd s) (mv_trak s) (Some y)). split; [|exact St].
        apply (kid_ret (udta_parse fuel m (size_of k)) (fun t => Moov (mv_mvhd s) (mv_trak s) (Some t))), Py.
      - rewrite Hu, last_opt_cons. cbn. rewrite Ey. unfold or_else. destruct (last_opt us'); reflexivity. }
    destruct (IH durs auds us s Fr Fd Ft Fu) as (ts & u & St & Hts & Hu).
    exists ts, u. split; [|auto]. exists s. split; [apply kid_skip_ret|exact St].
Qed.

Lemma first_some_map : forall ts,
  first_some (map (fun t => option_map audio_of (trak_mp4a t)) ts) = option_map audio_of (find_map trak_mp4a ts).
Proof.
  induction ts as [|t r IH]; [reflexivity|]. cbn. destruct (trak_mp4a t); [reflexivity|exact IH].
Qed.

Lemma moov_kid : forall fuel m k info items, fits k = true -> fuel_for fuel k -> moov_means k info items ->
  exists y, kid_parses (moov_parse fuel m (size_of k)) k y /\ moov_info y = info /\ moov_atoms y = items.
Proof.
  intros fuel m k info items F Fu (Pre & dur & auds & uo & (durs & Fd & ->) & Ft & (us & Fus & ->) & -> & ->).
  destruct (moov_steps fuel m (a_kids k) durs auds us (Moov None [] None)) as (ts & u & St & Hts & Hu); auto.
  { intros k' I. split; [eapply kid_fits|eapply fuel_kid]; eassumption. }
  eexists. split.
  - apply kid_of_parses. unfold moov_parse. rewrite content_len_of. unfold a_content. rewrite Pre. cbn [app].
    apply loop_parses; [apply fits_kids, F|exact St| |apply fits_csize in F; lia|apply enough_length, fuel_enough, Fu].
    unfold csize, a_content. rewrite Pre. reflexivity.
  - cbn [mv_mvhd mv_trak mv_udta app] in *. split.
    + unfold moov_info, info_of. cbn [mv_trak mv_mvhd]. rewrite <- Hts, first_some_map.
      replace (or_else (last_opt durs) None) with (last_opt durs) by (destruct (last_opt durs); reflexivity).
      destruct (find_map trak_mp4a ts); reflexivity.
    + unfold moov_atoms. cbn [mv_udta]. replace (or_else (last_opt us) None) with (last_opt us) in Hu by (destruct (last_opt us); reflexivity).
      unfold or_else in Hu. cbn [option_map] in Hu. destruct (last_opt us) as [o|]; destruct u as [y|]; try discriminate; [|reflexivity].
      cbn in Hu. injection Hu as <-. reflexivity.
Qed.

(** * The file *)

Lemma ftyp_parses : forall m k s, fits k = true -> a_id k = id4 "ftyp" -> wf_ustr s = true -> a_content k = enc8 s ->
  parses (ftyp_parse m) (render k) s.
Proof.
  intros m k s F I W C. rewrite render_eq. unfold ftyp_parse. eapply parses_bind; [apply parses_head, F|].
  cbn [hd_fourcc hd_size head_of]. rewrite I. change (negb (fourcc_eqb (id4 "ftyp") FILETYPE)) with false. cbv iota.
  rewrite content_len_of. eapply parses_bind_l; [apply parses_lift; reflexivity|].
  rewrite C. apply parses_utf8; [exact W|]. apply csize_eq, C.
Qed.

Lemma remaining_ok : forall m f p, p <= blen f -> small f -> remaining_stream_len m f p = Ok (blen f - p, p).
Proof.
  intros m f p H Sm. unfold remaining_stream_len, bind, position, seek_end, lift. rewrite sub64_ok by exact H.
  unfold seek_start, small in *. rewrite (proj2 (N.ltb_lt p two63)) by (unfold two63; lia). reflexivity.
Qed.

Lemma find_moov_ok : forall m inner pre fuel len parsed k y f p,
  forallb fits pre = true -> fits k = true -> named_kids (id4 "moov") pre = [] -> a_id k = id4 "moov" ->
  kid_parses (moov_parse inner m (size_of k)) k y -> small f -> sits f p (render_all pre ++ render k) ->
  parsed + blen (render_all pre) + asize k <= len -> len < 2 ^ 64 -> (List.length pre < fuel)%nat ->
  find_moov fuel m inner len parsed f p = Ok (y, p + blen (render_all pre) + asize k).
Proof.
  intros m inner pre. induction pre as [|x r IH]; intros fuel len parsed k y f p Fp Fk Np I Py Sm S L L64 Fu;
    (destruct fuel as [|fuel]; [cbn in Fu; lia|]); cbn [find_moov].
  - change (render_all []) with (@nil byte) in *. rewrite blen_nil in L. pose proof (asize_pos k).
    rewrite (proj2 (N.leb_gt len parsed)) by lia. pose proof S as S'. cbn [app] in S'. rewrite render_eq in S'. apply sits_app in S'.
    destruct S' as [Sh _]. erewrite bind_ok by (apply (parses_head k Fk f p Sm Sh)). rewrite blen_header.
    cbn [hd_fourcc hd_size head_of]. rewrite I. change (fourcc_eqb (id4 "moov") MOVIE) with true. cbv iota.
    rewrite blen_nil, N.add_0_r. apply (Py f p Sm S).
  - cbn [forallb] in Fp. apply andb_true_iff in Fp. destruct Fp as [Fx Fr]. rewrite blen_render_all_cons in L. pose proof (asize_pos x).
    rewrite (proj2 (N.leb_gt len parsed)) by lia. rewrite render_all_cons, <- app_assoc in S. apply sits_app in S. destruct S as [Sx Sr].
    pose proof Sx as S'. rewrite render_eq in S'. apply sits_app in S'. destruct S' as [Sh _].
    erewrite bind_ok by (apply (parses_head x Fx f p Sm Sh)). rewrite blen_header. fold (hlen x).
    cbn [hd_fourcc hd_size head_of sz_len size_of]. change MOVIE with (id4 "moov"). rewrite fourcc_eqb_named.
    cbn [named_kids filter] in Np. destruct (is_named (id4 "moov") x); [discriminate|].
    erewrite bind_ok by (apply (kid_skip m x f p Sm Sx)).
    erewrite bind_ok by (unfold lift; rewrite add64_ok by (unfold two64; lia); reflexivity).
    rewrite blen_render_all_cons, N.add_assoc. apply IH with (k := k); auto; [lia|cbn in Fu; lia].
Qed.

(** Bytes behind the atoms (even a part of an atom) are not looked at. *)
Theorem read_described_end : forall f g t fuel m, good_sizes f -> describes f t -> blen (render_all f ++ g) < 2 ^ 62 ->
  blen (render_all f) < N.of_nat fuel ->
  exists ft pre mv post, f = ft :: pre ++ mv :: post /\ a_id mv = id4 "moov" /\ named_kids (id4 "moov") post = [] /\
    read_tag_from fuel m (render_all f ++ g) 0 = Ok (t, blen (render_all (ft :: pre ++ [mv]))).
Proof.
  intros f g t fuel m (F & _) (ft & pre & mv & post & -> & Ift & W & C & Imv & Nm & M) Sm Fu.
  set (fb := render_all (ft :: pre ++ mv :: post) ++ g) in *.
  cbn [forallb] in F. apply andb_true_iff in F. destruct F as [Fft F]. rewrite forallb_app in F. apply andb_true_iff in F.
  destruct F as [Fpre F]. cbn [forallb] in F. apply andb_true_iff in F. destruct F as [Fmv Fpost].
  assert (E : fb = render ft ++ render_all pre ++ render mv ++ render_all post ++ g).
  { unfold fb. rewrite render_all_cons, render_all_app, render_all_cons, <- !app_assoc. reflexivity. }
  rewrite render_all_cons, render_all_app, render_all_cons, !blen_app in Fu.
  assert (Lf : blen fb = asize ft + blen (render_all pre) + asize mv + blen (render_all post) + blen g).
  { rewrite E, !blen_app. unfold asize. lia. }
  fold (asize ft) (asize mv) in Fu.
  assert (Fum : fuel_for fuel mv) by (unfold fuel_for; pose proof (asize_eq mv); lia).
  destruct (moov_kid fuel m mv _ _ Fmv Fum M) as (y & Py & Hi & Ha).
  unfold read_tag_from.
  erewrite bind_ok.
  2:{ apply (ftyp_parses m ft (tg_ftyp t)); auto. exists [], (render_all pre ++ render mv ++ render_all post ++ g).
      split; [rewrite E; reflexivity|reflexivity]. }
  rewrite N.add_0_l. fold (asize ft).
  erewrite bind_ok by (apply remaining_ok; [lia|exact Sm]).
  unfold named_kids in Nm. rewrite filter_app in Nm. apply app_eq_nil in Nm. destruct Nm as [Npre Npost].
  exists ft, pre, mv, post. split; [reflexivity|]. split; [exact Imv|]. split; [exact Npost|].
  assert (Hq : find_moov fuel m fuel (blen fb - asize ft) 0 fb (asize ft) = Ok (y, asize ft + blen (render_all pre) + asize mv)).
  2: { erewrite bind_ok by exact Hq. unfold ret. rewrite Hi, Ha, render_all_cons, render_all_app, render_all_cons, !blen_app.
       change (render_all []) with (@nil byte). rewrite blen_nil, N.add_0_r, N.add_assoc. destruct t; reflexivity. }
  apply find_moov_ok; auto.
  - exists (render ft), (render_all post ++ g). split; [rewrite E, <- !app_assoc; reflexivity|reflexivity].
  - lia.
  - lia.
  - pose proof (kids_count pre). unfold blen in *. lia.
Qed.

Theorem read_described_tail : forall f g t fuel m, good_sizes f -> describes f t -> blen (render_all f ++ g) < 2 ^ 62 ->
  blen (render_all f) < N.of_nat fuel ->
  exists q, read_tag_from fuel m (render_all f ++ g) 0 = Ok (t, q).
Proof.
  intros f g t fuel m G D L Fu. destruct (read_described_end f g t fuel m G D L Fu) as (ft & pre & mv & post & _ & _ & _ & E).
  eexists. exact E.
Qed.

Theorem read_described : forall f t fuel m, good_sizes f -> describes f t -> blen (render_all f) < N.of_nat fuel ->
  exists q, read_tag_from fuel m (render_all f) 0 = Ok (t, q).
Proof.
  intros f t fuel m G D Fu. rewrite <- (app_nil_r (render_all f)). apply read_described_tail; auto.
  rewrite app_nil_r. apply G.
Qed.
