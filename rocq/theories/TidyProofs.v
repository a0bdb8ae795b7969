(** Reading a tidy file either fails or returns what the file means. *)

From Coq Require Import List NArith ZArith Bool Lia Arith String.
From Coq Require Import ZifyBool ZifyNat ZifyN.
From Verif Require Import Base BaseLemmas Utf UtfLemmas Types Stream Parse TagSpec FileSpec ParseLemmas ReadProofs ReadSpec ReadFacts ReadBad ReadErr TreeProofs TidySpec.
Import ListNotations.
Local Open Scope list_scope.
Ltac Zify.zify_post_hook ::= Z.div_mod_to_equations.

(** * Parsers that never succeed *)

(** [r] run behind the head of [k] does not succeed. *)
Definition never {A} (r : R A) (k : atom) : Prop :=
  forall f p v, small f -> sits f p (render k) -> r f (p + ParseLemmas.hlen k) <> Ok v.

Lemma never_raise : forall {A} (r : R A) k b, kid_raises r k b -> never r k.
Proof. intros A r k b H f p v Sm S. rewrite (H f p Sm S). destruct b; discriminate. Qed.
Lemma never_bind : forall {A B} (r : R A) (g : A -> R B) k, never r k -> never (bind r g) k.
Proof.
  intros A B r g k H f p v Sm S E. unfold bind in E. destruct (r f (p + ParseLemmas.hlen k)) as [[x q]|e|e|] eqn:X; try discriminate.
  apply (H f p (x, q) Sm S X).
Qed.

Lemma loop_never : forall {S} m body x k y fuel limit parsed (s s1 : S) f p v,
  small f -> forallb fits (x ++ k :: y) = true -> steps body x s s1 ->
  never (body (ParseLemmas.head_of k) s1) k ->
  sits f p (render_all (x ++ k :: y)) ->
  parsed + blen (render_all (x ++ k :: y)) = limit -> limit < 2 ^ 64 ->
  atom_loop fuel m (Ok limit) body parsed s f p <> Ok v.
Proof.
  intros S m body x k y. induction x as [|z x IH]; intros fuel limit parsed s s1 f p v Sm F St B Si L L64;
    (destruct fuel as [|fuel]; [discriminate|]).
  - cbn [app] in *. cbn [steps] in St. subst s1. cbn [forallb] in F. apply andb_true_iff in F. destruct F as [Fk _].
    rewrite render_all_cons in Si. apply sits_app in Si. destruct Si as [Sk _]. rewrite blen_render_all_cons in L. pose proof (asize_pos k).
    cbn [atom_loop]. unfold bind at 1, lift at 1. rewrite (proj2 (N.ltb_lt parsed limit)) by lia.
    unfold bind at 1. rewrite (ReadBad.head_at f p k Sm Fk Sk).
    pose proof (fun v => B f p v Sm Sk) as X. unfold bind at 1. destruct (body (ParseLemmas.head_of k) s f (p + ParseLemmas.hlen k)) as [[u q]|e|e|]; try discriminate.
    exfalso. apply (X (u, q) eq_refl).
  - cbn [app] in *. destruct St as (s2 & Hz & St). cbn [forallb] in F. apply andb_true_iff in F. destruct F as [Fz F].
    rewrite render_all_cons in Si. apply sits_app in Si. destruct Si as [Sz Sr]. rewrite blen_render_all_cons in L. pose proof (asize_pos z).
    fold (asize z) in Sr.
    cbn [atom_loop]. unfold bind at 1, lift at 1. rewrite (proj2 (N.ltb_lt parsed limit)) by lia.
    unfold bind at 1. rewrite (ReadBad.head_at f p z Sm Fz Sz). unfold bind at 1. rewrite (Hz f p Sm Sz). unfold bind at 1, lift at 1.
    cbn [hd_size ParseLemmas.head_of sz_len size_of]. rewrite add64_ok by (unfold two64; lia).
    apply (IH fuel limit (parsed + asize z) s2 s1 f (p + asize z) v); auto. lia.
Qed.

Lemma container_never : forall {S} m body a x k y fuel (s s1 : S),
  fits a = true -> a_kids a = x ++ k :: y -> steps body x s s1 -> never (body (ParseLemmas.head_of k) s1) k ->
  forall f p v, small f -> sits f p (render a) ->
  atom_loop fuel m (content_len m (size_of a)) body (blen (a_pre a)) s f (p + ParseLemmas.hlen a + blen (a_pre a)) <> Ok v.
Proof.
  intros S m body a x k y fuel s s1 F K St B f p v Sm Si. rewrite content_len_of.
  apply sits_content in Si. unfold a_content in Si. apply sits_app in Si. destruct Si as [_ Si]. rewrite K in Si.
  eapply loop_never; try eassumption.
  - rewrite <- K. apply fits_kids, F.
  - unfold csize, a_content. rewrite blen_app, K. reflexivity.
  - apply fits_csize in F. lia.
Qed.

Lemma one_never : forall {Y} id m (sub : size -> R Y) k s, a_id k = id -> never (sub (size_of k)) k ->
  never (one_body id m sub (ParseLemmas.head_of k) s) k.
Proof.
  intros Y id m sub k s I H. unfold one_body. cbn [hd_fourcc hd_size ParseLemmas.head_of]. rewrite fourcc_eqb_named, (proj2 (is_named_eq id k) I).
  apply never_bind, H.
Qed.

(** * The first child that is not read *)

Lemma first_bad : forall (P Q : atom -> Prop) l, (forall k, In k l -> P k \/ Q k) ->
  Forall P l \/ exists x k y, l = x ++ k :: y /\ Forall P x /\ Q k.
Proof.
  intros P Q. induction l as [|k l IH]; intros H; [left; constructor|].
  destruct (H k (or_introl eq_refl)) as [X|X].
  - destruct IH as [F|(x & k' & y & -> & F & X')]; [intros; apply H; right; assumption|left; constructor; assumption|].
    right. exists (k :: x), k', y. split; [reflexivity|]. split; [constructor; assumption|exact X'].
  - right. exists [], k, l. auto.
Qed.

Lemma named_means : forall {X} (P : atom -> X -> Prop) id l, Forall (fun k => a_id k = id -> exists v, P k v) l ->
  exists vs, Forall2 P (named_kids id l) vs.
Proof.
  intros X P id. induction l as [|k l IH]; intros F; [exists []; constructor|]. inversion F as [|? ? H F']; subst.
  destruct (IH F') as (vs & V). unfold named_kids. cbn [filter]. destruct (is_named id k) eqn:E; [|exists vs; exact V].
  destruct (H (proj1 (is_named_eq id k) E)) as (v & Pv). exists (v :: vs). constructor; assumption.
Qed.
Lemma filter_means : forall {X} (P : atom -> X -> Prop) (p : atom -> bool) l, Forall (fun k => p k = true -> exists v, P k v) l ->
  exists vs, Forall2 P (filter p l) vs.
Proof.
  intros X P p. induction l as [|k l IH]; intros F; [exists []; constructor|]. inversion F as [|? ? H F']; subst.
  destruct (IH F') as (vs & V). cbn [filter]. destruct (p k) eqn:E; [|exists vs; exact V].
  destruct (H eq_refl) as (v & Pv). exists (v :: vs). constructor; assumption.
Qed.

(** A container with one interesting child. *)
Lemma child_decides : forall {X Y} id m fuel (sub : size -> R Y) (P : atom -> X -> Prop) (T : atom -> Prop) (g : Y -> X) a,
  fits a = true -> fuel_for fuel a -> Forall T (named_kids id (a_kids a)) ->
  (forall k, fits k = true -> fuel_for fuel k -> T k -> (exists v, P k v) \/ never (sub (size_of k)) k) ->
  (forall k x, fits k = true -> fuel_for fuel k -> P k x -> exists y, kid_parses (sub (size_of k)) k y /\ g y = x) ->
  (exists o, last_child id P a o) \/
  (forall f p v, small f -> sits f p (render a) ->
    atom_loop fuel m (content_len m (size_of a)) (one_body id m sub) (blen (a_pre a)) None f (p + ParseLemmas.hlen a + blen (a_pre a)) <> Ok v).
Proof.
  intros X Y id m fuel sub P T g a F Fu Ft D K.
  destruct (first_bad (fun k => a_id k = id -> exists v, P k v) (fun k => a_id k = id /\ never (sub (size_of k)) k) (a_kids a)) as [G|(x & k & y & E & G & I & N)].
  - intros k Ik. destruct (is_named id k) eqn:N.
    + destruct (D k) as [V|V]; [eapply kid_fits; eassumption|eapply fuel_kid; eassumption| |left; auto|right; split; [apply is_named_eq, N|exact V]].
      rewrite Forall_forall in Ft. apply Ft. apply filter_In. auto.
    + left. intros I. apply is_named_eq in I. congruence.
  - left. destruct (named_means P id _ G) as (vs & V). exists (last_opt vs), vs. auto.
  - right. destruct (named_means P id _ G) as (vs & V).
    assert (Ix : forall z, In z x -> In z (a_kids a)) by (intros z Iz; rewrite E; apply in_or_app; left; exact Iz).
    destruct (one_steps id m sub P g x vs None V) as (s1 & St & _).
    { intros z v Iz _ Pz. apply K; [eapply kid_fits|eapply fuel_kid|exact Pz]; eauto. }
    intros f p v Sm S. eapply container_never; [exact F|exact E|exact St|apply one_never; assumption|exact Sm|exact S].
Qed.

Lemma box_decides : forall {X Y} id m fuel (sub : size -> R Y) (P : atom -> option X -> Prop) (T : atom -> Prop) (g : Y -> option X) a,
  fits a = true -> fuel_for fuel a -> tidy_box id T a ->
  (forall k, fits k = true -> fuel_for fuel k -> T k -> (exists v, P k v) \/ never (sub (size_of k)) k) ->
  (forall k x, fits k = true -> fuel_for fuel k -> P k x -> exists y, kid_parses (sub (size_of k)) k y /\ g y = x) ->
  (exists o, box id P a o) \/ never (atom_loop fuel m (content_len m (size_of a)) (one_body id m sub) 0 None) a.
Proof.
  intros X Y id m fuel sub P T g a F Fu (Pre & Ft) D K.
  destruct (child_decides id m fuel sub P T g a F Fu Ft D K) as [(o & L)|N].
  - left. exists (join o). split; [exact Pre|]. exists o. auto.
  - right. intros f p v Sm S. pose proof (N f p v Sm S) as Z. rewrite Pre, blen_nil, N.add_0_r in Z. exact Z.
Qed.

(** * Values *)

Lemma take : forall {A} n (l : list A), (n <= List.length l)%nat -> exists h r, l = h ++ r /\ List.length h = n.
Proof. intros A n l H. exists (firstn n l), (skipn n l). split; [symmetry; apply firstn_skipn|apply firstn_length_le, H]. Qed.

Lemma be3_unbe : forall fl : bytes, List.length fl = 3%nat -> fl = be 3 (unbe fl) /\ unbe fl < 2 ^ 24.
Proof.
  intros fl L. split; [rewrite <- L; symmetry; apply be_unbe|]. pose proof (unbe_lt fl) as X. unfold blen in X. rewrite L in X. exact X.
Qed.

Lemma data_decides : forall m k a, a_id k = id4 "data" -> tidy_data k ->
  (exists d, data_means k d) \/ never (item_body m (ParseLemmas.head_of k) a) k.
Proof.
  intros m k a I (L & Ev). unfold blen in L. destruct (a_content k) as [|v c] eqn:E; [cbn in L; lia|]. cbn [List.length] in L.
  destruct (take 3 c) as (fl & c' & -> & Lf); [lia|]. rewrite app_length in L. destruct (take 4 c') as (loc & r & -> & Ll); [lia|].
  destruct (N.eq_dec (b2n v) 0) as [V|V].
  2:{ right. eapply never_raise, data_raises; [exact I|]. rewrite E. eapply bd_version; [reflexivity| |exact V]. rewrite app_length. lia. }
  assert (Hv : v = n2b 0) by (rewrite <- V; symmetry; apply n2b_b2n). subst v.
  destruct (be3_unbe fl Lf) as [Bf Uf]. set (code := unbe fl) in *.
  destruct (in_dec N.eq_dec code known_codes) as [K|K].
  2:{ right. eapply never_raise, data_raises; [exact I|]. rewrite E. eapply (bd_type m _ code loc r); [rewrite <- Bf; reflexivity|exact Uf|exact Ll|exact K]. }
  assert (M : forall d, good_data d -> type_code d = code -> payload d = r -> exists d, data_means k d).
  { intros d G T P. exists d. split; [exact G|]. exists loc. split; [exact Ll|]. rewrite T, P, <- Bf. exact E. }
  unfold known_codes in K. cbn [In] in K.
  destruct K as [K|[K|[K|[K|[K|[K|[K|[]]]]]]]].
  - left. apply (M (DReserved r)); auto. exact Logic.I.
  - destruct (dec8 r) as [s|] eqn:D.
    + left. apply dec8_correct in D. destruct D as [D1 D2]. apply (M (DUtf8 s)); auto.
    + right. eapply never_raise, data_raises; [exact I|]. rewrite E. eapply (bd_utf8 m _ loc r); [rewrite Bf, <- K; reflexivity|exact Ll|].
      intros (s & W & X). assert (Y : dec8 r = Some s) by (apply dec8_correct; auto). congruence.
  - assert (Er : Nat.even (List.length r) = true).
    { assert (X : N.even (blen (n2b 0 :: fl ++ loc ++ r)) = true).
      { apply Ev. unfold field. change (slice (n2b 0 :: fl ++ loc ++ r) 1 3) with (firstn 3 (fl ++ loc ++ r)).
        rewrite firstn_app, Lf, Nat.sub_diag, firstn_O, app_nil_r, firstn_all2 by lia. symmetry. exact K. }
      unfold blen in X. cbn [List.length] in X. rewrite !app_length, Lf, Ll in X. rewrite N.even_spec in X. destruct X as (q & X).
      apply Nat.even_spec. exists (N.to_nat q - 4)%nat. lia. }
    destruct (dec16 (bytes_units r)) as [s|] eqn:D.
    + left. apply dec16_correct in D; [|apply (bytes_units_wf (List.length r)); auto]. destruct D as [D1 D2]. apply (M (DUtf16 s)); auto.
      cbn [payload]. rewrite utf16_bytes, D2. apply (units_bytes_bytes_units (List.length r)); auto.
    + right. eapply never_raise, data_raises; [exact I|]. rewrite E. eapply (bd_utf16 m _ loc r); [rewrite Bf, <- K; reflexivity|exact Ll|exact Er|].
      intros (s & W & X). assert (Y : dec16 (bytes_units r) = Some s).
      { apply dec16_correct; [apply (bytes_units_wf (List.length r)); auto|]. split; [exact W|]. rewrite <- X, utf16_bytes.
        symmetry. apply bytes_units_units_bytes. apply enc16_units, W. }
      congruence.
  - left. apply (M (DJpeg r)); auto. exact Logic.I.
  - left. apply (M (DPng r)); auto. exact Logic.I.
  - left. apply (M (DBeSigned r)); auto. exact Logic.I.
  - left. apply (M (DBmp r)); auto. exact Logic.I.
Qed.

Lemma text_decides : forall m k a, a_id k = id4 "mean" \/ a_id k = id4 "name" -> tidy_text k ->
  (exists s, text_means k s) \/ never (item_body m (ParseLemmas.head_of k) a) k.
Proof.
  intros m k a I L. unfold tidy_text, blen in L. destruct (a_content k) as [|v c] eqn:E; [cbn in L; lia|]. cbn [List.length] in L.
  destruct (take 3 c) as (fl & r & -> & Lf); [lia|].
  destruct (N.eq_dec (b2n v) 0) as [V|V].
  2:{ right. eapply never_raise, kid_bad. right. split; [exact I|]. rewrite E. eapply bt_version; [reflexivity| |exact V]. rewrite app_length. lia. }
  assert (Hv : v = n2b 0) by (rewrite <- V; symmetry; apply n2b_b2n). subst v.
  assert (Z : version0 (n2b 0 :: fl)) by (exists fl; auto).
  destruct (dec8 r) as [s|] eqn:D.
  - left. apply dec8_correct in D. destruct D as [D1 D2]. exists s. split; [exact D1|]. exists (n2b 0 :: fl). split; [exact Z|]. rewrite D2. exact E.
  - right. eapply never_raise, kid_bad. right. split; [exact I|]. rewrite E. eapply (bt_utf8 _ (n2b 0 :: fl) r); [exact Z|reflexivity|].
    intros (s & W & X). assert (Y : dec8 r = Some s) by (apply dec8_correct; auto). congruence.
Qed.

(** * Items *)

Definition kid_ok (k : atom) : Prop :=
  (a_id k = id4 "data" -> exists d, data_means k d) /\
  (a_id k = id4 "mean" -> exists s, text_means k s) /\ (a_id k = id4 "name" -> exists s, text_means k s).
Definition kid_not (m : mode) (k : atom) : Prop := forall a, never (item_body m (ParseLemmas.head_of k) a) k.

Lemma kids_means : forall l, Forall kid_ok l -> exists ds ms ns,
  Forall2 data_means (named_kids (id4 "data") l) ds /\ Forall2 text_means (named_kids (id4 "mean") l) ms /\
  Forall2 text_means (named_kids (id4 "name") l) ns.
Proof.
  intros l H.
  destruct (named_means data_means (id4 "data") l) as (ds & Fd); [eapply Forall_impl; [|exact H]; intros k X; apply X|].
  destruct (named_means text_means (id4 "mean") l) as (ms & Fm); [eapply Forall_impl; [|exact H]; intros k X; apply X|].
  destruct (named_means text_means (id4 "name") l) as (ns & Fn); [eapply Forall_impl; [|exact H]; intros k X; apply X|].
  exists ds, ms, ns. auto.
Qed.
Lemma named_in : forall (P : atom -> Prop) id l k, Forall P (named_kids id l) -> In k l -> a_id k = id -> P k.
Proof. intros P id l k F I E. rewrite Forall_forall in F. apply F. apply filter_In. split; [exact I|]. apply is_named_eq, E. Qed.

Lemma kids_first : forall m l, Forall tidy_data (named_kids (id4 "data") l) -> Forall tidy_text (named_kids (id4 "mean") l) ->
  Forall tidy_text (named_kids (id4 "name") l) ->
  Forall kid_ok l \/ exists x k y, l = x ++ k :: y /\ Forall kid_ok x /\ kid_not m k.
Proof.
  intros m l Td Tm Tn. apply first_bad. intros k Ik.
  destruct (is_named (id4 "data") k) eqn:E1.
  { apply is_named_eq in E1. assert (T : tidy_data k) by exact (named_in _ _ _ _ Td Ik E1).
    destruct (data_decides m k (ItemAcc [] None None) E1 T) as [V|V].
    - left. unfold kid_ok. rewrite E1. split; [auto|]. split; discriminate.
    - right. intros a. destruct (data_decides m k a E1 T) as [(d & V')|V']; [|exact V'].
      intros f p v Sm S _. apply (V f p _ Sm S (item_data m k d _ E1 V' f p Sm S)). }
  destruct (is_named (id4 "mean") k) eqn:E2.
  { apply is_named_eq in E2. assert (T : tidy_text k) by exact (named_in _ _ _ _ Tm Ik E2).
    destruct (text_decides m k (ItemAcc [] None None) (or_introl E2) T) as [V|V].
    - left. unfold kid_ok. rewrite E2. split; [discriminate|]. split; [auto|discriminate].
    - right. intros a. destruct (text_decides m k a (or_introl E2) T) as [(d & V')|V']; [|exact V'].
      intros f p v Sm S _. apply (V f p _ Sm S (item_mean m k d _ E2 V' f p Sm S)). }
  destruct (is_named (id4 "name") k) eqn:E3.
  { apply is_named_eq in E3. assert (T : tidy_text k) by exact (named_in _ _ _ _ Tn Ik E3).
    destruct (text_decides m k (ItemAcc [] None None) (or_intror E3) T) as [V|V].
    - left. unfold kid_ok. rewrite E3. split; [discriminate|]. split; [discriminate|auto].
    - right. intros a. destruct (text_decides m k a (or_intror E3) T) as [(d & V')|V']; [|exact V'].
      intros f p v Sm S _. apply (V f p _ Sm S (item_name_atom m k d _ E3 V' f p Sm S)). }
  left. split; [|split]; intros E; apply is_named_eq in E; congruence.
Qed.

Lemma item_decides : forall fuel m it s, fits it = true -> fuel_for fuel it -> a_id it <> id4 "free" -> tidy_item it ->
  (exists i, item_means it i) \/ never (ilst_body fuel m (ParseLemmas.head_of it) s) it.
Proof.
  intros fuel m it s F Fu Nf (Pre & Td & Tm & Tn).
  destruct (kids_first m (a_kids it) Td Tm Tn) as [G|(x & k & y & E & G & N)]; destruct (kids_means _ G) as (ds & ms & ns & Fd & Fm & Fn).
  - destruct ds as [|d ds].
    + right. eapply never_raise, (item_raises fuel m it (BadErr (EAtomNotFound (id4 "data")))); auto.
      split; [exact Nf|]. split; [exact Pre|]. right. split; [|reflexivity]. split; [exact Fd|]. exists ms, ns. auto.
    + left. eexists. split; [exact Pre|]. exists (d :: ds), ms, ns. repeat (split; [eassumption|]). split; [discriminate|reflexivity].
  - right. intros f p v Sm S. unfold ilst_body. cbn [hd_fourcc hd_size ParseLemmas.head_of]. change FREE with (id4 "free").
    rewrite (proj2 (fourcc_eqb_neq _ _) Nf). rewrite (raises_lift _ _ _ _ _ (content_len_of m it)). unfold atom_data_parse.
    pose proof (fun v => container_never m (item_body m) it x k y fuel (ItemAcc [] None None) _ F E (item_steps m x ds ms ns _ Fd Fm Fn) (N _) f p v Sm S) as X.
    rewrite Pre, blen_nil, N.add_0_r, content_len_of in X. unfold bind.
    destruct (atom_loop fuel m (Ok (csize it)) (item_body m) 0 (ItemAcc [] None None) f (p + ParseLemmas.hlen it)) as [[u q]|e|e|]; try discriminate.
    exfalso. apply (X _ eq_refl).
Qed.
Lemma item_never_any : forall fuel m it s, fits it = true -> fuel_for fuel it -> a_id it <> id4 "free" -> tidy_item it ->
  never (ilst_body fuel m (ParseLemmas.head_of it) s) it -> forall s', never (ilst_body fuel m (ParseLemmas.head_of it) s') it.
Proof.
  intros fuel m it s F Fu Nf T N s'. destruct (item_decides fuel m it s' F Fu Nf T) as [(i & V)|V]; [|exact V].
  intros f p v Sm S _. pose proof (item_parse fuel m it i F Fu V) as X. specialize (X f p Sm S).
  apply (N f p (ilst_add s i, p + asize it) Sm S). unfold ilst_body. cbn [hd_fourcc hd_size ParseLemmas.head_of]. change FREE with (id4 "free").
  rewrite (proj2 (fourcc_eqb_neq _ _) Nf). rewrite content_len_of in *. unfold bind, lift in *.
  destruct (atom_data_parse fuel m (a_id it) (csize it) f (p + ParseLemmas.hlen it)) as [[u q]|e|e|]; try discriminate. injection X as -> ->. reflexivity.
Qed.

(** * The item list and the containers around it *)

Lemma ilst_decides : forall fuel m k, fits k = true -> fuel_for fuel k -> tidy_ilst k ->
  (exists l, ilst_means k l) \/ never (ilst_parse fuel m (size_of k)) k.
Proof.
  intros fuel m k F Fu (Pre & T).
  destruct (first_bad (fun it => negb (is_named (id4 "free") it) = true -> exists i, item_means it i)
     (fun it => forall s, never (ilst_body fuel m (ParseLemmas.head_of it) s) it) (a_kids k)) as [G|(x & it & y & E & G & N)].
  - intros it Ii. destruct (negb (is_named (id4 "free") it)) eqn:Nf; [|left; discriminate].
    assert (Ti : tidy_item it) by (rewrite Forall_forall in T; apply T, filter_In; auto).
    assert (Nf' : a_id it <> id4 "free") by (intros X; apply is_named_eq in X; rewrite X in Nf; discriminate).
    assert (Fi : fits it = true) by (eapply kid_fits; eassumption). assert (Fui : fuel_for fuel it) by (eapply fuel_kid; eassumption).
    destruct (item_decides fuel m it [] Fi Fui Nf' Ti) as [V|V]; [left; auto|]. right. intros s. eapply item_never_any; eassumption.
  - left. destruct (filter_means item_means _ _ G) as (l & V). exists (fold_left ilst_add l []). split; [exact Pre|]. exists l. split; [exact V|apply merged_fold].
  - right. destruct (filter_means item_means _ _ G) as (l & V). intros f p v Sm S. unfold ilst_parse.
    assert (Ix : forall z, In z x -> In z (a_kids k)) by (intros z Iz; rewrite E; apply in_or_app; left; exact Iz).
    pose proof (container_never m (ilst_body fuel m) k x it y fuel [] (fold_left ilst_add l []) F E) as X.
    rewrite Pre, blen_nil in X. specialize (X (ilst_steps fuel m x l [] (fits_left x (it :: y) (eq_ind _ (fun z => forallb fits z = true) (fits_kids k F) _ E)) (fun z Iz => fuel_kid fuel k z Fu (Ix z Iz)) V) (N _) f p v Sm S).
    rewrite N.add_0_r in X. exact X.
Qed.

(** A version other than 0. *)
Lemma version_never : forall {A} f p v (k : N * bytes -> R A) x, small f -> sits f p x -> List.length x = 4%nat -> ~ version0 x ->
  (vf <- parse_full_head ;; (if negb (fst vf =? 0) then fail (EUnknownVersion (fst vf)) else k vf)) f p <> Ok v.
Proof.
  intros A f p v k x Sm S L N. destruct x as [|b r]; [discriminate|]. cbn in L.
  erewrite bind_ok by (apply (full_head_at f p b r); [exact Sm|exact S|lia]). cbn [fst].
  destruct (b2n b =? 0) eqn:E; [|discriminate]. exfalso. apply N. exists r. split; [lia|]. f_equal.
  apply N.eqb_eq in E. rewrite <- E. symmetry. apply n2b_b2n.
Qed.
Lemma version_dec : forall x : bytes, List.length x = 4%nat -> version0 x \/ ~ version0 x.
Proof.
  intros x L. destruct x as [|b r]; [discriminate|]. cbn in L. destruct (N.eq_dec (b2n b) 0) as [E|E].
  - left. exists r. split; [lia|]. f_equal. rewrite <- E. symmetry. apply n2b_b2n.
  - right. intros (fl & _ & X). injection X as -> _. apply E. reflexivity.
Qed.

Lemma meta_decides : forall fuel m k, fits k = true -> fuel_for fuel k -> tidy_meta k ->
  (exists o, meta_means k o) \/ never (meta_parse fuel m (size_of k)) k.
Proof.
  intros fuel m k F Fu (L & T).
  destruct (version_dec (a_pre k) L) as [V|V].
  - destruct (child_decides (id4 "ilst") m fuel (ilst_parse fuel m) ilst_means tidy_ilst (fun x => x) k F Fu T) as [(o & LC)|N].
    + intros x Fx Fux Tx. apply ilst_decides; assumption.
    + intros x y Fx Fux Px. exists y. split; [apply ilst_kid; assumption|reflexivity].
    + left. exists o. split; assumption.
    + right. intros f p v Sm S. pose proof (N f p v Sm S) as Z. unfold meta_parse. destruct (parses_version0 _ V) as (fl & _ & Pv).
      assert (Sh : sits f (p + ParseLemmas.hlen k) (a_pre k)).
      { apply sits_content in S. unfold a_content in S. apply sits_app in S. apply S. }
      erewrite bind_ok by (apply (Pv f _ Sm Sh)). cbn [fst]. change (negb (0 =? 0)) with false. cbv iota.
      rewrite (blen_version0 _ V) in *. exact Z.
  - right. intros f p v Sm S. unfold meta_parse.
    assert (Sh : sits f (p + ParseLemmas.hlen k) (a_pre k)).
    { apply sits_content in S. unfold a_content in S. apply sits_app in S. apply S. }
    apply (version_never f _ v (fun _ => atom_loop fuel m (content_len m (size_of k)) (meta_body fuel m) 4 None) _ Sm Sh L V).
Qed.

Lemma udta_decides : forall fuel m k, fits k = true -> fuel_for fuel k -> tidy_udta k ->
  (exists o, udta_means k o) \/ never (udta_parse fuel m (size_of k)) k.
Proof.
  intros fuel m k F Fu T. apply (box_decides (id4 "meta") m fuel (meta_parse fuel m) meta_means tidy_meta (fun x => x) k F Fu T).
  - intros x Fx Fux Tx. apply meta_decides; assumption.
  - intros x y Fx Fux Px. exists y. split; [apply meta_kid; assumption|reflexivity].
Qed.
