(** Announced lengths: C11, second part (see properties.jsonl). *)

From Coq Require Import List NArith ZArith Bool Lia Arith String.
From Coq Require Import ZifyBool ZifyNat ZifyN.
From Verif Require Import Base BaseLemmas Utf UtfLemmas Types Stream Parse Find Write TagSpec FileSpec ParseLemmas ReadProofs ReadFacts ExampleFile WriteBytes
  DumpProofs StoreSpec.
Import ListNotations.
Local Open Scope list_scope.

(** If [o] succeeds, it produces [n] bytes. *)
Definition weighs {A} (o : Out A) (n : N) : Prop := forall u, snd o = Ok u -> blen (out o) = n.
Lemma weighs_emit : forall b, weighs (emit b) (blen b).
Proof. intros b u _. unfold out, emit. cbn [fst List.concat]. rewrite app_nil_r. reflexivity. Qed.
Lemma weighs_lift : forall {A} (r : res A), weighs (olift r) 0.
Proof. intros A r u _. reflexivity. Qed.
Lemma weighs_bind : forall {A B} (x : Out A) (k : A -> Out B) n l, weighs x n -> (forall a, weighs (k a) l) -> weighs (obind x k) (n + l).
Proof.
  intros A B x k n l X K u H. unfold obind in *. destruct (snd x) as [a| | |] eqn:E; try discriminate. cbn [snd] in H. unfold out. cbn [fst].
  rewrite concat_app, blen_app. fold (out x) (out (k a)). rewrite (X a E), (K a u H). reflexivity.
Qed.
Lemma weighs_map : forall {A} (g : A -> Out unit) (h : A -> N) l, (forall x, weighs (g x) (h x)) -> weighs (omap g l) (nsum (map h l)).
Proof.
  intros A g h l G. induction l as [|x r IH]; [intros u _; reflexivity|]. cbn [omap map]. change (nsum (h x :: map h r)) with (h x + nsum (map h r)).
  apply weighs_bind; [apply G|intros _; exact IH].
Qed.
Lemma weighs_writes : forall o b n, writes o b -> n = blen b -> weighs o n.
Proof. intros o b n [<- _] ->. intros u _. reflexivity. Qed.
Lemma weighs_eq : forall {A} (o : Out A) n l, weighs o n -> n = l -> weighs o l.
Proof. intros; subst; assumption. Qed.

(** Code units of UTF-16 text. *)
Definition lost (a : atom_data) : N := nsum (map units (ad_data a)).

Lemma nsum_plus : forall {A} (g h : A -> N) l, nsum (map (fun x => g x + h x) l) = nsum (map g l) + nsum (map h l).
Proof. intros A g h l. induction l as [|x r IH]; [reflexivity|]. cbn [map]. unfold nsum in *. cbn [fold_right]. lia. Qed.

Lemma item_weighs : forall m a, weighs (ad_write m a) (ad_len a + lost a).
Proof.
  intros m a. unfold ad_write.
  assert (D : forall d, weighs (dl <~ olift (add32 m 16 (as_u32 (data_len d))) ;; emit (be32 dl) ~;; emit (fc_bytes DATA) ~;; write_typed d) (16 + data_len d + units d)).
  { intros d. eapply weighs_eq.
    - apply weighs_bind; [apply weighs_lift|]. intros v. eapply weighs_bind with (n := 4).
      { eapply weighs_eq; [apply weighs_emit|]. unfold be32. apply blen_be. } intros _.
      eapply weighs_bind; [apply weighs_emit|]. intros _. eapply weighs_writes; [apply writes_typed|]. reflexivity.
    - rewrite blen_fc, blen_cons, !blen_app, blen_be, payload_len. change (blen (zeros 4)) with 4. lia. }
  set (mid := match ad_ident a with IFourcc f => emit (fc_bytes f) | IFreeform _ _ => _ end).
  assert (M : weighs mid (match ad_ident a with IFourcc _ => 4 | IFreeform me na => 4 + (12 + blen (enc8 me)) + (12 + blen (enc8 na)) end)).
  { unfold mid. destruct (ad_ident a) as [f|me na]; [eapply weighs_eq; [apply weighs_emit|apply blen_fc]|]. eapply weighs_eq.
    - apply weighs_bind; [apply weighs_emit|]. intros _. apply weighs_bind; [apply weighs_lift|]. intros v. apply weighs_bind with (n := 4).
      { eapply weighs_eq; [apply weighs_emit|]. unfold be32. apply blen_be. } intros _.
      do 3 (apply weighs_bind; [apply weighs_emit|]; intros _).
      apply weighs_bind; [apply weighs_lift|]. intros v'. apply weighs_bind with (n := 4).
      { eapply weighs_eq; [apply weighs_emit|]. unfold be32. apply blen_be. } intros _.
      do 2 (apply weighs_bind; [apply weighs_emit|]; intros _). apply weighs_emit.
    - rewrite !blen_fc. change (blen (zeros 4)) with 4. lia. }
  eapply weighs_eq.
  - apply weighs_bind; [apply weighs_emit|]. intros _. apply weighs_bind; [exact M|]. intros _. apply weighs_map, D.
  - unfold be32. rewrite blen_be, (nsum_plus (fun d => 16 + data_len d) units). unfold ad_len, lost. destruct (ad_ident a); lia.
Qed.

Lemma head_weighs : forall n id, weighs (write_head (size_from n) id) (sz_len (size_from n) - n).
Proof.
  intros n id. eapply weighs_writes; [apply writes_head|]. unfold size_from. cbn [sz_ext sz_len].
  destruct (_ <? _); rewrite !blen_app, !blen_be, blen_fc; lia.
Qed.
Lemma box_weighs : forall n id (k : Out unit) x, weighs k (n + x) -> weighs (write_head (size_from n) id ~;; k) (sz_len (size_from n) + x).
Proof.
  intros n id k x K. eapply weighs_eq; [apply weighs_bind; [apply head_weighs|intros _; exact K]|]. unfold size_from. cbn [sz_len]. destruct (_ <? _); lia.
Qed.

Lemma list_weighs : forall m items, weighs (ilst_write m items) (sz_len (ilst_size items) + nsum (map lost items)).
Proof.
  intros m items. unfold ilst_write, ilst_size. apply box_weighs. rewrite <- nsum_plus. apply weighs_map. intros a. apply item_weighs.
Qed.
Lemma meta_weighs : forall m h items, weighs (meta_write m (NewMeta h items)) (sz_len (meta_size (NewMeta h items)) + nsum (map lost items)).
Proof.
  intros m h items. unfold meta_write, meta_size. cbn [nm_hdlr nm_ilst]. apply box_weighs.
  assert (H : weighs (match h with Some x => hdlr_write x | None => oret tt end) (hdlr_len_or_zero h)).
  { destruct h as [h|]; [|intros u _; reflexivity]. unfold hdlr_write, hdlr_size, hdlr_len_or_zero, hdlr_size.
    eapply weighs_eq; [apply box_weighs with (x := 0); rewrite N.add_0_r; apply weighs_emit|apply N.add_0_r]. }
  eapply weighs_eq.
  - apply weighs_bind; [unfold write_full_head; apply weighs_bind; [apply weighs_emit|intros _; apply weighs_emit]|]. intros _.
    apply weighs_bind; [exact H|]. intros _. apply list_weighs.
  - rewrite blen_be. change (blen (zeros 3)) with 3. lia.
Qed.
Lemma udta_weighs : forall m x, weighs (udta_write m x) (sz_len (udta_size x) + nsum (map lost (nm_ilst x))).
Proof. intros m [h items]. unfold udta_write, udta_size. apply box_weighs, meta_weighs. Qed.
Lemma moov_weighs : forall m x, weighs (moov_write m x) (sz_len (moov_size x) + nsum (map lost (nm_ilst x))).
Proof. intros m x. unfold moov_write, moov_size. apply box_weighs, udta_weighs. Qed.

Lemma nsum_zero : forall {A} (g : A -> N) l, nsum (map g l) = 0 <-> Forall (fun x => g x = 0) l.
Proof.
  intros A g l. induction l as [|x r IH]; [split; [constructor|reflexivity]|]. cbn [map]. change (nsum (g x :: map g r)) with (g x + nsum (map g r)).
  split; [intros H; constructor; [lia|apply IH; lia]|]. intros H. inversion H. subst. apply IH in H3. lia.
Qed.
Lemma units_zero : forall d, units d = 0 <-> forall s, d = DUtf16 s -> s = [].
Proof.
  intros d. split.
  - intros H s ->. cbn [units] in H. destruct s as [|c s]; [reflexivity|]. rewrite enc16_cons, blen_app in H. unfold enc16_char in H.
    destruct (c <? 65536); rewrite ?blen_cons in H; lia.
  - intros H. destruct d; try reflexivity. rewrite (H _ eq_refl). reflexivity.
Qed.
Lemma lost_zero : forall a, lost a = 0 <-> Forall (fun d => forall s, d = DUtf16 s -> s = []) (ad_data a).
Proof. intros a. unfold lost. rewrite nsum_zero. split; apply Forall_impl; intros d; apply units_zero. Qed.

(** Everything written for the movie has its announced length exactly if no UTF-16 text has a character; it is never too short.  The
    sizes do not matter for the number of bytes; they do for the size field of an item. *)
Theorem C11_exactly : forall m h items, let x := NewMeta h items in snd (moov_write m x) = Ok tt ->
  (forall o s, In (o, s) [(ilst_write m items, ilst_size items); (meta_write m x, meta_size x); (udta_write m x, udta_size x); (moov_write m x, moov_size x)] ->
    sz_len s <= blen (out o) /\ (blen (out o) = sz_len s <-> no_utf16 items)) /\
  (forall a, In a items ->
    ad_len a <= blen (out (ad_write m a)) /\
    (blen (out (ad_write m a)) = ad_len a <-> no_utf16 [a]) /\ (field (out (ad_write m a)) 0 4 = ad_len a <-> ad_len a < 2 ^ 32)).
Proof.
  intros m h items x K.
  assert (Bi : forall {A B} (p : Out A) (k : A -> Out B) b, snd (obind p k) = Ok b -> exists a, snd p = Ok a /\ snd (k a) = Ok b).
  { intros A B p k b H. unfold obind in H. destruct (snd p) as [a| | |]; try discriminate. exists a. split; [reflexivity|exact H]. }
  assert (Ku := K). unfold moov_write in Ku. apply Bi in Ku. destruct Ku as (? & _ & Ku).
  assert (Km := Ku). unfold udta_write in Km. apply Bi in Km. destruct Km as (? & _ & Km).
  assert (Ki := Km). unfold meta_write in Ki. apply Bi in Ki. destruct Ki as (? & _ & Ki). apply Bi in Ki. destruct Ki as (? & _ & Ki).
  apply Bi in Ki. destruct Ki as (? & _ & Ki). cbn [x nm_ilst] in Ki.
  assert (Z : nsum (map lost items) = 0 <-> no_utf16 items).
  { rewrite nsum_zero. unfold no_utf16. split; apply Forall_impl; intros a; apply lost_zero. }
  split.
  - intros o s I.
    assert (W : blen (out o) = sz_len s + nsum (map lost items)).
    { destruct I as [I|[I|[I|[I|[]]]]]; apply pair_equal_spec in I; destruct I as [<- <-].
      - exact (list_weighs m items _ Ki).
      - exact (meta_weighs m h items _ Km).
      - exact (udta_weighs m x _ Ku).
      - exact (moov_weighs m x _ K). }
    split; [lia|]. rewrite <- Z. lia.
  - intros a Ia. assert (Ka : snd (ad_write m a) = Ok tt).
    { unfold ilst_write in Ki. apply Bi in Ki. destruct Ki as (? & _ & Ki). clear - Ki Ia Bi. induction items as [|b r IH]; [contradiction|].
      cbn [omap] in Ki. apply Bi in Ki. destruct Ki as ([] & Kb & Ki). destruct Ia as [-> |Ia]; [exact Kb|exact (IH Ki Ia)]. }
    pose proof (item_weighs m a _ Ka) as W. split; [lia|]. split.
    + assert (E : no_utf16 [a] <-> lost a = 0).
      { rewrite lost_zero. unfold no_utf16. split; [intros F; inversion F; assumption|intros F; constructor; [exact F|constructor]]. }
      rewrite E. lia.
    + rewrite ad_write_field. split; [intros E; rewrite <- E; apply N.mod_lt; discriminate|apply N.mod_small].
Qed.
Print Assumptions C11_exactly.

Lemma emit_then : forall {B} b (k : unit -> Out B), snd (obind (emit b) k) = snd (k tt).
Proof. reflexivity. Qed.
Lemma bind_fine : forall (x y : Out unit), snd (x ~;; y) = Ok tt <-> snd x = Ok tt /\ snd y = Ok tt.
Proof.
  intros x y. unfold obind. destruct (snd x) as [[]| | |]; cbn [snd]; try (split; [discriminate|intros [H _]; discriminate]). tauto.
Qed.
Lemma map_fine : forall {A} (g : A -> Out unit) l, snd (omap g l) = Ok tt <-> forall x, In x l -> snd (g x) = Ok tt.
Proof.
  intros A g l. induction l as [|x r IH]; [split; [intros _ x []|reflexivity]|]. cbn [omap]. rewrite bind_fine, IH. split.
  - intros [X R] y [<-|I]; [exact X|exact (R y I)].
  - intros H. split; [apply H; left; reflexivity|intros y I; apply H; right; exact I].
Qed.
Lemma lift_fine : forall m k n (g : N -> Out unit), k < 2 ^ 32 -> (forall v, snd (g v) = Ok tt) ->
  (snd (obind (olift (add32 m k (as_u32 n))) g) = Ok tt <-> (m = Checked -> n mod 2 ^ 32 < 2 ^ 32 - k)).
Proof.
  intros m k n g K G. unfold as_u32, add32, obind, olift. cbn [snd]. change two32 with (2 ^ 32). destruct (N.ltb_spec (k + n mod 2 ^ 32) (2 ^ 32)) as [L|L].
  - cbn [snd]. rewrite G. split; [lia|reflexivity].
  - destruct m; cbn [snd]; [split; [discriminate|intros H; specialize (H eq_refl); lia]|]. rewrite G. split; [discriminate|reflexivity].
Qed.

(** Writing fails in one case only: with overflow checks, if the length of a text or of a value, cut to 32 bits, is so close to 2^32 that
    adding the length of its header overflows. *)
Theorem C11_fails : forall m items, snd (ilst_write m items) = Ok tt <->
  (m = Checked -> forall a, In a items ->
    (forall me na, ad_ident a = IFreeform me na -> blen (enc8 me) mod 2 ^ 32 < 2 ^ 32 - 12 /\ blen (enc8 na) mod 2 ^ 32 < 2 ^ 32 - 12) /\
    forall d, In d (ad_data a) -> data_len d mod 2 ^ 32 < 2 ^ 32 - 16).
Proof.
  intros m items. unfold ilst_write. rewrite bind_fine.
  assert (Hd : snd (write_head (ilst_size items) ITEM_LIST) = Ok tt) by (apply writes_head). rewrite map_fine.
  assert (A : forall a, snd (ad_write m a) = Ok tt <-> (m = Checked ->
    (forall me na, ad_ident a = IFreeform me na -> blen (enc8 me) mod 2 ^ 32 < 2 ^ 32 - 12 /\ blen (enc8 na) mod 2 ^ 32 < 2 ^ 32 - 12) /\
    forall d, In d (ad_data a) -> data_len d mod 2 ^ 32 < 2 ^ 32 - 16)).
  { intros a. unfold ad_write. rewrite emit_then, bind_fine, map_fine.
    assert (D : forall d, snd (dl <~ olift (add32 m 16 (as_u32 (data_len d))) ;; emit (be32 dl) ~;; emit (fc_bytes DATA) ~;; write_typed d) = Ok tt <->
      (m = Checked -> data_len d mod 2 ^ 32 < 2 ^ 32 - 16)).
    { intros d. apply lift_fine; [reflexivity|]. intros v. rewrite !emit_then. apply writes_typed. }
    destruct (ad_ident a) as [f|me na].
    - split.
      + intros [_ H] C. split; [discriminate|]. intros d I. exact (proj1 (D d) (H d I) C).
      + intros H. split; [reflexivity|]. intros d I. apply D. intros C. apply (H C), I.
    - rewrite emit_then.
      assert (T : snd (mean_len <~ olift (add32 m 12 (as_u32 (blen (enc8 me)))) ;; emit (be32 mean_len) ~;; emit (fc_bytes MEAN) ~;; emit (zeros 4) ~;; emit (enc8 me) ~;;
        name_len <~ olift (add32 m 12 (as_u32 (blen (enc8 na)))) ;; emit (be32 name_len) ~;; emit (fc_bytes NAME) ~;; emit (zeros 4) ~;; emit (enc8 na)) = Ok tt <->
        (m = Checked -> blen (enc8 me) mod 2 ^ 32 < 2 ^ 32 - 12) /\ (m = Checked -> blen (enc8 na) mod 2 ^ 32 < 2 ^ 32 - 12)).
      { assert (N1 := lift_fine m 12 (blen (enc8 na)) (fun v => emit (be32 v) ~;; emit (fc_bytes NAME) ~;; emit (zeros 4) ~;; emit (enc8 na)) eq_refl (fun _ => eq_refl)).
        assert (M1 := lift_fine m 12 (blen (enc8 me)) (fun _ => oret tt) eq_refl (fun _ => eq_refl)).
        rewrite <- N1, <- M1. clear. unfold obind at 1 7. cbn [olift snd]. destruct (add32 m 12 (as_u32 (blen (enc8 me)))) as [v| | |]; cbn [snd].
        - rewrite !emit_then. cbn [oret snd]. tauto.
        - split; [discriminate|intros [H _]; discriminate].
        - split; [discriminate|intros [H _]; discriminate].
        - split; [discriminate|intros [H _]; discriminate]. }
      rewrite T. split.
      + intros [[H1 H2] H] C. split; [intros ? ? E; injection E as <- <-; split; [exact (H1 C)|exact (H2 C)]|]. intros d I. exact (proj1 (D d) (H d I) C).
      + intros H. split; [split; intros C; apply (proj1 (H C) me na eq_refl)|]. intros d I. apply D. intros C. apply (H C), I. }
  split.
  - intros [_ H] C a I. exact (proj1 (A a) (H a I) C).
  - intros H. split; [exact Hd|]. intros a I. apply A. intros C. exact (H C a I).
Qed.
Print Assumptions C11_fails.

Definition some_text (s : ustring) : list atom_data := [AtomData (IFreeform (str "a") (str "b")) [DUtf8 (str "c"); DUtf16 s]; AtomData (IFourcc TITLE) [DBmp [n2b 7]]].
Example C11_exactly_example :
  snd (moov_write Checked (NewMeta None (some_text (str "xyz")))) = Ok tt /\ ~ no_utf16 (some_text (str "xyz")) /\
  blen (out (moov_write Checked (NewMeta None (some_text (str "xyz"))))) = sz_len (moov_size (NewMeta None (some_text (str "xyz")))) + 3 /\
  no_utf16 (some_text []) /\ blen (out (moov_write Checked (NewMeta None (some_text [])))) = sz_len (moov_size (NewMeta None (some_text []))).
Proof.
  split; [vm_compute; reflexivity|]. split.
  { intros U. inversion U as [|a l F]. inversion F as [|b k _ G]. inversion G as [|c j K]. specialize (K _ eq_refl). discriminate K. }
  split; [vm_compute; reflexivity|]. split; [|vm_compute; reflexivity]. repeat constructor; intros s X; inversion X; reflexivity.
Qed.
(** With overflow checks, a value of 2^32 - 16 bytes cannot be written. *)
Example C11_fails_example : forall v, blen v = 2 ^ 32 - 16 -> snd (ilst_write Checked [AtomData (IFourcc TITLE) [DReserved v]]) <> Ok tt.
Proof.
  intros v L H. pose proof (proj1 (C11_fails _ _) H eq_refl _ (or_introl eq_refl)) as [_ X]. specialize (X _ (or_introl eq_refl)).
  cbn [data_len] in X. rewrite L in X. discriminate X.
Qed.
