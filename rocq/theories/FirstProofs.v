(** Reading ends with the first flaw of the file. *)

From Coq Require Import List NArith ZArith Bool Lia Arith String.
From Coq Require Import ZifyBool ZifyNat ZifyN.
From Verif Require Import Base BaseLemmas Utf UtfLemmas Types Stream Parse Find TagSpec FileSpec ParseLemmas FailSpec FailProofs PanicSpec PanicProofs Display Described DescribedIs ErrSpec ErrProofs FirstSpec.
From Verif Require ErrExact FirstUnique.
Import ListNotations.
Local Open Scope list_scope.
Local Open Scope d_scope.

(** * Places that are reached are visited *)

Lemma item_sees : forall f l k w q id hd sz v k' q', sees f ((l, k) :: w) q -> 0 < k -> box_at f q id hd sz -> opens l id = Some (InItem, 0) ->
  in_item f (sz - hd) (q + hd) v k' q' -> sees f ((InItem, k') :: (l, k - sz) :: w) q'.
Proof.
  intros f l k w q id hd sz v k' q' S K B O H. induction H as [|v k' q' id' hd' sz' H IH K' B' W].
  - replace (sz - hd) with (sz - hd - 0) by lia. replace (q + hd) with (q + hd + 0) by lia. eapply Sees_into; eassumption.
  - eapply Sees_past; [exact IH|exact K'|exact B'|reflexivity].
Qed.
Lemma reached_sees : forall f w q, reached f w q -> sees f w q.
Proof.
  intros f w q H. induction H as [hd sz B L U|l k w q id hd sz H IH K B O W|l k w q id hd sz l' d H IH K B O NI W|l k w q id hd sz q' H IH K B O I0|l l' k w q H IH N].
  - change sz with (0 + sz) at 2. eapply Sees_past; [constructor| |exact B|reflexivity]. pose proof (ErrExact.box_head _ _ _ _ _ B). destruct B as (B & _). lia.
  - eapply Sees_past; eassumption.
  - eapply Sees_into; eassumption.
  - apply (Sees_out f InItem l (k - sz) w q'); [eapply item_sees; eassumption|discriminate].
  - eapply Sees_out; eassumption.
Qed.
Lemma desc_sees : forall f d e w q, desc_reached f d e w q -> sees_desc f d e w q.
Proof. intros f d e w q H. induction H; [eapply Desc_first|eapply Desc_past|eapply Desc_into|eapply Desc_out]; eassumption. Qed.

Section First.
  Context (m : mode) (f : bytes) (Lf : blen f < 2 ^ 62).
  Local Notation tri := (ErrProofs.tri f).
  Local Notation tri_bind := (ErrProofs.tri_bind f).
  Local Notation tri_weak := (ErrProofs.tri_weak f).
  Local Notation tri_ret := (ErrProofs.tri_ret f).
  Local Notation tri_lift := (ErrProofs.tri_lift f).
  Local Notation tri_read := (ErrProofs.tri_read f Lf).
  Local Notation tri_u8 := (ErrProofs.tri_u8 f Lf).
  Local Notation tri_u16 := (ErrProofs.tri_u16 f Lf).
  Local Notation tri_u32 := (ErrProofs.tri_u32 f Lf).
  Local Notation tri_u64 := (ErrProofs.tri_u64 f Lf).
  Local Notation tri_seek_on := (ErrProofs.tri_seek_on f Lf).
  Local Notation tri_seek_near := (ErrProofs.tri_seek_near f Lf).
  Local Notation tri_vec := (ErrProofs.tri_vec f Lf).
  Local Notation tri_desc_head := (ErrProofs.tri_desc_head f Lf).
  Local Notation head_at := (PanicProofs.head_at f).
  Local Notation hl h := (head_len (hd_size h)).
  Local Notation sz h := (sz_len (hd_size h)).

  Lemma tri_utf8 : forall n p, n < 2 ^ 63 -> tri (read_utf8 n) p (text_err f EUtf8 is_utf8 p n) (fun _ q => q = p + n /\ (n = 0 \/ q <= blen f) /\ is_utf8 (slice f p n)).
  Proof.
    intros n p L. unfold read_utf8. eapply tri_bind; [eapply tri_weak; [apply tri_vec, L|intros e H; now left|intros b q H; exact H]|].
    intros b q (-> & -> & H). destruct (dec8 _) eqn:E; [apply tri_ret; split; [reflexivity|]; split; [exact H|eapply ErrExact.dec_is_utf8; exact E]|].
    apply tri_fail. right. split; [reflexivity|]. split; [exact H|now apply is_utf8_dec].
  Qed.
  Lemma tri_utf16 : forall n p, n < 2 ^ 63 -> tri (read_utf16 n) p (text_err f EUtf16 is_utf16 p n) (fun _ q => q = p + n /\ (n = 0 \/ q <= blen f) /\ is_utf16 (slice f p n)).
  Proof.
    intros n p L. unfold read_utf16. eapply tri_bind; [eapply tri_weak; [apply tri_vec, L|intros e H; now left|intros b q H; exact H]|].
    intros b q (-> & -> & H). destruct (dec16 _) eqn:E; [apply tri_ret; split; [reflexivity|]; split; [exact H|eapply ErrExact.dec_is_utf16; exact E]|].
    apply tri_fail. right. split; [reflexivity|]. split; [exact H|now apply is_utf16_dec].
  Qed.

  (** * Described programs *)

  Definition dpost {A} (E : err -> ustring -> Prop) (x : D A) (p : N) (Q : A -> N -> Prop) : Prop :=
    flaw f \/ match x f p with DOk (a, p') => Q a p' | DErr e t => E e t | _ => True end.
  Lemma dp_bind : forall {A B} E (x : D A) (k : A -> D B) p Q S, dpost E x p Q -> (forall a p', Q a p' -> dpost E (k a) p' S) -> dpost E (dbind x k) p S.
  Proof. intros A B E x k p Q S [H|H] K; [now left|]. unfold dpost, dbind. destruct (x f p) as [[a p']|e t|q|]; try (right; exact H); try (right; exact I). apply K, H. Qed.
  Lemma dp_weak : forall {A} (E E' : err -> ustring -> Prop) (x : D A) p (Q Q' : A -> N -> Prop), dpost E x p Q -> (forall e t, E e t -> E' e t) -> (forall a p', Q a p' -> Q' a p') -> dpost E' x p Q'.
  Proof. intros A E E' x p Q Q' [H|H] K L; [now left|]. right. destruct (x f p) as [[a p']|e t|q|]; auto. Qed.
  Lemma dp_then : forall {A} (E : err -> ustring -> Prop) (x : D A) p (Q Q' : A -> N -> Prop), dpost E x p Q -> (forall a p', Q a p' -> Q' a p') -> dpost E x p Q'.
  Proof. intros. eapply dp_weak; eauto. Qed.
  Lemma dp_ret : forall {A} E (a : A) p (Q : A -> N -> Prop), Q a p -> dpost E (dret a) p Q. Proof. intros. now right. Qed.
  Lemma dp_fail : forall {A} (E : err -> ustring -> Prop) e t p (Q : A -> N -> Prop), E e t -> dpost E (dfail e t) p Q. Proof. intros. now right. Qed.
  Lemma dp_saying : forall {A} (E : err -> ustring -> Prop) t (x : R A) p E0 Q, tri x p E0 Q -> (forall e, E0 e -> E e t) -> dpost E (saying t x) p Q.
  Proof. intros A E t x p E0 Q [H|H] K; [now left|]. right. unfold saying. destruct (x f p) as [[a p']|e|q|]; auto. Qed.
  Lemma dp_plainly : forall {A} (E : err -> ustring -> Prop) (x : R A) p E0 Q, tri x p E0 Q -> (forall e, E0 e -> E e (from_text e)) -> dpost E (plainly x) p Q.
  Proof. intros A E x p E0 Q [H|H] K; [now left|]. right. unfold plainly. destruct (x f p) as [[a p']|e|q|]; auto. Qed.
  Lemma dp_lift : forall {A} E (r : res A) p a, flaw f \/ r = Ok a -> dpost E (plainly (lift r)) p (fun x q => x = a /\ q = p).
  Proof. intros A E r p a H. eapply (dp_plainly E _ _ (fun _ => False)); [now apply tri_lift|]. intros e []. Qed.
  Lemma dp_near : forall E (n : N) p, p <= blen f -> n < 2 ^ 30 -> dpost E (plainly (seek_cur (Z.of_N n))) p (fun _ q => q = p + n).
  Proof. intros E n p L Ln. eapply dp_plainly; [apply tri_seek_near; assumption|]. intros e []. Qed.

  Definition told (ns : list fourcc) (e : err) (t : ustring) : Prop := exists ns' s, first_flaw f (ns ++ ns') e s /\ t = says ns' s.
  Lemma told_here : forall ns e t, first_flaw f ns e t -> told ns e t.
  Proof. intros ns e t H. exists [], t. rewrite app_nil_r. auto. Qed.
  Lemma dp_parsing : forall {A} ns i (x : D A) p Q, dpost (told (ns ++ [i])) x p Q -> dpost (told ns) (parsing i x) p Q.
  Proof.
    intros A ns i x p Q [H|H]; [now left|]. right. unfold parsing. destruct (x f p) as [[a p']|e t|q|]; auto.
    destruct H as (ns' & s & C & ->). exists (i :: ns'), s. split; [|reflexivity]. now rewrite <- app_assoc in C.
  Qed.

  Lemma dp_head : forall p, dpost (head_wrong f p) d_head p (fun h q => head_at p h /\ q = p + hl h).
  Proof.
    intros p.
    assert (G : dpost (head_wrong f p) d_head p (fun _ _ => True)).
    { unfold d_head. eapply dp_bind; [eapply dp_saying; [apply tri_u32|intros e [-> L]; now apply No_size]|]. cbv beta. intros v q (-> & -> & L1).
      eapply dp_bind; [eapply dp_saying; [apply tri_read|intros e [-> L]; apply No_name; lia]|]. cbv beta. intros b q (-> & -> & L2). cbv zeta.
      destruct (field f p 4 =? 1) eqn:E1.
      - eapply dp_bind; [eapply dp_saying; [apply tri_u64|intros e [-> L]; apply No_long_size; lia]|]. intros. now apply dp_ret.
      - destruct (field f p 4 <? 8) eqn:E8; [|now apply dp_ret]. rewrite <- (fc_slice f Lf) by lia. apply dp_fail. apply Below_eight; lia. }
    destruct G as [G|G]; [now left|]. right. pose proof (DescribedIs.same_head f p) as Sm.
    destruct (d_head f p) as [[h q]|e t|x|]; auto. cbn [undress] in Sm. symmetry in Sm. apply parse_head_inv in Sm. destruct Sm as [-> B]. split; [exact B|reflexivity].
  Qed.
  Lemma dp_full : forall p top said, dpost (full_wrong f p top said) d_full p (fun v q => v = (field f p 1, slice f (p + 1) 3) /\ q = p + 4 /\ q <= blen f).
  Proof.
    intros p top said. unfold d_full. eapply dp_bind; [eapply dp_saying; [apply tri_u8|intros e [-> L]; now apply No_version]|]. cbv beta. intros v q (-> & -> & L1).
    eapply dp_bind; [eapply dp_saying; [apply tri_read|intros e [-> L]; apply No_flags; lia]|]. cbv beta. intros b q (-> & -> & L2).
    apply dp_ret. split; [reflexivity|lia].
  Qed.
  (** The version is checked behind it. *)
  Lemma dp_version : forall {A} p said (x : N * bytes -> D A) (E : err -> ustring -> Prop) Q,
    (forall e t, full_wrong f p 0 said e t -> E e t) ->
    (full_fine f p 0 -> dpost E (x (field f p 1, slice f (p + 1) 3)) (p + 4) Q) ->
    dpost E (vf <# d_full ;; if negb (fst vf =? 0) then dfail (EUnknownVersion (fst vf)) said else x vf) p Q.
  Proof.
    intros A p said x E Q C K. eapply dp_bind; [eapply dp_weak; [apply (dp_full p 0 said)|exact C|intros a q H; exact H]|]. cbv beta. intros vf q (-> & -> & L). cbn [fst].
    destruct (negb _) eqn:EV; [apply dp_fail, C, Other_version; lia|]. apply K. split; lia.
  Qed.

  (** * Boxes *)

  (** A box with the head [h] is reached at [q]. *)
  Definition here (w : standing) (q : N) (h : head) : Prop := (exists l k w', w = (l, k) :: w' /\ 0 < k) /\ reached f w q /\ head_at q h.
  Lemma here_spot : forall w q h, here w q h -> spot f w q h.
  Proof. intros w q h (K & R & H). split; [exact K|]. split; [now apply reached_sees|exact H]. Qed.
  Definition after {A} (w : standing) (h : head) (_ : A) (p : N) : Prop := match w with [] => False | (l, k) :: w' => reached f ((l, k - sz h) :: w') p end.
  Definition fine (w : standing) (q : N) (h : head) : Prop := forall ns e s, ~ box_wrong f (inner w) q (hd_fourcc h) (hl h) (sz h) ns e s.
  Lemma after_leaf : forall {A} w q h (a : A), here w q h -> opens (inner w) (hd_fourcc h) = None -> fine w q h -> after w h a (q + sz h).
  Proof. intros A w q h a ((l & k & w' & -> & K) & S & H) O F. cbn [after]. eapply Reach_past; [exact S|exact K|exact H|exact O|exact F]. Qed.
  Lemma told_box : forall w q h ns e s, here w q h -> opens (inner w) (hd_fourcc h) = None -> box_wrong f (inner w) q (hd_fourcc h) (hl h) (sz h) ns e s -> told (trail w ++ ns) e s.
  Proof. intros w q h ns e s ((l & k & w' & -> & K) & S & H) O W. apply told_here. eapply At_box; [exact S|exact K|exact H|exact O|exact W]. Qed.

  Definition no_content (l : level) (q : N) (h : head) : Prop := forall ns e s, ~ content_wrong f l q (hd_fourcc h) (hl h) (sz h) ns e s.
  Lemma dp_skip_at : forall w q h, spot f w q h -> dpost (fun e t => e = EIoSeek /\ t = [] /\ 2 ^ 63 <= q + sz h) (plainly (skip_atom m h)) (q + hl h) (fun _ p => p = q + sz h /\ q + sz h < 2 ^ 63).
  Proof.
    intros w q h H. destruct (spot_sound m f Lf w q h H) as [F|[E S]]; [now left|].
    eapply dp_plainly with (E0 := fun e => e = EIoSeek /\ 2 ^ 63 <= q + sz h).
    - unfold skip_atom. eapply tri_bind; [apply tri_lift; right; exact E|]. cbv beta. intros c p [-> ->]. right.
      assert (W : two63 = 2 ^ 63) by reflexivity. rewrite (as_i64_small f Lf) by lia. unfold seek_cur. rewrite W, <- N2Z.inj_add, N2Z.id. destruct (_ && _)%Z eqn:X; [split; lia|split; [reflexivity|lia]].
    - intros e [-> L]. auto.
  Qed.
  Lemma end_fine : forall l q h, no_content l q h -> q + sz h < 2 ^ 63 -> forall ns e s, ~ box_wrong f l q (hd_fourcc h) (hl h) (sz h) ns e s.
  Proof. intros l q h C L ns e s W. destruct W as [ns e s W|_ _ W]; [exact (C _ _ _ W)|lia]. Qed.
  Lemma dp_skip : forall w q h, here w q h -> opens (inner w) (hd_fourcc h) = None -> own (inner w) (hd_fourcc h) = [] -> no_content (inner w) q h -> ~ is_read (inner w) (hd_fourcc h) ->
    dpost (told (trail w)) (plainly (skip_atom m h)) (q + hl h) (fun _ p => p = q + sz h /\ fine w q h).
  Proof.
    intros w q h H O W C NR. eapply dp_weak; [apply (dp_skip_at w), here_spot, H| |].
    - intros e t (-> & -> & L). replace (trail w) with (trail w ++ own (inner w) (hd_fourcc h)) by (rewrite W; apply app_nil_r).
      eapply told_box; [exact H|exact O|]. apply Wrong_end; assumption.
    - cbv beta. intros _ p [-> L]. split; [reflexivity|]. exact (end_fine _ _ _ C L).
  Qed.
  Lemma content_at : forall l q h, l <> InItem -> (l = InMoov -> hd_fourcc h <> id4 "mvhd") -> (l = InStsd -> hd_fourcc h <> id4 "mp4a") -> no_content l q h.
  Proof. intros l q h N1 N2 N3 ns e s W. destruct W as [e s L|e s L|e s L I|e s L I]; auto; [now apply N2|now apply N3]. Qed.
  Lemma not_read : forall l id, l <> InItem -> ~ is_read l id. Proof. intros l id N [E _]. contradiction. Qed.

  (** A loop over boxes. *)
  Lemma dloop : forall {S} (limit : res N) (body : head -> S -> D S) (E : err -> ustring -> Prop) (St : S -> N -> N -> Prop) lim, (flaw f \/ limit = Ok lim /\ lim < 2 ^ 63) ->
    (forall s k q e t, St s k q -> 0 < k -> head_wrong f q e t -> E e t) ->
    (forall s k q h, St s k q -> 0 < k -> head_at q h -> flaw f \/ sz h < 2 ^ 63) ->
    (forall s k q h, St s k q -> 0 < k -> head_at q h -> dpost E (body h s) (q + hl h) (fun s' p => St s' (k - sz h) p)) ->
    forall fuel parsed s p, St s (lim - parsed) p -> dpost E (d_loop fuel m limit body parsed s) p (fun s' p' => St s' 0 p').
  Proof.
    intros S limit body E St lim [F|[-> Ll]] HE HS B; [intros; now left|]. induction fuel as [|fuel IH]; intros parsed s p K; cbn [d_loop]; [right; exact I|].
    eapply dp_bind; [apply dp_lift; now right|]. cbv beta. intros l' p' [-> ->]. destruct (parsed <? lim) eqn:EL; [|apply dp_ret; now replace 0 with (lim - parsed) by lia].
    eapply dp_bind; [eapply dp_weak; [apply dp_head|intros e t W; eapply HE; [exact K|lia|exact W]|intros a q H; exact H]|]. cbv beta. intros h p1 [H ->].
    eapply dp_bind; [eapply B; [exact K|lia|exact H]|]. cbv beta. intros s' p2 K2.
    destruct (HS _ _ _ h K ltac:(lia) H) as [F|Sz]; [now left|].
    eapply dp_bind; [apply (dp_lift _ _ _ (parsed + sz h))|].
    { right. unfold add64. assert (W : two64 = 2 * 2 ^ 63) by reflexivity. destruct (parsed + sz h <? two64) eqn:X; [reflexivity|]. rewrite W in X. lia. }
    cbv beta. intros x p3 [-> ->]. replace (lim - parsed - sz h) with (lim - (parsed + sz h)) in * by lia. now apply IH.
  Qed.
  (** The content of a box whose first [d] bytes have been read. *)
  Lemma dcontainer : forall {S} w q h l d (body : head -> S -> D S), here w q h -> opens (inner w) (hd_fourcc h) = Some (l, d) -> l <> InItem -> (forall e s, ~ start_wrong f l (q + hl h) e s) ->
    (forall h' s q' k w', here ((l, k) :: w') q' h' -> dpost (told (trail ((l, k) :: w'))) (body h' s) (q' + hl h') (after ((l, k) :: w') h')) ->
    forall fuel s, dpost (told (trail w ++ level_name l)) (d_loop fuel m (content_len m (hd_size h)) body d s) (q + hl h + d)
      (fun _ p => exists l0 k0 w0, w = (l0, k0) :: w0 /\ reached f ((l, 0) :: (l0, k0 - sz h) :: w0) p).
  Proof.
    intros S w q h l d body P O NI NS B fuel s. pose proof P as ((l0 & k0 & w0 & -> & K0) & Sw & H). destruct (spot_sound m f Lf _ q h (here_spot _ _ _ P)) as [F|[E Sz]]; [now left|].
    eapply dp_then.
    - apply (dloop _ body _ (fun _ k p => reached f ((l, k) :: (l0, k0 - sz h) :: w0) p) (sz h - hl h)); [right; split; [exact E|lia]| | | |].
      + intros _ k p e t R K W. apply told_here. rewrite <- (trail_under l k l0 (k0 - sz h) k0 w0). eapply At_head; eassumption.
      + intros _ k p h' R K H'. destruct (spot_sound m f Lf ((l, k) :: (l0, k0 - sz h) :: w0) p h') as [F|[_ X]]; [|now left|right; lia].
        split; [eauto|]. split; [now apply reached_sees|exact H'].
      + intros s' k p h' R K H'. pose proof (B h' s' p k ((l0, k0 - sz h) :: w0)) as B'. rewrite (trail_under _ _ _ _ k0) in B'. apply B'. split; [eauto|]. split; assumption.
      + eapply Reach_into; eassumption.
    - cbv beta. intros x p R. exists l0, k0, w0. auto.
  Qed.
  Lemma dinside : forall {S} w q h l d (body : head -> S -> D S), here w q h -> opens (inner w) (hd_fourcc h) = Some (l, d) -> l <> InItem -> l <> InMoov -> (forall e s, ~ start_wrong f l (q + hl h) e s) ->
    (forall h' s q' k w', here ((l, k) :: w') q' h' -> dpost (told (trail ((l, k) :: w'))) (body h' s) (q' + hl h') (after ((l, k) :: w') h')) ->
    forall fuel s, dpost (told (trail w ++ level_name l)) (d_loop fuel m (content_len m (hd_size h)) body d s) (q + hl h + d) (after w h).
  Proof.
    intros S w q h l d body P O NI NM NS B fuel s. eapply dp_then; [apply dcontainer; eassumption|]. cbv beta. intros x p (l0 & k0 & w0 & -> & R). cbn [after]. eapply Reach_out; eassumption.
  Qed.
  Lemma no_start : forall l p, l <> InMeta -> l <> InStsd -> forall e s, ~ start_wrong f l p e s.
  Proof. intros l p A B e s W. destruct W; contradiction. Qed.
  Lemma dbox0 : forall {S} w q h l (body : head -> S -> D S), here w q h -> opens (inner w) (hd_fourcc h) = Some (l, 0) -> l <> InItem -> l <> InMoov -> l <> InMeta -> l <> InStsd ->
    (forall h' s q' k w', here ((l, k) :: w') q' h' -> dpost (told (trail ((l, k) :: w'))) (body h' s) (q' + hl h') (after ((l, k) :: w') h')) ->
    forall fuel s, dpost (told (trail w ++ level_name l)) (d_loop fuel m (content_len m (hd_size h)) body 0 s) (q + hl h) (after w h).
  Proof. intros S w q h l body P O W1 W2 W3 W4 B fuel s. replace (q + hl h) with (q + hl h + 0) by lia. apply dinside; try assumption. now apply no_start. Qed.
  (** Children called [id] are parsed, the others skipped. *)
  Lemma dchild : forall {A B} (id : fourcc) w h (x : D A) (g : A -> B) (r : B) q, here w q h -> inner w <> InItem ->
    (fourcc_eqb (hd_fourcc h) id = false -> opens (inner w) (hd_fourcc h) = None /\ own (inner w) (hd_fourcc h) = [] /\ no_content (inner w) q h) ->
    (fourcc_eqb (hd_fourcc h) id = true -> dpost (told (trail w ++ [id])) x (q + hl h) (after w h)) ->
    dpost (told (trail w)) (if fourcc_eqb (hd_fourcc h) id then (y <# parsing id x ;; dret (g y)) else (plainly (skip_atom m h) ;#; dret r)) (q + hl h) (after w h).
  Proof.
    intros A B id w h x g r q H NI O X. destruct (fourcc_eqb (hd_fourcc h) id).
    - eapply dp_bind; [apply dp_parsing, X; reflexivity|]. intros a p Hb. apply dp_ret. exact Hb.
    - destruct (O eq_refl) as (O1 & O2 & O3). eapply dp_bind; [apply (dp_skip w q); try assumption; now apply not_read|]. cbv beta. intros a p [-> F]. apply dp_ret. now apply after_leaf.
  Qed.

  (** * Items *)

  Lemma fine_not : forall p top said e s, full_fine f p top -> ~ full_wrong f p top said e s.
  Proof. intros p top said e s F W. eapply FirstUnique.full_not; eassumption. Qed.
  Lemma ddata : forall q hd size, full_fine f (q + hd) 0 -> hd + 8 <= size < 2 ^ 63 ->
    dpost (value_wrong f q hd size) (d_data (field f (q + hd + 1) 3) (size - hd - 8)) (q + hd + 8) (fun _ p => p = q + size /\ forall e s, ~ value_wrong f q hd size e s).
  Proof.
    intros q hd size F Sz. set (t := field f (q + hd + 1) 3) in *.
    assert (V : forall g : bytes -> data, In t kinds -> t <> 1 -> t <> 2 -> dpost (value_wrong f q hd size) (v <# plainly (read_u8_vec (size - hd - 8)) ;; dret (g v)) (q + hd + 8) (fun _ p => p = q + size /\ forall e s, ~ value_wrong f q hd size e s)).
    { intros g Y N1 N2. eapply dp_bind; [eapply dp_plainly; [apply tri_vec; lia|]|].
      - intros e [[-> Le] Ne]. cbn [from_text]. apply Value_cut; [exact F|exact Y|lia|lia].
      - cbv beta. intros b p (_ & -> & L). apply dp_ret. split; [lia|]. intros e s W. destruct W as [e s W|_ W|_ _ L1 L2|_ _ W|_ _ W]; [eapply fine_not; eassumption|contradiction|lia|contradiction|contradiction]. }
    destruct (in_dec N.eq_dec t kinds) as [Y|Y].
    - assert (T8 : t = 1 -> dpost (value_wrong f q hd size) (s <# plainly (read_utf8 (size - hd - 8)) ;; dret (DUtf8 s)) (q + hd + 8) (fun _ p => p = q + size /\ forall e s, ~ value_wrong f q hd size e s)).
      { intros T. eapply dp_bind; [eapply dp_plainly; [apply tri_utf8; lia|]|].
        - intros e [[[-> Le] Ne]|(-> & Le & U)]; cbn [from_text]; [apply Value_cut; [exact F|exact Y|lia|lia]|].
          destruct (N.lt_ge_cases (blen f) (q + size)) as [C|C]; [exfalso; destruct Le as [Le|Le]; [|lia]|apply Value_text; [exact F|exact C|exact T|exact U]].
          apply U. exists []. split; [reflexivity|]. rewrite Le. reflexivity.
        - cbv beta. intros b p (-> & L & U). apply dp_ret. split; [lia|]. intros e s W. destruct W as [e s W|_ W|_ _ L1 L2|_ _ _ W|_ _ W]; [eapply fine_not; eassumption|contradiction|lia|contradiction|fold t in W; lia]. }
      assert (T16 : t = 2 -> dpost (value_wrong f q hd size) (s <# plainly (read_utf16 (size - hd - 8)) ;; dret (DUtf16 s)) (q + hd + 8) (fun _ p => p = q + size /\ forall e s, ~ value_wrong f q hd size e s)).
      { intros T. eapply dp_bind; [eapply dp_plainly; [apply tri_utf16; lia|]|].
        - intros e [[[-> Le] Ne]|(-> & Le & U)]; cbn [from_text]; [apply Value_cut; [exact F|exact Y|lia|lia]|].
          destruct (N.lt_ge_cases (blen f) (q + size)) as [C|C]; [exfalso; destruct Le as [Le|Le]; [|lia]|apply Value_text16; [exact F|exact C|exact T|exact U]].
          apply U. exists [], []. split; [reflexivity|]. rewrite Le. split; [reflexivity|now left].
        - cbv beta. intros b p (-> & L & U). apply dp_ret. split; [lia|]. intros e s W. destruct W as [e s W|_ W|_ _ L1 L2|_ _ W _|_ _ _ W]; [eapply fine_not; eassumption|contradiction|lia|fold t in W; lia|contradiction]. }
      pose proof Y as Y'. unfold kinds in Y'. cbn [In] in Y'. unfold d_data. destruct Y' as [E|[E|[E|[E|[E|[E|[E|[]]]]]]]]; rewrite <- E in *;
        first [apply T8; reflexivity|apply T16; reflexivity|apply V; [exact Y|discriminate|discriminate]].
    - assert (X : d_data t (size - hd - 8) = dfail (EUnknownDataType t) (txt "Unknown datatype code")).
      { clear - Y. clearbody t. unfold d_data. unfold kinds in Y. cbn [In] in Y.
        repeat match goal with |- context [match ?x with _ => _ end] => is_var x; destruct x end; try reflexivity; exfalso; apply Y; auto 10. }
      rewrite X. apply dp_fail. now apply Value_kind.
  Qed.
  Definition has_data (a : item_acc) : bool := match ia_data a with [] => false | _ => true end.
  Lemma ditem : forall w h a q, spot f w q h -> inner w = InItem -> dpost (box_wrong f InItem q (hd_fourcc h) (hl h) (sz h) []) (d_item_body m h a) (q + hl h)
    (fun a' p => p = q + sz h /\ has_data a' = has_data a || fourcc_eqb (hd_fourcc h) (id4 "data") /\ forall ns e s, ~ box_wrong f InItem q (hd_fourcc h) (hl h) (sz h) ns e s).
  Proof.
    intros w h a q P Iw.
    destruct (spot_place f w q h P) as (w' & [K H] & Lv). rewrite Iw in Lv.
    destruct (spot_sound m f Lf w q h P) as [F|[Ec Sz0]]; [now left|].
    assert (DC : forall E p, dpost E (plainly (lift (content_len m (hd_size h)))) p (fun c p' => c = sz h - hl h /\ p' = p)) by (intros E p; apply dp_lift; now right).
    unfold d_item_body. cbv zeta. destruct (fourcc_eqb (hd_fourcc h) DATA) eqn:ED.
    { assert (EI : hd_fourcc h = id4 "data") by now apply fourcc_eqb_eq.
      assert (NW : (forall e s, ~ value_wrong f q (hl h) (sz h) e s) -> forall ns e s, ~ box_wrong f InItem q (hd_fourcc h) (hl h) (sz h) ns e s).
      { intros N ns e s W. destruct W as [ns e s W|_ W _]; [|apply W; split; [reflexivity|rewrite EI; now left]].
        destruct W as [e s _ _ W|e s _ I0 _|e s L|e s L]; [exact (N _ _ W)|rewrite EI in I0; destruct I0 as [I0|[I0|[]]]; discriminate I0|discriminate L|discriminate L]. }
      assert (OW : forall e s, value_wrong f q (hl h) (sz h) e s -> box_wrong f InItem q (hd_fourcc h) (hl h) (sz h) [] e s) by (intros e s W; apply Wrong_content, Wrong_value; [reflexivity|exact EI|exact W]).
      apply dp_version; [intros e t W; apply OW, Value_version, W|]. intros Fv. cbn [snd].
      eapply dp_bind; [apply (dp_near _ 4); [destruct Fv; lia|reflexivity]|]. cbv beta. intros u p2 ->.
      eapply dp_bind; [apply DC|]. cbv beta. intros c p3 (-> & ->).
      destruct (N.lt_ge_cases (sz h) (hl h + 8)) as [C|C]; [left; eapply Short_value; [exact K|exact Lv|exact (fourcc_is _ _ _ _ H ED)|exact C]|].
      eapply dp_bind; [apply (dp_lift _ _ _ (sz h - hl h - 8)); right; unfold sub64; destruct (8 <=? _) eqn:X; [reflexivity|lia]|].
      cbv beta. intros n p4 [-> ->]. rewrite type_field. replace (q + hl h + 4 + 4) with (q + hl h + 8) by lia.
      eapply dp_bind; [eapply dp_weak; [apply ddata; [exact Fv|lia]|exact OW|intros b p Hp; exact Hp]|]. cbv beta. intros d p5 [-> NV]. apply dp_ret. split; [reflexivity|].
      split; [|now apply NW]. unfold has_data. cbn [ia_data]. change (id4 "data") with DATA. rewrite ED, orb_true_r. destruct (ia_data a); reflexivity. }
    change (id4 "data") with DATA. rewrite ED, orb_false_r.
    assert (T : forall id g, In id [id4 "mean"; id4 "name"] -> (forall s, ia_data (g s) = ia_data a) -> fourcc_eqb (hd_fourcc h) id = true -> dpost (box_wrong f InItem q (hd_fourcc h) (hl h) (sz h) []) (
        vf <# d_full ;; (if negb (fst vf =? 0) then dfail (EUnknownVersion (fst vf)) (txt "Error reading data atom (data)") else
        c <# plainly (lift (content_len m (hd_size h))) ;; n <# plainly (lift (sub64 m c 4)) ;; s <# plainly (read_utf8 n) ;; dret (g s))) (q + hl h)
        (fun a' p => p = q + sz h /\ has_data a' = has_data a /\ forall ns e s, ~ box_wrong f InItem q (hd_fourcc h) (hl h) (sz h) ns e s)).
    { intros id g Hi Hg EI. apply fourcc_eqb_eq in EI. subst id.
      assert (NW : (forall e s, ~ name_wrong f q (hl h) (sz h) e s) -> forall ns e s, ~ box_wrong f InItem q (hd_fourcc h) (hl h) (sz h) ns e s).
      { intros N ns e s W. destruct W as [ns e s W|_ W _]; [|apply W; split; [reflexivity|right; exact Hi]].
        destruct W as [e s _ E0 _|e s _ _ W|e s L|e s L]; [rewrite E0 in ED; discriminate|exact (N _ _ W)|discriminate L|discriminate L]. }
      assert (OW : forall e s, name_wrong f q (hl h) (sz h) e s -> box_wrong f InItem q (hd_fourcc h) (hl h) (sz h) [] e s) by (intros e s W; apply Wrong_content, Wrong_name; [reflexivity|exact Hi|exact W]).
      apply (dp_version _ _ (fun _ => c <# plainly (lift (content_len m (hd_size h))) ;; n <# plainly (lift (sub64 m c 4)) ;; s <# plainly (read_utf8 n) ;; dret (g s))); [intros e t W; apply OW, Name_version, W|]. intros Fv. pose proof (proj1 Fv) as L1.
      eapply dp_bind; [apply DC|]. cbv beta. intros c p3 (-> & ->).
      destruct (N.lt_ge_cases (sz h) (hl h + 4)) as [C|C].
      { left. eapply Short_text; [exact K|exact Lv|exact H| |exact C]. destruct Hi as [<-|[<-|[]]]; auto. }
      eapply dp_bind; [apply (dp_lift _ _ _ (sz h - hl h - 4)); right; unfold sub64; destruct (4 <=? _) eqn:X; [reflexivity|lia]|].
      cbv beta. intros n p4 [-> ->]. eapply dp_bind; [eapply dp_plainly; [apply tri_utf8; lia|]|].
      - intros e [[[-> Le] Ne]|(-> & Le & U)]; cbn [from_text]; apply OW; [apply Name_cut; [exact Fv|lia]|].
        destruct (N.lt_ge_cases (blen f) (q + sz h)) as [D|D]; [exfalso; destruct Le as [Le|Le]; [|lia]|apply Name_text; [exact Fv|exact D|exact U]].
        apply U. exists []. split; [reflexivity|]. rewrite Le. reflexivity.
      - cbv beta. intros s p (-> & L & U). apply dp_ret. split; [lia|]. split; [unfold has_data; now rewrite Hg|]. apply NW. intros e s0 W.
        destruct W as [e s0 W|_ W|_ _ W]; [eapply fine_not; eassumption|lia|contradiction]. }
    destruct (fourcc_eqb (hd_fourcc h) MEAN) eqn:EM; [apply (T MEAN); [now left|reflexivity|exact EM]|].
    destruct (fourcc_eqb (hd_fourcc h) NAME) eqn:EN; [apply (T NAME); [right; now left|reflexivity|exact EN]|].
    assert (X1 : hd_fourcc h <> id4 "data") by (intros N; rewrite N in ED; discriminate). assert (X2 : hd_fourcc h <> id4 "mean") by (intros N; rewrite N in EM; discriminate).
    assert (X3 : hd_fourcc h <> id4 "name") by (intros N; rewrite N in EN; discriminate).
    assert (NC : no_content InItem q h) by (intros ns e s W; destruct W as [e s _ E0 _|e s _ [E0|[E0|[]]] _|e s L|e s L]; congruence).
    eapply dp_bind; [eapply dp_weak; [apply (dp_skip_at w q h P)| |intros b p Hp; exact Hp]|].
    - intros e t (-> & -> & L). change (@nil fourcc) with (own InItem (hd_fourcc h)). apply Wrong_end; [exact NC| |exact L]. intros [_ [E0|[E0|[E0|[]]]]]; congruence.
    - cbv beta. intros u p1 [-> L]. apply dp_ret. split; [reflexivity|]. split; [reflexivity|]. exact (end_fine _ _ _ NC L).
  Qed.
  Lemma dilst_body : forall fuel k w0 h l q, here ((InIlst, k) :: w0) q h -> dpost (told (trail ((InIlst, k) :: w0))) (d_ilst_body fuel m h l) (q + hl h) (after ((InIlst, k) :: w0) h).
  Proof.
    intros fuel k w0 h l q P. set (w := (InIlst, k) :: w0) in *. unfold d_ilst_body. destruct (fourcc_eqb _ FREE) eqn:EF.
    { assert (O : opens InIlst (hd_fourcc h) = None) by (unfold opens; change (id4 "free") with FREE; now rewrite EF).
      eapply dp_bind; [apply (dp_skip w q); [exact P|exact O|reflexivity|apply content_at; discriminate|now apply not_read]|]. cbv beta. intros u p1 [-> F]. apply dp_ret. now apply after_leaf. }
    assert (O : opens InIlst (hd_fourcc h) = Some (InItem, 0)) by (unfold opens; change (id4 "free") with FREE; now rewrite EF).
    destruct (spot_sound m f Lf w q h (here_spot _ _ _ P)) as [F|[Ec Sz]]; [now left|].
    assert (K : 0 < k) by (destruct P as ((? & ? & ? & X & Y) & _); injection X as _ -> _; exact Y). pose proof P as (_ & R & H).
    eapply dp_bind; [apply dp_lift; right; exact Ec|]. cbv beta. intros c p [-> ->]. apply (dp_bind _ _ _ _ (after w h)); [|intros a p1 Hb; apply dp_ret; exact Hb].
    assert (IW : forall e t, item_wrong f (hd_fourcc h) (sz h - hl h) (q + hl h) e t -> told (trail w) e t).
    { intros e t W. apply told_here. eapply At_item; [exact R|exact K|exact H|exact O|exact W]. }
    unfold d_item. apply (dp_bind _ _ _ _ (fun a p => in_item f (sz h - hl h) (q + hl h) (has_data a) 0 p)).
    - assert (St : forall a n p h', in_item f (sz h - hl h) (q + hl h) (has_data a) n p -> 0 < n -> head_at p h' -> spot f ((InItem, n) :: (InIlst, k - sz h) :: w0) p h').
      { intros a n p h' I0 Kn H'. split; [eauto|]. split; [|exact H']. eapply item_sees; [apply reached_sees; exact R|exact K|exact H|exact O|exact I0]. }
      apply (dloop _ _ _ (fun a n p => in_item f (sz h - hl h) (q + hl h) (has_data a) n p) (sz h - hl h)); [right; split; [reflexivity|lia]| | | |].
      + intros a n p e t I0 Kn W. apply IW. eapply Item_head; eassumption.
      + intros a n p h' I0 Kn H'. destruct (spot_sound m f Lf _ p h' (St _ _ _ _ I0 Kn H')) as [F|[_ X]]; [now left|right; lia].
      + intros a n p h' I0 Kn H'. eapply dp_weak; [apply (ditem _ h' a p (St _ _ _ _ I0 Kn H')); reflexivity| |].
        * intros e t W. apply IW. eapply Item_box; eassumption.
        * cbv beta. intros a' p' (-> & -> & N). eapply Item_past; eassumption.
      + rewrite N.sub_0_r. constructor.
    - intros a p I0. unfold has_data in I0. destruct (ia_data a) eqn:Ea.
      + apply dp_fail. apply IW. change (fc_text (hd_fourcc h)) with (bytes_text (fc_bytes (hd_fourcc h))). eapply Item_empty. exact I0.
      + apply dp_ret. unfold w. cbn [after]. eapply Reach_item; [exact R|exact K|exact H|exact O|exact I0].
  Qed.
  Lemma dilst : forall fuel w q h, here w q h -> inner w = InMeta -> fourcc_eqb (hd_fourcc h) ITEM_LIST = true -> dpost (told (trail w ++ [ITEM_LIST])) (d_ilst fuel m (hd_size h)) (q + hl h) (after w h).
  Proof.
    intros fuel w q h P Iw E. unfold d_ilst. apply (dbox0 w q h InIlst); try discriminate; [exact P| |].
    - rewrite Iw. unfold opens. change (id4 "ilst") with ITEM_LIST. now rewrite E.
    - intros. now apply dilst_body.
  Qed.
  Lemma told_start : forall w q h l d e s, here w q h -> opens (inner w) (hd_fourcc h) = Some (l, d) -> start_wrong f l (q + hl h) e s -> told (trail w ++ level_name l) e s.
  Proof. intros w q h l d e s ((l0 & k & w' & -> & K) & S & H) O W. apply told_here. eapply At_start_of; [exact S|exact K|exact H|exact O|exact W]. Qed.
  Lemma dmeta : forall fuel w q h, here w q h -> inner w = InUdta -> fourcc_eqb (hd_fourcc h) METADATA = true -> dpost (told (trail w ++ [METADATA])) (d_meta fuel m (hd_size h)) (q + hl h) (after w h).
  Proof.
    intros fuel w q h P Iw E. unfold d_meta.
    assert (O : opens (inner w) (hd_fourcc h) = Some (InMeta, 4)) by (rewrite Iw; unfold opens; change (id4 "meta") with METADATA; now rewrite E).
    apply (dp_version _ _ (fun _ => d_loop fuel m (content_len m (hd_size h)) (d_meta_body fuel m) 4 None)).
    - intros e t W. eapply (told_start w q h InMeta); [exact P|exact O|]. now apply Wrong_meta.
    - intros Fv. apply (dinside w q h InMeta 4); [exact P|exact O|discriminate|discriminate| |].
      + intros e s W. destruct W as [e s _ W|e s L _]; [eapply fine_not; eassumption|discriminate L].
      + intros h' s q' k w' P'. unfold d_meta_body. apply dchild; [exact P'|discriminate| |].
        * intros N. cbn [inner]. split; [|split; [reflexivity|apply content_at; discriminate]]. unfold opens. change (id4 "ilst") with ITEM_LIST. now rewrite N.
        * intros Y. apply dilst; [exact P'|reflexivity|exact Y].
  Qed.
  Lemma dudta : forall fuel w q h, here w q h -> inner w = InMoov -> fourcc_eqb (hd_fourcc h) USER_DATA = true ->
    opens InMoov (hd_fourcc h) = Some (InUdta, 0) -> dpost (told (trail w ++ [USER_DATA])) (d_udta fuel m (hd_size h)) (q + hl h) (after w h).
  Proof.
    intros fuel w q h P Iw E O. unfold d_udta. apply (dbox0 w q h InUdta); try discriminate; [exact P|now rewrite Iw|].
    intros h' s q' k w' P'. unfold d_udta_body. apply dchild; [exact P'|discriminate| |].
    - intros N. cbn [inner]. split; [|split; [reflexivity|apply content_at; discriminate]]. unfold opens. change (id4 "meta") with METADATA. now rewrite N.
    - intros Y. apply dmeta; [exact P'|reflexivity|exact Y].
  Qed.

  (** * Descriptors *)

  Section Entry.
    Context (w0 : standing) (p0 a0 d0 e0 : N) (En : esds_place f w0 p0 a0 d0 e0).
    Definition cut_err (e : err) (t : ustring) : Prop := e = EIoEof /\ t = [] /\ desc_cut f d0 e0.

    Lemma ddesc_loop : forall {S} w2 len (body : N -> N -> S -> D S), len < 2 ^ 62 ->
      (forall tag dl s q n k, 0 < k -> desc_reached f d0 e0 (k :: w2) q -> descriptor_at f q tag n dl ->
        dpost cut_err (body tag dl s) (q + n) (fun _ p => desc_reached f d0 e0 (k - (n + dl) :: w2) p)) ->
      forall fuel parsed s p, desc_reached f d0 e0 (len - parsed :: w2) p -> dpost cut_err (d_desc_loop fuel m len body parsed s) p (fun _ p' => desc_reached f d0 e0 (0 :: w2) p').
    Proof.
      intros S w2 len body Ll B. induction fuel as [|fuel IH]; intros parsed s p K; cbn [d_desc_loop]; [right; exact I|].
      destruct (parsed <? len) eqn:E; [|apply dp_ret; now replace 0 with (len - parsed) by lia].
      eapply dp_bind; [eapply dp_plainly; [apply tri_desc_head|]|].
      { intros e [-> Nd]. cbn [from_text]. split; [reflexivity|]. split; [reflexivity|]. exists (len - parsed), w2, p. split; [exact K|]. split; [lia|]. left. exact Nd. }
      intros [[tag n] dl] p1 [-> D]. destruct (desc_small f Lf _ _ _ _ D) as [L1 L2].
      eapply dp_bind; [eapply B; [|exact K|exact D]; lia|]. cbv beta. intros s' p2 K2.
      assert (W : two64 = 4 * 2 ^ 62) by reflexivity. assert (W2 : 2 ^ 28 < 2 ^ 62) by reflexivity.
      eapply dp_bind; [apply (dp_lift _ _ _ (n + dl)); right; unfold add64; destruct (n + dl <? two64) eqn:X; [reflexivity|rewrite W in X; lia]|].
      intros k p3 [-> ->].
      eapply dp_bind; [apply (dp_lift _ _ _ (parsed + (n + dl))); right; unfold add64; destruct (parsed + (n + dl) <? two64) eqn:X; [reflexivity|rewrite W in X; lia]|].
      intros k p3 [-> ->]. apply IH. replace (len - (parsed + (n + dl))) with (len - parsed - (n + dl)) by lia. exact K2.
    Qed.
    Lemma dseek_desc : forall E q n len tag, descriptor_at f q tag n len -> dpost E (plainly (seek_cur (as_i64 len))) (q + n) (fun _ p => p = q + n + len).
    Proof.
      intros E q n len tag D. destruct (desc_small f Lf _ _ _ _ D) as [L1 L2]. assert (W2 : 2 ^ 28 < 2 ^ 62) by reflexivity. assert (W3 : 2 ^ 63 = 2 * 2 ^ 62) by reflexivity.
      destruct D as [D _]. eapply (dp_plainly _ _ _ (fun _ => False)); [|intros e []]. eapply tri_weak; [apply tri_seek_on; lia|cbv beta; intros e [_ X]; lia|auto].
    Qed.
    Lemma dds : forall i q n len k k', 0 < k -> desc_reached f d0 e0 [k; k'] q -> descriptor_at f q 5 n len -> dpost cut_err (d_ds_desc m i len) (q + n) (fun _ p => p = q + n + len /\ q + n + 2 <= blen f).
    Proof.
      intros i q n len k k' K0 K D. unfold d_ds_desc. destruct (desc_small f Lf _ _ _ _ D) as [L1 L2]. assert (W2 : 2 ^ 28 < 2 ^ 62) by reflexivity. assert (W3 : 2 ^ 63 = 2 * 2 ^ 62) by reflexivity.
      apply (dp_plainly _ _ _ (fun e => e = EIoEof /\ blen f < q + n + 2)).
      - unfold parse_ds_desc. eapply tri_bind; [apply tri_u16|]. cbv beta. intros v p (-> & -> & L). cbv zeta.
        destruct (place_entry f _ _ _ _ _ En) as (size & size' & Ent & _).
        destruct (N.lt_ge_cases len 2) as [C|C]; [left; eapply Short_config; [exact Ent|eapply descs_look, desc_sees; exact K|exact D|exact C]|].
        eapply tri_bind; [apply (tri_lift _ _ (len - 2)); right; unfold sub64; destruct (2 <=? len) eqn:X; [reflexivity|lia]|]. cbv beta. intros x p [-> ->].
        eapply tri_bind; [eapply tri_weak; [apply tri_seek_on; lia|cbv beta; intros e [_ X]; lia|intros a p H; exact H]|]. cbv beta. intros u p ->. apply tri_ret. lia.
      - intros e [-> L]. cbn [from_text]. split; [reflexivity|]. split; [reflexivity|]. exists k, [k'], q. split; [exact K|]. split; [exact K0|]. right. right. exists n, len. split; [exact D|]. split; [discriminate|exact L].
    Qed.
    Lemma ddc_body : forall tag dl i q n k k', 0 < k -> desc_reached f d0 e0 [k; k'] q -> descriptor_at f q tag n dl ->
      dpost cut_err (d_dc_body m tag dl i) (q + n) (fun _ p => desc_reached f d0 e0 [k - (n + dl); k'] p).
    Proof.
      intros tag dl i q n k k' K0 K D. unfold d_dc_body. destruct (tag =? 5) eqn:T.
      - apply N.eqb_eq in T. subst tag. eapply dp_then; [eapply dds; [exact K0|exact K|exact D]|]. cbv beta. intros u p [-> L]. eapply Past_desc; [exact K|exact K0|exact D|right; discriminate|intros _ _; exact L].
      - eapply dp_bind; [eapply dseek_desc; exact D|]. cbv beta. intros u p ->. apply dp_ret. eapply Past_desc; [exact K|exact K0|exact D|right; discriminate|lia].
    Qed.
    Lemma des_body : forall fuel tag dl i q n k, 0 < k -> desc_reached f d0 e0 [k] q -> descriptor_at f q tag n dl ->
      dpost cut_err (d_es_body fuel m tag dl i) (q + n) (fun _ p => desc_reached f d0 e0 [k - (n + dl)] p).
    Proof.
      intros fuel tag dl i q n k K0 K D. unfold d_es_body. destruct (desc_small f Lf _ _ _ _ D) as [L1 L2]. assert (W2 : 2 ^ 28 < 2 ^ 62) by reflexivity.
      pose proof (proj1 D) as Ln. destruct (tag =? 4) eqn:T.
      - apply N.eqb_eq in T. subst tag. unfold d_dc_desc.
        assert (C : blen f < q + n + 13 -> cut_err EIoEof (from_text EIoEof)).
        { intros L. cbn [from_text]. split; [reflexivity|]. split; [reflexivity|]. exists k, [], q. split; [exact K|]. split; [exact K0|]. right. left. exists n, dl. split; [exact D|]. split; [reflexivity|exact L]. }
        eapply dp_bind; [apply (dp_near _ 5); [exact Ln|reflexivity]|]. cbv beta. intros u p1 ->.
        eapply dp_bind; [eapply dp_plainly; [apply tri_u32|intros e [-> L]; apply C; lia]|]. cbv beta. intros mx p2 (-> & -> & La).
        eapply dp_bind; [eapply dp_plainly; [apply tri_u32|intros e [-> L]; apply C; lia]|]. cbv beta. intros av p3 (-> & -> & Lb).
        eapply dp_then; [apply (ddesc_loop [k - (n + dl)]); [lia|intros; now apply ddc_body|]|cbv beta; intros x p H; now apply Out_desc].
        replace (q + n + 5 + 4 + 4) with (q + n + 13) by lia. apply Into_desc; [exact K|exact K0|exact D|lia].
      - eapply dp_bind; [eapply dseek_desc; exact D|]. cbv beta. intros u p ->. apply dp_ret. eapply Past_desc; [exact K|exact K0|exact D|left; lia|]. intros _ N. now contradiction N.
    Qed.
    Lemma desds : forall fuel i h, head_at a0 h -> hd_fourcc h = id4 "esds" -> e0 = a0 + sz h -> d0 = a0 + hl h + 4 ->
      dpost (entry_wrong f a0) (d_esds fuel m i (hd_size h)) (a0 + hl h) (fun _ p => looks_desc f d0 p /\ forall e s, ~ entry_wrong f a0 e s).
    Proof.
      intros fuel i h H Eh Es Ed. unfold d_esds. destruct (place_entry f _ _ _ _ _ En) as (size & size' & Ent & Ee).
      assert (B : box_at f a0 (id4 "esds") (hl h) (sz h)) by (rewrite <- Eh; exact H).
      apply (dp_version _ _ (fun _ => h0 <# d_desc_head ;; let '(tag, n, dl) := h0 in
        if negb (tag =? 3) then dfail (EDescriptorNotFound 3) (txt "Missing elementary stream descriptor") else
        c <# plainly (lift (content_len m (hd_size h))) ;; c4 <# plainly (lift (sub64 m c 4)) ;; max_len <# plainly (lift (sub64 m c4 n)) ;; d_es_desc fuel m i (N.min dl max_len))).
      { intros e t W. eapply Entry_version; [exact B|exact W]. }
      intros Fv. eapply dp_bind; [eapply dp_plainly; [apply tri_desc_head|]|].
      { intros e [-> Nd]. cbn [from_text]. eapply Entry_empty; [exact B|exact Fv|exact Nd]. }
      intros [[tag n] dl] p [-> D]. destruct (negb (tag =? 3)) eqn:T; [apply dp_fail; eapply Entry_stream; [exact B|exact Fv|exact D|lia]|].
      apply negb_false_iff, N.eqb_eq in T. subst tag. rewrite <- Ed in *.
      destruct (head_sound_at m f Lf a0 h) as [F|[Ec Sz]]; [right; exists p0, size, size', d0; exact Ent|exact H|now left|]. rewrite Ec.
      eapply dp_bind; [apply (dp_lift _ _ _ (sz h - hl h)); now right|]. intros c p [-> ->].
      destruct (desc_small f Lf _ _ _ _ D) as [L1 L2]. assert (W2 : 2 ^ 28 < 2 ^ 62) by reflexivity.
      destruct (N.lt_ge_cases (sz h) (hl h + 4 + n)) as [C|C]; [left; eapply Short_esds; [exact Ent|exact D|lia]|].
      eapply dp_bind; [apply (dp_lift _ _ _ (sz h - hl h - 4)); right; unfold sub64; destruct (4 <=? _) eqn:X; [reflexivity|lia]|].
      intros c4 p [-> ->].
      eapply dp_bind; [apply (dp_lift _ _ _ (sz h - hl h - 4 - n)); right; unfold sub64; destruct (n <=? _) eqn:X; [reflexivity|lia]|].
      intros mx p [-> ->]. unfold d_es_desc. eapply dp_bind; [apply (dp_near _ 3); [exact (proj1 D)|reflexivity]|]. cbv beta. intros u p ->.
      eapply dp_weak; [apply (ddesc_loop []); [lia|intros; now apply des_body|]| |].
      - replace (sz h - hl h - 4 - n) with (e0 - (d0 + n)) by lia. now apply Descs_start.
      - intros e t (-> & -> & Cu). eapply Entry_cut; [exact B|exact Fv|]. rewrite <- Ed, <- Es. exact Cu.
      - cbv beta. intros x p R. split; [eapply descs_look, desc_sees; exact R|]. intros e s W.
        assert (BF : forall id hd z, box_at f a0 id hd z -> id = id4 "esds" /\ hd = hl h /\ z = sz h) by (intros id hd z B'; exact (ErrExact.box_fun _ _ _ _ _ _ _ _ B' B)).
        destruct W as [e s W|id hd z B' N|hd z e s B' W|hd z B' _ N|hd z tag n' len B' _ D' N|hd z B' _ Cu].
        + eapply FirstUnique.head_no_box; eassumption.
        + destruct (BF _ _ _ B') as [E1 _]. contradiction.
        + destruct (BF _ _ _ B') as (_ & -> & ->). eapply fine_not; eassumption.
        + destruct (BF _ _ _ B') as (_ & -> & ->). rewrite <- Ed in N. exact (N _ _ _ D).
        + destruct (BF _ _ _ B') as (_ & -> & ->). rewrite <- Ed in D'. destruct (ErrExact.desc_fun _ _ _ _ _ _ _ _ D D') as (E1 & _). congruence.
        + destruct (BF _ _ _ B') as (_ & -> & ->). rewrite <- Ed, <- Es in Cu. eapply FirstUnique.desc_end; eassumption.
    Qed.
  End Entry.

  (** * Sample entries, headers, tracks *)

  Lemma dbounds : forall E q h, head_at q h -> dpost E (plainly (find_bounds m (hd_size h))) (q + hl h) (fun b p => b = Bounds q (hd_size h) /\ p = q + hl h).
  Proof.
    intros E q h H. eapply (dp_plainly _ _ _ (fun _ => False)); [|intros e []]. unfold find_bounds.
    eapply (tri_bind _ _ _ _ (fun c p => c = q + hl h /\ p = q + hl h)); [right; cbn; auto|].
    intros c p [-> ->]. eapply tri_bind; [apply (tri_lift _ _ q); right; unfold sub64; destruct (_ <=? _) eqn:X; [f_equal; lia|lia]|].
    intros x p [-> ->]. apply tri_ret. auto.
  Qed.
  Lemma dto_end : forall w q h p, here w q h -> opens (inner w) (hd_fourcc h) = None -> no_content (inner w) q h -> inner w <> InItem -> q <= p <= q + sz h ->
    dpost (told (trail w ++ own (inner w) (hd_fourcc h))) (plainly (seek_to_end m (Bounds q (hd_size h)))) p (after w h).
  Proof.
    intros w q h p P O NC NI L. pose proof (here_spot _ _ _ P) as P'. destruct (spot_sound m f Lf w q h P') as [F|[_ Sz]]; [now left|].
    apply (dp_plainly _ _ _ (fun e => e = EIoSeek /\ 2 ^ 63 <= q + sz h)).
    - unfold seek_to_end. eapply (tri_bind _ _ _ _ (fun c p' => c = p /\ p' = p)); [right; cbn; auto|].
      intros c p' [-> ->]. unfold bounds_end. cbn [b_pos b_size].
      assert (W : two64 = 4 * 2 ^ 62) by reflexivity. assert (W3 : 2 ^ 63 = 2 * 2 ^ 62) by reflexivity. pose proof (spot_in f w q h P') as Lq.
      eapply tri_bind; [apply (tri_lift _ _ (q + sz h)); right; unfold add64; destruct (_ <? _) eqn:X; [reflexivity|rewrite W in X; lia]|].
      intros e p' [-> ->]. eapply tri_bind; [apply (tri_lift _ _ (q + sz h - p)); right; unfold sub64; destruct (_ <=? _) eqn:X; [reflexivity|lia]|].
      intros d p' [-> ->]. right. assert (W2 : two63 = 2 ^ 63) by reflexivity. rewrite (as_i64_small f Lf) by lia. unfold seek_cur. rewrite W2, <- N2Z.inj_add, N2Z.id.
      destruct (_ && _)%Z eqn:X; [|split; [reflexivity|lia]]. replace (p + (q + sz h - p)) with (q + sz h) by lia. apply after_leaf; [exact P|exact O|]. refine (end_fine _ _ _ NC _). lia.
    - intros e [-> X]. eapply told_box; [exact P|exact O|]. apply Wrong_end; [exact NC|now apply not_read|exact X].
  Qed.
  Lemma dmp4a : forall fuel w q h, here w q h -> inner w = InStsd -> fourcc_eqb (hd_fourcc h) MP4_AUDIO = true -> dpost (told (trail w ++ [MP4_AUDIO])) (d_mp4a fuel m (hd_size h)) (q + hl h) (after w h).
  Proof.
    intros fuel w q h P Iw E. pose proof (proj2 (proj2 P)) as H. pose proof (here_spot _ _ _ P) as P'. pose proof (spot_seen f w q h _ P' E) as Sn.
    assert (Eh : hd_fourcc h = id4 "mp4a") by now apply fourcc_eqb_eq.
    assert (O : opens (inner w) (hd_fourcc h) = None) by (rewrite Iw; reflexivity).
    assert (OW : forall e s, entry_wrong f (q + hl h + 28) e s -> told (trail w ++ [MP4_AUDIO]) e s).
    { intros e s W. eapply told_box; [exact P|exact O|]. apply Wrong_content. apply Wrong_entry; [exact Iw|exact Eh|exact W]. }
    unfold d_mp4a. eapply dp_bind; [apply dbounds, H|]. intros b p [-> ->].
    eapply dp_bind; [apply (dp_near _ 28); [exact (spot_in f w q h P')|reflexivity]|]. cbv beta. intros u p ->.
    eapply dp_bind; [eapply dp_weak; [apply dp_head|intros e t W; apply OW, Entry_head, W|intros a p Hp; exact Hp]|]. cbv beta. intros h' p [H' ->]. destruct (negb _) eqn:E'.
    { apply dp_fail, OW. eapply Entry_other; [exact H'|]. intros N. rewrite N in E'. discriminate. }
    apply negb_false_iff in E'.
    assert (En : esds_place f w q (q + hl h + 28) (q + hl h + 28 + hl h' + 4) (q + hl h + 28 + sz h')).
    { exists (hl h), (sz h), (hl h'), (sz h'). split; [exact Sn|]. split; [exact Iw|]. split; [reflexivity|].
      split; [exact (fourcc_is _ _ _ _ H' E')|]. split; reflexivity. }
    eapply dp_bind; [eapply dp_weak; [eapply desds; [exact En|exact H'|now apply fourcc_eqb_eq|reflexivity|reflexivity]|exact OW|intros a p Hp; exact Hp]|]. cbv beta. intros r p [Kp NE]. pose proof (desc_on f Lf _ _ Kp) as Lp.
    destruct (place_entry f _ _ _ _ _ En) as (size & size' & Ent & _).
    assert (size = sz h).
    { destruct Ent as (w' & hd & hd' & _ & _ & B & _). pose proof (fourcc_is _ _ _ _ H E) as B2. destruct B as (_ & _ & B), B2 as (_ & _ & B2). destruct B as [B|B], B2 as [B2|B2]; lia. }
    subst size. destruct (N.lt_ge_cases (q + sz h) p) as [C|C]; [left; eapply Long_descriptor; [exact Ent|exact Kp|exact C]|].
    assert (Ow : own (inner w) (hd_fourcc h) = [MP4_AUDIO]) by (rewrite Iw, Eh; reflexivity).
    assert (NC : no_content (inner w) q h) by (intros ns e s W; destruct W as [e s L|e s L|e s L|e s _ _ W]; [congruence..|exact (NE _ _ W)]).
    eapply dp_bind; [rewrite <- Ow; apply (dto_end w); [exact P|exact O|exact NC|congruence|lia]|]. intros v p' Hb. apply dp_ret. exact Hb.
  Qed.
  Lemma dnanos : forall E scale dur p, scale <> 0 -> dur * 1000000000 < 2 ^ 64 -> dpost E (plainly (lift (mvhd_nanos m scale dur))) p (fun _ q => q = p).
  Proof.
    intros E scale dur p H L. right. unfold plainly, mvhd_nanos, mul64. assert (W : two64 = 2 ^ 64) by reflexivity.
    destruct (dur * 1000000000 <? two64) eqn:X; [|rewrite W in X; lia]. cbn [rbind lift]. unfold div64. destruct (scale =? 0) eqn:Z; [lia|]. reflexivity.
  Qed.
  Lemma dmvhd : forall w q h, here w q h -> inner w = InMoov -> fourcc_eqb (hd_fourcc h) MOVIE_HEADER = true ->
    dpost (told (trail w ++ [MOVIE_HEADER])) (d_mvhd m (hd_size h)) (q + hl h) (after w h).
  Proof.
    intros w q h P Iw E. pose proof (proj2 (proj2 P)) as H. pose proof (here_spot _ _ _ P) as P'. destruct (spot_place f w q h P') as (w' & [Kq _] & Lv). rewrite Iw in Lv. unfold d_mvhd.
    assert (Eh : hd_fourcc h = id4 "mvhd") by now apply fourcc_eqb_eq.
    assert (O : opens (inner w) (hd_fourcc h) = None) by (rewrite Iw, Eh; reflexivity).
    assert (Ow : own (inner w) (hd_fourcc h) = [MOVIE_HEADER]) by (rewrite Iw, Eh; reflexivity).
    assert (OW : forall e s, header_wrong f (q + hl h) e s -> told (trail w ++ [MOVIE_HEADER]) e s).
    { intros e s W. eapply told_box; [exact P|exact O|]. apply Wrong_content. apply Wrong_header; [exact Iw|exact Eh|exact W]. }
    eapply dp_bind; [apply dbounds, H|]. intros b p [-> ->].
    eapply dp_bind; [eapply dp_weak; [apply (dp_full (q + hl h) 1)|intros e t W; apply OW, Header_version, W|intros a p Hp; exact Hp]|]. cbv beta. intros vf p (-> & -> & Lp). cbn [fst snd].
    pose proof (fourcc_is _ _ _ _ H E) as B. apply (dp_bind _ _ _ _ (fun _ p => q <= p <= q + sz h /\ forall e s, ~ header_wrong f (q + hl h) e s)).
    - destruct (N.lt_ge_cases 1 (field f (q + hl h) 1)) as [Y|Y].
      { assert (X : forall A (a b : D A), match field f (q + hl h) 1 with 0 => a | 1 => b | v => dfail (EUnknownVersion v) (txt "Error unknown movie header (mvhd) version " ++ dec v) end
          = dfail (EUnknownVersion (field f (q + hl h) 1)) (txt "Error unknown movie header (mvhd) version " ++ dec (field f (q + hl h) 1))) by (intros A a b; destruct (field f (q + hl h) 1) as [|[?|?|]]; try reflexivity; lia).
        rewrite X. apply dp_fail, OW, Header_version. now apply Other_version. }
      assert (Fv : full_fine f (q + hl h) 1) by (split; lia).
      destruct (N.eq_dec (field f (q + hl h) 1) 0) as [Ev|Nv].
      + assert (C : blen f < q + hl h + 20 -> told (trail w ++ [MOVIE_HEADER]) EIoEof (from_text EIoEof)) by (intros L; apply OW, Header_cut; [exact Fv|now rewrite Ev]).
        assert (NW : q + hl h + 20 <= blen f -> forall e s, ~ header_wrong f (q + hl h) e s) by (intros L e s W; destruct W as [e s W|_ W]; [eapply fine_not; eassumption|rewrite Ev in W; change (0 =? 0) with true in W; cbv iota in W; lia]).
        rewrite Ev. eapply dp_bind; [apply (dp_near _ 8); [exact Lp|reflexivity]|]. cbv beta. intros u p ->.
        eapply dp_bind; [eapply dp_plainly; [apply tri_u32|intros e [-> L]; apply C; lia]|]. cbv beta. intros sc p (-> & -> & La).
        eapply dp_bind; [eapply dp_plainly; [apply tri_u32|intros e [-> L]; apply C; lia]|]. cbv beta. intros du p (-> & -> & Lb).
        replace (q + hl h + 4 + 8) with (q + hl h + 12) in * by lia.
        destruct (N.eq_dec (field f (q + hl h + 12) 4) 0) as [Z|Z]; [left; eapply Bad_header; [exact Kq|exact Lv|exact B|left; split; [exact Ev|now right]]|].
        destruct (N.lt_ge_cases (sz h) (hl h + 20)) as [D|D]; [left; eapply Bad_header; [exact Kq|exact Lv|exact B|left; split; [exact Ev|now left]]|].
        eapply dp_then; [apply dnanos; [exact Z|]|cbv beta; intros d p ->; split; [lia|apply NW; lia]].
        pose proof (PanicProofs.field_lt f Lf (q + hl h + 12 + 4) 4) as L. assert (256 ^ 4 * 1000000000 < 2 ^ 64) by reflexivity. lia.
      + assert (Ev : field f (q + hl h) 1 = 1) by lia.
        assert (C : blen f < q + hl h + 32 -> told (trail w ++ [MOVIE_HEADER]) EIoEof (from_text EIoEof)) by (intros L; apply OW, Header_cut; [exact Fv|now rewrite Ev]).
        assert (NW : q + hl h + 32 <= blen f -> forall e s, ~ header_wrong f (q + hl h) e s) by (intros L e s W; destruct W as [e s W|_ W]; [eapply fine_not; eassumption|rewrite Ev in W; change (1 =? 0) with false in W; cbv iota in W; lia]).
        rewrite Ev. eapply dp_bind; [apply (dp_near _ 16); [exact Lp|reflexivity]|]. cbv beta. intros u p ->.
        eapply dp_bind; [eapply dp_plainly; [apply tri_u32|intros e [-> L]; apply C; lia]|]. cbv beta. intros sc p (-> & -> & La).
        eapply dp_bind; [eapply dp_plainly; [apply tri_u64|intros e [-> L]; apply C; lia]|]. cbv beta. intros du p (-> & -> & Lb).
        replace (q + hl h + 4 + 16) with (q + hl h + 20) in * by lia. replace (q + hl h + 20 + 4) with (q + hl h + 24) in * by lia.
        destruct (N.eq_dec (field f (q + hl h + 20) 4) 0) as [Z|Z]; [left; eapply Bad_header; [exact Kq|exact Lv|exact B|right; split; [exact Ev|right; now left]]|].
        destruct (N.lt_ge_cases (sz h) (hl h + 32)) as [D|D]; [left; eapply Bad_header; [exact Kq|exact Lv|exact B|right; split; [exact Ev|now left]]|].
        destruct (N.lt_ge_cases (field f (q + hl h + 24) 8 * 10 ^ 9) (2 ^ 64)) as [G|G]; [|left; eapply Bad_header; [exact Kq|exact Lv|exact B|right; split; [exact Ev|right; now right]]].
        eapply dp_then; [apply dnanos; [exact Z|exact G]|cbv beta; intros d p ->; split; [lia|apply NW; lia]].
    - intros d0 p [L NW]. assert (NC : no_content (inner w) q h) by (intros ns e s W; destruct W as [e s X|e s X|e s _ _ W|e s X]; [congruence|congruence|exact (NW _ _ W)|congruence]).
      eapply dp_bind; [rewrite <- Ow; apply (dto_end w); [exact P|exact O|exact NC|congruence|exact L]|]. intros v p' Hb. apply dp_ret. exact Hb.
  Qed.
  Lemma dstsd : forall fuel w q h, here w q h -> inner w = InStbl -> fourcc_eqb (hd_fourcc h) SAMPLE_TABLE_SAMPLE_DESCRIPTION = true ->
    dpost (told (trail w ++ [SAMPLE_TABLE_SAMPLE_DESCRIPTION])) (d_stsd fuel m (hd_size h)) (q + hl h) (after w h).
  Proof.
    intros fuel w q h P Iw E. unfold d_stsd.
    assert (O : opens (inner w) (hd_fourcc h) = Some (InStsd, 8)) by (rewrite Iw; unfold opens; change (id4 "stsd") with SAMPLE_TABLE_SAMPLE_DESCRIPTION; now rewrite E).
    apply (dp_version _ _ (fun _ => plainly (seek_cur 4) ;#; d_loop fuel m (content_len m (hd_size h)) (d_stsd_body fuel m) 8 None)).
    { intros e t W. eapply (told_start w q h InStsd); [exact P|exact O|]. now apply Wrong_stsd. }
    intros Fv. eapply dp_bind; [apply (dp_near _ 4); [exact (proj1 Fv)|reflexivity]|]. cbv beta. intros u p2 ->. replace (q + hl h + 4 + 4) with (q + hl h + 8) by lia.
    apply (dinside w q h InStsd 8); [exact P|exact O|discriminate|discriminate| |].
    - intros e s W. destruct W as [e s L _|e s _ W]; [discriminate L|eapply fine_not; eassumption].
    - intros h' s q' k w' P'. unfold d_stsd_body. apply dchild; [exact P'|discriminate| |].
      + intros N. split; [reflexivity|]. cbn [inner]. split; [unfold own; change (id4 "mp4a") with MP4_AUDIO; now rewrite N|]. apply content_at; [discriminate|discriminate|]. intros _ X. rewrite X in N. discriminate.
      + intros Y. apply dmp4a; [exact P'|reflexivity|exact Y].
  Qed.
  Lemma dstbl : forall fuel w q h, here w q h -> inner w = InMinf -> fourcc_eqb (hd_fourcc h) SAMPLE_TABLE = true -> dpost (told (trail w ++ [SAMPLE_TABLE])) (d_stbl fuel m (hd_size h)) (q + hl h) (after w h).
  Proof.
    intros fuel w q h P Iw E. unfold d_stbl. apply (dbox0 w q h InStbl); try discriminate; [exact P| |].
    - rewrite Iw. unfold opens. change (id4 "stbl") with SAMPLE_TABLE. now rewrite E.
    - intros h' s q' k w' P'. unfold d_stbl_body. apply dchild; [exact P'|discriminate| |].
      + intros N. cbn [inner]. split; [|split; [reflexivity|apply content_at; discriminate]]. unfold opens. change (id4 "stsd") with SAMPLE_TABLE_SAMPLE_DESCRIPTION. now rewrite N.
      + intros Y. apply dstsd; [exact P'|reflexivity|exact Y].
  Qed.
  Lemma dminf : forall fuel w q h, here w q h -> inner w = InMdia -> fourcc_eqb (hd_fourcc h) MEDIA_INFORMATION = true -> dpost (told (trail w ++ [MEDIA_INFORMATION])) (d_minf fuel m (hd_size h)) (q + hl h) (after w h).
  Proof.
    intros fuel w q h P Iw E. unfold d_minf. apply (dbox0 w q h InMinf); try discriminate; [exact P| |].
    - rewrite Iw. unfold opens. change (id4 "minf") with MEDIA_INFORMATION. now rewrite E.
    - intros h' s q' k w' P'. unfold d_minf_body. apply dchild; [exact P'|discriminate| |].
      + intros N. cbn [inner]. split; [|split; [reflexivity|apply content_at; discriminate]]. unfold opens. change (id4 "stbl") with SAMPLE_TABLE. now rewrite N.
      + intros Y. apply dstbl; [exact P'|reflexivity|exact Y].
  Qed.
  Lemma dmdia : forall fuel w q h, here w q h -> inner w = InTrak -> fourcc_eqb (hd_fourcc h) MEDIA = true -> dpost (told (trail w ++ [MEDIA])) (d_mdia fuel m (hd_size h)) (q + hl h) (after w h).
  Proof.
    intros fuel w q h P Iw E. unfold d_mdia. apply (dbox0 w q h InMdia); try discriminate; [exact P| |].
    - rewrite Iw. unfold opens. change (id4 "mdia") with MEDIA. now rewrite E.
    - intros h' s q' k w' P'. unfold d_mdia_body. apply dchild; [exact P'|discriminate| |].
      + intros N. cbn [inner]. split; [|split; [reflexivity|apply content_at; discriminate]]. unfold opens. change (id4 "minf") with MEDIA_INFORMATION. now rewrite N.
      + intros Y. apply dminf; [exact P'|reflexivity|exact Y].
  Qed.
  Lemma dtrak : forall fuel w q h, here w q h -> inner w = InMoov -> fourcc_eqb (hd_fourcc h) TRACK = true -> dpost (told (trail w ++ [TRACK])) (d_trak fuel m (hd_size h)) (q + hl h) (after w h).
  Proof.
    intros fuel w q h P Iw E. unfold d_trak. apply (dbox0 w q h InTrak); try discriminate; [exact P| |].
    - rewrite Iw. unfold opens. change (id4 "trak") with TRACK. now rewrite E.
    - intros h' s q' k w' P'. unfold d_trak_body. apply dchild; [exact P'|discriminate| |].
      + intros N. cbn [inner]. split; [|split; [reflexivity|apply content_at; discriminate]]. unfold opens. change (id4 "mdia") with MEDIA. now rewrite N.
      + intros Y. apply dmdia; [exact P'|reflexivity|exact Y].
  Qed.
  Definition through {A} (_ : A) (_ : N) : Prop := read_through f.
  Lemma dmoov : forall fuel k q h, here [(Top, k)] q h -> fourcc_eqb (hd_fourcc h) MOVIE = true -> dpost (told [MOVIE]) (d_moov fuel m (hd_size h)) (q + hl h) through.
  Proof.
    intros fuel k q h P E. unfold d_moov. replace (q + hl h) with (q + hl h + 0) by lia.
    eapply dp_then; [apply (dcontainer [(Top, k)] q h InMoov 0)|].
    - exact P.
    - cbn [inner]. unfold opens. change (id4 "moov") with MOVIE. now rewrite E.
    - discriminate.
    - now apply no_start.
    - intros h' s q' n w0 P'. set (w := (InMoov, n) :: w0) in *. assert (Iw : inner w = InMoov) by reflexivity. unfold d_moov_body. cbv zeta.
      destruct (fourcc_eqb (hd_fourcc h') MOVIE_HEADER) eqn:E1; [eapply dp_bind; [apply dp_parsing, (dmvhd w); assumption|intros a p Hb; apply dp_ret; exact Hb]|].
      destruct (fourcc_eqb (hd_fourcc h') TRACK) eqn:E2; [eapply dp_bind; [apply dp_parsing, (dtrak fuel w); assumption|intros a p Hb; apply dp_ret; exact Hb]|].
      apply dchild; [exact P'|discriminate| |].
      + intros N. rewrite Iw. unfold opens, own. change (id4 "trak") with TRACK. change (id4 "udta") with USER_DATA. change (id4 "mvhd") with MOVIE_HEADER. rewrite E1, E2, N.
        split; [reflexivity|]. split; [reflexivity|]. apply content_at; [discriminate| |discriminate]. intros _ X. rewrite X in E1. discriminate.
      + intros Y. apply (dudta fuel w); [exact P'|exact Iw|exact Y|]. unfold opens. change (id4 "trak") with TRACK. change (id4 "udta") with USER_DATA. now rewrite E2, Y.
    - cbv beta. intros x p (l0 & k0 & w0 & _ & R). exists ((l0, k0 - sz h) :: w0), p. exact R.
  Qed.
  Lemma dfind_moov : forall inner len, len < 2 ^ 62 -> forall fuel parsed p, reached f [(Top, len - parsed)] p -> dpost (told []) (d_find_moov fuel m inner len parsed) p through.
  Proof.
    intros inn len Ll. induction fuel as [|fuel IH]; intros parsed p K; cbn [d_find_moov]; [right; exact I|].
    destruct (len <=? parsed) eqn:E; [apply dp_fail, told_here; apply (At_end _ [] p); now replace 0 with (len - parsed) by lia|].
    eapply dp_bind; [eapply dp_weak; [apply dp_head| |intros a q H; exact H]|].
    { intros e t W. change (@nil fourcc) with (trail [(Top, len - parsed)]). apply told_here. eapply At_head; [exact K|lia|exact W]. }
    cbv beta. intros h p1 [H ->].
    assert (P : here [(Top, len - parsed)] p h) by (split; [exists Top, (len - parsed), []; split; [reflexivity|lia]|split; assumption]).
    destruct (fourcc_eqb _ MOVIE) eqn:EM; [apply dp_parsing; eapply dmoov; [exact P|exact EM]|].
    assert (O : opens Top (hd_fourcc h) = None) by (unfold opens; change (id4 "moov") with MOVIE; now rewrite EM).
    eapply dp_bind; [apply (dp_skip [(Top, len - parsed)] p); [exact P|exact O|reflexivity|apply content_at; discriminate|now apply not_read]|]. cbv beta. intros u p2 [-> F].
    destruct (spot_sound m f Lf _ p h (here_spot _ _ _ P)) as [X|[_ Sz]]; [now left|]. assert (W : two64 = 4 * 2 ^ 62) by reflexivity. assert (W3 : 2 ^ 63 = 2 * 2 ^ 62) by reflexivity.
    eapply dp_bind; [apply (dp_lift _ _ _ (parsed + sz h)); right; unfold add64; destruct (parsed + sz h <? two64) eqn:X; [reflexivity|rewrite W in X; lia]|].
    intros x p3 [-> ->]. apply IH. replace (len - (parsed + sz h)) with (len - parsed - sz h) by lia. eapply Reach_past; [exact K|lia|exact H|exact O|exact F].
  Qed.
  Lemma dread : forall fuel, dpost (told []) (d_read_from fuel m) 0 through.
  Proof.
    intros fuel. unfold d_read_from. assert (W : two63 = 2 ^ 63) by reflexivity. assert (W3 : 2 ^ 63 = 2 * 2 ^ 62) by reflexivity.
    assert (OW : forall e t, type_wrong f e t -> told [] e t) by (intros e t X; apply told_here; now apply At_type).
    apply (dp_bind _ _ _ _ (fun _ q => reached f [(Top, blen f - q)] q /\ 0 < q <= blen f)).
    - unfold d_ftyp. eapply dp_bind; [eapply dp_weak; [apply dp_head|intros e t X; apply OW, Type_head, X|intros a q H; exact H]|]. cbv beta. intros h p1 [H ->].
      destruct (negb _) eqn:E; [apply dp_fail, OW; eapply Type_missing; [exact H|intros N; rewrite N in E; discriminate]|]. apply negb_false_iff in E.
      pose proof (fourcc_is _ _ _ _ H E) as B. assert (Lh : 8 <= hl h) by (eapply ErrExact.box_head; exact H).
      assert (P : spot f [(Top, blen f)] 0 h) by (split; [exists Top, (blen f), []; split; [reflexivity|pose proof (proj1 H); lia]|split; [constructor|exact H]]).
      pose proof (spot_in f _ _ _ P) as Li. destruct (spot_sound m f Lf _ _ _ P) as [F|[Ec Sz]]; [now left|].
      eapply dp_bind; [apply dp_lift; right; exact Ec|]. cbv beta. intros c p2 (-> & ->).
      eapply dp_then; [eapply dp_plainly; [apply tri_utf8; lia|]|].
      + intros e [[[-> Le] Ne]|(-> & Le & U)]; cbn [from_text]; apply OW; [eapply Type_cut; [exact B|lia]|eapply Type_text; [exact B|lia|exact U]].
      + cbv beta. intros s q (-> & Lq & U). replace (0 + hl h + (sz h - hl h)) with (sz h) in * by lia.
        split; [|lia]. eapply Reach_first; [exact B|lia|exact U].
    - intros s q [K Lq]. apply (dp_bind _ _ _ _ (fun n p => n = blen f - q /\ p = q)).
      + right. unfold plainly, remaining_stream_len, bind, position, seek_end, lift, sub64. destruct (q <=? blen f) eqn:X; [|lia].
        unfold seek_start. destruct (q <? two63) eqn:Y; [|rewrite W in Y; lia]. cbn. auto.
      + intros n p2 [-> ->]. eapply dp_bind; [apply dfind_moov; [lia|]|intros r p3 Hr; apply dp_ret; exact Hr]. now rewrite N.sub_0_r.
  Qed.
End First.
