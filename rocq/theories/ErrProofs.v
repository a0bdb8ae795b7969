(** Whenever reading fails there is a cause for it in the file, and the description of the error names it. *)

From Coq Require Import List NArith ZArith Bool Lia Arith String.
From Coq Require Import ZifyBool ZifyNat ZifyN.
From Verif Require Import Base BaseLemmas Utf UtfLemmas Types Stream Parse Find TagSpec FileSpec ParseLemmas FailSpec FailProofs PanicSpec PanicProofs Display Described DescribedIs ErrSpec.
From Verif Require WhereProofs.
Import ListNotations.
Local Open Scope list_scope.
Local Open Scope d_scope.

(** * Visited places are places that are looked at *)

Fixpoint ends (w' : within) (w : standing) (q : N) : Prop :=
  match w', w with
  | [], [(l, _)] => l = Top
  | (l', e) :: w', (l, k) :: w => l' = l /\ e <= q + k /\ (w' = [] -> l = InMoov) /\ ends w' w e
  | _, _ => False
  end.
Lemma ends_mono : forall w' w q q', ends w' w q -> q <= q' -> ends w' w q'.
Proof. intros [|[l' e] w'] [|[l k] w] q q' H L; cbn [ends] in *; auto. destruct H as (A & B & C & D). repeat split; auto. lia. Qed.
Lemma ends_inner : forall w' w q, ends w' w q -> lv w' = inner w.
Proof. intros [|[l' e] w'] [|[l k] w] q H; cbn in *; try contradiction; [|apply H]. destruct w; [now subst|contradiction]. Qed.
Lemma ends_step : forall w' l k w q size, ends w' ((l, k) :: w) q -> ends w' ((l, k - size) :: w) (q + size).
Proof. intros [|[l' e] w'] l k w q size H; cbn [ends] in *; [exact H|]. destruct H as (A & B & C & D). repeat split; auto. lia. Qed.
Lemma opens_moov : forall l id d, opens l id = Some (InMoov, d) -> l = Top.
Proof. intros l id d H. destruct l; cbn in H; try reflexivity; try discriminate; repeat match type of H with (if ?c then _ else _) = _ => destruct c end; discriminate. Qed.
Lemma opens_top : forall id l d, opens Top id = Some (l, d) -> l = InMoov.
Proof. intros id l d H. cbn in H. destruct (fourcc_eqb _ _); [|discriminate]. now injection H as <- <-. Qed.
Lemma sees_looks : forall f w q, sees f w q -> exists w', looks f w' q /\ ends w' w q.
Proof.
  intros f w q H. induction H as [|l k w q id head size H IH K B O|l k w q id head size l' d H IH K B O|l l' k w q H IH N].
  - exists []. split; [constructor|reflexivity].
  - destruct IH as (w' & L & E). exists w'. split; [|now apply ends_step]. eapply Past; [exact L|exact B|]. now rewrite (ends_inner _ _ _ E).
  - destruct IH as (w' & L & E). exists ((l', q + size) :: w'). split.
    + eapply Into; [exact L|exact B|]. now rewrite (ends_inner _ _ _ E).
    + cbn [ends]. split; [reflexivity|]. split; [lia|]. split; [|now apply ends_step].
      intros ->. cbn [ends] in E. destruct w; [|contradiction]. subst l. now apply opens_top in O.
  - destruct IH as ([|[l1 e] w'] & L & E); [cbn in E; contradiction|]. destruct E as (-> & E1 & E2 & E3). exists w'. split.
    + eapply Out; [exact L|intros ->; now apply N, E2|lia].
    + eapply ends_mono; [exact E3|lia].
Qed.
Lemma trail_cons : forall l k w, trail ((l, k) :: w) = trail w ++ level_name l.
Proof. intros l k w. unfold trail. cbn [rev]. rewrite flat_map_app. cbn [flat_map fst]. now rewrite app_nil_r. Qed.
Lemma descs_look : forall f d e w q, sees_desc f d e w q -> looks_desc f d q.
Proof.
  intros f d e w q H. induction H as [n len D|k w q tag n len H IH K D T|k q n len H IH K D|k w q H IH].
  - eapply First. exact D.
  - eapply Behind; [exact IH|exact D].
  - eapply Inside; [exact IH|exact D].
  - exact IH.
Qed.
Lemma is_utf8_dec : forall b, dec8 b = None -> ~ is_utf8 b.
Proof. intros b H (s & W & ->). rewrite dec8_enc8 in H by exact W. discriminate. Qed.
Lemma is_utf16_dec : forall b, dec16 (bytes_units b) = None -> ~ is_utf16 b.
Proof.
  intros b H (s & odd & W & -> & O). assert (E : bytes_units (units_bytes (enc16 s) ++ odd) = enc16 s).
  { destruct O as [->|O]; [rewrite app_nil_r; apply bytes_units_units_bytes; now apply enc16_units|].
    destruct odd as [|x [|y odd]]; [discriminate| |rewrite !blen_cons in O; lia].
    rewrite (units_bytes_odd (List.length (units_bytes (enc16 s)))); [apply bytes_units_units_bytes; now apply enc16_units|lia|].
    pose proof (blen_units_bytes (enc16 s)) as L. unfold blen in L. apply Nat.even_spec. exists (List.length (enc16 s)). lia. }
  rewrite E, dec16_enc16 in H by exact W. discriminate.
Qed.

Section Errors.
  Context (m : mode) (f : bytes) (Lf : blen f < 2 ^ 62).

  (** * Operations *)

  Definition tri {A} (x : R A) (p : N) (E : err -> Prop) (Q : A -> N -> Prop) : Prop :=
    flaw f \/ match x f p with Ok (a, p') => Q a p' | Err e => E e | _ => True end.
  Lemma tri_bind : forall {A B} (x : R A) (k : A -> R B) p E Q S, tri x p E Q -> (forall a p', Q a p' -> tri (k a) p' E S) -> tri (bind x k) p E S.
  Proof. intros A B x k p E Q S [H|H] K; [now left|]. unfold tri, bind. destruct (x f p) as [[a p']|e|q|]; try (right; exact H); try (right; exact I). apply K, H. Qed.
  Lemma tri_weak : forall {A} (x : R A) p (E E' : err -> Prop) (Q Q' : A -> N -> Prop), tri x p E Q -> (forall e, E e -> E' e) -> (forall a p', Q a p' -> Q' a p') -> tri x p E' Q'.
  Proof. intros A x p E E' Q Q' [H|H] K L; [now left|]. right. destruct (x f p) as [[a p']|e|q|]; auto. Qed.
  Lemma tri_ret : forall {A} (a : A) p E (Q : A -> N -> Prop), Q a p -> tri (ret a) p E Q. Proof. intros. now right. Qed.
  Lemma tri_fail : forall {A} e p (E : err -> Prop) (Q : A -> N -> Prop), E e -> tri (fail e) p E Q. Proof. intros. now right. Qed.
  Lemma tri_lift : forall {A} (r : res A) p a E, flaw f \/ r = Ok a -> tri (lift r) p E (fun x q => x = a /\ q = p).
  Proof. intros A r p a E [H| ->]; [now left|]. right. cbn. auto. Qed.
  (** The end of the file comes before [n] bytes are read. *)
  Definition eof (p n : N) (e : err) : Prop := e = EIoEof /\ blen f < p + n.
  Lemma tri_read : forall n p, tri (read_exact n) p (eof p n) (fun b q => b = slice f p n /\ q = p + n /\ (n = 0 \/ p + n <= blen f)).
  Proof.
    intros n p. right. destruct (read_exact n f p) as [[b q]|e|x|] eqn:E; try exact I.
    - apply read_exact_inv in E. destruct E as (-> & -> & E). auto.
    - unfold read_exact in E. destruct (n =? 0); [discriminate|]. destruct (_ <=? _) eqn:X; [discriminate|]. injection E as <-. split; [reflexivity|lia].
  Qed.
  Lemma tri_num : forall n p, n <> 0 -> tri (b <- read_exact n ;; ret (unbe b)) p (eof p n) (fun v q => v = field f p n /\ q = p + n /\ q <= blen f).
  Proof. intros n p N0. eapply tri_bind; [apply tri_read|]. intros b q (-> & -> & H). apply tri_ret. split; [reflexivity|]. split; [reflexivity|]. lia. Qed.
  Lemma tri_u8 : forall p, tri read_u8 p (eof p 1) (fun v q => v = field f p 1 /\ q = p + 1 /\ q <= blen f). Proof. intros p. now apply tri_num. Qed.
  Lemma tri_u16 : forall p, tri read_u16 p (eof p 2) (fun v q => v = field f p 2 /\ q = p + 2 /\ q <= blen f). Proof. intros p. now apply tri_num. Qed.
  Lemma tri_u32 : forall p, tri read_u32 p (eof p 4) (fun v q => v = field f p 4 /\ q = p + 4 /\ q <= blen f). Proof. intros p. now apply tri_num. Qed.
  Lemma tri_u64 : forall p, tri read_u64 p (eof p 8) (fun v q => v = field f p 8 /\ q = p + 8 /\ q <= blen f). Proof. intros p. now apply tri_num. Qed.
  Lemma tri_seek_on : forall n p, n < 2 ^ 63 -> tri (seek_cur (as_i64 n)) p (fun e => e = EIoSeek /\ 2 ^ 63 <= p + n) (fun _ q => q = p + n).
  Proof.
    intros n p L. right. rewrite (as_i64_small f Lf n L). unfold seek_cur. assert (W : two63 = 2 ^ 63) by reflexivity. rewrite W. rewrite <- N2Z.inj_add, N2Z.id. destruct (_ && _)%Z eqn:E; [reflexivity|split; [reflexivity|lia]].
  Qed.
  Lemma tri_seek_near : forall (n : N) p, p <= blen f -> n < 2 ^ 30 -> tri (seek_cur (Z.of_N n)) p (fun _ => False) (fun _ q => q = p + n).
  Proof.
    intros n p L Ln. right. unfold seek_cur. assert (W : two63 = 2 * 2 ^ 62) by reflexivity. assert (2 ^ 30 < 2 ^ 62) by reflexivity. rewrite W. rewrite <- N2Z.inj_add, N2Z.id. destruct (_ && _)%Z eqn:E; [reflexivity|lia].
  Qed.
  Lemma tri_vec : forall n p, n < 2 ^ 63 -> tri (read_u8_vec n) p (fun e => eof p n e /\ n <> 0) (fun b q => b = slice f p n /\ q = p + n /\ (n = 0 \/ q <= blen f)).
  Proof.
    intros n p L. unfold read_u8_vec. assert (W : two63 = 2 ^ 63) by reflexivity. destruct (two63 <=? n) eqn:E; [rewrite W in E; lia|].
    destruct (N.eq_dec n 0) as [->|Z].
    - right. unfold read_exact. cbn. split; [reflexivity|]. split; [lia|now left].
    - eapply tri_weak; [apply tri_read|auto|]. cbv beta. intros b q (-> & -> & H). auto.
  Qed.
  Definition text_err (bad : err) (utf : bytes -> Prop) (p n : N) (e : err) : Prop :=
    eof p n e /\ n <> 0 \/ e = bad /\ (n = 0 \/ p + n <= blen f) /\ ~ utf (slice f p n).
  Lemma tri_utf8 : forall n p, n < 2 ^ 63 -> tri (read_utf8 n) p (text_err EUtf8 is_utf8 p n) (fun _ q => q = p + n /\ (n = 0 \/ q <= blen f)).
  Proof.
    intros n p L. unfold read_utf8. eapply tri_bind; [eapply tri_weak; [apply tri_vec, L|intros e H; now left|intros b q H; exact H]|].
    intros b q (-> & -> & H). destruct (dec8 _) eqn:E; [apply tri_ret; auto|]. apply tri_fail. right. split; [reflexivity|]. split; [exact H|now apply is_utf8_dec].
  Qed.
  Lemma tri_utf16 : forall n p, n < 2 ^ 63 -> tri (read_utf16 n) p (text_err EUtf16 is_utf16 p n) (fun _ q => q = p + n).
  Proof.
    intros n p L. unfold read_utf16. eapply tri_bind; [eapply tri_weak; [apply tri_vec, L|intros e H; now left|intros b q H; exact H]|].
    intros b q (-> & -> & H). destruct (dec16 _) eqn:E; [now apply tri_ret|]. apply tri_fail. right. split; [reflexivity|]. split; [exact H|now apply is_utf16_dec].
  Qed.

  (** * Described programs *)

  Definition told (ns : list fourcc) (e : err) (t : ustring) : Prop := exists ns' s, cause f (ns ++ ns') e s /\ t = says ns' s.
  Definition dpost {A} (ns : list fourcc) (x : D A) (p : N) (Q : A -> N -> Prop) : Prop :=
    flaw f \/ match x f p with DOk (a, p') => Q a p' | DErr e t => told ns e t | _ => True end.
  Lemma told_here : forall ns e t, cause f ns e t -> told ns e t.
  Proof. intros ns e t H. exists [], t. rewrite app_nil_r. auto. Qed.
  Lemma dp_bind : forall {A B} ns (x : D A) (k : A -> D B) p Q S, dpost ns x p Q -> (forall a p', Q a p' -> dpost ns (k a) p' S) -> dpost ns (dbind x k) p S.
  Proof. intros A B ns x k p Q S [H|H] K; [now left|]. unfold dpost, dbind. destruct (x f p) as [[a p']|e t|q|]; try (right; exact H); try (right; exact I). apply K, H. Qed.
  Lemma dp_weak : forall {A} ns (x : D A) p (Q Q' : A -> N -> Prop), dpost ns x p Q -> (forall a p', Q a p' -> Q' a p') -> dpost ns x p Q'.
  Proof. intros A ns x p Q Q' [H|H] K; [now left|]. right. destruct (x f p) as [[a p']|e t|q|]; auto. Qed.
  Lemma dp_ret : forall {A} ns (a : A) p (Q : A -> N -> Prop), Q a p -> dpost ns (dret a) p Q. Proof. intros. now right. Qed.
  Lemma dp_fail : forall {A} ns e t p (Q : A -> N -> Prop), cause f ns e t -> dpost ns (dfail e t) p Q. Proof. intros. right. now apply told_here. Qed.
  Lemma dp_flaw : forall {A} ns (x : D A) p (Q : A -> N -> Prop), flaw f -> dpost ns x p Q. Proof. intros. now left. Qed.
  Lemma dp_saying : forall {A} ns t (x : R A) p E Q, tri x p E Q -> (forall e, E e -> cause f ns e t) -> dpost ns (saying t x) p Q.
  Proof. intros A ns t x p E Q [H|H] K; [now left|]. right. unfold saying. destruct (x f p) as [[a p']|e|q|]; auto using told_here. Qed.
  Lemma dp_plainly : forall {A} ns (x : R A) p E Q, tri x p E Q -> (forall e, E e -> cause f ns e (from_text e)) -> dpost ns (plainly x) p Q.
  Proof. intros A ns x p E Q [H|H] K; [now left|]. right. unfold plainly. destruct (x f p) as [[a p']|e|q|]; auto using told_here. Qed.
  Lemma dp_lift : forall {A} ns (r : res A) p a, flaw f \/ r = Ok a -> dpost ns (plainly (lift r)) p (fun x q => x = a /\ q = p).
  Proof. intros A ns r p a H. eapply (dp_plainly ns _ _ (fun _ => False)); [now apply tri_lift|]. intros e []. Qed.
  Lemma dp_near : forall ns (n : N) p, p <= blen f -> n < 2 ^ 30 -> dpost ns (plainly (seek_cur (Z.of_N n))) p (fun _ q => q = p + n).
  Proof. intros ns n p L Ln. eapply dp_plainly; [apply tri_seek_near; assumption|]. intros e []. Qed.
  Lemma dp_parsing : forall {A} ns i (x : D A) p Q, dpost (ns ++ [i]) x p Q -> dpost ns (parsing i x) p Q.
  Proof.
    intros A ns i x p Q [H|H]; [now left|]. right. unfold parsing. destruct (x f p) as [[a p']|e t|q|]; auto.
    destruct H as (ns' & s & C & ->). exists (i :: ns'), s. split; [|reflexivity]. now rewrite <- app_assoc in C.
  Qed.

  Lemma field4 : forall q, field f q 4 = unbe (slice f q 4). Proof. reflexivity. Qed.
  Lemma fc_slice : forall q, q + 4 <= blen f -> bytes_text (slice f q 4) = fc_text (fourcc_of_bytes (slice f q 4)).
  Proof.
    intros q L. assert (B : List.length (slice f q 4) = 4%nat) by (pose proof (blen_slice f q 4 L) as B; unfold blen in B; lia).
    destruct (slice f q 4) as [|a [|b [|c [|d [|? ?]]]]]; try discriminate. reflexivity.
  Qed.
  Lemma dp_head : forall ns p, head_place f ns p -> dpost ns d_head p (fun h q => head_at f p h /\ q = p + head_len (hd_size h)).
  Proof.
    intros ns p HP.
    assert (G : dpost ns d_head p (fun _ _ => True)).
    { unfold d_head. eapply dp_bind; [eapply dp_saying; [apply tri_u32|intros e [-> L]; now apply (Cut_size _ _ p)]|]. cbv beta. intros v q (-> & -> & L1).
      eapply dp_bind; [eapply dp_saying; [apply tri_read|intros e [-> L]; apply (Cut_name _ _ p); [exact HP|lia]]|]. cbv beta. intros b q (-> & -> & L2). cbv zeta.
      destruct (field f p 4 =? 1) eqn:E1.
      - eapply dp_bind; [eapply dp_saying; [apply tri_u64|intros e [-> L]; apply (Cut_long_size _ _ p); [exact HP|lia|lia]]|]. intros. now apply dp_ret.
      - destruct (field f p 4 <? 8) eqn:E8; [|now apply dp_ret]. rewrite <- fc_slice by lia. apply dp_fail. apply (Small_size _ _ p); [exact HP|lia|lia|lia]. }
    destruct G as [G|G]; [now left|]. right. pose proof (DescribedIs.same_head f p) as Sm.
    destruct (d_head f p) as [[h q]|e t|x|]; auto. cbn [undress] in Sm. symmetry in Sm. apply parse_head_inv in Sm. destruct Sm as [-> B]. split; [exact B|reflexivity].
  Qed.
  Lemma dp_full : forall ns p, (exists s, version_place f ns p s) \/ header_place f ns p ->
    dpost ns d_full p (fun v q => v = (field f p 1, slice f (p + 1) 3) /\ q = p + 4 /\ q <= blen f).
  Proof.
    intros ns p V. unfold d_full. eapply dp_bind; [eapply dp_saying; [apply tri_u8|intros e [-> L]; now apply (Cut_version _ _ p)]|]. cbv beta. intros v q (-> & -> & L1).
    eapply dp_bind; [eapply dp_saying; [apply tri_read|intros e [-> L]; apply (Cut_flags _ _ p); [exact V|lia]]|]. cbv beta. intros b q (-> & -> & L2).
    apply dp_ret. split; [reflexivity|lia].
  Qed.

  (** * Boxes *)

  (** A box with the head [h] is visited at [q]. *)
  Definition spot (w : standing) (q : N) (h : head) : Prop := (exists l k w', w = (l, k) :: w' /\ 0 < k) /\ sees f w q /\ head_at f q h.
  Lemma spot_seen : forall w q h id, spot w q h -> fourcc_eqb (hd_fourcc h) id = true -> seen f w q id (head_len (hd_size h)) (sz_len (hd_size h)).
  Proof. intros w q h id ((l & k & w' & -> & K) & S & H) E. exists l, k, w'. split; [reflexivity|]. split; [exact S|]. split; [exact K|]. now apply fourcc_is. Qed.
  Lemma spot_any : forall w q h, spot w q h -> seen f w q (hd_fourcc h) (head_len (hd_size h)) (sz_len (hd_size h)).
  Proof. intros w q h H. apply (spot_seen w q h); [exact H|]. apply fourcc_eqb_eq. reflexivity. Qed.
  Lemma spot_place : forall w q h, spot w q h -> exists w', place f w' q h /\ lv w' = inner w.
  Proof. intros w q h (_ & S & H). destruct (sees_looks _ _ _ S) as (w' & L & E). exists w'. split; [split; assumption|]. now apply ends_inner in E. Qed.
  Lemma spot_sound : forall w q h, spot w q h ->
    flaw f \/ content_len m (hd_size h) = Ok (sz_len (hd_size h) - head_len (hd_size h)) /\ head_len (hd_size h) <= sz_len (hd_size h) < 2 ^ 63.
  Proof. intros w q h H. destruct (spot_place w q h H) as (w' & P & _). now apply (head_sound m f Lf w' q). Qed.
  Lemma spot_in : forall w q h, spot w q h -> q + head_len (hd_size h) <= blen f.
  Proof. intros w q h (_ & _ & H). exact (proj1 H). Qed.
  Lemma dp_content : forall ns w q h p, spot w q h -> dpost ns (plainly (lift (content_len m (hd_size h)))) p
    (fun c p' => p' = p /\ c = sz_len (hd_size h) - head_len (hd_size h) /\ head_len (hd_size h) <= sz_len (hd_size h) < 2 ^ 63).
  Proof.
    intros ns w q h p H. destruct (spot_sound w q h H) as [F|[E S]]; [now left|].
    eapply dp_weak; [apply dp_lift; right; exact E|]. cbv beta. intros c p' [-> ->]. auto.
  Qed.
  (** Behind it. *)
  Definition after {A} (w : standing) (h : head) (_ : A) (p : N) : Prop := match w with [] => False | (l, k) :: w' => sees f ((l, k - sz_len (hd_size h)) :: w') p end.
  Lemma after_leaf : forall {A} w q h (a : A), spot w q h -> opens (inner w) (hd_fourcc h) = None -> after w h a (q + sz_len (hd_size h)).
  Proof. intros A w q h a ((l & k & w' & -> & K) & S & H) O. cbn [after]. eapply Sees_past; [exact S|exact K|exact H|exact O]. Qed.
  Lemma dp_skip : forall w q h, spot w q h -> opens (inner w) (hd_fourcc h) = None -> own (inner w) (hd_fourcc h) = [] ->
    dpost (trail w) (plainly (skip_atom m h)) (q + head_len (hd_size h)) (fun _ p => p = q + sz_len (hd_size h)).
  Proof.
    intros w q h H O W. destruct (spot_sound w q h H) as [F|[E S]]; [now left|].
    eapply dp_plainly with (E := fun e => e = EIoSeek /\ 2 ^ 63 <= q + sz_len (hd_size h)).
    - unfold skip_atom. eapply tri_bind; [apply tri_lift; right; exact E|]. cbv beta. intros c p [-> ->].
      eapply tri_weak; [apply tri_seek_on; lia|cbv beta; intros e [-> L]; split; [reflexivity|lia]|cbv beta; intros; lia].
    - intros e [-> L]. replace (trail w) with (trail w ++ own (inner w) (hd_fourcc h)) by (rewrite W; apply app_nil_r).
      eapply Too_far; [apply spot_any; exact H|exact O|exact L].
  Qed.

  Lemma trail_under : forall l k l0 k1 k0 w0, trail ((l, k) :: (l0, k1) :: w0) = trail ((l0, k0) :: w0) ++ level_name l.
  Proof. intros. rewrite trail_cons. f_equal. now rewrite !trail_cons. Qed.
  Lemma sees_left : forall l k w q, sees f ((l, k) :: w) q -> forall k', k = k' -> sees f ((l, k') :: w) q.
  Proof. intros l k w q H k' <-. exact H. Qed.
  (** A loop over the boxes of a container. *)
  Lemma dloop : forall {S} (limit : res N) (body : head -> S -> D S) (J : S -> N -> N -> Prop) l w lim ns, (flaw f \/ limit = Ok lim /\ lim < 2 ^ 63) -> (forall k, trail ((l, k) :: w) = ns) ->
    (forall h s q k, spot ((l, k) :: w) q h -> J s k q -> dpost ns (body h s) (q + head_len (hd_size h)) (fun s' p => after ((l, k) :: w) h s' p /\ J s' (k - sz_len (hd_size h)) p)) ->
    forall fuel parsed s p, sees f ((l, lim - parsed) :: w) p -> J s (lim - parsed) p ->
    dpost ns (d_loop fuel m limit body parsed s) p (fun s' p' => sees f ((l, 0) :: w) p' /\ J s' 0 p').
  Proof.
    intros S limit body J l w lim ns [F|[-> Ll]] T B; [intros; now left|]. induction fuel as [|fuel IH]; intros parsed s p K I0; cbn [d_loop]; [right; exact I|].
    eapply dp_bind; [apply dp_lift; now right|]. cbv beta. intros l' p' [-> ->]. destruct (parsed <? lim) eqn:E; [|apply dp_ret; replace 0 with (lim - parsed) by lia; split; assumption].
    eapply dp_bind; [apply dp_head; rewrite <- (T (lim - parsed)); apply In_container; [exact K|right; lia]|]. intros h p1 [H ->].
    assert (P : spot ((l, lim - parsed) :: w) p h) by (split; [exists l, (lim - parsed), w; split; [reflexivity|lia]|split; assumption]).
    eapply dp_bind; [apply B; [exact P|exact I0]|]. cbv beta. intros s' p2 [K2 J2]. cbn [after] in K2.
    destruct (spot_sound _ p h P) as [F|[_ Sz]]; [now left|].
    eapply dp_bind; [apply (dp_lift _ _ _ (parsed + sz_len (hd_size h)))|].
    { right. unfold add64. assert (W : two64 = 2 * 2 ^ 63) by reflexivity. destruct (parsed + sz_len (hd_size h) <? two64) eqn:X; [reflexivity|]. rewrite W in X. lia. }
    cbv beta. intros x p3 [-> ->]. replace (lim - parsed - sz_len (hd_size h)) with (lim - (parsed + sz_len (hd_size h))) in * by lia. apply IH; assumption.
  Qed.
  (** The content of a box whose first [d] bytes have been read. *)
  Lemma dcontainer : forall {S} w q h l d (body : head -> S -> D S), spot w q h -> opens (inner w) (hd_fourcc h) = Some (l, d) -> l <> InMoov ->
    (forall h' s q' k w', spot ((l, k) :: w') q' h' -> dpost (trail ((l, k) :: w')) (body h' s) (q' + head_len (hd_size h')) (after ((l, k) :: w') h')) ->
    forall fuel s, dpost (trail w ++ level_name l) (d_loop fuel m (content_len m (hd_size h)) body d s) (q + head_len (hd_size h) + d) (after w h).
  Proof.
    intros S w q h l d body P O W B fuel s. pose proof P as ((l0 & k0 & w0 & -> & K0) & Sw & H). destruct (spot_sound _ q h P) as [F|[E Sz]]; [now left|].
    eapply dp_weak.
    - apply (dloop _ body (fun _ _ _ => True) l ((l0, k0 - sz_len (hd_size h)) :: w0) (sz_len (hd_size h) - head_len (hd_size h))); [right; split; [exact E|lia]| | | |exact I].
      + intros k. apply trail_under.
      + intros h' s' q' k P' _. eapply dp_weak; [|intros a p Ha; split; [exact Ha|exact I]].
        pose proof (B h' s' q' k _ P') as B'. now rewrite (trail_under _ _ _ _ k0) in B'.
      + eapply Sees_into; [exact Sw|exact K0|exact H|exact O].
    - cbv beta. intros x p [Kp _]. cbn [after]. eapply Sees_out; [exact Kp|exact W].
  Qed.
  Lemma dbox0 : forall {S} w q h l (body : head -> S -> D S), spot w q h -> opens (inner w) (hd_fourcc h) = Some (l, 0) -> l <> InMoov ->
    (forall h' s q' k w', spot ((l, k) :: w') q' h' -> dpost (trail ((l, k) :: w')) (body h' s) (q' + head_len (hd_size h')) (after ((l, k) :: w') h')) ->
    forall fuel s, dpost (trail w ++ level_name l) (d_loop fuel m (content_len m (hd_size h)) body 0 s) (q + head_len (hd_size h)) (after w h).
  Proof. intros S w q h l body P O W B fuel s. replace (q + head_len (hd_size h)) with (q + head_len (hd_size h) + 0) by lia. now apply dcontainer. Qed.
  (** Children called [id] are parsed, the others skipped. *)
  Lemma dchild : forall {A B} (id : fourcc) w h (x : D A) (g : A -> B) (r : B) q, spot w q h ->
    (fourcc_eqb (hd_fourcc h) id = false -> opens (inner w) (hd_fourcc h) = None /\ own (inner w) (hd_fourcc h) = []) ->
    (fourcc_eqb (hd_fourcc h) id = true -> dpost (trail w ++ [id]) x (q + head_len (hd_size h)) (after w h)) ->
    dpost (trail w) (if fourcc_eqb (hd_fourcc h) id then (y <# parsing id x ;; dret (g y)) else (plainly (skip_atom m h) ;#; dret r)) (q + head_len (hd_size h)) (after w h).
  Proof.
    intros A B id w h x g r q H O X. destruct (fourcc_eqb (hd_fourcc h) id).
    - eapply dp_bind; [apply dp_parsing, X; reflexivity|]. intros a p Hb. apply dp_ret. exact Hb.
    - destruct (O eq_refl) as [O1 O2]. eapply dp_bind; [apply (dp_skip w q); assumption|]. cbv beta. intros a p ->. apply dp_ret. now apply after_leaf.
  Qed.

  (** * Items *)

  Lemma type_field : forall q, unbe (slice f (q + 1) 3) = field f (q + 1) 3. Proof. reflexivity. Qed.
  Lemma ddata : forall w q h, spot w q h -> inner w = InItem -> fourcc_eqb (hd_fourcc h) (id4 "data") = true -> q + head_len (hd_size h) + 4 <= blen f -> head_len (hd_size h) + 8 <= sz_len (hd_size h) < 2 ^ 63 ->
    dpost (trail w) (d_data (field f (q + head_len (hd_size h) + 1) 3) (sz_len (hd_size h) - head_len (hd_size h) - 8)) (q + head_len (hd_size h) + 8) (fun _ p => p = q + sz_len (hd_size h)).
  Proof.
    intros w q h P Iw E L Sz. pose proof (spot_seen _ _ _ _ P E) as Sn. set (hl := head_len (hd_size h)) in *. set (sz := sz_len (hd_size h)) in *.
    assert (V : forall g : bytes -> data, dpost (trail w) (v <# plainly (read_u8_vec (sz - hl - 8)) ;; dret (g v)) (q + hl + 8) (fun _ p => p = q + sz)).
    { intros g. eapply dp_bind; [eapply dp_plainly; [apply tri_vec; lia|]|].
      - intros e [[-> Le] Ne]. cbn [from_text]. eapply Cut_value; [exact Sn|exact Iw|lia|lia].
      - cbv beta. intros b p (_ & -> & _). apply dp_ret. lia. }
    destruct (in_dec N.eq_dec (field f (q + hl + 1) 3) [0; 1; 2; 13; 14; 21; 27]) as [Y|Y].
    - assert (T8 : field f (q + hl + 1) 3 = 1 -> dpost (trail w) (s <# plainly (read_utf8 (sz - hl - 8)) ;; dret (DUtf8 s)) (q + hl + 8) (fun _ p => p = q + sz)).
      { intros T. eapply dp_bind; [eapply dp_plainly; [apply tri_utf8; lia|]|].
        - intros e [[[-> Le] Ne]|(-> & Le & U)]; cbn [from_text]; [eapply Cut_value; [exact Sn|exact Iw|lia|lia]|].
          destruct (N.lt_ge_cases (blen f) (q + sz)) as [C|C]; [exfalso; destruct Le as [Le|Le]; [|lia]|eapply Bad_value; [exact Sn|exact Iw|exact C|exact T|exact U]].
          apply U. exists []. split; [reflexivity|]. rewrite Le. reflexivity.
        - cbv beta. intros b p [-> _]. apply dp_ret. lia. }
      assert (T16 : field f (q + hl + 1) 3 = 2 -> dpost (trail w) (s <# plainly (read_utf16 (sz - hl - 8)) ;; dret (DUtf16 s)) (q + hl + 8) (fun _ p => p = q + sz)).
      { intros T. eapply dp_bind; [eapply dp_plainly; [apply tri_utf16; lia|]|].
        - intros e [[[-> Le] Ne]|(-> & Le & U)]; cbn [from_text]; [eapply Cut_value; [exact Sn|exact Iw|lia|lia]|].
          destruct (N.lt_ge_cases (blen f) (q + sz)) as [C|C]; [exfalso; destruct Le as [Le|Le]; [|lia]|eapply Bad_value16; [exact Sn|exact Iw|exact C|exact T|exact U]].
          apply U. exists [], []. split; [reflexivity|]. rewrite Le. split; [reflexivity|now left].
        - cbv beta. intros b p ->. apply dp_ret. lia. }
      cbn [In] in Y. unfold d_data. destruct Y as [Y|[Y|[Y|[Y|[Y|[Y|[Y|[]]]]]]]]; rewrite <- Y; try apply V; [apply T8|apply T16]; congruence.
    - assert (X : d_data (field f (q + hl + 1) 3) (sz - hl - 8) = dfail (EUnknownDataType (field f (q + hl + 1) 3)) (txt "Unknown datatype code")).
      { clear - Y. remember (field f (q + hl + 1) 3) as t eqn:Et. clear Et. unfold d_data. cbn [In] in Y.
        repeat match goal with |- context [match ?x with _ => _ end] => is_var x; destruct x end; try reflexivity; exfalso; apply Y; auto 10. }
      rewrite X. apply dp_fail. eapply Bad_kind; [exact Sn|exact Iw|exact L|exact Y].
  Qed.
  Lemma ditem : forall l k w0 h a q, spot ((l, k) :: w0) q h -> l = InItem -> dpost (trail ((l, k) :: w0)) (d_item_body m h a) (q + head_len (hd_size h))
    (fun a' p => p = q + sz_len (hd_size h) /\ (ia_data a' = [] -> ia_data a = [] /\ hd_fourcc h <> id4 "data")).
  Proof.
    intros l k w0 h a q P El. set (w := (l, k) :: w0) in *. assert (Iw : inner w = InItem) by exact El.
    destruct (spot_place w q h P) as (w' & [K H] & Lv). rewrite Iw in Lv.
    destruct (spot_sound w q h P) as [F|[_ Sz0]]; [now left|].
    unfold d_item_body. cbv zeta. destruct (fourcc_eqb (hd_fourcc h) DATA) eqn:ED.
    { assert (V : version_place f (trail w) (q + head_len (hd_size h)) "Error reading data atom (data)") by (eapply Of_value; [exact (spot_seen _ _ _ _ P ED)|exact Iw|now left]).
      eapply dp_bind; [apply dp_full; left; eauto|]. cbv beta. intros vf p1 (-> & -> & L1). cbn [fst snd]. destruct (negb _) eqn:EV; [apply dp_fail; eapply Bad_version; [exact V|lia|lia]|].
      eapply dp_bind; [apply (dp_near _ 4); [lia|reflexivity]|]. cbv beta. intros u p2 ->.
      eapply dp_bind; [apply (dp_content _ w q), P|]. cbv beta. intros c p3 (-> & -> & Sz).
      destruct (N.lt_ge_cases (sz_len (hd_size h)) (head_len (hd_size h) + 8)) as [C|C]; [left; eapply Short_value; [exact K|exact Lv|exact (fourcc_is _ _ _ _ H ED)|exact C]|].
      eapply dp_bind; [apply (dp_lift _ _ _ (sz_len (hd_size h) - head_len (hd_size h) - 8)); right; unfold sub64; destruct (8 <=? _) eqn:X; [reflexivity|lia]|].
      cbv beta. intros n p4 [-> ->]. rewrite type_field. replace (q + head_len (hd_size h) + 4 + 4) with (q + head_len (hd_size h) + 8) by lia.
      eapply dp_bind; [apply (ddata w q h); [exact P|exact Iw|exact ED|exact L1|lia]|]. cbv beta. intros d p5 ->. apply dp_ret. split; [reflexivity|].
      cbn [ia_data]. intros N. destruct (ia_data a); discriminate. }
    assert (ND : hd_fourcc h <> id4 "data") by (intros N; rewrite N in ED; discriminate).
    assert (T : forall id g, In id [id4 "mean"; id4 "name"] -> (forall s, ia_data (g s) = ia_data a) -> fourcc_eqb (hd_fourcc h) id = true -> dpost (trail w) (
        vf <# d_full ;; (if negb (fst vf =? 0) then dfail (EUnknownVersion (fst vf)) (txt "Error reading data atom (data)") else
        c <# plainly (lift (content_len m (hd_size h))) ;; n <# plainly (lift (sub64 m c 4)) ;; s <# plainly (read_utf8 n) ;; dret (g s))) (q + head_len (hd_size h))
        (fun a' p => p = q + sz_len (hd_size h) /\ (ia_data a' = [] -> ia_data a = [] /\ hd_fourcc h <> id4 "data"))).
    { intros id g Hi Hg EI. pose proof (spot_seen _ _ _ _ P EI) as Sn. assert (In id [id4 "data"; id4 "mean"; id4 "name"]) as Hi3 by (right; exact Hi).
      assert (V : version_place f (trail w) (q + head_len (hd_size h)) "Error reading data atom (data)") by (eapply Of_value; [exact Sn|exact Iw|exact Hi3]).
      eapply dp_bind; [apply dp_full; left; eauto|]. cbv beta. intros vf p1 (-> & -> & L1). cbn [fst snd]. destruct (negb _) eqn:EV; [apply dp_fail; eapply Bad_version; [exact V|lia|lia]|].
      eapply dp_bind; [apply (dp_content _ w q), P|]. cbv beta. intros c p3 (-> & -> & Sz).
      destruct (N.lt_ge_cases (sz_len (hd_size h)) (head_len (hd_size h) + 4)) as [C|C].
      { left. eapply Short_text; [exact K|exact Lv|exact (fourcc_is _ _ _ _ H EI)| |exact C]. destruct Hi as [<-|[<-|[]]]; auto. }
      eapply dp_bind; [apply (dp_lift _ _ _ (sz_len (hd_size h) - head_len (hd_size h) - 4)); right; unfold sub64; destruct (4 <=? _) eqn:X; [reflexivity|lia]|].
      cbv beta. intros n p4 [-> ->]. eapply dp_bind; [eapply dp_plainly; [apply tri_utf8; lia|]|].
      - intros e [[[-> Le] Ne]|(-> & Le & U)]; cbn [from_text]; [eapply Cut_name_value; [exact Sn|exact Iw|exact Hi|lia]|].
        destruct (N.lt_ge_cases (blen f) (q + sz_len (hd_size h))) as [D|D]; [exfalso; destruct Le as [Le|Le]; [|lia]|eapply Bad_name; [exact Sn|exact Iw|exact Hi|exact D|exact U]].
        apply U. exists []. split; [reflexivity|]. rewrite Le. reflexivity.
      - cbv beta. intros s p [-> _]. apply dp_ret. split; [lia|]. rewrite Hg. auto. }
    destruct (fourcc_eqb (hd_fourcc h) MEAN) eqn:EM; [apply (T MEAN); [now left|reflexivity|exact EM]|].
    destruct (fourcc_eqb (hd_fourcc h) NAME) eqn:EN; [apply (T NAME); [right; now left|reflexivity|exact EN]|].
    eapply dp_bind; [apply (dp_skip w q); [exact P|rewrite Iw; reflexivity|rewrite Iw; reflexivity]|]. cbv beta. intros u p1 ->. apply dp_ret. auto.
  Qed.
  Lemma dilst_body : forall fuel k w0 h l q, spot ((InIlst, k) :: w0) q h -> dpost (trail ((InIlst, k) :: w0)) (d_ilst_body fuel m h l) (q + head_len (hd_size h)) (after ((InIlst, k) :: w0) h).
  Proof.
    intros fuel k w0 h l q P. set (w := (InIlst, k) :: w0) in *. unfold d_ilst_body. destruct (fourcc_eqb _ FREE) eqn:EF.
    { assert (O : opens InIlst (hd_fourcc h) = None) by (unfold opens; change (id4 "free") with FREE; now rewrite EF).
      eapply dp_bind; [apply (dp_skip w q); [exact P|exact O|reflexivity]|]. cbv beta. intros u p1 ->. apply dp_ret. now apply after_leaf. }
    assert (O : opens InIlst (hd_fourcc h) = Some (InItem, 0)) by (unfold opens; change (id4 "free") with FREE; now rewrite EF).
    eapply dp_bind; [apply (dp_content _ w q), P|]. cbv beta. intros c p (-> & -> & Sz). apply (dp_bind _ _ _ _ (after w h)).
    - pose proof P as (_ & Sw & H). unfold d_item. set (e := q + sz_len (hd_size h)).
      apply (dp_bind _ _ _ _ (fun a p => sees f ((InItem, 0) :: (InIlst, k - sz_len (hd_size h)) :: w0) p /\ (ia_data a = [] -> no_value f e (q + head_len (hd_size h))))).
      + eapply dp_weak.
        * apply (dloop _ _ (fun a n p => (0 < n -> p + n = e) /\ (n = 0 -> e <= p) /\ (ia_data a = [] -> no_value f e p -> no_value f e (q + head_len (hd_size h))))
            InItem ((InIlst, k - sz_len (hd_size h)) :: w0) (sz_len (hd_size h) - head_len (hd_size h))); [right; split; [reflexivity|lia]| | | |].
          -- intros n. rewrite (trail_under _ _ _ _ k). apply app_nil_r.
          -- intros h' s q' n P' (J1 & J2 & J3). assert (N0 : 0 < n) by (destruct P' as ((? & ? & ? & X & Y) & _); injection X as _ -> _; exact Y).
             eapply dp_weak; [|intros a' p Hp; exact Hp].
             eapply dp_weak; [pose proof (ditem _ _ _ h' s q' P' eq_refl) as B; rewrite (trail_under _ _ _ _ k), app_nil_r in B; exact B|].
             cbv beta. intros a' p [-> Hd]. split; [now apply after_leaf|]. split; [lia|]. split; [lia|]. intros Na Nv. destruct (Hd Na) as [Ns Nh].
             apply J3; [exact Ns|]. eapply Other_box; [lia|exact (proj2 (proj2 P'))|exact Nh|exact Nv].
          -- replace (q + head_len (hd_size h)) with (q + head_len (hd_size h) + 0) by lia. eapply Sees_into; [exact Sw|destruct P as ((? & ? & ? & X & Y) & _); injection X as _ -> _; exact Y|exact H|exact O].
          -- split; [lia|]. split; [lia|auto].
        * cbv beta. intros a p (Sp & J1 & J2 & J3). split; [exact Sp|]. intros Na. apply J3; [exact Na|]. apply Nothing_left. now apply J2.
      + intros a p [Sp Nv]. destruct (ia_data a) eqn:Ea.
        * apply dp_fail. change (fc_text (hd_fourcc h)) with (bytes_text (fc_bytes (hd_fourcc h))). eapply No_value; [apply spot_any; exact P|reflexivity| |apply Nv; reflexivity].
          intros N. rewrite N in EF. discriminate.
        * apply dp_ret. unfold w. cbn [after]. eapply Sees_out; [exact Sp|discriminate].
    - intros a p1 Hb. apply dp_ret. exact Hb.
  Qed.
  Lemma dilst : forall fuel w q h, spot w q h -> inner w = InMeta -> fourcc_eqb (hd_fourcc h) ITEM_LIST = true -> dpost (trail w ++ [ITEM_LIST]) (d_ilst fuel m (hd_size h)) (q + head_len (hd_size h)) (after w h).
  Proof.
    intros fuel w q h P Iw E. unfold d_ilst. apply (dbox0 w q h InIlst); [exact P| |discriminate|].
    - rewrite Iw. unfold opens. change (id4 "ilst") with ITEM_LIST. now rewrite E.
    - intros. now apply dilst_body.
  Qed.
  Lemma dmeta : forall fuel w q h, spot w q h -> inner w = InUdta -> fourcc_eqb (hd_fourcc h) METADATA = true -> dpost (trail w ++ [METADATA]) (d_meta fuel m (hd_size h)) (q + head_len (hd_size h)) (after w h).
  Proof.
    intros fuel w q h P Iw E. unfold d_meta.
    assert (V : version_place f (trail w ++ [METADATA]) (q + head_len (hd_size h)) "Unknown metadata (meta) version") by (eapply Of_meta; [exact (spot_seen _ _ _ _ P E)|exact Iw]).
    eapply dp_bind; [apply dp_full; left; eauto|]. cbv beta. intros vf p1 (-> & -> & L1). cbn [fst snd]. destruct (negb _) eqn:EV; [apply dp_fail; eapply Bad_version; [exact V|lia|lia]|].
    apply (dcontainer w q h InMeta 4); [exact P| |discriminate|].
    - rewrite Iw. unfold opens. change (id4 "meta") with METADATA. now rewrite E.
    - intros h' s q' k w' P'. unfold d_meta_body. apply dchild; [exact P'| |].
      + intros N. cbn [inner]. split; [|reflexivity]. unfold opens. change (id4 "ilst") with ITEM_LIST. now rewrite N.
      + intros Y. apply dilst; [exact P'|reflexivity|exact Y].
  Qed.
  Lemma dudta : forall fuel w q h, spot w q h -> inner w = InMoov -> fourcc_eqb (hd_fourcc h) USER_DATA = true ->
    opens InMoov (hd_fourcc h) = Some (InUdta, 0) -> dpost (trail w ++ [USER_DATA]) (d_udta fuel m (hd_size h)) (q + head_len (hd_size h)) (after w h).
  Proof.
    intros fuel w q h P Iw E O. unfold d_udta. apply (dbox0 w q h InUdta); [exact P|now rewrite Iw|discriminate|].
    intros h' s q' k w' P'. unfold d_udta_body. apply dchild; [exact P'| |].
    - intros N. cbn [inner]. split; [|reflexivity]. unfold opens. change (id4 "meta") with METADATA. now rewrite N.
    - intros Y. apply dmeta; [exact P'|reflexivity|exact Y].
  Qed.

  (** * Descriptors *)

  Lemma tri_post : forall {A} (x : R A) p E Q, tri x p E (fun _ _ => True) -> post f x p Q -> tri x p E Q.
  Proof. intros A x p E Q [H|H] [K|K]; try (now left). right. destruct (x f p) as [[a p']|e|r|]; auto. Qed.
  Definition no_desc (q : N) : Prop := forall tag n len, ~ descriptor_at f q tag n len.
  Lemma no_desc_cut : forall q i, slice f (q + 1) (blen i) = i -> Forall (fun b => 128 <= b2n b) i -> blen i <= 3 -> blen f < q + 1 + blen i + 1 -> no_desc q.
  Proof.
    intros q i Si Fi Li L tag n len (Ln & _ & j & z & Sj & Hn & _ & Dz & _).
    assert (Bj : blen (j ++ [z]) = blen j + 1) by (rewrite blen_app; reflexivity).
    assert (E : i = (j ++ [z]) ++ slice f (q + 1 + (blen j + 1)) (blen i - (blen j + 1))).
    { rewrite <- Sj. replace (n - 1) with (blen j + 1) by lia. rewrite <- ReadTerm.slice_split by lia. now rewrite Si. }
    assert (Z : 128 <= b2n z). { rewrite E in Fi. apply Forall_app in Fi. destruct Fi as [Fi _]. apply Forall_app in Fi. destruct Fi as [_ Fi]. now inversion Fi. }
    destruct Dz as [[_ Dz]|Dz]; lia.
  Qed.
  Lemma tri_len7 : forall k q i, slice f (q + 1) (blen i) = i -> Forall (fun b => 128 <= b2n b) i -> blen i + N.of_nat k = 4 ->
    forall hl acc, tri (desc_len_loop k hl acc) (q + 1 + blen i) (fun e => e = EIoEof /\ no_desc q) (fun _ _ => True).
  Proof.
    induction k as [|k IH]; intros q i Si Fi Lk hl acc; cbn [desc_len_loop]; [now apply tri_ret|].
    eapply tri_bind; [eapply tri_weak; [apply tri_u8|intros e [-> L]; split; [reflexivity|]; now apply (no_desc_cut q i Si Fi ltac:(lia))|intros a p H; exact H]|].
    intros v p (-> & -> & L). cbv zeta. destruct (slice_one f Lf (q + 1 + blen i) ltac:(lia)) as [z Hz].
    assert (V : field f (q + 1 + blen i) 1 = b2n z) by (unfold field; rewrite Hz; unfold unbe; cbn; lia). rewrite V.
    destruct (b2n z <? 128) eqn:C; [now apply tri_ret|].
    replace (q + 1 + blen i + 1) with (q + 1 + blen (i ++ [z])) by (rewrite blen_app; change (blen [z]) with 1; lia).
    apply IH.
    - rewrite blen_app. change (blen [z]) with 1. rewrite (slice_snoc f Lf) by lia. now rewrite Si, Hz.
    - apply Forall_app. split; [exact Fi|]. constructor; [lia|constructor].
    - rewrite blen_app. change (blen [z]) with 1. lia.
  Qed.
  Lemma tri_desc_head : forall q, tri parse_desc_head q (fun e => e = EIoEof /\ no_desc q) (fun h p => let '(tag, n, len) := h in p = q + n /\ descriptor_at f q tag n len).
  Proof.
    intros q. apply tri_post; [|apply post_desc_head; assumption]. unfold parse_desc_head.
    eapply tri_bind; [eapply tri_weak; [apply tri_u8|intros e [-> L]; split; [reflexivity|]|intros a p H; exact H]|].
    - intros tag n len (Ln & _ & i & z & _ & -> & _). lia.
    - cbv beta. intros v p (-> & -> & L). eapply tri_bind; [|intros; now apply tri_ret].
      replace (q + 1) with (q + 1 + blen (@nil byte)) by (change (blen (@nil byte)) with 0; lia). apply tri_len7; [reflexivity|constructor|reflexivity].
  Qed.
  Section Entry.
    Context (w0 : standing) (p0 a0 d0 e0 : N) (En : esds_place f w0 p0 a0 d0 e0).
    Let ns := trail w0 ++ [MP4_AUDIO].

    Lemma place_entry : exists size size', entry_at f p0 size a0 size' d0 /\ e0 = a0 + size'.
    Proof.
      destruct En as (hd & sz & hd' & sz' & (l & k & w' & -> & Sw & K & B) & Iw & Ea & B' & Ed & Ee).
      destruct (sees_looks _ _ _ Sw) as (w & Lw & E). exists sz, sz'. split; [|exact Ee]. exists w, hd, hd'.
      split; [exact Lw|]. split; [apply ends_inner in E; rewrite E; exact Iw|]. auto.
    Qed.
    Lemma ddesc_loop : forall {S} w2 len (body : N -> N -> S -> D S), len < 2 ^ 62 ->
      (forall tag dl s q n k, 0 < k -> sees_desc f d0 e0 (k :: w2) q -> descriptor_at f q tag n dl ->
        dpost ns (body tag dl s) (q + n) (fun _ p => sees_desc f d0 e0 (k - (n + dl) :: w2) p)) ->
      forall fuel parsed s p, sees_desc f d0 e0 (len - parsed :: w2) p -> dpost ns (d_desc_loop fuel m len body parsed s) p (fun _ p' => sees_desc f d0 e0 (0 :: w2) p').
    Proof.
      intros S w2 len body Ll B. induction fuel as [|fuel IH]; intros parsed s p K; cbn [d_desc_loop]; [right; exact I|].
      destruct (parsed <? len) eqn:E; [|apply dp_ret; now replace 0 with (len - parsed) by lia].
      eapply dp_bind; [eapply dp_plainly; [apply tri_desc_head|]|].
      { intros e [-> Nd]. cbn [from_text]. apply (Cut_descriptor _ _ p (len - parsed :: w2)); [|exact Nd].
        exists w0, p0, a0, d0, e0, (len - parsed), w2. split; [exact En|]. split; [reflexivity|]. split; [reflexivity|]. split; [lia|exact K]. }
      intros [[tag n] dl] p1 [-> D]. destruct (desc_small f Lf _ _ _ _ D) as [L1 L2].
      eapply dp_bind; [eapply B; [|exact K|exact D]; lia|]. cbv beta. intros s' p2 K2.
      assert (W : two64 = 4 * 2 ^ 62) by reflexivity. assert (W2 : 2 ^ 28 < 2 ^ 62) by reflexivity.
      eapply dp_bind; [apply (dp_lift _ _ _ (n + dl)); right; unfold add64; destruct (n + dl <? two64) eqn:X; [reflexivity|rewrite W in X; lia]|].
      intros k p3 [-> ->].
      eapply dp_bind; [apply (dp_lift _ _ _ (parsed + (n + dl))); right; unfold add64; destruct (parsed + (n + dl) <? two64) eqn:X; [reflexivity|rewrite W in X; lia]|].
      intros k p3 [-> ->]. apply IH. replace (len - (parsed + (n + dl))) with (len - parsed - (n + dl)) by lia. exact K2.
    Qed.
    Lemma dseek_desc : forall ns' q n len tag, descriptor_at f q tag n len -> dpost ns' (plainly (seek_cur (as_i64 len))) (q + n) (fun _ p => p = q + n + len).
    Proof.
      intros ns' q n len tag D. destruct (desc_small f Lf _ _ _ _ D) as [L1 L2]. assert (W2 : 2 ^ 28 < 2 ^ 62) by reflexivity. assert (W3 : 2 ^ 63 = 2 * 2 ^ 62) by reflexivity.
      destruct D as [D _]. eapply (dp_plainly _ _ _ (fun _ => False)); [|intros e []]. eapply tri_weak; [apply tri_seek_on; lia|cbv beta; intros e [_ X]; lia|auto].
    Qed.
    Lemma dds : forall i q n len k k', 0 < k -> sees_desc f d0 e0 [k; k'] q -> descriptor_at f q 5 n len -> dpost ns (d_ds_desc m i len) (q + n) (fun _ p => p = q + n + len).
    Proof.
      intros i q n len k k' K0 K D. unfold d_ds_desc. destruct (desc_small f Lf _ _ _ _ D) as [L1 L2]. assert (W2 : 2 ^ 28 < 2 ^ 62) by reflexivity. assert (W3 : 2 ^ 63 = 2 * 2 ^ 62) by reflexivity.
      apply (dp_plainly _ _ _ (fun e => e = EIoEof /\ blen f < q + n + 2)).
      - unfold parse_ds_desc. eapply tri_bind; [apply tri_u16|]. cbv beta. intros v p (-> & -> & L). cbv zeta.
        destruct place_entry as (size & size' & Ent & _).
        destruct (N.lt_ge_cases len 2) as [C|C]; [left; eapply Short_config; [exact Ent|eapply descs_look; exact K|exact D|exact C]|].
        eapply tri_bind; [apply (tri_lift _ _ (len - 2)); right; unfold sub64; destruct (2 <=? len) eqn:X; [reflexivity|lia]|]. cbv beta. intros x p [-> ->].
        eapply tri_bind; [eapply tri_weak; [apply tri_seek_on; lia|cbv beta; intros e [_ X]; lia|intros a p H; exact H]|]. cbv beta. intros u p ->. apply tri_ret. lia.
      - intros e [-> L]. cbn [from_text]. apply (Cut_config _ _ q k k' n len); [|exact D|exact L].
        exists w0, p0, a0, d0, e0, k, [k']. split; [exact En|]. split; [reflexivity|]. split; [reflexivity|]. split; [exact K0|exact K].
    Qed.
    Lemma ddc_body : forall tag dl i q n k k', 0 < k -> sees_desc f d0 e0 [k; k'] q -> descriptor_at f q tag n dl ->
      dpost ns (d_dc_body m tag dl i) (q + n) (fun _ p => sees_desc f d0 e0 [k - (n + dl); k'] p).
    Proof.
      intros tag dl i q n k k' K0 K D. assert (E : sees_desc f d0 e0 [k - (n + dl); k'] (q + n + dl)) by (eapply Desc_past; [exact K|exact K0|exact D|right; discriminate]).
      unfold d_dc_body. destruct (tag =? 5) eqn:T.
      - apply N.eqb_eq in T. subst tag. eapply dp_weak; [eapply dds; [exact K0|exact K|exact D]|]. cbv beta. intros u p ->. exact E.
      - eapply dp_bind; [eapply dseek_desc; exact D|]. cbv beta. intros u p ->. apply dp_ret. exact E.
    Qed.
    Lemma des_body : forall fuel tag dl i q n k, 0 < k -> sees_desc f d0 e0 [k] q -> descriptor_at f q tag n dl ->
      dpost ns (d_es_body fuel m tag dl i) (q + n) (fun _ p => sees_desc f d0 e0 [k - (n + dl)] p).
    Proof.
      intros fuel tag dl i q n k K0 K D. unfold d_es_body. destruct (desc_small f Lf _ _ _ _ D) as [L1 L2]. assert (W2 : 2 ^ 28 < 2 ^ 62) by reflexivity.
      pose proof (proj1 D) as Ln. destruct (tag =? 4) eqn:T.
      - apply N.eqb_eq in T. subst tag. unfold d_dc_desc.
        assert (C : blen f < q + n + 13 -> cause f ns EIoEof (from_text EIoEof)).
        { intros L. cbn [from_text]. apply (Cut_decoder _ _ q k n dl); [|exact D|exact L]. exists w0, p0, a0, d0, e0, k, []. split; [exact En|]. split; [reflexivity|]. split; [reflexivity|]. split; [exact K0|exact K]. }
        eapply dp_bind; [apply (dp_near _ 5); [exact Ln|reflexivity]|]. cbv beta. intros u p1 ->.
        eapply dp_bind; [eapply dp_plainly; [apply tri_u32|intros e [-> L]; apply C; lia]|]. cbv beta. intros mx p2 (-> & -> & La).
        eapply dp_bind; [eapply dp_plainly; [apply tri_u32|intros e [-> L]; apply C; lia]|]. cbv beta. intros av p3 (-> & -> & Lb).
        eapply dp_weak; [apply (ddesc_loop [k - (n + dl)]); [lia|intros; now apply ddc_body|]|cbv beta; intros x p H; now apply Desc_out].
        replace (q + n + 5 + 4 + 4) with (q + n + 13) by lia. now apply Desc_into.
      - eapply dp_bind; [eapply dseek_desc; exact D|]. cbv beta. intros u p ->. apply dp_ret. eapply Desc_past; [exact K|exact K0|exact D|left; lia].
    Qed.
    Lemma desds : forall fuel i h, head_at f a0 h -> e0 = a0 + sz_len (hd_size h) -> d0 = a0 + head_len (hd_size h) + 4 ->
      dpost ns (d_esds fuel m i (hd_size h)) (a0 + head_len (hd_size h)) (fun _ p => looks_desc f d0 p).
    Proof.
      intros fuel i h H Es Ed. unfold d_esds. destruct place_entry as (size & size' & Ent & Ee).
      assert (V : version_place f ns (a0 + head_len (hd_size h)) "Unknown MPEG-4 audio (mp4a) version") by (replace (a0 + head_len (hd_size h)) with (d0 - 4) by lia; eapply Of_esds; exact En).
      eapply dp_bind; [apply dp_full; left; eauto|]. cbv beta. intros vf p1 (-> & -> & Lp). cbn [fst snd]. destruct (negb (_ =? 0)) eqn:EV; [apply dp_fail; eapply Bad_version; [exact V|lia|lia]|].
      rewrite <- Ed in *. eapply dp_bind; [eapply dp_plainly; [apply tri_desc_head|]|].
      { intros e [-> Nd]. cbn [from_text]. eapply Cut_first; [exact En|exact Lp|exact Nd]. }
      intros [[tag n] dl] p [-> D]. destruct (negb (tag =? 3)) eqn:T; [apply dp_fail; eapply Other_descriptor; [exact En|exact D|lia]|].
      apply negb_false_iff, N.eqb_eq in T. subst tag.
      destruct (head_sound_at m f Lf a0 h) as [F|[Ec Sz]]; [right; exists p0, size, size', d0; exact Ent|exact H|now left|]. rewrite Ec.
      eapply dp_bind; [apply (dp_lift _ _ _ (sz_len (hd_size h) - head_len (hd_size h))); now right|]. intros c p [-> ->].
      destruct (desc_small f Lf _ _ _ _ D) as [L1 L2]. assert (W2 : 2 ^ 28 < 2 ^ 62) by reflexivity.
      destruct (N.lt_ge_cases (sz_len (hd_size h)) (head_len (hd_size h) + 4 + n)) as [C|C]; [left; eapply Short_esds; [exact Ent|exact D|lia]|].
      eapply dp_bind; [apply (dp_lift _ _ _ (sz_len (hd_size h) - head_len (hd_size h) - 4)); right; unfold sub64; destruct (4 <=? _) eqn:X; [reflexivity|lia]|].
      intros c4 p [-> ->].
      eapply dp_bind; [apply (dp_lift _ _ _ (sz_len (hd_size h) - head_len (hd_size h) - 4 - n)); right; unfold sub64; destruct (n <=? _) eqn:X; [reflexivity|lia]|].
      intros mx p [-> ->]. unfold d_es_desc. eapply dp_bind; [apply (dp_near _ 3); [exact (proj1 D)|reflexivity]|]. cbv beta. intros u p ->.
      eapply dp_weak; [apply (ddesc_loop []); [lia|intros; now apply des_body|]|cbv beta; intros x p K; eapply descs_look; exact K].
      replace (sz_len (hd_size h) - head_len (hd_size h) - 4 - n) with (e0 - (d0 + n)) by lia. now apply Desc_first.
    Qed.
  End Entry.

  (** * Sample entries, headers, tracks *)

  Lemma desc_on : forall a q, looks_desc f a q -> a <= q.
  Proof. intros a q H. induction H; lia. Qed.
  Lemma dbounds : forall ns q h, head_at f q h -> dpost ns (plainly (find_bounds m (hd_size h))) (q + head_len (hd_size h)) (fun b p => b = Bounds q (hd_size h) /\ p = q + head_len (hd_size h)).
  Proof.
    intros ns q h H. eapply (dp_plainly _ _ _ (fun _ => False)); [|intros e []]. unfold find_bounds.
    eapply (tri_bind _ _ _ _ (fun c p => c = q + head_len (hd_size h) /\ p = q + head_len (hd_size h))); [right; cbn; auto|].
    intros c p [-> ->]. eapply tri_bind; [apply (tri_lift _ _ q); right; unfold sub64; destruct (_ <=? _) eqn:X; [f_equal; lia|lia]|].
    intros x p [-> ->]. apply tri_ret. auto.
  Qed.
  Lemma dto_end : forall w q h p, spot w q h -> opens (inner w) (hd_fourcc h) = None -> q <= p <= q + sz_len (hd_size h) ->
    dpost (trail w ++ own (inner w) (hd_fourcc h)) (plainly (seek_to_end m (Bounds q (hd_size h)))) p (after w h).
  Proof.
    intros w q h p P O L. destruct (spot_sound w q h P) as [F|[_ Sz]]; [now left|].
    apply (dp_plainly _ _ _ (fun e => e = EIoSeek /\ 2 ^ 63 <= q + sz_len (hd_size h))).
    - unfold seek_to_end. eapply (tri_bind _ _ _ _ (fun c p' => c = p /\ p' = p)); [right; cbn; auto|].
      intros c p' [-> ->]. unfold bounds_end. cbn [b_pos b_size].
      assert (W : two64 = 4 * 2 ^ 62) by reflexivity. assert (W3 : 2 ^ 63 = 2 * 2 ^ 62) by reflexivity. pose proof (spot_in w q h P) as Lq.
      eapply tri_bind; [apply (tri_lift _ _ (q + sz_len (hd_size h))); right; unfold add64; destruct (_ <? _) eqn:X; [reflexivity|rewrite W in X; lia]|].
      intros e p' [-> ->]. eapply tri_bind; [apply (tri_lift _ _ (q + sz_len (hd_size h) - p)); right; unfold sub64; destruct (_ <=? _) eqn:X; [reflexivity|lia]|].
      intros d p' [-> ->]. eapply tri_weak; [apply tri_seek_on; lia|cbv beta; intros e [-> X]; split; [reflexivity|lia]|].
      cbv beta. intros u p' ->. replace (p + (q + sz_len (hd_size h) - p)) with (q + sz_len (hd_size h)) by lia. now apply after_leaf.
    - intros e [-> X]. eapply Too_far; [apply spot_any; exact P|exact O|exact X].
  Qed.
  Lemma dmp4a : forall fuel w q h, spot w q h -> inner w = InStsd -> fourcc_eqb (hd_fourcc h) MP4_AUDIO = true -> dpost (trail w ++ [MP4_AUDIO]) (d_mp4a fuel m (hd_size h)) (q + head_len (hd_size h)) (after w h).
  Proof.
    intros fuel w q h P Iw E. pose proof (proj2 (proj2 P)) as H. pose proof (spot_seen w q h _ P E) as Sn. unfold d_mp4a. eapply dp_bind; [apply dbounds, H|]. intros b p [-> ->].
    eapply dp_bind; [apply (dp_near _ 28); [exact (spot_in w q h P)|reflexivity]|]. cbv beta. intros u p ->.
    eapply dp_bind; [apply dp_head; eapply In_entry; [exact Sn|exact Iw]|]. intros h' p [H' ->]. destruct (negb _) eqn:E'.
    { apply dp_fail. eapply No_esds; [exact Sn|exact Iw|exact H'|]. intros N. rewrite N in E'. discriminate. }
    apply negb_false_iff in E'.
    assert (En : esds_place f w q (q + head_len (hd_size h) + 28) (q + head_len (hd_size h) + 28 + head_len (hd_size h') + 4) (q + head_len (hd_size h) + 28 + sz_len (hd_size h'))).
    { exists (head_len (hd_size h)), (sz_len (hd_size h)), (head_len (hd_size h')), (sz_len (hd_size h')). split; [exact Sn|]. split; [exact Iw|]. split; [reflexivity|].
      split; [exact (fourcc_is _ _ _ _ H' E')|]. split; reflexivity. }
    eapply dp_bind; [eapply desds; [exact En|exact H'|reflexivity|reflexivity]|]. cbv beta. intros r p Kp. pose proof (desc_on _ _ Kp) as Lp.
    destruct (place_entry _ _ _ _ _ En) as (size & size' & Ent & _).
    assert (size = sz_len (hd_size h)).
    { destruct Ent as (w' & hd & hd' & _ & _ & B & _). pose proof (fourcc_is _ _ _ _ H E) as B2. destruct B as (_ & _ & B), B2 as (_ & _ & B2). destruct B as [B|B], B2 as [B2|B2]; lia. }
    subst size. destruct (N.lt_ge_cases (q + sz_len (hd_size h)) p) as [C|C]; [left; eapply Long_descriptor; [exact Ent|exact Kp|exact C]|].
    assert (Ow : own (inner w) (hd_fourcc h) = [MP4_AUDIO]) by (rewrite Iw; apply fourcc_eqb_eq in E; rewrite E; reflexivity).
    eapply dp_bind; [rewrite <- Ow; apply (dto_end w); [exact P|rewrite Iw; reflexivity|lia]|]. intros v p' Hb. apply dp_ret. exact Hb.
  Qed.
  Lemma dnanos : forall ns scale dur p, scale <> 0 -> dur * 1000000000 < 2 ^ 64 -> dpost ns (plainly (lift (mvhd_nanos m scale dur))) p (fun _ q => q = p).
  Proof.
    intros ns scale dur p H L. right. unfold plainly, mvhd_nanos, mul64. assert (W : two64 = 2 ^ 64) by reflexivity.
    destruct (dur * 1000000000 <? two64) eqn:X; [|rewrite W in X; lia]. cbn [rbind lift]. unfold div64. destruct (scale =? 0) eqn:Z; [lia|]. reflexivity.
  Qed.
  Lemma dmvhd : forall w q h, spot w q h -> inner w = InMoov -> fourcc_eqb (hd_fourcc h) MOVIE_HEADER = true ->
    dpost (trail w ++ [MOVIE_HEADER]) (d_mvhd m (hd_size h)) (q + head_len (hd_size h)) (after w h).
  Proof.
    intros w q h P Iw E. pose proof (proj2 (proj2 P)) as H. destruct (spot_place w q h P) as (w' & [Kq _] & Lv). rewrite Iw in Lv. unfold d_mvhd.
    assert (O : opens (inner w) (hd_fourcc h) = None) by (rewrite Iw; apply fourcc_eqb_eq in E; rewrite E; reflexivity).
    assert (Ow : own (inner w) (hd_fourcc h) = [MOVIE_HEADER]) by (rewrite Iw; apply fourcc_eqb_eq in E; rewrite E; reflexivity).
    assert (HP : header_place f (trail w ++ [MOVIE_HEADER]) (q + head_len (hd_size h))).
    { exists w, q, (head_len (hd_size h)), (sz_len (hd_size h)). split; [exact (spot_seen w q h _ P E)|]. auto. }
    eapply dp_bind; [apply dbounds, H|]. intros b p [-> ->].
    eapply dp_bind; [apply dp_full; right; exact HP|]. cbv beta. intros vf p (-> & -> & Lp). cbn [fst snd].
    pose proof (fourcc_is _ _ _ _ H E) as B. apply (dp_bind _ _ _ _ (fun _ p => q <= p <= q + sz_len (hd_size h))).
    - set (hl := head_len (hd_size h)) in *. set (sz := sz_len (hd_size h)) in *. destruct (N.lt_ge_cases 1 (field f (q + hl) 1)) as [Y|Y].
      { assert (X : forall A (a b : D A), match field f (q + hl) 1 with 0 => a | 1 => b | v => dfail (EUnknownVersion v) (txt "Error unknown movie header (mvhd) version " ++ dec v) end
          = dfail (EUnknownVersion (field f (q + hl) 1)) (txt "Error unknown movie header (mvhd) version " ++ dec (field f (q + hl) 1))) by (intros A a b; destruct (field f (q + hl) 1) as [|[?|?|]]; try reflexivity; lia).
        rewrite X. apply dp_fail. now apply Bad_header_version. }
      destruct (N.eq_dec (field f (q + hl) 1) 0) as [Ev|Nv].
      + assert (C : blen f < q + hl + 20 -> cause f (trail w ++ [MOVIE_HEADER]) EIoEof (from_text EIoEof)) by (intros L; eapply Cut_header; [exact HP|left; split; [exact Ev|exact L]]).
        rewrite Ev. eapply dp_bind; [apply (dp_near _ 8); [exact Lp|reflexivity]|]. cbv beta. intros u p ->.
        eapply dp_bind; [eapply dp_plainly; [apply tri_u32|intros e [-> L]; apply C; lia]|]. cbv beta. intros sc p (-> & -> & La).
        eapply dp_bind; [eapply dp_plainly; [apply tri_u32|intros e [-> L]; apply C; lia]|]. cbv beta. intros du p (-> & -> & Lb).
        replace (q + hl + 4 + 8) with (q + hl + 12) in * by lia.
        destruct (N.eq_dec (field f (q + hl + 12) 4) 0) as [Z|Z]; [left; eapply Bad_header; [exact Kq|exact Lv|exact B|left; split; [exact Ev|now right]]|].
        destruct (N.lt_ge_cases sz (hl + 20)) as [D|D]; [left; eapply Bad_header; [exact Kq|exact Lv|exact B|left; split; [exact Ev|now left]]|].
        eapply dp_weak; [apply dnanos; [exact Z|]|cbv beta; intros d p ->; lia].
        pose proof (PanicProofs.field_lt f Lf (q + hl + 12 + 4) 4) as L. assert (256 ^ 4 * 1000000000 < 2 ^ 64) by reflexivity. lia.
      + assert (Ev : field f (q + hl) 1 = 1) by lia.
        assert (C : blen f < q + hl + 32 -> cause f (trail w ++ [MOVIE_HEADER]) EIoEof (from_text EIoEof)) by (intros L; eapply Cut_header; [exact HP|right; split; [exact Ev|exact L]]).
        rewrite Ev. eapply dp_bind; [apply (dp_near _ 16); [exact Lp|reflexivity]|]. cbv beta. intros u p ->.
        eapply dp_bind; [eapply dp_plainly; [apply tri_u32|intros e [-> L]; apply C; lia]|]. cbv beta. intros sc p (-> & -> & La).
        eapply dp_bind; [eapply dp_plainly; [apply tri_u64|intros e [-> L]; apply C; lia]|]. cbv beta. intros du p (-> & -> & Lb).
        replace (q + hl + 4 + 16) with (q + hl + 20) in * by lia. replace (q + hl + 20 + 4) with (q + hl + 24) in * by lia.
        destruct (N.eq_dec (field f (q + hl + 20) 4) 0) as [Z|Z]; [left; eapply Bad_header; [exact Kq|exact Lv|exact B|right; split; [exact Ev|right; now left]]|].
        destruct (N.lt_ge_cases sz (hl + 32)) as [D|D]; [left; eapply Bad_header; [exact Kq|exact Lv|exact B|right; split; [exact Ev|now left]]|].
        destruct (N.lt_ge_cases (field f (q + hl + 24) 8 * 10 ^ 9) (2 ^ 64)) as [G|G]; [|left; eapply Bad_header; [exact Kq|exact Lv|exact B|right; split; [exact Ev|right; now right]]].
        eapply dp_weak; [apply dnanos; [exact Z|exact G]|cbv beta; intros d p ->; lia].
    - intros d0 p L. eapply dp_bind; [rewrite <- Ow; apply (dto_end w); [exact P|exact O|exact L]|]. intros v p' Hb. apply dp_ret. exact Hb.
  Qed.
  Lemma dstsd : forall fuel w q h, spot w q h -> inner w = InStbl -> fourcc_eqb (hd_fourcc h) SAMPLE_TABLE_SAMPLE_DESCRIPTION = true ->
    dpost (trail w ++ [SAMPLE_TABLE_SAMPLE_DESCRIPTION]) (d_stsd fuel m (hd_size h)) (q + head_len (hd_size h)) (after w h).
  Proof.
    intros fuel w q h P Iw E. unfold d_stsd.
    assert (V : version_place f (trail w ++ [SAMPLE_TABLE_SAMPLE_DESCRIPTION]) (q + head_len (hd_size h)) "Unknown sample table sample description (stsd) version") by (eapply Of_stsd; [exact (spot_seen _ _ _ _ P E)|exact Iw]).
    eapply dp_bind; [apply dp_full; left; eauto|]. cbv beta. intros vf p1 (-> & -> & L1). cbn [fst snd]. destruct (negb _) eqn:EV; [apply dp_fail; eapply Bad_version; [exact V|lia|lia]|].
    eapply dp_bind; [apply (dp_near _ 4); [exact L1|reflexivity]|]. cbv beta. intros u p2 ->. replace (q + head_len (hd_size h) + 4 + 4) with (q + head_len (hd_size h) + 8) by lia.
    apply (dcontainer w q h InStsd 8); [exact P| |discriminate|].
    - rewrite Iw. unfold opens. change (id4 "stsd") with SAMPLE_TABLE_SAMPLE_DESCRIPTION. now rewrite E.
    - intros h' s q' k w' P'. unfold d_stsd_body. apply dchild; [exact P'| |].
      + intros N. split; [reflexivity|]. unfold own. cbn [inner]. change (id4 "mp4a") with MP4_AUDIO. now rewrite N.
      + intros Y. apply dmp4a; [exact P'|reflexivity|exact Y].
  Qed.
  Lemma dstbl : forall fuel w q h, spot w q h -> inner w = InMinf -> fourcc_eqb (hd_fourcc h) SAMPLE_TABLE = true -> dpost (trail w ++ [SAMPLE_TABLE]) (d_stbl fuel m (hd_size h)) (q + head_len (hd_size h)) (after w h).
  Proof.
    intros fuel w q h P Iw E. unfold d_stbl. apply (dbox0 w q h InStbl); [exact P| |discriminate|].
    - rewrite Iw. unfold opens. change (id4 "stbl") with SAMPLE_TABLE. now rewrite E.
    - intros h' s q' k w' P'. unfold d_stbl_body. apply dchild; [exact P'| |].
      + intros N. cbn [inner]. split; [|reflexivity]. unfold opens. change (id4 "stsd") with SAMPLE_TABLE_SAMPLE_DESCRIPTION. now rewrite N.
      + intros Y. apply dstsd; [exact P'|reflexivity|exact Y].
  Qed.
  Lemma dminf : forall fuel w q h, spot w q h -> inner w = InMdia -> fourcc_eqb (hd_fourcc h) MEDIA_INFORMATION = true -> dpost (trail w ++ [MEDIA_INFORMATION]) (d_minf fuel m (hd_size h)) (q + head_len (hd_size h)) (after w h).
  Proof.
    intros fuel w q h P Iw E. unfold d_minf. apply (dbox0 w q h InMinf); [exact P| |discriminate|].
    - rewrite Iw. unfold opens. change (id4 "minf") with MEDIA_INFORMATION. now rewrite E.
    - intros h' s q' k w' P'. unfold d_minf_body. apply dchild; [exact P'| |].
      + intros N. cbn [inner]. split; [|reflexivity]. unfold opens. change (id4 "stbl") with SAMPLE_TABLE. now rewrite N.
      + intros Y. apply dstbl; [exact P'|reflexivity|exact Y].
  Qed.
  Lemma dmdia : forall fuel w q h, spot w q h -> inner w = InTrak -> fourcc_eqb (hd_fourcc h) MEDIA = true -> dpost (trail w ++ [MEDIA]) (d_mdia fuel m (hd_size h)) (q + head_len (hd_size h)) (after w h).
  Proof.
    intros fuel w q h P Iw E. unfold d_mdia. apply (dbox0 w q h InMdia); [exact P| |discriminate|].
    - rewrite Iw. unfold opens. change (id4 "mdia") with MEDIA. now rewrite E.
    - intros h' s q' k w' P'. unfold d_mdia_body. apply dchild; [exact P'| |].
      + intros N. cbn [inner]. split; [|reflexivity]. unfold opens. change (id4 "minf") with MEDIA_INFORMATION. now rewrite N.
      + intros Y. apply dminf; [exact P'|reflexivity|exact Y].
  Qed.
  Lemma dtrak : forall fuel w q h, spot w q h -> inner w = InMoov -> fourcc_eqb (hd_fourcc h) TRACK = true -> dpost (trail w ++ [TRACK]) (d_trak fuel m (hd_size h)) (q + head_len (hd_size h)) (after w h).
  Proof.
    intros fuel w q h P Iw E. unfold d_trak. apply (dbox0 w q h InTrak); [exact P| |discriminate|].
    - rewrite Iw. unfold opens. change (id4 "trak") with TRACK. now rewrite E.
    - intros h' s q' k w' P'. unfold d_trak_body. apply dchild; [exact P'| |].
      + intros N. cbn [inner]. split; [|reflexivity]. unfold opens. change (id4 "mdia") with MEDIA. now rewrite N.
      + intros Y. apply dmdia; [exact P'|reflexivity|exact Y].
  Qed.
  Definition any {A} (_ : A) (_ : N) : Prop := True.
  Lemma dmoov : forall fuel k q h, spot [(Top, k)] q h -> fourcc_eqb (hd_fourcc h) MOVIE = true -> dpost [MOVIE] (d_moov fuel m (hd_size h)) (q + head_len (hd_size h)) any.
  Proof.
    intros fuel k q h P E. unfold d_moov. destruct (spot_sound _ q h P) as [F|[Ec Sz]]; [now left|]. pose proof P as ((l0 & k0 & w0 & X & K0) & Sw & H). injection X as <- <- <-.
    eapply dp_weak; [apply (dloop _ _ (fun _ _ _ => True) InMoov [(Top, k - sz_len (hd_size h))] (sz_len (hd_size h) - head_len (hd_size h))); [right; split; [exact Ec|lia]| | | |exact I]|intros; exact I].
    - intros n. reflexivity.
    - intros h' s q' n P' _. set (w := [(InMoov, n); (Top, k - sz_len (hd_size h))]) in *. assert (Iw : inner w = InMoov) by reflexivity.
      eapply dp_weak; [|intros a p Ha; split; [exact Ha|exact I]]. change [MOVIE] with (trail w). unfold d_moov_body. cbv zeta.
      destruct (fourcc_eqb (hd_fourcc h') MOVIE_HEADER) eqn:E1; [eapply dp_bind; [apply dp_parsing, (dmvhd w); assumption|intros a p Hb; apply dp_ret; exact Hb]|].
      destruct (fourcc_eqb (hd_fourcc h') TRACK) eqn:E2; [eapply dp_bind; [apply dp_parsing, (dtrak fuel w); assumption|intros a p Hb; apply dp_ret; exact Hb]|].
      apply dchild; [exact P'| |].
      + intros N. rewrite Iw. unfold opens, own. change (id4 "trak") with TRACK. change (id4 "udta") with USER_DATA. change (id4 "mvhd") with MOVIE_HEADER. rewrite E1, E2, N. auto.
      + intros Y. apply (dudta fuel w); [exact P'|exact Iw|exact Y|]. unfold opens. change (id4 "trak") with TRACK. change (id4 "udta") with USER_DATA. now rewrite E2, Y.
    - replace (q + head_len (hd_size h)) with (q + head_len (hd_size h) + 0) by lia. replace (sz_len (hd_size h) - head_len (hd_size h) - 0) with (sz_len (hd_size h) - head_len (hd_size h) - 0) by lia.
      eapply Sees_into; [exact Sw|exact K0|exact H|]. unfold opens. change (id4 "moov") with MOVIE. now rewrite E.
  Qed.
  Lemma dfind_moov : forall inner len, len < 2 ^ 62 -> forall fuel parsed p, 0 < p -> sees f [(Top, len - parsed)] p -> dpost [] (d_find_moov fuel m inner len parsed) p any.
  Proof.
    intros inn len Ll. induction fuel as [|fuel IH]; intros parsed p Lp K; cbn [d_find_moov]; [right; exact I|].
    destruct (len <=? parsed) eqn:E; [apply dp_fail; apply (No_movie _ p); [now replace 0 with (len - parsed) by lia|exact Lp]|].
    eapply dp_bind; [apply dp_head; change (@nil fourcc) with (trail [(Top, len - parsed)]); apply In_container; [exact K|right; lia]|]. intros h p1 [H ->].
    assert (P : spot [(Top, len - parsed)] p h) by (split; [exists Top, (len - parsed), []; split; [reflexivity|lia]|split; assumption]).
    destruct (fourcc_eqb _ MOVIE) eqn:EM; [apply dp_parsing; eapply dmoov; [exact P|exact EM]|].
    assert (O : opens Top (hd_fourcc h) = None) by (unfold opens; change (id4 "moov") with MOVIE; now rewrite EM).
    eapply dp_bind; [apply (dp_skip [(Top, len - parsed)] p); [exact P|exact O|reflexivity]|]. cbv beta. intros u p2 ->.
    destruct (spot_sound _ p h P) as [F|[_ Sz]]; [now left|]. assert (W : two64 = 4 * 2 ^ 62) by reflexivity. assert (W3 : 2 ^ 63 = 2 * 2 ^ 62) by reflexivity.
    eapply dp_bind; [apply (dp_lift _ _ _ (parsed + sz_len (hd_size h))); right; unfold add64; destruct (parsed + sz_len (hd_size h) <? two64) eqn:X; [reflexivity|rewrite W in X; lia]|].
    intros x p3 [-> ->]. apply IH; [lia|]. replace (len - (parsed + sz_len (hd_size h))) with (len - parsed - sz_len (hd_size h)) by lia. eapply Sees_past; [exact K|lia|exact H|exact O].
  Qed.
  Lemma dread : forall fuel, dpost [] (d_read_from fuel m) 0 any.
  Proof.
    intros fuel. unfold d_read_from. assert (W : two63 = 2 ^ 63) by reflexivity. assert (W3 : 2 ^ 63 = 2 * 2 ^ 62) by reflexivity.
    apply (dp_bind _ _ _ _ (fun _ q => sees f [(Top, blen f - q)] q /\ 0 < q <= blen f)).
    - unfold d_ftyp. eapply dp_bind; [apply dp_head; change (@nil fourcc) with (trail [(Top, blen f)]); apply In_container; [constructor|now left]|]. intros h p1 [H ->].
      destruct (negb _) eqn:E; [apply dp_fail; eapply Not_type; [exact H|intros N; rewrite N in E; discriminate]|]. apply negb_false_iff in E.
      assert (Lh : 8 <= head_len (hd_size h)) by (destruct H as (_ & _ & [H|H]); lia).
      assert (P : spot [(Top, blen f)] 0 h) by (split; [exists Top, (blen f), []; split; [reflexivity|pose proof (proj1 H); lia]|split; [constructor|exact H]]).
      pose proof (fourcc_is _ _ _ _ H E) as B. pose proof (spot_in _ _ _ P) as Li.
      eapply dp_bind; [apply (dp_content _ [(Top, blen f)] 0), P|]. cbv beta. intros c p2 (-> & -> & Sz).
      eapply dp_weak; [eapply dp_plainly; [apply tri_utf8; lia|]|].
      + intros e [[[-> Le] Ne]|(-> & Le & U)]; cbn [from_text]; [eapply Cut_type; [exact B|lia]|eapply Bad_type; [exact B|lia|exact U]].
      + cbv beta. intros s q [-> Lq]. replace (0 + head_len (hd_size h) + (sz_len (hd_size h) - head_len (hd_size h))) with (0 + sz_len (hd_size h)) in * by lia.
        split; [|lia]. change (0 + sz_len (hd_size h)) with (sz_len (hd_size h)) at 1. eapply Sees_past; [constructor|lia|exact H|]. apply fourcc_eqb_eq in E. rewrite E. reflexivity.
    - intros s q [K Lq]. apply (dp_bind _ _ _ _ (fun n p => n = blen f - q /\ p = q)).
      + right. unfold plainly, remaining_stream_len, bind, position, seek_end, lift, sub64. destruct (q <=? blen f) eqn:X; [|lia].
        unfold seek_start. destruct (q <? two63) eqn:Y; [|rewrite W in Y; lia]. cbn. auto.
      + intros n p2 [-> ->]. eapply dp_bind; [apply dfind_moov; [lia|lia|]|intros r p3 _; apply dp_ret; exact I]. now rewrite N.sub_0_r.
  Qed.
End Errors.
