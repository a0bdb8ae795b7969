(** What can happen with one event for every system call can happen with one event for the scan and for each table. *)

From Coq Require Import List NArith ZArith Bool Lia Arith.
From Coq Require Import ZifyBool ZifyNat ZifyN.
From Verif Require Import Base BaseLemmas Utf Types Stream Parse Find Write ReadProofs FileSpec FailProofs Fault FaultProofs ReadIO IoProofs IoCost ReadTerm IoDevice BufRead BufProofs FineWrite.
Import ListNotations.

(** * Locating *)

(** After [io_locate] the reader is where the data to be moved starts. *)
Definition moved_too (f : bytes) (r : res (plan * N)) : res (plan * N) :=
  match r with
  | Ok (p, q) => Ok (with_moved p (skipn (N.to_nat q) f), N.max q (blen f))
  | Err e => Err e | Panic q => Panic q | Fuel => Fuel
  end.
Lemma skipn_min : forall (f : bytes) q, skipn (N.to_nat (N.min q (blen f))) f = skipn (N.to_nat q) f.
Proof.
  intros f q. destruct (N.le_gt_cases q (blen f)) as [L|L]; [now rewrite N.min_l|]. rewrite N.min_r by lia.
  rewrite !skipn_all2; [reflexivity|unfold blen in *; lia..].
Qed.

Lemma locate_is : forall fuel m atoms f p, prepare fuel m atoms f p = moved_too f (run (io_locate fuel m atoms) f p).
Proof.
  intros fuel m atoms f p. unfold io_locate, prepare. rewrite run_bind, (scan_is fuel m f p). unfold bind at 1.
  destruct (scan fuel m f p) as [[sc q]|e|y|]; try reflexivity. cbv zeta.
  assert (X : forall {A B} (x : IO A) (r : R A) (k : A -> IO B) (k' : A -> R B) (g : res (B * N) -> res (B * N)) q,
     (run x f q = r f q) -> (forall a q, k' a f q = g (run (k a) f q)) -> (forall e, g (Err e) = Err e) -> (forall e, g (Panic e) = Panic e) -> g Fuel = Fuel ->
     bind r k' f q = g (run (io_bind x k) f q)).
  { intros A B x r k k' g q' H1 H2 G1 G2 G3. rewrite run_bind, H1. unfold bind. destruct (r f q') as [[a q2]|e|y|]; auto. }
  assert (Q : forall g, g = moved_too f -> (forall e, g (Err e) = Err e) /\ (forall e, g (Panic e) = Panic e) /\ g Fuel = Fuel) by (intros g ->; repeat split).
  destruct (Q _ eq_refl) as (G1 & G2 & G3).
  apply X; [|clear q; intros [[start0 moved0] diff0] q|assumption..].
  { destruct (match match vb_udta (fst sc) with Some u => ub_meta u | None => None end with Some e => eb_ilst e | None => None end); [|reflexivity].
    unfold bind, lift. destruct (bounds_end m b); try reflexivity. cbn. destruct (subi _ _ _); reflexivity. }
  apply X; [|clear q; intros d1 q|assumption..].
  { destruct (match vb_udta (fst sc) with Some u => ub_meta u | None => None end) as [e|]; [|reflexivity].
    destruct (eb_ilst e); [reflexivity|]. unfold bind, lift. destruct (bounds_end m (eb_bounds e)); reflexivity. }
  apply X; [|clear q; intros d2 q|assumption..].
  { destruct (vb_udta (fst sc)) as [u|].
    - destruct (ub_meta u); [reflexivity|]. unfold bind, lift. destruct (bounds_end m (ub_bounds u)); reflexivity.
    - unfold bind, lift. destruct (bounds_end m (vb_bounds (fst sc))); reflexivity. }
  apply X; [|clear q; intros diff q|assumption..].
  { apply is_lift. }
  apply X; [reflexivity|clear q; intros old q|assumption..].
  apply X; [apply is_lift|clear q; intros ml q|assumption..].
  destruct (two63 <=? ml); [reflexivity|].
  unfold bind at 1. rewrite run_bind. cbn [io_seek_start run perform]. unfold seek_start. destruct (snd d2 <? two63); [|reflexivity].
  unfold bind, read_to_end, ret. cbn [io_bind io_ret run moved_too]. rewrite skipn_min. reflexivity.
Qed.

(** * One event for several *)

Definition nb (ev : list event) : Prop := existsb broken ev = false.
Lemma nb_app : forall a b, nb (a ++ b) <-> nb a /\ nb b.
Proof. intros a b. unfold nb. rewrite existsb_app, orb_false_iff. reflexivity. Qed.
Definition suffix (a b : list event) : Prop := exists u, b = u ++ a.
Lemma suffix_refl : forall a, suffix a a. Proof. intro a. now exists []. Qed.
Lemma suffix_trans : forall a b c, suffix a b -> suffix b c -> suffix a c.
Proof. intros a b c [u ->] [v ->]. exists (v ++ u). now rewrite app_assoc. Qed.
Lemma suffix_nb : forall a b, suffix a b -> nb b -> nb a.
Proof. intros a b [u ->] H. now apply nb_app in H. Qed.

(** What [x] does from states in [P] can be done by [y] with other events, and leads to [Q]. *)
Definition refines {A} (P : wst -> Prop) (x y : F A) (Q : A -> wst -> Prop) : Prop :=
  forall w ev, P w -> let '(o, t) := x (Fst w ev) in
    (exists u, (forall tl, y (Fst w (u ++ tl)) = (o, Fst (f_w t) tl)) /\ (nb ev -> nb u)) /\
    suffix (f_ev t) ev /\ (forall a, o = Done (Ok a) -> Q a (f_w t)).

Lemma ref_weak : forall {A} (P P' : wst -> Prop) (Q Q' : A -> wst -> Prop) (x y : F A), refines P x y Q -> (forall w, P' w -> P w) -> (forall a w, Q a w -> Q' a w) -> refines P' x y Q'.
Proof.
  intros A P P' Q Q' x y H HP HQ w ev Hw. specialize (H w ev (HP w Hw)). destruct (x (Fst w ev)) as [o t]. destruct H as (H1 & H2 & H3).
  split; [exact H1|]. split; [exact H2|]. intros a E. apply HQ, (H3 a E).
Qed.
Lemma ref_bind : forall {A B} (P : wst -> Prop) (Q : A -> wst -> Prop) (S : B -> wst -> Prop) (x y : F A) (k l : A -> F B),
  refines P x y Q -> (forall a, refines (Q a) (k a) (l a) S) -> refines P (fbind _ _ x k) (fbind _ _ y l) S.
Proof.
  intros A B P Q S x y k l H1 H2 w ev Pw. specialize (H1 w ev Pw). unfold fbind. destruct (x (Fst w ev)) as [o t]. destruct H1 as ((u & U1 & U2) & Sf & HQ).
  assert (E : forall o' : outcome B, (match o with Done (Ok _) => False | Done (Err e) => o' = Done (Err e) | Done (Panic p) => o' = Done (Panic p) | Done Fuel => o' = Done Fuel | DeviceError => o' = DeviceError end) ->
    (exists u, (forall tl, fbind _ _ y l (Fst w (u ++ tl)) = (o', Fst (f_w t) tl)) /\ (nb ev -> nb u)) /\ suffix (f_ev t) ev /\ (forall a, o' = Done (Ok a) -> S a (f_w t))).
  { intros o' Ho. split; [|split; [exact Sf|]].
    - exists u. split; [|exact U2]. intros tl. unfold fbind. rewrite U1. destruct o as [[a|e|p|]|]; try contradiction; rewrite Ho; reflexivity.
    - intros a E. destruct o as [[a'|e|p|]|]; try contradiction; congruence. }
  destruct o as [[a|e|p|]|]; try (apply (E _ eq_refl)).
  clear E. specialize (HQ a eq_refl). destruct t as [wt evt]. cbn [f_w f_ev] in *. specialize (H2 a wt evt HQ). destruct (k a (Fst wt evt)) as [o2 t2].
  destruct H2 as ((u2 & V1 & V2) & Sf2 & HS). split; [|split; [eapply suffix_trans; eassumption|exact HS]].
  exists (u ++ u2). split.
  - intros tl. rewrite <- app_assoc, U1. apply V1.
  - intros N. apply nb_app. split; [apply U2, N|]. apply V2, (suffix_nb _ _ Sf N).
Qed.
Lemma ref_ret : forall {A} P (a : A), refines P (fret _ a) (fret _ a) (fun _ => P).
Proof.
  intros A P a w ev Pw. cbn. split; [|split; [apply suffix_refl|intros; exact Pw]]. exists []. split; [reflexivity|]. intros _. reflexivity.
Qed.
Lemma ref_lift : forall {A} P (r : res A), refines P (flift _ r) (flift _ r) (fun _ => P).
Proof.
  intros A P r w ev Pw. cbn. split; [|split; [apply suffix_refl|intros; exact Pw]]. exists []. split; [reflexivity|]. intros _. reflexivity.
Qed.

Lemma dev_write_again : forall ev d ev' l rest, dev_write ev d = (ev', l, rest) ->
  (exists u, (forall tl, dev_write (u ++ tl) d = (tl, l, rest)) /\ (nb ev -> nb u)) /\ suffix ev' ev.
Proof.
  assert (Z : forall ev, dev_write ev [] = (ev, [], [])) by (intros []; reflexivity).
  induction ev as [|e ev IH]; intros d ev' l rest H.
  - destruct d as [|x d]; injection H as <- <- <-; (split; [|apply suffix_refl]).
    + exists []. split; [apply Z|intros _; reflexivity].
    + exists [Fine 0]. split; [reflexivity|intros _; reflexivity].
  - destruct d as [|x d]; [injection H as <- <- <-; split; [exists []; split; [apply Z|intros _; reflexivity]|apply suffix_refl]|].
    cbn [dev_write] in H. destruct e as [c|n| |c].
    + injection H as <- <- <-. split; [|exists [Fine c]; reflexivity]. exists [Fine c]. split; [reflexivity|intros _; reflexivity].
    + destruct (dev_write ev (skipn (S n) (x :: d))) as [[ev1 l1] rest1] eqn:E. injection H as <- <- <-.
      destruct (IH _ _ _ _ E) as ((u & U1 & U2) & v & ->). split; [|exists (Short n :: v); reflexivity].
      exists (Short n :: u). split; [intros tl; cbn [app dev_write]; rewrite U1; reflexivity|exact U2].
    + destruct (IH _ _ _ _ H) as ((u & U1 & U2) & v & ->). split; [|exists (Again :: v); reflexivity].
      exists (Again :: u). split; [intros tl; cbn [app dev_write]; apply U1|exact U2].
    + injection H as <- <- <-. split; [|exists [Broken c]; reflexivity]. exists [Broken c]. split; [reflexivity|discriminate].
Qed.
Lemma next_again : forall ev, (forall tl, next (fst (next ev) :: tl) = (fst (next ev), tl)) /\ (nb ev -> nb [fst (next ev)]) /\ suffix (snd (next ev)) ev.
Proof.
  intros [|e ev]; cbn [next fst snd]; (split; [reflexivity|]); (split; [|]).
  - intros _. reflexivity.
  - apply suffix_refl.
  - unfold nb. cbn [existsb]. rewrite !orb_false_iff. tauto.
  - exists [e]. reflexivity.
Qed.

(** The operations of the writer with the same events. *)
Definition always (w : wst) : Prop := True.
Lemma ref_flush : refines always f_flush f_flush (fun _ => always).
Proof.
  intros w ev _. unfold f_flush. cbn [f_ev f_w]. destruct (dev_write ev (w_buf w)) as [[ev' l] rest] eqn:E.
  destruct (dev_write_again _ _ _ _ _ E) as ((u & U1 & U2) & Sf). cbn [f_w f_ev]. split; [|split; [exact Sf|intros; exact I]].
  exists u. split; [|exact U2]. intros tl. rewrite U1. reflexivity.
Qed.
Lemma ref_write_all : forall d, refines always (f_write_all d) (f_write_all d) (fun _ => always).
Proof.
  intros d w ev _. unfold f_write_all. cbn [f_ev f_w]. destruct (dev_write ev d) as [[ev' l] rest] eqn:E.
  destruct (dev_write_again _ _ _ _ _ E) as ((u & U1 & U2) & Sf). cbn [f_w f_ev]. split; [|split; [exact Sf|intros; exact I]].
  exists u. split; [|exact U2]. intros tl. rewrite U1. reflexivity.
Qed.
Lemma ref_push : forall d, refines always (f_push d) (f_push d) (fun _ => always).
Proof.
  intros d w ev _. unfold f_push. cbn [f_ev f_w]. split; [|split; [apply suffix_refl|intros; exact I]]. exists []. split; [reflexivity|intros _; reflexivity].
Qed.
Lemma ref_write : forall cap d, refines always (f_write cap d) (f_write cap d) (fun _ => always).
Proof.
  intros cap d w ev _. unfold f_write. cbn [f_ev f_w].
  set (b := cap <? blen (w_buf w) + blen d). set (c := cap <=? blen d).
  assert (R : refines always (fbind _ _ (if b then f_flush else fret _ tt) (fun _ => if c then f_write_all d else f_push d))
                (fbind _ _ (if b then f_flush else fret _ tt) (fun _ => if c then f_write_all d else f_push d)) (fun _ => always)).
  { eapply ref_bind; [destruct b; [apply ref_flush|apply ref_ret]|]. intros ?. destruct c; [apply ref_write_all|apply ref_push]. }
  exact (R w ev I).
Qed.
Lemma ref_move : forall t, refines always (f_move t) (f_move t) (fun _ => always).
Proof.
  intros t w ev _. unfold f_move. cbn [f_ev f_w]. destruct (_ && _)%Z.
  - destruct (next_again ev) as (N1 & N2 & N3). destruct (next ev) as [e ev'] eqn:E. cbn [fst snd] in *.
    assert (X : forall o w', match e with Broken _ => (DeviceError, Fst w ev') | _ => (Done (Ok tt), Fst (Wst (w_file w) (Z.to_N t) (w_buf w) (w_ops w)) ev') end = (o, Fst w' ev') ->
      (exists u, (forall tl, (match next (u ++ tl) with (Broken _, ev) => (DeviceError, Fst w ev) | (_, ev) => (Done (Ok tt), Fst (Wst (w_file w) (Z.to_N t) (w_buf w) (w_ops w)) ev) end) = (o, Fst w' tl)) /\ (nb ev -> nb u)) /\
      suffix ev' ev /\ (forall a : unit, o = Done (Ok a) -> always w')).
    { intros o w' H. split; [|split; [exact N3|intros; exact I]]. exists [e]. split; [|exact N2]. intros tl. cbn [app]. rewrite N1. destruct e; injection H as <- <-; reflexivity. }
    destruct e; apply X; reflexivity.
  - split; [|split; [apply suffix_refl|intros; exact I]]. exists []. split; [reflexivity|intros _; reflexivity].
Qed.
Lemma ref_set_len : forall n, refines always (f_set_len n) (f_set_len n) (fun _ => always).
Proof.
  intros n w ev _. unfold f_set_len. cbn [f_ev f_w]. destruct (n <? two63).
  - destruct (next_again ev) as (N1 & N2 & N3). destruct (next ev) as [e ev'] eqn:E. cbn [fst snd] in *.
    set (w2 := Wst _ _ _ _).
    assert (X : forall o w', match e with Broken _ => (DeviceError, Fst w ev') | _ => (Done (Ok tt), Fst w2 ev') end = (o, Fst w' ev') ->
      (exists u, (forall tl, (match next (u ++ tl) with (Broken _, ev) => (DeviceError, Fst w ev) | (_, ev) => (Done (Ok tt), Fst w2 ev) end) = (o, Fst w' tl)) /\ (nb ev -> nb u)) /\
      suffix ev' ev /\ (forall a : unit, o = Done (Ok a) -> always w')).
    { intros o w' H. split; [|split; [exact N3|intros; exact I]]. exists [e]. split; [|exact N2]. intros tl. cbn [app]. rewrite N1. destruct e; injection H as <- <-; reflexivity. }
    destruct e; apply X; reflexivity.
  - split; [|split; [apply suffix_refl|intros; exact I]]. exists []. split; [reflexivity|intros _; reflexivity].
Qed.
Lemma ref_seek : forall q, refines always (f_seek q) (f_seek q) (fun _ => always).
Proof. intros q. unfold f_seek. eapply ref_bind; [apply ref_flush|]. intros ?. apply ref_move. Qed.
Lemma ref_seek_cur : forall d, refines always (f_seek_cur d) (f_seek_cur d) (fun _ => always).
Proof.
  intros d. unfold f_seek_cur. eapply ref_bind; [apply ref_flush|]. intros ? w ev _. cbn [f_w]. exact (ref_move _ w ev I).
Qed.

(** * The length of the file while tables are adjusted *)

Definition keeps {A} (P : wst -> Prop) (x : F A) (Q : A -> wst -> Prop) : Prop :=
  forall w ev, P w -> forall a t, x (Fst w ev) = (Done (Ok a), t) -> Q a (f_w t).
Lemma ref_keeps : forall {A} P (x y : F A) Q, refines always x y (fun _ => always) -> keeps P x Q -> refines P x y Q.
Proof.
  intros A P x y Q R K w ev Pw. specialize (R w ev I). specialize (K w ev Pw). destruct (x (Fst w ev)) as [o t]. destruct R as (R1 & R2 & _).
  split; [exact R1|]. split; [exact R2|]. intros a ->. apply (K a t eq_refl).
Qed.
Lemma keeps_bind : forall {A B} (P : wst -> Prop) (Q : A -> wst -> Prop) (S : B -> wst -> Prop) (x : F A) (k : A -> F B),
  keeps P x Q -> (forall a, keeps (Q a) (k a) S) -> keeps P (fbind _ _ x k) S.
Proof.
  intros A B P Q S x k H1 H2 w ev Pw b t H. unfold fbind in H. specialize (H1 w ev Pw). destruct (x (Fst w ev)) as [[[a|e|p|]|] [w1 ev1]]; try discriminate.
  apply (H2 a w1 ev1 (H1 a _ eq_refl) b t H).
Qed.
Lemma keeps_weak : forall {A} (P P' : wst -> Prop) (Q Q' : A -> wst -> Prop) (x : F A), keeps P x Q -> (forall w, P' w -> P w) -> (forall a w, Q a w -> Q' a w) -> keeps P' x Q'.
Proof. intros A P P' Q Q' x K HP HQ w ev Pw a t H. apply HQ, (K w ev (HP w Pw) a t H). Qed.

(** The file has [L] bytes, and after what is buffered there is room for [k] more. *)
Definition room (L k : N) (w : wst) : Prop := blen (w_file w) = L /\ w_cur w + blen (w_buf w) + k <= L.
Definition idle (L : N) (w : wst) : Prop := blen (w_file w) = L /\ w_buf w = [].

Lemma write_at_len : forall f p d, p + blen d <= blen f -> blen (write_at f p d) = blen f.
Proof.
  intros f p d L. unfold write_at. rewrite !blen_app. unfold zeros, blen in *. rewrite firstn_length, app_length, skipn_length, repeat_length. lia.
Qed.
Lemma stored_len : forall l w, Forall (fun x => x <> []) l -> w_cur w + blen (List.concat l) <= blen (w_file w) ->
  blen (w_file (store w l)) = blen (w_file w) /\ w_buf (store w l) = w_buf w /\ w_cur (store w l) = w_cur w + blen (List.concat l).
Proof.
  intros l w N L. destruct (store_spec l w N) as (B & C & E). rewrite B, C. split; [|split; reflexivity]. rewrite E. destruct l as [|d l]; [reflexivity|].
  apply write_at_len, L.
Qed.
Lemma keeps_flush : forall L k, keeps (room L k) f_flush (fun _ w => room L k w /\ w_buf w = []).
Proof.
  intros L k w ev (R1 & R2) a t H. unfold f_flush in H. cbn [f_ev f_w] in H. destruct (dev_write ev (w_buf w)) as [[ev' l] rest] eqn:E.
  destruct rest as [|x rest]; [|discriminate]. injection H as <- <-. destruct (dev_write_spec _ _ _ _ _ E) as (C & N & _). rewrite app_nil_r in C.
  destruct (stored_len l w N) as (S1 & S2 & S3); [rewrite C; lia|]. rewrite C in S3. unfold with_buf, room. cbn [f_w w_file w_cur w_buf].
  rewrite S1, S3. change (blen []) with 0. split; [split; [exact R1|lia]|reflexivity].
Qed.
Lemma keeps_write : forall L k cap d, keeps (room L (blen d + k)) (f_write cap d) (fun _ => room L k).
Proof.
  intros L k cap d w ev R a t H. unfold f_write in H. cbn [f_w] in H. destruct (cap <? blen (w_buf w) + blen d) eqn:Ec.
  - revert a t H. apply (keeps_bind (room L (blen d + k)) (fun _ w => room L (blen d + k) w /\ w_buf w = []) (fun _ => room L k)); [apply keeps_flush| |exact R].
    intros u. clear. intros w ev ((R1 & R2) & B) a t H. destruct (cap <=? blen d).
    + unfold f_write_all in H. cbn [f_ev f_w] in H. destruct (dev_write ev d) as [[ev' l] rest] eqn:E.
      destruct rest as [|x rest]; [|discriminate]. injection H as <- <-. destruct (dev_write_spec _ _ _ _ _ E) as (C & N & _). rewrite app_nil_r in C.
      destruct (stored_len l w N) as (S1 & S2 & S3); [rewrite C; lia|]. rewrite C in S3. unfold room. cbn [f_w]. rewrite S1, S2, S3, B in *. split; [exact R1|lia].
    + unfold f_push in H. injection H as <- <-. unfold room, with_buf. cbn [f_w w_file w_cur w_buf]. rewrite B in *. cbn [app]. split; [exact R1|]. change (blen []) with 0 in R2. lia.
  - unfold fbind, fret in H. destruct R as [R1 R2]. destruct (cap <=? blen d) eqn:Ed.
    + unfold f_write_all in H. cbn [f_ev f_w] in H. destruct (dev_write ev d) as [[ev' l] rest] eqn:E.
      destruct rest as [|x rest]; [|discriminate]. injection H as <- <-. destruct (dev_write_spec _ _ _ _ _ E) as (C & N & _). rewrite app_nil_r in C.
      destruct (stored_len l w N) as (S1 & S2 & S3); [rewrite C; lia|]. rewrite C in S3. unfold room. cbn [f_w]. rewrite S1, S2, S3. split; [exact R1|lia].
    + unfold f_push in H. injection H as <- <-. unfold room, with_buf. cbn [f_w w_file w_cur w_buf]. rewrite blen_app. split; [exact R1|]. lia.
Qed.
Lemma keeps_seek : forall L q k, q + k <= L -> keeps (idle L) (f_seek q) (fun _ => room L k).
Proof.
  intros L q k Hq w ev (R1 & R2) a t H. unfold f_seek, fbind, f_flush in H. cbn [f_ev f_w] in H. rewrite R2 in H.
  assert (Z : dev_write ev [] = (ev, [], [])) by (destruct ev; reflexivity). rewrite Z in H. cbn [store] in H. unfold f_move in H. cbn [f_ev f_w] in H.
  destruct (_ && _)%Z; [|discriminate]. destruct (next ev) as [[] ev']; try discriminate H; injection H as <- <-; unfold room, with_buf; cbn [f_w w_file w_cur w_buf]; change (blen []) with 0; (split; [exact R1|lia]).
Qed.

(** * The program *)

Lemma table_inv_any : forall m w rd s f p t p', (forall p v p', rd f p = Ok (v, p') -> p' = p + w /\ p + w <= blen f) ->
  table_parse w rd m s f p = Ok (t, p') ->
  fst t = p + 8 /\ content_len m s = Ok (8 + w * N.of_nat (List.length (snd t))) /\ p + 8 + w * N.of_nat (List.length (snd t)) <= blen f.
Proof.
  intros m w rd s f p t p' R H. unfold table_parse in H. inv_bind H. unfold parse_full_head in E. inv_bind E. unfold read_u8 in E0. inv_bind E0. injection E0 as <- <-.
  apply read_exact_inv in E1. destruct E1 as (-> & -> & _). inv_bind E. injection E as <- <-. apply read_exact_inv in E0. destruct E0 as (-> & -> & _).
  cbn [fst] in H. destruct (unbe (slice f p 1)) eqn:E1; [|discriminate]. inv_bind H. apply read_u32_inv in E. destruct E as (-> & -> & L). inv_bind H. apply lift_inv in E.
  destruct E as [E ->]. destruct (negb (8 + w * field f (p + 1 + 3) 4 =? v)) eqn:X; [discriminate|]. inv_bind H. injection E0 as <- <-. inv_bind H.
  injection H as <- <-. eapply read_many_inv in E0; [|exact R]. destruct E0 as (Ll & -> & B). cbn [fst snd]. rewrite Ll, N2Nat.id.
  split; [lia|]. split; [rewrite E; f_equal; lia|]. lia.
Qed.
Lemma nt_spec : forall m wide sz q L, L < two63 -> keeps (idle L) (f_table m wide sz q) (fun t w => idle L w /\ fst t + width wide * blen (snd t) <= L).
Proof.
  intros m wide sz q L Lf w ev (R1 & R2) t s H. unfold f_table, f_read in H. cbn [f_ev f_w] in H.
  assert (X : exists c q', f_w s = at_cursor w c /\ (if wide then co64_parse m sz else stco_parse m sz) (w_file w) q = Ok (t, q')).
  { destruct (next ev) as [[c|n| |c] ev']; try discriminate H; (destruct (q <? two63); [|discriminate H]);
      destruct ((if wide then co64_parse m sz else stco_parse m sz) (w_file w) q) as [[t' q']|e|y|] eqn:E; try discriminate H; injection H as -> <-; cbn [f_w]; eauto. }
  destruct X as (c & q' & -> & E). split; [split; [exact R1|exact R2]|]. rewrite <- R1.
  assert (T : fst t = q + 8 /\ content_len m sz = Ok (8 + width wide * N.of_nat (List.length (snd t))) /\ q + 8 + width wide * N.of_nat (List.length (snd t)) <= blen (w_file w)).
  { destruct wide.
    - eapply table_inv_any; [|exact E]. intros p v p' R. apply read_u64_inv in R. destruct R as (-> & _ & R). unfold width. lia.
    - eapply table_inv_any; [|exact E]. intros p v p' R. apply read_u32_inv in R. destruct R as (-> & _ & R). unfold width. lia. }
  unfold blen at 1. lia.
Qed.
(** What the reader held makes no difference. *)
Lemma n_table_reader : forall rcap m wide sz q ev f c held,
  let '(r, ev', b) := buf_run3 rcap (io_table_at wide m sz q) ev f (BReader c held) in
  let '(r', ev'', b') := buf_run3 rcap (io_table_at wide m sz q) ev f (BReader c []) in
  r = r' /\ ev' = ev'' /\ br_pos b = br_pos b'.
Proof.
  intros rcap m wide sz q ev f c held. unfold io_table_at. cbn [io_bind io_seek_start buf_run3 br_op]. unfold sys_seek.
  destruct (dev_seek ev) as [ev' ok]. destruct ok; cbn [br_sought]; [|repeat split].
  destruct (q <? two63); cbn [br_sought]; [|repeat split]. destruct (buf_run3 _ _ _ _ _) as [[r2 ev2] b2]. repeat split.
Qed.

Lemma ref_table : forall rcap m wide sz q L, L < two63 ->
  refines (idle L) (n_table rcap m wide sz q) (f_table m wide sz q) (fun t w => idle L w /\ fst t + width wide * blen (snd t) <= L).
Proof.
  intros rcap m wide sz q L Lf w ev Iw.
  assert (K := nt_spec m wide sz q L Lf w). destruct Iw as [R1 R2]. unfold n_table. cbn [f_ev f_w].
  (* the cursor of the file may be anywhere before *)
  assert (B : forall b0, (exists u, ev = u ++ snd (fst (buf_run3 rcap (io_table_at wide m sz q) ev (w_file w) b0)) /\
     fst (fst (buf_run3 rcap (io_table_at wide m sz q) ev (w_file w) b0)) = if existsb broken u then DeviceError else Done (plain (run (io_table_at wide m sz q) (w_file w) 0)))).
  { intros b0. unfold io_table_at. cbn [io_bind io_seek_start buf_run3 br_op]. unfold sys_seek.
    destruct (dev_seek_used ev) as (u & E & U). destruct (dev_seek ev) as [ev' ok]. cbn [fst snd] in *.
    destruct ok; cbn [br_sought].
    - destruct (q <? two63) eqn:Q; cbn [br_sought].
      + set (k := if wide then _ else _).
        assert (Lw : blen (w_file w) < two63) by (rewrite R1; exact Lf). apply N.ltb_lt in Q.
        pose proof (buf_run3_used rcap k ev' (w_file w) (BReader q []) q Lw (stands_empty _ _ Q)) as H. apply N.ltb_lt in Q.
        destruct (buf_run3 rcap k ev' (w_file w) (BReader q [])) as [[r ev2] b2]. destruct H as (u2 & E2 & H2). cbn [fst snd]. exists (u ++ u2).
        split; [rewrite <- app_assoc; congruence|]. rewrite existsb_app. destruct (existsb broken u); [discriminate|]. cbn [orb].
        cbn [run perform]. unfold seek_start. rewrite Q. destruct (existsb broken u2); [exact H2|apply H2].
      + cbn [fst snd]. exists u. split; [exact E|]. destruct (existsb broken u); [discriminate|]. cbn [run perform]. unfold seek_start. rewrite Q. reflexivity.
    - cbn [fst snd]. exists u. split; [exact E|]. destruct (existsb broken u); [reflexivity|discriminate]. }
  specialize (B (BReader (w_cur w) [])). destruct (buf_run3 _ _ _ _ _) as [[r ev'] b]. cbn [fst snd] in B. destruct B as (u & E & H). cbn [f_w f_ev].
  assert (Y : forall tl, f_table m wide sz q (Fst w ((if existsb broken u then Broken (br_pos b) else Fine (br_pos b)) :: tl)) = (r, Fst (at_cursor w (br_pos b)) tl)).
  { intros tl. rewrite H. unfold f_table, f_read. cbn [f_ev f_w next]. destruct (existsb broken u); [reflexivity|]. rewrite table_at_is.
    destruct (q <? two63); [|reflexivity]. destruct ((if wide then co64_parse m sz else stco_parse m sz) (w_file w) q) as [[t q']|e|y|]; reflexivity. }
  split; [|split; [exists u; exact E|]].
  - eexists [_]. split; [exact Y|]. intros N. rewrite E in N. apply nb_app in N. destruct N as [N _]. unfold nb in *. rewrite N. reflexivity.
  - intros t ->. apply (K _ (conj R1 R2) t _ (Y [])).
Qed.
Lemma ref_offsets : forall cap m wide diff L l,
  refines (room L (width wide * blen l)) (g_offsets F fret fbind flift (f_write cap) m wide diff l) (g_offsets F fret fbind flift (f_write cap) m wide diff l) (fun _ => room L 0).
Proof.
  intros cap m wide diff L. induction l as [|co l IH]; cbn [g_offsets].
  - eapply ref_weak; [apply ref_ret| |intros a w H; exact H]. intros w [R1 R2]. split; [exact R1|]. unfold blen in *. cbn [List.length] in R2. lia.
  - eapply ref_bind; [apply ref_lift|]. intros v. cbv beta.
    eapply (ref_bind _ (fun _ => room L (width wide * blen l))); [|intros ?; exact IH].
    apply ref_keeps; [apply ref_write|]. eapply keeps_weak; [apply (keeps_write L (width wide * blen l))| |intros a w H; exact H].
    intros w [R1 R2]. split; [exact R1|]. rewrite blen_cons in R2. destruct wide; unfold width, be64, be32 in *; rewrite blen_be; lia.
Qed.
Lemma ref_gtable : forall rcap cap m wide diff b L, L < two63 ->
  refines (idle L) (g_table F fret fbind flift (f_write cap) f_seek f_flush (n_table rcap) m wide diff b)
                   (g_table F fret fbind flift (f_write cap) f_seek f_flush f_table m wide diff b) (fun _ => idle L).
Proof.
  intros rcap cap m wide diff b L Lf. unfold g_table. eapply ref_bind; [apply ref_lift|]. intros cp. cbv beta.
  eapply ref_bind; [apply ref_table, Lf|]. intros t. cbv beta.
  apply (ref_bind _ (fun _ => room L (width wide * blen (snd t)))).
  - intros w ev (Iw & Rt). refine (ref_keeps (idle L) (f_seek (fst t)) (f_seek (fst t)) _ (ref_seek _) (keeps_seek L _ _ Rt) w ev Iw).
  - intros ?. eapply ref_bind; [apply ref_offsets|]. intros ?. cbv beta. apply ref_keeps; [apply ref_flush|].
    eapply keeps_weak; [apply keeps_flush|intros w H; exact H|]. intros _ w ((R1 & _) & R2). split; assumption.
Qed.
Lemma ref_stbl : forall rcap cap m diff sb L, L < two63 ->
  refines (idle L) (g_stbl F fret fbind flift (f_write cap) f_seek f_flush (n_table rcap) m diff sb)
                   (g_stbl F fret fbind flift (f_write cap) f_seek f_flush f_table m diff sb) (fun _ => idle L).
Proof.
  intros rcap cap m diff sb L Lf. unfold g_stbl. eapply ref_bind; [destruct (sb_stco sb); [apply ref_gtable, Lf|apply ref_ret]|].
  intros ?. cbv beta. destruct (sb_co64 sb); [apply ref_gtable, Lf|apply ref_ret].
Qed.
Lemma ref_traks : forall rcap cap m diff L, L < two63 -> forall l,
  refines (idle L) (g_traks F fret fbind flift (f_write cap) f_seek f_flush (n_table rcap) m diff l)
                   (g_traks F fret fbind flift (f_write cap) f_seek f_flush f_table m diff l) (fun _ => idle L).
Proof.
  intros rcap cap m diff L Lf. induction l as [|t l IH]; cbn [g_traks]; [apply ref_ret|].
  eapply ref_bind; [destruct (trak_stbl t); [apply ref_stbl, Lf|apply ref_ret]|]. intros ?. exact IH.
Qed.
Lemma ref_update : forall cap m diff b,
  refines always (g_update F fbind flift (f_write cap) f_seek f_seek_cur m diff b) (g_update F fbind flift (f_write cap) f_seek f_seek_cur m diff b) (fun _ => always).
Proof.
  intros cap m diff b. unfold g_update. eapply ref_bind; [apply ref_lift|]. intros n. eapply ref_bind; [apply ref_seek|]. intros ?.
  destruct (sz_ext (b_size b)); [|apply ref_write]. eapply ref_bind; [apply ref_write|]. intros ?. eapply ref_bind; [apply ref_seek_cur|]. intros ?. apply ref_write.
Qed.
Lemma ref_update_all : forall cap m diff l,
  refines always (g_update_all F fret fbind flift (f_write cap) f_seek f_seek_cur m diff l) (g_update_all F fret fbind flift (f_write cap) f_seek f_seek_cur m diff l) (fun _ => always).
Proof.
  intros cap m diff. induction l as [|b l IH]; cbn [g_update_all]; [apply ref_ret|]. eapply ref_bind; [apply ref_update|]. intros ?. exact IH.
Qed.
Lemma ref_chunks : forall cap l, refines always (g_chunks F fret fbind (f_write cap) l) (g_chunks F fret fbind (f_write cap) l) (fun _ => always).
Proof.
  intros cap. induction l as [|d l IH]; cbn [g_chunks]; [apply ref_ret|]. eapply ref_bind; [apply ref_write|]. intros ?. exact IH.
Qed.
Lemma ref_execute : forall rcap cap m p L, L < two63 -> refines (idle L) (n_execute rcap cap m p) (f_execute cap m p) (fun _ => always).
Proof.
  intros rcap cap m p L Lf. unfold n_execute, f_execute, g_execute.
  apply (ref_bind _ (fun _ => always)).
  { destruct (_ <? _); [eapply ref_weak; [apply ref_traks, Lf|intros w H; exact H|intros; exact I]|].
    eapply ref_weak; [apply ref_ret|intros w H; exact I|intros; exact I]. }
  assert (B : forall {A B} (x : F A) (k : A -> F B), refines always x x (fun _ => always) -> (forall a, refines always (k a) (k a) (fun _ => always)) ->
      refines always (fbind _ _ x k) (fbind _ _ x k) (fun _ => always)) by (intros A B x k H1 H2; exact (ref_bind always (fun _ => always) (fun _ => always) x x k k H1 H2)).
  intros ?. apply B; [apply ref_update_all|]. intros ?.
  apply B; [apply B; [apply ref_lift|intros ?; apply ref_set_len]|]. intros ?.
  apply B; [apply ref_seek|]. intros ?.
  apply B; [unfold g_out; apply B; [apply ref_chunks|intros ?; apply ref_lift]|]. intros ?.
  apply B; [apply B; [apply ref_lift|intros ?; apply ref_seek]|]. intros ?.
  apply B; [apply ref_write|]. intros ?. apply ref_flush.
Qed.

(** Every run is a run of [faulty_write] with other events, none of which fails if none fails here. *)
Theorem fine_is_faulty : forall ev rcap cap sizes last fuel m items f pos,
  blen f < two63 -> pos < two63 -> last <> 0 -> Forall (fun n => n <> 0) sizes ->
  exists ev', fine_write ev rcap cap sizes last fuel m items f pos = faulty_write ev' cap fuel m items f pos /\ (nb ev -> nb ev').
Proof.
  intros ev rcap cap sizes last fuel m items f pos Lf Lp L0 Fs. unfold fine_write.
  pose proof (buf_run3_used rcap (io_locate fuel m items) ev f (BReader pos []) pos Lf (stands_empty _ _ Lp)) as H.
  destruct (buf_run3 rcap (io_locate fuel m items) ev f (BReader pos [])) as [[r ev1] b1]. destruct H as (u & Eu & H).
  destruct (existsb broken u) eqn:Bu.
  { subst r. exists [Broken 0]. split; [reflexivity|]. intros N. rewrite Eu in N. apply nb_app in N. unfold nb in N. destruct N; congruence. }
  destruct H as [-> H]. pose proof (locate_is fuel m items f pos) as P.
  destruct (run (io_locate fuel m items) f pos) as [[p q]|e|y|]; cbn [plain moved_too] in *;
    try (exists [Fine 0]; split; [unfold faulty_write; cbn [next]; rewrite P; reflexivity|intros _; reflexivity]).
  destruct (read_to_end_used f b1 q sizes last ev1 Lf H L0 Fs) as (u2 & E2 & R2). destruct (br_read_to_end sizes last f ev1 b1) as [r2 ev2]. cbn [fst snd] in *.
  destruct (existsb broken u2) eqn:B2.
  { subst r2. exists [Broken 0]. split; [reflexivity|]. intros N. rewrite Eu, E2 in N. apply nb_app in N. destruct N as [_ N]. apply nb_app in N. unfold nb in N. destruct N; congruence. }
  subst r2. set (moved := skipn (N.to_nat q) f) in *. set (c := pl_moved_start p + blen moved).
  pose proof (ref_execute rcap cap m (with_moved p moved) (blen f) Lf (Wst f c [] []) ev2 (conj eq_refl eq_refl)) as R.
  destruct (n_execute rcap cap m (with_moved p moved) (Fst (Wst f c [] []) ev2)) as [o [w ev3]]. destruct R as ((v & V1 & V2) & V3 & _). cbn [f_w f_ev] in *.
  pose proof (ref_flush w ev3 I) as R. destruct (f_flush (Fst w ev3)) as [o4 [w4 ev4]]. destruct R as ((v4 & W1 & W2) & _ & _). cbn [f_w f_ev] in *.
  exists (Fine c :: v ++ v4). split.
  - unfold faulty_write. cbn [next]. rewrite P. rewrite V1. specialize (W1 []). rewrite app_nil_r in W1. rewrite W1. reflexivity.
  - intros N. rewrite Eu in N. apply nb_app in N. destruct N as [_ N]. rewrite E2 in N. apply nb_app in N. destruct N as [_ N].
    change (nb (v ++ v4)). apply nb_app. split; [apply V2, N|]. apply W2, (suffix_nb _ _ V3 N).
Qed.
