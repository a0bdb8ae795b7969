(** The tag that is read is the one the file holds. *)

From Coq Require Import List NArith ZArith Bool Lia Arith String.
From Coq Require Import ZifyBool ZifyNat ZifyN.
From Verif Require Import Base BaseLemmas Utf UtfLemmas Types Stream Parse Find TagSpec FileSpec ParseLemmas FailSpec FailProofs PanicSpec PanicProofs Display ErrSpec.
From Verif Require Import LayoutSpec TreeSpec ErrExact.
From Verif Require WhereProofs ReadProofs ErrProofs.
Import ListNotations.
Local Open Scope list_scope.

(** * Lists *)

Lemma final_snoc : forall id ns n, final id (ns ++ [n]) = if named id n then Some n else final id ns.
Proof. intros id ns n. unfold final. rewrite fold_left_app. reflexivity. Qed.
Lemma last_opt_app : forall {A} (a b : list A), last_opt (a ++ b) = match last_opt b with Some x => Some x | None => last_opt a end.
Proof.
  intros A a b. unfold last_opt. rewrite fold_left_app. generalize (fold_left (fun _ x => Some x) a (@None A)) as o. clear a.
  induction b as [|x b IH] using rev_ind; intros o; [reflexivity|]. rewrite !fold_left_app. reflexivity.
Qed.
Lemma both_join : forall {A B} (Q : A -> B -> Prop) (g : list node -> option A) (o : option (option B)) x, g [] = None -> both (fun n r => both Q (g (n_inside n)) r) x o -> both Q (g (within_it x)) (ojoin o).
Proof. intros A B Q g [r|] [n|] E H; cbn [both ojoin within_it] in *; try contradiction; [exact H|now rewrite E]. Qed.
Lemma both_mono : forall {A B} (P Q : A -> B -> Prop) x y, both P x y -> (forall a b, P a b -> Q a b) -> both Q x y.
Proof. intros A B P Q [a|] [b|] H K; cbn [both] in *; auto. Qed.

(** * Texts and parameters *)

Lemma dec_text8 : forall b s, dec8 b = Some s -> text8 b s.
Proof. intros b s H. apply (dec8_inv (List.length b)) in H; [|lia]. destruct H as [W <-]. split; [exact W|reflexivity]. Qed.
Lemma dec_text16 : forall b s, dec16 (bytes_units b) = Some s -> text16 b s.
Proof.
  intros b s H. apply (dec16_inv (List.length (bytes_units b))) in H; [|lia|apply (bytes_units_wf (List.length b)); lia]. destruct H as [W E].
  destruct (WhereProofs.units_odd (List.length b) b ltac:(lia)) as (odd & Eo & O). split; [exact W|]. exists odd. rewrite E. split; [exact Eo|]. destruct O as [->|O]; [apply N.le_0_l|lia].
Qed.
Lemma rate_hz : forall i, i < 16 -> option_map hz (sample_rate_of i) = nth_error mpeg4_frequencies (N.to_nat i).
Proof.
  intros i Hi. assert (exists n, i = N.of_nat n /\ (n < 16)%nat) as (n & -> & Hn) by (exists (N.to_nat i); lia).
  rewrite Nat2N.id. do 16 (destruct n as [|n]; [reflexivity|]). lia.
Qed.
Lemma config_count : forall i, i < 16 -> option_map channel_count (channel_config_of i) = join (nth_error mpeg4_channels (N.to_nat i)).
Proof.
  intros i Hi. assert (exists n, i = N.of_nat n /\ (n < 16)%nat) as (n & -> & Hn) by (exists (N.to_nat i); lia).
  rewrite Nat2N.id. do 16 (destruct n as [|n]; [reflexivity|]). lia.
Qed.
Lemma slice_means : forall f p, p + 2 <= blen f -> ds_means (slice f p 2) (channel_config_of ((field f p 2 / 8) mod 16)) (sample_rate_of ((field f p 2 / 128) mod 16)).
Proof.
  intros f p L. pose proof (blen_slice f p 2 L) as B. unfold field, ds_means. destruct (slice f p 2) as [|x [|y [|z r]]]; try discriminate; [|rewrite !blen_cons in B; lia].
  destruct (ReadProofs.bits_ds x y []) as [E1 E2]. rewrite E1, E2. split; [cbn; lia|]. split; [apply rate_hz, N.mod_lt; discriminate|apply config_count, N.mod_lt; discriminate].
Qed.

Section Tree.
  Context (m : mode) (f : bytes) (Lf : blen f < 2 ^ 62).
  Notation spot := (ErrProofs.spot f).
  Notation lenof h := (sz_len (hd_size h)).
  Notation hlof h := (head_len (hd_size h)).
  Notation yes := (ErrExact.yes f).

  (** * One box *)

  Definition node_of (q : N) (h : head) (inside : list node) : node := Node q (hlof h) (lenof h) (hd_fourcc h) inside.
  (** The box and what is in it, up to [p]. *)
  Definition taken (l : level) (q : N) (h : head) (inside : list node) (p : N) : Prop :=
    opens l (hd_fourcc h) = None /\ inside = [] /\ p = q + lenof h \/
    exists l' d, opens l (hd_fourcc h) = Some (l', d) /\ contents f l' (lenof h - hlof h - d) (q + hlof h + d) inside p.
  Lemma taken_first : forall l k q h inside p ns q', 0 < k -> head_at f q h -> taken l q h inside p -> contents f l (k - lenof h) p ns q' ->
    contents f l k q (node_of q h inside :: ns) q'.
  Proof.
    intros l k q h inside p ns q' K H [(O & -> & ->)|(l' & d & O & C)] R.
    - eapply Contents_past; [exact K|exact H|exact O|exact R].
    - eapply Contents_into; [exact K|exact H|exact O|exact C|exact R].
  Qed.
  Lemma opens_deep : forall l id l' d, opens l id = Some (l', d) -> l' <> Top.
  Proof. intros l id l' d O ->. destruct l; cbn [opens] in O; cbv zeta in O; repeat (destruct (fourcc_eqb _ _) in O); discriminate. Qed.
  Lemma contents_sees : forall l k q ns q', contents f l k q ns q' -> l <> Top -> forall w, sees f ((l, k) :: w) q -> sees f ((l, 0) :: w) q'.
  Proof.
    intros l k q ns q' C. induction C as [l q|l k q id hd sz ns q' K B O C IH|l k q id hd sz l' d inside q1 ns q' K B O C1 IH1 C2 IH2]; intros T w S.
    - exact S.
    - apply IH; [exact T|]. eapply Sees_past; [exact S|exact K|exact B|exact O].
    - apply IH2; [exact T|]. apply (Sees_out f l'); [|intros ->; apply T; eapply ErrProofs.opens_moov; exact O].
      apply IH1; [eapply opens_deep; exact O|]. eapply Sees_into; [exact S|exact K|exact B|exact O].
  Qed.
  Lemma taken_sees : forall l k w q h inside p, l <> Top -> spot ((l, k) :: w) q h -> taken l q h inside p -> sees f ((l, k - lenof h) :: w) p.
  Proof.
    intros l k w q h inside p T ((l0 & k0 & w0 & X & K) & S & H) [(O & -> & ->)|(l' & d & O & C)]; injection X as <- <- <-.
    - eapply Sees_past; [exact S|exact K|exact H|exact O].
    - apply (Sees_out f l'); [|intros ->; apply T; eapply ErrProofs.opens_moov; exact O].
      eapply contents_sees; [exact C|eapply opens_deep; exact O|]. eapply Sees_into; [exact S|exact K|exact H|exact O].
  Qed.

  (** The result of parsing the box is as [P] says. *)
  Definition said {A} (P : node -> A -> Prop) (l : level) (q : N) (h : head) (a : A) (p : N) : Prop := exists inside, taken l q h inside p /\ P (node_of q h inside) a.
  Definition adds {S} (Inv : list node -> S -> Prop) (ns : list node) (l : level) (q : N) (h : head) (s : S) (p : N) : Prop :=
    exists inside, taken l q h inside p /\ Inv (ns ++ [node_of q h inside]) s.
  Lemma tloop : forall {S} (limit : res N) (body : head -> S -> R S) (Inv : list node -> S -> Prop) l w lim, l <> Top -> (flaw f \/ limit = Ok lim /\ lim < 2 ^ 63) ->
    (forall h s ns q k, spot ((l, k) :: w) q h -> Inv ns s -> yes (body h s) (q + hlof h) (adds Inv ns l q h)) ->
    forall fuel parsed s ns p, sees f ((l, lim - parsed) :: w) p -> Inv ns s ->
      yes (atom_loop fuel m limit body parsed s) p (fun s' p' => exists rs, contents f l (lim - parsed) p rs p' /\ Inv (ns ++ rs) s').
  Proof.
    intros S limit body Inv l w lim T [F|[-> Ll]] B; [intros; now left|]. induction fuel as [|fuel IH]; intros parsed s ns p K I; cbn [atom_loop]; [right; discriminate|].
    eapply yes_bind; [apply (yes_lift f); now right|]. cbv beta. intros l' p' [-> ->].
    destruct (parsed <? lim) eqn:E; [|apply yes_ret; exists []; rewrite app_nil_r; split; [replace (lim - parsed) with 0 by lia; constructor|exact I]].
    eapply yes_bind; [apply (yes_head f Lf)|]. intros h p1 [H ->].
    assert (P : spot ((l, lim - parsed) :: w) p h) by (split; [exists l, (lim - parsed), w; split; [reflexivity|lia]|split; [exact K|exact H]]).
    eapply yes_bind; [eapply B; [exact P|exact I]|]. cbv beta. intros s' p2 (inside & Tk & I2).
    destruct (ErrProofs.spot_sound m f Lf _ p h P) as [F|[_ Sz]]; [now left|].
    eapply yes_bind; [apply (yes_lift f _ _ (parsed + lenof h))|].
    { right. unfold add64. assert (W : two64 = 2 * 2 ^ 63) by reflexivity. destruct (parsed + lenof h <? two64) eqn:X; [reflexivity|]. rewrite W in X. lia. }
    cbv beta. intros x p3 [-> ->]. pose proof (taken_sees _ _ _ _ _ _ _ T P Tk) as K2.
    replace (lim - parsed - lenof h) with (lim - (parsed + lenof h)) in K2 by lia.
    eapply yes_weak; [eapply IH; [exact K2|exact I2]|]. cbv beta. intros s2 p4 (rs & C & I4). exists (node_of p h inside :: rs). rewrite <- app_assoc in I4. split; [|exact I4].
    eapply taken_first; [lia|exact H|exact Tk|]. now replace (lim - parsed - lenof h) with (lim - (parsed + lenof h)) by lia.
  Qed.
  Lemma tcontainer : forall {S} (body : head -> S -> R S) (Inv : list node -> S -> Prop) l0 k0 w0 q h l d, spot ((l0, k0) :: w0) q h -> opens l0 (hd_fourcc h) = Some (l, d) ->
    (forall h s ns q k w, spot ((l, k) :: w) q h -> Inv ns s -> yes (body h s) (q + hlof h) (adds Inv ns l q h)) ->
    forall fuel s, Inv [] s -> yes (atom_loop fuel m (content_len m (hd_size h)) body d s) (q + hlof h + d) (said (fun n => Inv (n_inside n)) l0 q h).
  Proof.
    intros S body Inv l0 k0 w0 q h l d P O B fuel s I. destruct (ErrProofs.spot_sound m f Lf _ q h P) as [F|[E Sz]]; [now left|].
    destruct P as ((l1 & k1 & w1 & X & K0) & Ss & H). injection X as <- <- <-.
    eapply yes_weak; [eapply (tloop _ body Inv l ((l0, k0 - lenof h) :: w0) (lenof h - hlof h)); [eapply opens_deep; exact O|right; split; [exact E|lia]|intros; now apply (B _ _ _ _ k ((l0, k0 - lenof h) :: w0))| |exact I]|].
    - eapply Sees_into; [exact Ss|exact K0|exact H|exact O].
    - cbv beta. intros s' p (rs & C & I'). exists rs. split; [|exact I']. right. exists l, d. auto.
  Qed.
  Lemma tbox0 : forall {S} (body : head -> S -> R S) (Inv : list node -> S -> Prop) l0 k0 w0 q h l, spot ((l0, k0) :: w0) q h -> opens l0 (hd_fourcc h) = Some (l, 0) ->
    (forall h s ns q k w, spot ((l, k) :: w) q h -> Inv ns s -> yes (body h s) (q + hlof h) (adds Inv ns l q h)) ->
    forall fuel s, Inv [] s -> yes (atom_loop fuel m (content_len m (hd_size h)) body 0 s) (q + hlof h) (said (fun n => Inv (n_inside n)) l0 q h).
  Proof. intros S body Inv l0 k0 w0 q h l P O B fuel s I. replace (q + hlof h) with (q + hlof h + 0) by lia. eapply tcontainer; eassumption. Qed.
  Lemma tskip : forall {S} (Inv : list node -> S -> Prop) l k w q h (s : S) ns, spot ((l, k) :: w) q h -> opens l (hd_fourcc h) = None -> Inv (ns ++ [node_of q h []]) s ->
    yes (skip_atom m h ;;; ret s) (q + hlof h) (adds Inv ns l q h).
  Proof.
    intros S Inv l k w q h s ns P O I. eapply yes_bind; [eapply (yes_skip m f Lf); exact P|]. cbv beta. intros u p [-> _]. apply yes_ret. exists []. split; [left; auto|exact I].
  Qed.
  (** Of several children called [id] the last counts, the others are skipped. *)
  Definition lastly {A} (id : fourcc) (P : node -> A -> Prop) (ns : list node) (o : option A) : Prop := both P (final id ns) o.
  Lemma tchild : forall {A} (id : fourcc) (P : node -> A -> Prop) l k w q h (x : R A) (r : option A) ns, spot ((l, k) :: w) q h -> lastly id P ns r ->
    (fourcc_eqb (hd_fourcc h) id = false -> opens l (hd_fourcc h) = None) ->
    (fourcc_eqb (hd_fourcc h) id = true -> yes x (q + hlof h) (said P l q h)) ->
    yes (if fourcc_eqb (hd_fourcc h) id then (y <- x ;; ret (Some y)) else (skip_atom m h ;;; ret r)) (q + hlof h) (adds (lastly id P) ns l q h).
  Proof.
    intros A id P l k w q h x r ns Sp I O X. destruct (fourcc_eqb (hd_fourcc h) id) eqn:E.
    - eapply yes_bind; [apply X; reflexivity|]. intros a p (inside & Tk & Pa). apply yes_ret. exists inside. split; [exact Tk|]. unfold lastly. rewrite final_snoc.
      unfold named, node_of, n_id. rewrite E. exact Pa.
    - eapply tskip; [exact Sp|now apply O|]. unfold lastly. rewrite final_snoc. unfold named, node_of, n_id. rewrite E. exact I.
  Qed.

  (** * Items *)

  Lemma yes_text8 : forall n p, n < 2 ^ 63 -> yes (read_utf8 n) p (fun s q => q = p + n /\ (n = 0 \/ q <= blen f) /\ text8 (slice f p n) s).
  Proof.
    intros n p L. unfold read_utf8. eapply yes_bind; [apply (yes_vec f Lf), L|]. cbv beta. intros b q (-> & -> & H). destruct (dec8 _) as [s|] eqn:E; [|apply yes_fail].
    apply yes_ret. split; [reflexivity|]. split; [exact H|]. now apply dec_text8.
  Qed.
  Lemma yes_text16 : forall n p, n < 2 ^ 63 -> yes (read_utf16 n) p (fun s q => q = p + n /\ text16 (slice f p n) s).
  Proof.
    intros n p L. unfold read_utf16. eapply yes_bind; [apply (yes_vec f Lf), L|]. cbv beta. intros b q (-> & -> & H). destruct (dec16 _) as [s|] eqn:E; [|apply yes_fail].
    apply yes_ret. split; [reflexivity|]. now apply dec_text16.
  Qed.
  Definition value_is (t : N) (b : bytes) (d : data) : Prop :=
    type_code d = t /\ match d with DUtf8 s => text8 b s | DUtf16 s => text16 b s | DReserved v | DJpeg v | DPng v | DBeSigned v | DBmp v => v = b end.
  Lemma yes_value : forall t n p, n < 2 ^ 63 -> yes (data_parse t n) p (fun d q => q = p + n /\ value_is t (slice f p n) d).
  Proof.
    intros t n p L.
    assert (V : forall (g : bytes -> data), value_is t (slice f p n) (g (slice f p n)) -> yes (v <- read_u8_vec n ;; ret (g v)) p (fun d q => q = p + n /\ value_is t (slice f p n) d)).
    { intros g H. eapply yes_bind; [apply (yes_vec f Lf), L|]. cbv beta. intros b q (-> & -> & _). apply yes_ret. auto. }
    unfold data_parse. destruct (N.eq_dec t 1) as [->|N1]; [|destruct (N.eq_dec t 2) as [->|N2]].
    - eapply yes_bind; [apply yes_text8, L|]. cbv beta. intros s q (-> & _ & T). apply yes_ret. split; [reflexivity|]. split; [reflexivity|exact T].
    - eapply yes_bind; [apply yes_text16, L|]. cbv beta. intros s q (-> & T). apply yes_ret. split; [reflexivity|]. split; [reflexivity|exact T].
    - repeat match goal with |- context [match ?x with _ => _ end] => is_var x; destruct x end; try apply yes_fail; try congruence; apply V; split; reflexivity.
  Qed.
  Definition item_inv (ns : list node) (a : item_acc) : Prop :=
    Forall2 (value_says f) (filter (named (id4 "data")) ns) (ia_data a) /\ lastly (id4 "mean") (name_says f) ns (ia_mean a) /\ lastly (id4 "name") (name_says f) ns (ia_name a).
  Lemma titem : forall k w q h a ns, spot ((InItem, k) :: w) q h -> item_inv ns a -> yes (item_body m h a) (q + hlof h) (adds item_inv ns InItem q h).
  Proof.
    intros k w q h a ns P (ID & IM & IN). destruct (ErrProofs.spot_place f _ q h P) as (w' & [K H] & Lv). cbn [inner] in Lv.
    destruct (ErrProofs.spot_sound m f Lf _ q h P) as [F|[_ Sz0]]; [now left|]. assert (W3 : 2 ^ 63 = 2 * 2 ^ 62) by reflexivity.
    unfold item_body. cbv zeta. destruct (fourcc_eqb (hd_fourcc h) DATA) eqn:ED.
    { eapply yes_bind; [apply (yes_full f Lf)|]. cbv beta. intros vf p1 (-> & -> & L1). cbn [fst snd]. destruct (negb _) eqn:EV; [apply yes_fail|].
      eapply yes_bind; [apply (yes_near f Lf 4); [lia|reflexivity]|]. cbv beta. intros u p2 ->.
      eapply yes_bind; [eapply (yes_content m f Lf), P|]. cbv beta. intros c p3 (-> & -> & Sz).
      destruct (N.lt_ge_cases (lenof h) (hlof h + 8)) as [C|C]; [left; eapply Short_value; [exact K|exact Lv|exact (fourcc_is _ _ _ _ H ED)|exact C]|].
      eapply yes_bind; [apply (yes_lift f _ _ (lenof h - hlof h - 8)); right; unfold sub64; destruct (8 <=? _) eqn:X; [reflexivity|lia]|].
      cbv beta. intros n p4 [-> ->]. change (unbe (slice f (q + hlof h + 1) 3)) with (field f (q + hlof h + 1) 3). replace (q + hlof h + 4 + 4) with (q + hlof h + 8) by lia.
      eapply yes_bind; [apply yes_value; lia|]. cbv beta. intros d p5 (-> & V). apply yes_ret. exists []. split; [left; split; [reflexivity|split; [reflexivity|lia]]|].
      pose proof ED as ED'. apply fourcc_eqb_eq in ED'. unfold item_inv, lastly. rewrite filter_app, !final_snoc. cbn [filter]. unfold named, node_of, n_id. rewrite ED'. cbn [ia_data ia_mean ia_name].
      change (fourcc_eqb DATA (id4 "data")) with true. change (fourcc_eqb DATA (id4 "mean")) with false. change (fourcc_eqb DATA (id4 "name")) with false.
      split; [|split; [exact IM|exact IN]]. apply Forall2_app; [exact ID|]. constructor; [exact V|constructor]. }
    assert (T : forall id g, In id [id4 "mean"; id4 "name"] -> fourcc_eqb (hd_fourcc h) id = true -> (forall s, name_says f (node_of q h []) s -> item_inv (ns ++ [node_of q h []]) (g s)) -> yes (
        vf <- parse_full_head ;; (if negb (fst vf =? 0) then fail (EUnknownVersion (fst vf)) else
        c <- lift (content_len m (hd_size h)) ;; n <- lift (sub64 m c 4) ;; s <- read_utf8 n ;; ret (g s))) (q + hlof h) (adds item_inv ns InItem q h)).
    { intros id g Hi EI Hg. eapply yes_bind; [apply (yes_full f Lf)|]. cbv beta. intros vf p1 (-> & -> & L1). cbn [fst snd]. destruct (negb _) eqn:EV; [apply yes_fail|].
      eapply yes_bind; [eapply (yes_content m f Lf), P|]. cbv beta. intros c p3 (-> & -> & Sz).
      destruct (N.lt_ge_cases (lenof h) (hlof h + 4)) as [C|C].
      { left. eapply Short_text; [exact K|exact Lv|exact (fourcc_is _ _ _ _ H EI)| |exact C]. destruct Hi as [<-|[<-|[]]]; auto. }
      eapply yes_bind; [apply (yes_lift f _ _ (lenof h - hlof h - 4)); right; unfold sub64; destruct (4 <=? _) eqn:X; [reflexivity|lia]|].
      cbv beta. intros n p4 [-> ->]. eapply yes_bind; [apply yes_text8; lia|]. cbv beta. intros s p (-> & Le & U). apply yes_ret. exists []. split; [left; split; [reflexivity|split; [reflexivity|lia]]|]. apply Hg, U. }
    destruct (fourcc_eqb (hd_fourcc h) MEAN) eqn:EM.
    { apply (T MEAN); [now left|exact EM|]. intros s Hs. apply fourcc_eqb_eq in EM. unfold item_inv, lastly. rewrite filter_app, !final_snoc. cbn [filter]. unfold named, node_of, n_id in *. rewrite EM in *.
      change (fourcc_eqb MEAN (id4 "data")) with false. change (fourcc_eqb MEAN (id4 "mean")) with true. change (fourcc_eqb MEAN (id4 "name")) with false. rewrite app_nil_r. auto. }
    destruct (fourcc_eqb (hd_fourcc h) NAME) eqn:EN.
    { apply (T NAME); [right; now left|exact EN|]. intros s Hs. apply fourcc_eqb_eq in EN. unfold item_inv, lastly. rewrite filter_app, !final_snoc. cbn [filter]. unfold named, node_of, n_id in *. rewrite EN in *.
      change (fourcc_eqb NAME (id4 "data")) with false. change (fourcc_eqb NAME (id4 "mean")) with false. change (fourcc_eqb NAME (id4 "name")) with true. rewrite app_nil_r. auto. }
    eapply tskip; [exact P|reflexivity|]. unfold item_inv, lastly. rewrite filter_app, !final_snoc. cbn [filter]. unfold named, node_of, n_id.
    change (id4 "data") with DATA. change (id4 "mean") with MEAN. change (id4 "name") with NAME. rewrite ED, EM, EN, app_nil_r. auto.
  Qed.
  Lemma ident_name : forall id a b, item_ident id a b = item_name id a b.
  Proof.
    intros id [a|] [b|]; try reflexivity. unfold item_ident, item_name. change (id4 "----") with FREEFORM. destruct (fourcc_dec id FREEFORM) as [->|N]; [reflexivity|].
    destruct (fourcc_eqb id FREEFORM) eqn:E; [|reflexivity]. apply fourcc_eqb_eq in E. contradiction.
  Qed.
  Definition ilst_inv (ns : list node) (l : list atom_data) : Prop :=
    exists raw, Forall2 (item_says f) (filter (fun n => negb (named (id4 "free") n)) ns) raw /\ l = fold_left ilst_add raw [].
  Lemma tilst_body : forall fuel k w q h l ns, spot ((InIlst, k) :: w) q h -> ilst_inv ns l -> yes (ilst_body fuel m h l) (q + hlof h) (adds ilst_inv ns InIlst q h).
  Proof.
    intros fuel k w q h l ns P (raw & Fr & ->). unfold ilst_body. destruct (fourcc_eqb _ FREE) eqn:EF.
    { eapply tskip; [exact P|unfold opens; change (id4 "free") with FREE; now rewrite EF|]. exists raw. split; [|reflexivity]. rewrite filter_app. cbn [filter]. unfold named at 2, node_of, n_id.
      change (id4 "free") with FREE at 2. rewrite EF. cbn [negb]. now rewrite app_nil_r. }
    assert (O : opens InIlst (hd_fourcc h) = Some (InItem, 0)) by (unfold opens; change (id4 "free") with FREE; now rewrite EF).
    eapply yes_bind; [eapply (yes_content m f Lf); exact P|]. cbv beta. intros c p (-> & -> & Sz). pose proof P as ((l1 & k1 & w1 & X & K0) & Ss & H). injection X as <- <- <-.
    eapply (yes_bind _ _ _ _ (said (item_says f) InIlst q h)).
    - unfold atom_data_parse. eapply yes_bind.
      + apply (fun A B C D => tloop _ (item_body m) item_inv InItem ((InIlst, k - lenof h) :: w) (lenof h - hlof h) ltac:(discriminate) A B fuel 0 _ [] _ C D); [right; split; [reflexivity|lia]|intros; eapply titem; eassumption| |split; [constructor|split; exact I]].
        replace (q + hlof h) with (q + hlof h + 0) by lia. eapply Sees_into; [exact Ss|exact K0|exact H|exact O].
      + cbv beta. intros a p (rs & C & ID & IM & IN). cbn [app] in *. destruct (ia_data a) as [|d0 dr] eqn:Ed; [apply yes_fail|]. apply yes_ret. exists rs. split.
        * right. exists InItem, 0. split; [exact O|]. now rewrite N.add_0_r.
        * exists (ia_mean a), (ia_name a), (d0 :: dr). split; [exact IM|]. split; [exact IN|]. split; [exact ID|]. now rewrite ident_name.
    - intros a p (inside & Tk & Ia). apply yes_ret. exists inside. split; [exact Tk|]. exists (raw ++ [a]). split; [|now rewrite fold_left_app].
      rewrite filter_app. apply Forall2_app; [exact Fr|]. cbn [filter]. unfold named, node_of at 1, n_id. change (id4 "free") with FREE. rewrite EF. cbn [negb]. constructor; [exact Ia|constructor].
  Qed.
  Definition ilst_says (n : node) (l : list atom_data) : Prop := ilst_inv (n_inside n) l.
  Lemma tilst : forall fuel k w q h, spot ((InMeta, k) :: w) q h -> fourcc_eqb (hd_fourcc h) ITEM_LIST = true -> yes (ilst_parse fuel m (hd_size h)) (q + hlof h) (said ilst_says InMeta q h).
  Proof.
    intros fuel k w q h P E. unfold ilst_parse. assert (O : opens InMeta (hd_fourcc h) = Some (InIlst, 0)) by (unfold opens; change (id4 "ilst") with ITEM_LIST; now rewrite E).
    eapply (tbox0 _ ilst_inv); [exact P|exact O|intros; eapply tilst_body; eassumption|]. exists []. split; [constructor|reflexivity].
  Qed.
  Definition inner_says {A} (id : fourcc) (P : node -> A -> Prop) (n : node) (o : option A) : Prop := lastly id P (n_inside n) o.
  Definition meta_says := inner_says (id4 "ilst") ilst_says.
  Lemma tmeta : forall fuel k w q h, spot ((InUdta, k) :: w) q h -> fourcc_eqb (hd_fourcc h) METADATA = true -> yes (meta_parse fuel m (hd_size h)) (q + hlof h) (said meta_says InUdta q h).
  Proof.
    intros fuel k w q h P E. unfold meta_parse. assert (O : opens InUdta (hd_fourcc h) = Some (InMeta, 4)) by (unfold opens; change (id4 "meta") with METADATA; now rewrite E).
    eapply yes_bind; [apply (yes_full f Lf)|]. cbv beta. intros vf p1 (-> & -> & L1). cbn [fst snd]. destruct (negb _) eqn:EV; [apply yes_fail|].
    eapply (tcontainer _ (lastly (id4 "ilst") ilst_says)); [exact P|exact O| |exact I].
    intros h' s ns q' k' w' P' I'. unfold meta_body. eapply tchild; [exact P'|exact I'| |intros Y; eapply tilst; [exact P'|exact Y]].
    intros N. unfold opens. now rewrite N.
  Qed.
  Definition udta_says := inner_says (id4 "meta") meta_says.
  Lemma tudta : forall fuel k w q h, spot ((InMoov, k) :: w) q h -> fourcc_eqb (hd_fourcc h) USER_DATA = true -> yes (udta_parse fuel m (hd_size h)) (q + hlof h) (said udta_says InMoov q h).
  Proof.
    intros fuel k w q h P E. unfold udta_parse. assert (O : opens InMoov (hd_fourcc h) = Some (InUdta, 0)) by (apply fourcc_eqb_eq in E; rewrite E; reflexivity).
    eapply (tbox0 _ (lastly (id4 "meta") meta_says)); [exact P|exact O| |exact I].
    intros h' s ns q' k' w' P' I'. unfold udta_body. eapply tchild; [exact P'|exact I'| |intros Y; eapply tmeta; [exact P'|exact Y]].
    intros N. unfold opens. now rewrite N.
  Qed.

  (** * Headers *)

  Lemma tmvhd : forall k w q h, spot ((InMoov, k) :: w) q h -> fourcc_eqb (hd_fourcc h) MOVIE_HEADER = true -> yes (mvhd_parse m (hd_size h)) (q + hlof h) (said (header_says f) InMoov q h).
  Proof.
    intros k w q h P E. pose proof (proj2 (proj2 P)) as H. destruct (ErrProofs.spot_place f _ q h P) as (w' & [Kq _] & Lv). cbn [inner] in Lv. unfold mvhd_parse.
    assert (O : opens InMoov (hd_fourcc h) = None) by (apply fourcc_eqb_eq in E; rewrite E; reflexivity).
    eapply yes_bind; [apply yes_post, post_bounds; eassumption|]. intros b p [-> ->].
    eapply yes_bind; [apply (yes_full f Lf)|]. cbv beta. intros vf p (-> & -> & Lp). cbn [fst snd]. pose proof (fourcc_is _ _ _ _ H E) as B.
    assert (Nn : forall scale dur p, scale <> 0 -> dur * 1000000000 < 2 ^ 64 -> yes (lift (mvhd_nanos m scale dur)) p (fun d q => q = p /\ nanos scale dur d)).
    { intros scale dur p Hs Hd. right. unfold mvhd_nanos, mul64. assert (W : two64 = 2 ^ 64) by reflexivity. destruct (dur * 1000000000 <? two64) eqn:X; [|rewrite W in X; lia].
      cbn [rbind lift]. unfold div64. destruct (scale =? 0) eqn:Z; [lia|]. intros a p' Y. injection Y as <- <-. split; [reflexivity|]. split; [exact Hs|]. split; [exact Hd|reflexivity]. }
    apply (yes_bind _ _ _ _ (fun d p => p <= q + lenof h /\ header_says f (node_of q h []) d)).
    - unfold header_says, n_start, node_of, n_at, n_head. cbv zeta. set (hl := hlof h) in *. set (sz := lenof h) in *. destruct (field f (q + hl) 1) as [|[?|?|]] eqn:Ev; try apply yes_fail.
      + eapply yes_bind; [apply (yes_near f Lf 8); [exact Lp|reflexivity]|]. cbv beta. intros u p ->.
        eapply yes_bind; [eapply yes_tri, (ErrProofs.tri_u32 f Lf)|]. cbv beta. intros sc p (-> & -> & La).
        eapply yes_bind; [eapply yes_tri, (ErrProofs.tri_u32 f Lf)|]. cbv beta. intros du p (-> & -> & Lb).
        replace (q + hl + 4 + 8) with (q + hl + 12) in * by lia. replace (q + hl + 12 + 4) with (q + hl + 16) in * by lia.
        destruct (N.eq_dec (field f (q + hl + 12) 4) 0) as [Z|Z]; [left; eapply Bad_header; [exact Kq|exact Lv|exact B|left; split; [exact Ev|now right]]|].
        destruct (N.lt_ge_cases sz (hl + 20)) as [D|D]; [left; eapply Bad_header; [exact Kq|exact Lv|exact B|left; split; [exact Ev|now left]]|].
        eapply yes_weak; [apply Nn; [exact Z|]|].
        * pose proof (PanicProofs.field_lt f Lf (q + hl + 16) 4) as L. assert (256 ^ 4 * 1000000000 < 2 ^ 64) by reflexivity. lia.
        * cbv beta. intros d p (-> & Nd). split; [lia|]. left. auto.
      + eapply yes_bind; [apply (yes_near f Lf 16); [exact Lp|reflexivity]|]. cbv beta. intros u p ->.
        eapply yes_bind; [eapply yes_tri, (ErrProofs.tri_u32 f Lf)|]. cbv beta. intros sc p (-> & -> & La).
        eapply yes_bind; [eapply yes_tri, (ErrProofs.tri_u64 f Lf)|]. cbv beta. intros du p (-> & -> & Lb).
        replace (q + hl + 4 + 16) with (q + hl + 20) in * by lia. replace (q + hl + 20 + 4) with (q + hl + 24) in * by lia.
        destruct (N.eq_dec (field f (q + hl + 20) 4) 0) as [Z|Z]; [left; eapply Bad_header; [exact Kq|exact Lv|exact B|right; split; [exact Ev|right; now left]]|].
        destruct (N.lt_ge_cases sz (hl + 32)) as [D|D]; [left; eapply Bad_header; [exact Kq|exact Lv|exact B|right; split; [exact Ev|now left]]|].
        destruct (N.lt_ge_cases (field f (q + hl + 24) 8 * 10 ^ 9) (2 ^ 64)) as [G|G]; [|left; eapply Bad_header; [exact Kq|exact Lv|exact B|right; split; [exact Ev|right; now right]]].
        eapply yes_weak; [apply Nn; [exact Z|exact G]|]. cbv beta. intros d p (-> & Nd). split; [lia|]. right. auto.
    - intros d0 p [L N]. eapply yes_bind; [apply (yes_to_end m f Lf ((InMoov, k) :: w)); [exact P|exact L]|]. cbv beta. intros v p' [-> Lt]. apply yes_ret. exists []. split; [left; auto|exact N].
  Qed.

  (** * Descriptors *)

  Section Entry.
    Context (p0 size0 a0 size0' d0 e0 : N) (En : entry_at f p0 size0 a0 size0' d0) (Ee : e0 = a0 + size0').

    Definition dtaken (outer : bool) (q tag n dl : N) (inside : list dnode) (p : N) : Prop :=
      (tag <> 4 \/ outer = false) /\ inside = [] /\ p = q + n + dl \/ tag = 4 /\ outer = true /\ descs f false (dl - 13) (q + n + 13) inside p.
    Definition outermost (w : list N) : bool := match w with [] => true | _ => false end.
    Lemma descs_sees : forall outer k q ds q', descs f outer k q ds q' -> forall w, outer = outermost w -> sees_desc f d0 e0 (k :: w) q -> sees_desc f d0 e0 (0 :: w) q'.
    Proof.
      intros outer k q ds q' D. induction D as [outer q|outer k q tag n len ds q' K B T D IH|k q n len inside q1 ds q' K B D1 IH1 D2 IH2]; intros w O S.
      - exact S.
      - apply IH; [exact O|]. eapply Desc_past; [exact S|exact K|exact B|]. destruct T as [T|T]; [now left|]. right. intros ->. subst outer. discriminate.
      - destruct w; [|discriminate]. apply IH2; [reflexivity|]. apply Desc_out. apply IH1; [reflexivity|]. now apply Desc_into.
    Qed.
    Lemma dtaken_sees : forall w k q tag n dl inside p, 0 < k -> sees_desc f d0 e0 (k :: w) q -> descriptor_at f q tag n dl -> dtaken (outermost w) q tag n dl inside p ->
      sees_desc f d0 e0 (k - (n + dl) :: w) p.
    Proof.
      intros w k q tag n dl inside p K S D [(T & -> & ->)|(-> & O & R)].
      - eapply Desc_past; [exact S|exact K|exact D|]. destruct T as [T|T]; [now left|]. right. intros ->. discriminate.
      - destruct w; [|discriminate]. apply Desc_out. eapply descs_sees; [exact R|reflexivity|]. now apply Desc_into.
    Qed.
    Lemma dtaken_first : forall outer k q tag n dl inside p ds q', 0 < k -> descriptor_at f q tag n dl -> dtaken outer q tag n dl inside p -> descs f outer (k - (n + dl)) p ds q' ->
      descs f outer k q (DNode tag (q + n) inside :: ds) q'.
    Proof.
      intros outer k q tag n dl inside p ds q' K D [(T & -> & ->)|(-> & -> & R)] C.
      - eapply Descs_past; [exact K|exact D|exact T|exact C].
      - eapply Descs_into; [exact K|exact D|exact R|exact C].
    Qed.
    Lemma tdesc_loop : forall {S} w len (body : N -> N -> S -> R S) (Inv : list dnode -> S -> Prop), len < 2 ^ 62 ->
      (forall tag dl s q n k ds, 0 < k -> sees_desc f d0 e0 (k :: w) q -> descriptor_at f q tag n dl -> Inv ds s ->
        yes (body tag dl s) (q + n) (fun s' p => exists inside, dtaken (outermost w) q tag n dl inside p /\ Inv (ds ++ [DNode tag (q + n) inside]) s')) ->
      forall fuel parsed s ds p, sees_desc f d0 e0 (len - parsed :: w) p -> Inv ds s ->
        yes (desc_loop fuel m len body parsed s) p (fun s' p' => exists rs, descs f (outermost w) (len - parsed) p rs p' /\ Inv (ds ++ rs) s').
    Proof.
      intros S w len body Inv Ll B. induction fuel as [|fuel IH]; intros parsed s ds p K I; cbn [desc_loop]; [right; discriminate|].
      destruct (parsed <? len) eqn:E; [|apply yes_ret; exists []; rewrite app_nil_r; split; [replace (len - parsed) with 0 by lia; constructor|exact I]].
      eapply yes_bind; [apply (yes_desc_head f Lf)|]. intros [[tag n] dl] p1 [-> D]. destruct (desc_small f Lf _ _ _ _ D) as [L1 L2].
      eapply yes_bind; [eapply B; [|exact K|exact D|exact I]; lia|]. cbv beta. intros s' p2 (inside & Tk & I2).
      assert (W : two64 = 4 * 2 ^ 62) by reflexivity. assert (W2 : 2 ^ 28 < 2 ^ 62) by reflexivity.
      eapply yes_bind; [apply (yes_lift f _ _ (n + dl)); right; unfold add64; destruct (n + dl <? two64) eqn:X; [reflexivity|rewrite W in X; lia]|].
      intros k p3 [-> ->].
      eapply yes_bind; [apply (yes_lift f _ _ (parsed + (n + dl))); right; unfold add64; destruct (parsed + (n + dl) <? two64) eqn:X; [reflexivity|rewrite W in X; lia]|].
      intros k p3 [-> ->]. assert (K2 : sees_desc f d0 e0 (len - parsed - (n + dl) :: w) p2) by (eapply dtaken_sees; [|exact K|exact D|exact Tk]; lia).
      replace (len - parsed - (n + dl)) with (len - (parsed + (n + dl))) in K2 by lia.
      eapply yes_weak; [eapply IH; [exact K2|exact I2]|]. cbv beta. intros s2 p4 (rs & C & I4). exists (DNode tag (p + n) inside :: rs). rewrite <- app_assoc in I4. split; [|exact I4].
      eapply dtaken_first; [lia|exact D|exact Tk|]. now replace (len - parsed - (n + dl)) with (len - (parsed + (n + dl))) by lia.
    Qed.
    (** What the specific configurations say, or else [i]. *)
    Definition specific (i : mp4a) (ds : list dnode) (j : mp4a) : Prop :=
      match last_opt (tagged_as 5 ds) with
      | None => ma_channels j = ma_channels i /\ ma_rate j = ma_rate i
      | Some c => ds_means (slice f (dn_at c) 2) (ma_channels j) (ma_rate j)
      end.
    Definition dc_inv (i : mp4a) (ds : list dnode) (j : mp4a) : Prop := ma_max j = ma_max i /\ ma_avg j = ma_avg i /\ specific i ds j.
    Lemma tdc_body : forall i tag dl j q n k k' ds, 0 < k -> sees_desc f d0 e0 [k; k'] q -> descriptor_at f q tag n dl -> dc_inv i ds j ->
      yes (dc_body m tag dl j) (q + n) (fun j' p => exists inside, dtaken false q tag n dl inside p /\ dc_inv i (ds ++ [DNode tag (q + n) inside]) j').
    Proof.
      intros i tag dl j q n k k' ds K0 K D (E1 & E2 & E3). unfold dc_body. destruct (desc_small f Lf _ _ _ _ D) as [L1 L2].
      assert (W2 : 2 ^ 28 < 2 ^ 62) by reflexivity. assert (W3 : 2 ^ 63 = 2 * 2 ^ 62) by reflexivity. destruct (tag =? 5) eqn:T.
      - unfold parse_ds_desc. eapply yes_bind; [eapply yes_tri, (ErrProofs.tri_u16 f Lf)|]. cbv beta. intros v p (-> & -> & L). cbv zeta.
        destruct (N.lt_ge_cases dl 2) as [C|C].
        { apply N.eqb_eq in T. subst tag. left. eapply Short_config; [exact En|eapply ErrProofs.descs_look; exact K|exact D|exact C]. }
        eapply yes_bind; [apply (yes_lift f _ _ (dl - 2)); right; unfold sub64; destruct (2 <=? dl) eqn:X; [reflexivity|lia]|]. cbv beta. intros x p [-> ->].
        eapply yes_bind; [apply (yes_seek_on f Lf); lia|]. cbv beta. intros u p [-> _]. apply yes_ret. exists []. split; [left; split; [now right|split; [reflexivity|lia]]|].
        split; [exact E1|]. split; [exact E2|]. unfold specific, tagged_as. rewrite filter_app. cbn [filter]. unfold dn_tag at 2. rewrite T, last_opt_app. cbn [last_opt fold_left dn_at ma_channels ma_rate].
        apply slice_means, L.
      - eapply yes_bind; [eapply (lseek_desc f Lf a0 size0'); [reflexivity|exact D]|]. cbv beta. intros u p ->. apply yes_ret. exists []. split; [left; split; [now right|split; reflexivity]|].
        split; [exact E1|]. split; [exact E2|]. unfold specific, tagged_as in *. rewrite filter_app. cbn [filter]. unfold dn_tag at 2. rewrite T, app_nil_r. exact E3.
    Qed.
    Definition es_inv (ds : list dnode) (j : mp4a) : Prop :=
      ma_max j = option_map (fun c => field f (dn_at c + 5) 4) (last_opt (tagged_as 4 ds)) /\ ma_avg j = option_map (fun c => field f (dn_at c + 9) 4) (last_opt (tagged_as 4 ds)) /\
      specific mp4a_default (flat_map dn_inside (tagged_as 4 ds)) j.
    Lemma tes_body : forall fuel tag dl j q n k ds, 0 < k -> sees_desc f d0 e0 [k] q -> descriptor_at f q tag n dl -> es_inv ds j ->
      yes (es_body fuel m tag dl j) (q + n) (fun j' p => exists inside, dtaken true q tag n dl inside p /\ es_inv (ds ++ [DNode tag (q + n) inside]) j').
    Proof.
      intros fuel tag dl j q n k ds K0 K D (E1 & E2 & E3). unfold es_body. destruct (desc_small f Lf _ _ _ _ D) as [L1 L2]. assert (W2 : 2 ^ 28 < 2 ^ 62) by reflexivity.
      pose proof (proj1 D) as Ln. destruct (tag =? 4) eqn:T.
      - apply N.eqb_eq in T. subst tag. unfold parse_dc_desc.
        eapply yes_bind; [apply (yes_near f Lf 5); [exact Ln|reflexivity]|]. cbv beta. intros u p1 ->.
        eapply yes_bind; [eapply yes_tri, (ErrProofs.tri_u32 f Lf)|]. cbv beta. intros mx p2 (-> & -> & La).
        eapply yes_bind; [eapply yes_tri, (ErrProofs.tri_u32 f Lf)|]. cbv beta. intros av p3 (-> & -> & Lb).
        replace (q + n + 5 + 4 + 4) with (q + n + 13) by lia. replace (q + n + 5 + 4) with (q + n + 9) by lia. set (i := Mp4a _ _ _ _).
        eapply yes_weak; [apply (fun A B C D => tdesc_loop [k - (n + dl)] dl (dc_body m) (dc_inv i) A B fuel 13 i [] _ C D); [lia|intros; eapply tdc_body; eassumption|now apply Desc_into|]|].
        + split; [reflexivity|]. split; [reflexivity|]. split; reflexivity.
        + cbv beta. cbn [app outermost]. intros j' p (rs & R & M1 & M2 & Sp). exists rs. split; [right; auto|]. unfold es_inv, tagged_as. rewrite filter_app. cbn [filter dn_tag].
          change (4 =? 4) with true. cbv iota. rewrite last_opt_app. cbn [last_opt fold_left option_map dn_at]. split; [exact M1|]. split; [exact M2|].
          rewrite flat_map_app. cbn [flat_map dn_inside]. rewrite app_nil_r. unfold specific, tagged_as in *. rewrite filter_app, last_opt_app.
          destruct (last_opt (filter _ rs)); [exact Sp|]. subst i. cbn [ma_channels ma_rate] in Sp. destruct Sp as [-> ->]. exact E3.
      - eapply yes_bind; [eapply (lseek_desc f Lf a0 size0'); [reflexivity|exact D]|]. cbv beta. intros u p ->. apply yes_ret. exists []. split; [left; split; [left; lia|split; reflexivity]|].
        unfold es_inv, tagged_as in *. rewrite filter_app. cbn [filter]. unfold dn_tag at 2 4 6. rewrite T, app_nil_r. auto.
    Qed.
    Lemma tesds : forall fuel h, head_at f a0 h -> size0' = lenof h -> d0 = a0 + hlof h + 4 ->
      yes (parse_esds fuel m mp4a_default (hd_size h)) (a0 + hlof h) (fun j _ => exists n len ds q', descriptor_at f d0 3 n len /\ descs f true (N.min len (e0 - (d0 + n)) - 3) (d0 + n + 3) ds q' /\ es_inv ds j).
    Proof.
      intros fuel h H Es Ed. unfold parse_esds.
      eapply yes_bind; [apply (yes_full f Lf)|]. cbv beta. intros vf p1 (-> & -> & Lp). cbn [fst snd]. destruct (negb (_ =? 0)) eqn:EV; [apply yes_fail|].
      rewrite <- Ed in *. eapply yes_bind; [apply (yes_desc_head f Lf)|]. intros [[tag n] dl] p [-> D]. destruct (negb (tag =? 3)) eqn:T; [apply yes_fail|].
      apply negb_false_iff, N.eqb_eq in T. subst tag.
      destruct (head_sound_at m f Lf a0 h) as [F|[Ec Sz]]; [right; exists p0, size0, size0', d0; exact En|exact H|now left|]. rewrite Ec.
      eapply yes_bind; [apply (yes_lift f _ _ (lenof h - hlof h)); now right|]. intros c p [-> ->].
      destruct (desc_small f Lf _ _ _ _ D) as [L1 L2]. assert (W2 : 2 ^ 28 < 2 ^ 62) by reflexivity.
      destruct (N.lt_ge_cases (lenof h) (hlof h + 4 + n)) as [C|C]; [left; eapply Short_esds; [exact En|exact D|lia]|].
      eapply yes_bind; [apply (yes_lift f _ _ (lenof h - hlof h - 4)); right; unfold sub64; destruct (4 <=? _) eqn:X; [reflexivity|lia]|].
      intros c4 p [-> ->].
      eapply yes_bind; [apply (yes_lift f _ _ (lenof h - hlof h - 4 - n)); right; unfold sub64; destruct (n <=? _) eqn:X; [reflexivity|lia]|].
      intros mx p [-> ->]. unfold parse_es_desc. eapply yes_bind; [apply (yes_near f Lf 3); [exact (proj1 D)|reflexivity]|]. cbv beta. intros u p ->.
      assert (Em : lenof h - hlof h - 4 - n = e0 - (d0 + n)) by lia. rewrite Em.
      eapply yes_weak; [apply (fun A B C D => tdesc_loop [] (N.min dl (e0 - (d0 + n))) (es_body fuel m) es_inv A B fuel 3 mp4a_default [] _ C D); [lia|intros; eapply tes_body; eassumption|now apply Desc_first|]|].
      - split; [reflexivity|]. split; [reflexivity|]. split; reflexivity.
      - cbv beta. cbn [app outermost]. intros j p (rs & R & I). exists n, dl, rs, p. auto.
    Qed.
  End Entry.
  Definition entry_says (n : node) (j : mp4a) : Prop := sound_says f n (ReadProofs.audio_of j).
  Lemma tmp4a : forall fuel k w q h, spot ((InStsd, k) :: w) q h -> fourcc_eqb (hd_fourcc h) MP4_AUDIO = true -> yes (mp4a_parse fuel m (hd_size h)) (q + hlof h) (said entry_says InStsd q h).
  Proof.
    intros fuel k w q h P E. pose proof (proj2 (proj2 P)) as H. unfold mp4a_parse. eapply yes_bind; [apply yes_post, (post_bounds m f Lf); exact H|]. intros b p [-> ->].
    eapply yes_bind; [apply (yes_near f Lf 28); [exact (ErrProofs.spot_in f _ q h P)|reflexivity]|]. cbv beta. intros u p ->.
    eapply yes_bind; [apply (yes_head f Lf)|]. intros h' p [H' ->]. destruct (negb _) eqn:E'; [apply yes_fail|]. apply negb_false_iff in E'.
    assert (En : entry_at f q (lenof h) (q + hlof h + 28) (lenof h') (q + hlof h + 28 + hlof h' + 4)).
    { destruct (ErrProofs.spot_place f _ q h P) as (w' & [K _] & Lv). exists w', (hlof h), (hlof h'). split; [exact K|]. split; [now rewrite Lv|]. split; [exact (fourcc_is _ _ _ _ H E)|]. split; [reflexivity|].
      split; [exact (fourcc_is _ _ _ _ H' E')|reflexivity]. }
    apply (yes_bind _ _ _ _ (fun r p => entry_says (node_of q h []) r /\ p <= q + lenof h)).
    - destruct (tesds _ _ _ _ _ _ En eq_refl fuel h' H' eq_refl eq_refl) as [F|B1]; [now left|].
      destruct (yes_post _ _ _ _ (post_esds m f Lf _ _ _ _ _ En fuel mp4a_default h' H' eq_refl eq_refl)) as [F|B2]; [now left|].
      destruct (parse_esds fuel m mp4a_default (hd_size h') f (q + hlof h + 28 + hlof h')) as [[r p]|e|x|] eqn:Y; try (right; intros a p' Z; rewrite Y in Z; discriminate).
      specialize (B2 _ _ eq_refl). destruct (N.lt_ge_cases (q + lenof h) p) as [C|C]; [left; eapply Long_descriptor; [exact En|exact B2|exact C]|].
      right. intros a p' Z. rewrite Y in Z. injection Z as <- <-. split; [|exact C]. destruct (B1 _ _ eq_refl) as (n & len & ds & q' & D & R & M1 & M2 & Sp).
      exists (hlof h'), (lenof h'), n, len, ds, q'. cbv zeta. unfold n_start, node_of, n_at, n_head. split; [exact (fourcc_is _ _ _ _ H' E')|]. split; [exact D|]. split; [exact R|].
      split; [exact M1|]. split; [exact M2|]. exact Sp.
    - intros r p [Xr L]. eapply yes_bind; [apply (yes_to_end m f Lf ((InStsd, k) :: w)); [exact P|exact L]|]. cbv beta. intros v p' [-> Lt]. apply yes_ret. exists []. split; [left; auto|exact Xr].
  Qed.

  (** * Tracks *)

  Definition stsd_says := inner_says (id4 "mp4a") entry_says.
  Lemma tstsd : forall fuel k w q h, spot ((InStbl, k) :: w) q h -> fourcc_eqb (hd_fourcc h) SAMPLE_TABLE_SAMPLE_DESCRIPTION = true -> yes (stsd_parse fuel m (hd_size h)) (q + hlof h) (said stsd_says InStbl q h).
  Proof.
    intros fuel k w q h P E. unfold stsd_parse. assert (O : opens InStbl (hd_fourcc h) = Some (InStsd, 8)) by (unfold opens; change (id4 "stsd") with SAMPLE_TABLE_SAMPLE_DESCRIPTION; now rewrite E).
    eapply yes_bind; [apply (yes_full f Lf)|]. cbv beta. intros vf p1 (-> & -> & L1). cbn [fst snd]. destruct (negb _) eqn:EV; [apply yes_fail|].
    eapply yes_bind; [apply (yes_near f Lf 4); [exact L1|reflexivity]|]. cbv beta. intros u p2 ->. replace (q + hlof h + 4 + 4) with (q + hlof h + 8) by lia.
    eapply (tcontainer _ (lastly (id4 "mp4a") entry_says)); [exact P|exact O| |exact I].
    intros h' s ns q' k' w' P' I'. unfold stsd_body. eapply tchild; [exact P'|exact I'|reflexivity|intros Y; eapply tmp4a; [exact P'|exact Y]].
  Qed.
  Definition stbl_says := inner_says (id4 "stsd") stsd_says.
  Lemma tstbl : forall fuel k w q h, spot ((InMinf, k) :: w) q h -> fourcc_eqb (hd_fourcc h) SAMPLE_TABLE = true -> yes (stbl_parse fuel m (hd_size h)) (q + hlof h) (said stbl_says InMinf q h).
  Proof.
    intros fuel k w q h P E. unfold stbl_parse. assert (O : opens InMinf (hd_fourcc h) = Some (InStbl, 0)) by (unfold opens; change (id4 "stbl") with SAMPLE_TABLE; now rewrite E).
    eapply (tbox0 _ (lastly (id4 "stsd") stsd_says)); [exact P|exact O| |exact I].
    intros h' s ns q' k' w' P' I'. unfold stbl_body. eapply tchild; [exact P'|exact I'| |intros Y; eapply tstsd; [exact P'|exact Y]].
    intros N. unfold opens. now rewrite N.
  Qed.
  Definition minf_says := inner_says (id4 "stbl") stbl_says.
  Lemma tminf : forall fuel k w q h, spot ((InMdia, k) :: w) q h -> fourcc_eqb (hd_fourcc h) MEDIA_INFORMATION = true -> yes (minf_parse fuel m (hd_size h)) (q + hlof h) (said minf_says InMdia q h).
  Proof.
    intros fuel k w q h P E. unfold minf_parse. assert (O : opens InMdia (hd_fourcc h) = Some (InMinf, 0)) by (unfold opens; change (id4 "minf") with MEDIA_INFORMATION; now rewrite E).
    eapply (tbox0 _ (lastly (id4 "stbl") stbl_says)); [exact P|exact O| |exact I].
    intros h' s ns q' k' w' P' I'. unfold minf_body. eapply tchild; [exact P'|exact I'| |intros Y; eapply tstbl; [exact P'|exact Y]].
    intros N. unfold opens. now rewrite N.
  Qed.
  Definition mdia_says := inner_says (id4 "minf") minf_says.
  Lemma tmdia : forall fuel k w q h, spot ((InTrak, k) :: w) q h -> fourcc_eqb (hd_fourcc h) MEDIA = true -> yes (mdia_parse fuel m (hd_size h)) (q + hlof h) (said mdia_says InTrak q h).
  Proof.
    intros fuel k w q h P E. unfold mdia_parse. assert (O : opens InTrak (hd_fourcc h) = Some (InMdia, 0)) by (unfold opens; change (id4 "mdia") with MEDIA; now rewrite E).
    eapply (tbox0 _ (lastly (id4 "minf") minf_says)); [exact P|exact O| |exact I].
    intros h' s ns q' k' w' P' I'. unfold mdia_body. eapply tchild; [exact P'|exact I'| |intros Y; eapply tminf; [exact P'|exact Y]].
    intros N. unfold opens. now rewrite N.
  Qed.
  Definition trak_says := inner_says (id4 "mdia") mdia_says.
  Lemma ttrak : forall fuel k w q h, spot ((InMoov, k) :: w) q h -> fourcc_eqb (hd_fourcc h) TRACK = true -> yes (trak_parse fuel m (hd_size h)) (q + hlof h) (said trak_says InMoov q h).
  Proof.
    intros fuel k w q h P E. unfold trak_parse. assert (O : opens InMoov (hd_fourcc h) = Some (InTrak, 0)) by (apply fourcc_eqb_eq in E; rewrite E; reflexivity).
    eapply (tbox0 _ (lastly (id4 "mdia") mdia_says)); [exact P|exact O| |exact I].
    intros h' s ns q' k' w' P' I'. unfold trak_body. eapply tchild; [exact P'|exact I'| |intros Y; eapply tmdia; [exact P'|exact Y]].
    intros N. unfold opens. now rewrite N.
  Qed.

  (** * The movie *)

  Definition moov_inv (ns : list node) (r : moov) : Prop :=
    lastly (id4 "mvhd") (header_says f) ns (mv_mvhd r) /\ Forall2 trak_says (filter (named (id4 "trak")) ns) (mv_trak r) /\ lastly (id4 "udta") udta_says ns (mv_udta r).
  Lemma tmoov_body : forall fuel k w q h r ns, spot ((InMoov, k) :: w) q h -> moov_inv ns r -> yes (moov_body fuel m h r) (q + hlof h) (adds moov_inv ns InMoov q h).
  Proof.
    intros fuel k w q h r ns P (IH & IT & IU). unfold moov_body. cbv zeta.
    destruct (fourcc_eqb (hd_fourcc h) MOVIE_HEADER) eqn:E1; [|destruct (fourcc_eqb (hd_fourcc h) TRACK) eqn:E2; [|destruct (fourcc_eqb (hd_fourcc h) USER_DATA) eqn:E3]].
    - eapply yes_bind; [eapply tmvhd; [exact P|exact E1]|]. intros d p (inside & Tk & X). apply yes_ret. exists inside. split; [exact Tk|]. apply fourcc_eqb_eq in E1.
      unfold moov_inv, lastly in *. rewrite filter_app, !final_snoc. cbn [filter mv_mvhd mv_trak mv_udta]. unfold named, node_of, n_id in *. rewrite E1 in *.
      change (fourcc_eqb MOVIE_HEADER (id4 "mvhd")) with true. change (fourcc_eqb MOVIE_HEADER (id4 "trak")) with false. change (fourcc_eqb MOVIE_HEADER (id4 "udta")) with false. rewrite app_nil_r. auto.
    - eapply yes_bind; [eapply ttrak; [exact P|exact E2]|]. intros d p (inside & Tk & X). apply yes_ret. exists inside. split; [exact Tk|]. apply fourcc_eqb_eq in E2.
      unfold moov_inv, lastly in *. rewrite filter_app, !final_snoc. cbn [filter mv_mvhd mv_trak mv_udta]. unfold named, node_of, n_id in *. rewrite E2 in *.
      change (fourcc_eqb TRACK (id4 "mvhd")) with false. change (fourcc_eqb TRACK (id4 "trak")) with true. change (fourcc_eqb TRACK (id4 "udta")) with false.
      split; [exact IH|]. split; [|exact IU]. apply Forall2_app; [exact IT|]. constructor; [exact X|constructor].
    - eapply yes_bind; [eapply tudta; [exact P|exact E3]|]. intros d p (inside & Tk & X). apply yes_ret. exists inside. split; [exact Tk|]. apply fourcc_eqb_eq in E3.
      unfold moov_inv, lastly in *. rewrite filter_app, !final_snoc. cbn [filter mv_mvhd mv_trak mv_udta]. unfold named, node_of, n_id in *. rewrite E3 in *.
      change (fourcc_eqb USER_DATA (id4 "mvhd")) with false. change (fourcc_eqb USER_DATA (id4 "trak")) with false. change (fourcc_eqb USER_DATA (id4 "udta")) with true. rewrite app_nil_r. auto.
    - eapply tskip; [exact P|unfold opens; change (id4 "trak") with TRACK; change (id4 "udta") with USER_DATA; now rewrite E2, E3|].
      unfold moov_inv, lastly in *. rewrite filter_app, !final_snoc. cbn [filter]. unfold named, node_of, n_id in *.
      change (id4 "mvhd") with MOVIE_HEADER. change (id4 "trak") with TRACK. change (id4 "udta") with USER_DATA. rewrite E1, E2, E3, app_nil_r. auto.
  Qed.
  Lemma tfind : forall inn len fuel parsed p, len < 2 ^ 62 -> sees f [(Top, len - parsed)] p ->
    yes (find_moov fuel m inn len parsed) p (fun r _ => exists mo, first_movie f (len - parsed) p mo /\ moov_inv (n_inside mo) r).
  Proof.
    intros inn len fuel parsed p Ll. revert parsed p. induction fuel as [|fuel IH]; intros parsed p K; cbn [find_moov]; [right; discriminate|].
    destruct (len <=? parsed) eqn:E; [apply yes_fail|]. eapply yes_bind; [apply (yes_head f Lf)|]. intros h p1 [H ->].
    assert (P : spot [(Top, len - parsed)] p h) by (split; [exists Top, (len - parsed), []; split; [reflexivity|lia]|split; [exact K|exact H]]).
    destruct (fourcc_eqb _ MOVIE) eqn:EM.
    - unfold moov_parse. eapply yes_weak; [eapply (tbox0 _ moov_inv); [exact P|unfold opens; change (id4 "moov") with MOVIE; now rewrite EM|intros; eapply tmoov_body; eassumption|]|].
      + split; [exact I|]. split; [constructor|exact I].
      + intros r q (inside & Tk & X). apply fourcc_eqb_eq in EM. exists (node_of p h inside). split; [|exact X]. destruct Tk as [(O & _)|(l' & d & O & C)]; [rewrite EM in O; discriminate|].
        rewrite EM in O. injection O as <- <-. unfold node_of. rewrite EM. rewrite N.sub_0_r, N.add_0_r in C. eapply Movie_here; [lia| |exact C].
        unfold head_at in H. rewrite EM in H. exact H.
    - assert (O : opens Top (hd_fourcc h) = None) by (unfold opens; change (id4 "moov") with MOVIE; now rewrite EM).
      eapply yes_bind; [eapply (yes_skip m f Lf); exact P|]. cbv beta. intros u p2 [-> L].
      destruct (ErrProofs.spot_sound m f Lf _ p h P) as [F|[_ Sz]]; [now left|]. assert (W : two64 = 4 * 2 ^ 62) by reflexivity. assert (W3 : 2 ^ 63 = 2 * 2 ^ 62) by reflexivity.
      eapply yes_bind; [apply (yes_lift f _ _ (parsed + lenof h)); right; unfold add64; destruct (parsed + lenof h <? two64) eqn:X; [reflexivity|rewrite W in X; lia]|].
      intros x p3 [-> ->]. assert (K2 : sees f [(Top, len - parsed - lenof h)] (p + lenof h)) by (eapply Sees_past; [exact K|lia|exact H|exact O]).
      replace (len - parsed - lenof h) with (len - (parsed + lenof h)) in K2 by lia. eapply yes_weak; [apply IH, K2|]. cbv beta. intros r q (mo & Fm & X). exists mo. split; [|exact X].
      eapply Movie_behind; [lia|exact H|intros Z; rewrite Z in EM; discriminate|]. now replace (len - parsed - lenof h) with (len - (parsed + lenof h)) by lia.
  Qed.

  (** From the nested results to the specification. *)
  Lemma info_is : forall mo r, moov_inv (n_inside mo) r -> info_says f mo (moov_info r).
  Proof.
    intros mo r (IH & IT & _). exists (mv_mvhd r), (map (fun t => option_map ReadProofs.audio_of (trak_mp4a t)) (mv_trak r)). split; [exact IH|]. split.
    - induction IT as [|n t ns ts X F IHl]; cbn [map]; [constructor|]. constructor; [|exact IHl]. unfold sample_entry.
      assert (Y : both entry_says (final (id4 "mp4a") (within_it (final (id4 "stsd") (within_it (final (id4 "stbl") (within_it (final (id4 "minf") (within_it (final (id4 "mdia") (n_inside n))))))))))
                    (trak_mp4a t)).
      { unfold trak_mp4a. apply (both_join entry_says (final (id4 "mp4a"))); [reflexivity|]. apply (both_join stsd_says (final (id4 "stsd"))); [reflexivity|].
        apply (both_join stbl_says (final (id4 "stbl"))); [reflexivity|]. apply (both_join minf_says (final (id4 "minf"))); [reflexivity|]. exact X. }
      destruct (final (id4 "mp4a") _), (trak_mp4a t); exact Y.
    - clear. unfold moov_info. generalize (mv_mvhd r) as d. intros d. induction (mv_trak r) as [|t l IH]; [reflexivity|]. cbn [find_map map first_some].
      destruct (trak_mp4a t) as [a|]; [reflexivity|exact IH].
  Qed.
  Lemma items_are : forall mo r, moov_inv (n_inside mo) r -> items_say f mo (moov_atoms r).
  Proof.
    intros mo r (_ & _ & IU). unfold items_say, item_nodes, moov_atoms.
    assert (Y : both ilst_says (final (id4 "ilst") (within_it (final (id4 "meta") (within_it (final (id4 "udta") (n_inside mo)))))) (ojoin (ojoin (mv_udta r)))).
    { apply (both_join ilst_says (final (id4 "ilst"))); [reflexivity|]. apply (both_join meta_says (final (id4 "meta"))); [reflexivity|]. exact IU. }
    destruct (final (id4 "ilst") _) as [n|], (ojoin (ojoin (mv_udta r))) as [l|]; try contradiction; cbn [both within_it] in *.
    - destruct Y as (raw & Fr & ->). exists raw. split; [exact Fr|]. apply ReadProofs.merged_fold.
    - exists []. split; [constructor|]. split; [reflexivity|]. intros j. reflexivity.
  Qed.
  Lemma tread : forall fuel, yes (read_tag_from fuel m) 0 (fun t _ => holds f t).
  Proof.
    intros fuel. unfold read_tag_from. assert (W : two63 = 2 ^ 63) by reflexivity. assert (W3 : 2 ^ 63 = 2 * 2 ^ 62) by reflexivity.
    apply (yes_bind _ _ _ _ (fun s q => exists hd, box_at f 0 (id4 "ftyp") hd q /\ text8 (slice f hd (q - hd)) s /\ 0 < q <= blen f)).
    - unfold ftyp_parse. eapply yes_bind; [apply (yes_head f Lf)|]. intros h p1 [H ->]. destruct (negb _) eqn:E; [apply yes_fail|]. apply negb_false_iff in E.
      pose proof (box_head _ _ _ _ _ H) as Lh. pose proof (proj1 H) as Li.
      assert (P : spot [(Top, blen f)] 0 h) by (split; [exists Top, (blen f), []; split; [reflexivity|lia]|split; [constructor|exact H]]).
      eapply yes_bind; [eapply (yes_content m f Lf); exact P|]. cbv beta. intros c p2 (-> & -> & Sz).
      eapply yes_weak; [apply yes_text8; lia|]. cbv beta. intros s q (-> & Lq & U). exists (hlof h).
      replace (0 + hlof h + (lenof h - hlof h)) with (lenof h) in * by lia. split; [|split; [exact U|lia]]. apply fourcc_eqb_eq in E. unfold head_at in H. rewrite E in H. exact H.
    - intros s q (hd & B & Tx & Lq). apply (yes_bind _ _ _ _ (fun n p => n = blen f - q /\ p = q)).
      + right. unfold remaining_stream_len, bind, position, seek_end, lift, sub64. destruct (q <=? blen f) eqn:X; [|lia].
        unfold seek_start. destruct (q <? two63) eqn:Y; [|rewrite W in Y; lia]. cbn. intros a p' Z. injection Z as <- <-. auto.
      + intros n p2 [-> ->]. assert (K : sees f [(Top, blen f - q - 0)] q).
        { rewrite N.sub_0_r. apply (Sees_past f Top (blen f) [] 0 (id4 "ftyp") hd q (Sees_start f) ltac:(lia) B eq_refl). }
        eapply yes_bind; [apply tfind; [lia|exact K]|]. cbv beta. intros r p3 (mo & Fm & X). apply yes_ret. split; [exists hd, q; auto|].
        exists mo. split; [|split; [now apply info_is|now apply items_are]]. rewrite N.sub_0_r in Fm. eapply (Movie_behind f (blen f) 0 (id4 "ftyp") hd q); [lia|exact B|discriminate|exact Fm].
  Qed.
End Tree.

(** * The tag that is read *)

Lemma read_holds : forall fuel m f t, blen f < 2 ^ 62 -> read_tag fuel m f = Ok t -> flaw f \/ holds f t.
Proof.
  intros fuel m f t L E. unfold read_tag in E. destruct (tread m f L fuel) as [F|F]; [now left|]. right.
  destruct (read_tag_from fuel m f 0) as [[a p]|x|x|]; try discriminate. injection E as <-. exact (F _ _ eq_refl).
Qed.

(** * A file holds one tag *)

Lemma contents_det : forall f l k q ns q', contents f l k q ns q' -> forall ns2 q2, contents f l k q ns2 q2 -> ns = ns2 /\ q' = q2.
Proof.
  intros f l k q ns q' C. induction C as [l q|l k q id hd sz ns q' K B O C IH|l k q id hd sz l' d inside q1 ns q' K B O C1 IH1 C2 IH2]; intros ns2 q2 D.
  - inversion D; subst; [auto|lia|lia].
  - inversion D as [|? ? ? id' hd' sz' ns' ? K' B' O' C'|? ? ? id' hd' sz' l2 d' inside' q1' ns' ? K' B' O' C1' C2']; subst; [lia| |]; destruct (box_fun _ _ _ _ _ _ _ _ B B') as (<- & <- & <-).
    + destruct (IH _ _ C') as [-> ->]. auto.
    + congruence.
  - inversion D as [|? ? ? id' hd' sz' ns' ? K' B' O' C'|? ? ? id' hd' sz' l2 d' inside' q1' ns' ? K' B' O' C1' C2']; subst; [lia| |]; destruct (box_fun _ _ _ _ _ _ _ _ B B') as (<- & <- & <-).
    + congruence.
    + rewrite O in O'. injection O' as <- <-. destruct (IH1 _ _ C1') as [-> ->]. destruct (IH2 _ _ C2') as [-> ->]. auto.
Qed.
Lemma movie_det : forall f k q mo, first_movie f k q mo -> forall mo2, first_movie f k q mo2 -> mo = mo2.
Proof.
  intros f k q mo M. induction M as [k q hd sz inside q' K B C|k q id hd sz mo K B N M IH]; intros mo2 M2; inversion M2 as [? ? hd' sz' inside' q2 K' B' C'|? ? id' hd' sz' ? K' B' N' M']; subst;
    destruct (box_fun _ _ _ _ _ _ _ _ B B') as (E & <- & <-).
  - destruct (contents_det _ _ _ _ _ _ C _ _ C') as [-> _]. reflexivity.
  - congruence.
  - congruence.
  - now apply IH.
Qed.
Lemma descs_det : forall f o k q ds q', descs f o k q ds q' -> forall ds2 q2, descs f o k q ds2 q2 -> ds = ds2 /\ q' = q2.
Proof.
  intros f o k q ds q' C. induction C as [o q|o k q tag n len ds q' K B T C IH|k q n len inside q1 ds q' K B C1 IH1 C2 IH2]; intros ds2 q2 D.
  - inversion D; subst; [auto|lia|lia].
  - inversion D as [|? ? ? tag' n' len' ds' ? K' B' T' C'|? ? n' len' inside' q1' ds' ? K' B' C1' C2']; subst; [lia| |]; destruct (desc_fun _ _ _ _ _ _ _ _ B B') as (? & <- & <-).
    + subst tag'. destruct (IH _ _ C') as [-> ->]. auto.
    + exfalso. destruct T as [T|T]; [congruence|discriminate].
  - inversion D as [|? ? ? tag' n' len' ds' ? K' B' T' C'|? ? n' len' inside' q1' ds' ? K' B' C1' C2']; subst; [lia| |]; destruct (desc_fun _ _ _ _ _ _ _ _ B B') as (? & <- & <-).
    + exfalso. destruct T' as [T'|T']; [congruence|discriminate].
    + destruct (IH1 _ _ C1') as [-> ->]. destruct (IH2 _ _ C2') as [-> ->]. auto.
Qed.
Lemma both_det : forall {A B} (P : A -> B -> Prop) x y y', (forall a b b', P a b -> P a b' -> b = b') -> both P x y -> both P x y' -> y = y'.
Proof. intros A B P [a|] [b|] [b'|] D H H'; cbn [both] in *; try contradiction; [|reflexivity]. now rewrite (D _ _ _ H H'). Qed.
Lemma all_det : forall {A B} (P : A -> B -> Prop) l x y, (forall a b b', P a b -> P a b' -> b = b') -> Forall2 P l x -> Forall2 P l y -> x = y.
Proof.
  intros A B P l x y D H. revert y. induction H as [|a b l x H F IH]; intros y H'; inversion H'; subst; [reflexivity|]. f_equal; [eapply D; eassumption|now apply IH].
Qed.
Lemma text8_det : forall b s s', text8 b s -> text8 b s' -> s = s'.
Proof. intros b s s' [W ->] [W' E]. apply dec8_enc8 in W, W'. rewrite E, W' in W. now injection W as ->. Qed.
Lemma text16_units : forall b s, text16 b s -> dec16 (bytes_units b) = Some s.
Proof.
  intros b s (W & odd & -> & O). assert (E : bytes_units (units_bytes (enc16 s) ++ odd) = enc16 s).
  { destruct odd as [|x [|y odd]]; [rewrite app_nil_r; apply bytes_units_units_bytes; now apply enc16_units| |rewrite !blen_cons in O; lia].
    rewrite (units_bytes_odd (List.length (units_bytes (enc16 s)))); [apply bytes_units_units_bytes; now apply enc16_units|lia|].
    pose proof (blen_units_bytes (enc16 s)) as L. unfold blen in L. apply Nat.even_spec. exists (List.length (enc16 s)). lia. }
  rewrite E. now apply dec16_enc16.
Qed.
Lemma text16_det : forall b s s', text16 b s -> text16 b s' -> s = s'.
Proof. intros b s s' H H'. apply text16_units in H, H'. congruence. Qed.
Lemma value_det : forall f n d d', value_says f n d -> value_says f n d' -> d = d'.
Proof.
  intros f n d d' [T V] [T' V']. rewrite <- T in T'. destruct d, d'; try discriminate; f_equal; first [eapply text8_det; eassumption|eapply text16_det; eassumption|congruence].
Qed.
Lemma item_det : forall f n a a', item_says f n a -> item_says f n a' -> a = a'.
Proof.
  intros f n a a' (x & y & ds & H1 & H2 & H3 & ->) (x' & y' & ds' & H1' & H2' & H3' & ->).
  assert (D : forall n s s', name_says f n s -> name_says f n s' -> s = s') by (intros n0 s s'; apply text8_det).
  rewrite (both_det _ _ _ _ D H1 H1'), (both_det _ _ _ _ D H2 H2'), (all_det _ _ _ _ (value_det f) H3 H3'). reflexivity.
Qed.
Lemma means_det : forall b c r c' r', ds_means b c r -> ds_means b c' r' -> c = c' /\ r = r'.
Proof.
  intros b c r c' r' (_ & Hr & Hc) (_ & Hr' & Hc'). rewrite <- Hr in Hr'. rewrite <- Hc in Hc'. clear - Hr' Hc'. split.
  - destruct c as [[]|], c' as [[]|]; (reflexivity || discriminate).
  - destruct r as [[]|], r' as [[]|]; (reflexivity || discriminate).
Qed.
Lemma sound_det : forall f n a a', sound_says f n a -> sound_says f n a' -> a = a'.
Proof.
  intros f n [c r x y] [c' r' x' y'] (hd & sz & k & len & ds & q & B & D & R & M1 & M2 & Sp) (hd' & sz' & k' & len' & ds' & q' & B' & D' & R' & M1' & M2' & Sp').
  cbn [au_channels au_rate au_max au_avg] in *. destruct (box_fun _ _ _ _ _ _ _ _ B B') as (_ & <- & <-). destruct (desc_fun _ _ _ _ _ _ _ _ D D') as (_ & <- & <-).
  destruct (descs_det _ _ _ _ _ _ R _ _ R') as [<- _]. rewrite M1, M2, M1', M2'. destruct (last_opt (tagged_as 5 _)) as [d|].
  - destruct (means_det _ _ _ _ _ Sp Sp') as [-> ->]. reflexivity.
  - destruct Sp as [-> ->], Sp' as [-> ->]. reflexivity.
Qed.
Lemma header_det : forall f n d d', header_says f n d -> header_says f n d' -> d = d'.
Proof. intros f n d d' [(V & _ & _ & ->)|(V & _ & _ & ->)] [(V' & _ & _ & ->)|(V' & _ & _ & ->)]; congruence. Qed.
Lemma holds_det : forall f t t', holds f t -> holds f t' -> t = t'.
Proof.
  intros f [s i l] [s' i' l'] ((hd & sz & B & T) & mo & M & (dur & auds & H1 & H2 & Ei) & (raw & H3 & H4)) ((hd' & sz' & B' & T') & mo' & M' & (dur' & auds' & H1' & H2' & Ei') & (raw' & H3' & H4')).
  cbn [tg_ftyp tg_info tg_atoms] in *. destruct (box_fun _ _ _ _ _ _ _ _ B B') as (_ & <- & <-). rewrite <- (movie_det _ _ _ _ M _ M') in *. f_equal.
  - eapply text8_det; eassumption.
  - subst i i'. rewrite (both_det _ _ _ _ (header_det f) H1 H1'). f_equal. f_equal. refine (all_det _ _ _ _ _ H2 H2'). intros n o o' H H'. exact (both_det _ _ _ _ (sound_det f) H H').
  - rewrite <- (all_det _ _ _ _ (item_det f) H3 H3') in H4'. exact (ReadProofs.merged_det _ _ _ H4 H4').
Qed.
