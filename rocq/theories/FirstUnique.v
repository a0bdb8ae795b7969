(** A file has at most one first flaw, and none if it is read through. *)

From Coq Require Import List NArith ZArith Bool Lia String.
From Coq Require Import ZifyBool ZifyNat ZifyN.
From Verif Require Import Base BaseLemmas Types Utf TagSpec FileSpec FailSpec PanicSpec Display ErrSpec ErrExact FirstSpec.
Import ListNotations.
Local Open Scope list_scope.

(** * Paths of deterministic steps *)

Section Path.
  Context {X : Type} (go : X -> X -> Prop) (det : forall a b c, go a b -> go a c -> b = c).
  Inductive path (a : X) : X -> Prop :=
  | Here : path a a
  | Onward : forall b c, path a b -> go b c -> path a c.
  Lemma path_front : forall a b c, go a b -> path b c -> path a c.
  Proof. intros a b c G P. induction P as [|x y P IH Gx]; [eapply Onward; [constructor|exact G]|eapply Onward; eassumption]. Qed.
  Lemma path_cases : forall a c, path a c -> a = c \/ exists b, go a b /\ path b c.
  Proof.
    intros a c P. induction P as [|x y P IH G]; [now left|]. right. destruct IH as [<-|(b & Gb & Pb)]; [exists y; split; [exact G|constructor]|].
    exists b. split; [exact Gb|eapply Onward; eassumption].
  Qed.
  Definition stuck (a : X) : Prop := forall b, ~ go a b.
  Inductive ends_in (c : X) : X -> Prop :=
  | End_here : ends_in c c
  | End_later : forall a b, go a b -> ends_in c b -> ends_in c a.
  Lemma path_ends : forall a c, path a c -> ends_in c a.
  Proof.
    intros a c P. assert (G : forall c', ends_in c' c -> ends_in c' a).
    { induction P as [|x y P IH G]; [auto|]. intros c' E. apply IH. eapply End_later; eassumption. }
    apply G. constructor.
  Qed.
  Lemma stuck_eq : forall a b c, path a b -> path a c -> stuck b -> stuck c -> b = c.
  Proof.
    intros a b c P Q. apply path_ends in P. apply path_ends in Q. revert Q. induction P as [|a x G P IH]; intros Q Sb Sc.
    - destruct Q as [|b x G Q]; [reflexivity|]. exfalso. exact (Sb _ G).
    - destruct Q as [|a y G' Q]; [exfalso; exact (Sc _ G)|]. apply IH; [|exact Sb|exact Sc]. now rewrite (det _ _ _ G G').
  Qed.
End Path.

Section Unique.
  Context (f : bytes).

  (** * Parts *)

  Lemma head_no_box : forall q e s id hd sz, head_wrong f q e s -> box_at f q id hd sz -> False.
  Proof. intros q e s id hd sz W (L & _ & B). destruct W; lia. Qed.
  Lemma head_one : forall q e s e' s', head_wrong f q e s -> head_wrong f q e' s' -> e = e' /\ s = s'.
  Proof. intros q e s e' s' A B. destruct A, B; first [split; reflexivity|exfalso; lia]. Qed.
  Lemma full_one : forall p t x e s e' s', full_wrong f p t x e s -> full_wrong f p t x e' s' -> e = e' /\ s = s'.
  Proof. intros p t x e s e' s' A B. destruct A, B; first [split; reflexivity|exfalso; lia]. Qed.
  Lemma full_not : forall p t x e s, full_wrong f p t x e s -> ~ full_fine f p t.
  Proof. intros p t x e s A [B C]. destruct A; lia. Qed.
  Lemma type_one : forall e s e' s', type_wrong f e s -> type_wrong f e' s' -> e = e' /\ s = s'.
  Proof.
    intros e s e' s' A B. destruct A as [e s A|id hd sz A NA|hd sz A LA|hd sz A LA UA], B as [e' s' B|id' hd' sz' B NB|hd' sz' B LB|hd' sz' B LB UB];
      try (exfalso; eapply head_no_box; eassumption); try (eapply head_one; eassumption);
      pose proof (box_fun _ _ _ _ _ _ _ _ A B) as (E1 & E2 & E3); subst; try (split; reflexivity); try contradiction; exfalso; lia.
  Qed.
  Lemma value_one : forall q hd sz e s e' s', value_wrong f q hd sz e s -> value_wrong f q hd sz e' s' -> e = e' /\ s = s'.
  Proof.
    intros q hd sz e s e' s' A B. destruct A as [e s A| | | |], B as [e' s' B| | | |]; try (split; reflexivity); try (eapply full_one; eassumption);
      try (exfalso; eapply full_not; eassumption); try contradiction; try (exfalso; lia);
      match goal with H : ~ In ?x kinds, E : ?x = _ |- _ => exfalso; apply H; rewrite E; unfold kinds; cbn; tauto end.
  Qed.
  Lemma name_one : forall q hd sz e s e' s', name_wrong f q hd sz e s -> name_wrong f q hd sz e' s' -> e = e' /\ s = s'.
  Proof.
    intros q hd sz e s e' s' A B. destruct A as [e s A| |], B as [e' s' B| |]; try (split; reflexivity); try (eapply full_one; eassumption);
      try (exfalso; eapply full_not; eassumption); exfalso; lia.
  Qed.
  Lemma header_one : forall p e s e' s', header_wrong f p e s -> header_wrong f p e' s' -> e = e' /\ s = s'.
  Proof.
    intros p e s e' s' A B. destruct A as [e s A|], B as [e' s' B|]; try (split; reflexivity); try (eapply full_one; eassumption); exfalso; eapply full_not; eassumption.
  Qed.

  (** * Descriptors *)

  Inductive dgo : list N * N -> list N * N -> Prop :=
  | Dgo_past : forall k w q tag n len, 0 < k -> descriptor_at f q tag n len -> tag <> 4 \/ w <> [] -> (tag = 5 -> w <> [] -> q + n + 2 <= blen f) ->
      dgo (k :: w, q) (k - (n + len) :: w, q + n + len)
  | Dgo_into : forall k q n len, 0 < k -> descriptor_at f q 4 n len -> q + n + 13 <= blen f -> dgo ([k], q) ([len - 13; k - (n + len)], q + n + 13)
  | Dgo_out : forall k w q, dgo (0 :: k :: w, q) (k :: w, q).
  Lemma dgo_det : forall a b c, dgo a b -> dgo a c -> b = c.
  Proof.
    intros a b c A B. destruct A as [k w q tag n len K D T C|k q n len K D C|k w q]; inversion B as [k' w' q' tag' n' len' K' D' T' C'|k' q' n' len' K' D' C'|k' w' q']; subst; try lia.
    - destruct (desc_fun _ _ _ _ _ _ _ _ D D') as (-> & -> & ->). reflexivity.
    - exfalso. destruct (desc_fun _ _ _ _ _ _ _ _ D D') as (-> & _ & _). destruct T as [T|T]; now apply T.
    - exfalso. destruct (desc_fun _ _ _ _ _ _ _ _ D D') as (<- & _ & _). destruct T' as [T|T]; now apply T.
    - destruct (desc_fun _ _ _ _ _ _ _ _ D D') as (_ & -> & ->). reflexivity.
    - reflexivity.
  Qed.
  Lemma desc_path : forall d e w q, desc_reached f d e w q -> exists n len, descriptor_at f d 3 n len /\ path dgo ([N.min len (e - (d + n)) - 3], d + n + 3) (w, q).
  Proof.
    intros d e w q H. induction H as [n len D|k w q tag n len H (n0 & l0 & D0 & P) K D T C|k q n len H (n0 & l0 & D0 & P) K D C|k w q H (n0 & l0 & D0 & P)].
    - exists n, len. split; [exact D|constructor].
    - exists n0, l0. split; [exact D0|]. eapply Onward; [exact P|]. econstructor; eassumption.
    - exists n0, l0. split; [exact D0|]. eapply Onward; [exact P|]. econstructor; eassumption.
    - exists n0, l0. split; [exact D0|]. eapply Onward; [exact P|]. econstructor.
  Qed.
  (** If the end is reached, none is cut off. *)
  Lemma desc_end : forall d e q, desc_reached f d e [0] q -> ~ desc_cut f d e.
  Proof.
    intros d e q H (k & w & q' & R & K & W). apply desc_path in H, R. destruct H as (n & len & D & P), R as (n' & len' & D' & P').
    destruct (desc_fun _ _ _ _ _ _ _ _ D D') as (_ & <- & <-).
    assert (E : ([0], q) = (k :: w, q')).
    { eapply stuck_eq; [exact dgo_det|exact P|exact P'| |].
      - intros b G. inversion G; subst; lia.
      - intros b G. inversion G as [k0 w0 q0 tag n0 len0 K0 D0 T0 C0|k0 q0 n0 len0 K0 D0 C0|k0 w0 q0]; subst; [| |lia].
        + destruct W as [W|[(n1 & l1 & D1 & -> & L)|(n1 & l1 & D1 & N1 & L)]]; [exact (W _ _ _ D0)| |]; destruct (desc_fun _ _ _ _ _ _ _ _ D0 D1) as (-> & -> & ->).
          * destruct T0 as [T0|T0]; now apply T0.
          * specialize (C0 eq_refl N1). lia.
        + destruct W as [W|[(n1 & l1 & D1 & _ & L)|(n1 & l1 & D1 & N1 & L)]]; [exact (W _ _ _ D0)| |now apply N1].
          destruct (desc_fun _ _ _ _ _ _ _ _ D0 D1) as (_ & -> & ->). lia. }
    injection E as <- _ _. lia.
  Qed.
  Lemma cut_stream : forall d e tag n len, desc_cut f d e -> descriptor_at f d tag n len -> tag = 3.
  Proof.
    intros d e tag n len (k & w & q & R & _) D. apply desc_path in R. destruct R as (n' & len' & D' & _). destruct (desc_fun _ _ _ _ _ _ _ _ D D') as (E & _). exact E.
  Qed.
  Lemma cut_some : forall d e, desc_cut f d e -> exists n len, descriptor_at f d 3 n len.
  Proof. intros d e (k & w & q & R & _). apply desc_path in R. destruct R as (n & len & D & _). eauto. Qed.
  Ltac same_box := match goal with A : box_at f ?q ?i ?h ?z, B : box_at f ?q ?j ?h' ?z' |- _ =>
    let E1 := fresh in let E2 := fresh in let E3 := fresh in pose proof (box_fun _ _ _ _ _ _ _ _ A B) as (E1 & E2 & E3); subst; clear B end.
  Lemma entry_one : forall a e s e' s', entry_wrong f a e s -> entry_wrong f a e' s' -> e = e' /\ s = s'.
  Proof.
    intros a e s e' s' A B. destruct A, B; try (exfalso; eapply head_no_box; eassumption); try (eapply head_one; eassumption);
      same_box; try contradiction; try (split; reflexivity); try (eapply full_one; eassumption); try (exfalso; eapply full_not; eassumption);
      try (exfalso; match goal with H : forall tag n len, ~ descriptor_at f _ tag n len, D : descriptor_at f _ _ _ _ |- _ => exact (H _ _ _ D) end);
      exfalso; match goal with C : desc_cut f _ _, D : descriptor_at f _ _ _ _ |- _ => pose proof (cut_stream _ _ _ _ _ C D); contradiction end.
  Qed.

  (** * Boxes *)

  Lemma content_one : forall l q id hd sz ns e s ns' e' s', content_wrong f l q id hd sz ns e s -> content_wrong f l q id hd sz ns' e' s' -> ns = ns' /\ e = e' /\ s = s'.
  Proof.
    intros l q id hd sz ns e s ns' e' s' A B. destruct A, B; subst; try discriminate; (split; [reflexivity|]);
      first [eapply value_one; eassumption|eapply name_one; eassumption|eapply header_one; eassumption|eapply entry_one; eassumption
        |exfalso; match goal with H : In _ _ |- _ => destruct H as [H|[H|[]]]; discriminate H end].
  Qed.
  Lemma box_one : forall l q id hd sz ns e s ns' e' s', box_wrong f l q id hd sz ns e s -> box_wrong f l q id hd sz ns' e' s' -> ns = ns' /\ e = e' /\ s = s'.
  Proof.
    intros l q id hd sz ns e s ns' e' s' A B. destruct A as [ns e s A|N R L], B as [ns' e' s' B|N' R' L'].
    - eapply content_one; eassumption.
    - exfalso. exact (N' _ _ _ A).
    - exfalso. exact (N _ _ _ B).
    - auto.
  Qed.
  Lemma start_one : forall l p e s e' s', start_wrong f l p e s -> start_wrong f l p e' s' -> e = e' /\ s = s'.
  Proof. intros l p e s e' s' A B. destruct A, B; subst; try discriminate; eapply full_one; eassumption. Qed.

  (** * Items *)

  Inductive igo : bool * N * N -> bool * N * N -> Prop :=
  | Igo : forall v k q id hd sz, 0 < k -> box_at f q id hd sz -> (forall ns e s, ~ box_wrong f InItem q id hd sz ns e s) ->
      igo (v, k, q) (v || fourcc_eqb id (id4 "data"), k - sz, q + sz).
  Lemma igo_det : forall a b c, igo a b -> igo a c -> b = c.
  Proof. intros a b c A B. destruct A as [v k q id hd sz K A W]. inversion B as [v' k' q' id' hd' sz' K' B' W']; subst. destruct (box_fun _ _ _ _ _ _ _ _ A B') as (-> & -> & ->). reflexivity. Qed.
  Lemma item_path : forall k0 q0 v k q, in_item f k0 q0 v k q -> path igo (false, k0, q0) (v, k, q).
  Proof. intros k0 q0 v k q H. induction H as [|v k q id hd sz H IH K B W]; [constructor|]. eapply Onward; [exact IH|]. econstructor; eassumption. Qed.
  Lemma item_head_stuck : forall v k q e s, 0 < k -> head_wrong f q e s -> stuck igo (v, k, q).
  Proof. intros v k q e s K W b G. inversion G; subst. eapply head_no_box; eassumption. Qed.
  Lemma item_box_stuck : forall v k q id hd sz ns e s, 0 < k -> box_at f q id hd sz -> box_wrong f InItem q id hd sz ns e s -> stuck igo (v, k, q).
  Proof. intros v k q id hd sz ns e s K B W b G. inversion G as [v' k' q' id' hd' sz' K' B' W']; subst. destruct (box_fun _ _ _ _ _ _ _ _ B B') as (-> & -> & ->). exact (W' _ _ _ W). Qed.
  Lemma item_end_stuck : forall v q, stuck igo (v, 0, q).
  Proof. intros v q b G. inversion G; subst. lia. Qed.
  Lemma item_eq : forall k0 q0 v k q v' k' q', in_item f k0 q0 v k q -> in_item f k0 q0 v' k' q' -> stuck igo (v, k, q) -> stuck igo (v', k', q') -> v = v' /\ k = k' /\ q = q'.
  Proof.
    intros k0 q0 v k q v' k' q' A B Sa Sb. apply item_path in A, B. pose proof (stuck_eq igo igo_det _ _ _ A B Sa Sb) as E. injection E as -> -> ->. auto.
  Qed.
  Lemma item_one : forall id k0 q0 e s e' s', item_wrong f id k0 q0 e s -> item_wrong f id k0 q0 e' s' -> e = e' /\ s = s'.
  Proof.
    intros id k0 q0 e s e' s' A B.
    destruct A as [v k q e s Ia Ka Wa|v k q i hd sz ns e s Ia Ka Ba Wa|q Ia], B as [v' k' q' e' s' Ib Kb Wb|v' k' q' i' hd' sz' ns' e' s' Ib Kb Bb Wb|q' Ib];
      (assert (E := item_eq _ _ _ _ _ _ _ _ Ia Ib); destruct E as (Ev & Ek & Eq);
        [first [eapply item_head_stuck; eassumption|eapply item_box_stuck; eassumption|apply item_end_stuck]
        |first [eapply item_head_stuck; eassumption|eapply item_box_stuck; eassumption|apply item_end_stuck]|]); subst; try lia; try (split; reflexivity).
    - eapply head_one; eassumption.
    - exfalso. eapply head_no_box; eassumption.
    - exfalso. eapply head_no_box; eassumption.
    - same_box. eapply box_one in Wb; [|exact Wa]. tauto.
  Qed.
  Lemma item_done : forall id k0 q0 e s q, item_wrong f id k0 q0 e s -> in_item f k0 q0 true 0 q -> False.
  Proof.
    intros id k0 q0 e s q A B. destruct A as [v k q' e s Ia Ka Wa|v k q' i hd sz ns e s Ia Ka Ba Wa|q' Ia];
      (assert (E := item_eq _ _ _ _ _ _ _ _ Ia B); destruct E as (Ev & Ek & Eq);
        [first [eapply item_head_stuck; eassumption|eapply item_box_stuck; eassumption|apply item_end_stuck]|apply item_end_stuck|]); try lia; discriminate.
  Qed.

  (** * The file *)

  Inductive fgo : standing * N -> standing * N -> Prop :=
  | Fgo_past : forall l k w q id hd sz, 0 < k -> box_at f q id hd sz -> opens l id = None -> (forall ns e s, ~ box_wrong f l q id hd sz ns e s) ->
      fgo ((l, k) :: w, q) ((l, k - sz) :: w, q + sz)
  | Fgo_into : forall l k w q id hd sz l' d, 0 < k -> box_at f q id hd sz -> opens l id = Some (l', d) -> l' <> InItem -> (forall e s, ~ start_wrong f l' (q + hd) e s) ->
      fgo ((l, k) :: w, q) ((l', sz - hd - d) :: (l, k - sz) :: w, q + hd + d)
  | Fgo_item : forall l k w q id hd sz q', 0 < k -> box_at f q id hd sz -> opens l id = Some (InItem, 0) -> in_item f (sz - hd) (q + hd) true 0 q' ->
      fgo ((l, k) :: w, q) ((l, k - sz) :: w, q')
  | Fgo_out : forall l l' k w q, l <> InMoov -> fgo ((l, 0) :: (l', k) :: w, q) ((l', k) :: w, q).
  Lemma fgo_det : forall a b c, fgo a b -> fgo a c -> b = c.
  Proof.
    intros a b c A B. destruct A as [l k w q id hd sz K A O W|l k w q id hd sz l' d K A O NI W|l k w q id hd sz q' K A O I0|l l' k w q N];
      inversion B as [l2 k2 w2 q2 id2 hd2 sz2 K2 A2 O2 W2|l2 k2 w2 q2 id2 hd2 sz2 l2' d2 K2 A2 O2 NI2 W2|l2 k2 w2 q2 id2 hd2 sz2 q2' K2 A2 O2 I2|l2 l2' k2 w2 q2 N2]; subst; try lia;
      try (destruct (box_fun _ _ _ _ _ _ _ _ A A2) as (<- & <- & <-); rewrite O in O2; try discriminate O2); try reflexivity.
    - injection O2 as <- <-. reflexivity.
    - injection O2 as -> ->. now contradiction NI.
    - injection O2 as <- <-. now contradiction NI2.
    - destruct (item_eq _ _ _ _ _ _ _ _ I0 I2 (item_end_stuck _ _) (item_end_stuck _ _)) as (_ & _ & ->). reflexivity.
  Qed.
  Lemma reached_path : forall w q, reached f w q -> exists hd sz, box_at f 0 (id4 "ftyp") hd sz /\ sz <= blen f /\ is_utf8 (slice f hd (sz - hd)) /\ path fgo ([(Top, blen f - sz)], sz) (w, q).
  Proof.
    intros w q H. induction H as [hd sz B L U|l k w q id hd sz H IH K B O W|l k w q id hd sz l' d H IH K B O NI W|l k w q id hd sz q' H IH K B O I0|l l' k w q H IH N].
    - exists hd, sz. split; [exact B|]. split; [exact L|]. split; [exact U|constructor].
    - destruct IH as (h0 & s0 & B0 & L0 & U0 & P). exists h0, s0. split; [exact B0|]. split; [exact L0|]. split; [exact U0|]. eapply Onward; [exact P|]. econstructor; eassumption.
    - destruct IH as (h0 & s0 & B0 & L0 & U0 & P). exists h0, s0. split; [exact B0|]. split; [exact L0|]. split; [exact U0|]. eapply Onward; [exact P|]. econstructor; eassumption.
    - destruct IH as (h0 & s0 & B0 & L0 & U0 & P). exists h0, s0. split; [exact B0|]. split; [exact L0|]. split; [exact U0|]. eapply Onward; [exact P|]. eapply Fgo_item; eassumption.
    - destruct IH as (h0 & s0 & B0 & L0 & U0 & P). exists h0, s0. split; [exact B0|]. split; [exact L0|]. split; [exact U0|]. eapply Onward; [exact P|]. now constructor.
  Qed.
  Lemma reached_eq : forall w q w' q', reached f w q -> reached f w' q' -> stuck fgo (w, q) -> stuck fgo (w', q') -> w = w' /\ q = q'.
  Proof.
    intros w q w' q' A B Sa Sb. apply reached_path in A, B. destruct A as (hd & sz & Ba & La & Ua & Pa), B as (hd' & sz' & Bb & Lb & Ub & Pb).
    destruct (box_fun _ _ _ _ _ _ _ _ Ba Bb) as (_ & <- & <-). pose proof (stuck_eq fgo fgo_det _ _ _ Pa Pb Sa Sb) as E. injection E as -> ->. auto.
  Qed.
  Lemma type_stuck : forall e s w q, type_wrong f e s -> reached f w q -> False.
  Proof.
    intros e s w q T R. apply reached_path in R. destruct R as (hd & sz & B & L & U & _).
    destruct T as [e s W|id hd' sz' B' N|hd' sz' B' L'|hd' sz' B' L' U']; [eapply head_no_box; eassumption|..]; same_box; try contradiction; lia.
  Qed.
  Lemma in_stuck : forall l k w q e s, 0 < k -> head_wrong f q e s -> stuck fgo ((l, k) :: w, q).
  Proof. intros l k w q e s K W b G. inversion G; subst; try lia; eapply head_no_box; eassumption. Qed.
  Lemma box_stuck : forall l k w q id hd sz ns e s, 0 < k -> box_at f q id hd sz -> opens l id = None -> box_wrong f l q id hd sz ns e s -> stuck fgo ((l, k) :: w, q).
  Proof.
    intros l k w q id hd sz ns e s K B O W b G. inversion G as [l2 k2 w2 q2 id2 hd2 sz2 K2 A2 O2 W2|l2 k2 w2 q2 id2 hd2 sz2 l2' d2 K2 A2 O2 NI2 W2|l2 k2 w2 q2 id2 hd2 sz2 q2' K2 A2 O2 I2|l2 l2' k2 w2 q2 N2]; subst; try lia;
      same_box; try congruence. exact (W2 _ _ _ W).
  Qed.
  Lemma start_stuck : forall l k w q id hd sz l' d e s, 0 < k -> box_at f q id hd sz -> opens l id = Some (l', d) -> start_wrong f l' (q + hd) e s -> stuck fgo ((l, k) :: w, q).
  Proof.
    intros l k w q id hd sz l' d e s K B O W b G. inversion G as [l2 k2 w2 q2 id2 hd2 sz2 K2 A2 O2 W2|l2 k2 w2 q2 id2 hd2 sz2 l2' d2 K2 A2 O2 NI2 W2|l2 k2 w2 q2 id2 hd2 sz2 q2' K2 A2 O2 I2|l2 l2' k2 w2 q2 N2]; subst; try lia;
      same_box; try congruence.
    - rewrite O in O2. injection O2 as <- <-. exact (W2 _ _ W).
    - rewrite O in O2. injection O2 as -> ->. destruct W; discriminate.
  Qed.
  Lemma item_stuck : forall l k w q id hd sz e s, 0 < k -> box_at f q id hd sz -> opens l id = Some (InItem, 0) -> item_wrong f id (sz - hd) (q + hd) e s -> stuck fgo ((l, k) :: w, q).
  Proof.
    intros l k w q id hd sz e s K B O W b G. inversion G as [l2 k2 w2 q2 id2 hd2 sz2 K2 A2 O2 W2|l2 k2 w2 q2 id2 hd2 sz2 l2' d2 K2 A2 O2 NI2 W2|l2 k2 w2 q2 id2 hd2 sz2 q2' K2 A2 O2 I2|l2 l2' k2 w2 q2 N2]; subst; try lia;
      same_box; try congruence. eapply item_done; eassumption.
  Qed.
  Lemma top_alone : forall k w q, reached f ((Top, k) :: w) q -> w = [].
  Proof.
    assert (G : forall W q, reached f W q -> forall l k w, W = (l, k) :: w -> (l = Top <-> w = []) /\ Forall (fun x => fst x = Top -> True) w /\
      (forall w1 l1 k1 w2, w = w1 ++ (l1, k1) :: w2 -> (l1 = Top <-> w2 = []))).
    { intros W q H. induction H as [hd sz B L U|l k w q id hd sz H IH K B O Wr|l k w q id hd sz l' d H IH K B O NI Wr|l k w q id hd sz q' H IH K B O I0|l l' k w q H IH N]; intros l1 k1 w1 E; injection E as <- <- <-.
      - split; [tauto|]. split; [constructor|]. intros [|? ?] ? ? ? X; discriminate X.
      - now apply (IH l k w).
      - destruct (IH l k w eq_refl) as (A & _ & C). split.
        + split; [|discriminate]. intros ->. exfalso. destruct l; cbn in O; repeat match type of O with (if ?c then _ else _) = _ => destruct c end; discriminate O.
        + split; [apply Forall_forall; auto|]. intros [|x w1] l2 k2 w2 X; cbn in X; [injection X as <- <- <-; exact A|injection X as <- X; exact (C _ _ _ _ X)].
      - now apply (IH l k w).
      - destruct (IH l 0 _ eq_refl) as (_ & _ & C). split; [exact (C [] l' k w eq_refl)|]. split; [apply Forall_forall; auto|].
        intros w1 l2 k2 w2 X. exact (C ((l', k) :: w1) l2 k2 w2 ltac:(cbn; now rewrite X)). }
    intros k w q H. now apply (G _ _ H Top k w).
  Qed.
  Lemma end_stuck : forall w q, reached f ((Top, 0) :: w) q -> stuck fgo ((Top, 0) :: w, q).
  Proof. intros w q R b G. apply top_alone in R. subst w. inversion G; subst; lia. Qed.
  Lemma through_stuck : forall w q, stuck fgo ((InMoov, 0) :: w, q).
  Proof. intros w q b G. inversion G; subst; try lia. congruence. Qed.

  Ltac stucks := first [eapply in_stuck; eassumption|eapply box_stuck; eassumption|eapply start_stuck; eassumption|eapply item_stuck; eassumption|apply end_stuck; assumption|apply through_stuck].
  Lemma first_one : forall ns e s ns' e' s', first_flaw f ns e s -> first_flaw f ns' e' s' -> ns = ns' /\ e = e' /\ s = s'.
  Proof.
    intros ns e s ns' e' s' A B.
    destruct A as [e s Ta|w q Ra|l k w q e s Ra Ka Wa|l k w q id hd sz ns e s Ra Ka Ba Oa Wa|l k w q id hd sz l1 d e s Ra Ka Ba Oa Wa|l k w q id hd sz e s Ra Ka Ba Oa Wa],
      B as [e' s' Tb|w' q' Rb|l' k' w' q' e' s' Rb Kb Wb|l' k' w' q' id' hd' sz' ns' e' s' Rb Kb Bb Ob Wb|l' k' w' q' id' hd' sz' l1' d' e' s' Rb Kb Bb Ob Wb|l' k' w' q' id' hd' sz' e' s' Rb Kb Bb Ob Wb];
      try (exfalso; eapply type_stuck; eassumption); try (split; [reflexivity|]; eapply type_one; eassumption);
      (assert (E := reached_eq _ _ _ _ Ra Rb ltac:(stucks) ltac:(stucks)); destruct E as [E Eq]; injection E; intros; subst); try lia; try (split; [reflexivity|split; reflexivity]);
      try (exfalso; eapply head_no_box; eassumption); try (split; [reflexivity|]; eapply head_one; eassumption);
      same_box; try congruence.
    - destruct (box_one _ _ _ _ _ _ _ _ _ _ _ Wa Wb) as (-> & -> & ->). auto.
    - rewrite Oa in Ob. injection Ob as -> ->. split; [reflexivity|]. eapply start_one; eassumption.
    - rewrite Oa in Ob. injection Ob as -> ->. destruct Wa; discriminate.
    - rewrite Oa in Ob. injection Ob as <- <-. destruct Wb; discriminate.
    - split; [reflexivity|]. eapply item_one; eassumption.
  Qed.
  Lemma through_none : forall ns e s, first_flaw f ns e s -> read_through f -> False.
  Proof.
    intros ns e s A (w' & q' & Rb).
    destruct A as [e s Ta|w q Ra|l k w q e s Ra Ka Wa|l k w q id hd sz ns e s Ra Ka Ba Oa Wa|l k w q id hd sz l1 d e s Ra Ka Ba Oa Wa|l k w q id hd sz e s Ra Ka Ba Oa Wa];
      try (eapply type_stuck; eassumption); (assert (E := reached_eq _ _ _ _ Ra Rb ltac:(stucks) ltac:(stucks)); destruct E as [E Eq]; injection E; intros; subst); try lia; discriminate.
  Qed.
End Unique.
