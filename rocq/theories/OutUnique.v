(** The outcome of reading is determined: each part leads to one position or one fault, and so does the file. *)

From Coq Require Import List NArith ZArith Bool Lia String.
From Coq Require Import ZifyBool ZifyNat ZifyN.
From Verif Require Import Base BaseLemmas Types Utf TagSpec FileSpec FailSpec PanicSpec Display ErrSpec ErrExact FirstSpec FirstUnique OutSpec.
Import ListNotations.
Local Open Scope list_scope.

(** Walks of a number of steps. *)
Inductive walk {A} (step : A -> A -> Prop) (a : A) : nat -> A -> Prop :=
| Stay : walk step a 0 a
| Walk : forall n b c, walk step a n b -> step b c -> walk step a (S n) c.
Section Walks.
  Context {A} (step : A -> A -> Prop) (det : forall a b c, step a b -> step a c -> b = c).
  Lemma walk_one : forall n a b c, walk step a n b -> walk step a n c -> b = c.
  Proof.
    induction n as [|n IH]; intros a b c P Q; inversion P as [|n1 b1 c1 P1 S1]; inversion Q as [|n2 b2 c2 P2 S2]; subst; [reflexivity|].
    rewrite (IH _ _ _ P1 P2) in S1. eapply det; eassumption.
  Qed.
  Lemma walk_front : forall n' a c, walk step a n' c -> forall n, (n < n')%nat -> exists b b', walk step a n b /\ step b b'.
  Proof.
    intros n' a c P. induction P as [|n' b c P IH S]; intros n L; [lia|]. destruct (Nat.eq_dec n n') as [->|N]; [eauto|]. apply IH. lia.
  Qed.
  Lemma walk_short : forall n n' a b c, walk step a n b -> stuck step b -> walk step a n' c -> (n' <= n)%nat.
  Proof.
    intros n n' a b c P S Q. destruct (le_lt_dec n' n) as [L|L]; [exact L|]. destruct (walk_front _ _ _ Q _ L) as (b' & b'' & P' & S').
    rewrite (walk_one _ _ _ _ P' P) in S'. destruct (S _ S').
  Qed.
  Lemma walk_eq : forall n n' a b c, walk step a n b -> walk step a n' c -> stuck step b -> stuck step c -> b = c.
  Proof.
    intros n n' a b c P Q Sb Sc. assert (n' = n) by (apply Nat.le_antisymm; eapply walk_short; eassumption). subst n'. eapply walk_one; eassumption.
  Qed.
End Walks.

(** Numbers. *)
Lemma less_one : forall m a b c c', less m a b c -> less m a b c' -> c = c'.
Proof. intros m a b c c' [[A ->]|(_ & A & ->)] [[B ->]|(_ & B & ->)]; lia. Qed.
Lemma less_lacks : forall m a b c, less m a b c -> lacking m a b -> False.
Proof. intros m a b c [[A ->]|(-> & A & ->)] [M B]; [lia|discriminate]. Qed.
Lemma kept_one : forall m a c c', kept m a c -> kept m a c' -> c = c'.
Proof. intros m a c c' [[A ->]|(_ & A & ->)] [[B ->]|(_ & B & ->)]; lia. Qed.
Lemma kept_beyond : forall m a c, kept m a c -> beyond m a -> False.
Proof. intros m a c [[A ->]|(-> & A & ->)] [M B]; [lia|discriminate]. Qed.

Section Unique.
  Context (m : mode) (f : bytes).
  Ltac numbers := match goal with
    | A : less m ?a ?b ?c, B : less m ?a ?b ?c' |- _ => let E := fresh in pose proof (less_one _ _ _ _ _ A B) as E; subst; clear B
    | A : kept m ?a ?c, B : kept m ?a ?c' |- _ => let E := fresh in pose proof (kept_one _ _ _ _ A B) as E; subst; clear B
    | A : less m ?a ?b _, B : lacking m ?a ?b |- _ => exfalso; exact (less_lacks _ _ _ _ A B)
    | A : kept m ?a _, B : beyond m ?a |- _ => exfalso; exact (kept_beyond _ _ _ A B)
    | A : ~ lacking m ?a ?b, B : lacking m ?a ?b |- _ => contradiction
    | A : ~ beyond m ?a, B : beyond m ?a |- _ => contradiction
    end.
  Ltac same_box := match goal with A : box_at f ?q ?i ?h ?z, B : box_at f ?q ?j ?h' ?z' |- _ =>
    let E1 := fresh in let E2 := fresh in let E3 := fresh in pose proof (box_fun _ _ _ _ _ _ _ _ A B) as (E1 & E2 & E3); subst; clear B end.
  Ltac same_desc := match goal with A : descriptor_at f ?q ?i ?h ?z, B : descriptor_at f ?q ?j ?h' ?z' |- _ =>
    let E1 := fresh in let E2 := fresh in let E3 := fresh in pose proof (desc_fun _ _ _ _ _ _ _ _ A B) as (E1 & E2 & E3); subst; clear B end.

  Lemma skipped_one : forall q hd sz o o', skipped m q hd sz o -> skipped m q hd sz o' -> o = o'.
  Proof. intros q hd sz o o' A B. destruct A, B; repeat match goal with H : lacking _ _ _ |- _ => destruct H end; first [reflexivity|exfalso; lia|exfalso; congruence]. Qed.
  Lemma ended_one : forall q sz c o o', ended m q sz c o -> ended m q sz c o' -> o = o'.
  Proof. intros q sz c o o' A B. destruct A, B; repeat numbers; first [reflexivity|exfalso; lia]. Qed.
  Lemma taken_one : forall p n g b o o', taken f p n g b o -> taken f p n g b o' -> o = o'.
  Proof. intros p n g b o o' A B. destruct A, B; first [reflexivity|contradiction|exfalso; lia]. Qed.
  Lemma type_out_one : forall o o', type_out m f o -> type_out m f o' -> o = o'.
  Proof.
    intros o o' A B. destruct A, B; try (exfalso; eapply head_no_box; eassumption); try same_box; try contradiction; repeat numbers; try reflexivity.
    - match goal with H : head_wrong _ _ _ _, H' : head_wrong _ _ _ _ |- _ => destruct (head_one _ _ _ _ _ _ H H') as [-> ->] end. reflexivity.
    - eapply taken_one; eassumption.
  Qed.
  Lemma fulls : forall p t x e s e' s', full_wrong f p t x e s -> full_wrong f p t x e' s' -> Stops (Fails e s) = Stops (Fails e' s').
  Proof. intros p t x e s e' s' A B. destruct (full_one _ _ _ _ _ _ _ _ A B) as [-> ->]. reflexivity. Qed.
  Lemma heads : forall q e s e' s', head_wrong f q e s -> head_wrong f q e' s' -> Stops (Fails e s) = Stops (Fails e' s').
  Proof. intros q e s e' s' A B. destruct (head_one _ _ _ _ _ _ A B) as [-> ->]. reflexivity. Qed.
  Lemma value_out_one : forall q hd sz o o', value_out m f q hd sz o -> value_out m f q hd sz o' -> o = o'.
  Proof.
    intros q hd sz o o' A B. destruct A, B; try reflexivity; try (eapply fulls; eassumption); try (exfalso; eapply full_not; eassumption); repeat numbers; try contradiction;
      try (eapply taken_one; eassumption); try (exfalso; congruence);
      match goal with H : ~ In ?x kinds, E : ?x = _ |- _ => exfalso; apply H; rewrite E; unfold kinds; cbn; tauto end.
  Qed.
  Lemma name_out_one : forall q hd sz o o', name_out m f q hd sz o -> name_out m f q hd sz o' -> o = o'.
  Proof.
    intros q hd sz o o' A B. destruct A, B; try reflexivity; try (eapply fulls; eassumption); try (exfalso; eapply full_not; eassumption); repeat numbers; eapply taken_one; eassumption.
  Qed.
  Lemma header_fun : forall p s d e s' d' e', header_at f p s d e -> header_at f p s' d' e' -> s = s' /\ d = d' /\ e = e'.
  Proof. intros p s d e s' d' e' (_ & [(A & -> & -> & ->)|(A & -> & -> & ->)]) (_ & [(B & -> & -> & ->)|(B & -> & -> & ->)]); try (exfalso; lia); auto. Qed.
  Lemma header_right : forall p e s sc d c, header_wrong f p e s -> header_at f p sc d c -> False.
  Proof.
    intros p e s sc d c W (L & [(V & _ & _ & ->)|(V & _ & _ & ->)]); destruct W as [e s W|F W]; try (eapply full_not; [exact W|]; split; lia);
      rewrite V in W; [change (0 =? 0) with true in W|change (1 =? 0) with false in W]; cbv iota in W; lia.
  Qed.
  Lemma header_out_one : forall q hd sz o o', header_out m f q hd sz o -> header_out m f q hd sz o' -> o = o'.
  Proof.
    intros q hd sz o o' A B. destruct A as [e s A|s d e A L|d e A L|s d e o A L N E], B as [e' s' B|s' d' e' B L'|d' e' B L'|s' d' e' o' B L' N' E'];
      try (exfalso; eapply header_right; eassumption);
      try (destruct (header_fun _ _ _ _ _ _ _ A B) as (E1 & E2 & E3); subst; try (exfalso; lia); repeat numbers); try reflexivity; try contradiction.
    - destruct (header_one _ _ _ _ _ _ A B) as [-> ->]. reflexivity.
    - eapply ended_one; eassumption.
  Qed.

  (** * Descriptors *)

  Inductive dstep : list N * N -> list N * N -> Prop :=
  | Dstep_past : forall k w q tag n len, 0 < k -> descriptor_at f q tag n len -> tag <> 4 \/ w <> [] -> (tag = 5 -> w <> [] -> q + n + 2 <= blen f /\ ~ lacking m len 2) ->
      dstep (k :: w, q) (k - (n + len) :: w, q + n + len)
  | Dstep_into : forall k q n len, 0 < k -> descriptor_at f q 4 n len -> q + n + 13 <= blen f -> dstep ([k], q) ([len - 13; k - (n + len)], q + n + 13)
  | Dstep_out : forall k w q, dstep (0 :: k :: w, q) (k :: w, q).
  Lemma dstep_det : forall a b c, dstep a b -> dstep a c -> b = c.
  Proof.
    intros a b c A B. destruct A as [k w q tag n len K D T C|k q n len K D C|k w q]; inversion B as [k' w' q' tag' n' len' K' D' T' C'|k' q' n' len' K' D' C'|k' w' q']; subst; try lia; try same_desc; try reflexivity.
    - exfalso. destruct T as [T|T]; now apply T.
    - exfalso. destruct T' as [T|T]; now apply T.
  Qed.
  Lemma descs_path : forall n p w q, desc_at m f n p w q -> path dstep ([n - 3], p + 3) (w, q).
  Proof.
    intros n p w q H. induction H as [|k w q tag h len H IH K D T C|k q h len H IH K D C|k w q H IH]; [constructor|..]; (eapply Onward; [exact IH|]); econstructor; eassumption.
  Qed.
  Lemma descs_none : forall k w q, 0 < k -> (forall tag h len, ~ descriptor_at f q tag h len) -> stuck dstep (k :: w, q).
  Proof. intros k w q K N b G. inversion G; subst; try lia; eapply N; eassumption. Qed.
  Lemma descs_config : forall k q h len, 0 < k -> descriptor_at f q 4 h len -> blen f < q + h + 13 -> stuck dstep ([k], q).
  Proof. intros k q h len K D L b G. inversion G as [k' w' q' tag' n' len' K' D' T' C'|k' q' n' len' K' D' C'|k' w' q']; subst; try lia; same_desc; [destruct T' as [T|T]; now apply T|lia]. Qed.
  Lemma descs_specific : forall k w q h len, 0 < k -> w <> [] -> descriptor_at f q 5 h len -> blen f < q + h + 2 \/ lacking m len 2 -> stuck dstep (k :: w, q).
  Proof.
    intros k w q h len K N D L b G. inversion G as [k' w' q' tag' n' len' K' D' T' C'|k' q' n' len' K' D' C'|k' w' q']; subst; try lia; same_desc.
    - destruct (C' eq_refl N). destruct L; [lia|contradiction].
    - now apply N.
  Qed.
  Lemma descs_end : forall q, stuck dstep ([0], q). Proof. intros q b G. inversion G; subst; lia. Qed.
  Ltac dstucks := first [eapply descs_none; eassumption|eapply descs_config; eassumption|eapply descs_specific; [eassumption|eassumption|eassumption|tauto]|apply descs_end].
  Lemma descs_out_one : forall n p o o', descs_out m f n p o -> descs_out m f n p o' -> o = o'.
  Proof.
    intros n p o o' A B. destruct A, B; repeat match goal with H : desc_at m f _ _ _ _ |- _ => apply descs_path in H end;
      match goal with P : path dstep _ _, Q : path dstep _ _ |- _ =>
        let E := fresh in assert (E := stuck_eq dstep dstep_det _ _ _ P Q ltac:(dstucks) ltac:(dstucks)); injection E; intros; subst end;
      try reflexivity; try (exfalso; lia); try same_desc; try discriminate; try (exfalso; lia); try contradiction;
      exfalso; match goal with H : forall tag h len, ~ descriptor_at f _ tag h len, D : descriptor_at f _ _ _ _ |- _ => exact (H _ _ _ D) end.
  Qed.
  Lemma entry_out_one : forall q sz a o o', entry_out m f q sz a o -> entry_out m f q sz a o' -> o = o'.
  Proof.
    intros q sz a o o' A B. destruct A, B; try (exfalso; eapply head_no_box; eassumption); try (eapply heads; eassumption); same_box; try contradiction; try reflexivity;
      try (eapply fulls; eassumption); try (exfalso; eapply full_not; eassumption); try same_desc; try contradiction; repeat numbers; try (exfalso; lia);
      try (exfalso; match goal with H : forall tag n len, ~ descriptor_at f _ tag n len, D : descriptor_at f _ _ _ _ |- _ => exact (H _ _ _ D) end);
      match goal with H : descs_out m f _ _ _, H' : descs_out m f _ _ _ |- _ => pose proof (descs_out_one _ _ _ _ H H') as E; try discriminate E; injection E as <- end; try reflexivity.
    eapply ended_one; eassumption.
  Qed.

  (** * Items *)

  Lemma part_out_one : forall q id hd sz o o', part_out m f q id hd sz o -> part_out m f q id hd sz o' -> o = o'.
  Proof.
    intros q id hd sz o o' A B. destruct A as [o Ia A|o Ia A|o Ia A], B as [o' Ib B|o' Ib B|o' Ib B];
      first [eapply value_out_one; eassumption|eapply name_out_one; eassumption|eapply skipped_one; eassumption|exfalso]; subst; cbn [In] in *; try tauto;
      repeat match goal with H : _ \/ _ |- _ => destruct H as [H|H] end; try contradiction; try discriminate.
  Qed.
  Inductive istep (n : N) : bool * N * N -> bool * N * N -> Prop :=
  | Istep : forall v d q id hd sz p d', d < n -> box_at f q id hd sz -> part_out m f q id hd sz (Goes p) -> kept m (d + sz) d' -> istep n (v, d, q) (v || fourcc_eqb id (id4 "data"), d', p).
  Lemma istep_det : forall n a b c, istep n a b -> istep n a c -> b = c.
  Proof.
    intros n a b c A B. destruct A as [v d q id hd sz p d' L A W S]. inversion B as [v2 d2 q2 id2 hd2 sz2 p2 d2' L2 B2 W2 S2]; subst. same_box.
    pose proof (part_out_one _ _ _ _ _ _ W W2) as E. injection E as <-. numbers. reflexivity.
  Qed.
  Lemma items_walk : forall n q0 k v d q, in_item_at m f n q0 k v d q -> walk (istep n) (false, 0, q0) k (v, d, q).
  Proof. intros n q0 k v d q H. induction H as [|k v d q id hd sz p d' H IH L B W S]; [constructor|]. eapply Walk; [exact IH|]. econstructor; eassumption. Qed.
  Lemma items_head : forall n v d q e s, head_wrong f q e s -> stuck (istep n) (v, d, q).
  Proof. intros n v d q e s W b G. inversion G; subst. eapply head_no_box; eassumption. Qed.
  Lemma items_part : forall n v d q id hd sz x, box_at f q id hd sz -> part_out m f q id hd sz (Stops x) -> stuck (istep n) (v, d, q).
  Proof. intros n v d q id hd sz x B W b G. inversion G as [v2 d2 q2 id2 hd2 sz2 p2 d2' L2 B2 W2 S2]; subst. same_box. pose proof (part_out_one _ _ _ _ _ _ W W2) as E. discriminate E. Qed.
  Lemma items_sum : forall n v d q id hd sz, box_at f q id hd sz -> beyond m (d + sz) -> stuck (istep n) (v, d, q).
  Proof. intros n v d q id hd sz B W b G. inversion G as [v2 d2 q2 id2 hd2 sz2 p2 d2' L2 B2 W2 S2]; subst. same_box. numbers. Qed.
  Lemma items_end : forall n v d q, n <= d -> stuck (istep n) (v, d, q).
  Proof. intros n v d q L b G. inversion G; subst. lia. Qed.
  Ltac istucks := first [apply items_end; assumption|eapply items_head; eassumption|eapply items_part; eassumption|eapply items_sum; eassumption].
  Lemma item_out_one : forall id n q0 o o', item_out m f id n q0 o -> item_out m f id n q0 o' -> o = o'.
  Proof.
    intros id n q0 o o' A B. destruct A, B; repeat match goal with H : in_item_at m f _ _ _ _ _ _ |- _ => apply items_walk in H end;
      match goal with P : walk (istep n) _ _ _, Q : walk (istep n) _ _ _ |- _ =>
        let E := fresh in assert (E := walk_eq (istep n) (istep_det n) _ _ _ _ _ P Q ltac:(istucks) ltac:(istucks)); injection E; intros; subst end;
      try reflexivity; try (exfalso; lia); try (exfalso; eapply head_no_box; eassumption); try (eapply heads; eassumption); try discriminate;
      try same_box; try (exfalso; lia); try reflexivity;
      match goal with H : part_out m f _ _ _ _ _, H' : part_out m f _ _ _ _ _ |- _ => pose proof (part_out_one _ _ _ _ _ _ H H') as E; try discriminate E; injection E as <- end; reflexivity.
  Qed.
  (** An item that comes to an end does so after a limited number of steps. *)
  Lemma item_bound : forall id n q0 o, item_out m f id n q0 o -> exists k, forall k' v d q, in_item_at m f n q0 k' v d q -> (k' <= k)%nat.
  Proof.
    intros id n q0 o A. destruct A; match goal with H : in_item_at m f _ _ ?k _ _ _ |- _ => exists k; apply items_walk in H; intros k' v' d' q' W; apply items_walk in W; eapply (walk_short (istep n) (istep_det n)); [exact H| |exact W]; istucks end.
  Qed.

  (** * The file *)

  Lemma leaf_out_one : forall l q id hd sz ns o ns' o', leaf_out m f l q id hd sz ns o -> leaf_out m f l q id hd sz ns' o' -> ns = ns' /\ o = o'.
  Proof.
    intros l q id hd sz ns o ns' o' A B.
    destruct A as [o La Ia A|o La Ia A|La Ia A|n o La Ia Sa A|o Oa Wa A], B as [o' Lb Ib B|o' Lb Ib B|Lb Ib B|n' o' Lb Ib Sb B|o' Ob Wb B]; subst; try discriminate; repeat numbers; try (split; reflexivity); try (exfalso; cbn in *; discriminate);
      try (split; [reflexivity|]; first [eapply header_out_one; eassumption|eapply entry_out_one; eassumption|eapply item_out_one; eassumption|eapply skipped_one; eassumption]);
      exfalso; match goal with H : opens InIlst ?i = None |- _ => unfold opens in H; destruct (fourcc_eqb i (id4 "free")) eqn:E; [apply fourcc_eqb_eq in E; contradiction|discriminate H] end.
  Qed.
  Lemma leaf_closed : forall l q id hd sz ns o l' s, leaf_out m f l q id hd sz ns o -> opens l id = Some (l', s) -> l' = InItem.
  Proof.
    intros l q id hd sz ns o l' s A O. destruct A as [o La Ia A|o La Ia A|La Ia A|n o La Ia Sa A|o Oa Wa A]; subst; try (cbn in O; discriminate O); try congruence.
    - unfold opens in O. destruct (fourcc_eqb id (id4 "free")); [discriminate O|]. now injection O as <- <-.
    - unfold opens in O. destruct (fourcc_eqb id (id4 "free")); [discriminate O|]. now injection O as <- <-.
  Qed.
  Lemma enter_out_one : forall l s q hd sz o o', enter_out m f l s q hd sz o -> enter_out m f l s q hd sz o' -> o = o'.
  Proof.
    intros l s q hd sz o o' A B. destruct A as [t e x V A|V A|V A], B as [t' e' x' V' B|V' B|V' B]; try reflexivity; try contradiction.
    - rewrite V in V'. injection V' as <-. eapply fulls; eassumption.
    - exfalso. destruct V' as [V'|V']; [congruence|eapply full_not; eassumption].
    - exfalso. destruct V' as [V'|V']; [congruence|eapply full_not; eassumption].
    - exfalso. destruct V as [V|V]; [congruence|eapply full_not; eassumption].
    - exfalso. destruct V as [V|V]; [congruence|eapply full_not; eassumption].
  Qed.
  Inductive fstep : around * N -> around * N -> Prop :=
  | Fstep_past : forall l n d w q id hd sz ns p d', d < n -> box_at f q id hd sz -> leaf_out m f l q id hd sz ns (Goes p) -> kept m (d + sz) d' ->
      fstep ((l, n, d) :: w, q) ((l, n, d') :: w, p)
  | Fstep_into : forall l n d w q id hd sz l' s p n', d < n -> box_at f q id hd sz -> opens l id = Some (l', s) -> l' <> InItem -> enter_out m f l' s q hd sz (Goes p) -> less m sz hd n' ->
      fstep ((l, n, d) :: w, q) ((l', n', s) :: (l, n, d + sz) :: w, p)
  | Fstep_out : forall l' n' d' l n d w q d'', n' <= d' -> l' <> Top -> l' <> InMoov -> kept m d d'' -> fstep ((l', n', d') :: (l, n, d) :: w, q) ((l, n, d'') :: w, q).
  Ltac fsteps G := inversion G as [l2 n2 d2 w2 q2 id2 hd2 sz2 ns2 p2 d2' L2 A2 W2 S2|l2 n2 d2 w2 q2 id2 hd2 sz2 l2' s2 p2 n2' L2 A2 O2 NI2 W2 S2|l2' n2' d2' l2 n2 d2 w2 q2 d2'' L2 N12 N22 S2]; subst; try lia.
  Lemma fstep_det : forall a b c, fstep a b -> fstep a c -> b = c.
  Proof.
    intros a b c A B. destruct A as [l n d w q id hd sz ns p d' L A W S|l n d w q id hd sz l' s p n' L A O NI W S|l' n' d' l n d w q d'' L N1 N2 S];
      fsteps B; try same_box; try numbers; try reflexivity.
    - destruct (leaf_out_one _ _ _ _ _ _ _ _ _ W W2) as [_ E]. injection E as <-. reflexivity.
    - exfalso. eapply NI2, leaf_closed; eassumption.
    - exfalso. eapply NI, leaf_closed; eassumption.
    - rewrite O in O2. injection O2 as <- <-. pose proof (enter_out_one _ _ _ _ _ _ _ W W2) as E. injection E as <-. reflexivity.
  Qed.
  Lemma arrives_walk : forall k w q, arrives m f k w q -> exists p, type_out m f (Goes p) /\ walk fstep ([(Top, blen f - p, 0)], p) k (w, q).
  Proof.
    intros k w q H. induction H as [p T|k l n d w q id hd sz ns p d' H IH L B W S|k l n d w q id hd sz l' s p n' H IH L B O NI W S|k l' n' d' l n d w q d'' H IH L N1 N2 S];
      [exists p; split; [exact T|constructor]|..]; destruct IH as (p0 & T0 & P); exists p0; (split; [exact T0|]); (eapply Walk; [exact P|]).
    - eapply Fstep_past; eassumption.
    - eapply Fstep_into; eassumption.
    - apply Fstep_out; assumption.
  Qed.
  Lemma arrives_eq : forall k w q k' w' q', arrives m f k w q -> arrives m f k' w' q' -> stuck fstep (w, q) -> stuck fstep (w', q') -> w = w' /\ q = q'.
  Proof.
    intros k w q k' w' q' A B Sa Sb. apply arrives_walk in A, B. destruct A as (p & T & P), B as (p' & T' & P'). pose proof (type_out_one _ _ T T') as E. injection E as <-.
    pose proof (walk_eq fstep fstep_det _ _ _ _ _ P P' Sa Sb) as E. injection E as -> ->. auto.
  Qed.
  (** The places behind the same number of steps are the same, *)
  Lemma arrives_one : forall k w q w' q', arrives m f k w q -> arrives m f k w' q' -> w = w' /\ q = q'.
  Proof.
    intros k w q w' q' A B. apply arrives_walk in A, B. destruct A as (p & T & P), B as (p' & T' & P'). pose proof (type_out_one _ _ T T') as E. injection E as <-.
    pose proof (walk_one fstep fstep_det _ _ _ _ P P') as E. injection E as -> ->. auto.
  Qed.
  (** and there is none behind one where the reader stops. *)
  Lemma arrives_bound : forall k w q k' w' q', arrives m f k w q -> stuck fstep (w, q) -> arrives m f k' w' q' -> (k' <= k)%nat.
  Proof.
    intros k w q k' w' q' A Sa B. apply arrives_walk in A, B. destruct A as (p & T & P), B as (p' & T' & P'). pose proof (type_out_one _ _ T T') as E. injection E as <-.
    eapply (walk_short fstep fstep_det); eassumption.
  Qed.
  Lemma type_no : forall x k w q, type_out m f (Stops x) -> arrives m f k w q -> False.
  Proof. intros x k w q T A. apply arrives_walk in A. destruct A as (p & T' & _). pose proof (type_out_one _ _ T T') as E. discriminate E. Qed.
  Lemma stuck_head : forall l n d w q e s, d < n -> head_wrong f q e s -> stuck fstep ((l, n, d) :: w, q).
  Proof. intros l n d w q e s L W b G. inversion G; subst; try lia; eapply head_no_box; eassumption. Qed.
  Lemma stuck_leaf : forall l n d w q id hd sz ns x, d < n -> box_at f q id hd sz -> leaf_out m f l q id hd sz ns (Stops x) -> stuck fstep ((l, n, d) :: w, q).
  Proof.
    intros l n d w q id hd sz ns x L A W b G. fsteps G; same_box.
    - destruct (leaf_out_one _ _ _ _ _ _ _ _ _ W W2) as [_ E]. discriminate E.
    - eapply NI2, leaf_closed; eassumption.
  Qed.
  Lemma stuck_sum : forall l n d w q id hd sz ns p, d < n -> box_at f q id hd sz -> leaf_out m f l q id hd sz ns (Goes p) -> beyond m (d + sz) -> stuck fstep ((l, n, d) :: w, q).
  Proof.
    intros l n d w q id hd sz ns p L A W S b G. fsteps G; same_box.
    - numbers.
    - eapply NI2, leaf_closed; eassumption.
  Qed.
  Lemma stuck_enter : forall l n d w q id hd sz l' s x, d < n -> box_at f q id hd sz -> opens l id = Some (l', s) -> l' <> InItem -> enter_out m f l' s q hd sz (Stops x) -> stuck fstep ((l, n, d) :: w, q).
  Proof.
    intros l n d w q id hd sz l' s x L A O NI W b G. fsteps G; same_box.
    - eapply NI, leaf_closed; eassumption.
    - rewrite O in O2. injection O2 as <- <-. pose proof (enter_out_one _ _ _ _ _ _ _ W W2) as E. discriminate E.
  Qed.
  Lemma stuck_out : forall l' n' d' l n d w q, n' <= d' -> beyond m d -> stuck fstep ((l', n', d') :: (l, n, d) :: w, q).
  Proof. intros l' n' d' l n d w q L S b G. fsteps G. numbers. Qed.
  Lemma stuck_top : forall n d w q, n <= d -> stuck fstep ((Top, n, d) :: w, q).
  Proof. intros n d w q L b G. inversion G; subst; try lia. congruence. Qed.
  Lemma stuck_moov : forall n d w q, n <= d -> stuck fstep ((InMoov, n, d) :: w, q).
  Proof. intros n d w q L b G. inversion G; subst; try lia. congruence. Qed.

  Ltac stucks := first [apply stuck_top; assumption|apply stuck_moov; assumption|eapply stuck_head; eassumption|eapply stuck_leaf; eassumption|eapply stuck_sum; eassumption|eapply stuck_enter; eassumption|apply stuck_out; assumption].
  Lemma stops_one : forall ns x ns' x', stops_with m f ns x -> stops_with m f ns' x' -> ns = ns' /\ x = x'.
  Proof.
    intros ns x ns' x' A B.
    destruct A as [x Ta|k n d w q Ra La|k l n d w q e s Ra La Wa|k l n d w q id hd sz ns x Ra La Ba Wa|k l n d w q id hd sz ns p Ra La Ba Wa Sa|k l n d w q id hd sz l1 s x Ra La Ba Oa Na Wa|k l1 n1 d1 l n d w q Ra La Na Ma Sa],
      B as [x' Tb|k' n' d' w' q' Rb Lb|k' l' n' d' w' q' e' s' Rb Lb Wb|k' l' n' d' w' q' id' hd' sz' ns' x' Rb Lb Bb Wb|k' l' n' d' w' q' id' hd' sz' ns' p' Rb Lb Bb Wb Sb|k' l' n' d' w' q' id' hd' sz' l1' s' x' Rb Lb Bb Ob Nb Wb|k' l1' n1' d1' l' n' d' w' q' Rb Lb Nb Mb Sb];
      try (exfalso; eapply type_no; eassumption);
      try (assert (E := arrives_eq _ _ _ _ _ _ Ra Rb ltac:(stucks) ltac:(stucks)); destruct E as [E Eq]; injection E; intros; subst); try (exfalso; lia); try congruence; try (split; reflexivity);
      try (exfalso; eapply head_no_box; eassumption); try same_box; try (split; reflexivity); try (exfalso; lia);
      try (match goal with H : leaf_out m f _ _ _ _ _ _ _, H' : leaf_out m f _ _ _ _ _ _ _ |- _ => pose proof (leaf_out_one _ _ _ _ _ _ _ _ _ H H') as [E1 E2] end; try discriminate E2; try (injection E2 as <-); subst; split; reflexivity);
      try (exfalso; match goal with H : leaf_out m f _ _ _ _ _ _ _, O : opens _ _ = Some (?l, _), N : ?l <> InItem |- _ => apply N; eapply leaf_closed; eassumption end).
    - pose proof (type_out_one _ _ Ta Tb) as E. injection E as <-. split; reflexivity.
    - split; [reflexivity|]. pose proof (heads _ _ _ _ _ Wa Wb) as E2. injection E2 as -> ->. reflexivity.
    - rewrite Oa in Ob. injection Ob as <- <-. pose proof (enter_out_one _ _ _ _ _ _ _ Wa Wb) as E2. injection E2 as <-. split; reflexivity.
  Qed.
  Lemma stops_no_end : forall ns x, stops_with m f ns x -> arrives_at_end m f -> False.
  Proof.
    intros ns x A (k' & n' & d' & w' & q' & Rb & Lb).
    destruct A as [x Ta|k n d w q Ra La|k l n d w q e s Ra La Wa|k l n d w q id hd sz ns x Ra La Ba Wa|k l n d w q id hd sz ns p Ra La Ba Wa Sa|k l n d w q id hd sz l1 s x Ra La Ba Oa Na Wa|k l1 n1 d1 l n d w q Ra La Na Ma Sa];
      try (eapply type_no; eassumption); (assert (E := arrives_eq _ _ _ _ _ _ Ra Rb ltac:(stucks) ltac:(stucks)); destruct E as [E Eq]; injection E; intros; subst); try lia; congruence.
  Qed.

  (** * Files whose reading stops *)

  Lemma arrives_before : forall k w q, arrives m f k w q -> forall k', (k' <= k)%nat -> exists w' q', arrives m f k' w' q'.
  Proof.
    intros k w q A. induction A as [p T|k l n d w q id hd sz ns p d' H IH L B W S|k l n d w q id hd sz l' s p n' H IH L B O NI W S|k l' n' d' l n d w q d'' H IH L N1 N2 S]; intros k' Lk.
    - assert (k' = 0)%nat by lia. subst. exists [(Top, blen f - p, 0)], p. now constructor.
    - destruct (Nat.eq_dec k' (Datatypes.S k)) as [->|N]; [|apply IH; lia]. do 2 eexists. eapply Arrive_past; eassumption.
    - destruct (Nat.eq_dec k' (Datatypes.S k)) as [->|N]; [|apply IH; lia]. do 2 eexists. eapply Arrive_into; eassumption.
    - destruct (Nat.eq_dec k' (Datatypes.S k)) as [->|N]; [|apply IH; lia]. do 2 eexists. eapply Arrive_out; eassumption.
  Qed.
  (** The number of steps within the item that the place behind [k] steps is in front of is limited if there are more
      steps, or if the reader stops. *)
  Definition item_limit (k b : nat) : Prop := forall n d w q id hd sz n' c v d' q', arrives m f k ((InIlst, n, d) :: w) q -> d < n -> box_at f q id hd sz -> id <> id4 "free" -> less m sz hd n' ->
    in_item_at m f n' (q + hd) c v d' q' -> (c <= b)%nat.
  Lemma limit_leaf : forall k l n d w q id hd sz ns o, arrives m f k ((l, n, d) :: w) q -> d < n -> box_at f q id hd sz -> leaf_out m f l q id hd sz ns o -> exists b, item_limit k b.
  Proof.
    intros k l n d w q id hd sz ns o A L B W.
    destruct W as [o La Ia W|o La Ia W|La Ia W|n1 o La Ia Sa W|o Oa Wa W]; subst; [exists 0%nat|exists 0%nat|exists 0%nat|destruct (item_bound _ _ _ _ W) as [b Hb]; exists b|exists 0%nat];
      intros n0 d0 w0 q0 id0 hd0 sz0 n2 c v d1 q1 A0 L0 B0 F0 S0 P; destruct (arrives_one _ _ _ _ _ A A0) as [E Eq]; try discriminate E; injection E; intros; subst; same_box; try numbers.
    - eapply Hb; exact P.
    - exfalso. unfold opens in Oa. apply fourcc_eqb_neq in F0. rewrite F0 in Oa. discriminate Oa.
  Qed.
  Lemma limit_none : forall k l n d w q, arrives m f k ((l, n, d) :: w) q ->
    (forall id hd sz, l = InIlst -> d < n -> box_at f q id hd sz -> id <> id4 "free" -> False) -> exists b, item_limit k b.
  Proof.
    intros k l n d w q A H. exists 0%nat. intros n0 d0 w0 q0 id0 hd0 sz0 n2 c v d1 q1 A0 L0 B0 F0 S0 P. destruct (arrives_one _ _ _ _ _ A A0) as [E Eq]. injection E; intros; subst.
    exfalso. eapply H; eauto.
  Qed.
  Lemma opens_item : forall id l' s, opens InIlst id = Some (l', s) -> id <> id4 "free" -> l' = InItem.
  Proof. intros id l' s O NF. unfold opens in O. apply fourcc_eqb_neq in NF. rewrite NF in O. injection O as <- _. reflexivity. Qed.
  Lemma limit_enter : forall k l n d w q id hd sz l' s, arrives m f k ((l, n, d) :: w) q -> box_at f q id hd sz -> opens l id = Some (l', s) -> l' <> InItem -> exists b, item_limit k b.
  Proof.
    intros k l n d w q id hd sz l' s A B O NI. eapply limit_none; [exact A|]. intros id0 hd0 sz0 -> L B0 NF. same_box. apply NI. eapply opens_item; eassumption.
  Qed.
  Lemma limit_before : forall k w q, arrives m f (S k) w q -> exists b, item_limit k b.
  Proof.
    intros k w q A. inversion A as [|k0 l n d w0 q0 id hd sz ns p d' H L B W S|k0 l n d w0 q0 id hd sz l' s p n' H L B O NI W S|k0 l' n' d' l n d w0 q0 d'' H L N1 N2 S]; subst.
    - eapply limit_leaf; eassumption.
    - eapply limit_enter; eassumption.
    - eapply limit_none; [exact H|]. intros id hd sz _ L'. lia.
  Qed.
  Lemma limit_all : forall k w q, arrives m f k w q -> (exists b, item_limit k b) -> exists b, forall k', (k' <= k)%nat -> item_limit k' b.
  Proof.
    induction k as [|k IH]; intros w q A [b Hb].
    - exists b. intros k' L. assert (k' = 0)%nat by lia. now subst.
    - destruct (arrives_before _ _ _ A k ltac:(lia)) as (w' & q' & A'). destruct (IH _ _ A' (limit_before _ _ _ A)) as [b' Hb']. exists (b + b')%nat.
      intros k' L n d w0 q0 id hd sz n' c v d' q1 A0 L0 B0 F0 S0 P. destruct (Nat.eq_dec k' (Datatypes.S k)) as [->|N].
      + specialize (Hb _ _ _ _ _ _ _ _ _ _ _ _ A0 L0 B0 F0 S0 P). lia.
      + specialize (Hb' k' ltac:(lia) _ _ _ _ _ _ _ _ _ _ _ _ A0 L0 B0 F0 S0 P). lia.
  Qed.
  Lemma busy_bound : forall k w q, arrives m f k w q -> stuck fstep (w, q) -> (exists b, item_limit k b) -> exists b, forall c, busy m f c -> (c <= b)%nat.
  Proof.
    intros k w q A St Hb. destruct (limit_all _ _ _ A Hb) as [b Lb]. exists (k + b)%nat.
    intros c [(w' & q' & A')|(k' & n & d & w' & q' & id & hd & sz & n' & v & d' & q1 & A' & L & B & NF & S & P)].
    - pose proof (arrives_bound _ _ _ _ _ _ A St A'). lia.
    - pose proof (arrives_bound _ _ _ _ _ _ A St A') as L'. pose proof (Lb k' L' _ _ _ _ _ _ _ _ _ _ _ _ A' L B NF S P). lia.
  Qed.
  Lemma stops_bound : forall ns x, stops_with m f ns x -> exists b, forall c, busy m f c -> (c <= b)%nat.
  Proof.
    intros ns x A.
    destruct A as [x Ta|k n d w q Ra La|k l n d w q e s Ra La Wa|k l n d w q id hd sz ns x Ra La Ba Wa|k l n d w q id hd sz ns p Ra La Ba Wa Sa|k l n d w q id hd sz l1 s x Ra La Ba Oa Na Wa|k l1 n1 d1 l n d w q Ra La Na Ma Sa].
    1: { exists 0%nat. intros c [(w' & q' & A')|(k' & n & d & w' & q' & id & hd & sz & n' & v & d' & q1 & A' & _)]; exfalso; eapply type_no; eassumption. }
    all: eapply busy_bound; [exact Ra|stucks|].
    - eapply limit_none; [exact Ra|]. intros id hd sz E. discriminate E.
    - eapply limit_none; [exact Ra|]. intros id hd sz _ _ B. exfalso. eapply head_no_box; eassumption.
    - eapply limit_leaf; eassumption.
    - eapply limit_leaf; eassumption.
    - eapply limit_enter; eassumption.
    - eapply limit_none; [exact Ra|]. intros id hd sz _ L. lia.
  Qed.
  Lemma end_bound : arrives_at_end m f -> exists b, forall c, busy m f c -> (c <= b)%nat.
  Proof.
    intros (k & n & d & w & q & R & L). eapply busy_bound; [exact R|stucks|]. eapply limit_none; [exact R|]. intros id hd sz E. discriminate E.
  Qed.
  Lemma busy_before : forall c c', busy m f c -> (c' <= c)%nat -> busy m f c'.
  Proof.
    assert (I : forall n q0 c v d q, in_item_at m f n q0 c v d q -> forall c', (c' <= c)%nat -> exists v' d' q', in_item_at m f n q0 c' v' d' q').
    { intros n q0 c v d q H. induction H as [|k v d q id hd sz p d' H IH L B W S]; intros c' Lc.
      - assert (c' = 0)%nat by lia. subst. do 3 eexists. constructor.
      - destruct (Nat.eq_dec c' (Datatypes.S k)) as [->|N]; [|apply IH; lia]. do 3 eexists. eapply Parts_next; eassumption. }
    intros c c' [(w & q & A)|(k & n & d & w & q & id & hd & sz & n' & v & d' & q1 & A & L & B & NF & S & P)] Lc.
    - left. exact (arrives_before _ _ _ A _ Lc).
    - right. destruct (I _ _ _ _ _ _ P _ Lc) as (v' & d2 & q2 & P'). exists k, n, d, w, q, id, hd, sz, n', v', d2, q2. auto 10.
  Qed.
End Unique.
