(** The outcome of writing is determined: the writer comes to one place after each number of steps, and the file leads to one
    ending and one file. *)

From Coq Require Import List NArith ZArith Bool Lia String.
From Coq Require Import ZifyBool ZifyNat ZifyN.
From Verif Require Import Base BaseLemmas Types Utf TagSpec FileSpec FailSpec PanicSpec WPanicSpec Display ErrSpec ErrExact FirstSpec FirstUnique OutSpec LayoutSpec OutUnique WOutSpec.
Import ListNotations.
Local Open Scope list_scope.

(** Signed numbers. *)
Lemma unsigned_inj : forall a b, in_range a -> in_range b -> unsigned a = unsigned b -> a = b.
Proof.
  unfold in_range, unsigned. intros a b Ha Hb E. apply Z2N.inj in E; try (apply Z.mod_pos_bound; lia).
  assert (D : ((a - b) mod 2 ^ 64 = 0)%Z) by (rewrite Zminus_mod, E, Z.sub_diag; reflexivity).
  apply Z.mod_divide in D; [|lia]. destruct D as [k K]. nia.
Qed.
Lemma turned_one : forall m a c c', turned m a c -> turned m a c' -> c = c'.
Proof. intros m a c c' [[A ->]|(_ & A & R & U)] [[B ->]|(_ & B & R' & U')]; try contradiction; [reflexivity|]. apply unsigned_inj; congruence. Qed.
Lemma turned_big : forall m a c, turned m a c -> too_big m a -> False.
Proof. intros m a c [[A ->]|(-> & A & _)] [M B]; [contradiction|discriminate]. Qed.

(** The first of a list that has a property. *)
Lemma first_one : forall A (P : A -> Prop) l a r l' a' r', l ++ a :: r = l' ++ a' :: r' -> Forall (fun x => ~ P x) l -> P a -> Forall (fun x => ~ P x) l' -> P a' -> l = l' /\ a = a' /\ r = r'.
Proof.
  intros A P. induction l as [|x l IH]; intros a r l' a' r' E F H F' H'; destruct l' as [|x' l']; cbn [app] in E; injection E; intros; subst.
  - auto.
  - exfalso. inversion F'; subst. contradiction.
  - exfalso. inversion F; subst. contradiction.
  - inversion F; inversion F'; subst. edestruct (IH a r l' a' r') as (-> & -> & ->); auto.
Qed.
Lemma first_none : forall A (P : A -> Prop) l a r, P a -> Forall (fun x => ~ P x) (l ++ a :: r) -> False.
Proof. intros A P l a r H F. apply Forall_app in F. destruct F as [_ F]. inversion F; subst. contradiction. Qed.

Section Unique.
  Context (m : mode) (f : bytes).
  Ltac numbers := match goal with
    | A : less m ?a ?b ?c, B : less m ?a ?b ?c' |- _ => let E := fresh in pose proof (less_one _ _ _ _ _ A B) as E; subst; clear B
    | A : kept m ?a ?c, B : kept m ?a ?c' |- _ => let E := fresh in pose proof (kept_one _ _ _ _ A B) as E; subst; clear B
    | A : less m ?a ?b _, B : lacking m ?a ?b |- _ => exfalso; exact (less_lacks _ _ _ _ A B)
    | A : kept m ?a _, B : beyond m ?a |- _ => exfalso; exact (kept_beyond _ _ _ A B)
    | A : ~ lacking m ?a ?b, B : lacking m ?a ?b |- _ => contradiction
    | A : ~ beyond m ?a, B : beyond m ?a |- _ => contradiction
    end.
  Ltac same_box := match goal with A : box_at f ?q ?i ?h ?z, B : box_at f ?q ?j ?h' ?z' |- _ =>
    let E1 := fresh in let E2 := fresh in let E3 := fresh in pose proof (box_fun _ _ _ _ _ _ _ _ A B) as (E1 & E2 & E3); subst; clear B end.

  Lemma pass_one : forall l q id hd sz ns o ns' o', pass_out m l q id hd sz ns o -> pass_out m l q id hd sz ns' o' -> ns = ns' /\ o = o'.
  Proof.
    intros l q id hd sz ns o ns' o' A B. destruct A as [o Na A|o Na A], B as [o' Nb B|o' Nb B]; try congruence; (split; [reflexivity|]).
    - eapply ended_one; eassumption.
    - eapply skipped_one; eassumption.
  Qed.

  (** * The places *)

  Inductive wstep : open_boxes * N -> open_boxes * N -> Prop :=
  | Wstep_past : forall l n d ns w q id head size nm p d', d < n -> box_at f q id head size -> scan_opens l id = None ->
      pass_out m l q id head size nm (Goes p) -> kept m (d + size) d' -> wstep ((l, n, d, ns) :: w, q) ((l, n, d', ns ++ [Node q head size id []]) :: w, p)
  | Wstep_into : forall l n d ns w q id head size l' s p n', d < n -> box_at f q id head size -> scan_opens l id = Some (l', s) ->
      enter_out m f l' s q head size (Goes p) -> less m size head n' ->
      wstep ((l, n, d, ns) :: w, q) ((l', n', s, []) :: (l, n, d + size, ns ++ [Node q head size id []]) :: w, p)
  | Wstep_out : forall l' n' d' inside l n d ns w q head size id p d'', n' <= d' -> kept m d d'' ->
      wstep ((l', n', d', inside) :: (l, n, d, ns ++ [Node q head size id []]) :: w, p) ((l, n, d'', ns ++ [Node q head size id inside]) :: w, p).
  Ltac wsteps G := inversion G as [l2 n2 d2 ns2 w2 q2 id2 hd2 sz2 nm2 p2 d2' L2 A2 O2 W2 S2|l2 n2 d2 ns2 w2 q2 id2 hd2 sz2 l2' s2 p2 n2' L2 A2 O2 W2 S2|l2' n2' d2' i2 l2 n2 d2 ns2 w2 q2 hd2 sz2 id2 p2 d2'' L2 S2]; subst; try (exfalso; lia).
  Lemma wstep_det : forall a b c, wstep a b -> wstep a c -> b = c.
  Proof.
    intros a b c A B. destruct A as [l n d ns w q id hd sz nm p d' L A O W S|l n d ns w q id hd sz l' s p n' L A O W S|l' n' d' i l n d ns w q hd sz id p d'' L S]; wsteps B; try same_box; try congruence; try numbers.
    - destruct (pass_one _ _ _ _ _ _ _ _ _ W W2) as [_ E]. injection E as <-. reflexivity.
    - rewrite O in O2. injection O2 as <- <-. pose proof (enter_out_one _ _ _ _ _ _ _ _ _ W W2) as E. injection E as <-. reflexivity.
    - match goal with H : _ ++ [_] = _ ++ [_] |- _ => apply app_inj_tail in H; destruct H as [-> E]; injection E as <- <- <- <- end. reflexivity.
  Qed.
  Lemma comes_walk : forall k w q, comes m f k w q -> exists p, type_out m f (Goes p) /\ walk wstep ([(Top, blen f - p, 0, [])], p) k (w, q).
  Proof.
    intros k w q H. induction H as [p T|k l n d ns w q id head size nm p d' H IH Ld B O P K|k l n d ns w q id head size l' s p n' H IH Ld B O E L|k l' n' d' inside l n d ns w q head size id p d'' H IH L K];
      [exists p; split; [exact T|constructor]|..]; destruct IH as (p0 & T0 & P0); exists p0; (split; [exact T0|]); (eapply Walk; [exact P0|]).
    - eapply Wstep_past; eassumption.
    - eapply Wstep_into; eassumption.
    - apply Wstep_out; assumption.
  Qed.
  Lemma comes_eq : forall k w q k' w' q', comes m f k w q -> comes m f k' w' q' -> stuck wstep (w, q) -> stuck wstep (w', q') -> w = w' /\ q = q'.
  Proof.
    intros k w q k' w' q' A B Sa Sb. apply comes_walk in A, B. destruct A as (p & T & P), B as (p' & T' & P'). pose proof (type_out_one _ _ _ _ T T') as E. injection E as <-.
    pose proof (walk_eq wstep wstep_det _ _ _ _ _ P P' Sa Sb) as E. injection E as -> ->. auto.
  Qed.
  (** The places behind the same number of steps are the same, *)
  Lemma comes_one : forall k w q w' q', comes m f k w q -> comes m f k w' q' -> w = w' /\ q = q'.
  Proof.
    intros k w q w' q' A B. apply comes_walk in A, B. destruct A as (p & T & P), B as (p' & T' & P'). pose proof (type_out_one _ _ _ _ T T') as E. injection E as <-.
    pose proof (walk_one wstep wstep_det _ _ _ _ P P') as E. injection E as -> ->. auto.
  Qed.
  (** and there are no more steps where the writer cannot go on. *)
  Lemma comes_bound : forall k w q k' w' q', comes m f k w q -> stuck wstep (w, q) -> comes m f k' w' q' -> (k' <= k)%nat.
  Proof.
    intros k w q k' w' q' A Sa B. apply comes_walk in A, B. destruct A as (p & T & P), B as (p' & T' & P'). pose proof (type_out_one _ _ _ _ T T') as E. injection E as <-.
    exact (walk_short wstep wstep_det _ _ _ _ _ P Sa P').
  Qed.
  Lemma no_type : forall x k w q, type_out m f (Stops x) -> comes m f k w q -> False.
  Proof. intros x k w q T A. apply comes_walk in A. destruct A as (p & T' & _). pose proof (type_out_one _ _ _ _ T T') as E. discriminate E. Qed.
  Lemma stuck_head : forall l n d ns w q e s, d < n -> head_wrong f q e s -> stuck wstep ((l, n, d, ns) :: w, q).
  Proof. intros l n d ns w q e s L H b G. wsteps G; eapply head_no_box; eassumption. Qed.
  Lemma stuck_pass : forall l n d ns w q id hd sz nm x, d < n -> box_at f q id hd sz -> scan_opens l id = None -> pass_out m l q id hd sz nm (Stops x) -> stuck wstep ((l, n, d, ns) :: w, q).
  Proof. intros l n d ns w q id hd sz nm x L B O P b G. wsteps G; same_box; try congruence. destruct (pass_one _ _ _ _ _ _ _ _ _ P W2) as [_ E]. discriminate E. Qed.
  Lemma stuck_sum : forall l n d ns w q id hd sz, d < n -> box_at f q id hd sz -> scan_opens l id = None -> beyond m (d + sz) -> stuck wstep ((l, n, d, ns) :: w, q).
  Proof. intros l n d ns w q id hd sz L B O Y b G. wsteps G; same_box; try congruence. numbers. Qed.
  Lemma stuck_enter : forall l n d ns w q id hd sz l' s x, d < n -> box_at f q id hd sz -> scan_opens l id = Some (l', s) -> enter_out m f l' s q hd sz (Stops x) -> stuck wstep ((l, n, d, ns) :: w, q).
  Proof. intros l n d ns w q id hd sz l' s x L B O E b G. wsteps G; same_box; try congruence. rewrite O in O2. injection O2 as <- <-. pose proof (enter_out_one _ _ _ _ _ _ _ _ _ E W2) as X. discriminate X. Qed.
  Lemma stuck_out : forall l' n' d' i l n d ns w q, n' <= d' -> beyond m d -> stuck wstep ((l', n', d', i) :: (l, n, d, ns) :: w, q).
  Proof. intros l' n' d' i l n d ns w q L Y b G. wsteps G. numbers. Qed.
  Lemma stuck_end : forall l n d ns q, n <= d -> stuck wstep ([(l, n, d, ns)], q).
  Proof. intros l n d ns q L b G. wsteps G. Qed.
  Ltac stucks := first [eapply stuck_head; eassumption|eapply stuck_pass; eassumption|eapply stuck_sum; eassumption|eapply stuck_enter; eassumption|apply stuck_out; assumption|apply stuck_end; assumption].

  Lemma finds_one : forall ns ns', finds m f ns -> finds m f ns' -> ns = ns'.
  Proof.
    intros ns ns' (k & n & d & q & A & L) (k' & n' & d' & q' & A' & L'). destruct (comes_eq _ _ _ _ _ _ A A' ltac:(stucks) ltac:(stucks)) as [E _]. now injection E.
  Qed.
  (** One thing stops the writer, *)
  Ltac heads := match goal with H : head_wrong _ _ _ _, H' : head_wrong _ _ _ _ |- _ => destruct (head_one _ _ _ _ _ _ H H') as [-> ->]; auto end.
  Lemma scan_stops_one : forall ns x ns' x', scan_stops m f ns x -> scan_stops m f ns' x' -> ns = ns' /\ x = x'.
  Proof.
    intros nm x nm' x' A B.
    destruct A as [x Ta|k l n d ns w q e s Ra La Wa|k l n d ns w q id hd sz nm x Ra La Ba Oa Wa|k l n d ns w q id hd sz nm p Ra La Ba Oa Wa Sa|k l n d ns w q id hd sz l1 s x Ra La Ba Oa Wa|k l1 n1 d1 i l n d ns w q Ra La Sa|ns (k & n & d & q & Ra & La) Ma],
      B as [x' Tb|k' l' n' d' ns' w' q' e' s' Rb Lb Wb|k' l' n' d' ns' w' q' id' hd' sz' nm' x' Rb Lb Bb Ob Wb|k' l' n' d' ns' w' q' id' hd' sz' nm' p' Rb Lb Bb Ob Wb Sb|k' l' n' d' ns' w' q' id' hd' sz' l1' s' x' Rb Lb Bb Ob Wb|k' l1' n1' d1' i' l' n' d' ns' w' q' Rb Lb Sb|ns' (k' & n' & d' & q' & Rb & Lb) Mb];
      try (exfalso; eapply no_type; eassumption);
      try (assert (E := comes_eq _ _ _ _ _ _ Ra Rb ltac:(stucks) ltac:(stucks)); destruct E as [E Eq]; try discriminate E; injection E; intros; subst); try (exfalso; lia); try (split; reflexivity);
      try (exfalso; eapply head_no_box; eassumption); try same_box; try (split; reflexivity); try congruence;
      try (match goal with H : pass_out _ _ _ _ _ _ _ _, H' : pass_out _ _ _ _ _ _ _ _ |- _ => destruct (pass_one _ _ _ _ _ _ _ _ _ H H') as [E1 E2] end; try discriminate E2; try (injection E2 as <-); subst; split; reflexivity).
    - pose proof (type_out_one _ _ _ _ Ta Tb) as E. injection E as <-. auto.
    - heads.
    - rewrite Oa in Ob. injection Ob as <- <-. pose proof (enter_out_one _ _ _ _ _ _ _ _ _ Wa Wb) as E2. injection E2 as <-. auto.
  Qed.
  Lemma scan_stops_no : forall nm x ns mo, scan_stops m f nm x -> finds m f ns -> movie ns = Some mo -> False.
  Proof.
    intros nm x ns mo A (k' & n' & d' & q' & Rb & Lb) M.
    destruct A as [x Ta|k l n d ns' w q e s Ra La Wa|k l n d ns' w q id hd sz nm x Ra La Ba Oa Wa|k l n d ns' w q id hd sz nm p Ra La Ba Oa Wa Sa|k l n d ns' w q id hd sz l1 s x Ra La Ba Oa Wa|k l1 n1 d1 i l n d ns' w q Ra La Sa|ns' (k & n & d & q & Ra & La) Ma];
      try (eapply no_type; eassumption); (assert (E := comes_eq _ _ _ _ _ _ Ra Rb ltac:(stucks) ltac:(stucks)); destruct E as [E Eq]; try discriminate E; injection E; intros; subst); try lia; congruence.
  Qed.
  (** and then the number of steps is bounded. *)
  Lemma finds_bound : forall ns, finds m f ns -> exists b, forall c w q, comes m f c w q -> (c <= b)%nat.
  Proof. intros ns (k & n & d & q & R & L). exists k. intros c w' q' A. eapply comes_bound; [exact R|stucks|exact A]. Qed.
  Lemma scan_stops_bound : forall nm x, scan_stops m f nm x -> exists b, forall c w q, comes m f c w q -> (c <= b)%nat.
  Proof.
    intros nm x A.
    destruct A as [x Ta|k l n d ns' w q e s Ra La Wa|k l n d ns' w q id hd sz nm x Ra La Ba Oa Wa|k l n d ns' w q id hd sz nm p Ra La Ba Oa Wa Sa|k l n d ns' w q id hd sz l1 s x Ra La Ba Oa Wa|k l1 n1 d1 i l n d ns' w q Ra La Sa|ns' Fi Ma].
    1: { exists 0%nat. intros c w' q' A'. exfalso; eapply no_type; eassumption. }
    6: { eapply finds_bound; exact Fi. }
    all: exists k; intros c w' q' A'; eapply comes_bound; [exact Ra|stucks|exact A'].
  Qed.

  (** * The plan *)

  Context (Lf : blen f < 2 ^ 62) (items : list atom_data).
  Lemma planned_one : forall mo s e d s' e' d', planned m items mo s e d -> planned m items mo s' e' d' -> s = s' /\ e = e' /\ d = d'.
  Proof.
    intros mo s e d s' e' d' (K & -> & d0 & T0 & T) (K' & -> & d0' & T0' & T'). numbers. pose proof (turned_one _ _ _ _ T0 T0') as <-. pose proof (turned_one _ _ _ _ T T') as <-. auto.
  Qed.
  Lemma plan_one : forall mo x x', plan_stops m f items mo x -> plan_stops m f items mo x' -> x = x'.
  Proof.
    intros mo x x' A B. destruct A, B; try reflexivity; repeat match goal with
      | H : planned m items mo _ _ _, H' : planned m items mo _ _ _ |- _ => let E := fresh in pose proof (planned_one _ _ _ _ _ _ _ H H') as E; destruct E as (-> & -> & ->); clear H'
      | H : planned m items mo _ _ _ |- _ => let d0 := fresh in let K := fresh in let T := fresh in let T' := fresh in destruct H as (K & -> & d0 & T & T') end;
      repeat numbers; try (exfalso; lia); exfalso;
      try (match goal with H : turned m ?a _, H' : too_big m ?a |- _ => exact (turned_big _ _ _ H H') end);
      match goal with H : turned m (less_old mo) ?a, H' : turned m (less_old mo) ?b |- _ => pose proof (turned_one _ _ _ _ H H'); subst b end;
      match goal with H : turned m ?a _, H' : too_big m ?a |- _ => exact (turned_big _ _ _ H H') end.
  Qed.
  Lemma plan_no : forall mo x s e d, plan_stops m f items mo x -> ready m f items mo s e d -> False.
  Proof.
    intros mo x s e d A (P & L). destruct A as [B|B|d0 T B|e' K Lk|s' e' d' k P' Ls Lk|s' e' d' k P' Ls Lk Le].
    - destruct P as (K & _). numbers.
    - destruct P as (_ & _ & d0 & T & _). exact (turned_big _ _ _ T B).
    - destruct P as (_ & _ & d1 & T' & T2). rewrite (turned_one _ _ _ _ T T') in B. exact (turned_big _ _ _ T2 B).
    - destruct P as (K' & _). numbers. destruct Lk. lia.
    - destruct (planned_one _ _ _ _ _ _ _ P P') as (<- & <- & <-). destruct Ls as [[_ ->]|(_ & Lx & _)]; lia.
    - destruct (planned_one _ _ _ _ _ _ _ P P') as (<- & <- & <-). lia.
  Qed.
  Lemma ready_one : forall mo s e d s' e' d', ready m f items mo s e d -> ready m f items mo s' e' d' -> s = s' /\ e = e' /\ d = d'.
  Proof. intros mo s e d s' e' d' [P _] [P' _]. eapply planned_one; eassumption. Qed.

  (** * The modifications *)

  Lemma table_one : forall d wide n g g1 o1 g2 o2, table_out m d wide n g g1 o1 -> table_out m d wide n g g2 o2 -> g1 = g2 /\ o1 = o2.
  Proof.
    intros d wide n g g1 o1 g2 o2 A B. destruct A, B; try (exfalso; eapply full_not; eassumption); try (exfalso; lia); try (split; reflexivity); repeat numbers; try (exfalso; lia); try (split; reflexivity).
    - match goal with H : full_wrong _ _ _ _ _ _, H' : full_wrong _ _ _ _ _ _ |- _ => destruct (full_one _ _ _ _ _ _ _ _ H H') as [-> ->]; auto end.
    - match goal with H : offsets _ _ _ _ = _, H' : offsets _ _ _ _ = _ |- _ => rewrite H in H'; apply (first_one _ (too_far m d)) in H'; [destruct H' as (-> & -> & ->)|assumption..] end. auto.
    - exfalso. match goal with H : offsets _ _ _ _ = _, H' : Forall _ (offsets _ _ _ _) |- _ => rewrite H in H'; eapply (first_none _ (too_far m d)); eassumption end.
    - exfalso. match goal with H : offsets _ _ _ _ = _, H' : Forall _ (offsets _ _ _ _) |- _ => rewrite H in H'; eapply (first_none _ (too_far m d)); eassumption end.
  Qed.
  Lemma tables_one : forall d l g g1 o1 g2 o2, tables_out m d l g g1 o1 -> tables_out m d l g g2 o2 -> g1 = g2 /\ o1 = o2.
  Proof.
    intros d l g g1 o1 g2 o2 A. revert g2 o2. induction A as [g|wide n l g g' g'' o T A IH|wide n l g g' x T]; intros g2 o2 B; inversion B; subst.
    - auto.
    - match goal with H : table_out _ _ _ _ _ _ None |- _ => destruct (table_one _ _ _ _ _ _ _ _ T H) as [<- _] end. auto.
    - match goal with H : table_out _ _ _ _ _ _ (Some _) |- _ => destruct (table_one _ _ _ _ _ _ _ _ T H) as [_ E]; discriminate E end.
    - match goal with H : table_out _ _ _ _ _ _ None |- _ => destruct (table_one _ _ _ _ _ _ _ _ T H) as [_ E]; discriminate E end.
    - match goal with H : table_out _ _ _ _ _ _ (Some _) |- _ => exact (table_one _ _ _ _ _ _ _ _ T H) end.
  Qed.
  Lemma tables_done_one : forall d ns g g1 o1 g2 o2, tables_done m d ns g g1 o1 -> tables_done m d ns g g2 o2 -> g1 = g2 /\ o1 = o2.
  Proof.
    intros d ns g g1 o1 g2 o2 A B. unfold tables_done in *. destruct (adjusts ns); [eapply tables_one; eassumption|]. destruct A as [-> ->], B as [-> ->]. auto.
  Qed.
  Lemma rest_one : forall mo s e d g o1 g1 o2 g2, rest_out m f items mo s e d g o1 g1 -> rest_out m f items mo s e d g o2 g2 -> o1 = o2 /\ g1 = g2.
  Proof. intros mo s e d g o1 g1 o2 g2 A B. destruct A, B; try congruence; try contradiction; try (exfalso; lia); split; reflexivity. Qed.
  Theorem write_one : forall o1 g1 o2 g2, write_out m f items o1 g1 -> write_out m f items o2 g2 -> o1 = o2 /\ g1 = g2.
  Proof.
    intros o1 g1 o2 g2 A B. destruct A, B;
      try (match goal with H : scan_stops m f _ _, H' : scan_stops m f _ _ |- _ => destruct (scan_stops_one _ _ _ _ H H') as [-> ->]; auto end; fail);
      try (exfalso; eapply scan_stops_no; eassumption);
      match goal with H : finds m f ?a, H' : finds m f ?b |- _ => pose proof (finds_one _ _ H H'); subst b; clear H' end;
      match goal with H : movie _ = Some ?a, H' : movie _ = Some ?b |- _ => rewrite H in H'; injection H' as <- end;
      try (match goal with H : plan_stops m f _ _ _, H' : plan_stops m f _ _ _ |- _ => rewrite (plan_one _ _ _ H H'); auto end; fail);
      try (exfalso; eapply plan_no; eassumption);
      match goal with H : ready m f _ _ _ _ _, H' : ready m f _ _ _ _ _ |- _ => destruct (ready_one _ _ _ _ _ _ _ H H') as (<- & <- & <-); clear H' end;
      match goal with H : tables_done m _ _ _ _ _, H' : tables_done m _ _ _ _ _ |- _ => destruct (tables_done_one _ _ _ _ _ _ _ H H') as [<- E]; clear H' end; try discriminate E;
      try (injection E as <- <-; auto; fail); try contradiction; try (exfalso; lia); try (split; reflexivity).
    - match goal with H : around _ = _, H' : around _ = _ |- _ => rewrite H in H'; apply (first_one _ (fun b => too_far m d (n_size b))) in H'; [destruct H' as (-> & -> & ->)|assumption..] end. auto.
    - exfalso. match goal with H : around _ = _, H' : Forall _ (around _) |- _ => rewrite H in H'; eapply (first_none _ (fun b => too_far m d (n_size b))); [|exact H']; assumption end.
    - exfalso. match goal with H : around _ = _, H' : Forall _ (around _) |- _ => rewrite H in H'; eapply (first_none _ (fun b => too_far m d (n_size b))); [|exact H']; assumption end.
    - exfalso. match goal with H : around _ = _, H' : Forall _ (around _) |- _ => rewrite H in H'; eapply (first_none _ (fun b => too_far m d (n_size b))); [|exact H']; assumption end.
    - exfalso. match goal with H : around _ = _, H' : Forall _ (around _) |- _ => rewrite H in H'; eapply (first_none _ (fun b => too_far m d (n_size b))); [|exact H']; assumption end.
    - exfalso. match goal with H : around _ = _, H' : Forall _ (around _) |- _ => rewrite H in H'; eapply (first_none _ (fun b => too_far m d (n_size b))); [|exact H']; assumption end.
    - exfalso. match goal with H : around _ = _, H' : Forall _ (around _) |- _ => rewrite H in H'; eapply (first_none _ (fun b => too_far m d (n_size b))); [|exact H']; assumption end.
    - match goal with H : flat_map _ _ = _, H' : flat_map _ _ = _ |- _ => rewrite H in H'; apply app_inj_tail in H'; destruct H' as [<- E2]; injection E2 as <- <- end.
      eapply rest_one; eassumption.
  Qed.
  (** A file that is written to, or that stops the writer, is not scanned for ever. *)
  Lemma write_bound : forall o g, write_out m f items o g -> exists b, forall c w q, comes m f c w q -> (c <= b)%nat.
  Proof. intros o g A. destruct A; try (eapply finds_bound; eassumption). eapply scan_stops_bound; eassumption. Qed.
End Unique.
