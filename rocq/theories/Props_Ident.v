(** Theorems about identifiers that callers implement: C69 (see properties.jsonl). *)

From Coq Require Import List NArith Bool Lia.
From Verif Require Import Base BaseLemmas Utf Types TagApi TagSpec TagLemmas UserIdent.
Import ListNotations.

(** * Specification *)

(** The first item the identifier calls equal, with the items before and behind it; or there is none. *)
Definition first_item (u : user_ident) (l before : atoms) (a : atom_data) (behind : atoms) : Prop :=
  l = before ++ a :: behind /\ u_eq u (ad_ident a) = true /\ forall x, In x before -> u_eq u (ad_ident x) = false.
Definition no_item (u : user_ident) (l : atoms) : Prop := forall x, In x l -> u_eq u (ad_ident x) = false.

Lemma one_or_none : forall u l, (exists b a r, first_item u l b a r) \/ no_item u l.
Proof.
  intros u. induction l as [|a l IH]; [now right|]. destruct (u_eq u (ad_ident a)) eqn:E.
  - left. exists [], a, l. now split.
  - destruct IH as [(b & x & r & -> & X & B)|N].
    + left. exists (a :: b), x, r. split; [reflexivity|]. split; [exact X|]. intros y [<-|I]; [exact E|now apply B].
    + right. intros y [<-|I]; [exact E|now apply N].
Qed.

(** * C69: any implementation of the trait can be used as an identifier *)

(** The methods that inspect or change the values of an item use the first item that the identifier calls equal and leave
    all others as they are. *)
Theorem C69_first_item : forall u l before a behind, first_item u l before a behind ->
  u_data_of l u = ad_data a /\
  (forall g, u_data_mut_of g l u = before ++ AtomData (ad_ident a) (g (ad_data a)) :: behind) /\
  u_take_data_of l u = (ad_data a, before ++ behind) /\
  (forall p, u_retain_data_of l u p = before ++ match filter p (ad_data a) with [] => [] | d => [AtomData (ad_ident a) d] end ++ behind) /\
  (forall d, u_set_data l u d = before ++ AtomData (ad_ident a) [d] :: behind) /\
  (forall d, u_set_all_data l u d = before ++ AtomData (ad_ident a) d :: behind) /\
  (forall d, u_add_data l u d = before ++ AtomData (ad_ident a) (ad_data a ++ [d]) :: behind) /\
  (forall d, u_add_all_data l u d = before ++ AtomData (ad_ident a) (ad_data a ++ d) :: behind).
Proof.
  intros u l before a behind (-> & E & B). induction before as [|x before IH].
  - cbn. rewrite E. repeat (split; [reflexivity|]). split; [intros p; now destruct (filter p (ad_data a))|]. repeat (split; [reflexivity|]). reflexivity.
  - destruct IH as (H1 & H2 & H3 & H4 & H5 & H6 & H7 & H8); [intros y I; apply B; now right|].
    assert (X : u_eq u (ad_ident x) = false) by (apply B; now left). cbn. rewrite X, H1, H3.
    split; [reflexivity|]. split; [intros; now rewrite H2|]. split; [reflexivity|]. split; [intros; now rewrite H4|].
    split; [intros; now rewrite H5|]. split; [intros; now rewrite H6|]. split; intros; [now rewrite H7|now rewrite H8].
Qed.
Print Assumptions C69_first_item.

(** If there is none, nothing is found or changed, but setting and adding append an item with the identifier converted. *)
Theorem C69_no_item : forall u l, no_item u l ->
  u_data_of l u = [] /\ (forall g, u_data_mut_of g l u = l) /\ u_take_data_of l u = ([], l) /\ (forall p, u_retain_data_of l u p = l) /\
  (forall d, u_set_data l u d = l ++ [AtomData (u_into u) [d]] /\ u_add_data l u d = l ++ [AtomData (u_into u) [d]]) /\
  (forall d, u_set_all_data l u d = l ++ [AtomData (u_into u) d] /\ u_add_all_data l u d = l ++ [AtomData (u_into u) d]).
Proof.
  intros u. induction l as [|a l IH]; intros N; [now cbn|].
  assert (X : u_eq u (ad_ident a) = false) by (apply N; now left). destruct IH as (H1 & H2 & H3 & H4 & H5 & H6); [intros y I; apply N; now right|].
  cbn. rewrite X, H1, H3. split; [reflexivity|]. split; [intros; now rewrite H2|]. split; [reflexivity|]. split; [intros; now rewrite H4|].
  split; intros d; [destruct (H5 d) as [-> ->]|destruct (H6 d) as [-> ->]]; now split.
Qed.
Print Assumptions C69_no_item.

(** Removing keeps the items the identifier calls unequal, in their order. *)
Theorem C69_removed : forall u l, (forall a, In a (u_remove_data_of l u) <-> In a l /\ u_ne u (ad_ident a) = true) /\
  exists keep, List.length keep = List.length l /\ u_remove_data_of l u = map fst (filter snd (combine l keep)).
Proof.
  intros u l. split; [intros a; apply filter_In|]. exists (map (fun a => u_ne u (ad_ident a)) l). split; [apply map_length|].
  unfold u_remove_data_of. induction l as [|a l IH]; [reflexivity|]. cbn. destruct (u_ne u (ad_ident a)); cbn; now rewrite IH.
Qed.
Print Assumptions C69_removed.

(** An identifier that calls exactly its own conversion equal works like the [DataIdent] it is converted to. *)
Definition lawful (u : user_ident) : Prop := forall x, (u_eq u x = true <-> x = u_into u) /\ u_ne u x = negb (u_eq u x).
Lemma lawful_eq : forall u, lawful u -> forall x, u_eq u x = arg_eqb (AData (u_into u)) x.
Proof.
  intros u L x. destruct (L x) as [E _]. cbn. destruct (ident_eqb (u_into u) x) eqn:H.
  - apply ident_eqb_eq in H. now apply E.
  - destruct (u_eq u x); [|reflexivity]. assert (X : x = u_into u) by now apply E. subst x. assert (R : ident_eqb (u_into u) (u_into u) = true) by now apply ident_eqb_eq. congruence.
Qed.
Theorem C69_lawful : forall u l, lawful u -> let i := AData (u_into u) in
  u_data_of l u = data_of l i /\ (forall g, u_data_mut_of g l u = data_mut_of g l i) /\ u_take_data_of l u = take_data_of l i /\ u_remove_data_of l u = remove_data_of l i /\
  (forall p, u_retain_data_of l u p = retain_data_of l i p) /\ (forall d, u_set_data l u d = set_data l i d /\ u_add_data l u d = add_data l i d) /\
  (forall d, u_set_all_data l u d = set_all_data l i d /\ u_add_all_data l u d = add_all_data l i d).
Proof.
  intros u l L i. assert (Q := lawful_eq u L). assert (R : u_remove_data_of l u = remove_data_of l i).
  { unfold u_remove_data_of, remove_data_of. apply filter_ext. intros a. destruct (L (ad_ident a)) as [_ ->]. now rewrite Q. }
  rewrite R. clear R. unfold i in *. clear i L. induction l as [|a l (H1 & H2 & H3 & _ & H4 & H5 & H6)]; [now cbn|].
  cbn [u_data_of data_of u_data_mut_of data_mut_of u_take_data_of take_data_of u_retain_data_of retain_data_of u_set_data set_data u_add_data add_data u_set_all_data set_all_data u_add_all_data add_all_data].
  rewrite Q, H1, H3. destruct (arg_eqb (AData (u_into u)) (ad_ident a)).
  - now repeat split.
  - split; [reflexivity|]. split; [intros; now rewrite H2|]. split; [reflexivity|]. split; [reflexivity|]. split; [intros; now rewrite H4|].
    split; intros d; [destruct (H5 d) as [-> ->]|destruct (H6 d) as [-> ->]]; now split.
Qed.
Print Assumptions C69_lawful.

(** The identifiers of the crate are lawful. *)
Theorem C69_crate_lawful : forall i, lawful (user_of i) /\ u_into (user_of i) = arg_into i.
Proof.
  intros i. split; [|reflexivity]. intros x. split; [|reflexivity]. cbn [user_of u_eq u_into]. rewrite arg_eqb_eq. assert (E : named i = arg_into i) by now destruct i. rewrite E. split; intros X; symmetry; exact X.
Qed.
Print Assumptions C69_crate_lawful.

(** An identifier that calls its own conversion equal, whatever else it calls equal, keeps the identifiers in the tag distinct,
    and what is set or added through it is found through it. *)
Lemma new_distinct : forall u l d, u_eq u (u_into u) = true -> unique_idents l -> no_item u l -> unique_idents (l ++ [AtomData (u_into u) d]).
Proof.
  intros u l d R U N. unfold unique_idents, idents in *. rewrite map_app. cbn [map ad_ident]. apply NoDup_Add with (a := u_into u) (l := map ad_ident l).
  - rewrite <- (app_nil_r (map ad_ident l)) at 1. apply Add_app.
  - split; [exact U|]. intros I. apply in_map_iff in I. destruct I as (x & E & I). apply N in I. rewrite E in I. congruence.
Qed.
Lemma same_idents : forall u l b a r d, first_item u l b a r -> unique_idents l -> unique_idents (b ++ AtomData (ad_ident a) d :: r).
Proof. intros u l b a r d (-> & _) U. unfold unique_idents, idents in *. rewrite map_app in *. exact U. Qed.
Theorem C69_reflexive : forall u l, u_eq u (u_into u) = true -> unique_idents l ->
  (forall d, unique_idents (u_set_data l u d) /\ u_data_of (u_set_data l u d) u = [d]) /\
  (forall d, unique_idents (u_set_all_data l u d) /\ u_data_of (u_set_all_data l u d) u = d) /\
  (forall d, unique_idents (u_add_data l u d) /\ u_data_of (u_add_data l u d) u = u_data_of l u ++ [d]) /\
  (forall d, unique_idents (u_add_all_data l u d) /\ u_data_of (u_add_all_data l u d) u = u_data_of l u ++ d).
Proof.
  intros u l R U. destruct (one_or_none u l) as [(b & a & r & F)|N].
  - destruct (C69_first_item _ _ _ _ _ F) as (D & _ & _ & _ & S1 & S2 & A1 & A2). rewrite D.
    assert (X : forall d, unique_idents (b ++ AtomData (ad_ident a) d :: r) /\ u_data_of (b ++ AtomData (ad_ident a) d :: r) u = d).
    { intros d. split; [now apply (same_idents u l)|]. apply (C69_first_item u _ b (AtomData (ad_ident a) d) r). destruct F as (_ & E & B). now split. }
    split; [intros d; rewrite S1; apply X|]. split; [intros d; rewrite S2; apply X|]. split; intros d; [rewrite A1|rewrite A2]; apply X.
  - destruct (C69_no_item _ _ N) as (D & _ & _ & _ & S1 & S2). rewrite D.
    assert (X : forall d, unique_idents (l ++ [AtomData (u_into u) d]) /\ u_data_of (l ++ [AtomData (u_into u) d]) u = d).
    { intros d. split; [now apply new_distinct|]. apply (C69_first_item u _ l (AtomData (u_into u) d) []). now split. }
    split; [intros d; destruct (S1 d) as [-> _]; apply X|]. split; [intros d; destruct (S2 d) as [-> _]; apply X|].
    split; intros d; [destruct (S1 d) as [_ ->]|destruct (S2 d) as [_ ->]]; apply X.
Qed.
Print Assumptions C69_reflexive.

(** Without this a tag gets two items of one name, and a value that was set is not found. *)
Theorem C69_reflexive_needed : forall u, u_eq u (u_into u) = false -> forall d, let l := [AtomData (u_into u) []] in
  unique_idents l /\ ~ unique_idents (u_set_data l u d) /\ u_data_of (u_set_data l u d) u = [].
Proof.
  intros u R d l. split; [constructor; [intros []|constructor]|]. unfold l. cbn. rewrite R. cbn. rewrite R. split; [|reflexivity].
  intros U. unfold unique_idents in U. cbn in U. inversion U as [|? ? N _]. apply N. now left.
Qed.
Print Assumptions C69_reflexive_needed.

(** ** Examples *)

(** An identifier that stands for all freeform items of one namespace, and one that never matches. *)
Definition any_of (mean : ustring) : user_ident :=
  let e := fun x => match x with IFreeform m _ => ustr_eqb m mean | _ => false end in UserIdent e (fun x => negb (e x)) (IFreeform mean [110]).
Definition never : user_ident := UserIdent (fun _ => false) (fun _ => true) (IFourcc TITLE).
Example C69_example : let l := [AtomData (IFourcc TITLE) [DUtf8 [65]]; AtomData (IFreeform [97] [98]) [DUtf8 [66]]; AtomData (IFreeform [97] [99]) [DUtf8 [67]]] in
  u_eq (any_of [97]) (u_into (any_of [97])) = true /\ ~ lawful (any_of [97]) /\ unique_idents l /\ (exists b a r, first_item (any_of [97]) l b a r) /\ no_item never l /\
  u_data_of l (any_of [97]) = [DUtf8 [66]] /\ u_remove_data_of l (any_of [97]) = [AtomData (IFourcc TITLE) [DUtf8 [65]]] /\ u_eq never (u_into never) = false.
Proof.
  cbn. split; [reflexivity|]. split.
  { intros L. destruct (L (IFreeform [97] [98])) as [[E _] _]. now specialize (E eq_refl). }
  split. { unfold unique_idents. cbn. repeat (constructor; [cbn; intuition discriminate|]). constructor. }
  split. { exists [AtomData (IFourcc TITLE) [DUtf8 [65]]], (AtomData (IFreeform [97] [98]) [DUtf8 [66]]), [AtomData (IFreeform [97] [99]) [DUtf8 [67]]]. split; [reflexivity|]. split; [reflexivity|]. intros x [<-|[]]. reflexivity. }
  split. { now intros x _. } split; [reflexivity|]. split; reflexivity.
Qed.
