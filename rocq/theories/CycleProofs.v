(** A walk through finitely many places that does not stop comes back to one of them. *)

From Coq Require Import List Arith NArith ZArith Bool Lia String.
From Coq Require Import ZifyBool ZifyNat ZifyN.
From Verif Require Import Base BaseLemmas Types Utf TagSpec FileSpec FailSpec PanicSpec WPanicSpec Display ErrSpec ErrExact FirstSpec FirstUnique LayoutSpec OutSpec OutUnique WOutSpec WOutUnique CycleSpec.
From Verif Require PanicProofs.
Import ListNotations.
Local Open Scope list_scope.

(** * Numbers in a list *)

Lemma repeats : forall l : list N, NoDup l \/ exists i j x, (i < j)%nat /\ nth_error l i = Some x /\ nth_error l j = Some x.
Proof.
  induction l as [|x l IH]; [left; constructor|].
  destruct IH as [IH|(i & j & y & L & A & B)].
  - destruct (in_dec N.eq_dec x l) as [I|I].
    + right. destruct (In_nth_error _ _ I) as [j E]. exists 0%nat, (S j), x. split; [lia|]. split; [reflexivity|exact E].
    + left. now constructor.
  - right. exists (S i), (S j), y. split; [lia|]. now split.
Qed.
Lemma few : forall (l : list N) b, NoDup l -> Forall (fun x => x < b) l -> (List.length l <= N.to_nat b)%nat.
Proof.
  intros l b D F. assert (E : List.length (map N.of_nat (seq 0 (N.to_nat b))) = N.to_nat b) by (rewrite map_length, seq_length; reflexivity).
  rewrite <- E. apply NoDup_incl_length; [exact D|]. intros x I. rewrite Forall_forall in F. specialize (F x I). cbn beta in F.
  apply in_map_iff. exists (N.to_nat x). split; [apply N2Nat.id|]. apply in_seq. lia.
Qed.

Section Walks.
  Context {A : Type} (step : A -> A -> Prop).
  Variable (code : A -> N) (bound : N) (a : A).

  Lemma traces : forall n c, walk step a n c ->
    exists l, List.length l = S n /\ forall i x, nth_error l i = Some x -> exists b, walk step a i b /\ x = code b.
  Proof.
    intros n c W. induction W as [|n b c W IH T].
    - exists [code a]. split; [reflexivity|]. intros [|i] x E; [|destruct i; discriminate E]. injection E as <-. exists a. split; [constructor|reflexivity].
    - destruct IH as (l & Ll & H). exists (l ++ [code c]). split; [rewrite app_length; cbn [List.length]; lia|]. intros i x E.
      destruct (Nat.lt_ge_cases i (List.length l)) as [Li|Li].
      + rewrite nth_error_app1 in E by exact Li. exact (H i x E).
      + rewrite nth_error_app2 in E by exact Li. destruct (i - List.length l)%nat as [|r] eqn:R; [|destruct r; discriminate E]. injection E as <-.
        assert (i = S n) by lia. subst i. exists c. split; [|reflexivity]. eapply Walk; eassumption.
  Qed.
  (** More steps than there are places. *)
  Lemma meets : (forall n b, walk step a n b -> code b < bound) -> forall k c, walk step a k c -> (N.to_nat bound <= k)%nat ->
    exists i j b b', (i < j)%nat /\ walk step a i b /\ walk step a j b' /\ code b = code b'.
  Proof.
    intros H k c W Lk. destruct (traces _ _ W) as (l & Ll & T).
    destruct (repeats l) as [D|(i & j & x & L & E & E')].
    - exfalso. assert (F : Forall (fun x => x < bound) l).
      { apply Forall_forall. intros x I. destruct (In_nth_error _ _ I) as [i E]. destruct (T _ _ E) as (b & Wb & ->). exact (H _ _ Wb). }
      pose proof (few _ _ D F). lia.
    - destruct (T _ _ E) as (b & Wb & Eb). destruct (T _ _ E') as (b' & Wb' & Eb'). exists i, j, b, b'. split; [exact L|]. split; [exact Wb|]. split; [exact Wb'|]. congruence.
  Qed.

End Walks.

Section Again.
  Context {A : Type} (step : A -> A -> Prop) (det : forall a b c, step a b -> step a c -> b = c) (a : A).

  Lemma walk_plus : forall n x y, walk step x n y -> forall k z, walk step y k z -> walk step x (n + k) z.
  Proof.
    intros n x y W k z V. induction V as [|k u z V IH T]; [now rewrite Nat.add_0_r|].
    rewrite Nat.add_succ_r. eapply Walk; eassumption.
  Qed.
  Lemma walk_parts : forall k n x z, walk step x (n + k) z -> exists y, walk step x n y /\ walk step y k z.
  Proof.
    induction k as [|k IH]; intros n x z W.
    - rewrite Nat.add_0_r in W. exists z. split; [exact W|constructor].
    - rewrite Nat.add_succ_r in W. inversion W as [|n1 b c W1 T]; subst. destruct (IH _ _ _ W1) as (y & Y1 & Y2). exists y. split; [exact Y1|]. eapply Walk; eassumption.
  Qed.
  (** A place that is come back to is come back to again and again. *)
  Lemma again : forall i j b, walk step a i b -> walk step a j b -> (i < j)%nat -> forall n, exists c, walk step a n c.
  Proof.
    intros i j b Wi Wj L.
    assert (R : walk step b (j - i) b).
    { replace j with (i + (j - i))%nat in Wj by lia. destruct (walk_parts _ _ _ _ Wj) as (y & Y1 & Y2).
      now rewrite (walk_one step det _ _ _ _ Y1 Wi) in Y2. }
    assert (Rn : forall k, walk step b (k * (j - i)) b).
    { induction k as [|k IH]; [constructor|]. cbn [Nat.mul]. eapply walk_plus; eassumption. }
    intros n. pose proof (walk_plus _ _ _ Wi _ _ (Rn n)) as W.
    assert (E : (exists k, i + n * (j - i) = n + k)%nat) by (exists (i + n * (j - i) - n)%nat; nia).
    destruct E as [k E]. rewrite E in W. destruct (walk_parts _ _ _ _ W) as (y & Y & _). now exists y.
  Qed.
End Again.

(** * Places as numbers *)

Lemma mix_inj : forall x a b a' b', a < x -> a' < x -> a + x * b = a' + x * b' -> a = a' /\ b = b'.
Proof.
  intros x a b a' b' La La' E. assert (b = b').
  { destruct (N.lt_trichotomy b b') as [L|[L|L]]; [|exact L|]; exfalso; nia. }
  subst. split; [lia|reflexivity].
Qed.
Lemma mix_lt : forall x y a b, a < x -> b < y -> a + x * b < x * y.
Proof. intros x y a b La Lb. nia. Qed.

Definition lev (l : level) : N :=
  match l with
  | Top => 0 | InMoov => 1 | InTrak => 2 | InMdia => 3 | InMinf => 4 | InStbl => 5 | InStsd => 6 | InUdta => 7 | InMeta => 8 | InIlst => 9
  | InItem => 10
  end.
Lemma lev_inj : forall l l', lev l = lev l' -> l = l'.
Proof. intros [] []; (reflexivity || discriminate). Qed.
Lemma lev_lt : forall l, lev l < 11. Proof. intros []; reflexivity. Qed.

Definition lim : N := 2 ^ 65.
Definition entry_code (x : level * N * N) : N := lev (fst (fst x)) + 11 * (snd (fst x) + lim * snd x).
Definition entry_max : N := 11 * (lim * lim).
Definition small (x : level * N * N) : Prop := snd (fst x) < lim /\ snd x < lim.
Lemma entry_lt : forall x, small x -> entry_code x < entry_max.
Proof. intros [[l n] d] [A B]. apply mix_lt; [apply lev_lt|]. now apply mix_lt. Qed.
Lemma entry_inj : forall x y, small x -> small y -> entry_code x = entry_code y -> x = y.
Proof.
  intros [[l n] d] [[l' n'] d'] [A B] [A' B'] E. unfold entry_code in E. cbn [fst snd] in *.
  destruct (mix_inj 11 _ _ _ _ (lev_lt l) (lev_lt l') E) as [El E']. destruct (mix_inj lim _ _ _ _ A A' E') as [-> ->]. now rewrite (lev_inj _ _ El).
Qed.
Fixpoint list_code (w : list (level * N * N)) : N :=
  match w with
  | [] => 0
  | x :: r => (entry_code x + 1) + (entry_max + 1) * list_code r
  end.
Lemma list_inj : forall w w', Forall small w -> Forall small w' -> list_code w = list_code w' -> w = w'.
Proof.
  induction w as [|x r IH]; intros [|x' r'] F F' E; cbn [list_code] in E.
  - reflexivity.
  - exfalso. lia.
  - exfalso. lia.
  - inversion F as [|? ? Fx Fr]; inversion F' as [|? ? Fx' Fr']; subst. pose proof (entry_lt _ Fx). pose proof (entry_lt _ Fx').
    destruct (mix_inj (entry_max + 1) (entry_code x + 1) _ (entry_code x' + 1) _ ltac:(lia) ltac:(lia) E) as [E1 E2]. f_equal; [|now apply IH].
    apply entry_inj; try assumption. lia.
Qed.
Definition width (n : nat) : N := (entry_max + 1) ^ N.of_nat n.
Lemma list_lt : forall w, Forall small w -> list_code w < width (List.length w).
Proof.
  unfold width. induction w as [|x r IH]; intros F; [reflexivity|]. inversion F as [|? ? Fx Fr]; subst. specialize (IH Fr). pose proof (entry_lt _ Fx).
  cbn [list_code List.length]. rewrite Nat2N.inj_succ, N.pow_succ_r'. apply mix_lt; [lia|exact IH].
Qed.
Lemma width_mono : forall n k, (n <= k)%nat -> width n <= width k.
Proof. intros n k L. apply N.pow_le_mono_r; [rewrite N.add_1_r; apply N.neq_succ_0|lia]. Qed.

(** How deep containers can be. *)
Definition rank (l : level) : nat :=
  match l with
  | Top => 1 | InMoov => 2 | InTrak | InUdta => 3 | InMdia | InMeta => 4 | InMinf | InIlst => 5 | InStbl => 6 | InStsd => 7 | InItem => 6
  end.
Fixpoint deep (w : list (level * N * N)) : Prop :=
  match w with
  | [] => True
  | x :: r => rank (fst (fst x)) = S (List.length r) /\ deep r
  end.
Lemma deep_length : forall w, deep w -> (List.length w <= 7)%nat.
Proof. intros [|[[l n] d] r]; cbn [deep List.length]; [lia|]. intros [<- _]. destruct l; cbn; lia. Qed.
Lemma opens_rank : forall l id l' s, opens l id = Some (l', s) -> rank l' = S (rank l) /\ s < lim.
Proof.
  intros l id l' s O. unfold lim. destruct l; cbn in O; repeat match type of O with context [if ?b then _ else _] => destruct b end; try discriminate O;
    injection O as <- <-; (split; [reflexivity|lia]).
Qed.
Lemma scan_opens_rank : forall l id l' s, scan_opens l id = Some (l', s) -> rank l' = S (rank l) /\ s < lim.
Proof.
  intros l id l' s O. unfold lim. destruct l; cbn in O; repeat match type of O with context [if ?b then _ else _] => destruct b end; try discriminate O;
    injection O as <- <-; (split; [reflexivity|lia]).
Qed.

(** A place: the position and the containers around it. *)
Definition place_code (x : list (level * N * N) * N) : N := snd x + lim * list_code (fst x).
Definition places : N := lim * width 7.
Definition placed (x : list (level * N * N) * N) : Prop := snd x < lim /\ Forall small (fst x) /\ deep (fst x).
Lemma place_lt : forall x, placed x -> place_code x < places.
Proof.
  intros [w q] (Q & F & D). cbn [fst snd] in *. apply mix_lt; [exact Q|]. eapply N.lt_le_trans; [exact (list_lt _ F)|]. apply width_mono. now apply deep_length.
Qed.
Lemma place_inj : forall x y, placed x -> placed y -> place_code x = place_code y -> x = y.
Proof.
  intros [w q] [w' q'] (Q & F & D) (Q' & F' & D') E. cbn [fst snd] in *. destruct (mix_inj lim _ _ _ _ Q Q' E) as [E1 E2]. cbn [fst snd] in *. subst. now rewrite (list_inj _ _ F F' E2).
Qed.
(** A place in an item. *)
Definition spot_code (x : bool * N * N) : N := (if fst (fst x) then 1 else 0) + 2 * (snd (fst x) + lim * snd x).
Definition spots : N := 2 * (lim * lim).
Definition inside (x : bool * N * N) : Prop := snd (fst x) < lim /\ snd x < lim.
Lemma spot_lt : forall x, inside x -> spot_code x < spots.
Proof. intros [[v d] q] [A B]. apply mix_lt; [destruct v; reflexivity|]. now apply mix_lt. Qed.
Lemma spot_inj : forall x y, inside x -> inside y -> spot_code x = spot_code y -> x = y.
Proof.
  intros [[v d] q] [[v' d'] q'] [A B] [A' B'] E. unfold spot_code in E. cbn [fst snd] in *.
  destruct (mix_inj 2 (if v then 1 else 0) _ (if v' then 1 else 0) _ ltac:(destruct v; reflexivity) ltac:(destruct v'; reflexivity) E) as [El E']. destruct (mix_inj lim _ _ _ _ A A' E') as [-> ->].
  destruct v, v'; (reflexivity || discriminate El).
Qed.

(** * Numbers stay small *)

Lemma less_small : forall m a b c, a < 2 ^ 64 -> less m a b c -> c < 2 ^ 64.
Proof. intros m a b c L [[A ->]|(_ & A & ->)]; lia. Qed.
Lemma kept_small : forall m a c, kept m a c -> c < 2 ^ 64.
Proof. intros m a c [[A ->]|(_ & A & ->)]; [exact A|]. apply N.mod_lt. discriminate. Qed.

Section Small.
  Context (m : mode) (f : bytes) (Lf : blen f < 2 ^ 62).

  Lemma box_small : forall q id hd sz, box_at f q id hd sz -> q + hd <= blen f /\ sz < 2 ^ 64.
  Proof.
    intros q id hd sz (L & _ & [(_ & _ & ->)|(_ & _ & _ & ->)]); (split; [exact L|]).
    - pose proof (PanicProofs.field_lt f Lf (q + 8) 8). change (256 ^ 8) with (2 ^ 64) in *. assumption.
    - pose proof (PanicProofs.field_lt f Lf q 4). change (256 ^ 4) with (2 ^ 32) in *. lia.
  Qed.
  Definition near (p : N) : Prop := p < 2 ^ 63.
  Lemma skipped_small : forall q hd sz p, q + hd <= blen f -> sz < 2 ^ 64 -> skipped m q hd sz (Goes p) -> near p.
  Proof. unfold near. intros q hd sz p L Ls H. inversion H; subst; lia. Qed.
  Lemma ended_small : forall q sz c p, ended m q sz c (Goes p) -> near p.
  Proof. intros q sz c p H. inversion H; subst. assumption. Qed.
  Lemma taken_small : forall q n g b p, q <= blen f + 8 -> taken f q n g b (Goes p) -> near p.
  Proof. unfold near. intros q n g b p L H. inversion H; subst. lia. Qed.
  Lemma part_small : forall q id hd sz p, box_at f q id hd sz -> part_out m f q id hd sz (Goes p) -> near p.
  Proof.
    intros q id hd sz p B W. destruct (box_small _ _ _ _ B) as [L Ls]. inversion W as [o E V|o E V|o E V]; subst.
    - inversion V as [| | |n o FF S K K1 K2 T|n o FF S K T|n o FF S K T]; subst; destruct FF as [FF _]; (eapply taken_small; [|exact T]); lia.
    - inversion V as [| |n o FF S T]; subst; destruct FF as [FF _]; (eapply taken_small; [|exact T]); lia.
    - eapply skipped_small; eassumption.
  Qed.
  Lemma item_small : forall n q0 k v d q, near q0 -> in_item_at m f n q0 k v d q -> d < 2 ^ 64 /\ near q.
  Proof.
    intros n q0 k v d q N0 H. destruct H as [|k v d q id hd sz p d' H L B W S].
    - split; [lia|exact N0].
    - split; [eapply kept_small; exact S|eapply part_small; eassumption].
  Qed.
  Lemma leaf_small : forall l q id hd sz ns p, box_at f q id hd sz -> leaf_out m f l q id hd sz ns (Goes p) -> near p.
  Proof.
    intros l q id hd sz ns p B W. destruct (box_small _ _ _ _ B) as [L Ls]. inversion W as [o E I V|o E I V| |n o E I S V|o E I V]; subst.
    - inversion V; subst. eapply ended_small; eassumption.
    - inversion V; subst. eapply ended_small; eassumption.
    - inversion V; subst. eapply item_small; [|eassumption]. unfold near. lia.
    - eapply skipped_small; eassumption.
  Qed.
  Lemma enter_small : forall l s q hd sz p, q + hd <= blen f -> s < 2 ^ 62 -> enter_out m f l s q hd sz (Goes p) -> near p.
  Proof. unfold near. intros l s q hd sz p L Ls H. inversion H; subst. lia. Qed.
End Small.

(** * Reading *)

Section Reading.
  Context (m : mode) (f : bytes).

  Lemma walk_arrives : forall p, type_out m f (Goes p) -> forall k w q, walk (fstep m f) ([(Top, blen f - p, 0)], p) k (w, q) -> arrives m f k w q.
  Proof.
    intros p T. induction k as [|k IH]; intros w q W; inversion W as [|k' [w1 q1] c W1 G]; subst; [now constructor|].
    specialize (IH _ _ W1). inversion G; subst; [eapply Arrive_past|eapply Arrive_into|eapply Arrive_out]; eassumption.
  Qed.
  Lemma walk_items : forall n q0 k v d q, walk (istep m f n) (false, 0, q0) k (v, d, q) -> in_item_at m f n q0 k v d q.
  Proof.
    intros n q0. induction k as [|k IH]; intros v d q W; inversion W as [|k' [[v1 d1] q1] c W1 G]; subst; [constructor|].
    specialize (IH _ _ _ W1). inversion G; subst. econstructor; eassumption.
  Qed.
  Lemma back_endless : comes_back m f -> never_stops m f.
  Proof.
    intros [(k & k' & w & q & L & A & B)|(k & n & d & w & q & id & hd & sz & n' & c & c' & v & d' & q' & A & Ld & Bx & I & S & L & P & Q)] x.
    - left. destruct (arrives_walk _ _ _ _ _ A) as (p & T & Wa). destruct (arrives_walk _ _ _ _ _ B) as (p' & T' & Wb). pose proof (type_out_one _ _ _ _ T T') as E. injection E as <-.
      destruct (again (fstep m f) (fstep_det m f) _ _ _ _ Wa Wb L x) as [[w' q'] W]. exists w', q'. eapply walk_arrives; eassumption.
    - right. apply items_walk in P, Q. destruct (again (istep m f n') (istep_det m f n') _ _ _ _ P Q L x) as [[[v2 d2] q2] W].
      exists k, n, d, w, q, id, hd, sz, n', v2, d2, q2. repeat (split; [assumption|]). now apply walk_items.
  Qed.

  Context (Lf : blen f < 2 ^ 62).
  Lemma lim_is : lim = 2 ^ 65. Proof. reflexivity. Qed.
  Definition sized (w : list (level * N * N)) : Prop := Forall (fun x => snd (fst x) < 2 ^ 64 /\ snd x < 2 ^ 65) w.
  Lemma opens_skip : forall l id l' s, opens l id = Some (l', s) -> s < 2 ^ 62.
  Proof.
    intros l id l' s O. destruct l; cbn in O; repeat match type of O with context [if ?b then _ else _] => destruct b end; try discriminate O;
      injection O as <- <-; reflexivity.
  Qed.
  Lemma scan_opens_skip : forall l id l' s, scan_opens l id = Some (l', s) -> s < 2 ^ 62.
  Proof.
    intros l id l' s O. destruct l; cbn in O; repeat match type of O with context [if ?b then _ else _] => destruct b end; try discriminate O;
      injection O as <- <-; reflexivity.
  Qed.
  Lemma type_small : forall p, type_out m f (Goes p) -> near p.
  Proof. intros p T. inversion T; subst. eapply taken_small; [exact Lf| |eassumption]. match goal with H : box_at _ _ _ _ _ |- _ => destruct H as [? _] end. lia. Qed.
  Lemma arrives_small : forall k w q, arrives m f k w q -> near q /\ sized w /\ deep w.
  Proof.
    intros k w q H. induction H as [p T|k l n d w q id hd sz ns p d' H IH L B W S|k l n d w q id hd sz l' s p n' H IH L B O NI W S|k l' n' d' l n d w q d'' H IH L N1 N2 S].
    - split; [now apply type_small|]. split; [|now cbn]. constructor; [cbn [fst snd]; lia|constructor].
    - destruct IH as (Q & F & D). split; [eapply leaf_small; eassumption|]. split; [|exact D]. inversion F as [|x r Fx Fr]; subst. constructor; [|exact Fr].
      cbn [fst snd] in *. pose proof (kept_small _ _ _ S). split; [easy|lia].
    - destruct IH as (Q & F & D). destruct (box_small f Lf _ _ _ _ B) as [Lq Ls]. split; [eapply enter_small; [exact Lf|exact Lq|eapply opens_skip; exact O|exact W]|].
      pose proof (opens_skip _ _ _ _ O). pose proof (less_small _ _ _ _ Ls S). inversion F as [|x r Fx Fr]; subst. cbn [fst snd] in *. split.
      + constructor; [cbn [fst snd]; split; lia|]. constructor; [cbn [fst snd]; split; lia|exact Fr].
      + destruct (opens_rank _ _ _ _ O) as [E _]. cbn [deep fst snd List.length] in *. destruct D as [D D']. rewrite E, D. auto.
    - destruct IH as (Q & F & D). split; [exact Q|]. inversion F as [|x r Fx Fr]; subst. inversion Fr as [|x r Fx' Fr']; subst. cbn [fst snd deep] in *. split; [|apply D].
      pose proof (kept_small _ _ _ S). constructor; [cbn [fst snd]; split; [easy|lia]|exact Fr'].
  Qed.
  Lemma sized_small : forall w, sized w -> Forall small w.
  Proof. intros w F. eapply Forall_impl; [|exact F]. intros [[l n] d] [A B]. cbn [fst snd] in *. split; cbn [fst snd]; rewrite lim_is; lia. Qed.
  Lemma arrives_placed : forall k w q, arrives m f k w q -> placed (w, q).
  Proof.
    intros k w q A. destruct (arrives_small _ _ _ A) as (Q & F & D). split; [|split]; cbn [fst snd]; [unfold near in Q; rewrite lim_is; lia|now apply sized_small|exact D].
  Qed.
  (** How many steps lead back. *)
  Definition enough_steps (c : nat) : Prop := (N.to_nat places <= c)%nat /\ (N.to_nat spots <= c)%nat.
  Lemma busy_back : forall c, enough_steps c -> busy m f c -> comes_back m f.
  Proof.
    intros c [L1 L2] [(w & q & A)|(k & n & d & w & q & id & hd & sz & n' & v & d' & q' & A & Ld & Bx & I & S & P)].
    - left. destruct (arrives_walk _ _ _ _ _ A) as (p & T & W).
      assert (Pl : forall j b, walk (fstep m f) ([(Top, blen f - p, 0)], p) j b -> placed b) by (intros j [w' q'] W'; eapply arrives_placed, walk_arrives; eassumption).
      destruct (meets (fstep m f) place_code places _ (fun j b W' => place_lt _ (Pl j b W')) _ _ W L1) as (i & j & b & b' & Lij & Wi & Wj & E).
      pose proof (place_inj _ _ (Pl _ _ Wi) (Pl _ _ Wj) E) as <-. destruct b as [w' q']. exists i, j, w', q'. split; [exact Lij|]. split; eapply walk_arrives; eassumption.
    - right. destruct (box_small f Lf _ _ _ _ Bx) as [Lq Ls]. assert (Nq : near (q + hd)) by (unfold near; lia). pose proof (items_walk _ _ _ _ _ _ _ _ P) as W.
      assert (Pl : forall j b, walk (istep m f n') (false, 0, q + hd) j b -> inside b).
      { intros j [[v1 d1] q1] W'. apply walk_items in W'. destruct (item_small m f Lf _ _ _ _ _ _ Nq W') as [D1 Q1]. unfold near in Q1. split; cbn [fst snd]; rewrite lim_is; lia. }
      destruct (meets (istep m f n') spot_code spots _ (fun j b W' => spot_lt _ (Pl j b W')) _ _ W L2) as (i & j & b & b' & Lij & Wi & Wj & E).
      pose proof (spot_inj _ _ (Pl _ _ Wi) (Pl _ _ Wj) E) as <-. destruct b as [[v1 d1] q1]. exists k, n, d, w, q, id, hd, sz, n', i, j, v1, d1, q1.
      repeat (split; [assumption|]). split; apply walk_items; assumption.
  Qed.
End Reading.

(** * Scanning *)

Section Scanning.
  Context (m : mode) (f : bytes).

  (** Steps without the boxes found. *)
  Inductive estep : OutSpec.around * N -> OutSpec.around * N -> Prop :=
  | Estep_past : forall l n d w q id hd sz nm p d', d < n -> box_at f q id hd sz -> scan_opens l id = None -> pass_out m l q id hd sz nm (Goes p) -> kept m (d + sz) d' ->
      estep ((l, n, d) :: w, q) ((l, n, d') :: w, p)
  | Estep_into : forall l n d w q id hd sz l' s p n', d < n -> box_at f q id hd sz -> scan_opens l id = Some (l', s) -> enter_out m f l' s q hd sz (Goes p) -> less m sz hd n' ->
      estep ((l, n, d) :: w, q) ((l', n', s) :: (l, n, d + sz) :: w, p)
  | Estep_out : forall l' n' d' l n d w q d'', n' <= d' -> kept m d d'' -> estep ((l', n', d') :: (l, n, d) :: w, q) ((l, n, d'') :: w, q).
  Lemma estep_det : forall a b c, estep a b -> estep a c -> b = c.
  Proof.
    intros a b c A B. destruct A as [l n d w q id hd sz nm p d' L A O W S|l n d w q id hd sz l' s p n' L A O W S|l' n' d' l n d w q d'' L S];
      inversion B as [l2 n2 d2 w2 q2 id2 hd2 sz2 nm2 p2 d2' L2 A2 O2 W2 S2|l2 n2 d2 w2 q2 id2 hd2 sz2 l2' s2 p2 n2' L2 A2 O2 W2 S2|l2' n2' d2' l2 n2 d2 w2 q2 d2'' L2 S2]; subst; try (exfalso; lia);
      try (destruct (box_fun _ _ _ _ _ _ _ _ A A2) as (E1 & E2 & E3); subst); try congruence.
    - destruct (pass_one _ _ _ _ _ _ _ _ _ _ W W2) as [_ E]. injection E as <-. now rewrite (kept_one _ _ _ _ S S2).
    - rewrite O in O2. injection O2 as <- <-. pose proof (enter_out_one _ _ _ _ _ _ _ _ _ W W2) as E. injection E as <-. now rewrite (less_one _ _ _ _ _ S S2).
    - now rewrite (kept_one _ _ _ _ S S2).
  Qed.
  Lemma comes_bare : forall k w q, comes m f k w q -> exists p, type_out m f (Goes p) /\ walk estep ([(Top, blen f - p, 0)], p) k (bare w, q).
  Proof.
    intros k w q H. induction H as [p T|k l n d ns w q id head size nm p d' H IH Ld B O P K|k l n d ns w q id head size l' s p n' H IH Ld B O E L|k l' n' d' inn l n d ns w q head size id p d'' H IH L K];
      [exists p; split; [exact T|constructor]|..]; destruct IH as (p0 & T0 & P0); exists p0; (split; [exact T0|]); (eapply Walk; [exact P0|]); unfold bare; cbn [map fst].
    - eapply Estep_past; eassumption.
    - eapply Estep_into; eassumption.
    - apply Estep_out; assumption.
  Qed.
  (** The box that a container is in was the last to be found. *)
  Definition awaits (x : level * N * N * list node) : Prop := exists ns q hd sz id, snd x = ns ++ [Node q hd sz id []].
  Lemma bare_comes : forall p, type_out m f (Goes p) -> forall k w q, walk estep ([(Top, blen f - p, 0)], p) k (w, q) ->
    exists x ow, comes m f k (x :: ow) q /\ bare (x :: ow) = w /\ Forall awaits ow.
  Proof.
    intros p T. induction k as [|k IH]; intros w q W; inversion W as [|k' [w1 q1] c W1 G]; subst.
    - exists (Top, blen f - q, 0, []), []. split; [now constructor|]. split; [reflexivity|constructor].
    - destruct (IH _ _ W1) as ([[[l0 n0] d0] ns0] & ow & C & E & F). unfold bare in E. cbn [map fst] in E.
      inversion G as [l n d w' q' id hd sz nm p' d' L A O P S|l n d w' q' id hd sz l' s p' n' L A O P S|l' n' d' l n d w' q' d'' L S]; subst.
      + match goal with H : (_, _, _) :: _ = (_, _, _) :: _ |- _ => injection H; intros; subst end. eexists _, ow. split; [eapply Come_past; eassumption|]. split; [reflexivity|exact F].
      + match goal with H : (_, _, _) :: _ = (_, _, _) :: _ |- _ => injection H; intros; subst end. eexists _, _. split; [eapply Come_into; eassumption|]. split; [reflexivity|]. constructor; [|exact F]. exists ns0, q1, hd, sz, id. reflexivity.
      + injection H; clear H; intros E; intros; subst. destruct ow as [|[[[l1 n1] d1] ns1] ow]; [discriminate E|]. cbn [map fst] in E. injection E; intros; subst; clear E.
        inversion F as [|x r (ns & a & hd & sz & id & Ex) Fr]; subst. cbn [snd] in Ex. subst ns1. eexists _, ow. split; [eapply Come_out; eassumption|]. split; [reflexivity|exact Fr].
  Qed.
  Lemma scan_back_endless : scan_comes_back m f -> scans_on m f.
  Proof.
    intros (k & k' & w & w' & q & L & A & B & E) x. apply comes_bare in A, B. destruct A as (p & T & Wa), B as (p' & T' & Wb). pose proof (type_out_one _ _ _ _ T T') as Ep. injection Ep as <-.
    rewrite <- E in Wb. destruct (again estep estep_det _ _ _ _ Wa Wb L x) as [[w2 q2] W]. destruct (bare_comes _ T _ _ _ W) as (y & ow & C & _). eauto.
  Qed.

  Context (Lf : blen f < 2 ^ 62).
  Lemma pass_small : forall l q id hd sz nm p, box_at f q id hd sz -> pass_out m l q id hd sz nm (Goes p) -> near p.
  Proof.
    intros l q id hd sz nm p B W. destruct (box_small f Lf _ _ _ _ B) as [L Ls]. inversion W; subst; [eapply ended_small|eapply skipped_small]; eassumption.
  Qed.
  Lemma comes_small : forall k w q, comes m f k w q -> near q /\ sized (bare w) /\ deep (bare w).
  Proof.
    intros k w q H. induction H as [p T|k l n d ns w q id hd sz nm p d' H IH L B O W S|k l n d ns w q id hd sz l' s p n' H IH L B O W S|k l' n' d' inn l n d ns w q hd sz id p d'' H IH L S];
      unfold bare in *; cbn [map fst] in *.
    - split; [exact (type_small m f Lf _ T)|]. split; [|now cbn]. constructor; [cbn [fst snd]; lia|constructor].
    - destruct IH as (Q & F & D). split; [eapply pass_small; eassumption|]. split; [|exact D]. inversion F as [|x r Fx Fr]; subst. constructor; [|exact Fr].
      cbn [fst snd] in *. pose proof (kept_small _ _ _ S). split; [easy|lia].
    - destruct IH as (Q & F & D). destruct (box_small f Lf _ _ _ _ B) as [Lq Ls]. split; [eapply enter_small; [exact Lf|exact Lq|eapply scan_opens_skip; exact O|exact W]|].
      pose proof (scan_opens_skip _ _ _ _ O). pose proof (less_small _ _ _ _ Ls S). inversion F as [|x r Fx Fr]; subst. cbn [fst snd] in *. split.
      + constructor; [cbn [fst snd]; split; lia|]. constructor; [cbn [fst snd]; split; lia|exact Fr].
      + destruct (scan_opens_rank _ _ _ _ O) as [E _]. cbn [deep fst snd List.length] in *. destruct D as [D D']. rewrite E, D. auto.
    - destruct IH as (Q & F & D). split; [exact Q|]. inversion F as [|x r Fx Fr]; subst. inversion Fr as [|x r Fx' Fr']; subst. cbn [fst snd deep] in *. split; [|apply D].
      pose proof (kept_small _ _ _ S). constructor; [cbn [fst snd]; split; [easy|lia]|exact Fr'].
  Qed.
  Lemma scan_back : forall c w q, (N.to_nat places <= c)%nat -> comes m f c w q -> scan_comes_back m f.
  Proof.
    intros c w q L A. destruct (comes_bare _ _ _ A) as (p & T & W).
    assert (Pl : forall j b, walk estep ([(Top, blen f - p, 0)], p) j b -> placed b).
    { intros j [w' q'] W'. destruct (bare_comes _ T _ _ _ W') as (y & ow & C & <- & _). destruct (comes_small _ _ _ C) as (Q & F & D).
      split; [|split]; cbn [fst snd]; [unfold near in Q; rewrite lim_is; lia|eapply sized_small; eassumption|exact D]. }
    destruct (meets estep place_code places _ (fun j b W' => place_lt _ (Pl j b W')) _ _ W L) as (i & j & b & b' & Lij & Wi & Wj & E).
    pose proof (place_inj _ _ (Pl _ _ Wi) (Pl _ _ Wj) E) as <-. destruct b as [w' q'].
    destruct (bare_comes _ T _ _ _ Wi) as (y & ow & C & E1 & _). destruct (bare_comes _ T _ _ _ Wj) as (y' & ow' & C' & E2 & _).
    exists i, j, (y :: ow), (y' :: ow'), q'. repeat (split; [assumption|]). congruence.
  Qed.
End Scanning.
