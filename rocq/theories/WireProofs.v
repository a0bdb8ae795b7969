(** The calls do to the names, type codes and bytes of the items what [WireSpec] says. *)

From Coq Require Import List NArith Bool String Lia ZifyBool ZifyNat ZifyN.
From Coq Require Strings.Byte.
From Verif Require Import Base BaseLemmas Utf UtfLemmas Types TagApi TagOps TagSpec TagOpsSpec TagLemmas TagProofs TagAccess TagRefine FileSpec
  ParseLemmas ReadProofs ReadFacts NewMeans WriteBytes DumpProofs WriteState ScanProofs AdjustProofs WriteProofs WriteMain UpdateMeans WireSpec.
Import ListNotations.
Local Open Scope list_scope.

Lemma keys_seen : forall l, map fst (seen l) = idents l.
Proof. intro l. unfold seen, idents. rewrite map_map. apply map_ext. reflexivity. Qed.

(** * Changes are functions *)

Lemma split_unique : forall (k : data_ident) (a a' b b' : wire) x x',
  ~ In k (map fst a) -> ~ In k (map fst a') -> a ++ (k, x) :: b = a' ++ (k, x') :: b' -> a = a' /\ x = x' /\ b = b'.
Proof.
  intros k a. induction a as [|e a IH]; intros a' b b' x x' N N' E.
  - destruct a' as [|e' a']; cbn in E.
    + injection E as -> ->. auto.
    + exfalso. injection E as <- E. apply N'. left. reflexivity.
  - destruct a' as [|e' a']; cbn in E.
    + exfalso. injection E as -> E. apply N. left. reflexivity.
    + injection E as <- E. cbn in N, N'. destruct (IH a' b b' x x') as (-> & -> & ->); auto.
Qed.

Lemma absent_split : forall (k : data_ident) (w a b : wire) x, ~ In k (map fst w) -> w = a ++ (k, x) :: b -> False.
Proof. intros k w a b x N ->. apply N. rewrite map_app. apply in_or_app. right. left. reflexivity. Qed.

Lemma put_fun : forall k g w u v, put k g w u -> put k g w v -> u = v.
Proof.
  intros k g w u v P Q. destruct P as [a old b N|w N].
  - inversion Q as [a' old' b' N' E|w' N' E].
    + destruct (split_unique _ _ _ _ _ _ _ N N' (eq_sym E)) as (-> & -> & ->). reflexivity.
    + exfalso. eapply absent_split; [exact N'|reflexivity].
  - inversion Q as [a' old' b' N' E|w' N' E]; [|reflexivity]. exfalso. eapply absent_split; [exact N|symmetry; exact E].
Qed.

Lemma cut_cases : forall k p w u, cut k p w u ->
  (~ In k (map fst w) /\ u = w) \/
  exists a old b, ~ In k (map fst a) /\ w = a ++ (k, old) :: b /\
    u = match filter p old with [] => a ++ b | r => a ++ (k, r) :: b end.
Proof.
  intros k p w u P. destruct P as [w N|a old b N F|a old b N F]; [auto| |].
  - right. exists a, old, b. split; [exact N|]. split; [reflexivity|]. destruct (filter p old); [contradiction|reflexivity].
  - right. exists a, old, b. rewrite F. auto.
Qed.
Lemma cut_fun : forall k p w u v, cut k p w u -> cut k p w v -> u = v.
Proof.
  intros k p w u v P Q. apply cut_cases in P, Q.
  destruct P as [(N & ->)|(a & old & b & N & E & ->)], Q as [(N' & ->)|(a' & old' & b' & N' & E' & ->)].
  - reflexivity.
  - destruct (absent_split _ _ _ _ _ N E').
  - destruct (absent_split _ _ _ _ _ N' E).
  - rewrite E in E'. destruct (split_unique _ _ _ _ _ _ _ N N' E') as (-> & -> & ->). reflexivity.
Qed.

Lemma first_unique : forall (x x' y y' : list value) v v', Forall (fun u => number u = false) x -> Forall (fun u => number u = false) x' ->
  number v = true -> number v' = true -> x ++ v :: y = x' ++ v' :: y' -> x = x' /\ v = v' /\ y = y'.
Proof.
  induction x as [|u x IH]; intros x' y y' v v' F F' N N' E.
  - destruct x' as [|u' x']; cbn in E; [injection E as -> ->; auto|]. exfalso. injection E as -> E. inversion F'; subst. congruence.
  - inversion F; subst. destruct x' as [|u' x']; cbn in E; [exfalso; injection E as -> E; congruence|]. injection E as <- E. inversion F'; subst.
    destruct (IH x' y y' v v') as (-> & -> & ->); auto.
Qed.
Lemma first_none : forall (x y : list value) v, Forall (fun u => number u = false) (x ++ v :: y) -> number v = true -> False.
Proof. intros x y v F N. apply Forall_app in F. destruct F as [_ F]. inversion F; subst. congruence. Qed.

Lemma first_cases : forall k g (none : wire -> wire -> Prop) w u, first_number k g none w u ->
  (~ In k (map fst w) /\ none w u) \/
  exists a old b, ~ In k (map fst a) /\ w = a ++ (k, old) :: b /\
    ((Forall (fun u => number u = false) old /\ none w u) \/
     exists x c v y, old = x ++ (c, v) :: y /\ Forall (fun u => number u = false) x /\ number (c, v) = true /\ u = a ++ (k, x ++ (c, g v) :: y) :: b).
Proof.
  intros k g none w u P. destruct P as [a x c z y b N F Z|a old b w' N F M|w w' N M]; [| |auto].
  - right. exists a, (x ++ (c, z) :: y), b. split; [exact N|]. split; [reflexivity|]. right. exists x, c, z, y. auto.
  - right. exists a, old, b. auto.
Qed.
Lemma first_number_fun : forall k g (none : wire -> wire -> Prop) w u v, (forall w u v, none w u -> none w v -> u = v) ->
  first_number k g none w u -> first_number k g none w v -> u = v.
Proof.
  intros k g none w u v D P Q. apply first_cases in P, Q.
  destruct P as [(N & M)|(a & old & b & N & E & P)], Q as [(N' & M')|(a' & old' & b' & N' & E' & Q)].
  - eapply D; eassumption.
  - destruct (absent_split _ _ _ _ _ N E').
  - destruct (absent_split _ _ _ _ _ N' E).
  - pose proof E' as E2. rewrite E in E2. destruct (split_unique _ _ _ _ _ _ _ N N' E2) as (-> & -> & ->).
    destruct P as [(F & M)|(x & c & z & y & -> & F & Z & ->)], Q as [(F' & M')|(x' & c' & z' & y' & X & F' & Z' & ->)].
    + eapply D; eassumption.
    + subst. destruct (first_none _ _ _ F Z').
    + subst. destruct (first_none _ _ _ F' Z).
    + apply first_unique in X; auto. destruct X as (-> & X & ->). injection X as -> ->. reflexivity.
Qed.

Lemma drop_fun : forall k w u v, drop k w u -> drop k w v -> u = v.
Proof. intros k. apply cut_fun. Qed.

Lemma followed_fun : forall (p q : wire -> wire -> Prop) w u v, (forall w u v, p w u -> p w v -> u = v) -> (forall w u v, q w u -> q w v -> u = v) ->
  followed p q w u -> followed p q w v -> u = v.
Proof. intros p q w u v P Q (x & A & B) (y & C & D). rewrite <- (P _ _ _ A C) in D. eapply Q; eassumption. Qed.

Lemma effect_fun : forall o w u v, effect o w u -> effect o w v -> u = v.
Proof.
  intros o w u v A B.
  destruct o; cbn in A, B; try contradiction; try (eapply put_fun; eassumption); try (eapply drop_fun; eassumption);
    try (eapply cut_fun; eassumption); try congruence;
    try (eapply first_number_fun; [|eassumption|eassumption]; intros; first [eapply put_fun; eassumption|eapply drop_fun; eassumption]);
    try (eapply followed_fun; [| |eassumption|eassumption]; intros; first [eapply put_fun; eassumption|eapply drop_fun; eassumption]).
  destruct A as [[S ->]|[S A]], B as [[S' ->]|[S' B]]; try contradiction; [reflexivity|eapply drop_fun; eassumption].
Qed.

(** * The calls *)

Lemma put_cons : forall k g e w w', fst e <> k -> put k g w w' -> put k g (e :: w) (e :: w').
Proof.
  intros k g e w w' N P. destruct P as [a old b A|w A].
  - apply (Put_there k g (e :: a) old b). cbn. tauto.
  - apply (Put_new k g (e :: w)). cbn. tauto.
Qed.
Lemma cut_cons : forall k p e w w', fst e <> k -> cut k p w w' -> cut k p (e :: w) (e :: w').
Proof.
  intros k p e w w' N P. destruct P as [w A|a old b A F|a old b A F].
  - apply Cut_absent. cbn. tauto.
  - apply (Cut_some k p (e :: a) old b); [cbn; tauto|exact F].
  - apply (Cut_all k p (e :: a) old b); [cbn; tauto|exact F].
Qed.

Lemma seen_cons : forall a l, seen (a :: l) = (ad_ident a, map seen_value (ad_data a)) :: seen l. Proof. reflexivity. Qed.

Lemma put_set_all : forall l i d, put (named i) (fun _ => map seen_value d) (seen l) (seen (set_all_data l i d)).
Proof.
  induction l as [|a l IH]; intros i d.
  - apply (Put_new (named i) (fun _ => map seen_value d) []). auto.
  - cbn [set_all_data]. rewrite arg_eqb_dec. destruct (ident_dec (named i) (ad_ident a)) as [E|E].
    + rewrite !seen_cons. cbn [ad_ident ad_data]. rewrite <- E.
      apply (Put_there (named i) (fun _ => map seen_value d) [] (map seen_value (ad_data a)) (seen l)). auto.
    + rewrite !seen_cons. apply put_cons; [cbn; congruence|apply IH].
Qed.
Lemma put_add_all : forall l i d, put (named i) (fun old => old ++ map seen_value d) (seen l) (seen (add_all_data l i d)).
Proof.
  induction l as [|a l IH]; intros i d.
  - apply (Put_new (named i) (fun old => old ++ map seen_value d) []). auto.
  - cbn [add_all_data]. rewrite arg_eqb_dec. destruct (ident_dec (named i) (ad_ident a)) as [E|E].
    + rewrite !seen_cons. cbn [ad_ident ad_data]. rewrite <- E, map_app.
      apply (Put_there (named i) (fun old => old ++ map seen_value d) [] (map seen_value (ad_data a)) (seen l)). auto.
    + rewrite !seen_cons. apply put_cons; [cbn; congruence|apply IH].
Qed.

Lemma filter_seen : forall p q d, (forall x, q (seen_value x) = p x) -> filter q (map seen_value d) = map seen_value (filter p d).
Proof. intros p q d H. induction d as [|x d IH]; [reflexivity|]. cbn [map filter]. rewrite H. destruct (p x); cbn [map]; rewrite IH; reflexivity. Qed.

Lemma cut_retain : forall p q l i, (forall x, q (seen_value x) = p x) -> cut (named i) q (seen l) (seen (retain_data_of l i p)).
Proof.
  intros p q l i H. induction l as [|a l IH]; [apply Cut_absent; auto|].
  cbn [retain_data_of]. rewrite arg_eqb_dec. destruct (ident_dec (named i) (ad_ident a)) as [E|E].
  - rewrite seen_cons, <- E. pose proof (filter_seen p q (ad_data a) H) as X. destruct (filter p (ad_data a)) as [|y r] eqn:F.
    + apply (Cut_all (named i) q [] (map seen_value (ad_data a)) (seen l)); auto.
    + rewrite seen_cons. cbn [ad_ident ad_data]. rewrite <- X.
      apply (Cut_some (named i) q [] (map seen_value (ad_data a)) (seen l)); [auto|rewrite X; discriminate].
  - rewrite !seen_cons. apply cut_cons; [cbn; congruence|exact IH].
Qed.

Lemma drop_remove : forall l i, unique_idents l -> drop (named i) (seen l) (seen (remove_data_of l i)).
Proof.
  induction l as [|a l IH]; intros i U; [apply Cut_absent; auto|]. unfold unique_idents in U. cbn in U. inversion U as [|? ? N U']; subst.
  unfold remove_data_of. cbn [filter]. fold (remove_data_of l i). rewrite arg_eqb_dec. destruct (ident_dec (named i) (ad_ident a)) as [E|E]; cbn [negb].
  - rewrite remove_absent by (rewrite E; exact N). rewrite seen_cons, <- E.
    apply (Cut_all (named i) (fun _ => false) [] (map seen_value (ad_data a)) (seen l)); [auto|].
    induction (map seen_value (ad_data a)); auto.
  - rewrite !seen_cons. apply cut_cons; [cbn; congruence|apply IH, U'].
Qed.
Lemma drop_take : forall l i, unique_idents l -> drop (named i) (seen l) (seen (snd (take_data_of l i))).
Proof. intros l i U. rewrite take_remove by exact U. apply drop_remove, U. Qed.

(** ** Numbers *)

Lemma number_seen : forall d, number (seen_value d) = match byte_value d with Some _ => true | None => false end.
Proof. destruct d; reflexivity. Qed.

Lemma no_number : forall d, filter_map data_bytes d = [] -> Forall (fun u => number u = false) (map seen_value d).
Proof.
  induction d as [|x d IH]; intro H; [constructor|]. cbn in H.
  destruct x; cbn in H; try discriminate; constructor; auto.
Qed.

Lemma has_number : forall d v r g, filter_map data_bytes d = v :: r ->
  exists x c y, map seen_value d = x ++ (c, v) :: y /\ Forall (fun u => number u = false) x /\ number (c, v) = true /\
    map seen_value (map_first_bytes g d) = x ++ (c, g v) :: y.
Proof.
  induction d as [|z d IH]; intros v r g H; [discriminate|]. cbn in H. destruct z as [b|s|s|b|b|b|b]; cbn in H.
  - injection H as -> H. exists [], 0, (map seen_value d). cbn. auto.
  - destruct (IH _ _ g H) as (x & c & y & A & F & N & B). exists (seen_value (DUtf8 s) :: x), c, y. cbn. rewrite A, B. auto.
  - destruct (IH _ _ g H) as (x & c & y & A & F & N & B). exists (seen_value (DUtf16 s) :: x), c, y. cbn. rewrite A, B. auto.
  - destruct (IH _ _ g H) as (x & c & y & A & F & N & B). exists (seen_value (DJpeg b) :: x), c, y. cbn. rewrite A, B. auto.
  - destruct (IH _ _ g H) as (x & c & y & A & F & N & B). exists (seen_value (DPng b) :: x), c, y. cbn. rewrite A, B. auto.
  - injection H as -> H. exists [], 21, (map seen_value d). cbn. auto.
  - destruct (IH _ _ g H) as (x & c & y & A & F & N & B). exists (seen_value (DBmp b) :: x), c, y. cbn. rewrite A, B. auto.
Qed.

Lemma first_seen : forall l i g (none : wire -> wire -> Prop) l', none (seen l) (seen l') ->
  first_number (named i) g none (seen l) (seen (match first (bytes_of l i) with Some _ => mut_first_bytes i l g | None => l' end)).
Proof.
  intros l i g none l' M.
  assert (X : exists a b, seen l = a ++ b /\ ~ In (named i) (map fst a) /\
    ((b = [] /\ first (bytes_of l i) = None) \/
     exists d b', b = (named i, map seen_value d) :: b' /\ bytes_of l i = filter_map data_bytes d /\
       seen (mut_first_bytes i l g) = a ++ (named i, map seen_value (map_first_bytes g d)) :: b')).
  { clear M. induction l as [|e l IH]; [exists [], []; cbn; auto|].
    unfold bytes_of, mut_first_bytes in *. rewrite seen_cons. cbn [data_of data_mut_of]. rewrite arg_eqb_dec. destruct (ident_dec (named i) (ad_ident e)) as [E|E].
    - exists [], ((named i, map seen_value (ad_data e)) :: seen l). rewrite <- E. split; [reflexivity|]. split; [auto|]. right.
      exists (ad_data e), (seen l). split; [reflexivity|]. split; [reflexivity|]. rewrite seen_cons. cbn [ad_ident ad_data]. rewrite ?E. reflexivity.
    - destruct IH as (a & b & A & N & [(B & C)|(d & b' & B & C & D)]).
      + exists ((ad_ident e, map seen_value (ad_data e)) :: a), b. rewrite A. split; [reflexivity|]. split; [cbn; intros [F|F]; [congruence|auto]|]. left. auto.
      + exists ((ad_ident e, map seen_value (ad_data e)) :: a), b. rewrite A. split; [reflexivity|]. split; [cbn; intros [F|F]; [congruence|auto]|]. right.
        exists d, b'. split; [exact B|]. split; [exact C|]. rewrite seen_cons, D. reflexivity. }
  destruct X as (a & b & A & N & [(-> & C)|(d & b' & -> & C & D)]).
  - rewrite C. apply First_absent; [rewrite A, app_nil_r; exact N|exact M].
  - destruct (bytes_of l i) as [|v r] eqn:V; cbn [first].
    + rewrite A in *. apply First_other; [exact N|apply no_number; auto|exact M].
    + destruct (has_number d v r g (eq_sym C)) as (x & c & y & E & F & Z & G). rewrite D, A, E, G. apply First_there; assumption.
Qed.

Lemma first_number_ext : forall k g h (none : wire -> wire -> Prop) w w', (forall v, g v = h v) -> first_number k g none w w' -> first_number k h none w w'.
Proof. intros k g h none w w' E P. destruct P; [rewrite E|..]; econstructor; eassumption. Qed.

Lemma with_number_is : forall n v, tset_number v n = with_number n v.
Proof.
  intros n v. unfold tset_number, with_number. rewrite poke_eq. unfold poke. generalize (be 2 n) as x. intro x.
  destruct v as [|a [|b [|c [|d v]]]]; reflexivity.
Qed.
Lemma with_total_is : forall n v, tset_total v n = with_total n v.
Proof.
  intros n v. unfold tset_total, with_total. rewrite poke_eq. unfold poke. generalize (be 2 n) as x. intro x.
  destruct v as [|a [|b [|c [|d [|e [|f v]]]]]]; reflexivity.
Qed.
Lemma with_both_is : forall n t v, tset_number (tset_total v t) n = with_both n t v.
Proof.
  intros n t v. unfold tset_total, tset_number, with_both. rewrite !poke_eq. unfold poke.
  assert (exists p q, be 2 t = [p; q]) as (p & q & ->) by (do 2 eexists; reflexivity). generalize (be 2 n) as x. intro x.
  destruct v as [|a [|b [|c [|d [|e [|f v]]]]]]; reflexivity.
Qed.

(** ** Genres *)

Definition first_is (vs : list value) : Prop :=
  exists x c p q more y, vs = x ++ (c, p :: q :: more) :: y /\
    Forall (fun u => number u = true -> blen (snd u) < 2) x /\ number (c, [] : bytes) = true /\ 1 <= 256 * b2n p + b2n q <= 80.

Lemma first_is_skip : forall v vs, (number v = true -> blen (snd v) < 2) -> (first_is (v :: vs) <-> first_is vs).
Proof.
  intros v vs S. split.
  - intros (x & c & p & q & more & y & E & F & N & R). destruct x as [|u x]; cbn in E.
    + exfalso. injection E as -> E. assert (H : blen (p :: q :: more) < 2) by (apply S; exact N). unfold blen in H. cbn [List.length snd] in H. lia.
    + injection E as -> E. exists x, c, p, q, more, y. inversion F; subst. auto.
  - intros (x & c & p & q & more & y & -> & F & N & R). exists (v :: x), c, p, q, more, y. auto.
Qed.
Lemma first_is_stop : forall c p q more vs, number (c, [] : bytes) = true ->
  (first_is ((c, p :: q :: more) :: vs) <-> 1 <= 256 * b2n p + b2n q <= 80).
Proof.
  intros c p q more vs N. split.
  - intros (x & c' & p' & q' & more' & y & E & F & N' & R). destruct x as [|u x]; cbn in E.
    + injection E as -> -> -> -> _. exact R.
    + exfalso. injection E as <- E. inversion F as [|? ? H _]; subst. assert (H' : blen (p :: q :: more) < 2) by (apply H; exact N). unfold blen in H'. cbn [List.length] in H'. lia.
  - intro R. exists [], c, p, q, more, vs. auto.
Qed.
Lemma codes_first : forall d, first_is (map seen_value d) <-> exists c r, genre_codes d = c :: r /\ 1 <= c <= 80.
Proof.
  induction d as [|z d IH].
  - split; [intros (x & c & p & q & more & y & E & _); destruct x; discriminate|intros (c & r & E & _); discriminate].
  - assert (K : forall c b, number (c, b) = true -> (first_is ((c, b) :: map seen_value d) <->
        exists c r, match b with a :: b :: _ => 256 * b2n a + b2n b :: genre_codes d | _ => genre_codes d end = c :: r /\ 1 <= c <= 80)).
    { intros c b N. destruct b as [|p [|q more]].
      - rewrite first_is_skip; [exact IH|]. intros _. reflexivity.
      - rewrite first_is_skip; [exact IH|]. intros _. reflexivity.
      - rewrite first_is_stop by exact N. split; [intro R; do 2 eexists; split; [reflexivity|exact R]|].
        intros (c' & r & E & R). injection E as <- _. exact R. }
    destruct z as [b|s|s|b|b|b|b]; cbn [map genre_codes byte_value];
      first [rewrite first_is_skip by (cbn; discriminate); exact IH|apply (K 0); reflexivity|apply (K 21); reflexivity].
Qed.

Lemma standard_seen : forall l, standard_first (seen l) <-> first_is (map seen_value (values l gnre)).
Proof.
  intro l. unfold standard_first, first_is. split.
  - intros (a & x & c & p & q & more & y & b & E & N & R). revert a E N. induction l as [|e l IH]; intros a E N; [destruct a; discriminate|].
    rewrite seen_cons in E. cbn [values]. destruct a as [|e' a]; cbn in E.
    + injection E as G E E'. destruct (ident_dec (ad_ident e) gnre); [|contradiction]. exists x, c, p, q, more, y. split; [|exact R]. assumption.
    + injection E as <- E. cbn in N. destruct (ident_dec (ad_ident e) gnre); [exfalso; auto|]. apply (IH a E). auto.
  - intros (x & c & p & q & more & y & E & R). induction l as [|e l IH]; [destruct x; discriminate|]. cbn [values] in E. rewrite seen_cons.
    destruct (ident_dec (ad_ident e) gnre) as [G|G].
    + exists [], x, c, p, q, more, y, (seen l). rewrite E, G. split; [reflexivity|]. split; [auto|]. exact R.
    + destruct (IH E) as (a & x' & c' & p' & q' & more' & y' & b & S & N & R'). rewrite S.
      exists ((ad_ident e, map seen_value (ad_data e)) :: a), x', c', p', q', more', y', b. split; [reflexivity|]. split; [cbn; intros [H|H]; auto|exact R'].
Qed.

(** ** Every call *)

Lemma rating_is : forall x, [n2b (rating_code x)] = be 1 (rating x). Proof. destruct x; reflexivity. Qed.
Lemma media_is : forall x, [n2b (media_code x)] = be 1 (media x). Proof. destruct x; reflexivity. Qed.
Lemma picture_is : forall x, seen_value (data_of_img x) = picture x. Proof. destruct x as [[] b]; reflexivity. Qed.
Lemma pictures_are : forall l, map seen_value (map data_of_img l) = map picture l.
Proof. intro l. rewrite map_map. apply map_ext, picture_is. Qed.
Lemma texts_are : forall l, map seen_value (map DUtf8 l) = map text l.
Proof. intro l. rewrite map_map. apply map_ext. reflexivity. Qed.
Lemma codes_are : forall l, map seen_value (map (fun x => DReserved (be16 x)) l) = map genre_code l.
Proof. intro l. rewrite map_map. apply map_ext. reflexivity. Qed.
Lemma pair_named : forall k, named (pair_ident k) = pair_code k. Proof. destruct k; reflexivity. Qed.

Lemma put_set : forall l i d vs, vs = [seen_value d] -> put (named i) (fun _ => vs) (seen l) (seen (set_data l i d)).
Proof. intros l i d vs ->. rewrite set_data_all. apply (put_set_all l i [d]). Qed.
Lemma put_add : forall l i d vs, vs = [seen_value d] -> put (named i) (fun old => old ++ vs) (seen l) (seen (add_data l i d)).
Proof. intros l i d vs ->. rewrite add_data_all. apply (put_add_all l i [d]). Qed.
Lemma put_sets : forall l i d vs, vs = map seen_value d -> put (named i) (fun _ => vs) (seen l) (seen (set_all_data l i d)).
Proof. intros l i d vs ->. apply put_set_all. Qed.
Lemma put_adds : forall l i d vs, vs = map seen_value d -> put (named i) (fun old => old ++ vs) (seen l) (seen (add_all_data l i d)).
Proof. intros l i d vs ->. apply put_add_all. Qed.

Lemma ttotal_zero : forall v, onat_eqb (ttotal v) (Some 0) = false.
Proof. intro v. unfold ttotal, nonzero. destruct (be_int v 4 2) as [n|]; [|reflexivity]. destruct (n =? 0) eqn:E; [reflexivity|exact E]. Qed.
Lemma tnumber_zero : forall v, onat_eqb (tnumber v) (Some 0) = false.
Proof. intro v. unfold tnumber, nonzero. destruct (be_int v 2 2) as [n|]; [|reflexivity]. destruct (n =? 0) eqn:E; [reflexivity|exact E]. Qed.

Lemma run_effect : forall o l, unique_idents l -> plain o -> effect o (seen l) (seen (run_op l o)).
Proof.
  intros o l U P. destruct o; cbn in P; try contradiction; cbn [effect run_op].
  - apply put_set. reflexivity.
  - apply put_sets. reflexivity.
  - apply put_add. reflexivity.
  - apply put_adds. reflexivity.
  - apply drop_remove, U.
  - apply drop_take, U.
  - rewrite snd_take_bytes. apply drop_take, U.
  - rewrite snd_take_strings. apply drop_take, U.
  - rewrite snd_take_images. apply drop_take, U.
  - apply cut_retain. destruct x; reflexivity.
  - apply cut_retain. destruct x; reflexivity.
  - apply cut_retain. destruct x; reflexivity.
  - reflexivity.
  - apply put_set. reflexivity.
  - rewrite snd_take_string. apply drop_take, U.
  - apply drop_remove, U.
  - apply put_sets. symmetry. apply texts_are.
  - apply put_adds. symmetry. apply texts_are.
  - apply put_add. reflexivity.
  - unfold take_all_strings. rewrite snd_take_strings. apply drop_take, U.
  - apply put_set. reflexivity.
  - apply put_set. reflexivity.
  - apply put_set. reflexivity.
  - unfold take_artworks. rewrite snd_take_images. apply (drop_take l (AFourcc ARTWORK)), U.
  - unfold take_artwork. pose proof (snd_take_images l (AFourcc ARTWORK)) as E. destruct (take_images_of l (AFourcc ARTWORK)) as [x r]. cbn in E |- *. rewrite E.
    apply (drop_take l (AFourcc ARTWORK)), U.
  - apply (put_set l (AFourcc ARTWORK)). rewrite picture_is. reflexivity.
  - apply (put_sets l (AFourcc ARTWORK)). symmetry. apply pictures_are.
  - apply (put_add l (AFourcc ARTWORK)). rewrite picture_is. reflexivity.
  - apply (put_adds l (AFourcc ARTWORK)). symmetry. apply pictures_are.
  - apply (drop_remove l (AFourcc ARTWORK)), U.
  - apply (put_set l (AFourcc MEDIA_TYPE)). rewrite <- media_is. reflexivity.
  - apply (drop_remove l (AFourcc MEDIA_TYPE)), U.
  - apply (put_set l (AFourcc ADVISORY_RATING)). rewrite <- rating_is. reflexivity.
  - apply (drop_remove l (AFourcc ADVISORY_RATING)), U.
  - rewrite <- pair_named. eapply first_number_ext; [apply with_both_is|]. apply first_seen, put_set. reflexivity.
  - rewrite <- pair_named. eapply first_number_ext; [apply with_number_is|]. apply first_seen, put_set. reflexivity.
  - rewrite <- pair_named. eapply first_number_ext; [apply with_total_is|]. apply first_seen, put_set. reflexivity.
  - rewrite <- pair_named. apply drop_remove, U.
  - rewrite <- pair_named. eapply first_number_ext; [apply with_number_is|]. unfold remove_pair_number.
    pose proof (first_seen l (pair_ident disc) (fun v => tset_number v 0) (drop (named (pair_ident disc))) _ (drop_remove l (pair_ident disc) U)) as X.
    destruct (first (bytes_of l (pair_ident disc))); [rewrite ttotal_zero|]; exact X.
  - rewrite <- pair_named. eapply first_number_ext; [apply with_total_is|]. unfold remove_pair_total.
    pose proof (first_seen l (pair_ident disc) (fun v => tset_total v 0) (drop (named (pair_ident disc))) _ (drop_remove l (pair_ident disc) U)) as X.
    destruct (first (bytes_of l (pair_ident disc))); [rewrite tnumber_zero|]; exact X.
  - apply (put_set l (AFourcc STANDARD_GENRE)). reflexivity.
  - apply (put_sets l (AFourcc STANDARD_GENRE)). symmetry. apply codes_are.
  - apply (put_add l (AFourcc STANDARD_GENRE)). reflexivity.
  - apply (put_adds l (AFourcc STANDARD_GENRE)). symmetry. apply codes_are.
  - apply (drop_remove l (AFourcc STANDARD_GENRE)), U.
  - unfold take_genres, take_all_strings. pose proof (snd_take_strings l (AFourcc CUSTOM_GENRE)) as E. destruct (take_strings_of l (AFourcc CUSTOM_GENRE)) as [x r]. cbn in E |- *. rewrite E.
    apply (drop_take l (AFourcc CUSTOM_GENRE)), U.
  - unfold take_genre, standard_genre. rewrite genre_codes_eq.
    pose proof (drop_take l (AFourcc CUSTOM_GENRE) U) as T. rewrite <- snd_take_string in T. change (named (AFourcc CUSTOM_GENRE)) with cgen in T.
    assert (S : standard_first (seen l) <-> exists c r, genre_codes (values l (IFourcc STANDARD_GENRE)) = c :: r /\ 1 <= c <= 80).
    { rewrite standard_seen, codes_first. reflexivity. }
    destruct (genre_codes _) as [|c r]; cbn [first obind_opt].
    + right. split; [|exact T]. rewrite S. intros (c & r & E & _). discriminate.
    + pose proof (standard_genre_known c) as K. destruct (standard_genre_name c) as [s|].
      * left. split; [|reflexivity]. rewrite S. exists c, r. split; [reflexivity|]. apply K. eexists; reflexivity.
      * right. split; [|exact T]. rewrite S. intros (c' & r' & E & R). injection E as <- _. apply K in R. destruct R; discriminate.
  - eexists. split; [apply (put_set l (AFourcc CUSTOM_GENRE) (DUtf8 g)); reflexivity|]. apply (drop_remove _ (AFourcc STANDARD_GENRE)), unique_set, U.
  - eexists. split; [apply (put_sets l (AFourcc CUSTOM_GENRE) (map DUtf8 g)); symmetry; apply texts_are|]. apply (drop_remove _ (AFourcc STANDARD_GENRE)), unique_set_all, U.
  - apply (put_add l (AFourcc CUSTOM_GENRE)). reflexivity.
  - eexists. split; [apply (drop_remove l (AFourcc STANDARD_GENRE)), U|]. apply (drop_remove _ (AFourcc CUSTOM_GENRE)), unique_remove, U.
Qed.

Lemma run_effects : forall ops l, unique_idents l -> Forall plain ops -> effects ops (seen l) (seen (TagOps.run_ops l ops)).
Proof.
  induction ops as [|o ops IH]; intros l U F; [reflexivity|]. inversion F; subst. cbn [effects]. exists (seen (run_op l o)).
  split; [apply run_effect; assumption|]. apply (IH (run_op l o)); [apply unique_run_op, U|assumption].
Qed.
Lemma effects_fun : forall ops w u v, effects ops w u -> effects ops w v -> u = v.
Proof.
  induction ops as [|o ops IH]; cbn; intros w u v A B; [congruence|]. destruct A as (x & A & A'), B as (y & B & B').
  rewrite <- (effect_fun _ _ _ _ A B) in B'. eapply IH; eassumption.
Qed.

(** * The bytes *)

Lemma boxed_render : forall id c k, boxed (fc_bytes id) (c ++ flat_map render k) = render (Atom false id c k).
Proof. intros id c k. unfold boxed. cbn [render]. unfold header. rewrite N.add_comm, <- app_assoc. reflexivity. Qed.
Lemma value_render : forall d, value_bytes (seen_value d) = render (data_atom d).
Proof.
  intro d. unfold data_atom. rewrite <- boxed_render. unfold value_bytes. cbn [flat_map seen_value fst snd]. rewrite app_nil_r. reflexivity.
Qed.
Lemma values_render : forall d, flat_map value_bytes (map seen_value d) = flat_map render (map data_atom d).
Proof. induction d as [|x d IH]; [reflexivity|]. cbn [map flat_map]. rewrite value_render, IH. reflexivity. Qed.
Lemma text_render : forall id s, boxed (fc_bytes id) (be 4 0 ++ enc8 s) = render (text_atom id s).
Proof. intros id s. unfold text_atom. rewrite <- boxed_render. cbn [flat_map]. rewrite app_nil_r. reflexivity. Qed.
Lemma entry_render : forall a, entry_bytes (ad_ident a, map seen_value (ad_data a)) = render (item_atom a).
Proof.
  intros [i d]. unfold entry_bytes, item_atom. cbn [fst snd ad_ident ad_data]. rewrite values_render. destruct i as [[p q r s]|mean name].
  - exact (boxed_render (FourCC p q r s) [] (map data_atom d)).
  - rewrite <- (boxed_render (id4 "----") []). cbn [flat_map app].
    rewrite <- (text_render (id4 "mean") mean), <- (text_render (id4 "name") name). reflexivity.
Qed.
Lemma entries_render : forall l, flat_map entry_bytes (seen l) = render_all (map item_atom l).
Proof. induction l as [|a l IH]; [reflexivity|]. rewrite seen_cons. cbn [flat_map map]. rewrite entry_render, IH. reflexivity. Qed.

(** * The file *)

Lemma kid_at : forall id x a y, a_id a = id4 id -> named_kids (id4 id) x = [] -> named_kids (id4 id) y = [] -> only_kid id (x ++ a :: y) a.
Proof. intros id x a y I X Y. unfold only_kid. rewrite named_app, X. cbn [app]. rewrite named_this by exact I. rewrite Y. reflexivity. Qed.

Lemma update_meta_list : forall items me, good_meta me ->
  only_kid "ilst" (a_kids (update_meta items me)) (new_ilst items).
Proof.
  intros items me G.
  assert (R : forall x y, named_kids (id4 "ilst") x = [] -> named_kids (id4 "ilst") y = [] ->
    only_kid "ilst" (x ++ missing_hdlr me ++ [new_ilst items] ++ y) (new_ilst items)).
  { intros x y Nx Ny. rewrite app_assoc. apply kid_at; [reflexivity| |exact Ny]. rewrite named_app, Nx. apply missing_other. discriminate. }
  unfold update_meta. destruct (split_one (id4 "ilst") (a_kids me) G) as [N|(x & c & y & E & I & N1 & N2)].
  - rewrite split_on_none by exact N. specialize (R (a_kids me) [] N eq_refl). rewrite app_nil_r in R. exact R.
  - rewrite E, split_on_at by assumption. apply R; assumption.
Qed.
Lemma update_udta_list : forall items u, good_udta u ->
  exists me, only_kid "meta" (a_kids (update_udta items u)) me /\ only_kid "ilst" (a_kids me) (new_ilst items).
Proof.
  intros items u [G1 G2]. unfold update_udta. destruct (split_one (id4 "meta") (a_kids u) G1) as [N|(x & c & y & E & I & N1 & N2)].
  - rewrite split_on_none by exact N. exists (new_meta items). split; [apply kid_at; [reflexivity|exact N|reflexivity]|reflexivity].
  - rewrite E, split_on_at by assumption. assert (In c (a_kids u)) as Ic by (rewrite E; apply in_or_app; right; left; reflexivity).
    exists (update_meta items c). split; [apply kid_at; [rewrite update_meta_id; exact I|exact N1|exact N2]|].
    apply update_meta_list. exact (named_in _ _ _ c G2 Ic I).
Qed.
Lemma update_moov_list : forall items d mv, good_moov mv ->
  exists u, only_kid "udta" (a_kids (update_moov items d mv)) u /\
  exists me, only_kid "meta" (a_kids u) me /\ only_kid "ilst" (a_kids me) (new_ilst items).
Proof.
  intros items d mv [_ [G1 G2]].
  assert (T : forall x, named_kids (id4 "udta") x = [] -> named_kids (id4 "udta") (shift_traks d x) = []).
  { intros x N. unfold shift_traks. rewrite named_map_other by (discriminate || reflexivity). exact N. }
  unfold update_moov. destruct (split_one (id4 "udta") (a_kids mv) G1) as [N|(x & c & y & E & I & N1 & N2)].
  - rewrite split_on_none by exact N. exists (new_udta items). split; [apply kid_at; [reflexivity|apply T, N|reflexivity]|].
    exists (new_meta items). split; reflexivity.
  - rewrite E, split_on_at by assumption. assert (In c (a_kids mv)) as Ic by (rewrite E; apply in_or_app; right; left; reflexivity).
    exists (update_udta items c). split; [apply kid_at; [rewrite update_udta_id; exact I|apply T, N1|exact N2]|].
    apply update_udta_list. exact (named_in _ _ _ c G2 Ic I).
Qed.
Lemma update_file_list : forall items f t, describes f t -> editable f ->
  item_list (update_file items f) (flat_map entry_bytes (seen items)).
Proof.
  intros items f t (ft & pre & mv & post & -> & I & _ & _ & J & N & _) E.
  rewrite (update_at items ft pre mv post I J N). set (d := match named_kids _ post with [] => _ | _ => _ end). clearbody d.
  destruct (update_moov_list items d mv (editable_moov _ _ _ _ J E)) as (u & U & me & M & L).
  exists (update_moov items d mv), u, me, (new_ilst items). rewrite named_app in N. apply app_eq_nil in N. destruct N as [N1 N2].
  split; [apply kid_at; [rewrite update_moov_id; exact J| |exact N2]|].
  - rewrite named_other by (rewrite I; discriminate). exact N1.
  - split; [exact U|]. split; [exact M|]. split; [exact L|]. rewrite entries_render. reflexivity.
Qed.
