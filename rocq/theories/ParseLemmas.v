(** Running the stream parsers of the model on known bytes. *)

From Coq Require Import List NArith ZArith Bool Lia Arith String.
From Coq Require Import ZifyBool ZifyNat ZifyN.
From Verif Require Import Base BaseLemmas Utf UtfLemmas Types Stream Parse TagSpec FileSpec.
Import ListNotations.
Local Open Scope list_scope.
Ltac Zify.zify_post_hook ::= Z.div_mod_to_equations.

(** * Bytes at a position *)

Definition sits (f : bytes) (p : N) (bs : bytes) : Prop := exists a b, f = a ++ bs ++ b /\ blen a = p.
Definition small (f : bytes) : Prop := blen f < 2 ^ 62.

Lemma sits_app : forall f p x y, sits f p (x ++ y) -> sits f p x /\ sits f (p + blen x) y.
Proof.
  intros f p x y (a & b & -> & <-). split.
  - exists a, (y ++ b). rewrite <- app_assoc. auto.
  - exists (a ++ x), b. rewrite <- !app_assoc, blen_app. auto.
Qed.

Lemma sits_len : forall f p bs, sits f p bs -> p + blen bs <= blen f.
Proof. intros f p bs (a & b & -> & <-). rewrite !blen_app. lia. Qed.

Lemma slice_sits : forall f p bs, sits f p bs -> slice f p (blen bs) = bs.
Proof. intros f p bs (a & b & -> & <-). apply slice_app; reflexivity. Qed.

Lemma read_exact_sits : forall f p bs n, sits f p bs -> n = blen bs -> read_exact n f p = Ok (bs, p + n).
Proof.
  intros f p bs n H ->. unfold read_exact. destruct (N.eqb_spec (blen bs) 0) as [E|E].
  - rewrite E. apply blen_0 in E. subst. rewrite N.add_0_r. reflexivity.
  - pose proof (sits_len _ _ _ H). rewrite (proj2 (N.leb_le _ _)) by lia. rewrite slice_sits by exact H. reflexivity.
Qed.

(** * Parsers on bytes *)

(** [r] consumes exactly [bs] and returns [v], wherever [bs] sits. *)
Definition parses {A} (r : R A) (bs : bytes) (v : A) : Prop :=
  forall f p, small f -> sits f p bs -> r f p = Ok (v, p + blen bs).

Lemma parses_ret : forall {A} (v : A), parses (ret v) [] v.
Proof. intros A v f p _ _. unfold ret. rewrite blen_nil, N.add_0_r. reflexivity. Qed.

Lemma parses_bind : forall {A B} (r : R A) (k : A -> R B) x y v w,
  parses r x v -> parses (k v) y w -> parses (bind r k) (x ++ y) w.
Proof.
  intros A B r k x y v w H1 H2 f p Sm H. apply sits_app in H. destruct H as [Hx Hy]. unfold bind.
  rewrite (H1 f p Sm Hx), (H2 f _ Sm Hy), blen_app, N.add_assoc. reflexivity.
Qed.

(** The last step consumes nothing. *)
Lemma parses_bind_r : forall {A B} (r : R A) (k : A -> R B) x v w,
  parses r x v -> parses (k v) [] w -> parses (bind r k) x w.
Proof. intros. rewrite <- (app_nil_r x). eapply parses_bind; eassumption. Qed.

Lemma parses_bind_l : forall {A B} (r : R A) (k : A -> R B) x v w,
  parses r [] v -> parses (k v) x w -> parses (bind r k) x w.
Proof. intros. change x with ([] ++ x). eapply parses_bind; eassumption. Qed.

Lemma parses_lift : forall {A} (v : A) r, r = Ok v -> parses (lift r) [] v.
Proof. intros A v r -> f p _ _. unfold lift. rewrite blen_nil, N.add_0_r. reflexivity. Qed.

Lemma parses_eq : forall {A} (r : R A) bs bs' v v', parses r bs v -> bs = bs' -> v = v' -> parses r bs' v'.
Proof. intros; subst; assumption. Qed.

Lemma parses_read_exact : forall bs n, n = blen bs -> parses (read_exact n) bs bs.
Proof. intros bs n -> f p _ H. apply read_exact_sits; auto. Qed.

Lemma parses_read_u8 : forall b, parses read_u8 [b] (b2n b).
Proof.
  intros b. unfold read_u8. eapply parses_bind_r; [apply parses_read_exact; reflexivity|].
  eapply parses_eq; [apply parses_ret| |]; cbn; auto.
Qed.
Lemma parses_read_be : forall k v r, v < 256 ^ N.of_nat k ->
  r = (b <- read_exact (N.of_nat k) ;; ret (unbe b)) -> parses r (be k v) v.
Proof.
  intros k v r H ->. eapply parses_bind_r; [apply parses_read_exact; rewrite blen_be; reflexivity|].
  eapply parses_eq; [apply parses_ret|reflexivity|apply unbe_be, H].
Qed.
Lemma parses_read_u32 : forall v, v < 2 ^ 32 -> parses read_u32 (be 4 v) v.
Proof. intros. apply parses_read_be; [exact H|reflexivity]. Qed.
Lemma parses_read_u64 : forall v, v < 2 ^ 64 -> parses read_u64 (be 8 v) v.
Proof. intros. apply parses_read_be; [exact H|reflexivity]. Qed.
Lemma parses_read_u16 : forall v, v < 2 ^ 16 -> parses read_u16 (be 2 v) v.
Proof. intros. apply parses_read_be; [exact H|reflexivity]. Qed.
(** Arbitrary bytes of the right number. *)
Lemma parses_read_unbe : forall k b r, List.length b = k ->
  r = (b <- read_exact (N.of_nat k) ;; ret (unbe b)) -> parses r b (unbe b).
Proof. intros k b r <- ->. eapply parses_bind_r; [apply parses_read_exact; reflexivity|apply parses_ret]. Qed.

(** Seeking over known bytes. *)
Lemma seek_cur_ok : forall f p d, small f -> 0 <= d -> p + d <= blen f -> seek_cur (Z.of_N d) f p = Ok (tt, p + d).
Proof.
  intros f p d Sm _ H. unfold seek_cur, small in *.
  replace (_ && _)%bool with true by (symmetry; unfold two63; rewrite andb_true_iff; split; lia).
  f_equal. f_equal. lia.
Qed.
Lemma parses_seek : forall bs d, d = Z.of_N (blen bs) -> parses (seek_cur d) bs tt.
Proof. intros bs d -> f p Sm H. apply sits_len in H. apply seek_cur_ok; auto. lia. Qed.

Lemma parses_vec : forall bs n, n = blen bs -> parses (read_u8_vec n) bs bs.
Proof.
  intros bs n -> f p Sm H. unfold read_u8_vec. pose proof (sits_len _ _ _ H). unfold small in Sm.
  rewrite (proj2 (N.leb_gt two63 (blen bs))) by (unfold two63; lia). apply read_exact_sits; auto.
Qed.
Lemma parses_utf8 : forall s n, wf_ustr s = true -> n = blen (enc8 s) -> parses (read_utf8 n) (enc8 s) s.
Proof.
  intros s n H ->. unfold read_utf8. eapply parses_bind_r; [apply parses_vec; reflexivity|].
  rewrite dec8_enc8 by exact H. apply parses_ret.
Qed.
Lemma parses_utf16 : forall s n, wf_ustr s = true -> n = blen (units_bytes (enc16 s)) ->
  parses (read_utf16 n) (units_bytes (enc16 s)) s.
Proof.
  intros s n H ->. unfold read_utf16. eapply parses_bind_r; [apply parses_vec; reflexivity|].
  rewrite bytes_units_units_bytes, dec16_enc16 by auto using enc16_units. apply parses_ret.
Qed.

(** * Atom heads *)

Definition asize (a : atom) : N := blen (render a).
Definition hlen (a : atom) : N := if a_ext a then 16 else 8.
Definition csize (a : atom) : N := blen (a_content a).
Definition size_of (a : atom) : size := Size (a_ext a) (asize a).
Definition head_of (a : atom) : head := Head (size_of a) (a_id a).

Lemma render_eq : forall a, render a = header (a_ext a) (a_id a) (csize a) ++ a_content a.
Proof. intros []. reflexivity. Qed.
Lemma blen_header : forall e i n, blen (header e i n) = if e then 16 else 8.
Proof. intros [] i n; unfold header; rewrite !blen_app, !blen_be, blen_fc; reflexivity. Qed.
Lemma asize_eq : forall a, asize a = hlen a + csize a.
Proof. intros a. unfold asize. rewrite render_eq, blen_app, blen_header. reflexivity. Qed.
Lemma hlen_pos : forall a, 8 <= hlen a <= 16.
Proof. intros a. unfold hlen. destruct (a_ext a); lia. Qed.
Lemma asize_pos : forall a, 8 <= asize a.
Proof. intros a. rewrite asize_eq. pose proof (hlen_pos a). lia. Qed.

Lemma fits_eq : forall a, fits a = true <->
  (if a_ext a then csize a + 16 < 2 ^ 64 else csize a + 8 < 2 ^ 32) /\ forallb fits (a_kids a) = true.
Proof.
  intros [e i p k]. cbn [fits a_ext a_kids]. rewrite andb_true_iff. change (blen _) with (csize (Atom e i p k)).
  destruct e; rewrite N.ltb_lt; tauto.
Qed.

Lemma fourcc_of_bytes_fc : forall f, fourcc_of_bytes (fc_bytes f) = f.
Proof. intros []. reflexivity. Qed.

Lemma parses_head : forall a, fits a = true -> parses parse_head (header (a_ext a) (a_id a) (csize a)) (head_of a).
Proof.
  intros a F. apply fits_eq in F. destruct F as [F _]. unfold head_of, size_of, parse_head, header.
  rewrite asize_eq. unfold hlen. destruct (a_ext a).
  - eapply parses_bind; [apply parses_read_u32; reflexivity|].
    eapply parses_bind; [apply parses_read_exact; rewrite blen_fc; reflexivity|].
    cbv beta zeta. change (1 =? 1) with true. cbv iota. rewrite fourcc_of_bytes_fc. eapply parses_bind_r; [apply parses_read_u64; exact F|].
    eapply parses_eq; [apply parses_ret|reflexivity|]. rewrite N.add_comm. reflexivity.
  - eapply parses_bind; [apply parses_read_u32; exact F|].
    eapply parses_bind_r; [apply parses_read_exact; rewrite blen_fc; reflexivity|]. cbv beta zeta.
    rewrite (proj2 (N.eqb_neq _ _)) by lia. rewrite (proj2 (N.ltb_ge _ _)) by lia.
    rewrite fourcc_of_bytes_fc, (N.add_comm 8). apply parses_ret.
Qed.

Lemma content_len_of : forall m a, content_len m (size_of a) = Ok (csize a).
Proof.
  intros m a. unfold content_len, size_of. cbn [sz_ext sz_len]. rewrite asize_eq. unfold hlen.
  destruct (a_ext a); rewrite sub64_ok by lia; f_equal; lia.
Qed.
Lemma head_len_of : forall a, head_len (size_of a) = hlen a.
Proof. reflexivity. Qed.

(** * Parsers behind a head *)

(** [r] run on the content of [k], behind the head, consumes the content and returns [v]. *)
Definition kid_parses {A} (r : R A) (k : atom) (v : A) : Prop :=
  forall f p, small f -> sits f p (render k) -> r f (p + hlen k) = Ok (v, p + asize k).

Lemma sits_content : forall f p k, sits f p (render k) -> sits f (p + hlen k) (a_content k).
Proof. intros f p k H. rewrite render_eq in H. apply sits_app in H. rewrite blen_header in H. apply H. Qed.

Lemma kid_of_parses : forall {A} (r : R A) k v, parses r (a_content k) v -> kid_parses r k v.
Proof.
  intros A r k v H f p Sm S. rewrite (H f _ Sm (sits_content _ _ _ S)). f_equal. f_equal.
  rewrite asize_eq. unfold csize. lia.
Qed.

Lemma kid_bind : forall {A B} (r : R A) (k : A -> R B) a v w,
  kid_parses r a v -> (forall f p, small f -> sits f p (render a) -> k v f (p + asize a) = Ok (w, p + asize a)) ->
  kid_parses (bind r k) a w.
Proof. intros A B r k a v w H1 H2 f p Sm S. unfold bind. rewrite (H1 f p Sm S). apply H2; assumption. Qed.
Lemma kid_ret : forall {A B} (r : R A) (g : A -> B) a v,
  kid_parses r a v -> kid_parses (bind r (fun x => ret (g x))) a (g v).
Proof. intros. eapply kid_bind; [eassumption|]. reflexivity. Qed.

Lemma kid_skip : forall m k, kid_parses (skip_atom m (head_of k)) k tt.
Proof.
  intros m k. apply kid_of_parses. unfold skip_atom. cbn [hd_size head_of]. rewrite content_len_of.
  eapply parses_bind_l; [apply parses_lift; reflexivity|].
  intros f p Sm S. pose proof (sits_len _ _ _ S). unfold small in Sm.
  rewrite as_i64_small by (unfold two63, csize; lia). apply (parses_seek (a_content k)); auto.
Qed.

Lemma kid_skip_ret : forall {A} m k (s : A), kid_parses (skip_atom m (head_of k) ;;; ret s) k s.
Proof. intros. eapply kid_bind; [apply kid_skip|]. reflexivity. Qed.

(** [find_bounds] at the start of the content. *)
Definition bounds_of (p : N) (k : atom) : bounds := Bounds p (size_of k).
Lemma find_bounds_of : forall m k f p, find_bounds m (size_of k) f (p + hlen k) = Ok (bounds_of p k, p + hlen k).
Proof.
  intros m k f p. unfold find_bounds, bind, position, lift. rewrite head_len_of, sub64_ok by lia.
  unfold ret, bounds_of. do 3 f_equal. lia.
Qed.
Lemma bounds_end_of : forall m p k, p + asize k < two64 -> bounds_end m (bounds_of p k) = Ok (p + asize k).
Proof. intros. unfold bounds_end, bounds_of. cbn. apply add64_ok. assumption. Qed.
(** [seek_to_end] from anywhere inside the atom. *)
Lemma seek_to_end_of : forall m k f p q, small f -> sits f p (render k) -> q <= p + asize k ->
  seek_to_end m (bounds_of p k) f q = Ok (tt, p + asize k).
Proof.
  intros m k f p q Sm S H. pose proof (sits_len _ _ _ S) as L. unfold small in Sm. fold (asize k) in L.
  unfold seek_to_end, bind, position, lift. rewrite bounds_end_of by (unfold two64; lia).
  rewrite sub64_ok by lia. rewrite as_i64_small by (unfold two63; lia). rewrite seek_cur_ok by (unfold small; lia).
  do 2 f_equal. lia.
Qed.

(** * The atom loop *)

Fixpoint steps {S} (body : head -> S -> R S) (ks : list atom) (s s' : S) : Prop :=
  match ks with
  | [] => s = s'
  | k :: r => exists s1, kid_parses (body (head_of k) s) k s1 /\ steps body r s1 s'
  end.

Lemma render_all_cons : forall k r, render_all (k :: r) = render k ++ render_all r.
Proof. reflexivity. Qed.
Lemma render_all_app : forall a b, render_all (a ++ b) = render_all a ++ render_all b.
Proof. intros. unfold render_all. apply flat_map_app. Qed.
Lemma blen_render_all_cons : forall k r, blen (render_all (k :: r)) = asize k + blen (render_all r).
Proof. intros. rewrite render_all_cons, blen_app. reflexivity. Qed.
Lemma kids_count : forall ks, 8 * blen ks <= blen (render_all ks).
Proof.
  induction ks as [|k r IH]; [vm_compute; discriminate|]. rewrite blen_render_all_cons, blen_cons. pose proof (asize_pos k). lia.
Qed.
Lemma kid_in_size : forall ks k, In k ks -> asize k <= blen (render_all ks).
Proof.
  induction ks as [|x r IH]; [contradiction|]. intros k [->|H]; rewrite blen_render_all_cons; [lia|].
  specialize (IH k H). lia.
Qed.

Lemma loop_parses : forall {S} m body ks fuel limit parsed (s s' : S),
  forallb fits ks = true -> steps body ks s s' ->
  parsed + blen (render_all ks) = limit -> limit < 2 ^ 64 -> (List.length ks < fuel)%nat ->
  parses (atom_loop fuel m (Ok limit) body parsed s) (render_all ks) s'.
Proof.
  intros S m body ks. induction ks as [|k r IH]; intros fuel limit parsed s s' F St L L64 Fu f p Sm H.
  - destruct fuel as [|fuel]; [cbn in Fu; lia|]. cbn [atom_loop steps] in *. subst s'.
    change (render_all []) with (@nil byte) in *. rewrite blen_nil in *. unfold bind, lift.
    rewrite (proj2 (N.ltb_ge parsed limit)) by lia. unfold ret. rewrite N.add_0_r. reflexivity.
  - destruct fuel as [|fuel]; [cbn in Fu; lia|]. cbn [forallb] in F. apply andb_true_iff in F. destruct F as [Fk Fr].
    destruct St as (s1 & Hk & St). rewrite render_all_cons in H. apply sits_app in H. destruct H as [Sk Sr].
    rewrite blen_render_all_cons in *. pose proof (asize_pos k) as A8.
    cbn [atom_loop]. unfold bind at 1, lift at 1. rewrite (proj2 (N.ltb_lt parsed limit)) by lia.
    pose proof Sk as Sk'. rewrite render_eq in Sk'. apply sits_app in Sk'. destruct Sk' as [Sh _].
    unfold bind at 1. rewrite (parses_head k Fk f p Sm Sh), blen_header. fold (hlen k).
    unfold bind at 1. rewrite (Hk f p Sm Sk). unfold bind at 1, lift at 1. cbn [hd_size head_of sz_len size_of].
    rewrite add64_ok by (unfold two64; lia). fold (asize k) in Sr.
    rewrite (IH fuel limit (parsed + asize k) s1 s' Fr St) with (p := p + asize k); [|lia|exact L64|cbn in Fu; lia|exact Sm|exact Sr].
    do 2 f_equal. lia.
Qed.

(** Fuel beyond the number of bytes suffices. *)
Definition enough (fuel : nat) (ks : list atom) : Prop := blen (render_all ks) < N.of_nat fuel.
Lemma enough_length : forall fuel ks, enough fuel ks -> (List.length ks < fuel)%nat.
Proof. intros fuel ks H. unfold enough in H. pose proof (kids_count ks). unfold blen in *. lia. Qed.
Lemma enough_kid : forall fuel ks k, enough fuel ks -> In k ks -> enough fuel (a_kids k).
Proof.
  intros fuel ks k H I. unfold enough in *. apply kid_in_size in I. rewrite asize_eq in I. unfold csize, a_content in I.
  rewrite blen_app in I. lia.
Qed.

(** ** Containers with one interesting child *)

Lemma is_named_eq : forall id a, is_named id a = true <-> a_id a = id.
Proof. intros. unfold is_named. destruct (fourcc_dec (a_id a) id); split; congruence. Qed.
Lemma fourcc_eqb_dec : forall a b, fourcc_eqb a b = if fourcc_dec a b then true else false.
Proof. intros. destruct (fourcc_dec a b) as [E|E]; [apply fourcc_eqb_eq|apply fourcc_eqb_neq]; exact E. Qed.
Lemma fourcc_eqb_named : forall a id, fourcc_eqb (a_id a) id = is_named id a.
Proof. intros. apply fourcc_eqb_dec. Qed.

Lemma last_opt_app : forall {A} (l : list A) x, last_opt (l ++ [x]) = Some x.
Proof. intros. unfold last_opt. rewrite fold_left_app. reflexivity. Qed.
Lemma last_fold : forall {A} (l : list A) s, fold_left (fun _ x => Some x) l s = match last_opt l with Some x => Some x | None => s end.
Proof.
  intros A l. unfold last_opt. induction l as [|x r IH]; intros s; [reflexivity|].
  cbn. rewrite (IH (Some x)). destruct (fold_left _ r None); reflexivity.
Qed.
Lemma last_opt_cons : forall {A} (x : A) l, last_opt (x :: l) = match last_opt l with Some y => Some y | None => Some x end.
Proof. intros. unfold last_opt at 1. cbn. apply last_fold. Qed.
Lemma last_opt_map : forall {A B} (g : A -> B) l, last_opt (map g l) = option_map g (last_opt l).
Proof.
  intros A B g l. induction l as [|x r IH]; [reflexivity|]. cbn [map]. rewrite !last_opt_cons, IH.
  destruct (last_opt r); reflexivity.
Qed.

Definition one_body {Y} (id : fourcc) (m : mode) (sub : size -> R Y) (h : head) (r : option Y) : R (option Y) :=
  if fourcc_eqb (hd_fourcc h) id then x <- sub (hd_size h) ;; ret (Some x)
  else skip_atom m h ;;; ret r.

Lemma one_steps : forall {X Y} id m (sub : size -> R Y) (P : atom -> X -> Prop) (g : Y -> X) ks l (s : option Y),
  Forall2 P (named_kids id ks) l ->
  (forall k x, In k ks -> a_id k = id -> P k x -> exists y, kid_parses (sub (size_of k)) k y /\ g y = x) ->
  exists s', steps (one_body id m sub) ks s s' /\
             option_map g s' = match last_opt l with Some x => Some x | None => option_map g s end.
Proof.
  intros X Y id m sub P g ks. induction ks as [|k r IH]; intros l s F H.
  - inversion F; subst. exists s. split; reflexivity.
  - cbn [named_kids filter] in F. unfold one_body at 1. cbn [steps]. unfold head_of at 1. cbn [hd_fourcc].
    destruct (is_named id k) eqn:E.
    + inversion F as [|? x ? l' Px F']; subst. apply is_named_eq in E.
      destruct (H k x (or_introl eq_refl) E Px) as (y & Hy & G).
      destruct (IH l' (Some y) F') as (s' & St & Eq); [intros; apply H; auto; right; auto|].
      exists s'. split.
      * exists (Some y). split; [|exact St]. cbn [hd_fourcc hd_size head_of]. rewrite fourcc_eqb_named, (proj2 (is_named_eq id k) E).
        apply kid_ret, Hy.
      * rewrite Eq, last_opt_cons. cbn. rewrite G. destruct (last_opt l'); reflexivity.
    + destruct (IH l s F) as (s' & St & Eq); [intros; apply H; auto; right; auto|].
      exists s'. split; [|exact Eq]. exists s. split; [|exact St]. cbn [hd_fourcc head_of]. rewrite fourcc_eqb_named, E.
      apply kid_skip_ret.
Qed.

Lemma kid_fits : forall a k, fits a = true -> In k (a_kids a) -> fits k = true.
Proof. intros a k F I. apply fits_eq in F. destruct F as [_ F]. rewrite forallb_forall in F. auto. Qed.
Lemma fits_kids : forall a, fits a = true -> forallb fits (a_kids a) = true.
Proof. intros a F. apply fits_eq in F. apply F. Qed.
Lemma fits_csize : forall a, fits a = true -> csize a + 8 < 2 ^ 64.
Proof. intros a F. apply fits_eq in F. destruct (a_ext a); lia. Qed.

(** Enough fuel for everything inside an atom. *)
Definition fuel_for (fuel : nat) (a : atom) : Prop := csize a < N.of_nat fuel.
Lemma fuel_enough : forall fuel a, fuel_for fuel a -> enough fuel (a_kids a).
Proof. intros fuel a H. unfold fuel_for, csize, a_content in H. rewrite blen_app in H. unfold enough. lia. Qed.
Lemma fuel_kid : forall fuel a k, fuel_for fuel a -> In k (a_kids a) -> fuel_for fuel k.
Proof.
  intros fuel a k H I. apply fuel_enough in H. apply kid_in_size in I. rewrite asize_eq in I. unfold enough, fuel_for in *.
  pose proof (hlen_pos k). lia.
Qed.

Lemma last_child_loop : forall {X Y} id m fuel (sub : size -> R Y) (P : atom -> X -> Prop) (g : Y -> X) a o,
  fits a = true -> fuel_for fuel a -> last_child id P a o ->
  (forall k x, In k (a_kids a) -> fits k = true -> fuel_for fuel k -> a_id k = id -> P k x ->
     exists y, kid_parses (sub (size_of k)) k y /\ g y = x) ->
  exists r, parses (atom_loop fuel m (content_len m (size_of a)) (one_body id m sub) (blen (a_pre a)) None)
                   (render_all (a_kids a)) r /\ option_map g r = o.
Proof.
  intros X Y id m fuel sub P g a o F Fu (l & F2 & ->) H.
  destruct (one_steps id m sub P g (a_kids a) l None F2) as (s' & St & Eq).
  { intros. apply H; eauto using kid_fits, fuel_kid. }
  exists s'. split; [|rewrite Eq; destruct (last_opt l); reflexivity].
  rewrite content_len_of. apply loop_parses; auto using fits_kids, enough_length, fuel_enough.
  - unfold csize, a_content. rewrite blen_app. reflexivity.
  - apply fits_csize in F. lia.
Qed.

Lemma box_loop : forall {X Y} id m fuel (sub : size -> R Y) (P : atom -> option X -> Prop) (g : Y -> option X) a o,
  fits a = true -> fuel_for fuel a -> box id P a o ->
  (forall k x, In k (a_kids a) -> fits k = true -> fuel_for fuel k -> a_id k = id -> P k x ->
     exists y, kid_parses (sub (size_of k)) k y /\ g y = x) ->
  exists r, kid_parses (atom_loop fuel m (content_len m (size_of a)) (one_body id m sub) 0 None) a r /\
            join (option_map g r) = o.
Proof.
  intros X Y id m fuel sub P g a o F Fu (Pre & oo & LC & ->) H.
  destruct (last_child_loop id m fuel sub P g a oo F Fu LC H) as (r & Pr & Eq).
  exists r. rewrite Eq. split; [|reflexivity]. apply kid_of_parses.
  rewrite Pre in Pr. unfold a_content. rewrite Pre. exact Pr.
Qed.
