(** Reading a described file never seeks backwards.

    The lemmas follow those of [ParseLemmas.v] and [ReadProofs.v] about the same programs. *)

From Coq Require Import List NArith ZArith Bool Lia Arith String.
From Coq Require Import ZifyBool ZifyNat ZifyN.
From Verif Require Import Base BaseLemmas Utf UtfLemmas Types Stream Parse TagSpec TagLemmas FileSpec ParseLemmas ReadProofs Fault ReadIO IoProofs IoCost.
Import ListNotations.
Local Open Scope list_scope.
Local Open Scope io_scope.
Ltac Zify.zify_post_hook ::= Z.div_mod_to_equations.

(** From [p] on, the program ends at [q] with [v] and does not seek backwards. *)
Definition goes_at {A} (x : IO A) (f : bytes) (p : N) (v : A) (q : N) : Prop :=
  run x f p = Ok (v, q) /\ forallb ahead (asked x f p) = true.

Lemma at_bind : forall {A B} (x : IO A) (k : A -> IO B) f p v q w q',
  goes_at x f p v q -> goes_at (k v) f q w q' -> goes_at (io_bind x k) f p w q'.
Proof.
  intros A B x k f p v q w q' [R1 A1] [R2 A2]. unfold goes_at. rewrite run_bind, asked_bind, R1, forallb_app, A1, A2. auto.
Qed.
Lemma at_ret : forall {A} (v : A) f p, goes_at (io_ret v) f p v p.
Proof. intros. split; reflexivity. Qed.
Lemma at_lift : forall {A} (v : A) r f p, r = Ok v -> goes_at (io_lift r) f p v p.
Proof. intros A v r f p ->. split; reflexivity. Qed.
Lemma at_eq : forall {A} (x : IO A) f p v q v' q', goes_at x f p v q -> v = v' -> q = q' -> goes_at x f p v' q'.
Proof. intros; subst; assumption. Qed.
Lemma at_seek : forall f p d, small f -> 0 <= d -> p + d <= blen f -> goes_at (io_seek_cur (Z.of_N d)) f p tt (p + d).
Proof.
  intros f p d Sm D L. split; [rewrite (is_seek (Z.of_N d) f p); now apply seek_cur_ok|].
  cbn. assert (0 <=? Z.of_N d = true)%Z as -> by lia. destruct (seek_cur _ _ _) as [[]| | |]; reflexivity.
Qed.
(** Reads and questions for the position do not seek. *)
Lemma at_read : forall n f p b q, read_exact n f p = Ok (b, q) -> goes_at (io_read_exact n) f p b q.
Proof. intros n f p b q H. split; [rewrite (is_read n f p); exact H|]. cbn. rewrite H. reflexivity. Qed.
Lemma at_vec : forall n f p b q, read_u8_vec n f p = Ok (b, q) -> goes_at (io_read_u8_vec n) f p b q.
Proof.
  intros n f p b q H. split; [rewrite (is_vec n f p); exact H|]. cbn. unfold read_u8_vec in H.
  destruct (two63 <=? n); [reflexivity|]. destruct (read_exact n f p) as [[]| | |]; reflexivity.
Qed.
Lemma at_pos : forall f p, goes_at io_position f p p p.
Proof. intros. split; reflexivity. Qed.

Definition goes {A} (x : IO A) (bs : bytes) (v : A) : Prop :=
  forall f p, small f -> sits f p bs -> goes_at x f p v (p + blen bs).

Lemma goes_ret : forall {A} (v : A), goes (io_ret v) [] v.
Proof. intros A v f p _ _. rewrite blen_nil, N.add_0_r. apply at_ret. Qed.
Lemma goes_bind : forall {A B} (r : IO A) (k : A -> IO B) x y v w, goes r x v -> goes (k v) y w -> goes (io_bind r k) (x ++ y) w.
Proof.
  intros A B r k x y v w H1 H2 f p Sm H. apply sits_app in H. destruct H as [Hx Hy].
  eapply at_bind; [apply (H1 f p Sm Hx)|]. rewrite blen_app, N.add_assoc. apply (H2 f _ Sm Hy).
Qed.
Lemma goes_bind_r : forall {A B} (r : IO A) (k : A -> IO B) x v w, goes r x v -> goes (k v) [] w -> goes (io_bind r k) x w.
Proof. intros. rewrite <- (app_nil_r x). eapply goes_bind; eassumption. Qed.
Lemma goes_bind_l : forall {A B} (r : IO A) (k : A -> IO B) x v w, goes r [] v -> goes (k v) x w -> goes (io_bind r k) x w.
Proof. intros. change x with ([] ++ x). eapply goes_bind; eassumption. Qed.
Lemma goes_lift : forall {A} (v : A) r, r = Ok v -> goes (io_lift r) [] v.
Proof. intros A v r -> f p _ _. rewrite blen_nil, N.add_0_r. now apply at_lift. Qed.
Lemma goes_eq : forall {A} (r : IO A) bs bs' v v', goes r bs v -> bs = bs' -> v = v' -> goes r bs' v'.
Proof. intros; subst; assumption. Qed.
Lemma goes_read_exact : forall bs n, n = blen bs -> goes (io_read_exact n) bs bs.
Proof. intros bs n -> f p _ H. apply at_read, read_exact_sits; auto. Qed.
Lemma goes_read_u8 : forall b, goes io_read_u8 [b] (b2n b).
Proof.
  intros b. unfold io_read_u8. eapply goes_bind_r; [apply goes_read_exact; reflexivity|].
  eapply goes_eq; [apply goes_ret| |]; cbn; auto.
Qed.
Lemma goes_read_be : forall k v r, v < 256 ^ N.of_nat k -> r = (b <- io_read_exact (N.of_nat k) ;; io_ret (unbe b)) -> goes r (be k v) v.
Proof.
  intros k v r H ->. eapply goes_bind_r; [apply goes_read_exact; rewrite blen_be; reflexivity|].
  eapply goes_eq; [apply goes_ret|reflexivity|apply unbe_be, H].
Qed.
Lemma goes_read_u32 : forall v, v < 2 ^ 32 -> goes io_read_u32 (be 4 v) v.
Proof. intros. apply goes_read_be; [exact H|reflexivity]. Qed.
Lemma goes_read_u64 : forall v, v < 2 ^ 64 -> goes io_read_u64 (be 8 v) v.
Proof. intros. apply goes_read_be; [exact H|reflexivity]. Qed.
Lemma goes_read_unbe : forall k b r, List.length b = k -> r = (b <- io_read_exact (N.of_nat k) ;; io_ret (unbe b)) -> goes r b (unbe b).
Proof. intros k b r <- ->. eapply goes_bind_r; [apply goes_read_exact; reflexivity|apply goes_ret]. Qed.
Lemma goes_seek : forall bs d, d = Z.of_N (blen bs) -> goes (io_seek_cur d) bs tt.
Proof. intros bs d -> f p Sm H. apply sits_len in H. apply at_seek; auto. lia. Qed.
Lemma goes_vec : forall bs n, n = blen bs -> goes (io_read_u8_vec n) bs bs.
Proof. intros bs n E f p Sm H. apply at_vec. now apply (parses_vec bs n E f p Sm H). Qed.
Lemma goes_utf8 : forall s n, wf_ustr s = true -> n = blen (enc8 s) -> goes (io_read_utf8 n) (enc8 s) s.
Proof.
  intros s n H ->. unfold io_read_utf8. eapply goes_bind_r; [apply goes_vec; reflexivity|].
  rewrite dec8_enc8 by exact H. apply goes_ret.
Qed.
Lemma goes_utf16 : forall s n, wf_ustr s = true -> n = blen (units_bytes (enc16 s)) -> goes (io_read_utf16 n) (units_bytes (enc16 s)) s.
Proof.
  intros s n H ->. unfold io_read_utf16. eapply goes_bind_r; [apply goes_vec; reflexivity|].
  rewrite bytes_units_units_bytes, dec16_enc16 by auto using enc16_units. apply goes_ret.
Qed.
Lemma goes_head : forall a, fits a = true -> goes io_parse_head (header (a_ext a) (a_id a) (csize a)) (head_of a).
Proof.
  intros a F. apply fits_eq in F. destruct F as [F _]. unfold head_of, size_of, io_parse_head, header.
  rewrite asize_eq. unfold hlen. destruct (a_ext a).
  - eapply goes_bind; [apply goes_read_u32; reflexivity|].
    eapply goes_bind; [apply goes_read_exact; rewrite blen_fc; reflexivity|].
    cbv beta zeta. change (1 =? 1) with true. cbv iota. rewrite fourcc_of_bytes_fc. eapply goes_bind_r; [apply goes_read_u64; exact F|].
    eapply goes_eq; [apply goes_ret|reflexivity|]. rewrite N.add_comm. reflexivity.
  - eapply goes_bind; [apply goes_read_u32; exact F|].
    eapply goes_bind_r; [apply goes_read_exact; rewrite blen_fc; reflexivity|]. cbv beta zeta.
    rewrite (proj2 (N.eqb_neq _ _)) by lia. rewrite (proj2 (N.ltb_ge _ _)) by lia.
    rewrite fourcc_of_bytes_fc, (N.add_comm 8). apply goes_ret.
Qed.

(** The program, run on the content of [k], behind the head. *)
Definition kid_goes {A} (r : IO A) (k : atom) (v : A) : Prop :=
  forall f p, small f -> sits f p (render k) -> goes_at r f (p + hlen k) v (p + asize k).
Lemma kid_of_goes : forall {A} (r : IO A) k v, goes r (a_content k) v -> kid_goes r k v.
Proof.
  intros A r k v H f p Sm S. eapply at_eq; [apply (H f _ Sm (sits_content _ _ _ S))|reflexivity|]. rewrite asize_eq. unfold csize. lia.
Qed.
Lemma kid_goes_ret : forall {A B} (r : IO A) (g : A -> B) a v, kid_goes r a v -> kid_goes (io_bind r (fun x => io_ret (g x))) a (g v).
Proof. intros A B r g a v H f p Sm S. eapply at_bind; [apply (H f p Sm S)|apply at_ret]. Qed.
Lemma kid_goes_skip : forall m k, kid_goes (io_skip_atom m (head_of k)) k tt.
Proof.
  intros m k. apply kid_of_goes. unfold io_skip_atom. cbn [hd_size head_of]. rewrite content_len_of.
  eapply goes_bind_l; [eapply goes_lift; reflexivity|].
  intros f p Sm S. pose proof (sits_len _ _ _ S). unfold small in Sm.
  rewrite as_i64_small by (unfold two63, csize; lia). apply (goes_seek (a_content k)); auto.
Qed.
Lemma kid_goes_skip_ret : forall {A} m k (s : A), kid_goes (io_skip_atom m (head_of k) ;;; io_ret s) k s.
Proof. intros. apply (kid_goes_ret (io_skip_atom m (head_of k)) (fun _ => s) k tt), kid_goes_skip. Qed.
Lemma at_bounds : forall m k f p, goes_at (io_find_bounds m (size_of k)) f (p + hlen k) (bounds_of p k) (p + hlen k).
Proof.
  intros m k f p. unfold io_find_bounds. eapply at_bind; [apply at_pos|]. rewrite head_len_of.
  eapply at_bind; [apply at_lift, sub64_ok; lia|]. eapply at_eq; [apply at_ret| |reflexivity]. unfold bounds_of. f_equal. lia.
Qed.
Lemma at_to_end : forall m k f p q, small f -> sits f p (render k) -> q <= p + asize k ->
  goes_at (io_seek_to_end m (bounds_of p k)) f q tt (p + asize k).
Proof.
  intros m k f p q Sm S H. pose proof (sits_len _ _ _ S) as L. unfold small in Sm. fold (asize k) in L.
  unfold io_seek_to_end. eapply at_bind; [apply at_pos|]. eapply at_bind; [apply at_lift, bounds_end_of; unfold two64; lia|].
  eapply at_bind; [apply at_lift, sub64_ok; lia|]. rewrite as_i64_small by (unfold two63; lia).
  eapply at_eq; [apply at_seek; [exact Sm|lia|lia]|reflexivity|lia].
Qed.

Fixpoint gsteps {S} (body : head -> S -> IO S) (ks : list atom) (s s' : S) : Prop :=
  match ks with
  | [] => s = s'
  | k :: r => exists s1, kid_goes (body (head_of k) s) k s1 /\ gsteps body r s1 s'
  end.
Lemma loop_goes : forall {S} m body ks fuel limit parsed (s s' : S),
  forallb fits ks = true -> gsteps body ks s s' ->
  parsed + blen (render_all ks) = limit -> limit < 2 ^ 64 -> (List.length ks < fuel)%nat ->
  goes (io_atom_loop fuel m (Ok limit) body parsed s) (render_all ks) s'.
Proof.
  intros S m body ks. induction ks as [|k r IH]; intros fuel limit parsed s s' F St L L64 Fu f p Sm H.
  - destruct fuel as [|fuel]; [cbn in Fu; lia|]. cbn [io_atom_loop gsteps] in *. subst s'.
    change (render_all []) with (@nil byte) in *. rewrite blen_nil in *.
    eapply at_bind; [apply at_lift; reflexivity|]. rewrite (proj2 (N.ltb_ge parsed limit)) by lia. rewrite N.add_0_r. apply at_ret.
  - destruct fuel as [|fuel]; [cbn in Fu; lia|]. cbn [forallb] in F. apply andb_true_iff in F. destruct F as [Fk Fr].
    destruct St as (s1 & Hk & St). rewrite render_all_cons in H. apply sits_app in H. destruct H as [Sk Sr].
    rewrite blen_render_all_cons in *. pose proof (asize_pos k) as A8.
    cbn [io_atom_loop]. eapply at_bind; [apply at_lift; reflexivity|]. rewrite (proj2 (N.ltb_lt parsed limit)) by lia.
    pose proof Sk as Sk'. rewrite render_eq in Sk'. apply sits_app in Sk'. destruct Sk' as [Sh _].
    eapply at_bind; [apply (goes_head k Fk f p Sm Sh)|]. rewrite blen_header. fold (hlen k).
    eapply at_bind; [apply (Hk f p Sm Sk)|]. cbn [hd_size head_of sz_len size_of].
    eapply at_bind; [apply at_lift, add64_ok; unfold two64; lia|]. fold (asize k) in Sr.
    eapply at_eq; [eapply (IH fuel limit (parsed + asize k) s1 s' Fr St) with (p := p + asize k); [lia|exact L64|cbn in Fu; lia|exact Sm|exact Sr]|reflexivity|lia].
Qed.

Definition one_body_io {Y} (id : fourcc) (m : mode) (sub : size -> IO Y) (h : head) (r : option Y) : IO (option Y) :=
  if fourcc_eqb (hd_fourcc h) id then x <- sub (hd_size h) ;; io_ret (Some x)
  else io_skip_atom m h ;;; io_ret r.

Lemma one_steps_io : forall {X Y} id m (sub : size -> IO Y) (P : atom -> X -> Prop) (g : Y -> X) ks l (s : option Y),
  Forall2 P (named_kids id ks) l ->
  (forall k x, In k ks -> a_id k = id -> P k x -> exists y, kid_goes (sub (size_of k)) k y /\ g y = x) ->
  exists s', gsteps (one_body_io id m sub) ks s s' /\
             option_map g s' = match last_opt l with Some x => Some x | None => option_map g s end.
Proof.
  intros X Y id m sub P g ks. induction ks as [|k r IH]; intros l s F H.
  - inversion F; subst. exists s. split; reflexivity.
  - cbn [named_kids filter] in F. unfold one_body_io at 1. cbn [gsteps]. unfold head_of at 1. cbn [hd_fourcc].
    destruct (is_named id k) eqn:E.
    + inversion F as [|? x ? l' Px F']; subst. apply is_named_eq in E.
      destruct (H k x (or_introl eq_refl) E Px) as (y & Hy & G).
      destruct (IH l' (Some y) F') as (s' & St & Eq); [intros; apply H; auto; right; auto|].
      exists s'. split.
      * exists (Some y). split; [|exact St]. cbn [hd_fourcc hd_size head_of]. rewrite fourcc_eqb_named, (proj2 (is_named_eq id k) E).
        apply kid_goes_ret, Hy.
      * rewrite Eq, last_opt_cons. cbn. rewrite G. destruct (last_opt l'); reflexivity.
    + destruct (IH l s F) as (s' & St & Eq); [intros; apply H; auto; right; auto|].
      exists s'. split; [|exact Eq]. exists s. split; [|exact St]. cbn [hd_fourcc head_of]. rewrite fourcc_eqb_named, E.
      apply kid_goes_skip_ret.
Qed.

Lemma last_child_loop_io : forall {X Y} id m fuel (sub : size -> IO Y) (P : atom -> X -> Prop) (g : Y -> X) a o,
  fits a = true -> fuel_for fuel a -> last_child id P a o ->
  (forall k x, In k (a_kids a) -> fits k = true -> fuel_for fuel k -> a_id k = id -> P k x ->
     exists y, kid_goes (sub (size_of k)) k y /\ g y = x) ->
  exists r, goes (io_atom_loop fuel m (content_len m (size_of a)) (one_body_io id m sub) (blen (a_pre a)) None)
                   (render_all (a_kids a)) r /\ option_map g r = o.
Proof.
  intros X Y id m fuel sub P g a o F Fu (l & F2 & ->) H.
  destruct (one_steps_io id m sub P g (a_kids a) l None F2) as (s' & St & Eq).
  { intros. apply H; eauto using kid_fits, fuel_kid. }
  exists s'. split; [|rewrite Eq; destruct (last_opt l); reflexivity].
  rewrite content_len_of. apply loop_goes; auto using fits_kids, enough_length, fuel_enough.
  - unfold csize, a_content. rewrite blen_app. reflexivity.
  - apply fits_csize in F. lia.
Qed.

Lemma box_loop_io : forall {X Y} id m fuel (sub : size -> IO Y) (P : atom -> option X -> Prop) (g : Y -> option X) a o,
  fits a = true -> fuel_for fuel a -> box id P a o ->
  (forall k x, In k (a_kids a) -> fits k = true -> fuel_for fuel k -> a_id k = id -> P k x ->
     exists y, kid_goes (sub (size_of k)) k y /\ g y = x) ->
  exists r, kid_goes (io_atom_loop fuel m (content_len m (size_of a)) (one_body_io id m sub) 0 None) a r /\
            join (option_map g r) = o.
Proof.
  intros X Y id m fuel sub P g a o F Fu (Pre & oo & LC & ->) H.
  destruct (last_child_loop_io id m fuel sub P g a oo F Fu LC H) as (r & Pr & Eq).
  exists r. rewrite Eq. split; [|reflexivity]. apply kid_of_goes.
  rewrite Pre in Pr. unfold a_content. rewrite Pre. exact Pr.
Qed.

Lemma goes_full_head : forall b fl, List.length fl = 3%nat -> goes io_parse_full_head (b :: fl) (b2n b, fl).
Proof.
  intros b fl H. unfold io_parse_full_head. change (b :: fl) with ([b] ++ fl).
  eapply goes_bind; [apply goes_read_u8|]. eapply goes_bind_r; [apply goes_read_exact; unfold blen; rewrite H; reflexivity|].
  apply goes_ret.
Qed.

Lemma goes_version0 : forall v, version0 v -> exists fl, List.length fl = 3%nat /\ goes io_parse_full_head v (0, fl).
Proof.
  intros v (fl & L & ->). exists fl. split; [exact L|]. apply (goes_full_head (n2b 0) fl L).
Qed.

Lemma goes_data : forall d n, good_data d -> n = blen (payload d) -> goes (io_data_parse (type_code d) n) (payload d) d.
Proof.
  intros d n G ->. unfold io_data_parse. destruct d; cbn [type_code payload good_data] in *;
    try (eapply goes_bind_r; [apply goes_vec; reflexivity|apply goes_ret]).
  - eapply goes_bind_r; [apply goes_utf8; auto|apply goes_ret].
  - rewrite flat_map_concat_map. eapply goes_bind_r; [apply goes_utf16; auto|apply goes_ret].
Qed.

Lemma item_data_io : forall m k d a, a_id k = id4 "data" -> data_means k d ->
  kid_goes (io_item_body m (head_of k) a) k (ItemAcc (ia_data a ++ [d]) (ia_mean a) (ia_name a)).
Proof.
  intros m k d a I (G & loc & L & C). apply kid_of_goes. pose proof (csize_eq _ _ C) as S. rewrite C.
  unfold io_item_body. cbn [hd_fourcc hd_size head_of]. rewrite I. change (fourcc_eqb (id4 "data") DATA) with true. cbv iota.
  change (n2b 0 :: be 3 (type_code d) ++ loc ++ payload d) with ((n2b 0 :: be 3 (type_code d)) ++ loc ++ payload d) in *.
  eapply goes_bind; [apply goes_full_head; apply be_length|]. cbv beta zeta. cbn [fst snd].
  change (negb (b2n (n2b 0) =? 0)) with false. cbv iota.
  eapply goes_bind; [apply goes_seek; unfold blen; rewrite L; reflexivity|].
  rewrite content_len_of. eapply goes_bind_l; [eapply goes_lift; reflexivity|].
  rewrite !blen_app, blen_cons, blen_be in S. unfold blen at 1 in S. rewrite L in S.
  eapply goes_bind_l; [eapply goes_lift; apply sub64_ok; lia|].
  eapply goes_bind_r; [rewrite unbe_be by apply type_code_lt; apply goes_data; [exact G|lia]|]. apply goes_ret.
Qed.

Lemma text_parse_io : forall m k s (g : ustring -> item_acc), text_means k s ->
  kid_goes (vf <- io_parse_full_head ;;
    (if negb (fst vf =? 0) then io_fail (EUnknownVersion (fst vf)) else
     c <- io_lift (content_len m (size_of k)) ;;
     n <- io_lift (sub64 m c 4) ;;
     s <- io_read_utf8 n ;; io_ret (g s))) k (g s).
Proof.
  intros m k s g (W & v & V & C). apply kid_of_goes. pose proof (csize_eq _ _ C) as S. rewrite C.
  destruct (goes_version0 v V) as (fl & _ & Pv). eapply goes_bind; [exact Pv|]. cbn [fst].
  change (negb (0 =? 0)) with false. cbv iota.
  rewrite content_len_of. eapply goes_bind_l; [eapply goes_lift; reflexivity|].
  rewrite blen_app, (blen_version0 v V) in S.
  eapply goes_bind_l; [eapply goes_lift; apply sub64_ok; lia|].
  eapply goes_bind_r; [apply goes_utf8; [exact W|lia]|]. apply goes_ret.
Qed.

Lemma item_mean_io : forall m k s a, a_id k = id4 "mean" -> text_means k s ->
  kid_goes (io_item_body m (head_of k) a) k (ItemAcc (ia_data a) (Some s) (ia_name a)).
Proof.
  intros m k s a I T. unfold io_item_body. cbn [hd_fourcc hd_size head_of]. rewrite I.
  change (fourcc_eqb (id4 "mean") DATA) with false. change (fourcc_eqb (id4 "mean") MEAN) with true. cbv iota.
  apply (text_parse_io m k s (fun s => ItemAcc (ia_data a) (Some s) (ia_name a)) T).
Qed.

Lemma item_name_atom_io : forall m k s a, a_id k = id4 "name" -> text_means k s ->
  kid_goes (io_item_body m (head_of k) a) k (ItemAcc (ia_data a) (ia_mean a) (Some s)).
Proof.
  intros m k s a I T. unfold io_item_body. cbn [hd_fourcc hd_size head_of]. rewrite I.
  change (fourcc_eqb (id4 "name") DATA) with false. change (fourcc_eqb (id4 "name") MEAN) with false.
  change (fourcc_eqb (id4 "name") NAME) with true. cbv iota.
  apply (text_parse_io m k s (fun s => ItemAcc (ia_data a) (ia_mean a) (Some s)) T).
Qed.

Lemma item_other_io : forall m k a, is_named (id4 "data") k = false -> is_named (id4 "mean") k = false ->
  is_named (id4 "name") k = false -> kid_goes (io_item_body m (head_of k) a) k a.
Proof.
  intros m k a H1 H2 H3. unfold io_item_body. cbn [hd_fourcc head_of].
  change DATA with (id4 "data"). change MEAN with (id4 "mean"). change NAME with (id4 "name").
  rewrite !fourcc_eqb_named, H1, H2, H3. apply kid_goes_skip_ret.
Qed.

Lemma item_steps_io : forall m ks ds ms ns a,
  Forall2 data_means (named_kids (id4 "data") ks) ds ->
  Forall2 text_means (named_kids (id4 "mean") ks) ms ->
  Forall2 text_means (named_kids (id4 "name") ks) ns ->
  gsteps (io_item_body m) ks a
    (ItemAcc (ia_data a ++ ds) (or_else (last_opt ms) (ia_mean a)) (or_else (last_opt ns) (ia_name a))).
Proof.
  intros m ks. induction ks as [|k r IH]; intros ds ms ns a Fd Fm Fn.
  - inversion Fd; inversion Fm; inversion Fn; subst. cbn. rewrite app_nil_r. destruct a; reflexivity.
  - cbn [named_kids filter] in Fd, Fm, Fn. cbn [gsteps].
    destruct (is_named (id4 "data") k) eqn:Ed.
    + apply is_named_eq in Ed. rewrite (id_neq k _ (id4 "mean") Ed) in Fm by discriminate.
      rewrite (id_neq k _ (id4 "name") Ed) in Fn by discriminate.
      inversion Fd as [|? d ? ds' Pd Fd']; subst. eexists. split; [apply item_data_io; eassumption|].
      specialize (IH ds' ms ns (ItemAcc (ia_data a ++ [d]) (ia_mean a) (ia_name a)) Fd' Fm Fn).
      cbn [ia_data ia_mean ia_name] in IH. rewrite <- app_assoc in IH. exact IH.
    + destruct (is_named (id4 "mean") k) eqn:Em.
      * apply is_named_eq in Em. rewrite (id_neq k _ (id4 "name") Em) in Fn by discriminate.
        inversion Fm as [|? s ? ms' Pm Fm']; subst. eexists. split; [apply item_mean_io; eassumption|].
        specialize (IH ds ms' ns (ItemAcc (ia_data a) (Some s) (ia_name a)) Fd Fm' Fn).
        cbn [ia_data ia_mean ia_name] in IH. rewrite last_opt_cons. unfold or_else in *.
        destruct (last_opt ms'); exact IH.
      * destruct (is_named (id4 "name") k) eqn:En.
        -- apply is_named_eq in En. inversion Fn as [|? s ? ns' Pn Fn']; subst.
           eexists. split; [apply item_name_atom_io; eassumption|].
           specialize (IH ds ms ns' (ItemAcc (ia_data a) (ia_mean a) (Some s)) Fd Fm Fn').
           cbn [ia_data ia_mean ia_name] in IH. rewrite last_opt_cons. unfold or_else in *.
           destruct (last_opt ns'); exact IH.
        -- exists a. split; [apply item_other_io; assumption|]. apply IH; assumption.
Qed.

Lemma item_parse_io : forall fuel m k i, fits k = true -> fuel_for fuel k -> item_means k i ->
  kid_goes (c <- io_lift (content_len m (size_of k)) ;; io_atom_data_parse fuel m (a_id k) c) k i.
Proof.
  intros fuel m k i F Fu (Pre & ds & ms & ns & Fd & Fm & Fn & Ne & ->). apply kid_of_goes.
  rewrite content_len_of. eapply goes_bind_l; [eapply goes_lift; reflexivity|].
  unfold io_atom_data_parse, a_content. rewrite Pre. cbn [app].
  eapply goes_bind_r.
  - apply loop_goes with (ks := a_kids k);
      [apply fits_kids, F|apply (item_steps_io m _ ds ms ns); assumption| |apply fits_csize in F; lia|apply enough_length, fuel_enough, Fu].
    unfold csize, a_content. rewrite Pre. reflexivity.
  - cbn [ia_data ia_mean ia_name app]. destruct ds as [|d ds]; [contradiction|].
    assert (E : forall o : option ustring, or_else o None = o) by (intros []; reflexivity).
    rewrite !E, item_name_model. apply goes_ret.
Qed.

Lemma ilst_steps_io : forall fuel m ks l s, forallb fits ks = true -> (forall k, In k ks -> fuel_for fuel k) ->
  Forall2 item_means (filter not_free ks) l -> gsteps (io_ilst_body fuel m) ks s (fold_left ilst_add l s).
Proof.
  intros fuel m ks. induction ks as [|k r IH]; intros l s F Fu H.
  - inversion H; subst. reflexivity.
  - cbn [forallb] in F. apply andb_true_iff in F. destruct F as [Fk Fr]. cbn [filter] in H. cbn [gsteps].
    unfold io_ilst_body at 1. cbn [hd_fourcc hd_size head_of]. change FREE with (id4 "free"). rewrite fourcc_eqb_named.
    unfold not_free in H. destruct (is_named (id4 "free") k) eqn:E; cbn in H.
    + exists s. split; [apply kid_goes_skip_ret|]. apply IH; auto. intros; apply Fu; right; auto.
    + inversion H as [|? i ? l' Pi H']; subst. exists (ilst_add s i). split.
      * pose proof (item_parse_io fuel m k i Fk (Fu k (or_introl eq_refl)) Pi) as P. rewrite content_len_of in *. cbn [io_lift io_bind] in *.
        apply (kid_goes_ret (io_atom_data_parse fuel m (a_id k) (csize k)) (ilst_add s) k i), P.
      * cbn [fold_left]. apply IH; auto. intros; apply Fu; right; auto.
Qed.

Lemma ilst_kid_io : forall fuel m k l, fits k = true -> fuel_for fuel k -> ilst_means k l ->
  kid_goes (io_ilst_parse fuel m (size_of k)) k l.
Proof.
  intros fuel m k l F Fu (Pre & its & F2 & M). apply kid_of_goes. unfold io_ilst_parse.
  rewrite content_len_of. unfold a_content. rewrite Pre. cbn [app].
  rewrite <- (merged_det its _ _ (merged_fold its) M). apply loop_goes.
  - apply fits_kids, F.
  - apply ilst_steps_io; [apply fits_kids, F|intros; eapply fuel_kid; eassumption|exact F2].
  - unfold csize, a_content. rewrite Pre. reflexivity.
  - apply fits_csize in F. lia.
  - apply enough_length, fuel_enough, Fu.
Qed.

Lemma meta_kid_io : forall fuel m k o, fits k = true -> fuel_for fuel k -> meta_means k o ->
  kid_goes (io_meta_parse fuel m (size_of k)) k o.
Proof.
  intros fuel m k o F Fu (V & LC). apply kid_of_goes. unfold io_meta_parse, a_content.
  destruct (goes_version0 _ V) as (fl & _ & Pv). eapply goes_bind; [exact Pv|]. cbn [fst].
  change (negb (0 =? 0)) with false. cbv iota.
  destruct (last_child_loop_io (id4 "ilst") m fuel (io_ilst_parse fuel m) ilst_means (fun x => x) k o F Fu LC) as (r & Pr & E).
  { intros k' x _ F' Fu' _ Px. exists x. split; [apply ilst_kid_io; assumption|reflexivity]. }
  rewrite (blen_version0 _ V) in Pr.
  assert (r = o) by (destruct r; exact E). subst r. exact Pr.
Qed.

Lemma udta_kid_io : forall fuel m k o, fits k = true -> fuel_for fuel k -> udta_means k o ->
  exists y, kid_goes (io_udta_parse fuel m (size_of k)) k y /\ ojoin y = o.
Proof.
  intros fuel m k o F Fu H.
  destruct (box_loop_io (id4 "meta") m fuel (io_meta_parse fuel m) meta_means (fun x => x) k o F Fu H) as (r & Pr & E).
  { intros k' x _ F' Fu' _ Px. exists x. split; [apply meta_kid_io; assumption|reflexivity]. }
  exists r. split; [exact Pr|]. destruct r; exact E.
Qed.

Lemma goes_desc_len : forall w k hl acc n, (w <= k)%nat ->
  goes (io_desc_len_loop (S k) hl acc) (len7 (S w) n) (hl + N.of_nat (S w), acc * 128 ^ N.of_nat (S w) + n mod 128 ^ N.of_nat (S w)).
Proof.
  induction w as [|w IH]; intros k hl acc n H.
  - cbn [io_desc_len_loop len7]. eapply goes_bind_r; [apply goes_read_u8|]. cbv zeta. rewrite b2n_n2b.
    rewrite (N.mod_small (n mod 128) 256) by (pose proof (N.mod_lt n 128); lia).
    rewrite (proj2 (N.ltb_lt _ 128)) by (apply N.mod_lt; lia). rewrite N.mod_mod by lia.
    eapply goes_eq; [apply goes_ret|reflexivity|]. change (N.of_nat 1) with 1. rewrite N.pow_1_r. reflexivity.
  - rewrite len7_S. destruct k as [|k]; [lia|].
    change (io_desc_len_loop (S (S k)) hl acc) with
      (b <- io_read_u8 ;; let len' := acc * 128 + b mod 128 in
       if b <? 128 then io_ret (hl + 1, len') else io_desc_len_loop (S k) (hl + 1) len').
    change (n2b ?x :: ?y) with ([n2b x] ++ y). eapply goes_bind; [apply goes_read_u8|]. cbv zeta. rewrite b2n_n2b.
    set (q := n / 128 ^ N.of_nat (S w)). pose proof (N.mod_lt q 128). rewrite (N.mod_small (128 + q mod 128) 256) by lia.
    rewrite (proj2 (N.ltb_ge _ 128)) by lia.
    replace ((128 + q mod 128) mod 128) with (q mod 128) by (rewrite N.add_mod, N.mod_same, N.add_0_l, !N.mod_mod by lia; reflexivity).
    eapply goes_eq; [apply IH; lia|reflexivity|]. f_equal; [lia|].
    replace (N.of_nat (S (S w))) with (N.of_nat (S w) + 1) by lia. rewrite N.pow_add_r, N.pow_1_r.
    assert (P0 : 128 ^ N.of_nat (S w) <> 0) by (apply N.pow_nonzero; lia).
    rewrite (N.mod_mul_r n (128 ^ N.of_nat (S w)) 128) by (assumption || discriminate).
    fold q. clearbody q. generalize dependent (128 ^ N.of_nat (S w)). intros c _.
    rewrite N.mul_add_distr_r. lia.
Qed.

Lemma goes_desc_head : forall t w n, (1 <= w <= 4)%nat -> n < 128 ^ N.of_nat w ->
  goes io_parse_desc_head (t :: len7 w n) (b2n t, 1 + N.of_nat w, n).
Proof.
  intros t w n Hw Hn. unfold io_parse_desc_head. change (t :: len7 w n) with ([t] ++ len7 w n).
  eapply goes_bind; [apply goes_read_u8|]. destruct w as [|w]; [lia|].
  eapply goes_bind_r; [apply (goes_desc_len w 3 1 0 n); lia|]. cbn [fst snd].
  eapply goes_eq; [apply goes_ret|reflexivity|]. rewrite N.mod_small by exact Hn. f_equal.
Qed.

Fixpoint dsteps_io {S} (body : N -> N -> S -> IO S) (ds : list desc) (s s' : S) : Prop :=
  match ds with
  | [] => s = s'
  | d :: r => exists s1, goes (body (b2n (d_tag d)) (blen (d_body d)) s) (d_body d) s1 /\ dsteps_io body r s1 s'
  end.

Lemma desc_loop_goes_io : forall {S} m body ds fuel len parsed (s s' : S),
  Forall good_desc ds -> dsteps_io body ds s s' ->
  parsed + blen (flat_map render_desc ds) = len -> len < 2 ^ 63 -> (List.length ds < fuel)%nat ->
  goes (io_desc_loop fuel m len body parsed s) (flat_map render_desc ds) s'.
Proof.
  intros S m body ds. induction ds as [|d r IH]; intros fuel len parsed s s' G St L L63 Fu;
    (destruct fuel as [|fuel]; [cbn in Fu; lia|]).
  - cbn [io_desc_loop dsteps_io flat_map] in *. subst s'. rewrite blen_nil in L.
    rewrite (proj2 (N.ltb_ge parsed len)) by lia. apply goes_ret.
  - inversion G as [|? ? (W & B) G']; subst. destruct St as (s1 & Hd & St). cbn [flat_map] in *.
    rewrite blen_app, blen_render_desc in *.
    cbn [io_desc_loop]. rewrite (proj2 (N.ltb_lt parsed _)) by lia.
    rewrite render_desc_eq, <- app_assoc.
    eapply goes_bind; [apply goes_desc_head; assumption|]. cbv beta iota.
    eapply goes_bind; [exact Hd|].
    eapply goes_bind_l; [eapply goes_lift, add64_ok; unfold two64; lia|].
    eapply goes_bind_l; [eapply goes_lift, add64_ok; unfold two64; lia|].
    apply IH; auto; [lia|cbn in Fu; lia].
Qed.

Definition tag_body_io {S} (t : N) (sub : S -> N -> IO S) (tag dl : N) (s : S) : IO S :=
  if tag =? t then sub s dl else io_seek_cur (as_i64 dl) ;;; io_ret s.

Lemma body_skip_io : forall {S} t (sub : S -> N -> IO S) d s, good_desc d -> (b2n (d_tag d) =? t) = false ->
  goes (tag_body_io t sub (b2n (d_tag d)) (blen (d_body d)) s) (d_body d) s.
Proof.
  intros S t sub d s _ E. unfold tag_body_io. rewrite E. eapply goes_bind_r; [|apply goes_ret].
  intros f p Sm H. pose proof (sits_len _ _ _ H). unfold small in Sm.
  rewrite as_i64_small by (unfold two63; lia). apply goes_seek; auto.
Qed.

Lemma dsteps_none_io : forall {S} t (sub : S -> N -> IO S) ds s, Forall good_desc ds -> tagged_desc t ds = [] ->
  dsteps_io (tag_body_io t sub) ds s s.
Proof.
  intros S t sub ds. induction ds as [|d r IH]; intros s G H; [reflexivity|]. inversion G; subst.
  cbn [tagged_desc filter] in H. destruct (b2n (d_tag d) =? t) eqn:E; [discriminate|].
  exists s. split; [apply body_skip_io; assumption|]. apply IH; assumption.
Qed.

Lemma dsteps_one_io : forall {S} t (sub : S -> N -> IO S) ds d s s', Forall good_desc ds -> tagged_desc t ds = [d] ->
  goes (sub s (blen (d_body d))) (d_body d) s' -> dsteps_io (tag_body_io t sub) ds s s'.
Proof.
  intros S t sub ds d. induction ds as [|x r IH]; intros s s' G H P; [discriminate|]. inversion G; subst.
  cbn [tagged_desc filter] in H. destruct (b2n (d_tag x) =? t) eqn:E.
  - injection H as -> H. exists s'. split; [unfold tag_body_io; rewrite E; exact P|]. apply dsteps_none_io; assumption.
  - exists s. split; [apply body_skip_io; assumption|]. apply IH; assumption.
Qed.

Lemma goes_ds : forall m info b ch rate, ds_means b ch rate -> blen b < 2 ^ 62 ->
  goes (io_parse_ds_desc m info (blen b)) b (Mp4a ch rate (ma_max info) (ma_avg info)).
Proof.
  intros m info b ch rate (L & Hr & Hc) Sm. destruct b as [|x [|y r]]; cbn in L; try lia.
  unfold io_parse_ds_desc. rewrite !blen_cons in *. change (x :: y :: r) with ([x; y] ++ r).
  eapply goes_bind; [apply (goes_read_unbe 2); reflexivity|]. cbv zeta.
  eapply goes_bind_l; [eapply goes_lift, sub64_ok; lia|].
  eapply goes_bind_r; [apply goes_seek; rewrite as_i64_small by (unfold two63; lia); f_equal; lia|].
  destruct (bits_ds x y r) as [E1 E2]. rewrite E1 in Hr. rewrite E2 in Hc.
  rewrite (sample_rate_spec _ rate (N.mod_lt _ 16 ltac:(lia)) Hr), (channels_spec _ ch (N.mod_lt _ 16 ltac:(lia)) Hc). apply goes_ret.
Qed.

Lemma goes_dc : forall fuel m b a, dc_means b a -> blen b < N.of_nat fuel -> blen b < 2 ^ 62 ->
  goes (io_parse_dc_desc fuel m mp4a_default (blen b)) b (mp4a_of a).
Proof.
  intros fuel m b a (h & l & L & -> & G & Hmx & Hav & D) Fu Sm. unfold io_parse_dc_desc.
  pose proof (split3 h 5 4 ltac:(lia)) as E. pose proof (descs_count l G) as Cn.
  rewrite blen_app in *. assert (Lh : blen h = 13) by (unfold blen; rewrite L; reflexivity). rewrite Lh in *.
  rewrite E, <- !app_assoc.
  eapply goes_bind; [apply goes_seek; unfold blen; rewrite firstn_length, L; reflexivity|].
  eapply goes_bind; [apply (goes_read_unbe 4); [rewrite firstn_length, skipn_length, L|]; reflexivity|].
  eapply goes_bind; [apply (goes_read_unbe 4); [rewrite skipn_length, L|]; reflexivity|].
  cbn [ma_channels ma_rate mp4a_default]. rewrite <- Hmx. change (5 + 4)%nat with 9%nat. rewrite <- Hav.
  apply desc_loop_goes_io; auto; try (unfold blen in *; lia).
  change (io_dc_body m) with (tag_body_io 5 (io_parse_ds_desc m)).
  destruct (tagged_desc 5 l) as [|d [|? ?]] eqn:T; [| |contradiction].
  - destruct D as [D1 D2]. unfold mp4a_of. rewrite D1, D2. apply dsteps_none_io; assumption.
  - eapply dsteps_one_io; [assumption|exact T|].
    eapply goes_eq; [eapply goes_ds; [exact D|]|reflexivity|reflexivity].
    assert (In d l). { assert (In d (tagged_desc 5 l)) by (rewrite T; left; reflexivity). unfold tagged_desc in H. apply filter_In in H. apply H. }
    clear - H Sm. induction l as [|x r IH]; [contradiction|]. cbn [flat_map] in Sm. rewrite blen_app, blen_render_desc in Sm.
    destruct H as [->|H]; [lia|]. apply IH; [|exact H]. lia.
Qed.

Lemma goes_es : forall fuel m b a, es_means b a -> blen b < N.of_nat fuel -> blen b < 2 ^ 62 ->
  goes (io_parse_es_desc fuel m mp4a_default (blen b)) b (mp4a_of a).
Proof.
  intros fuel m b a (h & l & L & -> & G & D) Fu Sm. unfold io_parse_es_desc. pose proof (descs_count l G) as Cn.
  rewrite blen_app in *. assert (Lh : blen h = 3) by (unfold blen; rewrite L; reflexivity). rewrite Lh in *.
  eapply goes_bind; [apply goes_seek; rewrite Lh; reflexivity|].
  apply desc_loop_goes_io; auto; try (unfold blen in *; lia).
  change (io_es_body fuel m) with (tag_body_io 4 (io_parse_dc_desc fuel m)).
  destruct (tagged_desc 4 l) as [|d [|? ?]] eqn:T; [| |contradiction].
  - subst a. apply dsteps_none_io; assumption.
  - eapply dsteps_one_io; [assumption|exact T|].
    assert (In d l). { assert (In d (tagged_desc 4 l)) by (rewrite T; left; reflexivity). unfold tagged_desc in H. apply filter_In in H. apply H. }
    apply desc_in in H. apply goes_dc; [exact D| |]; lia.
Qed.

Lemma esds_goes_io : forall fuel m k a, fits k = true -> fuel_for fuel k -> esds_means k a -> csize k < 2 ^ 62 ->
  exists x y, a_content k = x ++ y /\ goes (io_parse_esds fuel m mp4a_default (size_of k)) x (mp4a_of a).
Proof.
  intros fuel m k a F Fu (I & v & d & rest & V & T & (W & B) & C & E) Sm.
  exists (v ++ render_desc d), rest. split; [rewrite C, <- app_assoc; reflexivity|].
  pose proof (csize_eq _ _ C) as S. rewrite !blen_app, blen_render_desc, (blen_version0 v V) in S.
  unfold io_parse_esds. destruct (goes_version0 v V) as (fl & _ & Pv). eapply goes_bind; [exact Pv|]. cbn [fst].
  change (negb (0 =? 0)) with false. cbv iota. rewrite render_desc_eq.
  eapply goes_bind; [apply goes_desc_head; assumption|]. cbv beta iota. rewrite T.
  change (negb (3 =? 3)) with false. cbv iota.
  rewrite content_len_of. eapply goes_bind_l; [eapply goes_lift; reflexivity|].
  eapply goes_bind_l; [eapply goes_lift, sub64_ok; lia|].
  eapply goes_bind_l; [eapply goes_lift, sub64_ok; lia|].
  rewrite N.min_l by lia. unfold fuel_for in Fu. apply goes_es; [exact E|lia|lia].
Qed.

Lemma mp4a_kid_io : forall fuel m k a, fits k = true -> fuel_for fuel k -> mp4a_means k a ->
  kid_goes (io_mp4a_parse fuel m (size_of k)) k (mp4a_of a).
Proof.
  intros fuel m k a F Fu (L & e & rest & K & E) f p Sm S. unfold io_mp4a_parse.
  pose proof (sits_content _ _ _ S) as Sc. pose proof (sits_len _ _ _ S) as SL. fold (asize k) in SL.
  unfold small in Sm. rewrite asize_eq in *. pose proof (hlen_pos k) as H8.
  unfold a_content in Sc. rewrite K in Sc. apply sits_app in Sc. destruct Sc as [_ Sc]. rewrite render_all_cons in Sc.
  apply sits_app in Sc. destruct Sc as [Se _].
  assert (Lp : blen (a_pre k) = 28) by (unfold blen; rewrite L; reflexivity). rewrite Lp in Se.
  assert (In e (a_kids k)) as Ie by (rewrite K; left; reflexivity).
  pose proof (kid_fits _ _ F Ie) as Fe. pose proof (fuel_kid _ _ _ Fu Ie) as Fue.
  assert (asize e + 28 <= csize k) as Sz.
  { unfold csize, a_content. rewrite blen_app, Lp. apply kid_in_size in Ie. lia. }
  pose proof (asize_eq e) as Ae. pose proof (hlen_pos e) as He8.
  eapply at_bind; [apply (at_bounds m k f p)|].
  eapply at_bind; [apply (at_seek f _ 28); [exact Sm|lia|lia]|].
  pose proof Se as Se'. rewrite render_eq in Se'. apply sits_app in Se'. destruct Se' as [Sh _].
  eapply at_bind; [apply (goes_head e Fe f _ Sm Sh)|]. rewrite blen_header. fold (hlen e).
  cbn [hd_fourcc hd_size head_of]. destruct (esds_goes_io fuel m e a Fe Fue E) as (x & y & Cx & Px); [lia|].
  destruct E as (Ide & _). rewrite Ide. change (negb (fourcc_eqb (id4 "esds") ELEMENTARY_STREAM_DESCRIPTION)) with false. cbv iota.
  pose proof (sits_content _ _ _ Se) as Sce. rewrite Cx in Sce. apply sits_app in Sce. destruct Sce as [Sx _].
  eapply at_bind; [apply (Px f _ Sm Sx)|].
  assert (csize e = blen x + blen y) as Cxy by (unfold csize; rewrite Cx, blen_app; reflexivity).
  eapply at_bind; [apply at_to_end; [exact Sm|exact S|rewrite (asize_eq k); lia]|].
  rewrite (asize_eq k). apply at_ret.
Qed.

Lemma stsd_kid_io : forall fuel m k o, fits k = true -> fuel_for fuel k -> stsd_means k o ->
  exists y, kid_goes (io_stsd_parse fuel m (size_of k)) k y /\ option_map audio_of y = o.
Proof.
  intros fuel m k o F Fu ((v & n & V & Ln & Pre) & LC).
  destruct (last_child_loop_io (id4 "mp4a") m fuel (io_mp4a_parse fuel m) mp4a_means audio_of k o F Fu LC) as (r & Pr & E).
  { intros k' x _ F' Fu' _ Px. exists (mp4a_of x). split; [apply mp4a_kid_io; assumption|destruct x; reflexivity]. }
  exists r. split; [|exact E]. apply kid_of_goes. unfold io_stsd_parse, a_content. rewrite Pre, <- app_assoc.
  destruct (goes_version0 v V) as (fl & _ & Pv). eapply goes_bind; [exact Pv|]. cbn [fst].
  change (negb (0 =? 0)) with false. cbv iota.
  eapply goes_bind; [apply goes_seek; unfold blen; rewrite Ln; reflexivity|].
  rewrite Pre, blen_app, (blen_version0 v V) in Pr. unfold blen at 1 in Pr. rewrite Ln in Pr. exact Pr.
Qed.

Ltac box_kid_io id sub P g lem :=
  intros fuel m k o F Fu H;
  destruct (box_loop_io (id4 id) m fuel (sub fuel m) P g k o F Fu H) as (r & Pr & E);
  [intros k' x _ F' Fu' _ Px; apply lem; assumption|exists r; split; [exact Pr|exact E]].

Lemma stbl_kid_io : forall fuel m k o, fits k = true -> fuel_for fuel k -> stbl_means k o ->
  exists y, kid_goes (io_stbl_parse fuel m (size_of k)) k y /\ join (option_map (option_map audio_of) y) = o.
Proof. box_kid_io "stsd"%string io_stsd_parse stsd_means (option_map audio_of) stsd_kid_io. Qed.

Lemma minf_kid_io : forall fuel m k o, fits k = true -> fuel_for fuel k -> minf_means k o ->
  exists y, kid_goes (io_minf_parse fuel m (size_of k)) k y /\
            join (option_map (fun y => join (option_map (option_map audio_of) y)) y) = o.
Proof.
  box_kid_io "stbl"%string io_stbl_parse stbl_means (fun y => join (option_map (option_map audio_of) y)) stbl_kid_io.
Qed.

Lemma mdia_kid_io : forall fuel m k o, fits k = true -> fuel_for fuel k -> mdia_means k o ->
  exists y, kid_goes (io_mdia_parse fuel m (size_of k)) k y /\
            join (option_map (fun y => join (option_map (fun y => join (option_map (option_map audio_of) y)) y)) y) = o.
Proof.
  box_kid_io "minf"%string io_minf_parse minf_means (fun y => join (option_map (fun y => join (option_map (option_map audio_of) y)) y)) minf_kid_io.
Qed.

Lemma trak_kid_io : forall fuel m k o, fits k = true -> fuel_for fuel k -> trak_means k o ->
  exists y, kid_goes (io_trak_parse fuel m (size_of k)) k y /\ option_map audio_of (trak_mp4a y) = o.
Proof.
  intros fuel m k o F Fu H.
  destruct (box_loop_io (id4 "mdia") m fuel (io_mdia_parse fuel m) mdia_means
    (fun y => join (option_map (fun y => join (option_map (fun y => join (option_map (option_map audio_of) y)) y)) y)) k o F Fu H) as (r & Pr & E);
  [intros k' x _ F' Fu' _ Px; apply mdia_kid_io; assumption|exists r; split; [exact Pr|rewrite <- E]].
  destruct r as [[[[[]|]|]|]|]; reflexivity.
Qed.

Lemma mvhd_kid_io : forall m k d, mvhd_means k d -> kid_goes (io_mvhd_parse m (size_of k)) k d.
Proof.
  intros m k d H f p Sm S. unfold io_mvhd_parse. eapply at_bind; [apply (at_bounds m k f p)|].
  pose proof (sits_content _ _ _ S) as Sc. set (b := a_content k) in *.
  assert (V : forall n w, 20 <= blen b -> n = field b 0 1 -> 4 + w <= blen b -> exists x, b2n x = n /\ b = (x :: slice b 1 3) ++ slice b 4 w ++ skipn (N.to_nat (4 + w)) b).
  { intros n w L -> Lw. unfold field. pose proof (slice_length b 0 1 ltac:(lia)) as L1. pose proof (slice_skipn b 0 1 ltac:(lia)) as E.
    destruct (slice b 0 1) as [|x [|? ?]]; try discriminate. exists x. split; [reflexivity|].
    change (skipn (N.to_nat 0) b) with b in E. rewrite E at 1. cbn [app]. f_equal.
    rewrite <- slice_skipn by lia. change 4 with (1 + 3). rewrite <- slice_skipn by lia. reflexivity. }
  assert (G : forall x w (h : IO N), b = (x :: slice b 1 3) ++ slice b 4 w ++ skipn (N.to_nat (4 + w)) b -> 4 + w <= blen b ->
     goes h (slice b 4 w) d -> goes_at (y <- h ;; io_seek_to_end m (bounds_of p k) ;;; io_ret y) f (p + hlen k + 4) d (p + asize k)).
  { intros x w h E Lw P. rewrite E in Sc. apply sits_app in Sc. destruct Sc as [_ Sc]. apply sits_app in Sc. destruct Sc as [Sw _].
    rewrite blen_cons, blen_slice in Sw by lia. change (1 + 3) with 4 in Sw.
    eapply at_bind; [apply (P f _ Sm Sw)|]. eapply at_bind; [|apply at_ret]. apply at_to_end; [exact Sm|exact S|].
    rewrite blen_slice by lia. rewrite asize_eq. change (csize k) with (blen b). lia. }
  assert (Hd : forall x w, b = (x :: slice b 1 3) ++ slice b 4 w ++ skipn (N.to_nat (4 + w)) b -> 20 <= blen b ->
     goes_at io_parse_full_head f (p + hlen k) (b2n x, slice b 1 3) (p + hlen k + 4)).
  { intros x w E L. rewrite E in Sc. apply sits_app in Sc. destruct Sc as [Sx _].
    eapply at_eq; [apply (goes_full_head x (slice b 1 3)); [apply slice_length; lia|exact Sm|exact Sx]|reflexivity|].
    rewrite blen_cons, blen_slice by lia. lia. }
  destruct H as [(F0 & L & Nn)|(F0 & L & Nn)]; fold b in F0, L, Nn.
  - destruct (V 0 16 ltac:(lia) ltac:(auto) ltac:(lia)) as (x & Hx & E).
    eapply at_bind; [eapply Hd; [exact E|lia]|]. cbn [fst]. rewrite Hx. eapply G; [exact E|lia|].
    assert (E2 : slice b 4 16 = slice b 4 8 ++ slice b 12 4 ++ slice b 16 4).
    { apply (app_inv_tail (skipn 20 b)). rewrite <- !app_assoc. change 20%nat with (N.to_nat (4 + 16)) at 1. rewrite <- slice_skipn by lia.
      change 20%nat with (N.to_nat (16 + 4)). rewrite <- slice_skipn by lia.
      change 16 with (12 + 4) at 1. rewrite <- slice_skipn by lia. change 12 with (4 + 8). rewrite <- slice_skipn by lia. reflexivity. }
    rewrite E2.
    eapply goes_bind; [apply goes_seek; rewrite blen_slice by lia; reflexivity|].
    eapply goes_bind; [apply (goes_read_unbe 4); [apply slice_length; lia|reflexivity]|].
    eapply goes_bind_r; [apply (goes_read_unbe 4); [apply slice_length; lia|reflexivity]|].
    eapply goes_lift, nanos_ok, Nn.
  - destruct (V 1 28 ltac:(lia) ltac:(auto) ltac:(lia)) as (x & Hx & E).
    eapply at_bind; [eapply Hd; [exact E|lia]|]. cbn [fst]. rewrite Hx. eapply G; [exact E|lia|].
    assert (E2 : slice b 4 28 = slice b 4 16 ++ slice b 20 4 ++ slice b 24 8).
    { apply (app_inv_tail (skipn 32 b)). rewrite <- !app_assoc. change 32%nat with (N.to_nat (4 + 28)) at 1. rewrite <- slice_skipn by lia.
      change 32%nat with (N.to_nat (24 + 8)). rewrite <- slice_skipn by lia.
      change 24 with (20 + 4) at 1. rewrite <- slice_skipn by lia. change 20 with (4 + 16). rewrite <- slice_skipn by lia. reflexivity. }
    rewrite E2.
    eapply goes_bind; [apply goes_seek; rewrite blen_slice by lia; reflexivity|].
    eapply goes_bind; [apply (goes_read_unbe 4); [apply slice_length; lia|reflexivity]|].
    eapply goes_bind_r; [apply (goes_read_unbe 8); [apply slice_length; lia|reflexivity]|].
    eapply goes_lift, nanos_ok, Nn.
Qed.

Lemma moov_steps_io : forall fuel m ks durs auds us s,
  (forall k, In k ks -> fits k = true /\ fuel_for fuel k) ->
  Forall2 mvhd_means (named_kids (id4 "mvhd") ks) durs ->
  Forall2 trak_means (named_kids (id4 "trak") ks) auds ->
  Forall2 udta_means (named_kids (id4 "udta") ks) us ->
  exists ts u, gsteps (io_moov_body fuel m) ks s
    (Moov (or_else (last_opt durs) (mv_mvhd s)) (mv_trak s ++ ts) u) /\
    map (fun t => option_map audio_of (trak_mp4a t)) ts = auds /\
    option_map ojoin u = or_else (last_opt us) (option_map ojoin (mv_udta s)).
Proof.
  intros fuel m ks. induction ks as [|k r IH]; intros durs auds us s Fk Fd Ft Fu.
  - inversion Fd; inversion Ft; inversion Fu; subst. exists [], (mv_udta s). cbn. rewrite app_nil_r. destruct s; auto.
  - assert (Fr : forall k, In k r -> fits k = true /\ fuel_for fuel k) by (intros; apply Fk; right; auto).
    destruct (Fk k (or_introl eq_refl)) as [Fi Fue].
    cbn [named_kids filter] in Fd, Ft, Fu. unfold io_moov_body at 1. cbn [gsteps]. cbn [hd_fourcc hd_size head_of].
    change MOVIE_HEADER with (id4 "mvhd"). change TRACK with (id4 "trak"). change USER_DATA with (id4 "udta").
    rewrite !fourcc_eqb_named.
    destruct (is_named (id4 "mvhd") k) eqn:E1.
    { apply is_named_eq in E1. rewrite (id_neq k _ (id4 "trak") E1) in Ft by discriminate.
      rewrite (id_neq k _ (id4 "udta") E1) in Fu by discriminate. inversion Fd as [|? d ? durs' Pd Fd']; subst.
      destruct (IH durs' auds us (Moov (Some d) (mv_trak s) (mv_udta s)) Fr Fd' Ft Fu) as (ts & u & St & Hts & Hu).
      exists ts, u. split; [|auto]. exists (Moov (Some d) (mv_trak s) (mv_udta s)). split.
      - apply (kid_goes_ret (io_mvhd_parse m (size_of k)) (fun d => Moov (Some d) (mv_trak s) (mv_udta s))), mvhd_kid_io, Pd.
      - cbn [mv_mvhd mv_trak] in St. rewrite last_opt_cons. unfold or_else in *. destruct (last_opt durs'); exact St. }
    destruct (is_named (id4 "trak") k) eqn:E2.
    { apply is_named_eq in E2. rewrite (id_neq k _ (id4 "udta") E2) in Fu by discriminate.
      inversion Ft as [|? a ? auds' Pa Ft']; subst. destruct (trak_kid_io fuel m k a Fi Fue Pa) as (y & Py & Ey).
      destruct (IH durs auds' us (Moov (mv_mvhd s) (mv_trak s ++ [y]) (mv_udta s)) Fr Fd Ft' Fu) as (ts & u & St & Hts & Hu).
      exists (y :: ts), u. split; [|cbn; rewrite Hts, Ey; auto]. exists (Moov (mv_mvhd s) (mv_trak s ++ [y]) (mv_udta s)). split.
      - apply (kid_goes_ret (io_trak_parse fuel m (size_of k)) (fun t => Moov (mv_mvhd s) (mv_trak s ++ [t]) (mv_udta s))), Py.
      - cbn [mv_mvhd mv_trak] in St. rewrite <- app_assoc in St. exact St. }
    destruct (is_named (id4 "udta") k) eqn:E3.
    { inversion Fu as [|? x ? us' Px Fu']; subst. destruct (udta_kid_io fuel m k x Fi Fue Px) as (y & Py & Ey).
      destruct (IH durs auds us' (Moov (mv_mvhd s) (mv_trak s) (Some y)) Fr Fd Ft Fu') as (ts & u & St & Hts & Hu).
      exists ts, u. split; [|split; [exact Hts|]].
      - exists (Moov (mv_mvhd s) (mv_trak s) (Some y)). split; [|exact St].
        apply (kid_goes_ret (io_udta_parse fuel m (size_of k)) (fun t => Moov (mv_mvhd s) (mv_trak s) (Some t))), Py.
      - rewrite Hu, last_opt_cons. cbn. rewrite Ey. unfold or_else. destruct (last_opt us'); reflexivity. }
    destruct (IH durs auds us s Fr Fd Ft Fu) as (ts & u & St & Hts & Hu).
    exists ts, u. split; [|auto]. exists s. split; [apply kid_goes_skip_ret|exact St].
Qed.

Lemma moov_kid_io : forall fuel m k info items, fits k = true -> fuel_for fuel k -> moov_means k info items ->
  exists y, kid_goes (io_moov_parse fuel m (size_of k)) k y /\ moov_info y = info /\ moov_atoms y = items.
Proof.
  intros fuel m k info items F Fu (Pre & dur & auds & uo & (durs & Fd & ->) & Ft & (us & Fus & ->) & -> & ->).
  destruct (moov_steps_io fuel m (a_kids k) durs auds us (Moov None [] None)) as (ts & u & St & Hts & Hu); auto.
  { intros k' I. split; [eapply kid_fits|eapply fuel_kid]; eassumption. }
  eexists. split.
  - apply kid_of_goes. unfold io_moov_parse. rewrite content_len_of. unfold a_content. rewrite Pre. cbn [app].
    apply loop_goes; [apply fits_kids, F|exact St| |apply fits_csize in F; lia|apply enough_length, fuel_enough, Fu].
    unfold csize, a_content. rewrite Pre. reflexivity.
  - cbn [mv_mvhd mv_trak mv_udta app] in *. split.
    + unfold moov_info, info_of. cbn [mv_trak mv_mvhd]. rewrite <- Hts, first_some_map.
      replace (or_else (last_opt durs) None) with (last_opt durs) by (destruct (last_opt durs); reflexivity).
      destruct (find_map trak_mp4a ts); reflexivity.
    + unfold moov_atoms. cbn [mv_udta]. replace (or_else (last_opt us) None) with (last_opt us) in Hu by (destruct (last_opt us); reflexivity).
      unfold or_else in Hu. cbn [option_map] in Hu. destruct (last_opt us) as [o|]; destruct u as [y|]; try discriminate; [|reflexivity].
      cbn in Hu. injection Hu as <-. reflexivity.
Qed.

Lemma ftyp_goes_io : forall m k s, fits k = true -> a_id k = id4 "ftyp" -> wf_ustr s = true -> a_content k = enc8 s ->
  goes (io_ftyp_parse m) (render k) s.
Proof.
  intros m k s F I W C. rewrite render_eq. unfold io_ftyp_parse. eapply goes_bind; [apply goes_head, F|].
  cbn [hd_fourcc hd_size head_of]. rewrite I. change (negb (fourcc_eqb (id4 "ftyp") FILETYPE)) with false. cbv iota.
  rewrite content_len_of. eapply goes_bind_l; [eapply goes_lift; reflexivity|].
  rewrite C. apply goes_utf8; [exact W|]. apply csize_eq, C.
Qed.

Lemma find_moov_ok_io : forall m inner pre fuel len parsed k y f p,
  forallb fits pre = true -> fits k = true -> named_kids (id4 "moov") pre = [] -> a_id k = id4 "moov" ->
  kid_goes (io_moov_parse inner m (size_of k)) k y -> small f -> sits f p (render_all pre ++ render k) ->
  parsed + blen (render_all pre) + asize k <= len -> len < 2 ^ 64 -> (List.length pre < fuel)%nat ->
  goes_at (io_find_moov fuel m inner len parsed) f p y (p + blen (render_all pre) + asize k).
Proof.
  intros m inner pre. induction pre as [|x r IH]; intros fuel len parsed k y f p Fp Fk Np I Py Sm S L L64 Fu;
    (destruct fuel as [|fuel]; [cbn in Fu; lia|]); cbn [io_find_moov].
  - change (render_all []) with (@nil byte) in *. rewrite blen_nil in L. pose proof (asize_pos k).
    rewrite (proj2 (N.leb_gt len parsed)) by lia. pose proof S as S'. cbn [app] in S'. rewrite render_eq in S'. apply sits_app in S'.
    destruct S' as [Sh _]. eapply at_bind; [apply (goes_head k Fk f p Sm Sh)|]. rewrite blen_header.
    cbn [hd_fourcc hd_size head_of]. rewrite I. change (fourcc_eqb (id4 "moov") MOVIE) with true. cbv iota.
    rewrite blen_nil, N.add_0_r. apply (Py f p Sm S).
  - cbn [forallb] in Fp. apply andb_true_iff in Fp. destruct Fp as [Fx Fr]. rewrite blen_render_all_cons in L. pose proof (asize_pos x).
    rewrite (proj2 (N.leb_gt len parsed)) by lia. rewrite render_all_cons, <- app_assoc in S. apply sits_app in S. destruct S as [Sx Sr].
    pose proof Sx as S'. rewrite render_eq in S'. apply sits_app in S'. destruct S' as [Sh _].
    eapply at_bind; [apply (goes_head x Fx f p Sm Sh)|]. rewrite blen_header. fold (hlen x).
    cbn [hd_fourcc hd_size head_of sz_len size_of]. change MOVIE with (id4 "moov"). rewrite fourcc_eqb_named.
    cbn [named_kids filter] in Np. destruct (is_named (id4 "moov") x); [discriminate|].
    eapply at_bind; [apply (kid_goes_skip m x f p Sm Sx)|].
    eapply at_bind; [apply at_lift, add64_ok; unfold two64; lia|].
    rewrite blen_render_all_cons, N.add_assoc. apply IH with (k := k); auto; [lia|cbn in Fu; lia].
Qed.

Lemma at_remaining : forall m f p, p <= blen f -> small f -> goes_at (io_remaining_stream_len m) f p (blen f - p) p.
Proof.
  intros m f p H Sm. split; [rewrite (is_rest m f p); now apply remaining_ok|].
  unfold io_remaining_stream_len. rewrite !asked_bind. cbn. rewrite sub64_ok by exact H. cbn.
  unfold seek_start, small in *. rewrite (proj2 (N.ltb_lt p two63)) by (unfold two63; lia). reflexivity.
Qed.

Theorem described_forward : forall f g t fuel m, good_sizes f -> describes f t -> blen (render_all f ++ g) < 2 ^ 62 ->
  blen (render_all f) < N.of_nat fuel -> forallb ahead (asked (io_read_tag_from fuel m) (render_all f ++ g) 0) = true.
Proof.
  intros f g t fuel m (F & _) (ft & pre & mv & post & -> & Ift & W & C & Imv & Nm & M) Sm Fu.
  set (fb := render_all (ft :: pre ++ mv :: post) ++ g) in *.
  cbn [forallb] in F. apply andb_true_iff in F. destruct F as [Fft F]. rewrite forallb_app in F. apply andb_true_iff in F.
  destruct F as [Fpre F]. cbn [forallb] in F. apply andb_true_iff in F. destruct F as [Fmv Fpost].
  assert (E : fb = render ft ++ render_all pre ++ render mv ++ render_all post ++ g).
  { unfold fb. rewrite render_all_cons, render_all_app, render_all_cons, <- !app_assoc. reflexivity. }
  rewrite render_all_cons, render_all_app, render_all_cons, !blen_app in Fu.
  assert (Lf : blen fb = asize ft + blen (render_all pre) + asize mv + blen (render_all post) + blen g).
  { rewrite E, !blen_app. unfold asize. lia. }
  fold (asize ft) (asize mv) in Fu.
  assert (Fum : fuel_for fuel mv) by (unfold fuel_for; pose proof (asize_eq mv); lia).
  destruct (moov_kid_io fuel m mv _ _ Fmv Fum M) as (y & Py & _ & _).
  unfold named_kids in Nm. rewrite filter_app in Nm. apply app_eq_nil in Nm. destruct Nm as [Npre _].
  assert (H : exists v q, goes_at (io_read_tag_from fuel m) fb 0 v q); [|destruct H as (v & q & _ & H); exact H].
  do 2 eexists. unfold io_read_tag_from. eapply at_bind.
  { apply (ftyp_goes_io m ft (tg_ftyp t)); auto. exists [], (render_all pre ++ render mv ++ render_all post ++ g).
    split; [rewrite E; reflexivity|reflexivity]. }
  rewrite N.add_0_l. fold (asize ft). eapply at_bind; [apply at_remaining; [lia|exact Sm]|]. eapply at_bind; [|apply at_ret].
  apply (find_moov_ok_io m fuel pre fuel (blen fb - asize ft) 0 mv y); auto.
  - exists (render ft), (render_all post ++ g). split; [rewrite E, <- !app_assoc; reflexivity|reflexivity].
  - lia.
  - lia.
  - pose proof (kids_count pre). unfold blen in *. lia.
Qed.
