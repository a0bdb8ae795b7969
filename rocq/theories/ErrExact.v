(** A file with a cause for an error is not read: the list of causes is exact. *)

From Coq Require Import List NArith ZArith Bool Lia Arith String.
From Coq Require Import ZifyBool ZifyNat ZifyN.
From Verif Require Import Base BaseLemmas Utf UtfLemmas Types Stream Parse Find TagSpec FileSpec ParseLemmas FailSpec FailProofs PanicSpec PanicProofs Display ErrSpec.
From Verif Require WhereProofs ReadTerm ErrProofs.
Import ListNotations.
Local Open Scope list_scope.

(** * Boxes, descriptors and texts are unique *)

Lemma fc_inj : forall a b, fc_bytes a = fc_bytes b -> a = b.
Proof. intros [a0 a1 a2 a3] [b0 b1 b2 b3] E. injection E as -> -> -> ->. reflexivity. Qed.
Lemma box_fun : forall f q id hd sz id' hd' sz', box_at f q id hd sz -> box_at f q id' hd' sz' -> id = id' /\ hd = hd' /\ sz = sz'.
Proof.
  intros f q id hd sz id' hd' sz' (_ & E & D) (_ & E' & D'). split; [apply fc_inj; now rewrite <- E, <- E'|].
  destruct D as [(A & B & C)|(A & _ & B & C)], D' as [(A' & B' & C')|(A' & _ & B' & C')]; try contradiction; subst; auto.
Qed.
Lemma box_head : forall f q id hd sz, box_at f q id hd sz -> 8 <= hd.
Proof. intros f q id hd sz (_ & _ & [(_ & -> & _)|(_ & _ & -> & _)]); lia. Qed.
Lemma desc_le : forall f q tag n len tag' n' len', descriptor_at f q tag n len -> descriptor_at f q tag' n' len' -> ~ n < n'.
Proof.
  intros f q tag n len tag' n' len' (_ & _ & i & z & S & Hn & _ & Dz & _) (_ & _ & j & y & S' & Hn' & Fj & Dy & _) L.
  assert (E : j ++ [y] = (i ++ [z]) ++ slice f (q + 1 + (n - 1)) (n' - 1 - (n - 1))) by (rewrite <- S, <- S'; apply ReadTerm.slice_split; lia).
  assert (Z : In z j).
  { assert (B : blen (i ++ [z]) <= blen j) by (rewrite blen_app; change (blen [z]) with 1; lia).
    assert (F : firstn (List.length (i ++ [z])) (j ++ [y]) = i ++ [z]) by (rewrite E, firstn_app, Nat.sub_diag, firstn_O, app_nil_r; apply firstn_all).
    rewrite firstn_app in F. replace (List.length (i ++ [z]) - List.length j)%nat with 0%nat in F by (unfold blen in B; lia). rewrite firstn_O, app_nil_r in F.
    rewrite <- (firstn_skipn (List.length (i ++ [z])) j). apply in_or_app. left. rewrite F. apply in_or_app. right. now left. }
  rewrite Forall_forall in Fj. specialize (Fj z Z). destruct Dz as [[_ Dz]|Dz]; [lia|]. destruct Dy as [[Dy _]|Dy]; lia.
Qed.
Lemma desc_fun : forall f q tag n len tag' n' len', descriptor_at f q tag n len -> descriptor_at f q tag' n' len' -> tag = tag' /\ n = n' /\ len = len'.
Proof.
  intros f q tag n len tag' n' len' D D'. pose proof (desc_le _ _ _ _ _ _ _ _ D D') as L1. pose proof (desc_le _ _ _ _ _ _ _ _ D' D) as L2.
  assert (n = n') by lia. subst n'. destruct D as (_ & <- & i & z & S & _ & _ & _ & ->), D' as (_ & <- & j & y & S' & _ & _ & _ & ->).
  rewrite S in S'. split; [reflexivity|]. split; [reflexivity|]. now rewrite S'.
Qed.
Lemma dec_is_utf8 : forall b s, dec8 b = Some s -> is_utf8 b.
Proof. intros b s H. apply (dec8_inv (List.length b)) in H; [|lia]. destruct H as [W <-]. now exists s. Qed.
Lemma dec_is_utf16 : forall b s, dec16 (bytes_units b) = Some s -> is_utf16 b.
Proof.
  intros b s H. apply (dec16_inv (List.length (bytes_units b))) in H; [|lia|apply (bytes_units_wf (List.length b)); lia]. destruct H as [W E].
  destruct (WhereProofs.units_odd (List.length b) b ltac:(lia)) as (odd & Eo & O). exists s, odd. split; [exact W|]. rewrite E. auto.
Qed.

(** * What is wrong at one place *)

Definition bad_full (f : bytes) (p : N) : Prop := blen f < p + 4 \/ field f p 1 <> 0.
Definition bad_header (f : bytes) (p : N) : Prop := blen f < p + 4 \/ 1 < field f p 1 \/ field f p 1 = 0 /\ blen f < p + 20 \/ field f p 1 = 1 /\ blen f < p + 32.
Definition no_box (f : bytes) (q : N) : Prop := forall id hd sz, ~ box_at f q id hd sz.
Definition no_desc (f : bytes) (q : N) : Prop := forall tag n len, ~ descriptor_at f q tag n len.
(** At a place for a descriptor. *)
Definition bad_desc (f : bytes) (w : list N) (q : N) : Prop :=
  exists k w', w = k :: w' /\ 0 < k /\
    (no_desc f q \/ exists n len, descriptor_at f q 4 n len /\ w' = [] /\ blen f < q + n + 13 \/ descriptor_at f q 5 n len /\ w' <> [] /\ blen f < q + n + 2).
Definition bad_esds (f : bytes) (d e : N) : Prop :=
  bad_full f (d - 4) \/ no_desc f d \/ (exists tag n len, descriptor_at f d tag n len /\ tag <> 3) \/ exists w q, sees_desc f d e w q /\ bad_desc f w q.
Definition bad_entry (f : bytes) (a : N) : Prop := no_box f a \/ exists id hd sz, box_at f a id hd sz /\ (id <> id4 "esds" \/ bad_esds f (a + hd + 4) (a + sz)).
Definition bad_value (f : bytes) (q : N) (id : fourcc) (hd sz : N) : Prop :=
  bad_full f (q + hd) \/
  id = id4 "data" /\ (~ In (field f (q + hd + 1) 3) [0; 1; 2; 13; 14; 21; 27] \/ hd + 8 < sz /\ blen f < q + sz \/
    q + sz <= blen f /\ field f (q + hd + 1) 3 = 1 /\ ~ is_utf8 (slice f (q + hd + 8) (sz - hd - 8)) \/
    q + sz <= blen f /\ field f (q + hd + 1) 3 = 2 /\ ~ is_utf16 (slice f (q + hd + 8) (sz - hd - 8))) \/
  In id [id4 "mean"; id4 "name"] /\ (blen f < q + sz \/ ~ is_utf8 (slice f (q + hd + 4) (sz - hd - 4))).
Definition bad_box (f : bytes) (l : level) (q : N) (id : fourcc) (hd sz : N) : Prop :=
  opens l id = None /\ 2 ^ 63 <= q + sz \/
  match l with
  | Top => q = 0 /\ (id <> id4 "ftyp" \/ blen f < sz \/ ~ is_utf8 (slice f hd (sz - hd)))
  | InMoov => id = id4 "mvhd" /\ bad_header f (q + hd)
  | InStsd => id = id4 "mp4a" /\ bad_entry f (q + hd + 28)
  | InUdta => id = id4 "meta" /\ bad_full f (q + hd)
  | InStbl => id = id4 "stsd" /\ bad_full f (q + hd)
  | InIlst => id <> id4 "free" /\ no_value f (q + sz) (q + hd)
  | InItem => In id [id4 "data"; id4 "mean"; id4 "name"] /\ bad_value f q id hd sz
  | _ => False
  end.
Inductive bad (f : bytes) : standing -> N -> Prop :=
| Without_box : forall l k w q, q = 0 \/ 0 < k -> no_box f q -> bad f ((l, k) :: w) q
| Without_movie : forall q, 0 < q -> bad f [(Top, 0)] q
| With_bad_box : forall l k w q id hd sz, 0 < k -> box_at f q id hd sz -> bad_box f l q id hd sz -> bad f ((l, k) :: w) q.

(** Every cause is at a visited place. *)
Lemma seen_bad : forall f w q id hd sz, seen f w q id hd sz -> bad_box f (inner w) q id hd sz -> exists w q, sees f w q /\ bad f w q.
Proof.
  intros f w q id hd sz (l & k & w' & -> & S & K & B) H. exists ((l, k) :: w'), q. split; [exact S|]. eapply With_bad_box; [exact K|exact B|exact H].
Qed.
Lemma head_bad : forall f ns q, head_place f ns q -> no_box f q -> exists w q, sees f w q /\ bad f w q.
Proof.
  intros f ns q H N. destruct H as [l k w q S K|w p hd sz Sn Iw].
  - exists ((l, k) :: w), q. split; [exact S|]. now apply Without_box.
  - eapply seen_bad; [exact Sn|]. right. rewrite Iw. split; [reflexivity|]. left. exact N.
Qed.
Lemma esds_bad : forall f w p a d e, esds_place f w p a d e -> bad_esds f d e -> exists w q, sees f w q /\ bad f w q.
Proof.
  intros f w p a d e (hd & sz & hd' & sz' & Sn & Iw & -> & B & -> & ->) H. eapply seen_bad; [exact Sn|]. right. rewrite Iw. split; [reflexivity|]. right.
  exists (id4 "esds"), hd', sz'. split; [exact B|]. now right.
Qed.
Lemma version_bad : forall f ns p s, version_place f ns p s -> bad_full f p -> exists w q, sees f w q /\ bad f w q.
Proof.
  intros f ns p s V H. destruct V as [w q id hd sz Sn Iw Hi|w q hd sz Sn Iw|w q hd sz Sn Iw|w p a d e E].
  - eapply seen_bad; [exact Sn|]. right. rewrite Iw. split; [exact Hi|]. now left.
  - eapply seen_bad; [exact Sn|]. right. rewrite Iw. auto.
  - eapply seen_bad; [exact Sn|]. right. rewrite Iw. auto.
  - eapply esds_bad; [exact E|]. now left.
Qed.
Lemma header_bad : forall f ns p, header_place f ns p -> bad_header f p -> exists w q, sees f w q /\ bad f w q.
Proof. intros f ns p (w & q & hd & sz & Sn & Iw & _ & ->) H. eapply seen_bad; [exact Sn|]. right. rewrite Iw. auto. Qed.
Lemma start_bad : forall f id hd sz, box_at f 0 id hd sz -> id <> id4 "ftyp" \/ blen f < sz \/ ~ is_utf8 (slice f hd (sz - hd)) -> exists w q, sees f w q /\ bad f w q.
Proof.
  intros f id hd sz B H. exists [(Top, blen f)], 0. split; [constructor|]. eapply With_bad_box; [|exact B|right; auto].
  pose proof (box_head _ _ _ _ _ B). destruct B as [B _]. lia.
Qed.
Lemma desc_bad : forall f ns q w, desc_place f ns q w -> no_desc f q \/ (exists n len, descriptor_at f q 4 n len /\ (exists k, w = [k]) /\ blen f < q + n + 13 \/ descriptor_at f q 5 n len /\ (exists k k', w = [k; k']) /\ blen f < q + n + 2) ->
  exists w q, sees f w q /\ bad f w q.
Proof.
  intros f ns q w (w' & p & a & d & e & k & w2 & E & _ & -> & K & S) H. eapply esds_bad; [exact E|]. right. right. right. exists (k :: w2), q. split; [exact S|].
  exists k, w2. split; [reflexivity|]. split; [exact K|]. destruct H as [H|(n & len & [(D & [k1 X] & L)|(D & (k1 & k2 & X) & L)])]; [now left| |]; right; exists n, len; [left|right]; (split; [exact D|]); injection X as _ ->; (split; [|exact L]); [reflexivity|discriminate].
Qed.
Lemma cause_bad : forall f ns e s, cause f ns e s -> exists w q, sees f w q /\ bad f w q.
Proof.
  intros f ns e s H. destruct H.
  - eapply head_bad; [eassumption|]. intros id hd sz B. pose proof (box_head _ _ _ _ _ B). destruct B as [B _]. lia.
  - eapply head_bad; [eassumption|]. intros id hd sz B. pose proof (box_head _ _ _ _ _ B). destruct B as [B _]. lia.
  - eapply head_bad; [eassumption|]. intros id hd sz (B & _ & [(_ & -> & _)|(C & _)]); [lia|contradiction].
  - eapply head_bad; [eassumption|]. intros id hd sz (B & _ & [(C & _)|(_ & C & _)]); [contradiction|lia].
  - eapply start_bad; [eassumption|]. auto.
  - eapply start_bad; [eassumption|]. auto.
  - eapply start_bad; [eassumption|]. auto.
  - exists [(Top, 0)], q. split; [assumption|]. now constructor.
  - eapply seen_bad; [eassumption|]. left. auto.
  - destruct H as [[s V]|V]; [eapply version_bad; [exact V|left; lia]|eapply header_bad; [exact V|left; lia]].
  - destruct H as [[s V]|V]; [eapply version_bad; [exact V|left; lia]|eapply header_bad; [exact V|left; lia]].
  - eapply version_bad; [eassumption|]. now right.
  - eapply header_bad; [eassumption|]. right. now left.
  - eapply header_bad; [eassumption|]. right. now right.
  - eapply seen_bad; [eassumption|]. right. rewrite H0. split; [now left|]. right. left. split; [reflexivity|]. now left.
  - eapply seen_bad; [eassumption|]. right. rewrite H0. split; [now left|]. right. left. split; [reflexivity|]. right. left. auto.
  - eapply seen_bad; [eassumption|]. right. rewrite H0. split; [now right|]. right. right. auto.
  - eapply seen_bad; [eassumption|]. right. rewrite H0. split; [now left|]. right. left. split; [reflexivity|]. right. right. left. auto.
  - eapply seen_bad; [eassumption|]. right. rewrite H0. split; [now left|]. right. left. split; [reflexivity|]. right. right. right. auto.
  - eapply seen_bad; [eassumption|]. right. rewrite H0. split; [now right|]. right. right. auto.
  - eapply seen_bad; [eassumption|]. right. rewrite H0. auto.
  - eapply seen_bad; [eassumption|]. right. rewrite H0. split; [reflexivity|]. right. exists id, head', size'. auto.
  - eapply esds_bad; [eassumption|]. right. right. left. eauto.
  - eapply esds_bad; [eassumption|]. right. now left.
  - eapply desc_bad; [eassumption|]. now left.
  - eapply desc_bad; [eassumption|]. right. exists n, len. left. eauto.
  - eapply desc_bad; [eassumption|]. right. exists n, len. right. eauto.
Qed.

(** * The way through the file *)

Inductive next (f : bytes) : standing -> N -> standing -> N -> Prop :=
| Next_past : forall l k w q id hd sz, 0 < k -> box_at f q id hd sz -> opens l id = None -> next f ((l, k) :: w) q ((l, k - sz) :: w) (q + sz)
| Next_into : forall l k w q id hd sz l' d, 0 < k -> box_at f q id hd sz -> opens l id = Some (l', d) ->
    next f ((l, k) :: w) q ((l', sz - hd - d) :: (l, k - sz) :: w) (q + hd + d)
| Next_out : forall l l' k w q, l <> InMoov -> next f ((l, 0) :: (l', k) :: w) q ((l', k) :: w) q.
Inductive ahead (f : bytes) (wT : standing) (qT : N) : standing -> N -> Prop :=
| Ahead_here : ahead f wT qT wT qT
| Ahead_on : forall w q w' q', next f w q w' q' -> ahead f wT qT w' q' -> ahead f wT qT w q.
Lemma ahead_snoc : forall f w q w' q' w0 q0, ahead f w q w0 q0 -> next f w q w' q' -> ahead f w' q' w0 q0.
Proof. intros f w q w' q' w0 q0 H N. induction H as [|w1 q1 w2 q2 N1 H IH]; [eapply Ahead_on; [exact N|constructor]|eapply Ahead_on; [exact N1|exact IH]]. Qed.
Lemma sees_ahead : forall f w q, sees f w q -> ahead f w q [(Top, blen f)] 0.
Proof.
  intros f w q H. induction H as [|l k w q id hd sz H IH K B O|l k w q id hd sz l' d H IH K B O|l l' k w q H IH N]; [constructor| | |]; (eapply ahead_snoc; [exact IH|]).
  - eapply Next_past; [exact K|exact B|exact O].
  - eapply Next_into; [exact K|exact B|exact O].
  - now apply Next_out.
Qed.
Lemma sees_next : forall f w q w' q', sees f w q -> next f w q w' q' -> sees f w' q'.
Proof.
  intros f w q w' q' S N. destruct N as [l k w q id hd sz K B O|l k w q id hd sz l' d K B O|l l' k w q N].
  - eapply Sees_past; [exact S|exact K|exact B|exact O].
  - eapply Sees_into; [exact S|exact K|exact B|exact O].
  - eapply Sees_out; [exact S|exact N].
Qed.
Lemma sees_deep : forall f w q, sees f w q -> (2 <= List.length w)%nat -> 0 < q.
Proof.
  intros f w q H. induction H as [|l k w q id hd sz H IH K B O|l k w q id hd sz l' d H IH K B O|l l' k w q H IH N]; cbn [List.length] in *; intros L.
  - lia.
  - specialize (IH L). lia.
  - pose proof (box_head _ _ _ _ _ B). lia.
  - apply IH. lia.
Qed.
(** The descriptors likewise. *)
Inductive dnext (f : bytes) : list N -> N -> list N -> N -> Prop :=
| Dnext_past : forall k w q tag n len, 0 < k -> descriptor_at f q tag n len -> tag <> 4 \/ w <> [] -> dnext f (k :: w) q (k - (n + len) :: w) (q + n + len)
| Dnext_into : forall k q n len, 0 < k -> descriptor_at f q 4 n len -> dnext f [k] q [len - 13; k - (n + len)] (q + n + 13)
| Dnext_out : forall k w q, dnext f (0 :: k :: w) q (k :: w) q.
Inductive dahead (f : bytes) (wT : list N) (qT : N) : list N -> N -> Prop :=
| Dahead_here : dahead f wT qT wT qT
| Dahead_on : forall w q w' q', dnext f w q w' q' -> dahead f wT qT w' q' -> dahead f wT qT w q.
Lemma dahead_snoc : forall f w q w' q' w0 q0, dahead f w q w0 q0 -> dnext f w q w' q' -> dahead f w' q' w0 q0.
Proof. intros f w q w' q' w0 q0 H N. induction H as [|w1 q1 w2 q2 N1 H IH]; [eapply Dahead_on; [exact N|constructor]|eapply Dahead_on; [exact N1|exact IH]]. Qed.
Lemma sees_dahead : forall f d e w q, sees_desc f d e w q -> exists n len, descriptor_at f d 3 n len /\ dahead f w q [N.min len (e - (d + n)) - 3] (d + n + 3).
Proof.
  intros f d e w q H. induction H as [n len D|k w q tag n len H IH K D T|k q n len H IH K D|k w q H IH]; [exists n, len; split; [exact D|constructor]| | |];
    destruct IH as (n0 & len0 & D0 & A); exists n0, len0; (split; [exact D0|]); (eapply dahead_snoc; [exact A|]).
  - eapply Dnext_past; [exact K|exact D|exact T].
  - now apply Dnext_into.
  - constructor.
Qed.

(** * Nothing wrong is passed *)

Section Exact.
  Context (m : mode) (f : bytes) (Lf : blen f < 2 ^ 62).

  (** If the program ends with a result, then with one that is as [Q] says; unless there is a flaw. *)
  Definition yes {A} (x : R A) (p : N) (Q : A -> N -> Prop) : Prop := flaw f \/ forall a p', x f p = Ok (a, p') -> Q a p'.
  Lemma yes_bind : forall {A B} (x : R A) (k : A -> R B) p Q S, yes x p Q -> (forall a p', Q a p' -> yes (k a) p' S) -> yes (bind x k) p S.
  Proof.
    intros A B x k p Q S [H|H] K; [now left|]. unfold yes, bind. destruct (x f p) as [[a p']|e|q|]; try (right; intros; discriminate).
    apply K, H. reflexivity.
  Qed.
  Lemma yes_weak : forall {A} (x : R A) p (Q Q' : A -> N -> Prop), yes x p Q -> (forall a p', Q a p' -> Q' a p') -> yes x p Q'.
  Proof. intros A x p Q Q' [H|H] K; [now left|]. right. auto. Qed.
  Lemma yes_ret : forall {A} (a : A) p (Q : A -> N -> Prop), Q a p -> yes (ret a) p Q.
  Proof. intros A a p Q H. right. intros b p' E. injection E as <- <-. exact H. Qed.
  Lemma yes_fail : forall {A} e p (Q : A -> N -> Prop), yes (fail e) p Q. Proof. intros. right. intros; discriminate. Qed.
  Lemma yes_tri : forall {A} (x : R A) p E Q, ErrProofs.tri f x p E Q -> yes x p Q.
  Proof. intros A x p E Q [H|H]; [now left|]. right. intros a p' X. now rewrite X in H. Qed.
  Lemma yes_post : forall {A} (x : R A) p Q, post f x p Q -> yes x p Q.
  Proof. intros A x p Q [H|H]; [now left|]. right. intros a p' X. now rewrite X in H. Qed.
  Lemma yes_lift : forall {A} (r : res A) p a, flaw f \/ r = Ok a -> yes (lift r) p (fun x q => x = a /\ q = p).
  Proof. intros. now apply yes_post, post_lift. Qed.
  Lemma yes_false : forall {A} (x : R A) p Q, yes x p (fun _ _ => False) -> yes x p Q.
  Proof. intros A x p Q H. eapply yes_weak; [exact H|]. intros a p' []. Qed.
  Lemma yes_seek_on : forall n p, n < 2 ^ 63 -> yes (seek_cur (as_i64 n)) p (fun _ q => q = p + n /\ q < 2 ^ 63).
  Proof.
    intros n p L. right. rewrite (as_i64_small f Lf n L). unfold seek_cur. assert (W : two63 = 2 ^ 63) by reflexivity. rewrite W. rewrite <- N2Z.inj_add, N2Z.id.
    destruct (_ && _)%Z eqn:E; [|discriminate]. intros a p' X. injection X as <- <-. split; [reflexivity|lia].
  Qed.
  Lemma yes_near : forall (n : N) p, p <= blen f -> n < 2 ^ 30 -> yes (seek_cur (Z.of_N n)) p (fun _ q => q = p + n).
  Proof. intros n p L Ln. eapply yes_tri, (ErrProofs.tri_seek_near f Lf); assumption. Qed.
  Lemma yes_head : forall p, yes parse_head p (fun h q => head_at f p h /\ q = p + head_len (hd_size h)).
  Proof. intros p. apply yes_post, post_head; assumption. Qed.
  Lemma yes_full : forall p, yes parse_full_head p (fun v q => v = (field f p 1, slice f (p + 1) 3) /\ q = p + 4 /\ q <= blen f).
  Proof.
    intros p. unfold parse_full_head. eapply yes_bind; [eapply yes_tri, (ErrProofs.tri_u8 f Lf)|]. intros v q (-> & -> & L).
    eapply yes_bind; [eapply yes_tri, (ErrProofs.tri_read f Lf)|]. cbv beta. intros b q (-> & -> & L2). apply yes_ret. split; [reflexivity|]. lia.
  Qed.
  Lemma yes_vec : forall n p, n < 2 ^ 63 -> yes (read_u8_vec n) p (fun b q => b = slice f p n /\ q = p + n /\ (n = 0 \/ q <= blen f)).
  Proof. intros n p L. eapply yes_tri, (ErrProofs.tri_vec f Lf). exact L. Qed.
  Lemma yes_utf8 : forall n p, n < 2 ^ 63 -> yes (read_utf8 n) p (fun _ q => q = p + n /\ (n = 0 \/ q <= blen f) /\ is_utf8 (slice f p n)).
  Proof.
    intros n p L. unfold read_utf8. eapply yes_bind; [apply yes_vec, L|]. cbv beta. intros b q (-> & -> & H). destruct (dec8 _) as [s|] eqn:E; [|apply yes_fail].
    apply yes_ret. split; [reflexivity|]. split; [exact H|]. eapply dec_is_utf8. exact E.
  Qed.
  Lemma yes_utf16 : forall n p, n < 2 ^ 63 -> yes (read_utf16 n) p (fun _ q => q = p + n /\ (n = 0 \/ q <= blen f) /\ is_utf16 (slice f p n)).
  Proof.
    intros n p L. unfold read_utf16. eapply yes_bind; [apply yes_vec, L|]. cbv beta. intros b q (-> & -> & H). destruct (dec16 _) as [s|] eqn:E; [|apply yes_fail].
    apply yes_ret. split; [reflexivity|]. split; [exact H|]. eapply dec_is_utf16. exact E.
  Qed.

  (** * Boxes *)

  Notation spot := (ErrProofs.spot f).
  Notation lenof h := (sz_len (hd_size h)).
  Notation hlof h := (head_len (hd_size h)).
  (** No flaw of the box, and the next place. *)
  Definition fine {A} (l : level) (q : N) (h : head) (_ : A) (p : N) : Prop := p = q + lenof h /\ ~ bad_box f l q (hd_fourcc h) (hlof h) (lenof h).
  Lemma yes_content : forall w q h p, spot w q h -> yes (lift (content_len m (hd_size h))) p (fun c p' => p' = p /\ c = lenof h - hlof h /\ hlof h <= lenof h < 2 ^ 63).
  Proof.
    intros w q h p H. destruct (ErrProofs.spot_sound m f Lf w q h H) as [F|[E S]]; [now left|].
    eapply yes_weak; [apply yes_lift; right; exact E|]. cbv beta. intros c p' [-> ->]. auto.
  Qed.
  Lemma yes_skip : forall w q h, spot w q h -> yes (skip_atom m h) (q + hlof h) (fun _ p => p = q + lenof h /\ p < 2 ^ 63).
  Proof.
    intros w q h H. unfold skip_atom. eapply yes_bind; [apply (yes_content w q), H|]. cbv beta. intros c p (-> & -> & Sz).
    eapply yes_weak; [apply yes_seek_on; lia|]. cbv beta. intros u p [-> L]. split; lia.
  Qed.
  Lemma yes_to_end : forall w q h p, spot w q h -> p <= q + lenof h -> yes (seek_to_end m (Bounds q (hd_size h))) p (fun _ p => p = q + lenof h /\ p < 2 ^ 63).
  Proof.
    intros w q h p P L. destruct (ErrProofs.spot_sound m f Lf w q h P) as [F|[_ Sz]]; [now left|].
    unfold seek_to_end. apply (yes_bind _ _ _ (fun c p' => c = p /\ p' = p)); [right; intros c p' E; injection E as <- <-; auto|].
    intros c p' [-> ->]. unfold bounds_end. cbn [b_pos b_size].
    assert (W : two64 = 4 * 2 ^ 62) by reflexivity. assert (W3 : 2 ^ 63 = 2 * 2 ^ 62) by reflexivity. pose proof (ErrProofs.spot_in f w q h P) as Lq.
    eapply yes_bind; [apply (yes_lift _ _ (q + lenof h)); right; unfold add64; destruct (_ <? _) eqn:X; [reflexivity|rewrite W in X; lia]|].
    intros e p' [-> ->]. eapply yes_bind; [apply (yes_lift _ _ (q + lenof h - p)); right; unfold sub64; destruct (_ <=? _) eqn:X; [reflexivity|lia]|].
    intros d p' [-> ->]. destruct (N.lt_ge_cases (q + lenof h - p) (2 ^ 63)) as [C|C].
    - eapply yes_weak; [apply yes_seek_on; exact C|]. cbv beta. intros u p' [-> Lp]. split; lia.
    - right. unfold seek_cur, as_i64. assert (W4 : two63 = 2 ^ 63) by reflexivity. rewrite W4. destruct (_ <? 2 ^ 63) eqn:X; [lia|].
      destruct (_ && _)%Z eqn:Y; [|discriminate]. exfalso. rewrite W in Y. lia.
  Qed.

  (** * Values *)

  Definition bad_data (q hd sz : N) : Prop := ~ In (field f (q + hd + 1) 3) [0; 1; 2; 13; 14; 21; 27] \/ hd + 8 < sz /\ blen f < q + sz \/
    q + sz <= blen f /\ field f (q + hd + 1) 3 = 1 /\ ~ is_utf8 (slice f (q + hd + 8) (sz - hd - 8)) \/
    q + sz <= blen f /\ field f (q + hd + 1) 3 = 2 /\ ~ is_utf16 (slice f (q + hd + 8) (sz - hd - 8)).
  Lemma yes_data : forall q hd sz, hd + 8 <= sz < 2 ^ 63 ->
    yes (data_parse (field f (q + hd + 1) 3) (sz - hd - 8)) (q + hd + 8) (fun _ p => p = q + sz /\ (hd + 8 < sz -> q + sz <= blen f) /\ ~ bad_data q hd sz).
  Proof.
    intros q hd sz Sz.
    assert (V : forall t (g : bytes -> data), In t [0; 13; 14; 21; 27] -> field f (q + hd + 1) 3 = t ->
      yes (v <- read_u8_vec (sz - hd - 8) ;; ret (g v)) (q + hd + 8) (fun _ p => p = q + sz /\ (hd + 8 < sz -> q + sz <= blen f) /\ ~ bad_data q hd sz)).
    { intros t g T Et. eapply yes_bind; [apply yes_vec; lia|]. cbv beta. intros b p (_ & -> & L). apply yes_ret. split; [lia|]. split; [lia|].
      intros [N|[N|[N|N]]]; [apply N; rewrite Et; cbn in T |- *; tauto|lia| |]; destruct N as (_ & N & _); cbn in T; repeat (destruct T as [T|T]; [lia|]); exact T. }
    destruct (in_dec N.eq_dec (field f (q + hd + 1) 3) [0; 1; 2; 13; 14; 21; 27]) as [Y|Y].
    - assert (T8 : field f (q + hd + 1) 3 = 1 -> yes (s <- read_utf8 (sz - hd - 8) ;; ret (DUtf8 s)) (q + hd + 8) (fun _ p => p = q + sz /\ (hd + 8 < sz -> q + sz <= blen f) /\ ~ bad_data q hd sz)).
      { intros T. eapply yes_bind; [apply yes_utf8; lia|]. cbv beta. intros b p (-> & L & U). apply yes_ret. split; [lia|]. split; [lia|].
        intros [N|[N|[N|N]]]; [apply N, Y|lia|now apply N|lia]. }
      assert (T16 : field f (q + hd + 1) 3 = 2 -> yes (s <- read_utf16 (sz - hd - 8) ;; ret (DUtf16 s)) (q + hd + 8) (fun _ p => p = q + sz /\ (hd + 8 < sz -> q + sz <= blen f) /\ ~ bad_data q hd sz)).
      { intros T. eapply yes_bind; [apply yes_utf16; lia|]. cbv beta. intros b p (-> & L & U). apply yes_ret. split; [lia|]. split; [lia|].
        intros [N|[N|[N|N]]]; [apply N, Y|lia|lia|now apply N]. }
      cbn [In] in Y. unfold data_parse. destruct Y as [Y|[Y|[Y|[Y|[Y|[Y|[Y|[]]]]]]]]; rewrite <- Y; first [apply T8; congruence|apply T16; congruence|eapply V; [|symmetry; exact Y]; cbn; tauto].
    - assert (X : data_parse (field f (q + hd + 1) 3) (sz - hd - 8) = fail (EUnknownDataType (field f (q + hd + 1) 3))).
      { clear - Y. remember (field f (q + hd + 1) 3) as t eqn:Et. clear Et. unfold data_parse. cbn [In] in Y.
        repeat match goal with |- context [match ?x with _ => _ end] => is_var x; destruct x end; try reflexivity; exfalso; apply Y; auto 10. }
      rewrite X. apply yes_fail.
  Qed.
  Lemma yes_item : forall w q h a, spot w q h -> inner w = InItem ->
    yes (item_body m h a) (q + hlof h) (fun a' p => fine InItem q h a' p /\ (hd_fourcc h <> id4 "data" -> ia_data a' = ia_data a)).
  Proof.
    intros w q h a P Iw. destruct (ErrProofs.spot_place f w q h P) as (w' & [K H] & Lv). rewrite Iw in Lv. pose proof (ErrProofs.spot_in f w q h P) as Li.
    destruct (ErrProofs.spot_sound m f Lf w q h P) as [F|[_ Sz0]]; [now left|].
    assert (W3 : 2 ^ 63 = 2 * 2 ^ 62) by reflexivity.
    unfold item_body. cbv zeta. destruct (fourcc_eqb (hd_fourcc h) DATA) eqn:ED.
    { eapply yes_bind; [apply yes_full|]. cbv beta. intros vf p1 (-> & -> & L1). cbn [fst snd]. destruct (negb _) eqn:EV; [apply yes_fail|].
      eapply yes_bind; [apply (yes_near 4); [lia|reflexivity]|]. cbv beta. intros u p2 ->.
      eapply yes_bind; [apply (yes_content w q), P|]. cbv beta. intros c p3 (-> & -> & Sz).
      destruct (N.lt_ge_cases (lenof h) (hlof h + 8)) as [C|C]; [left; eapply Short_value; [exact K|exact Lv|exact (fourcc_is _ _ _ _ H ED)|exact C]|].
      eapply yes_bind; [apply (yes_lift _ _ (lenof h - hlof h - 8)); right; unfold sub64; destruct (8 <=? _) eqn:X; [reflexivity|lia]|].
      cbv beta. intros n p4 [-> ->]. change (unbe (slice f (q + hlof h + 1) 3)) with (field f (q + hlof h + 1) 3). replace (q + hlof h + 4 + 4) with (q + hlof h + 8) by lia.
      eapply yes_bind; [apply yes_data; lia|]. cbv beta. intros d p5 (-> & Lq & N). apply yes_ret. apply fourcc_eqb_eq in ED. split; [|intros X; contradiction].
      split; [reflexivity|]. intros [[_ B]|[_ [[B|B]|[[_ B]|[B _]]]]]; [lia|lia|lia|exact (N B)|]. rewrite ED in B. cbn in B. destruct B as [B|[B|[]]]; discriminate. }
    assert (T : forall id g, In id [id4 "mean"; id4 "name"] -> (forall s, ia_data (g s) = ia_data a) -> fourcc_eqb (hd_fourcc h) id = true -> yes (
        vf <- parse_full_head ;; (if negb (fst vf =? 0) then fail (EUnknownVersion (fst vf)) else
        c <- lift (content_len m (hd_size h)) ;; n <- lift (sub64 m c 4) ;; s <- read_utf8 n ;; ret (g s))) (q + hlof h)
        (fun a' p => fine InItem q h a' p /\ (hd_fourcc h <> id4 "data" -> ia_data a' = ia_data a))).
    { intros id g Hi Hg EI. eapply yes_bind; [apply yes_full|]. cbv beta. intros vf p1 (-> & -> & L1). cbn [fst snd]. destruct (negb _) eqn:EV; [apply yes_fail|].
      eapply yes_bind; [apply (yes_content w q), P|]. cbv beta. intros c p3 (-> & -> & Sz).
      destruct (N.lt_ge_cases (lenof h) (hlof h + 4)) as [C|C].
      { left. eapply Short_text; [exact K|exact Lv|exact (fourcc_is _ _ _ _ H EI)| |exact C]. destruct Hi as [<-|[<-|[]]]; auto. }
      eapply yes_bind; [apply (yes_lift _ _ (lenof h - hlof h - 4)); right; unfold sub64; destruct (4 <=? _) eqn:X; [reflexivity|lia]|].
      cbv beta. intros n p4 [-> ->]. eapply yes_bind; [apply yes_utf8; lia|]. cbv beta. intros s p (-> & Le & U). apply yes_ret. split; [|intros _; apply Hg].
      split; [lia|]. apply fourcc_eqb_eq in EI. intros [[_ B]|[_ [[B|B]|[[B _]|[_ [B|B]]]]]]; [lia|lia|lia| |lia|exact (B U)].
      rewrite <- EI, B in Hi. destruct Hi as [Hi|[Hi|[]]]; discriminate. }
    destruct (fourcc_eqb (hd_fourcc h) MEAN) eqn:EM; [apply (T MEAN); [now left|reflexivity|exact EM]|].
    destruct (fourcc_eqb (hd_fourcc h) NAME) eqn:EN; [apply (T NAME); [right; now left|reflexivity|exact EN]|].
    eapply yes_bind; [apply (yes_skip w q), P|]. cbv beta. intros u p1 [-> L]. apply yes_ret. split; [|auto]. split; [reflexivity|].
    intros [[_ B]|[B _]]; [lia|]. cbn [In] in B. destruct B as [B|[B|[B|[]]]]; rewrite <- B in *; discriminate.
  Qed.

  (** * Headers *)

  Lemma yes_mvhd : forall w q h, spot w q h -> inner w = InMoov -> fourcc_eqb (hd_fourcc h) MOVIE_HEADER = true -> yes (mvhd_parse m (hd_size h)) (q + hlof h) (fine InMoov q h).
  Proof.
    intros w q h P Iw E. pose proof (proj2 (proj2 P)) as H. destruct (ErrProofs.spot_place f w q h P) as (w' & [Kq _] & Lv). rewrite Iw in Lv. unfold mvhd_parse.
    eapply yes_bind; [apply yes_post, post_bounds; eassumption|]. intros b p [-> ->].
    eapply yes_bind; [apply yes_full|]. cbv beta. intros vf p (-> & -> & Lp). cbn [fst snd]. pose proof (fourcc_is _ _ _ _ H E) as B.
    apply (yes_bind _ _ _ (fun _ p => p <= q + lenof h /\ ~ bad_header f (q + hlof h))).
    - set (hl := hlof h) in *. set (sz := lenof h) in *. destruct (field f (q + hl) 1) as [|[?|?|]] eqn:Ev; try apply yes_fail.
      + eapply yes_bind; [apply (yes_near 8); [exact Lp|reflexivity]|]. cbv beta. intros u p ->.
        eapply yes_bind; [eapply yes_tri, (ErrProofs.tri_u32 f Lf)|]. cbv beta. intros sc p (-> & -> & La).
        eapply yes_bind; [eapply yes_tri, (ErrProofs.tri_u32 f Lf)|]. cbv beta. intros du p (-> & -> & Lb).
        replace (q + hl + 4 + 8) with (q + hl + 12) in * by lia.
        destruct (N.eq_dec (field f (q + hl + 12) 4) 0) as [Z|Z]; [left; eapply Bad_header; [exact Kq|exact Lv|exact B|left; split; [exact Ev|now right]]|].
        destruct (N.lt_ge_cases sz (hl + 20)) as [D|D]; [left; eapply Bad_header; [exact Kq|exact Lv|exact B|left; split; [exact Ev|now left]]|].
        eapply yes_weak; [apply yes_post, (post_nanos m f Lf); [exact Z|]|].
        * pose proof (PanicProofs.field_lt f Lf (q + hl + 12 + 4) 4) as L. assert (256 ^ 4 * 1000000000 < 2 ^ 64) by reflexivity. lia.
        * cbv beta. intros d p ->. split; [lia|]. unfold bad_header. rewrite Ev. lia.
      + eapply yes_bind; [apply (yes_near 16); [exact Lp|reflexivity]|]. cbv beta. intros u p ->.
        eapply yes_bind; [eapply yes_tri, (ErrProofs.tri_u32 f Lf)|]. cbv beta. intros sc p (-> & -> & La).
        eapply yes_bind; [eapply yes_tri, (ErrProofs.tri_u64 f Lf)|]. cbv beta. intros du p (-> & -> & Lb).
        replace (q + hl + 4 + 16) with (q + hl + 20) in * by lia. replace (q + hl + 20 + 4) with (q + hl + 24) in * by lia.
        destruct (N.eq_dec (field f (q + hl + 20) 4) 0) as [Z|Z]; [left; eapply Bad_header; [exact Kq|exact Lv|exact B|right; split; [exact Ev|right; now left]]|].
        destruct (N.lt_ge_cases sz (hl + 32)) as [D|D]; [left; eapply Bad_header; [exact Kq|exact Lv|exact B|right; split; [exact Ev|now left]]|].
        destruct (N.lt_ge_cases (field f (q + hl + 24) 8 * 10 ^ 9) (2 ^ 64)) as [G|G]; [|left; eapply Bad_header; [exact Kq|exact Lv|exact B|right; split; [exact Ev|right; now right]]].
        eapply yes_weak; [apply yes_post, (post_nanos m f Lf); [exact Z|exact G]|]. cbv beta. intros d p ->. split; [lia|]. unfold bad_header. rewrite Ev. lia.
    - intros d0 p [L N]. eapply yes_bind; [apply (yes_to_end w); [exact P|exact L]|]. cbv beta. intros v p' [-> Lt]. apply yes_ret. split; [reflexivity|].
      intros [[_ C]|[_ C]]; [lia|exact (N C)].
  Qed.

  (** * Descriptors *)

  Section Entry.
    Context (p0 size0 a0 size0' d0 e0 : N) (En : entry_at f p0 size0 a0 size0' d0) (Ee : e0 = a0 + size0').
    Context (wD : list N) (qD : N) (Bd : bad_desc f wD qD).

    Definition lived (w : list N) (q : N) : Prop := sees_desc f d0 e0 w q /\ dahead f wD qD w q.
    Lemma dnext_sees : forall w q w' q', sees_desc f d0 e0 w q -> dnext f w q w' q' -> sees_desc f d0 e0 w' q'.
    Proof.
      intros w q w' q' S N. destruct N as [k w q tag n len K D T|k q n len K D|k w q].
      - eapply Desc_past; [exact S|exact K|exact D|exact T].
      - eapply Desc_into; [exact S|exact K|exact D].
      - eapply Desc_out. exact S.
    Qed.
    Lemma at_desc : forall k w q tag n len, lived (k :: w) q -> 0 < k -> descriptor_at f q tag n len ->
      (tag = 4 /\ w = [] /\ blen f < q + n + 13) \/ (tag = 5 /\ w <> [] /\ blen f < q + n + 2) \/
      ((tag <> 4 \/ w <> []) /\ lived (k - (n + len) :: w) (q + n + len)) \/ (tag = 4 /\ w = [] /\ lived [len - 13; k - (n + len)] (q + n + 13)).
    Proof.
      intros k w q tag n len [S A] K D. inversion A as [E1 E2|w1 q1 w2 q2 N A' E1 E2].
      - rewrite E1, E2 in Bd. destruct Bd as (k' & w' & X & _ & B). injection X as _ <-. destruct B as [B|(n' & len' & [(D' & W & L)|(D' & W & L)])].
        + exfalso. exact (B _ _ _ D).
        + destruct (desc_fun _ _ _ _ _ _ _ _ D D') as (-> & -> & ->). auto.
        + destruct (desc_fun _ _ _ _ _ _ _ _ D D') as (-> & -> & ->). auto.
      - subst w1 q1. pose proof (dnext_sees _ _ _ _ S N) as S'. inversion N as [k1 w1 q1 tag1 n1 len1 K1 D1 T1|k1 q1 n1 len1 K1 D1|k1 w1 q1]; subst.
        + destruct (desc_fun _ _ _ _ _ _ _ _ D D1) as (-> & -> & ->). right. right. left. split; [exact T1|]. split; assumption.
        + destruct (desc_fun _ _ _ _ _ _ _ _ D D1) as (-> & -> & ->). right. right. right. split; [reflexivity|]. split; [reflexivity|]. split; assumption.
        + lia.
    Qed.
    Lemma at_desc_end : forall k w q, lived (0 :: k :: w) q -> lived (k :: w) q.
    Proof.
      intros k w q [S A]. inversion A as [E1 E2|w1 q1 w2 q2 N A' E1 E2].
      - rewrite E1 in Bd. destruct Bd as (k' & w' & X & K & _). injection X as <- _. lia.
      - subst w1 q1. pose proof (dnext_sees _ _ _ _ S N) as S'. inversion N; subst; [lia|]. split; assumption.
    Qed.
    Lemma at_last_desc : forall q, ~ lived [0] q.
    Proof.
      intros q [S A]. inversion A as [E1 E2|w1 q1 w2 q2 N A' E1 E2].
      - rewrite E1 in Bd. destruct Bd as (k' & w' & X & K & _). injection X as <- _. lia.
      - subst w1 q1. inversion N; subst; lia.
    Qed.
    Lemma yes_desc_head : forall q, yes parse_desc_head q (fun h p => let '(tag, n, len) := h in p = q + n /\ descriptor_at f q tag n len).
    Proof. intros q. apply yes_post, (post_desc_head f Lf). Qed.
    Lemma ldesc_loop : forall {S} w2 len (body : N -> N -> S -> R S), len < 2 ^ 62 ->
      (forall tag dl s q n k, 0 < k -> lived (k :: w2) q -> descriptor_at f q tag n dl -> yes (body tag dl s) (q + n) (fun _ p => lived (k - (n + dl) :: w2) p)) ->
      forall fuel parsed s p, lived (len - parsed :: w2) p -> yes (desc_loop fuel m len body parsed s) p (fun _ p' => lived (0 :: w2) p').
    Proof.
      intros S w2 len body Ll B. induction fuel as [|fuel IH]; intros parsed s p K; cbn [desc_loop]; [right; discriminate|].
      destruct (parsed <? len) eqn:E; [|apply yes_ret; now replace 0 with (len - parsed) by lia].
      eapply yes_bind; [apply yes_desc_head|]. intros [[tag n] dl] p1 [-> D]. destruct (desc_small f Lf _ _ _ _ D) as [L1 L2].
      eapply yes_bind; [eapply B; [|exact K|exact D]; lia|]. cbv beta. intros s' p2 K2.
      assert (W : two64 = 4 * 2 ^ 62) by reflexivity. assert (W2 : 2 ^ 28 < 2 ^ 62) by reflexivity.
      eapply yes_bind; [apply (yes_lift _ _ (n + dl)); right; unfold add64; destruct (n + dl <? two64) eqn:X; [reflexivity|rewrite W in X; lia]|].
      intros k p3 [-> ->].
      eapply yes_bind; [apply (yes_lift _ _ (parsed + (n + dl))); right; unfold add64; destruct (parsed + (n + dl) <? two64) eqn:X; [reflexivity|rewrite W in X; lia]|].
      intros k p3 [-> ->]. apply IH. replace (len - (parsed + (n + dl))) with (len - parsed - (n + dl)) by lia. exact K2.
    Qed.
    Lemma lseek_desc : forall q n len tag, descriptor_at f q tag n len -> yes (seek_cur (as_i64 len)) (q + n) (fun _ p => p = q + n + len).
    Proof.
      intros q n len tag D. destruct (desc_small f Lf _ _ _ _ D) as [L1 L2]. assert (W2 : 2 ^ 28 < 2 ^ 62) by reflexivity. assert (W3 : 2 ^ 63 = 2 * 2 ^ 62) by reflexivity.
      eapply yes_weak; [apply yes_seek_on; lia|]. cbv beta. intros u p [-> _]. reflexivity.
    Qed.
    Lemma lds : forall i q n len k k', 0 < k -> lived [k; k'] q -> descriptor_at f q 5 n len -> yes (parse_ds_desc m i len) (q + n) (fun _ p => p = q + n + len /\ q + n + 2 <= blen f).
    Proof.
      intros i q n len k k' K0 K D. destruct (desc_small f Lf _ _ _ _ D) as [L1 L2]. assert (W2 : 2 ^ 28 < 2 ^ 62) by reflexivity. assert (W3 : 2 ^ 63 = 2 * 2 ^ 62) by reflexivity.
      unfold parse_ds_desc. eapply yes_bind; [eapply yes_tri, (ErrProofs.tri_u16 f Lf)|]. cbv beta. intros v p (-> & -> & L). cbv zeta.
      destruct (N.lt_ge_cases len 2) as [C|C]; [left; eapply Short_config; [exact En|eapply ErrProofs.descs_look; exact (proj1 K)|exact D|exact C]|].
      eapply yes_bind; [apply (yes_lift _ _ (len - 2)); right; unfold sub64; destruct (2 <=? len) eqn:X; [reflexivity|lia]|]. cbv beta. intros x p [-> ->].
      eapply yes_bind; [apply yes_seek_on; lia|]. cbv beta. intros u p [-> _]. apply yes_ret. lia.
    Qed.
    Lemma ldc_body : forall tag dl i q n k k', 0 < k -> lived [k; k'] q -> descriptor_at f q tag n dl -> yes (dc_body m tag dl i) (q + n) (fun _ p => lived [k - (n + dl); k'] p).
    Proof.
      intros tag dl i q n k k' K0 K D.
      assert (E : lived [k - (n + dl); k'] (q + n + dl) \/ tag = 5 /\ blen f < q + n + 2).
      { destruct (at_desc _ _ _ _ _ _ K K0 D) as [(_ & X & _)|[(T & _ & L)|[[_ L]|(_ & X & _)]]]; [discriminate|now right|now left|discriminate]. }
      unfold dc_body. destruct (tag =? 5) eqn:T.
      - apply N.eqb_eq in T. subst tag. eapply yes_weak; [eapply lds; [exact K0|exact K|exact D]|]. cbv beta. intros u p [-> L]. destruct E as [E|[_ E]]; [exact E|lia].
      - eapply yes_bind; [eapply lseek_desc; exact D|]. cbv beta. intros u p ->. apply yes_ret. destruct E as [E|[E _]]; [exact E|lia].
    Qed.
    Lemma les_body : forall fuel tag dl i q n k, 0 < k -> lived [k] q -> descriptor_at f q tag n dl -> yes (es_body fuel m tag dl i) (q + n) (fun _ p => lived [k - (n + dl)] p).
    Proof.
      intros fuel tag dl i q n k K0 K D. unfold es_body. destruct (desc_small f Lf _ _ _ _ D) as [L1 L2]. assert (W2 : 2 ^ 28 < 2 ^ 62) by reflexivity.
      pose proof (proj1 D) as Ln. pose proof (at_desc _ _ _ _ _ _ K K0 D) as E. destruct (tag =? 4) eqn:T.
      - apply N.eqb_eq in T. subst tag. unfold parse_dc_desc.
        eapply yes_bind; [apply (yes_near 5); [exact Ln|reflexivity]|]. cbv beta. intros u p1 ->.
        eapply yes_bind; [eapply yes_tri, (ErrProofs.tri_u32 f Lf)|]. cbv beta. intros mx p2 (-> & -> & La).
        eapply yes_bind; [eapply yes_tri, (ErrProofs.tri_u32 f Lf)|]. cbv beta. intros av p3 (-> & -> & Lb).
        destruct E as [(_ & _ & L)|[(X & _)|[([X|X] & _)|(_ & _ & E)]]]; [lia|discriminate|congruence|congruence|].
        eapply yes_weak; [apply (ldesc_loop [k - (n + dl)]); [lia|intros; now apply ldc_body|]|cbv beta; intros x p H; now apply at_desc_end].
        replace (q + n + 5 + 4 + 4) with (q + n + 13) by lia. exact E.
      - eapply yes_bind; [eapply lseek_desc; exact D|]. cbv beta. intros u p ->. apply yes_ret.
        destruct E as [(X & _)|[(_ & X & _)|[[_ E]|(X & _)]]]; [lia|congruence|exact E|lia].
    Qed.
    Lemma lesds : forall fuel i h, head_at f a0 h -> e0 = a0 + lenof h -> d0 = a0 + hlof h + 4 -> (exists n len, descriptor_at f d0 3 n len /\ lived [N.min len (e0 - (d0 + n)) - 3] (d0 + n + 3)) ->
      yes (parse_esds fuel m i (hd_size h)) (a0 + hlof h) (fun _ _ => False).
    Proof.
      intros fuel i h H Es Ed (n0 & len0 & D0 & Lv). unfold parse_esds.
      eapply yes_bind; [apply yes_full|]. cbv beta. intros vf p1 (-> & -> & Lp). cbn [fst snd]. destruct (negb (_ =? 0)) eqn:EV; [apply yes_fail|].
      rewrite <- Ed in *. eapply yes_bind; [apply yes_desc_head|]. intros [[tag n] dl] p [-> D].
      destruct (desc_fun _ _ _ _ _ _ _ _ D D0) as (-> & -> & ->). cbn [negb N.eqb Pos.eqb].
      destruct (head_sound_at m f Lf a0 h) as [F|[Ec Sz]]; [right; exists p0, size0, size0', d0; exact En|exact H|now left|]. rewrite Ec.
      eapply yes_bind; [apply (yes_lift _ _ (lenof h - hlof h)); now right|]. intros c p [-> ->].
      destruct (desc_small f Lf _ _ _ _ D) as [L1 L2]. assert (W2 : 2 ^ 28 < 2 ^ 62) by reflexivity.
      destruct (N.lt_ge_cases (lenof h) (hlof h + 4 + n0)) as [C|C]; [left; eapply Short_esds; [exact En|exact D|lia]|].
      eapply yes_bind; [apply (yes_lift _ _ (lenof h - hlof h - 4)); right; unfold sub64; destruct (4 <=? _) eqn:X; [reflexivity|lia]|].
      intros c4 p [-> ->].
      eapply yes_bind; [apply (yes_lift _ _ (lenof h - hlof h - 4 - n0)); right; unfold sub64; destruct (n0 <=? _) eqn:X; [reflexivity|lia]|].
      intros mx p [-> ->]. unfold parse_es_desc. eapply yes_bind; [apply (yes_near 3); [exact (proj1 D)|reflexivity]|]. cbv beta. intros u p ->.
      eapply yes_weak; [apply (ldesc_loop []); [lia|intros; now apply les_body|]|cbv beta; intros x p K; exact (at_last_desc _ K)].
      replace (lenof h - hlof h - 4 - n0) with (e0 - (d0 + n0)) by lia. exact Lv.
    Qed.
  End Entry.
  Lemma yes_bad_esds : forall fuel i h p0 size0 a0 size0' d0, entry_at f p0 size0 a0 size0' d0 -> head_at f a0 h -> size0' = lenof h -> d0 = a0 + hlof h + 4 -> bad_esds f d0 (a0 + size0') ->
    yes (parse_esds fuel m i (hd_size h)) (a0 + hlof h) (fun _ _ => False).
  Proof.
    intros fuel i h p0 size0 a0 size0' d0 En H Es Ed B.
    assert (First : (exists w q, sees_desc f d0 (a0 + size0') w q /\ bad_desc f w q) \/ bad_full f (d0 - 4) \/ no_desc f d0 \/ exists tag n len, descriptor_at f d0 tag n len /\ tag <> 3) by (unfold bad_esds in B; tauto).
    clear B. destruct First as [(wD & qD & S & Bd)|B].
    - destruct (sees_dahead _ _ _ _ _ S) as (n & len & D & A).
      eapply lesds; [exact En|reflexivity|exact Bd|exact H|now rewrite Es|exact Ed|]. exists n, len. split; [exact D|]. split; [now apply Desc_first|exact A].
    - unfold parse_esds. eapply yes_bind; [apply yes_full|]. cbv beta. intros vf p1 (-> & -> & Lp). cbn [fst snd]. destruct (negb (_ =? 0)) eqn:EV; [apply yes_fail|].
      rewrite <- Ed in *. replace (a0 + hlof h) with (d0 - 4) in * by lia. apply negb_false_iff, N.eqb_eq in EV.
      eapply yes_bind; [apply yes_desc_head|]. intros [[tag n] dl] p [-> D]. destruct (negb (tag =? 3)) eqn:T; [apply yes_fail|]. exfalso.
      destruct B as [[B|B]|[B|(tag' & n' & len' & D' & N)]]; [lia|exact (B EV)|exact (B _ _ _ D)|]. destruct (desc_fun _ _ _ _ _ _ _ _ D D') as (-> & _). lia.
  Qed.
  Lemma yes_mp4a : forall fuel w q h, spot w q h -> inner w = InStsd -> fourcc_eqb (hd_fourcc h) MP4_AUDIO = true ->
    yes (mp4a_parse fuel m (hd_size h)) (q + hlof h) (fun _ p => p = q + lenof h /\ p < 2 ^ 63) /\
    (bad_entry f (q + hlof h + 28) -> yes (mp4a_parse fuel m (hd_size h)) (q + hlof h) (fun _ _ => False)).
  Proof.
    intros fuel w q h P Iw E. pose proof (proj2 (proj2 P)) as H.
    assert (G : forall (X : mp4a -> N -> Prop), (forall h' r, head_at f (q + hlof h + 28) h' -> fourcc_eqb (hd_fourcc h') ELEMENTARY_STREAM_DESCRIPTION = true ->
        entry_at f q (lenof h) (q + hlof h + 28) (lenof h') (q + hlof h + 28 + hlof h' + 4) -> yes (parse_esds fuel m r (hd_size h')) (q + hlof h + 28 + hlof h') X) ->
      yes (mp4a_parse fuel m (hd_size h)) (q + hlof h) (fun r p => exists p', X r p' /\ p = q + lenof h /\ p < 2 ^ 63)).
    { intros X B. unfold mp4a_parse. eapply yes_bind; [apply yes_post, (post_bounds m f Lf); exact H|]. intros b p [-> ->].
      eapply yes_bind; [apply (yes_near 28); [exact (ErrProofs.spot_in f w q h P)|reflexivity]|]. cbv beta. intros u p ->.
      eapply yes_bind; [apply yes_head|]. intros h' p [H' ->]. destruct (negb _) eqn:E'; [apply yes_fail|]. apply negb_false_iff in E'.
      assert (En : entry_at f q (lenof h) (q + hlof h + 28) (lenof h') (q + hlof h + 28 + hlof h' + 4)).
      { destruct (ErrProofs.spot_place f w q h P) as (w' & [K _] & Lv). exists w', (hlof h), (hlof h'). split; [exact K|]. split; [now rewrite Lv|]. split; [exact (fourcc_is _ _ _ _ H E)|]. split; [reflexivity|].
        split; [exact (fourcc_is _ _ _ _ H' E')|reflexivity]. }
      apply (yes_bind _ _ _ (fun r p => X r p /\ p <= q + lenof h)).
      - destruct (B h' mp4a_default H' E' En) as [F|B1]; [now left|].
        destruct (yes_post _ _ _ (post_esds m f Lf _ _ _ _ _ En fuel mp4a_default h' H' eq_refl eq_refl)) as [F|B2]; [now left|].
        destruct (parse_esds fuel m mp4a_default (hd_size h') f (q + hlof h + 28 + hlof h')) as [[r p]|e|x|] eqn:Y; try (right; intros a p' Z; rewrite Y in Z; discriminate).
        specialize (B2 _ _ eq_refl). destruct (N.lt_ge_cases (q + lenof h) p) as [C|C]; [left; eapply Long_descriptor; [exact En|exact B2|exact C]|].
        right. intros a p' Z. rewrite Y in Z. injection Z as <- <-. split; [now apply B1|exact C].
      - intros r p [Xr L]. eapply yes_bind; [apply (yes_to_end w); [exact P|exact L]|]. cbv beta. intros v p' [-> Lt]. apply yes_ret. exists p. auto. }
    split.
    - eapply yes_weak; [apply (G (fun _ _ => True)); intros; right; intros; exact I|]. cbv beta. intros r p (_ & _ & X). exact X.
    - intros B. eapply yes_weak; [apply (G (fun _ _ => False))|cbv beta; intros r p (p' & [] & _)].
      intros h' r H' E' En. destruct B as [B|(id & hd & sz & Bx & B)]; [exfalso; exact (B _ _ _ H')|].
      destruct (box_fun _ _ _ _ _ _ _ _ H' Bx) as (<- & <- & <-). destruct B as [B|B].
      + exfalso. apply B. now apply fourcc_eqb_eq.
      + eapply yes_bad_esds; [exact En|exact H'|reflexivity|reflexivity|exact B].
  Qed.

  (** * The way to what is wrong *)

  Context (wT : standing) (qT : N) (BT : bad f wT qT).
  Definition live (w : standing) (q : N) : Prop := sees f w q /\ ahead f wT qT w q.
  Lemma at_box : forall l k w q id hd sz, live ((l, k) :: w) q -> 0 < k -> box_at f q id hd sz ->
    bad_box f l q id hd sz \/ (opens l id = None /\ live ((l, k - sz) :: w) (q + sz)) \/
    exists l' d, opens l id = Some (l', d) /\ live ((l', sz - hd - d) :: (l, k - sz) :: w) (q + hd + d).
  Proof.
    intros l k w q id hd sz [S A] K B. inversion A as [E1 E2|w1 q1 w2 q2 N A' E1 E2].
    - left. rewrite E1, E2 in BT. inversion BT as [l1 k1 w1 q1 Z NB|q1 Z|l1 k1 w1 q1 id1 hd1 sz1 K1 B1 BB]; subst.
      + exfalso. exact (NB _ _ _ B).
      + lia.
      + destruct (box_fun _ _ _ _ _ _ _ _ B B1) as (-> & -> & ->). exact BB.
    - right. subst w1 q1. pose proof (sees_next _ _ _ _ _ S N) as S'. inversion N as [l1 k1 w1 q1 id1 hd1 sz1 K1 B1 O|l1 k1 w1 q1 id1 hd1 sz1 l' d K1 B1 O|l1 l' k1 w1 q1 NM]; subst; [| |lia];
        destruct (box_fun _ _ _ _ _ _ _ _ B B1) as (-> & -> & ->).
      + left. split; [exact O|]. split; assumption.
      + right. exists l', d. split; [exact O|]. split; assumption.
  Qed.
  Lemma at_end : forall l l' k w q, l <> InMoov -> live ((l, 0) :: (l', k) :: w) q -> live ((l', k) :: w) q.
  Proof.
    intros l l' k w q NM [S A]. pose proof (sees_deep _ _ _ S ltac:(cbn; lia)) as L. inversion A as [E1 E2|w1 q1 w2 q2 N A' E1 E2].
    - exfalso. rewrite E1, E2 in BT. inversion BT; subst; lia.
    - subst w1 q1. pose proof (sees_next _ _ _ _ _ S N) as S'. inversion N; subst; [lia|lia|]. split; assumption.
  Qed.
  Lemma at_last : forall x q, ~ live [(InMoov, 0); x] q.
  Proof.
    intros x q [S A]. pose proof (sees_deep _ _ _ S ltac:(cbn; lia)) as L. inversion A as [E1 E2|w1 q1 w2 q2 N A' E1 E2].
    - rewrite E1, E2 in BT. inversion BT; subst; lia.
    - subst w1 q1. inversion N; subst; [lia|lia|congruence].
  Qed.
  Definition on {A} (w : standing) (h : head) (_ : A) (p : N) : Prop := match w with [] => False | (l, k) :: w' => live ((l, k - lenof h) :: w') p end.
  (** A box that is no container. *)
  Lemma leaf : forall {A} l k w q h (x : R A), spot ((l, k) :: w) q h -> live ((l, k) :: w) q -> opens l (hd_fourcc h) = None ->
    yes x (q + hlof h) (fine l q h) -> yes x (q + hlof h) (on ((l, k) :: w) h).
  Proof.
    intros A l k w q h x P K O H. eapply yes_weak; [exact H|]. intros a p [-> N]. cbn [on]. destruct P as ((l1 & k1 & w1 & X & K0) & _ & B). injection X as <- <- <-.
    destruct (at_box _ _ _ _ _ _ _ K K0 B) as [C|[[_ C]|(l' & d & O' & _)]]; [contradiction|exact C|congruence].
  Qed.
  Lemma lloop : forall {S} (limit : res N) (body : head -> S -> R S) l w lim, (flaw f \/ limit = Ok lim /\ lim < 2 ^ 63) ->
    (forall h s q k, spot ((l, k) :: w) q h -> live ((l, k) :: w) q -> yes (body h s) (q + hlof h) (on ((l, k) :: w) h)) ->
    forall fuel parsed s p, live ((l, lim - parsed) :: w) p -> yes (atom_loop fuel m limit body parsed s) p (fun _ p' => live ((l, 0) :: w) p').
  Proof.
    intros S limit body l w lim [F|[-> Ll]] B; [intros; now left|]. induction fuel as [|fuel IH]; intros parsed s p K; cbn [atom_loop]; [right; discriminate|].
    eapply yes_bind; [apply yes_lift; now right|]. cbv beta. intros l' p' [-> ->]. destruct (parsed <? lim) eqn:E; [|apply yes_ret; now replace 0 with (lim - parsed) by lia].
    eapply yes_bind; [apply yes_head|]. intros h p1 [H ->].
    assert (P : spot ((l, lim - parsed) :: w) p h) by (split; [exists l, (lim - parsed), w; split; [reflexivity|lia]|split; [exact (proj1 K)|exact H]]).
    eapply yes_bind; [apply B; [exact P|exact K]|]. cbv beta. intros s' p2 K2. cbn [on] in K2.
    destruct (ErrProofs.spot_sound m f Lf _ p h P) as [F|[_ Sz]]; [now left|].
    eapply yes_bind; [apply (yes_lift _ _ (parsed + lenof h))|].
    { right. unfold add64. assert (W : two64 = 2 * 2 ^ 63) by reflexivity. destruct (parsed + lenof h <? two64) eqn:X; [reflexivity|]. rewrite W in X. lia. }
    cbv beta. intros x p3 [-> ->]. replace (lim - parsed - lenof h) with (lim - (parsed + lenof h)) in * by lia. now apply IH.
  Qed.
  Lemma lcontainer : forall {S} l0 k0 w0 q h l d (body : head -> S -> R S), spot ((l0, k0) :: w0) q h -> live ((l0, k0) :: w0) q -> opens l0 (hd_fourcc h) = Some (l, d) -> l <> InMoov ->
    ~ bad_box f l0 q (hd_fourcc h) (hlof h) (lenof h) ->
    (forall h' s q' k w', spot ((l, k) :: w') q' h' -> live ((l, k) :: w') q' -> yes (body h' s) (q' + hlof h') (on ((l, k) :: w') h')) ->
    forall fuel s, yes (atom_loop fuel m (content_len m (hd_size h)) body d s) (q + hlof h + d) (on ((l0, k0) :: w0) h).
  Proof.
    intros S l0 k0 w0 q h l d body P K O W N B fuel s. destruct (ErrProofs.spot_sound m f Lf _ q h P) as [F|[E Sz]]; [now left|].
    destruct P as ((l1 & k1 & w1 & X & K0) & _ & Bx). injection X as <- <- <-.
    eapply yes_weak.
    - apply (lloop _ body l ((l0, k0 - lenof h) :: w0) (lenof h - hlof h)); [right; split; [exact E|lia]|intros; now apply B|].
      destruct (at_box _ _ _ _ _ _ _ K K0 Bx) as [C|[[O' _]|(l' & d' & O' & C)]]; [contradiction|congruence|]. rewrite O in O'. injection O' as <- <-. exact C.
    - cbv beta. intros x p Kp. cbn [on]. eapply at_end; [exact W|exact Kp].
  Qed.
  Lemma lbox0 : forall {S} l0 k0 w0 q h l (body : head -> S -> R S), spot ((l0, k0) :: w0) q h -> live ((l0, k0) :: w0) q -> opens l0 (hd_fourcc h) = Some (l, 0) -> l <> InMoov ->
    ~ bad_box f l0 q (hd_fourcc h) (hlof h) (lenof h) ->
    (forall h' s q' k w', spot ((l, k) :: w') q' h' -> live ((l, k) :: w') q' -> yes (body h' s) (q' + hlof h') (on ((l, k) :: w') h')) ->
    forall fuel s, yes (atom_loop fuel m (content_len m (hd_size h)) body 0 s) (q + hlof h) (on ((l0, k0) :: w0) h).
  Proof. intros S l0 k0 w0 q h l body P K O W N B fuel s. replace (q + hlof h) with (q + hlof h + 0) by lia. eapply lcontainer; eassumption. Qed.
  (** Children called [id] are parsed, the others skipped. *)
  Lemma lchild : forall {A B} (id : fourcc) l k w h (x : R A) (g : A -> B) (r : B) q, spot ((l, k) :: w) q h -> live ((l, k) :: w) q ->
    (fourcc_eqb (hd_fourcc h) id = false -> opens l (hd_fourcc h) = None /\ (bad_box f l q (hd_fourcc h) (hlof h) (lenof h) -> 2 ^ 63 <= q + lenof h)) ->
    (fourcc_eqb (hd_fourcc h) id = true -> yes x (q + hlof h) (on ((l, k) :: w) h)) ->
    yes (if fourcc_eqb (hd_fourcc h) id then (y <- x ;; ret (g y)) else (skip_atom m h ;;; ret r)) (q + hlof h) (on ((l, k) :: w) h).
  Proof.
    intros A B id l k w h x g r q P K O X. destruct (fourcc_eqb (hd_fourcc h) id).
    - eapply yes_bind; [apply X; reflexivity|]. intros a p Hb. apply yes_ret. exact Hb.
    - destruct (O eq_refl) as [O1 O2]. eapply yes_bind; [apply leaf; [exact P|exact K|exact O1|]|].
      + eapply yes_weak; [eapply yes_skip; exact P|]. cbv beta. intros u p [-> L]. split; [reflexivity|]. intros C. specialize (O2 C). lia.
      + intros a p Hb. apply yes_ret. exact Hb.
  Qed.

  (** An item without value. *)
  Lemma yes_no_value : forall l k w0 q h, spot ((l, k) :: w0) q h -> opens l (hd_fourcc h) = Some (InItem, 0) -> hlof h <= lenof h < 2 ^ 63 -> no_value f (q + lenof h) (q + hlof h) ->
    forall fuel, yes (atom_loop fuel m (Ok (lenof h - hlof h)) (item_body m) 0 (ItemAcc [] None None)) (q + hlof h) (fun a _ => ia_data a = []).
  Proof.
    intros l k w0 q h P O Sz NV fuel. set (e := q + lenof h) in *. set (w := (l, k - lenof h) :: w0).
    assert (G : forall fuel parsed s p, sees f ((InItem, lenof h - hlof h - parsed) :: w) p -> no_value f e p -> (parsed < lenof h - hlof h -> p < e) -> (parsed <= lenof h - hlof h -> p = q + hlof h + parsed) -> ia_data s = [] ->
      yes (atom_loop fuel m (Ok (lenof h - hlof h)) (item_body m) parsed s) p (fun a _ => ia_data a = [])).
    { clear fuel NV. induction fuel as [|fuel IH]; intros parsed s p S NV Lp Ep Es; cbn [atom_loop]; [right; discriminate|].
      eapply yes_bind; [apply yes_lift; now right|]. cbv beta. intros l' p' [-> ->]. destruct (parsed <? _) eqn:E; [|apply yes_ret; exact Es].
      eapply yes_bind; [apply yes_head|]. intros h' p1 [H ->].
      assert (P' : spot ((InItem, lenof h - hlof h - parsed) :: w) p h') by (split; [exists InItem, (lenof h - hlof h - parsed), w; split; [reflexivity|lia]|split; [exact S|exact H]]).
      destruct (ErrProofs.spot_sound m f Lf _ p h' P') as [F|[_ Sz']]; [now left|].
      inversion NV as [q1 L|q1 id hd sz L Bx Ni NV']; subst q1; [lia|]. destruct (box_fun _ _ _ _ _ _ _ _ H Bx) as (<- & <- & <-).
      eapply yes_bind; [eapply yes_item; [exact P'|reflexivity]|]. cbv beta. intros s' p2 [[-> _] Ed].
      eapply yes_bind; [apply (yes_lift _ _ (parsed + lenof h'))|].
      { right. unfold add64. assert (W : two64 = 2 * 2 ^ 63) by reflexivity. destruct (parsed + lenof h' <? two64) eqn:X; [reflexivity|]. rewrite W in X. lia. }
      cbv beta. intros x p3 [-> ->]. apply IH; [|exact NV'|lia|lia|now rewrite Ed].
      replace (lenof h - hlof h - (parsed + lenof h')) with (lenof h - hlof h - parsed - lenof h') by lia. eapply Sees_past; [exact S|lia|exact H|reflexivity]. }
    apply G; [|exact NV|lia|lia|reflexivity]. replace (q + hlof h) with (q + hlof h + 0) by lia. destruct P as ((l1 & k1 & w1 & X & K0) & S & H). injection X as <- <- <-.
    eapply Sees_into; [exact S|exact K0|exact H|exact O].
  Qed.
  Lemma lilst_body : forall fuel k w0 h l q, spot ((InIlst, k) :: w0) q h -> live ((InIlst, k) :: w0) q -> yes (ilst_body fuel m h l) (q + hlof h) (on ((InIlst, k) :: w0) h).
  Proof.
    intros fuel k w0 h l q P K. unfold ilst_body. destruct (fourcc_eqb _ FREE) eqn:EF.
    { assert (O : opens InIlst (hd_fourcc h) = None) by (unfold opens; change (id4 "free") with FREE; now rewrite EF). apply fourcc_eqb_eq in EF.
      eapply yes_bind; [apply leaf; [exact P|exact K|exact O|]|intros a p Hb; apply yes_ret; exact Hb].
      eapply yes_weak; [eapply yes_skip; exact P|]. cbv beta. intros u p [-> L]. split; [reflexivity|]. intros [[_ C]|[C _]]; [lia|]. apply C. exact EF. }
    assert (O : opens InIlst (hd_fourcc h) = Some (InItem, 0)) by (unfold opens; change (id4 "free") with FREE; now rewrite EF).
    eapply yes_bind; [eapply yes_content; exact P|]. cbv beta. intros c p (-> & -> & Sz).
    assert (K0 : 0 < k) by (destruct P as ((? & ? & ? & X & Y) & _); injection X as _ -> _; exact Y).
    eapply yes_bind; [|intros a p1 Hb; apply yes_ret; exact Hb]. unfold atom_data_parse.
    destruct (at_box _ _ _ _ _ _ _ K K0 (proj2 (proj2 P))) as [[[C _]|[_ C]]|[[C _]|(l' & d' & O' & C)]]; [congruence| |congruence|].
    - apply yes_false. eapply yes_bind; [eapply yes_no_value; [exact P|exact O|exact Sz|exact C]|]. cbv beta. intros a p ->. apply yes_fail.
    - rewrite O in O'. injection O' as <- <-.
      eapply yes_bind; [apply (lloop _ _ InItem ((InIlst, k - lenof h) :: w0) (lenof h - hlof h)); [right; split; [reflexivity|lia]| |]|].
      + intros h' s q' n P' K'. apply leaf; [exact P'|exact K'|reflexivity|]. eapply yes_weak; [eapply yes_item; [exact P'|reflexivity]|]. intros a p [X _]. exact X.
      + replace (q + hlof h) with (q + hlof h + 0) by lia. exact C.
      + cbv beta. intros a p Kp. destruct (ia_data a); [apply yes_fail|]. apply yes_ret. cbn [on]. apply (at_end InItem); [discriminate|exact Kp].
  Qed.
  Lemma lilst : forall fuel k w q h, spot ((InMeta, k) :: w) q h -> live ((InMeta, k) :: w) q -> fourcc_eqb (hd_fourcc h) ITEM_LIST = true -> yes (ilst_parse fuel m (hd_size h)) (q + hlof h) (on ((InMeta, k) :: w) h).
  Proof.
    intros fuel k w q h P K E. unfold ilst_parse. assert (O : opens InMeta (hd_fourcc h) = Some (InIlst, 0)) by (unfold opens; change (id4 "ilst") with ITEM_LIST; now rewrite E).
    eapply lbox0; [exact P|exact K|exact O|discriminate|intros [[C _]|[]]; congruence|]. intros. now apply lilst_body.
  Qed.
  Lemma lmeta : forall fuel k w q h, spot ((InUdta, k) :: w) q h -> live ((InUdta, k) :: w) q -> fourcc_eqb (hd_fourcc h) METADATA = true -> yes (meta_parse fuel m (hd_size h)) (q + hlof h) (on ((InUdta, k) :: w) h).
  Proof.
    intros fuel k w q h P K E. unfold meta_parse. assert (O : opens InUdta (hd_fourcc h) = Some (InMeta, 4)) by (unfold opens; change (id4 "meta") with METADATA; now rewrite E).
    eapply yes_bind; [apply yes_full|]. cbv beta. intros vf p1 (-> & -> & L1). cbn [fst snd]. destruct (negb _) eqn:EV; [apply yes_fail|].
    eapply lcontainer; [exact P|exact K|exact O|discriminate|intros [[C _]|[_ [C|C]]]; [congruence|lia|lia]|].
    intros h' s q' k' w' P' K'. unfold meta_body. apply lchild; [exact P'|exact K'| |intros Y; now apply lilst].
    intros N. split; [unfold opens; change (id4 "ilst") with ITEM_LIST; now rewrite N|]. intros [[_ C]|[]]. exact C.
  Qed.
  Lemma ludta : forall fuel k w q h, spot ((InMoov, k) :: w) q h -> live ((InMoov, k) :: w) q -> fourcc_eqb (hd_fourcc h) USER_DATA = true -> yes (udta_parse fuel m (hd_size h)) (q + hlof h) (on ((InMoov, k) :: w) h).
  Proof.
    intros fuel k w q h P K E. unfold udta_parse. assert (O : opens InMoov (hd_fourcc h) = Some (InUdta, 0)) by (apply fourcc_eqb_eq in E; rewrite E; reflexivity).
    eapply lbox0; [exact P|exact K|exact O|discriminate|intros [[C _]|[C _]]; [congruence|apply fourcc_eqb_eq in E; rewrite E in C; discriminate]|].
    intros h' s q' k' w' P' K'. unfold udta_body. apply lchild; [exact P'|exact K'| |intros Y; now apply lmeta].
    intros N. split; [unfold opens; change (id4 "meta") with METADATA; now rewrite N|]. intros [[_ C]|[C _]]; [exact C|]. rewrite C in N. discriminate.
  Qed.
  Lemma lstsd : forall fuel k w q h, spot ((InStbl, k) :: w) q h -> live ((InStbl, k) :: w) q -> fourcc_eqb (hd_fourcc h) SAMPLE_TABLE_SAMPLE_DESCRIPTION = true -> yes (stsd_parse fuel m (hd_size h)) (q + hlof h) (on ((InStbl, k) :: w) h).
  Proof.
    intros fuel k w q h P K E. unfold stsd_parse. assert (O : opens InStbl (hd_fourcc h) = Some (InStsd, 8)) by (unfold opens; change (id4 "stsd") with SAMPLE_TABLE_SAMPLE_DESCRIPTION; now rewrite E).
    eapply yes_bind; [apply yes_full|]. cbv beta. intros vf p1 (-> & -> & L1). cbn [fst snd]. destruct (negb _) eqn:EV; [apply yes_fail|].
    eapply yes_bind; [apply (yes_near 4); [exact L1|reflexivity]|]. cbv beta. intros u p2 ->. replace (q + hlof h + 4 + 4) with (q + hlof h + 8) by lia.
    eapply lcontainer; [exact P|exact K|exact O|discriminate|intros [[C _]|[_ [C|C]]]; [congruence|lia|lia]|].
    intros h' s q' k' w' P' K'. unfold stsd_body. apply lchild; [exact P'|exact K'| |].
    - intros N. split; [reflexivity|]. intros [[_ C]|[C _]]; [exact C|]. rewrite C in N. discriminate.
    - intros Y. destruct (yes_mp4a fuel _ _ _ P' eq_refl Y) as [M1 M2]. assert (K0 : 0 < k') by (destruct P' as ((? & ? & ? & X & Z) & _); injection X as _ -> _; exact Z).
      destruct (at_box _ _ _ _ _ _ _ K' K0 (proj2 (proj2 P'))) as [[[_ C]|[_ C]]|[[_ C]|(l' & d' & O' & _)]]; [| | |discriminate].
      + apply yes_false. eapply yes_weak; [exact M1|]. cbv beta. intros r p [-> L]. lia.
      + apply yes_false. now apply M2.
      + eapply yes_weak; [exact M1|]. cbv beta. intros r p [-> _]. exact C.
  Qed.
  Lemma lstbl : forall fuel k w q h, spot ((InMinf, k) :: w) q h -> live ((InMinf, k) :: w) q -> fourcc_eqb (hd_fourcc h) SAMPLE_TABLE = true -> yes (stbl_parse fuel m (hd_size h)) (q + hlof h) (on ((InMinf, k) :: w) h).
  Proof.
    intros fuel k w q h P K E. unfold stbl_parse. assert (O : opens InMinf (hd_fourcc h) = Some (InStbl, 0)) by (unfold opens; change (id4 "stbl") with SAMPLE_TABLE; now rewrite E).
    eapply lbox0; [exact P|exact K|exact O|discriminate|intros [[C _]|[]]; congruence|].
    intros h' s q' k' w' P' K'. unfold stbl_body. apply lchild; [exact P'|exact K'| |intros Y; now apply lstsd].
    intros N. split; [unfold opens; change (id4 "stsd") with SAMPLE_TABLE_SAMPLE_DESCRIPTION; now rewrite N|]. intros [[_ C]|[C _]]; [exact C|]. rewrite C in N. discriminate.
  Qed.
  Lemma lminf : forall fuel k w q h, spot ((InMdia, k) :: w) q h -> live ((InMdia, k) :: w) q -> fourcc_eqb (hd_fourcc h) MEDIA_INFORMATION = true -> yes (minf_parse fuel m (hd_size h)) (q + hlof h) (on ((InMdia, k) :: w) h).
  Proof.
    intros fuel k w q h P K E. unfold minf_parse. assert (O : opens InMdia (hd_fourcc h) = Some (InMinf, 0)) by (unfold opens; change (id4 "minf") with MEDIA_INFORMATION; now rewrite E).
    eapply lbox0; [exact P|exact K|exact O|discriminate|intros [[C _]|[]]; congruence|].
    intros h' s q' k' w' P' K'. unfold minf_body. apply lchild; [exact P'|exact K'| |intros Y; now apply lstbl].
    intros N. split; [unfold opens; change (id4 "stbl") with SAMPLE_TABLE; now rewrite N|]. intros [[_ C]|[]]. exact C.
  Qed.
  Lemma lmdia : forall fuel k w q h, spot ((InTrak, k) :: w) q h -> live ((InTrak, k) :: w) q -> fourcc_eqb (hd_fourcc h) MEDIA = true -> yes (mdia_parse fuel m (hd_size h)) (q + hlof h) (on ((InTrak, k) :: w) h).
  Proof.
    intros fuel k w q h P K E. unfold mdia_parse. assert (O : opens InTrak (hd_fourcc h) = Some (InMdia, 0)) by (unfold opens; change (id4 "mdia") with MEDIA; now rewrite E).
    eapply lbox0; [exact P|exact K|exact O|discriminate|intros [[C _]|[]]; congruence|].
    intros h' s q' k' w' P' K'. unfold mdia_body. apply lchild; [exact P'|exact K'| |intros Y; now apply lminf].
    intros N. split; [unfold opens; change (id4 "minf") with MEDIA_INFORMATION; now rewrite N|]. intros [[_ C]|[]]. exact C.
  Qed.
  Lemma ltrak : forall fuel k w q h, spot ((InMoov, k) :: w) q h -> live ((InMoov, k) :: w) q -> fourcc_eqb (hd_fourcc h) TRACK = true -> yes (trak_parse fuel m (hd_size h)) (q + hlof h) (on ((InMoov, k) :: w) h).
  Proof.
    intros fuel k w q h P K E. unfold trak_parse. assert (O : opens InMoov (hd_fourcc h) = Some (InTrak, 0)) by (apply fourcc_eqb_eq in E; rewrite E; reflexivity).
    eapply lbox0; [exact P|exact K|exact O|discriminate|intros [[C _]|[C _]]; [congruence|apply fourcc_eqb_eq in E; rewrite E in C; discriminate]|].
    intros h' s q' k' w' P' K'. unfold trak_body. apply lchild; [exact P'|exact K'| |intros Y; now apply lmdia].
    intros N. split; [unfold opens; change (id4 "mdia") with MEDIA; now rewrite N|]. intros [[_ C]|[]]. exact C.
  Qed.
  Lemma lmoov : forall fuel k q h, spot [(Top, k)] q h -> live [(Top, k)] q -> 0 < q -> fourcc_eqb (hd_fourcc h) MOVIE = true -> yes (moov_parse fuel m (hd_size h)) (q + hlof h) (fun _ _ => False).
  Proof.
    intros fuel k q h P K Lq E. unfold moov_parse. destruct (ErrProofs.spot_sound m f Lf _ q h P) as [F|[Ec Sz]]; [now left|]. pose proof P as ((l0 & k0 & w0 & X & K0) & Sw & H). injection X as <- <- <-.
    assert (O : opens Top (hd_fourcc h) = Some (InMoov, 0)) by (unfold opens; change (id4 "moov") with MOVIE; now rewrite E).
    destruct (at_box _ _ _ _ _ _ _ K K0 H) as [[[C _]|[C _]]|[[C _]|(l' & d' & O' & C)]]; [congruence|lia|congruence|]. rewrite O in O'. injection O' as <- <-.
    eapply yes_weak; [apply (lloop _ _ InMoov [(Top, k - lenof h)] (lenof h - hlof h)); [right; split; [exact Ec|lia]| |]|cbv beta; intros r p Kp; exact (at_last _ _ Kp)].
    - intros h' s q' n P' K'. unfold moov_body. cbv zeta.
      destruct (fourcc_eqb (hd_fourcc h') MOVIE_HEADER) eqn:E1.
      { eapply yes_bind; [apply leaf; [exact P'|exact K'|apply fourcc_eqb_eq in E1; rewrite E1; reflexivity|eapply yes_mvhd; [exact P'|reflexivity|exact E1]]|intros a p Hb; apply yes_ret; exact Hb]. }
      destruct (fourcc_eqb (hd_fourcc h') TRACK) eqn:E2; [eapply yes_bind; [apply ltrak; [exact P'|exact K'|exact E2]|intros a p Hb; apply yes_ret; exact Hb]|].
      apply lchild; [exact P'|exact K'| |intros Y; now apply ludta].
      intros N. split; [unfold opens; change (id4 "trak") with TRACK; change (id4 "udta") with USER_DATA; now rewrite E2, N|]. intros [[_ D]|[D _]]; [exact D|]. rewrite D in E1. discriminate.
    - replace (q + hlof h) with (q + hlof h + 0) by lia. exact C.
  Qed.
  Lemma lfind_moov : forall inner len, len < 2 ^ 62 -> forall fuel parsed p, 0 < p -> live [(Top, len - parsed)] p -> yes (find_moov fuel m inner len parsed) p (fun _ _ => False).
  Proof.
    intros inn len Ll. induction fuel as [|fuel IH]; intros parsed p Lp K; cbn [find_moov]; [right; discriminate|].
    destruct (len <=? parsed) eqn:E; [apply yes_fail|]. eapply yes_bind; [apply yes_head|]. intros h p1 [H ->].
    assert (P : spot [(Top, len - parsed)] p h) by (split; [exists Top, (len - parsed), []; split; [reflexivity|lia]|split; [exact (proj1 K)|exact H]]).
    destruct (fourcc_eqb _ MOVIE) eqn:EM; [eapply lmoov; [exact P|exact K|exact Lp|exact EM]|].
    assert (O : opens Top (hd_fourcc h) = None) by (unfold opens; change (id4 "moov") with MOVIE; now rewrite EM).
    eapply yes_bind; [eapply yes_skip; exact P|]. cbv beta. intros u p2 [-> L].
    destruct (at_box _ _ _ _ _ _ _ K ltac:(lia) H) as [[[_ C]|[C _]]|[[_ K2]|(l' & d' & O' & _)]]; [lia|lia| |congruence].
    destruct (ErrProofs.spot_sound m f Lf _ p h P) as [F|[_ Sz]]; [now left|]. assert (W : two64 = 4 * 2 ^ 62) by reflexivity. assert (W3 : 2 ^ 63 = 2 * 2 ^ 62) by reflexivity.
    eapply yes_bind; [apply (yes_lift _ _ (parsed + lenof h)); right; unfold add64; destruct (parsed + lenof h <? two64) eqn:X; [reflexivity|rewrite W in X; lia]|].
    intros x p3 [-> ->]. replace (len - parsed - lenof h) with (len - (parsed + lenof h)) in K2 by lia. apply IH; [lia|exact K2].
  Qed.
  Lemma lread : forall fuel, ahead f wT qT [(Top, blen f)] 0 -> yes (read_tag_from fuel m) 0 (fun _ _ => False).
  Proof.
    intros fuel A. unfold read_tag_from. assert (W : two63 = 2 ^ 63) by reflexivity. assert (W3 : 2 ^ 63 = 2 * 2 ^ 62) by reflexivity.
    assert (K : live [(Top, blen f)] 0) by (split; [constructor|exact A]).
    apply (yes_bind _ _ _ (fun _ q => live [(Top, blen f - q)] q /\ 0 < q <= blen f)).
    - unfold ftyp_parse. eapply yes_bind; [apply yes_head|]. intros h p1 [H ->]. destruct (negb _) eqn:E; [apply yes_fail|]. apply negb_false_iff in E.
      pose proof (box_head _ _ _ _ _ H) as Lh. pose proof (proj1 H) as Li.
      assert (P : spot [(Top, blen f)] 0 h) by (split; [exists Top, (blen f), []; split; [reflexivity|lia]|split; [constructor|exact H]]).
      eapply yes_bind; [eapply yes_content; exact P|]. cbv beta. intros c p2 (-> & -> & Sz).
      eapply yes_weak; [apply yes_utf8; lia|]. cbv beta. intros s q (-> & Lq & U).
      replace (0 + hlof h + (lenof h - hlof h)) with (0 + lenof h) in * by lia. split; [|lia].
      apply fourcc_eqb_eq in E. destruct (at_box _ _ _ _ _ _ _ K ltac:(lia) H) as [[[_ C]|[_ [C|[C|C]]]]|[[_ K2]|(l' & d' & O' & _)]].
      + lia.
      + contradiction.
      + lia.
      + exfalso. apply C. exact U.
      + exact K2.
      + rewrite E in O'. discriminate.
    - intros s q [K2 Lq]. apply (yes_bind _ _ _ (fun n p => n = blen f - q /\ p = q)).
      + right. unfold remaining_stream_len, bind, position, seek_end, lift, sub64. destruct (q <=? blen f) eqn:X; [|lia].
        unfold seek_start. destruct (q <? two63) eqn:Y; [|rewrite W in Y; lia]. cbn. intros a p' Z. injection Z as <- <-. auto.
      + intros n p2 [-> ->]. eapply yes_bind; [apply lfind_moov; [lia|lia|]|intros r p3 []]. now rewrite N.sub_0_r.
  Qed.
End Exact.

(** A file with a cause is not read. *)
Lemma cause_not_read : forall fuel m f ns e s t, blen f < 2 ^ 62 -> cause f ns e s -> read_tag fuel m f = Ok t -> flaw f.
Proof.
  intros fuel m f ns e s t L C E. destruct (cause_bad _ _ _ _ C) as (w & q & S & B). unfold read_tag in E.
  destruct (lread m f L w q B fuel (sees_ahead _ _ _ S)) as [F|F]; [exact F|]. destruct (read_tag_from fuel m f 0) as [[a p]|x|x|]; try discriminate. destruct (F _ _ eq_refl).
Qed.
