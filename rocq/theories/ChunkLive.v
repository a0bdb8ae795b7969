(** Exactly which chunk offsets still point to the same place, in files in which containers occur several times: specification and proofs for C94. *)

From Coq Require Import List NArith ZArith Bool Lia Arith String.
From Coq Require Import ZifyBool ZifyNat ZifyN.
From Verif Require Import Base BaseLemmas Utf UtfLemmas Types TagSpec FileSpec ParseLemmas ReadSpec ReadProofs ReadFacts NewMeans
  ScanProofs AdjustProofs WriteProofs WriteMain UpdateMeans UpdateTwice EditSpec EditProofs OffsetProofs LastSpec LastProofs LastWrite LastMeans LastSize LiveSpec LiveProofs ChunkSpec ChunkProofs.
Import ListNotations.
Local Open Scope list_scope.

(** * Specification *)

(** By how much the file grows. *)
Definition last_displacement (items : list atom_data) (f : list atom) : Z :=
  (Z.of_N (blen (render_all (last_file items f))) - Z.of_N (blen (render_all f)))%Z.

(** All tables, each with whether it counts: of several containers the last one does. *)
Local Notation mark := (bool * (nat * atom))%type.
Definition unmark (l : list mark) : list mark := map (fun p => (false, snd p)) l.
Fixpoint only_last (l : list (list mark)) : list mark :=
  match l with
  | [] => []
  | [g] => g
  | g :: r => unmark g ++ only_last r
  end.
Definition marked_in (id : fourcc) (g : atom -> list mark) (a : atom) : list mark := only_last (map g (named_kids id (a_kids a))).
Definition marked_stbl (a : atom) : list mark :=
  marked_in (id4 "stco") (fun c => [(true, (4%nat, c))]) a ++ marked_in (id4 "co64") (fun c => [(true, (8%nat, c))]) a.
Definition marked_trak : atom -> list mark := marked_in (id4 "mdia") (marked_in (id4 "minf") (marked_in (id4 "stbl") marked_stbl)).
Definition marked_moov (a : atom) : list mark := flat_map marked_trak (named_kids (id4 "trak") (a_kids a)).
Definition marked_tables (f : list atom) : list mark := only_last (map marked_moov (named_kids (id4 "moov") f)).

(** Table [i] counts and belongs to a track that precedes the last user data of the movie (all do if there is no user data). *)
Definition adjusted (f : list atom) (i : nat) : Prop :=
  exists mv a b t, In mv f /\ a_id mv = id4 "moov" /\ a_kids mv = a ++ b /\
    ((b = [] /\ named_kids (id4 "udta") a = []) \/ exists u r, b = u :: r /\ a_id u = id4 "udta" /\ named_kids (id4 "udta") r = []) /\
    nth_error (marked_moov (with_kids mv a)) i = Some (true, t).
(** As [stays] of ChunkSpec.v, for all tables of files in which containers may be repeated. *)
Definition any_stays (f : list atom) (items : list atom_data) (i : nat) (w : nat) (k : nat) (o : N) : Prop :=
  let d := last_displacement items f in let range := (2 ^ (8 * Z.of_nat w))%Z in
  (mdat_follows f -> adjusted f i ->
     ((exists m, movie_is f m /\ (m < k)%nat) -> (Z.of_N o + d < range)%Z) /\
     ((exists m, movie_is f m /\ (k < m)%nat) -> (d mod range = 0)%Z)) /\
  (~ adjusted f i -> (exists m, movie_is f m /\ (m < k)%nat) -> d = 0%Z).

(** * Proofs *)

Lemma only_last_cons : forall g h r, only_last (g :: h :: r) = unmark g ++ only_last (h :: r).
Proof. reflexivity. Qed.
Lemma unmark_snd : forall l, map snd (unmark l) = map snd l.
Proof. intro l. unfold unmark. rewrite map_map. reflexivity. Qed.
Lemma unmark_none : forall l, filter fst (unmark l) = [].
Proof. induction l as [|p l IH]; [reflexivity|exact IH]. Qed.
Lemma only_last_snd : forall l, map snd (only_last l) = flat_map (map snd) l.
Proof.
  induction l as [|g [|h r] IH]; [reflexivity|cbn [only_last flat_map]; symmetry; apply app_nil_r|]. rewrite only_last_cons, map_app, unmark_snd, IH. reflexivity.
Qed.
Lemma only_last_live : forall l, filter fst (only_last l) = match last_opt l with Some g => filter fst g | None => [] end.
Proof.
  induction l as [|g [|h r] IH]; [reflexivity|reflexivity|]. rewrite only_last_cons, filter_app, unmark_none, IH. reflexivity.
Qed.
Lemma last_opt_map : forall {A B} (g : A -> B) l, last_opt (map g l) = option_map g (last_opt l).
Proof. intros A B g. induction l as [|x [|y l] IH]; [reflexivity|reflexivity|]. exact IH. Qed.

(** The tables and the tables that count. *)
Lemma marked_in_snd : forall id g h a, (forall c, map snd (g c) = h c) -> map snd (marked_in id g a) = under id h a.
Proof.
  intros id g h a H. unfold marked_in, under. rewrite only_last_snd. induction (named_kids id (a_kids a)) as [|c r IH]; [reflexivity|]. cbn [map flat_map]. rewrite IH, H. reflexivity.
Qed.
Lemma marked_in_live : forall id g h a, (forall c, map snd (filter fst (g c)) = h c) -> map snd (filter fst (marked_in id g a)) = in_last id h a.
Proof.
  intros id g h a H. unfold marked_in, in_last. rewrite only_last_live, last_opt_map. destruct (last_opt (named_kids id (a_kids a))); [apply H|reflexivity].
Qed.
Lemma marked_stbl_snd : forall a, map snd (marked_stbl a) = stbl_tables a.
Proof.
  intro a. unfold marked_stbl, stbl_tables. rewrite map_app. f_equal.
  - rewrite (marked_in_snd _ _ (fun c => [(4%nat, c)])) by reflexivity. unfold under. induction (named_kids (id4 "stco") (a_kids a)) as [|c r IH]; [reflexivity|]. cbn [flat_map map app]. rewrite IH. reflexivity.
  - rewrite (marked_in_snd _ _ (fun c => [(8%nat, c)])) by reflexivity. unfold under. induction (named_kids (id4 "co64") (a_kids a)) as [|c r IH]; [reflexivity|]. cbn [flat_map map app]. rewrite IH. reflexivity.
Qed.
Lemma marked_stbl_live : forall a, map snd (filter fst (marked_stbl a)) = live_stbl a.
Proof.
  intro a. unfold marked_stbl, live_stbl. rewrite filter_app, map_app. f_equal; apply marked_in_live; reflexivity.
Qed.
Lemma marked_trak_live : forall a, map snd (filter fst (marked_trak a)) = live_trak a.
Proof. intro a. apply marked_in_live. intro b. apply marked_in_live. intro c. apply marked_in_live. apply marked_stbl_live. Qed.
Lemma marked_moov_live : forall a, map snd (filter fst (marked_moov a)) = live_moov a.
Proof.
  intro a. unfold marked_moov, live_moov. induction (named_kids (id4 "trak") (a_kids a)) as [|c r IH]; [reflexivity|]. cbn [flat_map]. rewrite filter_app, map_app, IH, marked_trak_live. reflexivity.
Qed.
Lemma marked_moov_snd : forall a, map snd (marked_moov a) = moov_tables a.
Proof.
  intro a. unfold marked_moov, moov_tables. unfold under at 1. induction (named_kids (id4 "trak") (a_kids a)) as [|c r IH]; [reflexivity|]. cbn [flat_map]. rewrite map_app, IH. f_equal.
  apply marked_in_snd. intro b. apply marked_in_snd. intro e. apply marked_in_snd. apply marked_stbl_snd.
Qed.
Theorem marked_all : forall f, map snd (marked_tables f) = file_tables f.
Proof.
  intro f. unfold marked_tables, file_tables. rewrite only_last_snd. induction (named_kids (id4 "moov") f) as [|c r IH]; [reflexivity|]. cbn [map flat_map]. rewrite IH, marked_moov_snd. reflexivity.
Qed.
Theorem marked_live : forall f, map snd (filter fst (marked_tables f)) = live_tables f.
Proof.
  intro f. unfold marked_tables, live_tables. rewrite only_last_live, last_opt_map. destruct (last_opt (named_kids (id4 "moov") f)); [apply marked_moov_live|reflexivity].
Qed.

(** ** What writing does to them *)

Definition shift_mark (d : Z) (p : mark) : mark := (fst p, if fst p then shift_pair d (snd p) else snd p).
Lemma shift_unmark : forall d l, map (shift_mark d) (unmark l) = unmark l.
Proof. intros d l. unfold unmark. rewrite map_map. reflexivity. Qed.
Lemma only_last_end : forall x g, only_last (x ++ [g]) = flat_map unmark x ++ g.
Proof.
  induction x as [|a x IH]; intro g; [reflexivity|]. cbn [flat_map]. rewrite <- app_assoc, <- IH. cbn [app]. destruct x; reflexivity.
Qed.
Lemma shift_ends : forall d x, map (shift_mark d) (flat_map unmark x) = flat_map unmark x.
Proof. intros d x. induction x as [|a x IH]; [reflexivity|]. cbn [flat_map]. rewrite map_app, shift_unmark, IH. reflexivity. Qed.
Lemma marked_in_at : forall id g a x c y, a_kids a = x ++ c :: y -> a_id c = id -> named_kids id y = [] ->
  marked_in id g a = flat_map unmark (map g (named_kids id x)) ++ g c.
Proof.
  intros id g a x c y E I N. unfold marked_in. rewrite E, named_app, named_this, N by exact I. rewrite map_app. apply only_last_end.
Qed.
Lemma marked_in_move : forall id g h d a, (forall c, a_id (h c) = a_id c) -> (forall c, g (h c) = map (shift_mark d) (g c)) ->
  marked_in id g (last_kid id h a) = map (shift_mark d) (marked_in id g a).
Proof.
  intros id g h d a Hi H. unfold last_kid. destruct (last_cases id (a_kids a)) as [N|(x & c & y & E & I & N)].
  - rewrite map_last_none, with_same by exact N. unfold marked_in. rewrite N. reflexivity.
  - rewrite E, map_last_at by assumption. rewrite (marked_in_at id g (with_kids a (x ++ h c :: y)) x (h c) y), (marked_in_at id g a x c y); try assumption; try reflexivity; [|rewrite Hi; exact I].
    rewrite map_app, shift_ends, H. reflexivity.
Qed.
Lemma marked_in_other : forall id id' g h a, id <> id' -> (forall c, a_id (h c) = a_id c) -> marked_in id g (last_kid id' h a) = marked_in id g a.
Proof. intros id id' g h a D H. unfold marked_in, last_kid, with_kids. cbn [a_kids]. rewrite named_last_other by assumption. reflexivity. Qed.
Lemma marked_stbl_move : forall d a, marked_stbl (move_stbl d a) = map (shift_mark d) (marked_stbl a).
Proof.
  intros d a. unfold marked_stbl, move_stbl. rewrite map_app. f_equal.
  - rewrite marked_in_other by (discriminate || reflexivity). apply marked_in_move; reflexivity.
  - rewrite (marked_in_move (id4 "co64") _ _ d) by reflexivity. rewrite marked_in_other by (discriminate || reflexivity). reflexivity.
Qed.
Lemma marked_trak_move : forall d a, marked_trak (move_trak d a) = map (shift_mark d) (marked_trak a).
Proof.
  intros d a. apply marked_in_move; [reflexivity|]. intro b. apply marked_in_move; [reflexivity|]. intro c. apply marked_in_move; [reflexivity|]. apply marked_stbl_move.
Qed.
Lemma marked_kids_move : forall d ks, flat_map marked_trak (named_kids (id4 "trak") (move_traks d ks)) = map (shift_mark d) (flat_map marked_trak (named_kids (id4 "trak") ks)).
Proof.
  intros d ks. unfold move_traks. rewrite named_map_same by reflexivity. induction (named_kids (id4 "trak") ks) as [|c r IH]; [reflexivity|].
  cbn [map flat_map]. rewrite map_app, IH, marked_trak_move. reflexivity.
Qed.
Lemma marked_moov_parts : forall mv, marked_moov mv = flat_map marked_trak (named_kids (id4 "trak") (fore mv)) ++ flat_map marked_trak (named_kids (id4 "trak") (aft mv)).
Proof.
  intro mv. unfold marked_moov, fore, aft. destruct (split_last (id4 "udta") (a_kids mv)) as [[[x u] y]|] eqn:E; [|symmetry; apply app_nil_r].
  apply split_last_some in E. destruct E as (E & I & _). rewrite E, named_app, named_other, flat_map_app by (rewrite I; discriminate). reflexivity.
Qed.
Lemma marked_moov_last : forall items d mv, marked_moov (last_moov items d mv) =
  map (shift_mark d) (flat_map marked_trak (named_kids (id4 "trak") (fore mv))) ++ flat_map marked_trak (named_kids (id4 "trak") (aft mv)).
Proof.
  intros items d mv. unfold marked_moov, last_moov, fore, aft. destruct (split_last (id4 "udta") (a_kids mv)) as [[[x u] y]|] eqn:E; unfold with_kids; cbn [a_kids].
  - apply split_last_some in E. destruct E as (E & I & _). rewrite named_app, named_other, flat_map_app, marked_kids_move by (rewrite last_udta_id, I; discriminate). reflexivity.
  - rewrite named_app, flat_map_app, marked_kids_move. reflexivity.
Qed.

Section At.
Variables (items : list atom_data) (ft : atom) (pre : list atom) (mv : atom) (post : list atom).
Hypothesis I : a_id ft = id4 "ftyp".
Hypothesis J : a_id mv = id4 "moov".
Hypothesis N1 : named_kids (id4 "moov") (pre ++ post) = [].
Let f := ft :: pre ++ mv :: post.
Let m := S (List.length pre).
Let f_split : f = (ft :: pre) ++ mv :: post := eq_refl.
Let m_is : m = List.length (ft :: pre) := eq_refl.
Lemma N2 : named_kids (id4 "moov") post = [].
Proof. apply named_two in N1. apply N1. Qed.
Lemma N0 : named_kids (id4 "moov") (ft :: pre) = [].
Proof. rewrite named_other by (rewrite I; discriminate). apply named_two in N1. apply N1. Qed.
Let front := flat_map marked_trak (named_kids (id4 "trak") (fore mv)).

Lemma adjusted_iff : forall i, adjusted f i <-> exists t, nth_error front i = Some (true, t).
Proof.
  intros i. split.
  - intros (v & a & b & t & Hv & Jv & E & Hb & L). apply (moov_in ft pre mv post I N1) in Hv; [|exact Jv]. subst v. exists t. unfold front, fore. unfold marked_moov in L. cbn [a_kids with_kids] in L.
    destruct Hb as [(-> & Na)|(u & r & -> & Iu & Nr)].
    + rewrite app_nil_r in E. rewrite E, (proj2 (split_last_none _ _) Na). exact L.
    + rewrite E, split_last_at by assumption. exact L.
  - intros (t & L). unfold front, fore in L. exists mv. destruct (split_last (id4 "udta") (a_kids mv)) as [[[x u] y]|] eqn:Sp.
    + apply split_last_some in Sp. destruct Sp as (Sp & Iu & Ny). exists x, (u :: y), t. split; [rewrite f_split; apply in_or_app; right; left; reflexivity|].
      split; [exact J|]. split; [exact Sp|]. split; [right; exists u, y; auto|]. exact L.
    + apply split_last_none in Sp. exists (a_kids mv), [], t. split; [rewrite f_split; apply in_or_app; right; left; reflexivity|].
      split; [exact J|]. split; [symmetry; apply app_nil_r|]. split; [left; auto|]. exact L.
Qed.
Lemma adjusted_dec : forall i, adjusted f i \/ ~ adjusted f i.
Proof.
  intro i. destruct (nth_error front i) as [[[|] t]|] eqn:E; [left; apply adjusted_iff; eauto| |]; right; intro H; apply adjusted_iff in H; destruct H as (t' & H); rewrite E in H; discriminate.
Qed.

Hypothesis G : sound_moov mv.
Let d := moved items mv post.
Let g := last_file items f.
Lemma live_g_is : g = (ft :: pre) ++ last_moov items d mv :: post.
Proof. exact (LastMeans.last_at items ft pre mv post J N2). Qed.
Lemma live_disp : last_displacement items f = last_growth items mv.
Proof. exact (moved_growth items ft pre mv post J N2 G). Qed.

Lemma live_start_front : forall k, (k <= m)%nat -> start g k = start f k.
Proof. intros k L. unfold start. rewrite live_g_is, f_split, !firstn_app, <- m_is. replace (k - m)%nat with 0%nat by lia. reflexivity. Qed.
Lemma live_start_back : forall k, (m < k)%nat -> (Z.of_N (start g k) = Z.of_N (start f k) + last_growth items mv)%Z.
Proof.
  intros k L. unfold start. rewrite live_g_is, f_split, !firstn_app, <- m_is. destruct (k - m)%nat as [|q] eqn:K; [lia|]. cbn [firstn].
  rewrite !render_all_app, !render_all_cons, !blen_app. unfold last_growth.
  fold (asize (last_moov items 0 mv)). rewrite (last_moov_size items 0 d mv G). unfold asize. lia.
Qed.

Lemma any_f_tables : marked_tables f = marked_moov mv.
Proof. unfold marked_tables. rewrite f_split, named_app, N0, named_this, N2 by exact J. reflexivity. Qed.
Lemma any_g_tables : marked_tables g = map (shift_mark d) front ++ flat_map marked_trak (named_kids (id4 "trak") (aft mv)).
Proof.
  unfold marked_tables. rewrite live_g_is, named_app, N0, named_this, N2 by (rewrite last_moov_id; exact J). cbn [app map only_last]. apply marked_moov_last.
Qed.
(** Table [i] of the new file. *)
Lemma any_table : forall i t, nth_error (file_tables f) i = Some t ->
  (adjusted f i -> nth_error (file_tables g) i = Some (shift_pair d t) /\ table_ok t) /\ (~ adjusted f i -> nth_error (file_tables g) i = Some t).
Proof.
  intros i t Hi. rewrite <- marked_all in Hi |- *. rewrite nth_error_map in Hi |- *. rewrite any_f_tables, marked_moov_parts in Hi. rewrite any_g_tables. fold front in Hi.
  destruct (lt_dec i (List.length front)) as [L|L].
  - rewrite nth_error_app1 in Hi by exact L. rewrite nth_error_app1 by (rewrite map_length; exact L). destruct (nth_error front i) as [[b t']|] eqn:E; [|discriminate]. cbn [option_map snd] in Hi. injection Hi as ->.
    rewrite (map_nth_error _ _ _ E). cbn [option_map shift_mark fst snd]. split.
    + intro A. apply adjusted_iff in A. destruct A as (t' & A). rewrite E in A. injection A as -> ->. split; [reflexivity|].
      pose proof (proj1 (live_kids_ok (a_kids mv)) G) as K. fold (live_moov mv) in K. rewrite <- marked_moov_live, marked_moov_parts in K. fold front in K. rewrite Forall_forall in K. apply K.
      apply in_map_iff. exists (true, t'). split; [reflexivity|]. apply filter_In. split; [|reflexivity]. apply in_or_app. left. apply nth_error_In in E. exact E.
    + intro A. destruct b; [|reflexivity]. exfalso. apply A, adjusted_iff. eauto.
  - rewrite nth_error_app2 in Hi by lia. rewrite nth_error_app2 by (rewrite map_length; lia). rewrite map_length. split; [|intros _; exact Hi].
    intro A. apply adjusted_iff in A. destruct A as (t' & A). exfalso. apply L. apply nth_error_Some. rewrite A. discriminate.
Qed.

Lemma any_entry_kept : forall i j o k n, entry f i j o -> inside f k o n ->
  exists t o', nth_error (file_tables f) i = Some t /\ entry g i j o' /\ (forall o2, entry g i j o2 -> o2 = o') /\ (same_place f g k o o' <-> any_stays f items i (fst t) k o).
Proof.
  intros i j o k n (t & Hi & Hj) In. exists t. pose proof (not_movie ft pre mv post I J N1 k o n In) as Nk. pose proof (in_post items ft pre mv post k o n In) as Po.
  pose proof (movie_m ft pre mv post I J N1) as movie_m. fold f m in Nk, Po, movie_m. pose proof (follows_iff ft pre mv post I J N1) as follows_iff. fold f in follows_iff.
  destruct In as (md & Ek & Im & S1 & S2). unfold any_stays. rewrite live_disp. destruct (any_table i t Hi) as [T1 T2].
  destruct (adjusted_dec i) as [L|L].
  - destruct (T1 L) as (Hi' & Ok). pose proof (table_width_ok t j o Ok Hj) as W.
    assert (Hj' : nth_error (offsets (shift_pair d t)) j = Some (shift_entry (fst t) d o)) by (destruct t as [w a]; unfold shift_pair; cbn [fst snd]; rewrite offsets_shift by apply Ok; apply map_nth_error, Hj).
    exists (shift_entry (fst t) d o).
    split; [exact Hi|]. split; [exists (shift_pair d t); auto|]. split; [intros o2 (t2 & A & B); rewrite Hi' in A; injection A as <-; rewrite Hj' in B; injection B as <-; reflexivity|].
    unfold same_place, shift_entry. set (r := (2 ^ (8 * Z.of_nat (fst t)))%Z) in *. assert (Pr : (0 < r)%Z) by (apply Z.pow_pos_nonneg; lia).
    pose proof (Z.mod_pos_bound (Z.of_N o + d) r Pr) as B. rewrite Z2N.id by lia.
    destruct (lt_dec m k) as [Lk|Lk].
    + assert (Ed : d = last_growth items mv) by (unfold d, moved; destruct (named_kids (id4 "mdat") post); [exfalso; apply Po; auto|reflexivity]).
      pose proof (live_start_back k Lk) as Sb. rewrite Sb. rewrite <- Ed in *. split.
      * intros E. split; [|intros X; contradiction]. intros _ _. split; [intros _; lia|]. intros (q & Q & Lq). apply movie_m in Q. lia.
      * intros (X & _). destruct X as [X _]; [apply follows_iff, Po, Lk|exact L|]. specialize (X (ex_intro _ m (conj (proj2 (movie_m m) eq_refl) Lk))).
        rewrite Z.mod_small by lia. lia.
    + assert (Lk' : (k < m)%nat) by lia. rewrite live_start_front by lia. split.
      * intros E. split; [|intros X; contradiction]. intros F _. apply follows_iff in F. split; [intros (q & Q & Lq); apply movie_m in Q; lia|]. intros _.
        assert (Ed : d = last_growth items mv) by (unfold d, moved; destruct (named_kids (id4 "mdat") post); [contradiction|reflexivity]). rewrite <- Ed.
        assert (E' : ((Z.of_N o + d) mod r = Z.of_N o)%Z) by lia. replace d with ((Z.of_N o + d) - Z.of_N o)%Z by lia. rewrite Zminus_mod, E', (Z.mod_small (Z.of_N o)) by lia. rewrite Z.sub_diag. apply Z.mod_0_l. lia.
      * intros (X & _). enough (E' : ((Z.of_N o + d) mod r = Z.of_N o)%Z) by lia.
        assert (D0 : (d mod r = 0)%Z).
        { unfold d, moved. destruct (named_kids (id4 "mdat") post) eqn:Ep; [apply Z.mod_0_l; lia|]. apply X; [apply follows_iff; discriminate|exact L|]. exists m. split; [now apply movie_m|exact Lk']. }
        rewrite Zplus_mod, D0, Z.add_0_r, Zmod_mod, Z.mod_small by lia. reflexivity.
  - pose proof (T2 L) as Hi'. exists o. split; [exact Hi|]. split; [exists t; auto|]. split; [intros o2 (t2 & A & B); rewrite Hi' in A; injection A as <-; rewrite Hj in B; injection B as <-; reflexivity|].
    unfold same_place. destruct (lt_dec m k) as [Lk|Lk].
    + rewrite (live_start_back k Lk). split.
      * intros E. split; [intros _ X; contradiction|]. intros _ _. lia.
      * intros (_ & X). rewrite X; [lia|exact L|]. exists m. split; [now apply movie_m|exact Lk].
    + rewrite live_start_front by lia. split; [|intros _; reflexivity]. intros _. split; [intros _ X; contradiction|]. intros _ (q & Q & Lq). apply movie_m in Q. lia.
Qed.
Lemma live_kept_atom : forall k a, k <> m -> nth_error f k = Some a -> nth_error g k = Some a.
Proof.
  intros k a Nk Ek. rewrite live_g_is. rewrite f_split in Ek. destruct (lt_dec k m) as [Lk|Lk].
  - rewrite nth_error_app1 in * by (rewrite <- m_is; exact Lk). exact Ek.
  - rewrite nth_error_app2 in * by (rewrite <- m_is; lia). rewrite <- m_is in *. destruct (k - m)%nat as [|q] eqn:K; [lia|]. exact Ek.
Qed.
Lemma live_other_atom : forall k a, nth_error f k = Some a -> a_id a <> id4 "moov" ->
  nth_error g k = Some a /\ (Z.of_N (start g k) = Z.of_N (start f k) + (if (k <=? m)%nat then 0 else last_growth items mv))%Z.
Proof.
  intros k a Ek Na. assert (Nk : k <> m).
  { intros ->. unfold m in Ek. rewrite f_split, nth_error_app2 in Ek by (cbn [List.length]; lia). cbn [List.length] in Ek. rewrite Nat.sub_diag in Ek. injection Ek as <-. contradiction. }
  split; [apply live_kept_atom; assumption|]. destruct (Nat.leb_spec k m) as [L|L]; [rewrite live_start_front by lia; lia|apply live_start_back, L].
Qed.
End At.

(** The bytes of an atom that is kept are the same. *)
Lemma kept_slice : forall f g k a o o' n, nth_error f k = Some a -> nth_error g k = Some a -> start f k <= o -> o + n <= start f (S k) -> same_place f g k o o' ->
  slice (render_all g) o' n = slice (render_all f) o n.
Proof.
  intros f g k md o o' n Ek Eg S1 S2 SP. unfold same_place in SP.
  assert (At : forall h x, nth_error h k = Some x -> render_all h = render_all (firstn k h) ++ render x ++ render_all (skipn (S k) h) /\ start h (S k) = start h k + blen (render x)).
  { clear. intros h. revert k. induction h as [|a h IH]; intros [|k] x E; try discriminate E.
    - injection E as ->. split; [reflexivity|]. unfold start. cbn [firstn]. rewrite render_all_cons. cbn. rewrite app_nil_r. reflexivity.
    - cbn [nth_error] in E. apply IH in E. destruct E as [E1 E2]. split.
      + cbn [firstn skipn]. rewrite !render_all_cons, E1, <- app_assoc. reflexivity.
      + unfold start in *. cbn [firstn]. rewrite !render_all_cons, !blen_app. cbn [firstn] in E2. rewrite E2. lia. }
  destruct (At f md Ek) as [F1 F2]. destruct (At g md Eg) as [G1 G2].
  assert (Hf : forall h, render_all h = render_all (firstn k h) ++ render md ++ render_all (skipn (S k) h) -> forall p, start h k <= p -> p + n <= start h k + blen (render md) ->
     slice (render_all h) p n = slice (render md) (p - start h k) n).
  { intros h E p P1 P2. rewrite E, slice_app_r by exact P1. fold (start h k). apply slice_app_l. lia. }
  rewrite (Hf g G1 o') by lia. rewrite (Hf f F1 o) by lia. f_equal. lia.
Qed.

Theorem any_exact : forall items f t, describes f t -> sound_tables f -> forall i j o k n, entry f i j o -> inside f k o n ->
  exists t o', nth_error (file_tables f) i = Some t /\ entry (last_file items f) i j o' /\ (forall o2, entry (last_file items f) i j o2 -> o2 = o') /\
    (same_place f (last_file items f) k o o' <-> any_stays f items i (fst t) k o).
Proof.
  intros items f t (ft & pre & mv & post & -> & I & _ & _ & J & N & _) S. exact (any_entry_kept items ft pre mv post I J N (sound_at _ _ _ _ J (N2 pre post N) S)).
Qed.
Theorem live_atoms : forall items f t, describes f t -> sound_tables f -> forall k a, nth_error f k = Some a -> a_id a <> id4 "moov" -> nth_error (last_file items f) k = Some a.
Proof.
  intros items f t (ft & pre & mv & post & -> & I & _ & _ & J & N & _) S k a E Na. exact (proj1 (live_other_atom items ft pre mv post J N (sound_at _ _ _ _ J (N2 pre post N) S) k a E Na)).
Qed.
