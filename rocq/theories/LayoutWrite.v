(** What writing does to the boxes of an arbitrary file, byte by byte. *)

From Coq Require Import List NArith ZArith Bool Lia Arith String.
From Coq Require Import ZifyBool ZifyNat ZifyN.
From Verif Require Import Base BaseLemmas Utf UtfLemmas Types Stream Parse Find Write TagSpec FileSpec ParseLemmas WriteBytes WriteState FailSpec FailProofs PanicSpec WPanicSpec Display Described DescribedIs DescribedWrite ErrSpec LayoutSpec LayoutProofs.
From Verif Require WPanicProofs ErrProofs ErrExact WriteTerm WriteAny PanicProofs Modes Fault.
Import ListNotations.
Local Open Scope list_scope.
Local Open Scope d_scope.

(** * Rows *)

Lemma row_in : forall f l k q ns q', row f l k q ns q' -> forall n, In n ns ->
  box_at f (n_at n) (n_id n) (n_head n) (n_size n) /\ q <= n_at n /\
  (n_inside n = [] \/ exists l' d q1, scan_opens l (n_id n) = Some (l', d) /\ row f l' (n_size n - n_head n - d) (n_at n + n_head n + d) (n_inside n) q1).
Proof.
  assert (Le : forall f l k q ns q', row f l k q ns q' -> q <= q').
  { intros f l k q ns q' H. induction H as [l q|l k q id head size ns q' K B O L H IH|l k q id head size l' d inside q1 ns q' K B O V H1 IH1 H2 IH2]; lia. }
  intros f l k q ns q' H. induction H as [l q|l k q id head size ns q' K B O L H IH|l k q id head size l' d inside q1 ns q' K B O V H1 IH1 H2 IH2]; intros n Hn.
  - destruct Hn.
  - destruct Hn as [<-|Hn].
    + cbn [n_at n_id n_head n_size n_inside]. split; [exact B|]. split; [lia|now left].
    + destruct (IH n Hn) as (B1 & L1 & I1). split; [exact B1|]. split; [lia|exact I1].
  - destruct Hn as [<-|Hn].
    + cbn [n_at n_id n_head n_size n_inside]. split; [exact B|]. split; [lia|]. right. exists l', d, q1. auto.
    + destruct (IH2 n Hn) as (B1 & L1 & I1). pose proof (Le _ _ _ _ _ _ H1). split; [exact B1|]. split; [lia|exact I1].
Qed.
Lemma final_in : forall id ns n, final id ns = Some n -> In n ns /\ n_id n = id.
Proof.
  intros id ns n. unfold final. assert (G : forall ns o, fold_left (fun o n => if named id n then Some n else o) ns o = Some n -> In n ns /\ n_id n = id \/ o = Some n).
  { clear ns. induction ns as [|x ns IH]; intros o H; [now right|]. cbn [fold_left] in H. destruct (IH _ H) as [[A B]|E]; [left; split; [now right|exact B]|].
    destruct (named id x) eqn:X; [|now right]. injection E as <-. left. split; [now left|]. now apply fourcc_eqb_eq. }
  intros H. destruct (G ns None H) as [X|X]; [exact X|discriminate].
Qed.
Lemma head_bound : forall f n, box_at f (n_at n) (n_id n) (n_head n) (n_size n) -> head_len (b_size (bound n)) = n_head n /\ sz_ext (b_size (bound n)) = (n_head n =? 16).
Proof. intros f n (_ & _ & H). split; [|reflexivity]. unfold bound, head_len. cbn [b_size sz_ext]. destruct H as [(_ & -> & _)|(_ & _ & -> & _)]; reflexivity. Qed.

(** The boxes around the item list begin before it. *)
Lemma around_before : forall f ns q' mo, row f Top (blen f) 0 ns q' -> movie ns = Some mo ->
  Forall (fun n => box_at f (n_at n) (n_id n) (n_head n) (n_size n) /\ (n_head n <= n_size n -> n_at n + n_head n <= replaced_from mo)) (around mo) /\ replaced_from mo <= replaced_to mo.
Proof.
  intros f ns q' mo R M. destruct (final_in _ _ _ M) as [Im Em]. destruct (row_in _ _ _ _ _ _ R _ Im) as (Bm & _ & Rm).
  unfold around, replaced_from, replaced_to, metadata. destruct (user_data mo) as [u|] eqn:U; cbn [within_it].
  2: { split; [|lia]. cbn [app]. apply Forall_cons; [split; [exact Bm|unfold n_end; lia]|]. apply Forall_nil. }
  assert (Ru : exists l d q1, row f l (n_size mo - n_head mo - d) (n_at mo + n_head mo + d) (n_inside mo) q1).
  { destruct Rm as [E|(l & d & q1 & _ & Rm)]; [|eauto]. unfold user_data in U. rewrite E in U. discriminate. }
  destruct Ru as (l1 & d1 & q1 & Ru). destruct (final_in _ _ _ U) as [Iu Eu]. destruct (row_in _ _ _ _ _ _ Ru _ Iu) as (Bu & Lu & Rm2).
  destruct (final (id4 "meta") (n_inside u)) as [e|] eqn:E; cbn [app].
  2: { split; [|lia]. apply Forall_cons; [split; [exact Bm|unfold n_end; lia]|]. apply Forall_cons; [split; [exact Bu|unfold n_end; lia]|]. apply Forall_nil. }
  assert (Re : exists l d q1, row f l (n_size u - n_head u - d) (n_at u + n_head u + d) (n_inside u) q1).
  { destruct Rm2 as [X|(l & d & q2 & _ & Rm2)]; [|eauto]. rewrite X in E. discriminate. }
  destruct Re as (l2 & d2 & q2 & Re). destruct (final_in _ _ _ E) as [Ie Ee]. destruct (row_in _ _ _ _ _ _ Re _ Ie) as (Be & Le & Rm3).
  destruct (final (id4 "ilst") (n_inside e)) as [i|] eqn:I.
  - destruct Rm3 as [X|(l & d & q3 & _ & Rm3)]; [rewrite X in I; discriminate|]. destruct (final_in _ _ _ I) as [Ii Ei]. destruct (row_in _ _ _ _ _ _ Rm3 _ Ii) as (Bi & Li & _).
    split; [|unfold n_end; lia]. apply Forall_cons; [split; [exact Bm|lia]|]. apply Forall_cons; [split; [exact Bu|lia]|]. apply Forall_cons; [split; [exact Be|lia]|]. apply Forall_nil.
  - split; [|lia]. apply Forall_cons; [split; [exact Bm|unfold n_end; lia]|]. apply Forall_cons; [split; [exact Bu|unfold n_end; lia]|]. apply Forall_cons; [split; [exact Be|unfold n_end; lia]|]. apply Forall_nil.
Qed.

(** * The plan *)

Definition bt (t : bool * node) : bool * bounds := (fst t, bound (snd t)).
Lemma tables_bt : forall mo, WPanicProofs.traks_tables (vb_trak (moov_of mo)) = map bt (flat_map track_tables (filter (named (id4 "trak")) (n_inside mo))).
Proof.
  intros mo. unfold moov_of. cbn [vb_trak]. induction (filter _ _) as [|t l IH]; [reflexivity|]. cbn [map flat_map WPanicProofs.traks_tables]. rewrite map_app. unfold WPanicProofs.traks_tables in IH. rewrite IH. f_equal.
  unfold WPanicProofs.trak_tables, track_tables, trak_of. cbn [tb_mdia]. destruct (final (id4 "mdia") (n_inside t)) as [d|]; [|reflexivity].
  cbn [option_map WPanicProofs.omdia mdia_of db_minf within_it]. destruct (final (id4 "minf") (n_inside d)) as [i|]; [|reflexivity].
  cbn [option_map WPanicProofs.ominf minf_of nb_stbl within_it]. destruct (final (id4 "stbl") (n_inside i)) as [b|]; [|reflexivity].
  cbn [option_map WPanicProofs.ostbl stbl_of within_it]. unfold WPanicProofs.stbl_tables, stbl_of. cbn [sb_stco sb_co64].
  destruct (final (id4 "stco") (n_inside b)), (final (id4 "co64") (n_inside b)); reflexivity.
Qed.

Definition new_boxes (items : list atom_data) (mo : node) : new_atoms :=
  match user_data mo, metadata mo with
  | None, _ => NUdta (NewMeta (Some meta_hdlr) items)
  | Some _, None => NMeta (NewMeta (Some meta_hdlr) items)
  | Some _, Some e => NIlst (match final (id4 "hdlr") (n_inside e) with Some _ => None | None => Some meta_hdlr end) items
  end.
Definition plan_of (f : bytes) (items : list atom_data) (mo : node) (mp : N) : plan :=
  Plan (moov_of mo) mp (replaced_from mo) (replaced_to mo) (Z.of_N (new_atoms_len (new_boxes items mo)) - Z.of_N (replaced_to mo - replaced_from mo)) (map bound (around mo)) (new_boxes items mo)
    (blen f) (skipn (N.to_nat (replaced_to mo)) f).
Lemma boxes_bound : forall items mo, new_atoms_len (new_boxes items mo) <= room items.
Proof.
  intros items mo. unfold new_boxes. destruct (user_data mo); [destruct (metadata mo) as [e|]|].
  - set (h := match final (id4 "hdlr") (n_inside e) with Some _ => None | None => Some meta_hdlr end). apply (new_len_bound h); [unfold h; destruct (final _ _); auto|auto].
  - apply (new_len_bound (Some meta_hdlr)); auto.
  - apply (new_len_bound (Some meta_hdlr)); auto.
Qed.

Section Run.
  Context (m : mode) (f : bytes) (items : list atom_data) (Lf : blen f < 2 ^ 62) (La : nsum (map ad_len items) < 2 ^ 61).
  Notation bad := (wflaw f items).

  Lemma bend_ok : forall l id b, WPanicProofs.found_in f l id b -> around_list l id \/ l = InMeta /\ id = id4 "ilst" ->
    bad \/ bounds_end m b = Ok (b_pos b + sz_len (b_size b)) /\ b_pos b + sz_len (b_size b) <= blen f.
  Proof. intros l id b F A. exact (WPanicProofs.not_cut m f items Lf La l id b F A). Qed.

  (** From the difference on. *)
  Lemma plan_end : forall mb mp start stop d0 up n p, stop <= blen f -> (- Z.of_N (blen f) <= d0 <= 0)%Z -> new_atoms_len n <= room items ->
    exists p', (diff <- lift (addi m d0 (as_i64 (new_atoms_len n))) ;;
           old_len <- seek_end ;;
           moved_len <- lift (sub64 m old_len stop) ;;
           if two63 <=? moved_len then lift (Panic PCapacity) else
           seek_start stop ;;;
           mv <- read_to_end ;;
           ret (Plan mb mp start stop diff up n old_len mv)) f p = Ok (Plan mb mp start stop (d0 + Z.of_N (new_atoms_len n)) up n (blen f) (skipn (N.to_nat stop) f), p').
  Proof.
    intros mb mp start stop d0 up n p Ls Ld Ln. assert (W : two63 = 2 * 2 ^ 62) by reflexivity. assert (W3 : 2 ^ 63 = 2 * 2 ^ 62) by reflexivity.
    assert (W4 : (2 ^ 63)%Z = Z.of_N (2 * 2 ^ 62)) by reflexivity. assert (Rm : room items < 2 ^ 62) by (unfold room; assert (2 ^ 61 + 100 < 2 ^ 62) by reflexivity; lia).
    rewrite WPanicProofs.as_i64_lt by lia. unfold addi. rewrite WPanicProofs.in64 by lia. unfold bind at 1, lift at 1. unfold bind at 1, seek_end at 1.
    unfold bind at 1, lift at 1, sub64. destruct (stop <=? blen f) eqn:X; [|lia]. destruct (two63 <=? blen f - stop) eqn:Y; [rewrite W in Y; lia|].
    unfold bind at 1, seek_start. destruct (stop <? two63) eqn:Z; [|rewrite W in Z; lia]. unfold bind, read_to_end, ret. eexists. rewrite N.min_l by lia. reflexivity.
  Qed.
  Definition sure {A} (x : R A) (a : A) : Prop := forall p, exists p', x f p = Ok (a, p').
  Lemma sure_bind : forall {A B} (x : R A) (k : A -> R B) a b, sure x a -> sure (k a) b -> sure (bind x k) b.
  Proof. intros A B x k a b X K p. destruct (X p) as (p1 & E). destruct (K p1) as (p2 & E2). exists p2. unfold bind. now rewrite E. Qed.
  Lemma sure_lift : forall {A} (r : res A) a, r = Ok a -> sure (lift r) a.
  Proof. intros A r a -> p. exists p. reflexivity. Qed.
  Lemma sure_ret : forall {A} (a : A), sure (ret a) a.
  Proof. intros A a p. exists p. reflexivity. Qed.
  Lemma plan_is : forall mo mp, WPanicProofs.moov_good f (moov_of mo) -> bad \/
    sure (WriteTerm.plan_rest m items (moov_of mo, mp)) (plan_of f items mo mp) /\ Forall (fun n => head_len (b_size (bound n)) <= n_size n) (around mo) /\ replaced_to mo <= blen f /\
    Forall (WPanicProofs.growable items) (map bound (around mo)).
  Proof.
    intros mo mp G. pose proof G as (Gm & Gu & _). assert (W3 : 2 ^ 63 = 2 * 2 ^ 62) by reflexivity. assert (W4 : (2 ^ 63)%Z = Z.of_N (2 * 2 ^ 62)) by reflexivity.
    assert (Am : around_list Top (id4 "moov")) by (left; auto). assert (Au : around_list InMoov (id4 "udta")) by (right; left; auto). assert (Ae : around_list InUdta (id4 "meta")) by (right; right; auto).
    pose proof (boxes_bound items mo) as Lb. destruct (WPanicProofs.can_grow f items _ _ _ Gm Am) as [F|Gr]; [now left|].
    unfold WriteTerm.plan_rest, plan_of, around, new_boxes, replaced_from, replaced_to, metadata in *. cbv zeta. change (fst (moov_of mo, mp)) with (moov_of mo). change (snd (moov_of mo, mp)) with mp.
    change (vb_udta (moov_of mo)) with (option_map udta_of (user_data mo)) in *. change (vb_bounds (moov_of mo)) with (bound mo) in *.
    destruct (user_data mo) as [u|]; cbn [option_map within_it WPanicProofs.oall] in *.
    - destruct Gu as [Gu Ge]. change (ub_bounds (udta_of u)) with (bound u) in *. change (ub_meta (udta_of u)) with (option_map meta_of (final (id4 "meta") (n_inside u))) in *.
      destruct (WPanicProofs.can_grow f items _ _ _ Gu Au) as [F|Gru]; [now left|]. destruct (final (id4 "meta") (n_inside u)) as [e|]; cbn [option_map WPanicProofs.oall] in *.
      + destruct Ge as [Ge Gi]. change (eb_bounds (meta_of e)) with (bound e) in *. change (eb_ilst (meta_of e)) with (option_map bound (final (id4 "ilst") (n_inside e))) in *.
        change (eb_hdlr (meta_of e)) with (option_map bound (final (id4 "hdlr") (n_inside e))) in *.
        destruct (WPanicProofs.can_grow f items _ _ _ Ge Ae) as [F|Gre]; [now left|].
        assert (Eh : match option_map bound (final (id4 "hdlr") (n_inside e)) with Some _ => None | None => Some meta_hdlr end = match final (id4 "hdlr") (n_inside e) with Some _ => None | None => Some meta_hdlr end) by (now destruct (final (id4 "hdlr") (n_inside e))).
        rewrite Eh. clear Eh. set (nh := match final (id4 "hdlr") (n_inside e) with Some _ => None | None => Some meta_hdlr end) in *. clearbody nh.
        destruct (final (id4 "ilst") (n_inside e)) as [i|]; cbn [option_map WPanicProofs.oall] in *.
        * destruct (bend_ok _ _ _ Gi ltac:(right; auto)) as [F|[C1 C2]]; [now left|]. right. pose proof Gi as [_ [S1 S2]]. unfold bound in C1, C2, S1, S2. cbn [b_pos b_size sz_len] in C1, C2, S1, S2. split.
          { eapply sure_bind. { unfold bound at 1 2 3. cbn [b_pos b_size sz_len]. eapply sure_bind; [apply sure_lift; exact C1|]. cbv beta.
              eapply sure_bind; [apply (sure_lift _ (0 - Z.of_N (n_size i))%Z); rewrite WPanicProofs.as_i64_lt by lia; unfold subi; rewrite WPanicProofs.in64 by lia; reflexivity|]. apply sure_ret. }
            cbv beta iota. eapply sure_bind; [apply sure_ret|]. cbv beta iota. eapply sure_bind; [apply sure_ret|]. cbv beta iota. cbn [fst snd].
            intros p. destruct (plan_end (moov_of mo) mp (n_at i) (n_at i + n_size i) (0 - Z.of_N (n_size i)) [bound mo; bound u; bound e] (NIlst nh items) p ltac:(lia) ltac:(lia) Lb) as (p' & E).
            exists p'. etransitivity; [exact E|]. cbn [map app]. unfold n_end. do 2 f_equal. f_equal. lia. }
          split; [|split; [unfold n_end; lia|]].
          { cbn [app]. apply Forall_cons; [apply Gm|]. apply Forall_cons; [apply Gu|]. apply Forall_cons; [apply Ge|apply Forall_nil]. }
          { cbn [app map]. apply Forall_cons; [exact Gr|]. apply Forall_cons; [exact Gru|]. apply Forall_cons; [exact Gre|apply Forall_nil]. }
        * destruct (bend_ok _ _ _ Ge ltac:(left; exact Ae)) as [F|[C1 C2]]; [now left|]. right. unfold bound in C1, C2. cbn [b_pos b_size sz_len] in C1, C2. split.
          { eapply sure_bind; [apply sure_ret|]. cbv beta iota. eapply sure_bind. { eapply sure_bind; [apply sure_lift; exact C1|]. apply sure_ret. }
            cbv beta iota. eapply sure_bind; [apply sure_ret|]. cbv beta iota. cbn [fst snd].
            intros p. destruct (plan_end (moov_of mo) mp (n_at e + n_size e) (n_at e + n_size e) 0 [bound mo; bound u; bound e] (NIlst nh items) p ltac:(lia) ltac:(lia) Lb) as (p' & E).
            exists p'. etransitivity; [exact E|]. cbn [map app]. unfold n_end. do 2 f_equal. f_equal. lia. }
          split; [|split; [unfold n_end; lia|]].
          { cbn [app]. apply Forall_cons; [apply Gm|]. apply Forall_cons; [apply Gu|]. apply Forall_cons; [apply Ge|apply Forall_nil]. }
          { cbn [app map]. apply Forall_cons; [exact Gr|]. apply Forall_cons; [exact Gru|]. apply Forall_cons; [exact Gre|apply Forall_nil]. }
      + destruct (bend_ok _ _ _ Gu ltac:(left; exact Au)) as [F|[C1 C2]]; [now left|]. right. unfold bound in C1, C2. cbn [b_pos b_size sz_len] in C1, C2. split.
        { eapply sure_bind; [apply sure_ret|]. cbv beta iota. eapply sure_bind; [apply sure_ret|]. cbv beta iota. eapply sure_bind. { eapply sure_bind; [apply sure_lift; exact C1|]. apply sure_ret. }
          cbv beta iota. cbn [fst snd].
          intros p. destruct (plan_end (moov_of mo) mp (n_at u + n_size u) (n_at u + n_size u) 0 [bound mo; bound u] (NMeta (NewMeta (Some meta_hdlr) items)) p ltac:(lia) ltac:(lia) Lb) as (p' & E).
          exists p'. etransitivity; [exact E|]. cbn [map app]. unfold n_end. do 2 f_equal. f_equal. lia. }
        split; [|split; [unfold n_end; lia|]].
        { cbn [app]. apply Forall_cons; [apply Gm|]. apply Forall_cons; [apply Gu|apply Forall_nil]. }
        { cbn [app map]. apply Forall_cons; [exact Gr|]. apply Forall_cons; [exact Gru|apply Forall_nil]. }
    - destruct (bend_ok _ _ _ Gm ltac:(left; exact Am)) as [F|[C1 C2]]; [now left|]. right. unfold bound in C1, C2. cbn [b_pos b_size sz_len] in C1, C2. split.
      { eapply sure_bind; [apply sure_ret|]. cbv beta iota. eapply sure_bind; [apply sure_ret|]. cbv beta iota. eapply sure_bind. { eapply sure_bind; [apply sure_lift; exact C1|]. apply sure_ret. }
        cbv beta iota. cbn [fst snd].
        intros p. destruct (plan_end (moov_of mo) mp (n_at mo + n_size mo) (n_at mo + n_size mo) 0 [bound mo] (NUdta (NewMeta (Some meta_hdlr) items)) p ltac:(lia) ltac:(lia) Lb) as (p' & E).
        exists p'. etransitivity; [exact E|]. cbn [map app]. unfold n_end. do 2 f_equal. f_equal. lia. }
      split; [|split; [unfold n_end; lia|]].
      { cbn [app]. apply Forall_cons; [apply Gm|apply Forall_nil]. }
      { cbn [app map]. apply Forall_cons; [exact Gr|apply Forall_nil]. }
  Qed.
End Run.
