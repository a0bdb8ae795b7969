(** Everything a successful read returns is stored in the file. *)

From Coq Require Import List NArith ZArith Bool Lia Arith String.
From Coq Require Import ZifyBool ZifyNat ZifyN.
From Verif Require Import Base BaseLemmas Utf UtfLemmas Types Stream Parse Find Write TagSpec FileSpec ParseLemmas ReadProofs ReadMore ReadSpec ReadFacts ReadBad ReadErr ReadTerm WriteState FailSpec FailProofs WhereSpec.
Import ListNotations.
Local Open Scope list_scope.

(** * Reading values *)

Lemma vec_inv : forall n f p b p', read_u8_vec n f p = Ok (b, p') -> p' = p + n /\ b = slice f p n /\ blen b = n /\ n < two63.
Proof.
  intros n f p b p' H. unfold read_u8_vec in H. destruct (two63 <=? n) eqn:E; [discriminate H|]. apply read_exact_inv in H.
  destruct H as (-> & -> & H). split; [reflexivity|]. split; [reflexivity|]. split; [|lia].
  destruct H as [-> |H]; [reflexivity|]. apply blen_slice, H.
Qed.
Lemma utf8_inv : forall n f p s p', read_utf8 n f p = Ok (s, p') ->
  wf_ustr s = true /\ p' = p + n /\ n = blen (enc8 s) /\ slice f p n = enc8 s /\ n < two63.
Proof.
  intros n f p s p' H. unfold read_utf8 in H. inv_bind H. apply vec_inv in E. destruct E as (-> & -> & B & L).
  destruct (dec8 (slice f p n)) as [x|] eqn:D; [|discriminate H]. injection H as <- <-. apply dec8_correct in D. destruct D as [W E]. rewrite E. auto.
Qed.
Lemma units_odd : forall n l, (List.length l <= n)%nat -> exists odd, l = units_bytes (bytes_units l) ++ odd /\ (odd = [] \/ blen odd = 1).
Proof.
  induction n as [|n IH]; intros l L.
  - destruct l; [|cbn in L; lia]. exists []. auto.
  - destruct l as [|a [|b r]]; [exists []; auto|exists [a]; auto|]. cbn in L.
    destruct (IH r ltac:(lia)) as (odd & E & O). exists odd. split; [|exact O].
    cbn [bytes_units]. rewrite units_bytes_cons, <- app_assoc, <- E. pose proof (units_bytes_bytes_units 2 [a; b] ltac:(cbn; lia) eq_refl) as X.
    cbn [bytes_units] in X. rewrite units_bytes_cons in X. unfold units_bytes in X. cbn [flat_map] in X. rewrite app_nil_r in X. rewrite X. reflexivity.
Qed.
Lemma data_inv : forall t n f p d p', data_parse t n f p = Ok (d, p') ->
  good_data d /\ t = type_code d /\ p' = p + n /\ n < two63 /\
  exists odd, n = blen (payload d ++ odd) /\ slice f p n = payload d ++ odd /\ (odd = [] \/ blen odd = 1 /\ type_code d = 2).
Proof.
  intros t n f p d p' H.
  assert (V : forall (K : bytes -> data) c, (forall v, good_data (K v) /\ type_code (K v) = c /\ payload (K v) = v) ->
    (v <- read_u8_vec n ;; ret (K v)) f p = Ok (d, p') -> t = c ->
    good_data d /\ t = type_code d /\ p' = p + n /\ n < two63 /\
    exists odd, n = blen (payload d ++ odd) /\ slice f p n = payload d ++ odd /\ (odd = [] \/ blen odd = 1 /\ type_code d = 2)).
  { intros K c HK X Et. inv_bind X. injection X as <- <-. apply vec_inv in E. destruct E as (-> & -> & B & L).
    destruct (HK (slice f p n)) as (G & T & P). split; [exact G|]. split; [congruence|]. split; [reflexivity|]. split; [exact L|].
    exists []. rewrite P, app_nil_r. auto. }
  unfold data_parse in H.
  assert (Q : forall k, t = k \/ t <> k) by (intros; lia).
  destruct (Q 0) as [-> |N0]; [exact (V DReserved 0 ltac:(repeat split) H eq_refl)|].
  destruct (Q 13) as [-> |N13]; [exact (V DJpeg 13 ltac:(repeat split) H eq_refl)|].
  destruct (Q 14) as [-> |N14]; [exact (V DPng 14 ltac:(repeat split) H eq_refl)|].
  destruct (Q 21) as [-> |N21]; [exact (V DBeSigned 21 ltac:(repeat split) H eq_refl)|].
  destruct (Q 27) as [-> |N27]; [exact (V DBmp 27 ltac:(repeat split) H eq_refl)|].
  destruct (Q 1) as [-> |N1].
  { inv_bind H. injection H as <- <-. apply utf8_inv in E. destruct E as (W & -> & B & S & L). split; [exact W|]. split; [reflexivity|]. split; [reflexivity|].
    split; [exact L|]. exists []. cbn [payload]. rewrite app_nil_r. auto. }
  destruct (Q 2) as [-> |N2].
  { inv_bind H. injection H as <- <-. unfold read_utf16 in E. inv_bind E. apply vec_inv in E0. destruct E0 as (-> & -> & B & L).
    destruct (dec16 (bytes_units (slice f p n))) as [x|] eqn:D; [|discriminate E]. injection E as <- <-.
    pose proof (bytes_units_wf (List.length (slice f p n)) _ (le_n _)) as W. apply dec16_correct in D; [|exact W]. destruct D as [Wx Ex].
    destruct (units_odd _ (slice f p n) (le_n _)) as (odd & E & O).
    split; [exact Wx|]. split; [reflexivity|]. split; [reflexivity|]. split; [exact L|].
    exists odd. cbn [payload]. rewrite utf16_bytes, Ex, <- E. split; [symmetry; exact B|]. split; [reflexivity|]. destruct O; auto. }
  exfalso. destruct t as [|q]; [lia|]. do 5 (destruct q as [q|q|]; try discriminate H; try lia).
Qed.

(** * Items *)

Lemma read_u8_inv : forall f p v p', read_u8 f p = Ok (v, p') -> p' = p + 1 /\ v = field f p 1 /\ p + 1 <= blen f.
Proof.
  intros f p v p' H. unfold read_u8 in H. inv_bind H. injection H as <- <-. apply read_exact_inv in E. destruct E as (-> & -> & [E|E]); [discriminate|auto].
Qed.
Lemma slice_split : forall f p a b, p + a + b <= blen f -> slice f p (a + b) = slice f p a ++ slice f (p + a) b.
Proof.
  intros f p a b L. unfold slice. rewrite !N2Nat.inj_add. rewrite <- (firstn_skipn (N.to_nat a) (firstn (N.to_nat a + N.to_nat b) _)).
  rewrite firstn_firstn, Nat.min_l by lia. f_equal. rewrite skipn_firstn_comm, skipn_skipn. f_equal; [lia|]. f_equal. lia.
Qed.
Lemma full_inv : forall f p vf p', parse_full_head f p = Ok (vf, p') ->
  p' = p + 4 /\ fst vf = field f p 1 /\ snd vf = slice f (p + 1) 3 /\ p + 4 <= blen f.
Proof.
  intros f p vf p' H. unfold parse_full_head in H. inv_bind H. apply read_u8_inv in E. destruct E as (-> & -> & L).
  inv_bind H. apply read_exact_inv in E. destruct E as (-> & -> & [E|L']); [discriminate|]. injection H as <- <-. cbn [fst snd].
  split; [lia|]. split; [reflexivity|]. split; [reflexivity|lia].
Qed.
Lemma unbe_one : forall b, unbe [b] = b2n b.
Proof. intros. unfold unbe. cbn. lia. Qed.
Lemma full_slice : forall f p, p + 4 <= blen f -> field f p 1 = 0 -> slice f p 4 = n2b 0 :: be 3 (unbe (slice f (p + 1) 3)).
Proof.
  intros f p L F. change 4 with (1 + 3). rewrite slice_split by lia.
  pose proof (blen_slice f (p + 1) 3 ltac:(lia)) as B3. pose proof (blen_slice f p 1 ltac:(lia)) as B1.
  unfold field in F. destruct (slice f p 1) as [|b [|? ?]]; unfold blen in B1; cbn [List.length] in B1; try lia.
  cbn [app]. f_equal.
  - rewrite unbe_one in F. rewrite <- F. symmetry. apply n2b_b2n.
  - symmetry. replace 3%nat with (List.length (slice f (p + 1) 3)) by (unfold blen in B3; lia). apply be_unbe.
Qed.
Lemma seek_inv : forall d f p u p', seek_cur d f p = Ok (u, p') -> Z.of_N p' = (Z.of_N p + d)%Z.
Proof.
  intros d f p u p' H. unfold seek_cur in H. destruct ((0 <=? Z.of_N p + d) && (Z.of_N p + d <? Z.of_N two63))%Z eqn:E; [|discriminate].
  injection H as <- <-. apply andb_true_iff in E. lia.
Qed.
Lemma sub_inv : forall m a b c, a < two64 -> b <= two63 -> sub64 m a b = Ok c -> c = a - b /\ b <= a \/ a < b /\ c = a + two64 - b.
Proof.
  intros m a b c La Lb H. unfold sub64 in H. destruct (N.leb_spec b a); [injection H as <-; auto|]. destruct m; [discriminate|].
  injection H as <-. right. split; [exact H0|]. rewrite N.mod_small; [reflexivity|unfold two64, two63 in *; lia].
Qed.
Lemma head_size_lt : forall f p id head size, box_at f p id head size -> size < two64 /\ (head = 8 \/ head = 16).
Proof.
  intros f p id head size (L & _ & [(E & -> & ->)|(_ & _ & -> & ->)]).
  - pose proof (field_lt f (p + 8) 8 ltac:(lia)). unfold two64. change (256 ^ 8) with 18446744073709551616 in *. auto.
  - pose proof (field_lt f p 4 ltac:(lia)). unfold two64. change (256 ^ 4) with 4294967296 in *. split; [lia|auto].
Qed.
(** A length that was small enough to be read is what the size leaves behind the head. *)
Lemma content_inv : forall m s k c n, sz_len s < two64 -> k <= 8 -> content_len m s = Ok c -> sub64 m c k = Ok n -> n < two63 -> sz_len s = head_len s + k + n.
Proof.
  intros m s k c n L K C S Ln. unfold content_len, head_len in *.
  assert (exists h, (h = 8 \/ h = 16) /\ sub64 m (sz_len s) h = Ok c /\ (if sz_ext s then 16 else 8) = h) as (h & Hh & C' & ->).
  { destruct (sz_ext s); eauto. }
  apply sub_inv in C'; [|exact L|unfold two63; lia]. apply sub_inv in S; [|unfold two64 in *; lia|unfold two63; lia].
  unfold two64, two63 in *. lia.
Qed.

(** The local variables of the loop over the parts of an item. *)
Definition acc_of (l : list part) : item_acc := ItemAcc (datas l) (last_opt (means l)) (last_opt (names l)).
Lemma datas_app : forall a b, datas (a ++ b) = datas a ++ datas b. Proof. intros. apply flat_map_app. Qed.
Lemma last_snoc : forall {A} (l : list A) x, last_opt (l ++ [x]) = Some x.
Proof. intros A l x. unfold last_opt. rewrite fold_left_app. reflexivity. Qed.
Lemma acc_snoc : forall l x, acc_of (l ++ [x]) =
  match x with
  | PData d => ItemAcc (ia_data (acc_of l) ++ [d]) (ia_mean (acc_of l)) (ia_name (acc_of l))
  | PMean s => ItemAcc (ia_data (acc_of l)) (Some s) (ia_name (acc_of l))
  | PName s => ItemAcc (ia_data (acc_of l)) (ia_mean (acc_of l)) (Some s)
  end.
Proof.
  intros l x. unfold acc_of. cbn [ia_data ia_mean ia_name]. unfold datas, means, names. rewrite !flat_map_app.
  destruct x; cbn [flat_map]; rewrite ?app_nil_r; rewrite ?last_snoc; reflexivity.
Qed.

(** One iteration: a part is added and the reader stands behind its box, or the box is skipped. *)
Lemma item_step : forall m f p0 h p1 l a' p', parse_head f p0 = Ok (h, p1) -> item_body m h (acc_of l) f p1 = Ok (a', p') ->
  (exists x, part_at f p0 (sz_len (hd_size h)) x /\ a' = acc_of (l ++ [x]) /\ p' = p0 + sz_len (hd_size h)) \/
  (a' = acc_of l /\ exists u, skip_atom m h f p1 = Ok (u, p')).
Proof.
  intros m f p0 h p1 l a' p' P H. apply parse_head_inv in P. destruct P as [-> B].
  destruct (head_size_lt _ _ _ _ _ B) as [L64 Hh]. unfold item_body in H. cbv zeta in H.
  assert (T : forall id (K : ustring -> item_acc), hd_fourcc h = id ->
    (vf <- parse_full_head ;; (if negb (fst vf =? 0) then fail (EUnknownVersion (fst vf)) else
     c <- lift (content_len m (hd_size h)) ;; n <- lift (sub64 m c 4) ;; s <- read_utf8 n ;; ret (K s))) f (p0 + head_len (hd_size h)) = Ok (a', p') ->
    exists s, text_at f p0 (sz_len (hd_size h)) id s /\ a' = K s /\ p' = p0 + sz_len (hd_size h)).
  { clear H. intros id K Ei H. inv_bind H. apply full_inv in E. destruct E as (-> & V & _ & L4).
    destruct (fst v =? 0) eqn:V0; [|discriminate H]. cbn [negb] in H. inv_bind H. apply lift_inv in E. destruct E as [C ->].
    inv_bind H. apply lift_inv in E. destruct E as [S ->]. inv_bind H. injection H as <- <-. apply utf8_inv in E. destruct E as (W & -> & N & E & Ln).
    pose proof (content_inv m (hd_size h) 4 _ _ L64 ltac:(lia) C S Ln) as Q.
    exists v2. split; [|split; [reflexivity|lia]]. split; [exact W|]. exists (head_len (hd_size h)). rewrite <- Ei. split; [exact B|].
    split; [rewrite <- V; apply N.eqb_eq, V0|]. split; [lia|]. rewrite N in E. exact E. }
  destruct (fourcc_eqb (hd_fourcc h) DATA) eqn:ED.
  - apply fourcc_eqb_eq in ED. inv_bind H. apply full_inv in E. destruct E as (-> & V & F & L4).
    destruct (fst v =? 0) eqn:V0; [|discriminate H]. cbn [negb] in H. inv_bind H. apply seek_inv in E.
    inv_bind H. apply lift_inv in E0. destruct E0 as [C ->]. inv_bind H. apply lift_inv in E0. destruct E0 as [S ->].
    inv_bind H. injection H as <- <-. assert (Ep : p = p0 + head_len (hd_size h) + 8) by lia. subst p. clear E.
    apply data_inv in E0. destruct E0 as (G & Tc & -> & Ln & odd & N & E & O).
    pose proof (content_inv m (hd_size h) 8 _ _ L64 ltac:(lia) C S Ln) as Q.
    left. exists (PData v3). split; [|split; [rewrite acc_snoc; reflexivity|lia]]. cbn [part_at]. split; [exact G|].
    exists (head_len (hd_size h)), odd. split; [rewrite ED in B; exact B|]. split; [|split; [lia|split; [|exact O]]].
    + rewrite full_slice; [|exact L4|rewrite <- V; apply N.eqb_eq, V0]. rewrite <- F, Tc. reflexivity.
    + rewrite <- N. exact E.
  - destruct (fourcc_eqb (hd_fourcc h) MEAN) eqn:EM.
    + apply fourcc_eqb_eq in EM. destruct (T _ (fun s => ItemAcc (ia_data (acc_of l)) (Some s) (ia_name (acc_of l))) EM H) as (s & A & -> & ->).
      left. exists (PMean s). split; [exact A|]. split; [rewrite acc_snoc; reflexivity|reflexivity].
    + destruct (fourcc_eqb (hd_fourcc h) NAME) eqn:EN.
      * apply fourcc_eqb_eq in EN. destruct (T _ (fun s => ItemAcc (ia_data (acc_of l)) (ia_mean (acc_of l)) (Some s)) EN H) as (s & A & -> & ->).
        left. exists (PName s). split; [exact A|]. split; [rewrite acc_snoc; reflexivity|reflexivity].
      * right. inv_bind H. injection H as <- <-. eauto.
Qed.
Lemma item_ident_name : forall id a b, item_ident id a b = item_name id a b.
Proof.
  intros id [a|] [b|]; try reflexivity. unfold item_ident, item_name. change (id4 "----") with FREEFORM.
  destruct (fourcc_dec id FREEFORM) as [E|N], (fourcc_eqb id FREEFORM) eqn:Q; try reflexivity.
  - apply fourcc_eqb_eq in E. congruence.
  - apply fourcc_eqb_eq in Q. contradiction.
Qed.

(** What holds of the local variables and the position of a loop. *)
Lemma loop_at : forall {S} (I : S -> N -> Prop) m limit body f,
  (forall h s p0 p1 s' p', I s p0 -> parse_head f p0 = Ok (h, p1) -> body h s f p1 = Ok (s', p') -> I s' p') ->
  forall fuel parsed s p s' p', I s p -> atom_loop fuel m limit body parsed s f p = Ok (s', p') -> I s' p'.
Proof.
  intros S I m limit body f B. induction fuel as [|fuel IH]; intros parsed s p s' p' Is H; cbn [atom_loop] in H; [discriminate|].
  inv_bind H. apply lift_inv in E. destruct E as [_ ->]. destruct (parsed <? v).
  - inv_bind H. inv_bind H. inv_bind H. apply lift_inv in E1. destruct E1 as [_ ->]. eapply IH; [|exact H]. eapply B; eassumption.
  - injection H as <- <-. exact Is.
Qed.

(** ** Anywhere *)
Lemma item_somewhere : forall fuel m f p0 h p1 c a p', parse_head f p0 = Ok (h, p1) -> fourcc_eqb (hd_fourcc h) FREE = false ->
  atom_data_parse fuel m (hd_fourcc h) c f p1 = Ok (a, p') -> somewhere f a.
Proof.
  intros fuel m f p0 h p1 c a p' P NF H. unfold atom_data_parse in H. inv_bind H.
  assert (X : exists l, v = acc_of l /\ Forall (fun x => exists q n, part_at f q n x) l).
  { apply (loop_at (fun a _ => exists l, a = acc_of l /\ Forall (fun x => exists q n, part_at f q n x) l)) with (3 := E); [|exists []; split; [reflexivity|constructor]].
    intros h' s q0 q1 s' q' (l & -> & F) P' B. destruct (item_step m f q0 h' q1 l s' q' P' B) as [(x & A & -> & _)|(-> & _)]; [|eauto].
    exists (l ++ [x]). split; [reflexivity|]. apply Forall_app. split; [exact F|]. repeat constructor. eauto. }
  destruct X as (l & -> & F). apply parse_head_inv in P. destruct P as [_ B]. cbn [acc_of ia_data ia_mean ia_name] in H.
  destruct (datas l) as [|d r] eqn:D; [discriminate H|]. injection H as <- _.
  exists p0, (head_len (hd_size h)), (sz_len (hd_size h)), (hd_fourcc h), l. split; [exact B|].
  split; [intros Q; rewrite Q in NF; discriminate NF|]. split; [congruence|]. split; [|exact F].
  unfold item_of. rewrite item_ident_name, D. reflexivity.
Qed.
Lemma ilst_somewhere : forall fuel m f s p l p', ilst_parse fuel m s f p = Ok (l, p') ->
  exists g, l = fold_left ilst_add g [] /\ Forall (somewhere f) g.
Proof.
  intros fuel m f s p l p' H. unfold ilst_parse in H.
  apply (loop_at (fun l _ => exists g, l = fold_left ilst_add g [] /\ Forall (somewhere f) g)) with (3 := H); [|exists []; split; [reflexivity|constructor]].
  intros h s0 p0 p1 s' q' (g & -> & F) P B. unfold ilst_body in B. destruct (fourcc_eqb (hd_fourcc h) FREE) eqn:NF.
  - inv_bind B. injection B as <- <-. eauto.
  - inv_bind B. inv_bind B. injection B as <- <-. apply lift_inv in E. destruct E as [_ ->].
    exists (g ++ [v0]). rewrite fold_left_app. split; [reflexivity|]. apply Forall_app. split; [exact F|]. repeat constructor. eapply item_somewhere; eassumption.
Qed.

(** ** In order *)
Lemma parts_end : forall f a l b c, parts_in f a l b -> b <= c -> parts_in f a l c.
Proof. intros f a l b c H L. induction H; [constructor; lia|econstructor; eauto]. Qed.
Lemma parts_snoc : forall f a l b q size x c, parts_in f a l b -> b <= q -> part_at f q size x -> q + size <= c -> parts_in f a (l ++ [x]) c.
Proof.
  intros f a l b q size x c H. induction H; intros L A E.
  - cbn [app]. econstructor; [|exact A|constructor; exact E]. lia.
  - cbn [app]. econstructor; eauto.
Qed.
Lemma items_end : forall f a l b c, items_in f a l b -> b <= c -> items_in f a l c.
Proof. intros f a l b c H L. induction H; [constructor; lia|econstructor; eauto]. Qed.
Lemma items_snoc : forall f a l b p id head size x c d, items_in f a l b -> b <= p -> box_at f p id head size -> id <> id4 "free" ->
  parts_in f (p + head) x c -> datas x <> [] -> c <= d -> items_in f a (l ++ [item_of id x]) d.
Proof.
  intros f a l b p id head size x c d H. induction H; intros L B NF Q D E.
  - cbn [app]. econstructor; [|exact B|exact NF|exact Q|exact D|constructor; exact E]. lia.
  - cbn [app]. econstructor; eauto.
Qed.

Section Order.
  Context (f : bytes) (m : mode) (Sm : small f) (T : tame f) (fuel : nat) (Fu : blen f < N.of_nat fuel).

  Lemma skip_after : forall p0 h p1 u p', parse_head f p0 = Ok (h, p1) -> skip_atom m h f p1 = Ok (u, p') -> p0 <= p'.
  Proof. intros p0 h p1 u p' P S. pose proof (bfw_skip f m Sm T fuel Fu p0 h p1 P) as X. unfold good_end in X. rewrite S in X. lia. Qed.
  Lemma item_order : forall p0 h p1 c a p', parse_head f p0 = Ok (h, p1) -> fourcc_eqb (hd_fourcc h) FREE = false ->
    atom_data_parse fuel m (hd_fourcc h) c f p1 = Ok (a, p') ->
    exists l, a = item_of (hd_fourcc h) l /\ datas l <> [] /\ parts_in f p1 l p'.
  Proof.
    intros p0 h p1 c a p' P NF H. unfold atom_data_parse in H. inv_bind H.
    assert (X : exists l, v = acc_of l /\ parts_in f p1 l p).
    { apply (loop_at (fun a q => exists l, a = acc_of l /\ parts_in f p1 l q)) with (3 := E); [|exists []; split; [reflexivity|constructor; lia]].
      intros h' s q0 q1 s' q' (l & -> & F) P' B. destruct (item_step m f q0 h' q1 l s' q' P' B) as [(x & A & -> & ->)|(-> & u & S)].
      - exists (l ++ [x]). split; [reflexivity|]. eapply parts_snoc; [exact F| |exact A|]; lia.
      - exists l. split; [reflexivity|]. eapply parts_end; [exact F|]. eapply skip_after; eassumption. }
    destruct X as (l & -> & F). cbn [acc_of ia_data ia_mean ia_name] in H.
    destruct (datas l) as [|d r] eqn:D; [discriminate H|]. injection H as <- <-.
    exists l. split; [|split; [congruence|exact F]]. unfold item_of. rewrite item_ident_name, D. reflexivity.
  Qed.
  Lemma ilst_order : forall s p l p', ilst_parse fuel m s f p = Ok (l, p') -> exists g, l = fold_left ilst_add g [] /\ items_in f p g p'.
  Proof.
    intros s p l p' H. unfold ilst_parse in H.
    apply (loop_at (fun l q => exists g, l = fold_left ilst_add g [] /\ items_in f p g q)) with (3 := H); [|exists []; split; [reflexivity|constructor; lia]].
    intros h s0 p0 p1 s' q' (g & -> & F) P B. unfold ilst_body in B. destruct (fourcc_eqb (hd_fourcc h) FREE) eqn:NF.
    - inv_bind B. injection B as <- <-. exists g. split; [reflexivity|]. eapply items_end; [exact F|]. eapply skip_after; eassumption.
    - inv_bind B. inv_bind B. injection B as <- <-. apply lift_inv in E. destruct E as [_ ->].
      destruct (item_order _ _ _ _ _ _ P NF E0) as (x & -> & D & Q). exists (g ++ [item_of (hd_fourcc h) x]). rewrite fold_left_app. split; [reflexivity|].
      apply parse_head_inv in P. destruct P as [-> Bx].
      eapply items_snoc; [exact F| |exact Bx| |exact Q|exact D|lia]; [lia|]. intros X. rewrite X in NF. discriminate NF.
  Qed.
End Order.

(** * Audio parameters *)

Definition rates_at (f : bytes) (a : mp4a) : Prop :=
  ma_max a = None /\ ma_avg a = None \/
  exists q n, desc_at f q 4 n /\ q + n + 13 <= blen f /\ ma_max a = Some (field f (q + n + 5) 4) /\ ma_avg a = Some (field f (q + n + 9) 4).
Definition config_at (f : bytes) (a : mp4a) : Prop :=
  ma_channels a = None /\ ma_rate a = None \/
  exists q n, desc_at f q 5 n /\ q + n + 2 <= blen f /\ ds_means (slice f (q + n) 2) (ma_channels a) (ma_rate a).
Definition params_at (f : bytes) (a : mp4a) : Prop := rates_at f a /\ config_at f a.

Lemma desc_len_inv : forall k hl len f p r p', desc_len_loop k hl len f p = Ok (r, p') -> p <= p' <= p + N.of_nat k /\ (k <> O -> p < p').
Proof.
  induction k as [|k IH]; intros hl len f p r p' H; cbn [desc_len_loop] in H.
  - injection H as _ <-. split; [lia|congruence].
  - inv_bind H. apply read_u8_inv in E. destruct E as (-> & -> & L). cbv zeta in H. destruct (_ <? 128).
    + injection H as _ <-. lia.
    + apply IH in H. lia.
Qed.
Lemma desc_head_inv : forall f p t hl dl p', parse_desc_head f p = Ok (t, hl, dl, p') ->
  exists n, p' = p + n /\ desc_at f p t n /\ p + n <= p + 5.
Proof.
  intros f p t hl dl p' H. unfold parse_desc_head in H. inv_bind H. apply read_u8_inv in E. destruct E as (-> & -> & L).
  inv_bind H. injection H as <- <- <- <-. apply desc_len_inv in E. exists (p0 - p). unfold desc_at. repeat split; lia.
Qed.
Lemma dloop_inv : forall {S} (I : S -> Prop) m len body f,
  (forall t n dl s q s' q', I s -> desc_at f q t n -> body t dl s f (q + n) = Ok (s', q') -> I s') ->
  forall fuel parsed s p s' p', I s -> desc_loop fuel m len body parsed s f p = Ok (s', p') -> I s'.
Proof.
  intros S I m len body f B. induction fuel as [|fuel IH]; intros parsed s p s' p' Is H; cbn [desc_loop] in H; [discriminate|].
  destruct (parsed <? len); [|injection H as <- <-; exact Is]. inv_bind H. destruct v as [[t hl] dl]. apply desc_head_inv in E. destruct E as (n & -> & D & _).
  inv_bind H. inv_bind H. inv_bind H. apply lift_inv in E0. destruct E0 as [_ ->]. apply lift_inv in E1. destruct E1 as [_ ->].
  eapply IH; [|exact H]. eapply B; eassumption.
Qed.
Lemma sample_rate_table : forall i, i < 16 -> option_map hz (sample_rate_of i) = nth_error mpeg4_frequencies (N.to_nat i).
Proof.
  intros i Hi. assert (exists n, i = N.of_nat n /\ (n < 16)%nat) as (n & -> & Hn) by (exists (N.to_nat i); lia).
  rewrite Nat2N.id. do 16 (destruct n as [|n]; [reflexivity|]). lia.
Qed.
Lemma channels_table : forall i, i < 16 -> option_map channel_count (channel_config_of i) = join (nth_error mpeg4_channels (N.to_nat i)).
Proof.
  intros i Hi. assert (exists n, i = N.of_nat n /\ (n < 16)%nat) as (n & -> & Hn) by (exists (N.to_nat i); lia).
  rewrite Nat2N.id. do 16 (destruct n as [|n]; [reflexivity|]). lia.
Qed.
Lemma ds_inv : forall m info n f q a q', (forall k, desc_at f q 5 k -> True) -> parse_ds_desc m info n f q = Ok (a, q') ->
  q + 2 <= blen f /\ ds_means (slice f q 2) (ma_channels a) (ma_rate a) /\ ma_max a = ma_max info /\ ma_avg a = ma_avg info.
Proof.
  intros m info n f q a q' _ H. unfold parse_ds_desc in H. inv_bind H. unfold read_u16 in E. inv_bind E. injection E as <- <-.
  apply read_exact_inv in E0. destruct E0 as (-> & -> & [E0|L]); [discriminate|]. cbv zeta in H.
  inv_bind H. inv_bind H. injection H as <- _. cbn [ma_channels ma_rate ma_max ma_avg]. split; [exact L|]. split; [|auto].
  pose proof (blen_slice f q 2 L) as B. destruct (slice f q 2) as [|x [|y [|? ?]]]; unfold blen in B; cbn [List.length] in B; try lia.
  split; [cbn; lia|]. destruct (bits_ds x y []) as [E1 E2]. rewrite E1, E2.
  split; [apply sample_rate_table|apply channels_table]; apply N.mod_lt; discriminate.
Qed.
Lemma dc_inv : forall fuel m info len f q n a q', params_at f info -> desc_at f q 4 n -> parse_dc_desc fuel m info len f (q + n) = Ok (a, q') -> params_at f a.
Proof.
  intros fuel m info len f q n a q' [R C] D H. unfold parse_dc_desc in H. inv_bind H. apply seek_inv in E. assert (p = q + n + 5) by lia. subst p. clear E.
  inv_bind H. apply read_u32_inv in E. destruct E as (-> & -> & L1). inv_bind H. apply read_u32_inv in E. destruct E as (-> & -> & L2).
  apply (dloop_inv (params_at f)) with (3 := H).
  - intros t k dl s r s' r' [Rs Cs] Dk B. unfold dc_body in B. destruct (t =? 5) eqn:T.
    + apply N.eqb_eq in T. subst t. apply ds_inv in B; [|auto]. destruct B as (L & M & E1 & E2). split.
      * unfold rates_at. rewrite E1, E2. exact Rs.
      * right. exists r, k. auto.
    + inv_bind B. injection B as <- <-. split; assumption.
  - split; [|exact C]. right. exists q, n. cbn [ma_max ma_avg]. split; [exact D|]. split; [lia|]. split; [reflexivity|]. do 2 f_equal. lia.
Qed.
Lemma es_inv : forall fuel m info len f q a q', params_at f info -> parse_es_desc fuel m info len f q = Ok (a, q') -> params_at f a.
Proof.
  intros fuel m info len f q a q' P H. unfold parse_es_desc in H. inv_bind H. apply (dloop_inv (params_at f)) with (3 := H); [|exact P].
  intros t k dl s r s' r' Ps D B. unfold es_body in B. destruct (t =? 4) eqn:T.
  - apply N.eqb_eq in T. subst t. eapply dc_inv; eassumption.
  - inv_bind B. injection B as <- <-. exact Ps.
Qed.
Definition found_audio (f : bytes) (a : mp4a) : Prop := audio_somewhere f (ma_channels a) (ma_rate a) (ma_max a) (ma_avg a).
Lemma mp4a_inv : forall fuel m f p0 h p1 a p', parse_head f p0 = Ok (h, p1) -> fourcc_eqb (hd_fourcc h) MP4_AUDIO = true ->
  mp4a_parse fuel m (hd_size h) f p1 = Ok (a, p') -> found_audio f a.
Proof.
  intros fuel m f p0 h p1 a p' P N H. apply fourcc_eqb_eq in N. apply parse_head_inv in P. destruct P as [-> B]. unfold mp4a_parse in H.
  inv_bind H. inv_bind E. injection E0 as <- <-. inv_bind E. apply lift_inv in E0. destruct E0 as [_ ->]. injection E as _ <-.
  inv_bind H. apply seek_inv in E. assert (p = p0 + head_len (hd_size h) + 28) by lia. subst p. clear E.
  inv_bind H. apply parse_head_inv in E. destruct E as [-> Be]. destruct (fourcc_eqb (hd_fourcc v2) ELEMENTARY_STREAM_DESCRIPTION) eqn:X; [|discriminate H].
  apply fourcc_eqb_eq in X. cbn [negb] in H. inv_bind H. inv_bind H. injection H as <- _. clear E0.
  unfold parse_esds in E. inv_bind E. apply full_inv in E0. destruct E0 as (-> & V & _ & _). destruct (fst v5 =? 0) eqn:V0; [|discriminate E]. cbn [negb] in E.
  inv_bind E. destruct v6 as [[t hl] dl]. apply desc_head_inv in E0. destruct E0 as (n & -> & [Dt Dn] & _). destruct (t =? 3) eqn:T; [|discriminate E]. cbn [negb] in E.
  inv_bind E. inv_bind E. inv_bind E. apply es_inv in E; [|split; left; auto]. destruct E as [R C].
  exists p0, (head_len (hd_size h)), (sz_len (hd_size h)), (head_len (hd_size v2)), (sz_len (hd_size v2)).
  split; [rewrite N in B; exact B|]. split; [rewrite X in Be; exact Be|]. split; [rewrite <- V; apply N.eqb_eq, V0|].
  split; [rewrite Dt; apply N.eqb_eq, T|]. split; [exact R|exact C].
Qed.

(** * The movie *)

Lemma child_found : forall {A} (P : A -> Prop) fuel m limit id (sub : size -> R A) parsed f p o p',
  (forall p0 h p1 x q', parse_head f p0 = Ok (h, p1) -> fourcc_eqb (hd_fourcc h) id = true -> sub (hd_size h) f p1 = Ok (x, q') -> P x) ->
  atom_loop fuel m limit (fun h r => if fourcc_eqb (hd_fourcc h) id then x <- sub (hd_size h) ;; ret (Some x) else skip_atom m h ;;; ret r) parsed None f p = Ok (o, p') ->
  oall P o.
Proof.
  intros A P fuel m limit id sub parsed f p o p' HP H. apply (loop_inv (oall P)) with (3 := H); [|apply oall_none].
  intros h s p0 p1 s' q' Is Hh B. cbv beta in B. destruct (fourcc_eqb (hd_fourcc h) id) eqn:E.
  - inv_bind B. injection B as <- <-. intros x Ex. injection Ex as <-. eapply HP; eassumption.
  - inv_bind B. injection B as <- <-. exact Is.
Qed.
Lemma stsd_found : forall fuel m f s p o p', stsd_parse fuel m s f p = Ok (o, p') -> oall (found_audio f) o.
Proof.
  intros fuel m f s p o p' H. unfold stsd_parse in H. inv_bind H. destruct (negb _); [discriminate H|]. inv_bind H.
  apply child_found with (2 := H). intros q1 h q2 x q3. apply mp4a_inv.
Qed.
Lemma trak_found_audio : forall fuel m f s p t p', trak_parse fuel m s f p = Ok (t, p') -> oall (found_audio f) (trak_mp4a t).
Proof.
  intros fuel m f s p t p' H. apply (child_found (fun d => oall (found_audio f) (ojoin (ojoin (ojoin d))))) in H.
  { intros a E. unfold trak_mp4a in E. destruct t as [d|]; [|discriminate E]. exact (H d eq_refl a E). }
  clear. intros p0 h p1 d q' _ _ H. apply (child_found (fun n => oall (found_audio f) (ojoin (ojoin n)))) in H.
  { intros a E. destruct d as [n|]; [|discriminate E]. exact (H n eq_refl a E). }
  clear. intros p0' h' p1' d q' _ _ H. apply (child_found (fun n => oall (found_audio f) (ojoin n))) in H.
  { intros a E. destruct d as [n|]; [|discriminate E]. exact (H n eq_refl a E). }
  clear. intros p0 h p1 d q' _ _ H. apply (child_found (fun n => oall (found_audio f) n)) in H.
  { intros a E. destruct d as [n|]; [|discriminate E]. exact (H n eq_refl a E). }
  clear. intros p0 h' p1 d q' _ _ H. eapply stsd_found, H.
Qed.
Lemma nanos_inv : forall m scale dur d, dur < two64 -> mvhd_nanos m scale dur = Ok d ->
  scale <> 0 /\ (m = Checked -> dur * 1000000000 < 2 ^ 64) /\ d = (dur * 1000000000) mod 2 ^ 64 / scale.
Proof.
  intros m scale dur d L H. unfold mvhd_nanos, mul64, div64, rbind in H.
  assert (W : two64 = 2 ^ 64) by reflexivity. rewrite W in *. clear W.
  destruct (N.ltb_spec (dur * 1000000000) (2 ^ 64)) as [Q|Q].
  - destruct (scale =? 0) eqn:S; [discriminate|]. injection H as <-. rewrite N.mod_small by exact Q. split; [lia|auto].
  - destruct m; [discriminate|]. destruct (scale =? 0) eqn:S; [discriminate|]. injection H as <-. split; [lia|]. split; [discriminate|reflexivity].
Qed.
Lemma mvhd_inv : forall m f p0 h p1 d p', parse_head f p0 = Ok (h, p1) -> fourcc_eqb (hd_fourcc h) MOVIE_HEADER = true ->
  mvhd_parse m (hd_size h) f p1 = Ok (d, p') -> duration_somewhere m f d.
Proof.
  intros m f p0 h p1 d p' P N H. apply fourcc_eqb_eq in N. apply parse_head_inv in P. destruct P as [-> B]. rewrite N in B. unfold mvhd_parse in H.
  inv_bind H. inv_bind E. injection E0 as <- <-. inv_bind E. apply lift_inv in E0. destruct E0 as [_ ->]. injection E as _ <-.
  inv_bind H. apply full_inv in E. destruct E as (-> & V & _ & _). inv_bind H. inv_bind H. injection H as <- _. clear E0.
  exists p0, (head_len (hd_size h)), (sz_len (hd_size h)). rewrite V in E. set (o := p0 + head_len (hd_size h)) in *. clearbody o.
  destruct (field f o 1) as [|[k|k|]] eqn:F; try discriminate E.
  - inv_bind E. apply seek_inv in E0. match type of E0 with Z.of_N ?q = _ => assert (q = o + 12) by lia; subst q end. clear E0.
    inv_bind E. apply read_u32_inv in E0. destruct E0 as (-> & -> & L1). inv_bind E. apply read_u32_inv in E0. destruct E0 as (-> & -> & L2).
    apply lift_inv in E. destruct E as [E _]. replace (o + 12 + 4) with (o + 16) in * by lia.
    apply nanos_inv in E; [|pose proof (field_lt f (o + 16) 4 ltac:(lia)); unfold two64; change (256 ^ 4) with 4294967296 in *; lia].
    eexists _, _. split; [exact B|]. split; [|exact E]. left. repeat split; lia.
  - inv_bind E. apply seek_inv in E0. match type of E0 with Z.of_N ?q = _ => assert (q = o + 20) by lia; subst q end. clear E0.
    inv_bind E. apply read_u32_inv in E0. destruct E0 as (-> & -> & L1). inv_bind E. apply read_u64_inv in E0. destruct E0 as (-> & -> & L2).
    apply lift_inv in E. destruct E as [E _]. replace (o + 20 + 4) with (o + 24) in * by lia.
    apply nanos_inv in E; [|pose proof (field_lt f (o + 24) 8 ltac:(lia)); unfold two64; change (256 ^ 8) with 18446744073709551616 in *; lia].
    eexists _, _. split; [exact B|]. split; [|exact E]. right. repeat split; lia.
Qed.

Section Movie.
  Context (f : bytes) (m : mode) (fuel : nat) (Q : list atom_data -> Prop)
          (HQ : forall s p l p', ilst_parse fuel m s f p = Ok (l, p') -> Q l).

  Lemma meta_list : forall s p o p', meta_parse fuel m s f p = Ok (o, p') -> oall Q o.
  Proof.
    intros s p o p' H. unfold meta_parse in H. inv_bind H. destruct (negb _); [discriminate H|].
    apply child_found with (2 := H). intros q1 h q2 x q3 _ _. apply HQ.
  Qed.
  Lemma udta_list : forall s p o p', udta_parse fuel m s f p = Ok (o, p') -> oall Q (ojoin o).
  Proof.
    intros s p o p' H. apply (child_found (oall Q)) in H.
    - intros a E. destruct o as [x|]; [|discriminate E]. exact (H x eq_refl a E).
    - intros p1 h p2 x q' _ _. apply meta_list.
  Qed.
  Definition movie_ok (r : moov) : Prop :=
    oall (duration_somewhere m f) (mv_mvhd r) /\ Forall (fun t => oall (found_audio f) (trak_mp4a t)) (mv_trak r) /\ oall Q (ojoin (ojoin (mv_udta r))).
  Lemma moov_list : forall s p r p', moov_parse fuel m s f p = Ok (r, p') -> movie_ok r.
  Proof.
    intros s p r p' H. unfold moov_parse in H. apply (loop_inv movie_ok) with (3 := H); [|split; [apply oall_none|split; [constructor|apply oall_none]]].
    intros h s0 p0 p1 s' q' (Id & It & Iu) P B. unfold moov_body in B. cbv zeta in B.
    destruct (fourcc_eqb (hd_fourcc h) MOVIE_HEADER) eqn:E1.
    - inv_bind B. injection B as <- <-. split; [|split; assumption]. intros d Ed. injection Ed as <-. eapply mvhd_inv; eassumption.
    - destruct (fourcc_eqb (hd_fourcc h) TRACK).
      + inv_bind B. injection B as <- <-. split; [exact Id|]. split; [|exact Iu]. apply Forall_app. split; [exact It|]. repeat constructor. eapply trak_found_audio, E.
      + destruct (fourcc_eqb (hd_fourcc h) USER_DATA).
        * inv_bind B. injection B as <- <-. split; [exact Id|]. split; [exact It|]. eapply udta_list, E.
        * inv_bind B. injection B as <- <-. repeat split; assumption.
  Qed.
  Lemma find_moov_list : forall n len parsed p r p', find_moov n m fuel len parsed f p = Ok (r, p') -> movie_ok r.
  Proof.
    induction n as [|n IH]; intros len parsed p r p' H; cbn [find_moov] in H; [discriminate|]. destruct (len <=? parsed); [discriminate H|].
    inv_bind H. destruct (fourcc_eqb _ MOVIE); [eapply moov_list, H|]. inv_bind H. inv_bind H. eapply IH, H.
  Qed.
  Lemma find_map_all : forall {A B} (g : A -> option B) (P : B -> Prop) l, Forall (fun x => oall P (g x)) l -> oall P (find_map g l).
  Proof.
    intros A B g P l F. induction F as [|x l Hx F IH]; [apply oall_none|]. cbn [find_map]. destruct (g x) as [y|] eqn:E; [|exact IH].
    intros z Ez. injection Ez as <-. exact (Hx y eq_refl).
  Qed.
  Lemma read_list : forall t, read_tag fuel m f = Ok t ->
    filetype_at_start f (tg_ftyp t) /\
    oall (duration_somewhere m f) (ai_duration (tg_info t)) /\
    (ai_channels (tg_info t) = None /\ ai_rate (tg_info t) = None /\ ai_max (tg_info t) = None /\ ai_avg (tg_info t) = None \/
     audio_somewhere f (ai_channels (tg_info t)) (ai_rate (tg_info t)) (ai_max (tg_info t)) (ai_avg (tg_info t))) /\
    (Q (tg_atoms t) \/ tg_atoms t = []).
  Proof.
    intros t H. unfold read_tag in H. destruct (read_tag_from fuel m f 0) as [[t' p']| | |] eqn:E; try discriminate H. injection H as ->.
    unfold read_tag_from in E. inv_bind E. inv_bind E. inv_bind E. injection E as <- _. cbn [tg_ftyp tg_info tg_atoms].
    apply find_moov_list in E2. destruct E2 as (Id & It & Iu). split; [|split; [|split]].
    - unfold ftyp_parse in E0. inv_bind E0. apply parse_head_inv in E. destruct E as [-> B].
      destruct (fourcc_eqb (hd_fourcc v2) FILETYPE) eqn:X; [|discriminate E0]. apply fourcc_eqb_eq in X. cbn [negb] in E0.
      inv_bind E0. apply lift_inv in E. destruct E as [C ->]. apply utf8_inv in E0. destruct E0 as (W & _ & Ev & S & L).
      destruct (head_size_lt _ _ _ _ _ B) as [L64 _]. split; [exact W|]. exists (head_len (hd_size v2)).
      pose proof (content_inv m (hd_size v2) 0 _ v3 L64 ltac:(lia) C) as Y. rewrite sub64_ok in Y by lia. rewrite N.sub_0_r in Y. specialize (Y eq_refl L).
      rewrite <- Ev. rewrite X in B. split; [|exact S]. replace (head_len (hd_size v2) + v3) with (sz_len (hd_size v2)) by lia. exact B.
    - unfold moov_info. destruct (find_map trak_mp4a (mv_trak v1)); exact Id.
    - pose proof (find_map_all trak_mp4a (found_audio f) _ It) as F. unfold moov_info. destruct (find_map trak_mp4a (mv_trak v1)) as [a|].
      + right. exact (F a eq_refl).
      + left. repeat split.
    - unfold moov_atoms. destruct (ojoin (ojoin (mv_udta v1))) as [l|]; [left; exact (Iu l eq_refl)|right; reflexivity].
  Qed.
End Movie.
