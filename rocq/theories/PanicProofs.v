(** Whenever reading panics there is a flaw in the file. *)

From Coq Require Import List NArith ZArith Bool Lia Arith String.
From Coq Require Import ZifyBool ZifyNat ZifyN.
From Verif Require Import Base BaseLemmas Utf Types Stream Parse Find TagSpec FileSpec ParseLemmas FailSpec FailProofs PanicSpec.
From Verif Require WhereProofs.
Import ListNotations.
Local Open Scope list_scope.

Section Panic.
  Context (m : mode) (f : bytes) (Lf : blen f < 2 ^ 62).

  (** No panic, and then [Q]; unless there is a flaw. *)
  Definition post {A} (x : R A) (p : N) (Q : A -> N -> Prop) : Prop :=
    flaw f \/ match x f p with Ok (a, p') => Q a p' | Panic _ => False | _ => True end.
  Definition any {A} (a : A) (p : N) : Prop := True.

  Lemma post_bind : forall {A B} (x : R A) (k : A -> R B) p Q S, post x p Q -> (forall a p', Q a p' -> post (k a) p' S) -> post (bind x k) p S.
  Proof.
    intros A B x k p Q S [H|H] K; [now left|]. unfold post, bind. destruct (x f p) as [[a p']|e|q|]; try (right; exact I); [|contradiction].
    apply K, H.
  Qed.
  Lemma post_weak : forall {A} (x : R A) p (Q Q' : A -> N -> Prop), post x p Q -> (forall a p', Q a p' -> Q' a p') -> post x p Q'.
  Proof. intros A x p Q Q' [H|H] K; [now left|]. right. destruct (x f p) as [[a p']|e|q|]; auto. Qed.
  Lemma post_ret : forall {A} (a : A) p (Q : A -> N -> Prop), Q a p -> post (ret a) p Q. Proof. intros. now right. Qed.
  Lemma post_fail : forall {A} e p (Q : A -> N -> Prop), post (fail e) p Q. Proof. intros. right. exact I. Qed.
  Lemma post_lift : forall {A} (r : res A) p a, flaw f \/ r = Ok a -> post (lift r) p (fun x q => x = a /\ q = p).
  Proof. intros A r p a [H| ->]; [now left|]. right. cbn. auto. Qed.
  Lemma post_read : forall n p, post (read_exact n) p (fun b q => b = slice f p n /\ q = p + n /\ (n = 0 \/ p + n <= blen f)).
  Proof.
    intros n p. right. destruct (read_exact n f p) as [[b q]|e|x|] eqn:E; try exact I.
    - apply read_exact_inv in E. destruct E as (-> & -> & E). auto.
    - unfold read_exact in E. destruct (n =? 0); [discriminate|]. destruct (_ <=? _); discriminate.
  Qed.
  Lemma post_seek : forall d p, post (seek_cur d) p (fun _ q => Z.of_N q = (Z.of_N p + d)%Z).
  Proof. intros d p. right. unfold seek_cur. destruct (_ && _)%Z eqn:E; [|exact I]. cbv beta. rewrite Z2N.id; lia. Qed.
  Lemma post_u8 : forall p, post read_u8 p (fun v q => v = field f p 1 /\ q = p + 1 /\ q <= blen f).
  Proof. intros p. unfold read_u8. eapply post_bind; [apply post_read|]. intros b q (-> & -> & H). apply post_ret. split; [reflexivity|]. split; [reflexivity|]. lia. Qed.
  Lemma post_u16 : forall p, post read_u16 p (fun v q => v = field f p 2 /\ q = p + 2 /\ q <= blen f).
  Proof. intros p. unfold read_u16. eapply post_bind; [apply post_read|]. intros b q (-> & -> & H). apply post_ret. split; [reflexivity|]. split; [reflexivity|]. lia. Qed.
  Lemma post_u32 : forall p, post read_u32 p (fun v q => v = field f p 4 /\ q = p + 4 /\ q <= blen f).
  Proof. intros p. unfold read_u32. eapply post_bind; [apply post_read|]. intros b q (-> & -> & H). apply post_ret. split; [reflexivity|]. split; [reflexivity|]. lia. Qed.
  Lemma post_u64 : forall p, post read_u64 p (fun v q => v = field f p 8 /\ q = p + 8 /\ q <= blen f).
  Proof. intros p. unfold read_u64. eapply post_bind; [apply post_read|]. intros b q (-> & -> & H). apply post_ret. split; [reflexivity|]. split; [reflexivity|]. lia. Qed.

  (** The head [h] has been read at [q]. *)
  Definition head_at (q : N) (h : head) : Prop := box_at f q (hd_fourcc h) (head_len (hd_size h)) (sz_len (hd_size h)).
  Lemma post_inv : forall {A} (x : R A) p (Q : A -> N -> Prop), post x p any -> (forall a q, x f p = Ok (a, q) -> Q a q) -> post x p Q.
  Proof. intros A x p Q [H|H] K; [now left|]. right. destruct (x f p) as [[a q]|e|y|] eqn:E; try exact I; [now apply K|contradiction]. Qed.
  Lemma post_any : forall {A} (x : R A) p Q, post x p Q -> post x p any.
  Proof. intros A x p Q H. eapply post_weak; [exact H|]. intros; exact I. Qed.
  Lemma post_head : forall p, post parse_head p (fun h q => head_at p h /\ q = p + head_len (hd_size h)).
  Proof.
    intros p. apply post_inv.
    - unfold parse_head. eapply post_bind; [apply post_u32|]. intros v q _. eapply post_bind; [apply post_read|]. intros b q' _. cbv zeta.
      destruct (v =? 1); [|destruct (v <? 8); [apply post_fail|apply post_ret; exact I]].
      eapply post_bind; [apply post_u64|]. intros w q2 _. apply post_ret; exact I.
    - intros h q E. apply parse_head_inv in E. destruct E as [-> B]. split; [exact B|reflexivity].
  Qed.
  Lemma post_full : forall p, post parse_full_head p (fun v q => fst v = field f p 1 /\ q = p + 4 /\ q <= blen f).
  Proof.
    intros p. unfold parse_full_head. eapply post_bind; [apply post_u8|]. intros v q (-> & -> & L).
    eapply post_bind; [apply post_read|]. intros b q (-> & -> & L2). apply post_ret. cbn [fst]. split; [reflexivity|]. lia.
  Qed.

  (** * Sizes *)

  (** A box the reader looks at. *)
  Definition place (w : within) (q : N) (h : head) : Prop := looks f w q /\ head_at q h.
  Lemma head_sound_at : forall q h, (exists w, looks f w q) \/ (exists p s a' d, entry_at f p s q a' d) -> head_at q h ->
    flaw f \/ content_len m (hd_size h) = Ok (sz_len (hd_size h) - head_len (hd_size h)) /\ head_len (hd_size h) <= sz_len (hd_size h) < 2 ^ 63.
  Proof.
    intros q h K H. unfold head_at in H. pose proof H as (L & _ & [(E & Hh & Hs)|(E & S & Hh & Hs)]).
    - rewrite Hh in *. destruct (N.lt_ge_cases (sz_len (hd_size h)) 16) as [C|C]; [left; eapply Odd_size; [exact K|exact H|now left]|].
      destruct (N.lt_ge_cases (sz_len (hd_size h)) (2 ^ 63)) as [D|D]; [|left; eapply Odd_size; [exact K|exact H|now right]].
      right. unfold content_len. unfold head_len in Hh. destruct (sz_ext (hd_size h)); [|discriminate].
      unfold sub64. destruct (16 <=? sz_len (hd_size h)) eqn:X; [|lia]. split; [reflexivity|lia].
    - right. unfold content_len. unfold head_len in *. destruct (sz_ext (hd_size h)); [discriminate|].
      unfold sub64. destruct (8 <=? sz_len (hd_size h)) eqn:X; [|lia]. split; [reflexivity|]. split; [lia|].
      rewrite Hs. unfold field. pose proof (unbe_lt (slice f q 4)) as B. assert (Z : blen (slice f q 4) <= 4) by (unfold slice, blen; rewrite firstn_length; lia).
      assert (256 ^ blen (slice f q 4) <= 256 ^ 4) by (apply N.pow_le_mono_r; [discriminate|exact Z]). assert (256 ^ 4 < 2 ^ 63) by reflexivity. lia.
  Qed.
  Lemma head_sound : forall w q h, place w q h ->
    flaw f \/ content_len m (hd_size h) = Ok (sz_len (hd_size h) - head_len (hd_size h)) /\ head_len (hd_size h) <= sz_len (hd_size h) < 2 ^ 63.
  Proof. intros w q h [K H]. apply (head_sound_at q); [left; now exists w|exact H]. Qed.
  Lemma post_content : forall w q h p, place w q h -> post (lift (content_len m (hd_size h))) p
    (fun c p' => p' = p /\ c = sz_len (hd_size h) - head_len (hd_size h) /\ head_len (hd_size h) <= sz_len (hd_size h) < 2 ^ 63).
  Proof. intros w q h p H. destruct (head_sound w q h H) as [F|[E S]]; [now left|]. rewrite E. right. cbn. auto. Qed.
  Lemma as_i64_small : forall n, n < 2 ^ 63 -> as_i64 n = Z.of_N n.
  Proof. intros n L. unfold as_i64. assert (W : two63 = 2 ^ 63) by reflexivity. rewrite W. destruct (n <? 2 ^ 63) eqn:E; [reflexivity|lia]. Qed.
  Lemma post_seek_on : forall n p, n < 2 ^ 63 -> post (seek_cur (as_i64 n)) p (fun _ q => q = p + n).
  Proof. intros n p L. eapply post_weak; [apply post_seek|]. cbv beta. intros u q. rewrite (as_i64_small n L). lia. Qed.

  (** Behind a box the reader is at its end or later, at a place where it looks for the next. *)
  Definition behind {A} (w : within) (q : N) (h : head) (_ : A) (p : N) : Prop := looks f w p /\ q + sz_len (hd_size h) <= p.
  Lemma behind_leaf : forall {A} w q h (a : A), place w q h -> opens (lv w) (hd_fourcc h) = None -> behind w q h a (q + sz_len (hd_size h)).
  Proof. intros A w q h a [K H] O. split; [|lia]. eapply Past; [exact K|exact H|exact O]. Qed.
  Lemma post_skip : forall w q h, place w q h -> opens (lv w) (hd_fourcc h) = None -> post (skip_atom m h) (q + head_len (hd_size h)) (behind w q h).
  Proof.
    intros w q h H O. unfold skip_atom. eapply post_bind; [apply (post_content w q), H|]. intros c p' (-> & -> & Sz).
    eapply post_weak; [apply post_seek_on; lia|]. cbv beta. intros u p ->.
    replace (q + head_len (hd_size h) + (sz_len (hd_size h) - head_len (hd_size h))) with (q + sz_len (hd_size h)) by lia. now apply behind_leaf.
  Qed.

  (** A loop over the boxes of a container that ends at [e]. *)
  Lemma loop_post : forall {S} (limit : res N) (body : head -> S -> R S) w l e lim, (flaw f \/ limit = Ok lim /\ lim < 2 ^ 63) ->
    (forall h s q, place ((l, e) :: w) q h -> post (body h s) (q + head_len (hd_size h)) (behind ((l, e) :: w) q h)) ->
    forall fuel parsed s p, looks f ((l, e) :: w) p -> e + parsed <= p + lim ->
    post (atom_loop fuel m limit body parsed s) p (fun _ p' => looks f ((l, e) :: w) p' /\ e <= p').
  Proof.
    intros S limit body w l e lim [F|[-> Ll]] B; [intros; now left|]. induction fuel as [|fuel IH]; intros parsed s p K I0; cbn [atom_loop]; [right; exact I|].
    eapply post_bind; [apply (post_lift _ _ lim); now right|]. intros l' p' [-> ->]. destruct (parsed <? lim) eqn:E; [|apply post_ret; split; [exact K|lia]].
    eapply post_bind; [apply post_head|]. intros h p1 [H ->]. assert (P : place ((l, e) :: w) p h) by (split; assumption).
    eapply post_bind; [apply B, P|]. intros s' p2 [K2 L2].
    destruct (head_sound _ p h P) as [F|[_ Sz]]; [now left|].
    eapply post_bind; [apply (post_lift _ _ (parsed + sz_len (hd_size h)))|].
    { right. unfold add64. assert (W : two64 = 2 * 2 ^ 63) by reflexivity. destruct (parsed + sz_len (hd_size h) <? two64) eqn:X; [reflexivity|]. rewrite W in X. lia. }
    intros x p3 [-> ->]. apply IH; [exact K2|lia].
  Qed.
  (** The same for the content of a box whose first [d] bytes have been read. *)
  Lemma post_container : forall {S} w q h l d (body : head -> S -> R S), place w q h -> opens (lv w) (hd_fourcc h) = Some (l, d) -> w <> [] ->
    (forall h' s q', place ((l, q + sz_len (hd_size h)) :: w) q' h' -> post (body h' s) (q' + head_len (hd_size h')) (behind ((l, q + sz_len (hd_size h)) :: w) q' h')) ->
    forall fuel s, post (atom_loop fuel m (content_len m (hd_size h)) body d s) (q + head_len (hd_size h) + d) (behind w q h).
  Proof.
    intros S w q h l d body P O W B fuel s. pose proof P as [K H]. destruct (head_sound w q h P) as [F|[E Sz]]; [now left|].
    eapply post_weak.
    - apply (loop_post _ body w l (q + sz_len (hd_size h)) (sz_len (hd_size h) - head_len (hd_size h))); [right; split; [exact E|lia]|exact B| |lia].
      eapply Into; [exact K|exact H|exact O].
    - cbv beta. intros x p [Kp Lp]. split; [|exact Lp]. eapply Out; [exact Kp|exact W|exact Lp].
  Qed.

  (** * Items *)

  Lemma fourcc_is : forall q h id, head_at q h -> fourcc_eqb (hd_fourcc h) id = true -> box_at f q id (head_len (hd_size h)) (sz_len (hd_size h)).
  Proof. intros q h id H E. apply fourcc_eqb_eq in E. subst id. exact H. Qed.

  Lemma post_vec : forall n p, n < 2 ^ 63 -> post (read_u8_vec n) p (fun _ q => q = p + n).
  Proof.
    intros n p L. unfold read_u8_vec. assert (W : two63 = 2 ^ 63) by reflexivity. destruct (two63 <=? n) eqn:E; [rewrite W in E; lia|].
    eapply post_weak; [apply post_read|]. cbv beta. intros b q (_ & E' & _). exact E'.
  Qed.
  Lemma post_utf8 : forall n p, n < 2 ^ 63 -> post (read_utf8 n) p (fun _ q => q = p + n).
  Proof. intros n p L. unfold read_utf8. eapply post_bind; [apply post_vec, L|]. cbv beta. intros b q ->. destruct (dec8 b); [apply post_ret; reflexivity|apply post_fail]. Qed.
  Lemma post_utf16 : forall n p, n < 2 ^ 63 -> post (read_utf16 n) p (fun _ q => q = p + n).
  Proof. intros n p L. unfold read_utf16. eapply post_bind; [apply post_vec, L|]. cbv beta. intros b q ->. destruct (dec16 _); [apply post_ret; reflexivity|apply post_fail]. Qed.
  Lemma post_data : forall t n p, n < 2 ^ 63 -> post (data_parse t n) p (fun _ q => q = p + n).
  Proof.
    intros t n p L. unfold data_parse.
    assert (V : forall g : bytes -> data, post (v <- read_u8_vec n ;; ret (g v)) p (fun _ q => q = p + n)) by (intros g; eapply post_bind; [apply post_vec, L|]; cbv beta; intros b q ->; apply post_ret; reflexivity).
    repeat match goal with |- post (match ?x with _ => _ end) _ _ => destruct x end; try apply post_fail; try apply V;
      (eapply post_bind; [(apply post_utf8 || apply post_utf16); exact L|]; cbv beta; intros b q ->; apply post_ret; reflexivity).
  Qed.
  Lemma post_item : forall w h a q, place w q h -> lv w = InItem -> post (item_body m h a) (q + head_len (hd_size h)) (behind w q h).
  Proof.
    intros w h a q P Iw. pose proof P as [K H]. assert (O : opens (lv w) (hd_fourcc h) = None) by (rewrite Iw; reflexivity).
    assert (Done : forall (x : item_acc) p, p = q + sz_len (hd_size h) -> post (ret x) p (behind w q h)) by (intros x p ->; apply post_ret; now apply behind_leaf).
    unfold item_body. cbv zeta. destruct (fourcc_eqb (hd_fourcc h) DATA) eqn:ED.
    { eapply post_bind; [apply post_full|]. intros vf p1 (_ & -> & _). destruct (negb _); [apply post_fail|].
      eapply post_bind; [apply post_seek|]. intros u p2 H2. cbv beta in H2. eapply post_bind; [apply (post_content w q), P|]. intros c p3 (-> & -> & Sz).
      destruct (N.lt_ge_cases (sz_len (hd_size h)) (head_len (hd_size h) + 8)) as [C|C]; [left; eapply Short_value; [exact K|exact Iw|exact (fourcc_is _ _ _ H ED)|exact C]|].
      eapply post_bind; [apply (post_lift _ _ (sz_len (hd_size h) - head_len (hd_size h) - 8)); right; unfold sub64; destruct (8 <=? _) eqn:X; [reflexivity|lia]|].
      intros n p4 [-> ->]. eapply post_bind; [apply post_data; lia|]. cbv beta. intros d p5 ->. apply Done. lia. }
    assert (T : forall id (g : ustring -> item_acc), id = id4 "mean" \/ id = id4 "name" -> fourcc_eqb (hd_fourcc h) id = true ->
      post (vf <- parse_full_head ;; (if negb (fst vf =? 0) then fail (EUnknownVersion (fst vf)) else
        c <- lift (content_len m (hd_size h)) ;; n <- lift (sub64 m c 4) ;; s <- read_utf8 n ;; ret (g s))) (q + head_len (hd_size h)) (behind w q h)).
    { intros id g Hi EI. eapply post_bind; [apply post_full|]. intros vf p1 (_ & -> & _). destruct (negb _); [apply post_fail|].
      eapply post_bind; [apply (post_content w q), P|]. intros c p3 (-> & -> & Sz).
      destruct (N.lt_ge_cases (sz_len (hd_size h)) (head_len (hd_size h) + 4)) as [C|C]; [left; eapply Short_text; [exact K|exact Iw|exact (fourcc_is _ _ _ H EI)|exact Hi|exact C]|].
      eapply post_bind; [apply (post_lift _ _ (sz_len (hd_size h) - head_len (hd_size h) - 4)); right; unfold sub64; destruct (4 <=? _) eqn:X; [reflexivity|lia]|].
      intros n p4 [-> ->]. eapply post_bind; [apply post_utf8; lia|]. cbv beta. intros d p5 ->. apply Done. lia. }
    destruct (fourcc_eqb (hd_fourcc h) MEAN) eqn:EM; [apply (T MEAN); [now left|exact EM]|].
    destruct (fourcc_eqb (hd_fourcc h) NAME) eqn:EN; [apply (T NAME); [now right|exact EN]|].
    eapply post_bind; [apply (post_skip w q); assumption|]. intros u p1 Hb. apply post_ret. exact Hb.
  Qed.
  Lemma post_ilst_body : forall fuel w h l q, place w q h -> lv w = InIlst -> w <> [] -> post (ilst_body fuel m h l) (q + head_len (hd_size h)) (behind w q h).
  Proof.
    intros fuel w h l q P Iw W. unfold ilst_body. destruct (fourcc_eqb _ FREE) eqn:EF.
    { eapply post_bind; [apply (post_skip w q); [exact P|rewrite Iw; unfold opens; change (id4 "free") with FREE; now rewrite EF]|]. intros u p1 Hb. apply post_ret. exact Hb. }
    eapply post_bind; [apply (post_content w q), P|]. intros c p (-> & -> & Sz). apply (post_bind _ _ _ (behind w q h)).
    - unfold atom_data_parse. apply (post_bind _ _ _ (behind w q h)).
      + pose proof P as [K H]. eapply post_weak.
        * apply (loop_post _ _ w InItem (q + sz_len (hd_size h)) (sz_len (hd_size h) - head_len (hd_size h))); [right; split; [reflexivity|lia]| | |lia].
          -- intros h' s q' P'. apply post_item; [exact P'|reflexivity].
          -- replace (q + head_len (hd_size h)) with (q + head_len (hd_size h) + 0) by lia. eapply Into; [exact K|exact H|]. rewrite Iw. unfold opens. change (id4 "free") with FREE. now rewrite EF.
        * cbv beta. intros x p [Kp Lp]. split; [|exact Lp]. eapply Out; [exact Kp|exact W|exact Lp].
      + intros a p1 Hb. destruct (ia_data a); [apply post_fail|apply post_ret; exact Hb].
    - intros a p1 Hb. apply post_ret. exact Hb.
  Qed.

  (** Containers: the children called [id] are parsed, the others skipped. *)
  Lemma post_child : forall {A B} (id : fourcc) w h (x : R A) (g : A -> B) (r : B) q, place w q h ->
    (fourcc_eqb (hd_fourcc h) id = false -> opens (lv w) (hd_fourcc h) = None) ->
    (fourcc_eqb (hd_fourcc h) id = true -> post x (q + head_len (hd_size h)) (behind w q h)) ->
    post (if fourcc_eqb (hd_fourcc h) id then (y <- x ;; ret (g y)) else (skip_atom m h ;;; ret r)) (q + head_len (hd_size h)) (behind w q h).
  Proof.
    intros A B id w h x g r q H O X. destruct (fourcc_eqb (hd_fourcc h) id).
    - eapply post_bind; [apply X; reflexivity|]. intros a p Hb. apply post_ret. exact Hb.
    - eapply post_bind; [apply (post_skip w q); [exact H|apply O; reflexivity]|]. intros a p Hb. apply post_ret. exact Hb.
  Qed.
  Lemma post_box0 : forall {S} w q h l (body : head -> S -> R S), place w q h -> opens (lv w) (hd_fourcc h) = Some (l, 0) -> w <> [] ->
    (forall h' s q' w', place w' q' h' -> lv w' = l -> w' <> [] -> post (body h' s) (q' + head_len (hd_size h')) (behind w' q' h')) ->
    forall fuel s, post (atom_loop fuel m (content_len m (hd_size h)) body 0 s) (q + head_len (hd_size h)) (behind w q h).
  Proof.
    intros S w q h l body P O W B fuel s. replace (q + head_len (hd_size h)) with (q + head_len (hd_size h) + 0) by lia.
    apply (post_container w q h l 0); [exact P|exact O|exact W|]. intros h' s' q' P'. apply B; [exact P'|reflexivity|discriminate].
  Qed.
  Lemma post_ilst : forall fuel w q h, place w q h -> lv w = InMeta -> w <> [] -> fourcc_eqb (hd_fourcc h) ITEM_LIST = true -> post (ilst_parse fuel m (hd_size h)) (q + head_len (hd_size h)) (behind w q h).
  Proof.
    intros fuel w q h P Iw W E. unfold ilst_parse. apply (post_box0 w q h InIlst); [exact P| |exact W|].
    - rewrite Iw. unfold opens. change (id4 "ilst") with ITEM_LIST. now rewrite E.
    - intros. now apply post_ilst_body.
  Qed.
  Lemma post_meta : forall fuel w q h, place w q h -> lv w = InUdta -> w <> [] -> fourcc_eqb (hd_fourcc h) METADATA = true -> post (meta_parse fuel m (hd_size h)) (q + head_len (hd_size h)) (behind w q h).
  Proof.
    intros fuel w q h P Iw W E. unfold meta_parse. eapply post_bind; [apply post_full|]. intros vf p1 (_ & -> & _). destruct (negb _); [apply post_fail|].
    apply (post_container w q h InMeta 4); [exact P| |exact W|].
    - rewrite Iw. unfold opens. change (id4 "meta") with METADATA. now rewrite E.
    - intros h' s q' P'. unfold meta_body. apply post_child; [exact P'| |].
      + intros N. cbn [lv]. unfold opens. change (id4 "ilst") with ITEM_LIST. now rewrite N.
      + intros Y. apply post_ilst; [exact P'|reflexivity|discriminate|exact Y].
  Qed.
  Lemma post_udta : forall fuel w q h, place w q h -> lv w = InMoov -> w <> [] -> fourcc_eqb (hd_fourcc h) USER_DATA = true ->
    opens InMoov (hd_fourcc h) = Some (InUdta, 0) -> post (udta_parse fuel m (hd_size h)) (q + head_len (hd_size h)) (behind w q h).
  Proof.
    intros fuel w q h P Iw W E O. unfold udta_parse. apply (post_box0 w q h InUdta); [exact P|now rewrite Iw|exact W|].
    intros h' s q' w' P' Iw' W'. unfold udta_body. apply post_child; [exact P'| |].
    - intros N. rewrite Iw'. unfold opens. change (id4 "meta") with METADATA. now rewrite N.
    - intros Y. now apply post_meta.
  Qed.

  (** * Descriptors *)

  Definition sum7 (l : bytes) (a : N) : N := fold_left (fun a b => a * 128 + b2n b mod 128) l a.
  Lemma sum7_lt : forall l a, sum7 l a < (a + 1) * 128 ^ blen l.
  Proof.
    induction l as [|x l IH]; intros a; [cbn; change (blen []) with 0; rewrite N.pow_0_r; lia|].
    cbn [sum7 fold_left]. change (sum7 l (a * 128 + b2n x mod 128) < (a + 1) * 128 ^ blen (x :: l)). rewrite blen_cons.
    eapply N.lt_le_trans; [apply IH|]. replace (1 + blen l) with (N.succ (blen l)) by lia. rewrite N.pow_succ_r'.
    pose proof (N.mod_lt (b2n x) 128 ltac:(discriminate)) as M. rewrite N.mul_assoc. apply N.mul_le_mono_r. lia.
  Qed.
  Lemma desc_small : forall q tag n len, descriptor_at f q tag n len -> len < 2 ^ 28 /\ 2 <= n <= 5.
  Proof.
    intros q tag n len (_ & _ & i & z & _ & Hn & _ & Hz & ->). change (sum7 (i ++ [z]) 0 < 2 ^ 28 /\ 2 <= n <= 5). split; [|lia].
    eapply N.lt_le_trans; [apply sum7_lt|]. rewrite blen_app. change (blen [z]) with 1.
    assert (128 ^ (blen i + 1) <= 128 ^ 4) by (apply N.pow_le_mono_r; [discriminate|lia]). change (2 ^ 28) with (128 ^ 4). lia.
  Qed.
  Lemma slice_snoc : forall p n, p + n < blen f -> slice f p (n + 1) = slice f p n ++ slice f (p + n) 1.
  Proof.
    intros p n L. apply WhereProofs.slice_split. lia.
  Qed.
  Lemma slice_one : forall p, p < blen f -> exists z, slice f p 1 = [z].
  Proof.
    intros p L. unfold slice. change (N.to_nat 1) with 1%nat. unfold blen in L. destruct (skipn (N.to_nat p) f) as [|z r] eqn:E.
    - apply (f_equal (@List.length _)) in E. rewrite skipn_length in E. cbn in E. lia.
    - exists z. reflexivity.
  Qed.
  Lemma post_len7 : forall k q i, (k <> 0)%nat -> slice f (q + 1) (blen i) = i -> Forall (fun b => 128 <= b2n b) i -> blen i + N.of_nat k = 4 ->
    post (desc_len_loop k (1 + blen i) (sum7 i 0)) (q + 1 + blen i) (fun r p => p = q + fst r /\ descriptor_at f q (field f q 1) (fst r) (snd r)).
  Proof.
    induction k as [|k IH]; intros q i K0 Si Fi Lk; [lia|]. cbn [desc_len_loop].
    eapply post_bind; [apply post_u8|]. intros v p (-> & -> & L). cbv zeta.
    destruct (slice_one (q + 1 + blen i) ltac:(lia)) as [z Hz].
    assert (V : field f (q + 1 + blen i) 1 = b2n z) by (unfold field; rewrite Hz; unfold unbe; cbn; lia). rewrite V.
    assert (S2 : slice f (q + 1) (blen i + 1) = i ++ [z]) by (rewrite slice_snoc by lia; rewrite Si, Hz; reflexivity).
    assert (S3 : sum7 i 0 * 128 + b2n z mod 128 = sum7 (i ++ [z]) 0) by (unfold sum7; rewrite fold_left_app; reflexivity). rewrite S3.
    assert (Dz : (blen i < 3 /\ b2n z < 128 \/ blen i = 3) -> descriptor_at f q (field f q 1) (1 + blen i + 1) (sum7 (i ++ [z]) 0)).
    { intros D. split; [lia|]. split; [reflexivity|]. exists i, z. replace (1 + blen i + 1 - 1) with (blen i + 1) by lia. split; [exact S2|]. split; [lia|]. split; [exact Fi|]. split; [exact D|reflexivity]. }
    destruct (b2n z <? 128) eqn:C.
    - apply post_ret. cbn [fst snd]. split; [lia|]. apply Dz. lia.
    - destruct k as [|k].
      + cbn [desc_len_loop]. apply post_ret. cbn [fst snd]. split; [lia|]. apply Dz. lia.
      + replace (1 + blen i + 1) with (1 + blen (i ++ [z])) by (rewrite blen_app; change (blen [z]) with 1; lia).
        replace (q + 1 + blen i + 1) with (q + 1 + blen (i ++ [z])) by (rewrite blen_app; change (blen [z]) with 1; lia).
        apply IH; [discriminate| | |].
        * rewrite blen_app. change (blen [z]) with 1. exact S2.
        * apply Forall_app. split; [exact Fi|]. constructor; [lia|constructor].
        * rewrite blen_app. change (blen [z]) with 1. lia.
  Qed.
  Lemma post_desc_head : forall q, post parse_desc_head q (fun h p => let '(tag, n, len) := h in p = q + n /\ descriptor_at f q tag n len).
  Proof.
    intros q. unfold parse_desc_head. eapply post_bind; [apply post_u8|]. intros t p (-> & -> & L).
    eapply post_bind; [|intros r p' H; apply post_ret; exact H].
    replace (q + 1) with (q + 1 + blen (@nil byte)) by (change (blen (@nil byte)) with 0; lia).
    change (desc_len_loop 4 1 0) with (desc_len_loop 4 (1 + blen (@nil byte)) (sum7 [] 0)).
    apply post_len7; [discriminate|reflexivity|constructor|reflexivity].
  Qed.

  Lemma desc_loop_post : forall {S} a len (body : N -> N -> S -> R S), len < 2 ^ 62 ->
    (forall tag dl s q n, looks_desc f a q -> descriptor_at f q tag n dl -> post (body tag dl s) (q + n) (fun _ p => looks_desc f a p)) ->
    forall fuel parsed s p, looks_desc f a p -> post (desc_loop fuel m len body parsed s) p (fun _ p' => looks_desc f a p').
  Proof.
    intros S a len body Ll B. induction fuel as [|fuel IH]; intros parsed s p Rp; cbn [desc_loop]; [right; exact I|].
    destruct (parsed <? len) eqn:E; [|apply post_ret; exact Rp]. eapply post_bind; [apply post_desc_head|]. intros [[tag n] dl] p1 [-> D].
    eapply post_bind; [eapply B; [exact Rp|exact D]|]. intros s' p2 R2. destruct (desc_small _ _ _ _ D) as [L1 L2].
    assert (W : two64 = 4 * 2 ^ 62) by reflexivity. assert (W2 : 2 ^ 28 < 2 ^ 62) by reflexivity.
    eapply post_bind; [apply (post_lift _ _ (n + dl)); right; unfold add64; destruct (n + dl <? two64) eqn:X; [reflexivity|rewrite W in X; lia]|].
    intros k p3 [-> ->].
    eapply post_bind; [apply (post_lift _ _ (parsed + (n + dl))); right; unfold add64; destruct (parsed + (n + dl) <? two64) eqn:X; [reflexivity|rewrite W in X; lia]|].
    intros k p3 [-> ->]. apply IH, R2.
  Qed.
  (** The descriptors of one sample entry. *)
  Section Entry.
    Context (p0 size0 a0 size0' d0 : N) (En : entry_at f p0 size0 a0 size0' d0).

    Lemma post_ds : forall i q n len, looks_desc f d0 q -> descriptor_at f q 5 n len -> post (parse_ds_desc m i len) (q + n) (fun _ p => p = q + n + len).
    Proof.
      intros i q n len K D. unfold parse_ds_desc. eapply post_bind; [apply post_u16|]. intros v p (-> & -> & L). cbv zeta.
      destruct (N.lt_ge_cases len 2) as [C|C]; [left; eapply Short_config; [exact En|exact K|exact D|exact C]|]. destruct (desc_small _ _ _ _ D) as [L1 L2].
      eapply post_bind; [apply (post_lift _ _ (len - 2)); right; unfold sub64; destruct (2 <=? len) eqn:X; [reflexivity|lia]|].
      intros d p [-> ->]. assert (W2 : 2 ^ 28 < 2 ^ 63) by reflexivity. eapply post_bind; [apply post_seek_on; lia|]. cbv beta. intros u p ->. apply post_ret. lia.
    Qed.
    Lemma post_dc_body : forall tag dl i q n, looks_desc f d0 q -> descriptor_at f q tag n dl -> post (dc_body m tag dl i) (q + n) (fun _ p => looks_desc f d0 p).
    Proof.
      intros tag dl i q n K D. unfold dc_body. pose proof (Behind f d0 q tag n dl K D) as E.
      destruct (tag =? 5) eqn:T.
      - apply N.eqb_eq in T. subst tag. eapply post_weak; [now apply post_ds|]. cbv beta. intros u p ->. exact E.
      - destruct (desc_small _ _ _ _ D) as [L1 L2]. assert (W2 : 2 ^ 28 < 2 ^ 63) by reflexivity.
        eapply post_bind; [apply post_seek_on; lia|]. cbv beta. intros u p ->. apply post_ret. exact E.
    Qed.
    Lemma post_es_body : forall fuel tag dl i q n, looks_desc f d0 q -> descriptor_at f q tag n dl -> post (es_body fuel m tag dl i) (q + n) (fun _ p => looks_desc f d0 p).
    Proof.
      intros fuel tag dl i q n K D. unfold es_body. destruct (desc_small _ _ _ _ D) as [L1 L2].
      assert (W2 : 2 ^ 28 < 2 ^ 63) by reflexivity. assert (W3 : 2 ^ 28 < 2 ^ 62) by reflexivity.
      destruct (tag =? 4) eqn:T.
      - apply N.eqb_eq in T. subst tag. unfold parse_dc_desc. eapply post_bind; [apply post_seek|]. intros u p1 H1. cbv beta in H1.
        eapply post_bind; [apply post_u32|]. intros mx p2 (-> & -> & _). eapply post_bind; [apply post_u32|]. intros av p3 (-> & -> & _).
        apply desc_loop_post; [lia|intros; now apply post_dc_body|]. replace (p1 + 4 + 4) with (q + n + 13) by lia. eapply Inside; [exact K|exact D].
      - eapply post_bind; [apply post_seek_on; lia|]. cbv beta. intros u p ->. apply post_ret. eapply Behind; [exact K|exact D].
    Qed.
    Lemma post_esds : forall fuel i h, head_at a0 h -> sz_len (hd_size h) = size0' -> d0 = a0 + head_len (hd_size h) + 4 ->
      post (parse_esds fuel m i (hd_size h)) (a0 + head_len (hd_size h)) (fun _ p => looks_desc f d0 p).
    Proof.
      intros fuel i h H Es Ed. unfold parse_esds. eapply post_bind; [apply post_full|]. intros vf p (_ & -> & _). destruct (negb _); [apply post_fail|].
      eapply post_bind; [apply post_desc_head|]. intros [[tag n] dl] p [-> D]. destruct (negb (tag =? 3)) eqn:T; [apply post_fail|].
      apply negb_false_iff, N.eqb_eq in T. subst tag. rewrite <- Ed in D.
      destruct (head_sound_at a0 h) as [F|[Ec Sz]]; [right; exists p0, size0, size0', d0; exact En|exact H|now left|]. rewrite Ec.
      eapply post_bind; [apply (post_lift _ _ (sz_len (hd_size h) - head_len (hd_size h))); now right|]. intros c p [-> ->].
      destruct (desc_small _ _ _ _ D) as [L1 L2]. assert (W2 : 2 ^ 28 < 2 ^ 62) by reflexivity.
      destruct (N.lt_ge_cases (sz_len (hd_size h)) (head_len (hd_size h) + 4 + n)) as [C|C]; [left; eapply Short_esds; [exact En|exact D|lia]|].
      eapply post_bind; [apply (post_lift _ _ (sz_len (hd_size h) - head_len (hd_size h) - 4)); right; unfold sub64; destruct (4 <=? _) eqn:X; [reflexivity|lia]|].
      intros c4 p [-> ->].
      eapply post_bind; [apply (post_lift _ _ (sz_len (hd_size h) - head_len (hd_size h) - 4 - n)); right; unfold sub64; destruct (n <=? _) eqn:X; [reflexivity|lia]|].
      intros mx p [-> ->]. unfold parse_es_desc. eapply post_bind; [apply post_seek|]. intros u p H1. cbv beta in H1.
      apply desc_loop_post; [lia|intros; now apply post_es_body|]. replace p with (d0 + n + 3) by lia. eapply First. exact D.
    Qed.
  End Entry.

  (** * Sample entries, headers, tracks *)

  Lemma post_bounds : forall q h, head_at q h -> post (find_bounds m (hd_size h)) (q + head_len (hd_size h)) (fun b p => b = Bounds q (hd_size h) /\ p = q + head_len (hd_size h)).
  Proof.
    intros q h H. unfold find_bounds. eapply post_bind; [apply (post_inv _ _ (fun c p => c = q + head_len (hd_size h) /\ p = q + head_len (hd_size h))); [right; exact I|intros c p E; injection E as <- <-; auto]|].
    intros c p [-> ->]. eapply post_bind; [apply (post_lift _ _ q); right; unfold sub64; destruct (_ <=? _) eqn:X; [f_equal; lia|lia]|].
    intros x p [-> ->]. apply post_ret. auto.
  Qed.
  Lemma post_to_end : forall w q h p, place w q h -> opens (lv w) (hd_fourcc h) = None -> p <= q + sz_len (hd_size h) ->
    post (seek_to_end m (Bounds q (hd_size h))) p (behind w q h).
  Proof.
    intros w q h p P O L. unfold seek_to_end. eapply post_bind; [apply (post_inv _ _ (fun c p' => c = p /\ p' = p)); [right; exact I|intros c p' E; injection E as <- <-; auto]|].
    intros c p' [-> ->]. destruct (head_sound w q h P) as [F|[_ Sz]]; [now left|]. unfold bounds_end. cbn [b_pos b_size].
    assert (W : two64 = 4 * 2 ^ 62) by reflexivity. assert (W3 : 2 ^ 63 = 2 * 2 ^ 62) by reflexivity. pose proof (proj1 (proj2 P)) as Lq.
    eapply post_bind; [apply (post_lift _ _ (q + sz_len (hd_size h))); right; unfold add64; destruct (_ <? _) eqn:X; [reflexivity|rewrite W in X; lia]|].
    intros e p' [-> ->]. eapply post_bind; [apply (post_lift _ _ (q + sz_len (hd_size h) - p)); right; unfold sub64; destruct (_ <=? _) eqn:X; [reflexivity|lia]|].
    intros d p' [-> ->]. destruct (N.lt_ge_cases (q + sz_len (hd_size h) - p) (2 ^ 63)) as [C|C].
    - eapply post_weak; [apply post_seek_on; exact C|]. cbv beta. intros u p' ->. replace (p + (q + sz_len (hd_size h) - p)) with (q + sz_len (hd_size h)) by lia. now apply behind_leaf.
    - right. unfold seek_cur, as_i64. assert (W4 : two63 = 2 ^ 63) by reflexivity. rewrite W4. destruct (_ <? 2 ^ 63) eqn:X; [lia|].
      destruct (_ && _)%Z eqn:Y; [|exact I]. exfalso. rewrite W in Y. lia.
  Qed.
  Lemma post_mp4a : forall fuel w q h, place w q h -> lv w = InStsd -> fourcc_eqb (hd_fourcc h) MP4_AUDIO = true -> post (mp4a_parse fuel m (hd_size h)) (q + head_len (hd_size h)) (behind w q h).
  Proof.
    intros fuel w q h P Iw E. pose proof P as [K H]. unfold mp4a_parse. eapply post_bind; [apply post_bounds, H|]. intros b p [-> ->].
    eapply post_bind; [apply post_seek|]. intros u p H1. cbv beta in H1. assert (p = q + head_len (hd_size h) + 28) by lia. subst p. clear H1.
    eapply post_bind; [apply post_head|]. intros h' p [H' ->]. destruct (negb _) eqn:E'; [apply post_fail|]. apply negb_false_iff in E'.
    assert (En : entry_at f q (sz_len (hd_size h)) (q + head_len (hd_size h) + 28) (sz_len (hd_size h')) (q + head_len (hd_size h) + 28 + head_len (hd_size h') + 4)).
    { exists w, (head_len (hd_size h)), (head_len (hd_size h')). split; [exact K|]. split; [exact Iw|]. split; [exact (fourcc_is _ _ _ H E)|]. split; [reflexivity|].
      split; [exact (fourcc_is _ _ _ H' E')|reflexivity]. }
    eapply post_bind; [eapply post_esds; [exact En|exact H'|reflexivity|reflexivity]|]. cbv beta. intros r p Kp.
    destruct (N.lt_ge_cases (q + sz_len (hd_size h)) p) as [C|C]; [left; eapply Long_descriptor; [exact En|exact Kp|exact C]|].
    eapply post_bind; [apply (post_to_end w); [exact P|rewrite Iw; reflexivity|exact C]|]. intros v p' Hb. apply post_ret. exact Hb.
  Qed.
  Lemma post_nanos : forall scale dur p, scale <> 0 -> dur * 1000000000 < 2 ^ 64 -> post (lift (mvhd_nanos m scale dur)) p (fun _ q => q = p).
  Proof.
    intros scale dur p H L. right. unfold mvhd_nanos, mul64. assert (W : two64 = 2 ^ 64) by reflexivity.
    destruct (dur * 1000000000 <? two64) eqn:X; [|rewrite W in X; lia]. cbn [rbind lift]. unfold div64. destruct (scale =? 0) eqn:Z; [lia|]. reflexivity.
  Qed.
  Lemma field_lt : forall p n, field f p n < 256 ^ n.
  Proof.
    intros p n. unfold field. eapply N.lt_le_trans; [apply unbe_lt|]. apply N.pow_le_mono_r; [discriminate|]. unfold slice, blen. rewrite firstn_length. lia.
  Qed.
  Lemma post_mvhd : forall w q h, place w q h -> lv w = InMoov -> fourcc_eqb (hd_fourcc h) MOVIE_HEADER = true -> opens InMoov (hd_fourcc h) = None ->
    post (mvhd_parse m (hd_size h)) (q + head_len (hd_size h)) (behind w q h).
  Proof.
    intros w q h P Iw E O. pose proof P as [Kq H]. unfold mvhd_parse. eapply post_bind; [apply post_bounds, H|]. intros b p [-> ->].
    eapply post_bind; [apply post_full|]. intros vf p (V & -> & _).
    pose proof (fourcc_is _ _ _ H E) as B. remember (head_len (hd_size h)) as hl eqn:Ehl. remember (sz_len (hd_size h)) as sz eqn:Esz.
    apply (post_bind _ _ _ (fun _ p => p <= q + sz)).
    - rewrite V. destruct (field f (q + hl) 1) as [|[?|?|]] eqn:Ev; try apply post_fail.
      + eapply post_bind; [apply post_seek|]. intros u p H1. cbv beta in H1. assert (p = q + hl + 12) by lia. subst p. clear H1.
        eapply post_bind; [apply post_u32|]. intros sc p (-> & -> & _). eapply post_bind; [apply post_u32|]. intros du p (-> & -> & _).
        destruct (N.eq_dec (field f (q + hl + 12) 4) 0) as [Z|Z]; [left; eapply Bad_header; [exact Kq|exact Iw|exact B|left; split; [exact Ev|now right]]|].
        destruct (N.lt_ge_cases sz (hl + 20)) as [C|C]; [left; eapply Bad_header; [exact Kq|exact Iw|exact B|left; split; [exact Ev|now left]]|].
        eapply post_weak; [apply post_nanos; [exact Z|]|cbv beta; intros d p ->; lia].
        pose proof (field_lt (q + hl + 12 + 4) 4) as L. assert (256 ^ 4 * 1000000000 < 2 ^ 64) by reflexivity. lia.
      + eapply post_bind; [apply post_seek|]. intros u p H1. cbv beta in H1. assert (p = q + hl + 20) by lia. subst p. clear H1.
        eapply post_bind; [apply post_u32|]. intros sc p (-> & -> & _). eapply post_bind; [apply post_u64|]. intros du p (-> & -> & _).
        replace (q + hl + 20 + 4) with (q + hl + 24) by lia.
        destruct (N.eq_dec (field f (q + hl + 20) 4) 0) as [Z|Z]; [left; eapply Bad_header; [exact Kq|exact Iw|exact B|right; split; [exact Ev|right; now left]]|].
        destruct (N.lt_ge_cases sz (hl + 32)) as [C|C]; [left; eapply Bad_header; [exact Kq|exact Iw|exact B|right; split; [exact Ev|now left]]|].
        destruct (N.lt_ge_cases (field f (q + hl + 24) 8 * 10 ^ 9) (2 ^ 64)) as [D|D]; [|left; eapply Bad_header; [exact Kq|exact Iw|exact B|right; split; [exact Ev|right; now right]]].
        eapply post_weak; [apply post_nanos; [exact Z|exact D]|cbv beta; intros d p ->; lia].
    - intros d0 p L. subst sz. eapply post_bind; [apply (post_to_end w); [exact P|rewrite Iw; exact O|exact L]|]. intros v p' Hb. apply post_ret. exact Hb.
  Qed.
  Lemma post_stsd : forall fuel w q h, place w q h -> lv w = InStbl -> w <> [] -> fourcc_eqb (hd_fourcc h) SAMPLE_TABLE_SAMPLE_DESCRIPTION = true ->
    post (stsd_parse fuel m (hd_size h)) (q + head_len (hd_size h)) (behind w q h).
  Proof.
    intros fuel w q h P Iw W E. unfold stsd_parse. eapply post_bind; [apply post_full|]. intros vf p1 (_ & -> & _). destruct (negb _); [apply post_fail|].
    eapply post_bind; [apply post_seek|]. intros u p2 H2. cbv beta in H2. replace p2 with (q + head_len (hd_size h) + 8) by lia.
    apply (post_container w q h InStsd 8); [exact P| |exact W|].
    - rewrite Iw. unfold opens. change (id4 "stsd") with SAMPLE_TABLE_SAMPLE_DESCRIPTION. now rewrite E.
    - intros h' s q' P'. unfold stsd_body. apply post_child; [exact P'|reflexivity|]. intros Y. apply post_mp4a; [exact P'|reflexivity|exact Y].
  Qed.
  Lemma post_stbl : forall fuel w q h, place w q h -> lv w = InMinf -> w <> [] -> fourcc_eqb (hd_fourcc h) SAMPLE_TABLE = true ->
    post (stbl_parse fuel m (hd_size h)) (q + head_len (hd_size h)) (behind w q h).
  Proof.
    intros fuel w q h P Iw W E. unfold stbl_parse. apply (post_box0 w q h InStbl); [exact P| |exact W|].
    - rewrite Iw. unfold opens. change (id4 "stbl") with SAMPLE_TABLE. now rewrite E.
    - intros h' s q' w' P' Iw' W'. unfold stbl_body. apply post_child; [exact P'| |].
      + intros N. rewrite Iw'. unfold opens. change (id4 "stsd") with SAMPLE_TABLE_SAMPLE_DESCRIPTION. now rewrite N.
      + intros Y. now apply post_stsd.
  Qed.
  Lemma post_minf : forall fuel w q h, place w q h -> lv w = InMdia -> w <> [] -> fourcc_eqb (hd_fourcc h) MEDIA_INFORMATION = true ->
    post (minf_parse fuel m (hd_size h)) (q + head_len (hd_size h)) (behind w q h).
  Proof.
    intros fuel w q h P Iw W E. unfold minf_parse. apply (post_box0 w q h InMinf); [exact P| |exact W|].
    - rewrite Iw. unfold opens. change (id4 "minf") with MEDIA_INFORMATION. now rewrite E.
    - intros h' s q' w' P' Iw' W'. unfold minf_body. apply post_child; [exact P'| |].
      + intros N. rewrite Iw'. unfold opens. change (id4 "stbl") with SAMPLE_TABLE. now rewrite N.
      + intros Y. now apply post_stbl.
  Qed.
  Lemma post_mdia : forall fuel w q h, place w q h -> lv w = InTrak -> w <> [] -> fourcc_eqb (hd_fourcc h) MEDIA = true ->
    post (mdia_parse fuel m (hd_size h)) (q + head_len (hd_size h)) (behind w q h).
  Proof.
    intros fuel w q h P Iw W E. unfold mdia_parse. apply (post_box0 w q h InMdia); [exact P| |exact W|].
    - rewrite Iw. unfold opens. change (id4 "mdia") with MEDIA. now rewrite E.
    - intros h' s q' w' P' Iw' W'. unfold mdia_body. apply post_child; [exact P'| |].
      + intros N. rewrite Iw'. unfold opens. change (id4 "minf") with MEDIA_INFORMATION. now rewrite N.
      + intros Y. now apply post_minf.
  Qed.
  Lemma post_trak : forall fuel w q h, place w q h -> lv w = InMoov -> w <> [] -> fourcc_eqb (hd_fourcc h) TRACK = true ->
    post (trak_parse fuel m (hd_size h)) (q + head_len (hd_size h)) (behind w q h).
  Proof.
    intros fuel w q h P Iw W E. unfold trak_parse. apply (post_box0 w q h InTrak); [exact P| |exact W|].
    - rewrite Iw. unfold opens. change (id4 "trak") with TRACK. now rewrite E.
    - intros h' s q' w' P' Iw' W'. unfold trak_body. apply post_child; [exact P'| |].
      + intros N. rewrite Iw'. unfold opens. change (id4 "mdia") with MEDIA. now rewrite N.
      + intros Y. now apply post_mdia.
  Qed.
  Lemma post_moov : forall fuel q h, place [] q h -> fourcc_eqb (hd_fourcc h) MOVIE = true -> post (moov_parse fuel m (hd_size h)) (q + head_len (hd_size h)) any.
  Proof.
    intros fuel q h P E. unfold moov_parse. pose proof P as [K H]. destruct (head_sound [] q h P) as [F|[Ec Sz]]; [now left|].
    eapply post_any. apply (loop_post _ _ [] InMoov (q + sz_len (hd_size h)) (sz_len (hd_size h) - head_len (hd_size h))); [right; split; [exact Ec|lia]| | |lia].
    - intros h' s q' P'. unfold moov_body. cbv zeta. set (w := [(InMoov, q + sz_len (hd_size h))]) in *. assert (W : w <> []) by discriminate. assert (Iw : lv w = InMoov) by reflexivity.
      destruct (fourcc_eqb (hd_fourcc h') MOVIE_HEADER) eqn:E1.
      { eapply post_bind; [apply (post_mvhd w); [exact P'|exact Iw|exact E1|]|intros a p Hb; apply post_ret; exact Hb].
        apply fourcc_eqb_eq in E1. rewrite E1. reflexivity. }
      destruct (fourcc_eqb (hd_fourcc h') TRACK) eqn:E2; [eapply post_bind; [apply (post_trak fuel w); assumption|intros a p Hb; apply post_ret; exact Hb]|].
      apply post_child; [exact P'| |].
      + intros N. rewrite Iw. unfold opens. change (id4 "trak") with TRACK. change (id4 "udta") with USER_DATA. now rewrite E2, N.
      + intros Y. apply (post_udta fuel w); [exact P'|exact Iw|exact W|exact Y|]. unfold opens. change (id4 "trak") with TRACK. change (id4 "udta") with USER_DATA. now rewrite E2, Y.
    - replace (q + head_len (hd_size h)) with (q + head_len (hd_size h) + 0) by lia. eapply Into; [exact K|exact H|]. unfold opens, lv. change (id4 "moov") with MOVIE. now rewrite E.
  Qed.
  Lemma post_find_moov : forall inner len, len < 2 ^ 62 -> forall fuel parsed p, looks f [] p -> post (find_moov fuel m inner len parsed) p any.
  Proof.
    intros inner len Ll. induction fuel as [|fuel IH]; intros parsed p K; cbn [find_moov]; [right; exact I|].
    destruct (len <=? parsed) eqn:E; [apply post_fail|]. eapply post_bind; [apply post_head|]. intros h p1 [H ->]. assert (P : place [] p h) by (split; assumption).
    destruct (fourcc_eqb _ MOVIE) eqn:EM; [now apply post_moov|].
    eapply post_bind; [apply (post_skip [] p); [exact P|unfold opens, lv; change (id4 "moov") with MOVIE; now rewrite EM]|]. intros u p2 [K2 _].
    destruct (head_sound [] p h P) as [F|[_ Sz]]; [now left|]. assert (W : two64 = 4 * 2 ^ 62) by reflexivity. assert (W3 : 2 ^ 63 = 2 * 2 ^ 62) by reflexivity.
    eapply post_bind; [apply (post_lift _ _ (parsed + sz_len (hd_size h))); right; unfold add64; destruct (parsed + sz_len (hd_size h) <? two64) eqn:X; [reflexivity|rewrite W in X; lia]|].
    intros x p3 [_ ->]. now apply IH.
  Qed.
  Lemma post_read_tag : forall fuel, post (read_tag_from fuel m) 0 any.
  Proof.
    intros fuel. unfold read_tag_from.
    assert (W : two63 = 2 ^ 63) by reflexivity. assert (W3 : 2 ^ 63 = 2 * 2 ^ 62) by reflexivity.
    apply (post_bind _ _ _ (fun _ q => looks f [] q /\ q <= blen f)).
    - unfold ftyp_parse. eapply post_bind; [apply post_head|]. intros h p1 [H ->]. destruct (negb _) eqn:E; [apply post_fail|]. apply negb_false_iff in E.
      assert (P : place [] 0 h) by (split; [constructor|exact H]). eapply post_bind; [apply (post_content [] 0), P|]. intros c p2 (-> & -> & Sz).
      apply (post_weak _ _ (fun s q => q = 0 + sz_len (hd_size h) /\ q <= blen f)).
      + unfold read_utf8, read_u8_vec. assert (W4 : two63 = 2 ^ 63) by reflexivity. destruct (two63 <=? _) eqn:X; [rewrite W4 in X; lia|].
        eapply post_bind; [apply post_read|]. intros b q (-> & -> & L). pose proof (proj1 H) as Lh. destruct (dec8 _); [apply post_ret; split; lia|apply post_fail].
      + intros s q [-> L]. split; [|exact L]. eapply Past; [constructor|exact H|]. apply fourcc_eqb_eq in E. rewrite E. reflexivity.
    - intros s q [K Lq]. apply (post_bind _ _ _ (fun n p => n <= blen f /\ p = q)).
      + right. unfold remaining_stream_len, bind, position, seek_end, lift, sub64. destruct (q <=? blen f) eqn:X; [|lia].
        unfold seek_start. destruct (q <? two63) eqn:Y; [|rewrite W in Y; lia]. cbn. lia.
      + intros n p2 [Ln ->]. eapply post_bind; [apply post_find_moov; [lia|exact K]|]. intros r p3 _. apply post_ret. exact I.
  Qed.
End Panic.
