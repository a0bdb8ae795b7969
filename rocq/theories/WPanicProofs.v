(** Whenever writing panics there is a flaw in the file or in the values to be written. *)

From Coq Require Import List NArith ZArith Bool Lia Arith String.
From Coq Require Import ZifyBool ZifyNat ZifyN.
From Verif Require Import Base BaseLemmas Utf Types Stream Parse Find Write WriteState TagSpec FileSpec ParseLemmas FailSpec FailProofs PanicSpec WPanicSpec.
From Verif Require WritePanic WriteTerm.
Import ListNotations.
Local Open Scope list_scope.

(** * Tables *)

(** A chunk offset table and whether its entries have 64 bits. *)
Definition table := (bool * bounds)%type.
Definition tb_end (t : table) : N := b_pos (snd t) + sz_len (b_size (snd t)).
Definition apart (s t : table) : Prop := tb_end s <= b_pos (snd t) \/ tb_end t <= b_pos (snd s).
Definition otab (wide : bool) (o : option bounds) : list table := match o with Some b => [(wide, b)] | None => [] end.
Definition stbl_tables (sb : stbl_bounds) : list table := otab false (sb_stco sb) ++ otab true (sb_co64 sb).
Definition ostbl (o : option stbl_bounds) : list table := match o with Some sb => stbl_tables sb | None => [] end.
Definition ominf (o : option minf_bounds) : list table := match o with Some n => ostbl (nb_stbl n) | None => [] end.
Definition omdia (o : option mdia_bounds) : list table := match o with Some d => ominf (db_minf d) | None => [] end.
Definition trak_tables (t : trak_bounds) : list table := omdia (tb_mdia t).
Definition traks_tables (l : list trak_bounds) : list table := flat_map trak_tables l.

Lemma fop_app : forall {A} (R : A -> A -> Prop) l l', ForallOrdPairs R l -> ForallOrdPairs R l' -> (forall x y, In x l -> In y l' -> R x y) -> ForallOrdPairs R (l ++ l').
Proof.
  intros A R l l' H H' C. induction H as [|x l Hx H IH]; [exact H'|]. cbn. constructor.
  - apply Forall_app. split; [exact Hx|]. apply Forall_forall. intros y Iy. apply C; [now left|exact Iy].
  - apply IH. intros a b Ia Ib. apply C; [now right|exact Ib].
Qed.
Lemma fop_app_inv : forall {A} (R : A -> A -> Prop) l l', ForallOrdPairs R (l ++ l') -> ForallOrdPairs R l /\ ForallOrdPairs R l' /\ (forall x y, In x l -> In y l' -> R x y).
Proof.
  intros A R l l'. induction l as [|a l IH]; cbn; intros H; [split; [constructor|]; split; [exact H|intros x y []]|].
  inversion H as [|? ? Ha Hl]; subst. destruct (IH Hl) as (I1 & I2 & I3). apply Forall_app in Ha. destruct Ha as [Ha Ha'].
  split; [constructor; assumption|]. split; [exact I2|]. intros x y [<-|Ix] Iy; [rewrite Forall_forall in Ha'; now apply Ha'|now apply I3].
Qed.

Lemma as_i64_lt : forall n, n < 2 ^ 63 -> as_i64 n = Z.of_N n.
Proof. intros n L. unfold as_i64. assert (W : two63 = 2 ^ 63) by reflexivity. rewrite W. destruct (n <? 2 ^ 63) eqn:E; [reflexivity|lia]. Qed.
Lemma in64 : forall z, (- 2 ^ 63 <= z < 2 ^ 63)%Z -> in_i64 z = true.
Proof. intros z L. unfold in_i64. change (Z.of_N two63) with (2 ^ 63)%Z. lia. Qed.

Section Panic.
  Context (m : mode) (f : bytes) (items : list atom_data) (Lf : blen f < 2 ^ 62).
  Notation bad := (wflaw f items).

  Definition wpost {A} (x : R A) (p : N) (Q : A -> N -> Prop) : Prop :=
    bad \/ match x f p with Ok (a, p') => Q a p' | Panic _ => False | _ => True end.
  Lemma wp_bind : forall {A B} (x : R A) (k : A -> R B) p Q S, wpost x p Q -> (forall a p', Q a p' -> wpost (k a) p' S) -> wpost (bind x k) p S.
  Proof.
    intros A B x k p Q S [H|H] K; [now left|]. unfold wpost, bind. destruct (x f p) as [[a p']|e|q|]; try (right; exact I); [|contradiction].
    apply K, H.
  Qed.
  Lemma wp_weak : forall {A} (x : R A) p (Q Q' : A -> N -> Prop), wpost x p Q -> (forall a p', Q a p' -> Q' a p') -> wpost x p Q'.
  Proof. intros A x p Q Q' [H|H] K; [now left|]. right. destruct (x f p) as [[a p']|e|q|]; auto. Qed.
  Lemma wp_ret : forall {A} (a : A) p (Q : A -> N -> Prop), Q a p -> wpost (ret a) p Q. Proof. intros. now right. Qed.
  Lemma wp_fail : forall {A} e p (Q : A -> N -> Prop), wpost (fail e) p Q. Proof. intros. right. exact I. Qed.
  Lemma wp_lift : forall {A} (r : res A) p a, bad \/ r = Ok a -> wpost (lift r) p (fun x q => x = a /\ q = p).
  Proof. intros A r p a [H| ->]; [now left|]. right. cbn. auto. Qed.
  (** What succeeds or fails otherwise. *)
  Lemma wp_inv : forall {A} (x : R A) p (Q : A -> N -> Prop), (forall q, x f p <> Panic q) -> (forall a q, x f p = Ok (a, q) -> Q a q) -> wpost x p Q.
  Proof. intros A x p Q N K. right. destruct (x f p) as [[a q]|e|y|] eqn:E; try exact I; [now apply K|now apply (N y)]. Qed.
  Lemma wp_read : forall n p, wpost (read_exact n) p (fun b q => b = slice f p n /\ q = p + n /\ (n = 0 \/ p + n <= blen f)).
  Proof.
    intros n p. apply wp_inv.
    - intros q E. unfold read_exact in E. destruct (n =? 0); [discriminate|]. destruct (_ <=? _); discriminate.
    - intros b q E. apply read_exact_inv in E. destruct E as (-> & -> & E). auto.
  Qed.
  Lemma np_of_pk : forall {A} (x : R A), WritePanic.pk (fun _ => False) x -> forall p q, x f p <> Panic q.
  Proof. intros A x H p q E. exact (H f p q E). Qed.
  Lemma wp_head : forall p, wpost parse_head p (fun h q => box_at f p (hd_fourcc h) (head_len (hd_size h)) (sz_len (hd_size h)) /\ q = p + head_len (hd_size h)).
  Proof.
    intros p. apply wp_inv; [apply np_of_pk, WritePanic.pk_head|].
    intros h q E. apply parse_head_inv in E. destruct E as [-> B]. split; [exact B|reflexivity].
  Qed.
  Lemma wp_full : forall p, wpost parse_full_head p (fun _ q => q = p + 4).
  Proof.
    intros p. apply wp_inv; [apply np_of_pk, WritePanic.pk_full|].
    intros v q E. unfold parse_full_head in E. inv_bind E. unfold read_u8 in E0. inv_bind E0. injection E0 as <- <-.
    apply read_exact_inv in E1. destruct E1 as (-> & -> & _). inv_bind E. injection E as <- <-. apply read_exact_inv in E0. destruct E0 as (-> & -> & _). lia.
  Qed.

  (** * Sizes *)

  Definition place (w : within) (q : N) (h : head) : Prop := scans f w q /\ box_at f q (hd_fourcc h) (head_len (hd_size h)) (sz_len (hd_size h)).
  Definition sized (s : size) : Prop := head_len s <= sz_len s < 2 ^ 63.
  Lemma head_sound : forall w q h, place w q h ->
    bad \/ content_len m (hd_size h) = Ok (sz_len (hd_size h) - head_len (hd_size h)) /\ sized (hd_size h).
  Proof.
    intros w q h [K H]. pose proof H as (L & _ & [(E & Hh & Hs)|(E & S & Hh & Hs)]); unfold sized.
    - rewrite Hh in *. assert (K' : scanned f (lv w) q (hd_fourcc h) 16 (sz_len (hd_size h))) by (exists w; auto).
      destruct (N.lt_ge_cases (sz_len (hd_size h)) 16) as [C|C]; [left; eapply W_odd_size; [exact K'|now left]|].
      destruct (N.lt_ge_cases (sz_len (hd_size h)) (2 ^ 63)) as [D|D]; [|left; eapply W_odd_size; [exact K'|now right]].
      right. unfold content_len. unfold head_len in Hh. destruct (sz_ext (hd_size h)); [|discriminate].
      unfold sub64. destruct (16 <=? sz_len (hd_size h)) eqn:X; [|lia]. split; [reflexivity|lia].
    - right. unfold content_len. unfold head_len in *. destruct (sz_ext (hd_size h)); [discriminate|].
      unfold sub64. destruct (8 <=? sz_len (hd_size h)) eqn:X; [|lia]. split; [reflexivity|]. split; [lia|].
      rewrite Hs. unfold field. pose proof (unbe_lt (slice f q 4)) as B. assert (Z : blen (slice f q 4) <= 4) by (unfold slice, blen; rewrite firstn_length; lia).
      assert (256 ^ blen (slice f q 4) <= 256 ^ 4) by (apply N.pow_le_mono_r; [discriminate|exact Z]). assert (256 ^ 4 < 2 ^ 63) by reflexivity. lia.
  Qed.
  Lemma wp_seek_on : forall n p, n < 2 ^ 63 -> wpost (seek_cur (as_i64 n)) p (fun _ q => q = p + n).
  Proof.
    intros n p L. rewrite (as_i64_lt n L). right. unfold seek_cur. destruct (_ && _)%Z eqn:E; [|exact I]. lia.
  Qed.

  (** Behind a box the writer is at its end or later, at a place where it looks for the next. *)
  Definition behind (w : within) (q : N) (h : head) (p : N) : Prop := scans f w p /\ q + sz_len (hd_size h) <= p /\ sized (hd_size h).
  Lemma wp_skip : forall w q h, place w q h -> scan_opens (lv w) (hd_fourcc h) = None -> wpost (skip_atom m h) (q + head_len (hd_size h)) (fun _ => behind w q h).
  Proof.
    intros w q h P O. unfold skip_atom. destruct (head_sound w q h P) as [F|[E S]]; [now left|]. pose proof S as [S1 S2].
    eapply wp_bind; [apply (wp_lift _ _ (sz_len (hd_size h) - head_len (hd_size h))); now right|]. intros c p [-> ->].
    eapply wp_weak; [apply wp_seek_on; lia|]. cbv beta. intros u p ->. destruct P as [K H].
    replace (q + head_len (hd_size h) + (sz_len (hd_size h) - head_len (hd_size h))) with (q + sz_len (hd_size h)) by lia.
    split; [eapply Scan_past; eassumption|]. split; [lia|exact S].
  Qed.
  Lemma wp_bounds : forall q h, box_at f q (hd_fourcc h) (head_len (hd_size h)) (sz_len (hd_size h)) ->
    wpost (find_bounds m (hd_size h)) (q + head_len (hd_size h)) (fun b p => b = Bounds q (hd_size h) /\ p = q + head_len (hd_size h)).
  Proof.
    intros q h H. unfold find_bounds. eapply wp_bind; [apply (wp_inv _ _ (fun c p => c = q + head_len (hd_size h) /\ p = q + head_len (hd_size h))); [discriminate|intros c p E; injection E as <- <-; auto]|].
    intros c p [-> ->]. eapply wp_bind; [apply (wp_lift _ _ q); right; unfold sub64; destruct (_ <=? _) eqn:X; [f_equal; lia|lia]|].
    intros x p [-> ->]. apply wp_ret. auto.
  Qed.
  Lemma wp_leaf : forall w q h, place w q h -> scan_opens (lv w) (hd_fourcc h) = None ->
    wpost (leaf_find m (hd_size h)) (q + head_len (hd_size h)) (fun b p => b = Bounds q (hd_size h) /\ behind w q h p).
  Proof.
    intros w q h P O. unfold leaf_find. pose proof P as [K H]. eapply wp_bind; [apply wp_bounds, H|]. intros b p [-> ->].
    destruct (head_sound w q h P) as [F|[_ S]]; [now left|]. pose proof S as [S1 S2]. pose proof (proj1 H) as Lq.
    assert (W : two64 = 4 * 2 ^ 62) by reflexivity. assert (W3 : 2 ^ 63 = 2 * 2 ^ 62) by reflexivity.
    apply (wp_bind _ _ _ (fun _ => behind w q h)); [|intros u p Hb; apply wp_ret; auto].
    unfold seek_to_end. eapply wp_bind; [apply (wp_inv _ _ (fun c p => c = q + head_len (hd_size h) /\ p = q + head_len (hd_size h))); [discriminate|intros c p E; injection E as <- <-; auto]|].
    intros c p [-> ->]. unfold bounds_end. cbn [b_pos b_size].
    eapply wp_bind; [apply (wp_lift _ _ (q + sz_len (hd_size h))); right; unfold add64; destruct (_ <? _) eqn:X; [reflexivity|rewrite W in X; lia]|].
    intros e p [-> ->]. eapply wp_bind; [apply (wp_lift _ _ (sz_len (hd_size h) - head_len (hd_size h))); right; unfold sub64; destruct (_ <=? _) eqn:X; [f_equal; lia|lia]|].
    intros d p [-> ->]. eapply wp_weak; [apply wp_seek_on; lia|]. cbv beta. intros u p ->.
    replace (q + head_len (hd_size h) + (sz_len (hd_size h) - head_len (hd_size h))) with (q + sz_len (hd_size h)) by lia.
    split; [eapply Scan_past; eassumption|]. split; [lia|exact S].
  Qed.

  (** A loop over the boxes of a container, with what is known of its local variables. *)
  Lemma wp_loop : forall {S} (limit : res N) (body : head -> S -> R S) w lim (Inv : S -> N -> Prop), (bad \/ limit = Ok lim /\ lim < 2 ^ 63) ->
    (forall h s q, place w q h -> Inv s q -> wpost (body h s) (q + head_len (hd_size h)) (fun s' p => behind w q h p /\ Inv s' p)) ->
    forall fuel base parsed s p, scans f w p -> base + parsed <= p -> Inv s p ->
    wpost (atom_loop fuel m limit body parsed s) p (fun s' p' => scans f w p' /\ base + lim <= p' /\ Inv s' p').
  Proof.
    intros S limit body w lim Inv [F|[-> Ll]] B; [intros; now left|]. induction fuel as [|fuel IH]; intros base parsed s p K I0 I1; cbn [atom_loop]; [right; exact I|].
    eapply wp_bind; [apply (wp_lift _ _ lim); now right|]. intros l' p' [-> ->]. destruct (parsed <? lim) eqn:E; [|apply wp_ret; split; [exact K|split; [lia|exact I1]]].
    eapply wp_bind; [apply wp_head|]. intros h p1 [H ->]. assert (P : place w p h) by (split; assumption).
    eapply wp_bind; [apply B; [exact P|exact I1]|]. intros s' p2 ((K2 & L2 & S1 & S2) & I2).
    eapply wp_bind; [apply (wp_lift _ _ (parsed + sz_len (hd_size h)))|].
    { right. unfold add64. assert (W : two64 = 2 * 2 ^ 63) by reflexivity. destruct (parsed + sz_len (hd_size h) <? two64) eqn:X; [reflexivity|]. rewrite W in X. lia. }
    intros x p3 [-> ->]. apply IH; [exact K2|lia|exact I2].
  Qed.
  Lemma wp_container : forall {S} w q h l d (body : head -> S -> R S) (Inv : S -> N -> Prop) s, place w q h -> scan_opens (lv w) (hd_fourcc h) = Some (l, d) ->
    Inv s (q + head_len (hd_size h) + d) ->
    (forall w' h' s q', place w' q' h' -> lv w' = l -> Inv s q' -> wpost (body h' s) (q' + head_len (hd_size h')) (fun s' p => behind w' q' h' p /\ Inv s' p)) ->
    forall fuel, wpost (atom_loop fuel m (content_len m (hd_size h)) body d s) (q + head_len (hd_size h) + d) (fun s' p => behind w q h p /\ Inv s' p).
  Proof.
    intros S w q h l d body Inv s P O I0 B fuel. pose proof P as [K H]. destruct (head_sound w q h P) as [F|[E Sz]]; [now left|]. pose proof Sz as [S1 S2].
    eapply wp_weak.
    - apply (wp_loop _ body ((l, q + sz_len (hd_size h)) :: w) (sz_len (hd_size h) - head_len (hd_size h)) Inv) with (base := q + head_len (hd_size h)); [right; split; [exact E|lia]| | |lia|exact I0].
      + intros h' s' q' P' I'. apply B; [exact P'|reflexivity|exact I'].
      + eapply Scan_into; [exact K|exact H|exact O].
    - cbv beta. intros x p (Kp & Lp & Ip). split; [|exact Ip]. split; [eapply Scan_out; [exact Kp|lia]|]. split; [lia|exact Sz].
  Qed.
  Lemma wp_box0 : forall {S} w q h l (body : head -> S -> R S) (Inv : S -> N -> Prop) s, place w q h -> scan_opens (lv w) (hd_fourcc h) = Some (l, 0) ->
    Inv s (q + head_len (hd_size h)) ->
    (forall w' h' s q', place w' q' h' -> lv w' = l -> Inv s q' -> wpost (body h' s) (q' + head_len (hd_size h')) (fun s' p => behind w' q' h' p /\ Inv s' p)) ->
    forall fuel, wpost (atom_loop fuel m (content_len m (hd_size h)) body 0 s) (q + head_len (hd_size h)) (fun s' p => behind w q h p /\ Inv s' p).
  Proof.
    intros S w q h l body Inv s P O I0 B fuel. replace (q + head_len (hd_size h)) with (q + head_len (hd_size h) + 0) in * by lia. now apply (wp_container w q h l 0).
  Qed.

  (** * What is found *)

  Definition found_in (l : level) (id : fourcc) (b : bounds) : Prop := scanned f l (b_pos b) id (head_len (b_size b)) (sz_len (b_size b)) /\ sized (b_size b).
  Lemma found_here : forall w q h l id, place w q h -> lv w = l -> fourcc_eqb (hd_fourcc h) id = true -> sized (hd_size h) -> found_in l id (Bounds q (hd_size h)).
  Proof. intros w q h l id [K H] E X S. apply fourcc_eqb_eq in X. subst id. split; [exists w; auto|exact S]. Qed.
  Definition tname (wide : bool) : fourcc := if wide then id4 "co64" else id4 "stco".
  (** Tables that lie apart between [lo] and [hi]. *)
  Definition tables (l : list table) (lo hi : N) : Prop :=
    Forall (fun t => found_in InStbl (tname (fst t)) (snd t) /\ lo <= b_pos (snd t) /\ tb_end t <= hi) l /\ ForallOrdPairs apart l.
  Lemma tables_nil : forall lo hi, tables [] lo hi. Proof. intros. split; constructor. Qed.
  Lemma tables_le : forall l lo hi lo' hi', tables l lo hi -> lo' <= lo -> hi <= hi' -> tables l lo' hi'.
  Proof. intros l lo hi lo' hi' [H1 H2] L1 L2. split; [|exact H2]. eapply Forall_impl; [|exact H1]. cbv beta. intros t (A & B & C). split; [exact A|lia]. Qed.
  Lemma tables_app : forall l l' lo mid hi, tables l lo mid -> tables l' mid hi -> lo <= mid -> mid <= hi -> tables (l ++ l') lo hi.
  Proof.
    intros l l' lo mid hi [H1 H2] [H1' H2'] L1 L2. split.
    - apply Forall_app. split; [eapply Forall_impl; [|exact H1]|eapply Forall_impl; [|exact H1']]; cbv beta; intros t (A & B & C); (split; [exact A|lia]).
    - apply fop_app; [exact H2|exact H2'|]. intros x y Ix Iy. left. rewrite Forall_forall in H1, H1'. destruct (H1 x Ix) as (_ & _ & A). destruct (H1' y Iy) as (_ & B & _). lia.
  Qed.
  Lemma tables_swap : forall l l' lo mid hi, tables l mid hi -> tables l' lo mid -> lo <= mid -> mid <= hi -> tables (l ++ l') lo hi.
  Proof.
    intros l l' lo mid hi [H1 H2] [H1' H2'] L1 L2. split.
    - apply Forall_app. split; [eapply Forall_impl; [|exact H1]|eapply Forall_impl; [|exact H1']]; cbv beta; intros t (A & B & C); (split; [exact A|lia]).
    - apply fop_app; [exact H2|exact H2'|]. intros x y Ix Iy. right. rewrite Forall_forall in H1, H1'. destruct (H1 x Ix) as (_ & B & _). destruct (H1' y Iy) as (_ & _ & A). lia.
  Qed.
  Lemma tables_inv : forall l l' lo hi, tables (l ++ l') lo hi -> tables l lo hi /\ tables l' lo hi.
  Proof. intros l l' lo hi [H1 H2]. apply Forall_app in H1. apply fop_app_inv in H2. unfold tables. tauto. Qed.

  Section Find.
    Context (fuel : nat).

    (** What a loop has found so far lies between its start and where it is. *)
    Definition sofar {A} (g : A -> list table) (lo : N) (s : A) (p : N) : Prop := lo <= p /\ tables (g s) lo p.
    Lemma sofar_next : forall {A} (g : A -> list table) w lo q h s p, sofar g lo s q -> behind w q h p -> sofar g lo s p.
    Proof. intros A g w lo q h s p [L T] (_ & E & _). split; [lia|]. eapply tables_le; [exact T|lia|lia]. Qed.
    Lemma sofar_new : forall {A} (g : A -> list table) w lo q h s s' p, sofar g lo s q -> behind w q h p -> tables (g s') q p -> sofar g lo s' p.
    Proof. intros A g w lo q h s s' p [L T] (_ & E & _) T'. split; [lia|]. eapply tables_le; [exact T'|lia|lia]. Qed.

    Lemma wp_stbl : forall w q h, place w q h -> lv w = InMinf -> fourcc_eqb (hd_fourcc h) SAMPLE_TABLE = true ->
      wpost (stbl_find fuel m (hd_size h)) (q + head_len (hd_size h)) (fun x p => behind w q h p /\ tables (stbl_tables x) q p).
    Proof.
      intros w q h P Iw E. pose proof P as [K H]. unfold stbl_find. eapply wp_bind; [apply wp_bounds, H|]. intros b p [-> ->].
      set (g := fun r : option bounds * option bounds => otab false (fst r) ++ otab true (snd r)).
      apply (wp_bind _ _ _ (fun r p => behind w q h p /\ sofar g (q + head_len (hd_size h)) r p)).
      - apply (wp_box0 w q h InStbl); [exact P|rewrite Iw; unfold scan_opens; change (id4 "stbl") with SAMPLE_TABLE; now rewrite E|split; [lia|apply tables_nil]|].
        intros w' h' s q' P' Iw' S. assert (O : scan_opens (lv w') (hd_fourcc h') = None) by (rewrite Iw'; reflexivity). unfold stbl_fbody. cbv zeta.
        pose proof S as [Sl St]. apply tables_inv in St. destruct St as [T1 T2].
        assert (T : forall wide p, fourcc_eqb (hd_fourcc h') (tname wide) = true -> behind w' q' h' p -> tables (otab wide (Some (Bounds q' (hd_size h')))) q' p).
        { intros wide p X (_ & X2 & X3). split; [|constructor; constructor]. constructor; [|constructor]. cbn [fst snd].
          split; [exact (found_here w' q' h' _ _ P' Iw' X X3)|]. unfold tb_end. cbn [snd b_pos b_size]. lia. }
        destruct (fourcc_eqb (hd_fourcc h') SAMPLE_TABLE_CHUNK_OFFSET) eqn:E1; [|destruct (fourcc_eqb (hd_fourcc h') SAMPLE_TABLE_CHUNK_OFFSET_64) eqn:E2].
        + eapply wp_bind; [apply (wp_leaf w' q'); assumption|]. intros b p [-> Hb]. apply wp_ret. split; [exact Hb|]. pose proof Hb as (_ & Hl & _).
          split; [lia|]. unfold g. cbn [fst snd]. apply tables_swap with (mid := q'); [apply T; assumption|exact T2|lia|lia].
        + eapply wp_bind; [apply (wp_leaf w' q'); assumption|]. intros b p [-> Hb]. apply wp_ret. split; [exact Hb|]. pose proof Hb as (_ & Hl & _).
          split; [lia|]. unfold g. cbn [fst snd]. apply tables_app with (mid := q'); [exact T1|apply T; assumption|lia|lia].
        + eapply wp_bind; [apply (wp_skip w' q'); assumption|]. intros u p Hb. apply wp_ret. split; [exact Hb|]. exact (sofar_next g w' _ q' h' s p S Hb).
      - intros r p [Hb [_ T]]. apply wp_ret. split; [exact Hb|]. cbn [stbl_tables sb_stco sb_co64]. eapply tables_le; [exact T|lia|lia].
    Qed.

    (** Containers of which one kind of child counts. *)
    Definition oinv {A} (P : A -> N -> N -> Prop) (lo : N) (s : option A) (p : N) : Prop := lo <= p /\ match s with Some a => P a lo p | None => True end.
    Lemma wp_opt : forall {A} (P : A -> N -> N -> Prop) (find : size -> R A) id w q h l k, (forall a lo hi lo' hi', P a lo hi -> lo' <= lo -> hi <= hi' -> P a lo' hi') ->
      place w q h -> scan_opens (lv w) (hd_fourcc h) = Some (l, 0) -> (forall i, scan_opens l i = if fourcc_eqb i id then Some k else None) ->
      (forall w' q' h', place w' q' h' -> lv w' = l -> fourcc_eqb (hd_fourcc h') id = true ->
        wpost (find (hd_size h')) (q' + head_len (hd_size h')) (fun x p => behind w' q' h' p /\ P x q' p)) ->
      wpost (atom_loop fuel m (content_len m (hd_size h)) (fun h r => if fourcc_eqb (hd_fourcc h) id then x <- find (hd_size h) ;; ret (Some x) else (skip_atom m h ;;; ret r)) 0 None)
        (q + head_len (hd_size h)) (fun r p => behind w q h p /\ oinv P (q + head_len (hd_size h)) r p).
    Proof.
      intros A P find id w q h l k Mo Pl O Ol F. apply (wp_box0 w q h l); [exact Pl|exact O|split; [lia|exact I]|].
      intros w' h' s q' P' Iw' [Sl S]. destruct (fourcc_eqb (hd_fourcc h') id) eqn:E.
      - eapply wp_bind; [apply (F w' q'); assumption|]. intros x p [Hb Px]. apply wp_ret. split; [exact Hb|]. pose proof Hb as (_ & Hl & _). split; [lia|].
        eapply Mo; [exact Px|lia|lia].
      - eapply wp_bind; [apply (wp_skip w' q'); [exact P'|rewrite Iw', Ol, E; reflexivity]|]. intros u p Hb. apply wp_ret. split; [exact Hb|]. pose proof Hb as (_ & Hl & _). split; [lia|].
        destruct s as [a|]; [|exact I]. eapply Mo; [exact S|lia|lia].
    Qed.

    Lemma wp_minf : forall w q h, place w q h -> lv w = InMdia -> fourcc_eqb (hd_fourcc h) MEDIA_INFORMATION = true ->
      wpost (minf_find fuel m (hd_size h)) (q + head_len (hd_size h)) (fun x p => behind w q h p /\ tables (ostbl (nb_stbl x)) q p).
    Proof.
      intros w q h P Iw E. pose proof P as [K H]. unfold minf_find. eapply wp_bind; [apply wp_bounds, H|]. intros b p [-> ->].
      eapply wp_bind.
      - apply (wp_opt (fun x lo hi => tables (stbl_tables x) lo hi) (stbl_find fuel m) SAMPLE_TABLE w q h InMinf (InStbl, 0)).
        + intros. eapply tables_le; eassumption.
        + exact P.
        + rewrite Iw. unfold scan_opens. change (id4 "minf") with MEDIA_INFORMATION. now rewrite E.
        + reflexivity.
        + intros. now apply wp_stbl.
      - cbv beta. intros r p [Hb [_ T]]. apply wp_ret. split; [exact Hb|]. cbn [nb_stbl ostbl]. destruct r as [x|]; [|apply tables_nil]. eapply tables_le; [exact T|lia|lia].
    Qed.
    Lemma wp_mdia : forall w q h, place w q h -> lv w = InTrak -> fourcc_eqb (hd_fourcc h) MEDIA = true ->
      wpost (mdia_find fuel m (hd_size h)) (q + head_len (hd_size h)) (fun x p => behind w q h p /\ tables (ominf (db_minf x)) q p).
    Proof.
      intros w q h P Iw E. pose proof P as [K H]. unfold mdia_find. eapply wp_bind; [apply wp_bounds, H|]. intros b p [-> ->].
      eapply wp_bind.
      - apply (wp_opt (fun x lo hi => tables (ostbl (nb_stbl x)) lo hi) (minf_find fuel m) MEDIA_INFORMATION w q h InMdia (InMinf, 0)).
        + intros. eapply tables_le; eassumption.
        + exact P.
        + rewrite Iw. unfold scan_opens. change (id4 "mdia") with MEDIA. now rewrite E.
        + reflexivity.
        + intros. now apply wp_minf.
      - cbv beta. intros r p [Hb [_ T]]. apply wp_ret. split; [exact Hb|]. cbn [db_minf ominf]. destruct r as [x|]; [|apply tables_nil]. eapply tables_le; [exact T|lia|lia].
    Qed.
    Lemma wp_trak : forall w q h, place w q h -> lv w = InMoov -> fourcc_eqb (hd_fourcc h) TRACK = true ->
      wpost (trak_find fuel m (hd_size h)) (q + head_len (hd_size h)) (fun x p => behind w q h p /\ tables (trak_tables x) q p).
    Proof.
      intros w q h P Iw E. pose proof P as [K H]. unfold trak_find. eapply wp_bind; [apply wp_bounds, H|]. intros b p [-> ->].
      eapply wp_bind.
      - apply (wp_opt (fun x lo hi => tables (ominf (db_minf x)) lo hi) (mdia_find fuel m) MEDIA w q h InTrak (InMdia, 0)).
        + intros. eapply tables_le; eassumption.
        + exact P.
        + rewrite Iw. unfold scan_opens. change (id4 "trak") with TRACK. now rewrite E.
        + reflexivity.
        + intros. now apply wp_mdia.
      - cbv beta. intros r p [Hb [_ T]]. apply wp_ret. split; [exact Hb|]. unfold trak_tables, omdia. cbn [tb_mdia]. destruct r as [x|]; [|apply tables_nil]. eapply tables_le; [exact T|lia|lia].
    Qed.

    Definition oall {A} (P : A -> Prop) (o : option A) : Prop := match o with Some a => P a | None => True end.
    Definition meta_good (x : meta_bounds) : Prop := found_in InUdta (id4 "meta") (eb_bounds x) /\ oall (found_in InMeta (id4 "ilst")) (eb_ilst x).
    Definition udta_good (x : udta_bounds) : Prop := found_in InMoov (id4 "udta") (ub_bounds x) /\ oall meta_good (ub_meta x).
    Definition moov_good (x : moov_bounds) : Prop :=
      found_in Top (id4 "moov") (vb_bounds x) /\ oall udta_good (vb_udta x) /\ exists hi, tables (traks_tables (vb_trak x)) 0 hi.

    Lemma wp_meta : forall w q h, place w q h -> lv w = InUdta -> fourcc_eqb (hd_fourcc h) METADATA = true ->
      wpost (meta_find fuel m (hd_size h)) (q + head_len (hd_size h)) (fun x p => behind w q h p /\ meta_good x).
    Proof.
      intros w q h P Iw E. pose proof P as [K H]. unfold meta_find. eapply wp_bind; [apply wp_bounds, H|]. intros b p [-> ->].
      eapply wp_bind; [apply wp_full|]. cbv beta. intros vf p ->. destruct (negb _); [apply wp_fail|].
      apply (wp_bind _ _ _ (fun r p => behind w q h p /\ oall (found_in InMeta (id4 "ilst")) (snd r))).
      - apply (wp_container w q h InMeta 4 _ (fun r _ => oall (found_in InMeta (id4 "ilst")) (snd r))); [exact P| |exact I|].
        + rewrite Iw. unfold scan_opens. change (id4 "meta") with METADATA. now rewrite E.
        + intros w' h' s q' P' Iw' S. assert (O : scan_opens (lv w') (hd_fourcc h') = None) by (rewrite Iw'; reflexivity). unfold meta_fbody. cbv zeta.
          destruct (fourcc_eqb (hd_fourcc h') HANDLER_REFERENCE) eqn:E1; [|destruct (fourcc_eqb (hd_fourcc h') ITEM_LIST) eqn:E2].
          * eapply wp_bind; [apply (wp_leaf w' q'); assumption|]. intros b p [-> Hb]. apply wp_ret. split; [exact Hb|exact S].
          * eapply wp_bind; [apply (wp_leaf w' q'); assumption|]. intros b p [-> Hb]. apply wp_ret. split; [exact Hb|]. cbn [snd oall].
            exact (found_here w' q' h' _ _ P' Iw' E2 (proj2 (proj2 Hb))).
          * eapply wp_bind; [apply (wp_skip w' q'); assumption|]. intros u p Hb. apply wp_ret. split; [exact Hb|exact S].
      - intros r p [Hb S]. apply wp_ret. split; [exact Hb|]. split; [exact (found_here w q h _ _ P Iw E (proj2 (proj2 Hb)))|exact S].
    Qed.
    Lemma wp_udta : forall w q h, place w q h -> lv w = InMoov -> fourcc_eqb (hd_fourcc h) USER_DATA = true -> fourcc_eqb (hd_fourcc h) TRACK = false ->
      wpost (udta_find fuel m (hd_size h)) (q + head_len (hd_size h)) (fun x p => behind w q h p /\ udta_good x).
    Proof.
      intros w q h P Iw E NT. pose proof P as [K H]. unfold udta_find. eapply wp_bind; [apply wp_bounds, H|]. intros b p [-> ->].
      eapply wp_bind.
      - apply (wp_opt (fun x lo hi => meta_good x) (meta_find fuel m) METADATA w q h InUdta (InMeta, 4)).
        + auto.
        + exact P.
        + rewrite Iw. unfold scan_opens. change (id4 "trak") with TRACK. change (id4 "udta") with USER_DATA. now rewrite NT, E.
        + reflexivity.
        + intros. now apply wp_meta.
      - cbv beta. intros r p [Hb [_ T]]. apply wp_ret. split; [exact Hb|]. split; [exact (found_here w q h _ _ P Iw E (proj2 (proj2 Hb)))|exact T].
    Qed.
    Lemma wp_moov : forall w q h, place w q h -> lv w = Top -> fourcc_eqb (hd_fourcc h) MOVIE = true ->
      wpost (moov_find fuel m (hd_size h)) (q + head_len (hd_size h)) (fun x p => behind w q h p /\ moov_good x).
    Proof.
      intros w q h P Iw E. pose proof P as [K H]. unfold moov_find. eapply wp_bind; [apply wp_bounds, H|]. intros b p [-> ->].
      apply (wp_bind _ _ _ (fun r p => behind w q h p /\ (oall udta_good (snd r) /\ tables (traks_tables (fst r)) 0 p))).
      - apply (wp_box0 w q h InMoov _ (fun r p => oall udta_good (snd r) /\ tables (traks_tables (fst r)) 0 p)); [exact P| |split; [exact I|apply tables_nil]|].
        + rewrite Iw. unfold scan_opens. change (id4 "moov") with MOVIE. now rewrite E.
        + intros w' h' s q' P' Iw' [Su St]. unfold moov_fbody. cbv zeta.
          destruct (fourcc_eqb (hd_fourcc h') TRACK) eqn:E1; [|destruct (fourcc_eqb (hd_fourcc h') USER_DATA) eqn:E2].
          * eapply wp_bind; [apply (wp_trak w' q'); assumption|]. intros t p [Hb T]. apply wp_ret. split; [exact Hb|]. pose proof Hb as (_ & Hl & _). cbn [fst snd]. split; [exact Su|].
            unfold traks_tables. rewrite flat_map_app. apply tables_app with (mid := q'); [exact St| |lia|lia]. cbn [flat_map]. rewrite app_nil_r. exact T.
          * eapply wp_bind; [apply (wp_udta w' q'); assumption|]. intros u p [Hb T]. apply wp_ret. split; [exact Hb|]. pose proof Hb as (_ & Hl & _). cbn [fst snd oall]. split; [exact T|].
            eapply tables_le; [exact St|lia|lia].
          * eapply wp_bind; [apply (wp_skip w' q'); [exact P'|]|].
            { rewrite Iw'. unfold scan_opens. change (id4 "trak") with TRACK. change (id4 "udta") with USER_DATA. now rewrite E1, E2. }
            intros u p Hb. apply wp_ret. split; [exact Hb|]. pose proof Hb as (_ & Hl & _). split; [exact Su|]. eapply tables_le; [exact St|lia|lia].
      - intros r p [Hb [S T]]. apply wp_ret. split; [exact Hb|]. split; [exact (found_here w q h _ _ P Iw E (proj2 (proj2 Hb)))|]. split; [exact S|]. exists p. exact T.
    Qed.
    Lemma wp_scan : wpost (scan fuel m) 0 (fun sc _ => moov_good (fst sc)).
    Proof.
      unfold scan. assert (W : two63 = 2 ^ 63) by reflexivity. assert (W3 : 2 ^ 63 = 2 * 2 ^ 62) by reflexivity.
      apply (wp_bind _ _ _ (fun _ q => scans f [] q /\ q <= blen f)).
      { unfold ftyp_parse. eapply wp_bind; [apply wp_head|]. intros h p1 [H ->]. destruct (negb _) eqn:E; [apply wp_fail|]. apply negb_false_iff in E.
        assert (P : place [] 0 h) by (split; [constructor|exact H]). destruct (head_sound [] 0 h P) as [F|[Ec [S1 S2]]]; [now left|].
        eapply wp_bind; [apply (wp_lift _ _ (sz_len (hd_size h) - head_len (hd_size h))); now right|]. intros c p2 [-> ->].
        unfold read_utf8, read_u8_vec. destruct (two63 <=? _) eqn:X; [rewrite W in X; lia|].
        eapply wp_bind; [apply wp_read|]. intros b q (-> & -> & L). pose proof (proj1 H) as Lh. destruct (dec8 _); [|apply wp_fail]. apply wp_ret.
        replace (0 + head_len (hd_size h) + (sz_len (hd_size h) - head_len (hd_size h))) with (0 + sz_len (hd_size h)) in * by lia.
        split; [|lia]. eapply Scan_past; [constructor|exact H|]. apply fourcc_eqb_eq in E. rewrite E. reflexivity. }
      intros s q [K Lq]. apply (wp_bind _ _ _ (fun n p => n <= blen f /\ p = q)).
      { right. unfold remaining_stream_len, bind, position, seek_end, lift, sub64. destruct (q <=? blen f) eqn:X; [|lia].
        unfold seek_start. destruct (q <? two63) eqn:Y; [|rewrite W in Y; lia]. cbn. lia. }
      intros n p2 [Ln ->]. eapply wp_bind.
      - apply (wp_loop _ (top_fbody fuel m) [] n (fun r _ => oall moov_good (fst r))) with (base := 0); [right; split; [reflexivity|lia]| |exact K|lia|exact I].
        intros h s' q' P' S. unfold top_fbody. cbv zeta.
        destruct (fourcc_eqb (hd_fourcc h) MOVIE) eqn:E1; [|destruct (fourcc_eqb (hd_fourcc h) MEDIA_DATA) eqn:E2].
        + eapply wp_bind; [apply (wp_moov [] q'); [exact P'|reflexivity|exact E1]|]. intros x p [Hb G]. apply wp_ret. auto.
        + eapply wp_bind; [apply (wp_leaf [] q'); [exact P'|]|]. { apply fourcc_eqb_eq in E2. rewrite E2. reflexivity. } intros b p [-> Hb]. apply wp_ret. auto.
        + eapply wp_bind; [apply (wp_skip [] q'); [exact P'|]|]. { unfold scan_opens, lv. change (id4 "moov") with MOVIE. now rewrite E1. } intros u p Hb. apply wp_ret. auto.
      - cbv beta. intros r p (_ & _ & G). destruct (fst r) as [mb|]; [|apply wp_fail]. apply wp_ret. exact G.
    Qed.
  End Find.

  (** * The plan *)

  Context (La : nsum (map ad_len items) < 2 ^ 61).
  Lemma not_cut : forall l id b, found_in l id b -> around_list l id \/ l = InMeta /\ id = id4 "ilst" ->
    bad \/ bounds_end m b = Ok (b_pos b + sz_len (b_size b)) /\ b_pos b + sz_len (b_size b) <= blen f.
  Proof.
    intros l id b [K S] A. destruct (N.lt_ge_cases (blen f) (b_pos b + sz_len (b_size b))) as [C|C]; [left; eapply W_cut; eassumption|]. right. split; [|exact C].
    unfold bounds_end, add64. assert (W : two64 = 4 * 2 ^ 62) by reflexivity. destruct (_ <? _) eqn:X; [reflexivity|rewrite W in X; lia].
  Qed.
  Definition growable (b : bounds) : Prop := sz_len (b_size b) + room items < 2 ^ 63.
  Lemma can_grow : forall l id b, found_in l id b -> around_list l id -> bad \/ growable b.
  Proof. intros l id b [K S] A. destruct (N.lt_ge_cases (sz_len (b_size b) + room items) (2 ^ 63)) as [C|C]; [now right|left; eapply W_huge; eassumption]. Qed.
  Definition new_items (n : new_atoms) : list atom_data := match n with NUdta x | NMeta x => nm_ilst x | NIlst _ l => l end.
  Definition plan_good (p : plan) : Prop :=
    moov_good (pl_moov p) /\ Forall growable (pl_update p) /\ pl_moved_start p <= blen f /\ pl_old_len p = blen f /\
    (- Z.of_N (blen f) <= pl_diff p <= Z.of_N (room items))%Z /\ new_items (pl_new p) = items.

  (** From the difference on. *)
  Lemma wp_finish : forall mb mp start moved d0 up n p, moov_good mb -> Forall growable up -> moved <= blen f ->
    (- Z.of_N (blen f) <= d0 <= 0)%Z -> new_items n = items -> new_atoms_len n <= room items ->
    wpost (diff <- lift (addi m d0 (as_i64 (new_atoms_len n))) ;;
           old_len <- seek_end ;;
           moved_len <- lift (sub64 m old_len moved) ;;
           if two63 <=? moved_len then lift (Panic PCapacity) else
           seek_start moved ;;;
           mv <- read_to_end ;;
           ret (Plan mb mp start moved diff up n old_len mv)) p (fun pl _ => plan_good pl).
  Proof.
    intros mb mp start moved d0 up n p G U Lm Ld Ni Ln. assert (W : two63 = 2 * 2 ^ 62) by reflexivity. assert (W3 : 2 ^ 63 = 2 * 2 ^ 62) by reflexivity.
    assert (W4 : (2 ^ 63)%Z = Z.of_N (2 * 2 ^ 62)) by reflexivity. assert (Rm : room items < 2 ^ 62) by (unfold room; assert (2 ^ 61 + 100 < 2 ^ 62) by reflexivity; lia).
    eapply wp_bind; [apply (wp_lift _ _ (d0 + Z.of_N (new_atoms_len n))%Z)|].
    { right. rewrite as_i64_lt by lia. unfold addi. rewrite in64 by lia. reflexivity. }
    intros diff p1 [-> ->]. eapply wp_bind; [apply (wp_inv _ _ (fun l _ => l = blen f)); [discriminate|intros l q E; now injection E as <- <-]|].
    intros old p2 ->. eapply wp_bind; [apply (wp_lift _ _ (blen f - moved)); right; unfold sub64; destruct (_ <=? _) eqn:X; [reflexivity|lia]|].
    intros ml p3 [-> ->]. destruct (two63 <=? _) eqn:X; [rewrite W in X; lia|].
    eapply wp_bind; [apply (wp_inv _ _ (fun _ _ => True)); [intros q E; unfold seek_start in E; destruct (_ <? _); discriminate|auto]|]. intros u p4 _.
    eapply wp_bind; [apply (wp_inv _ _ (fun _ _ => True)); [discriminate|auto]|]. intros mv p5 _. apply wp_ret.
    unfold plan_good. cbn. split; [exact G|]. split; [exact U|]. split; [exact Lm|]. split; [reflexivity|]. split; [lia|exact Ni].
  Qed.
  Lemma wp_plan : forall sc p, moov_good (fst sc) -> wpost (WriteTerm.plan_rest m items sc) p (fun pl _ => plan_good pl).
  Proof.
    intros sc p G. pose proof G as (Gm & Gu & _). unfold WriteTerm.plan_rest. cbv zeta. set (mb := fst sc) in *.
    assert (W3 : 2 ^ 63 = 2 * 2 ^ 62) by reflexivity. assert (W4 : (2 ^ 63)%Z = Z.of_N (2 * 2 ^ 62)) by reflexivity.
    assert (Am : around_list Top (id4 "moov")) by (left; auto). assert (Au : around_list InMoov (id4 "udta")) by (right; left; auto). assert (Ae : around_list InUdta (id4 "meta")) by (right; right; auto).
    set (nh := match match match match vb_udta mb with Some u => ub_meta u | None => None end with Some e => eb_hdlr e | None => None end with None => Some meta_hdlr | Some _ => None end with x => x end) in *.
    assert (Hn : nh = None \/ nh = Some meta_hdlr).
    { unfold nh. destruct (match match vb_udta mb with Some u => ub_meta u | None => None end with Some e => eb_hdlr e | None => None end); auto. }
    clearbody nh. destruct (can_grow _ _ _ Gm Am) as [F|Gr]; [now left|].
    destruct (vb_udta mb) as [u|] eqn:Eu.
    - cbn [oall] in Gu. destruct Gu as [Gu Ge]. destruct (can_grow _ _ _ Gu Au) as [F|Gru]; [now left|]. destruct (ub_meta u) as [e|] eqn:Ee.
      + cbn [oall] in Ge. destruct Ge as [Ge Gi]. destruct (can_grow _ _ _ Ge Ae) as [F|Gre]; [now left|]. destruct (eb_ilst e) as [b|] eqn:Eb.
        * cbn [oall] in Gi. destruct (not_cut _ _ _ Gi ltac:(right; auto)) as [F|[C1 C2]]; [now left|]. rewrite C1.
          eapply wp_bind. { eapply wp_bind; [apply wp_lift; right; reflexivity|]. intros x p1 [-> ->].
            eapply wp_bind; [apply (wp_lift _ _ (0 - Z.of_N (sz_len (b_size b)))%Z); right|intros y p1 [-> ->]; apply wp_ret].
            - destruct Gi as [_ [S1 S2]]. rewrite as_i64_lt by lia. unfold subi. rewrite in64 by lia. reflexivity.
            - instantiate (1 := fun r _ => r = (b_pos b, b_pos b + sz_len (b_size b), (0 - Z.of_N (sz_len (b_size b)))%Z)). reflexivity. }
          cbv beta. intros r p1 ->. eapply wp_bind; [apply (wp_ret _ _ (fun r _ => r = (b_pos b, b_pos b + sz_len (b_size b)))); reflexivity|]. cbv beta. intros r p2 ->.
          eapply wp_bind; [apply (wp_ret _ _ (fun r _ => r = (b_pos b, b_pos b + sz_len (b_size b)))); reflexivity|]. cbv beta. intros r p3 ->. cbn [fst snd].
          apply wp_finish; [exact G|repeat constructor; assumption|exact C2|lia|reflexivity|apply (new_len_bound nh); [exact Hn|auto]].
        * destruct (not_cut _ _ _ Ge ltac:(left; exact Ae)) as [F|[C1 C2]]; [now left|]. rewrite C1.
          eapply wp_bind; [apply (wp_ret _ _ (fun r _ => r = (0, 0, 0%Z))); reflexivity|]. cbv beta. intros r p1 ->.
          eapply wp_bind. { eapply wp_bind; [apply wp_lift; right; reflexivity|]. intros x p2 [-> ->]. apply (wp_ret _ _ (fun r _ => r = (b_pos (eb_bounds e) + sz_len (b_size (eb_bounds e)), b_pos (eb_bounds e) + sz_len (b_size (eb_bounds e))))). reflexivity. }
          cbv beta. intros r p2 ->. eapply wp_bind; [apply (wp_ret _ _ (fun r _ => snd r = b_pos (eb_bounds e) + sz_len (b_size (eb_bounds e)))); reflexivity|]. cbv beta. intros r p3 Er. rewrite Er.
          apply wp_finish; [exact G|repeat constructor; assumption|exact C2|lia|reflexivity|apply (new_len_bound nh); [exact Hn|auto]].
      + destruct (not_cut _ _ _ Gu ltac:(left; exact Au)) as [F|[C1 C2]]; [now left|]. rewrite C1.
        eapply wp_bind; [apply (wp_ret _ _ (fun r _ => r = (0, 0, 0%Z))); reflexivity|]. cbv beta. intros r p1 ->.
        eapply wp_bind; [apply (wp_ret _ _ (fun r _ => True)); exact I|]. cbv beta. intros r p2 _.
        eapply wp_bind. { eapply wp_bind; [apply wp_lift; right; reflexivity|]. intros x p3 [-> ->]. apply (wp_ret _ _ (fun r _ => snd r = b_pos (ub_bounds u) + sz_len (b_size (ub_bounds u)))). reflexivity. }
        cbv beta. intros r2 p3 Er. rewrite Er. apply wp_finish; [exact G|repeat constructor; assumption|exact C2|lia|reflexivity|apply (new_len_bound nh); [exact Hn|auto]].
    - destruct (not_cut _ _ _ Gm ltac:(left; exact Am)) as [F|[C1 C2]]; [now left|]. rewrite C1.
      eapply wp_bind; [apply (wp_ret _ _ (fun r _ => r = (0, 0, 0%Z))); reflexivity|]. cbv beta. intros r p1 ->.
      eapply wp_bind; [apply (wp_ret _ _ (fun r _ => True)); exact I|]. cbv beta. intros r p2 _.
      eapply wp_bind. { eapply wp_bind; [apply wp_lift; right; reflexivity|]. intros x p3 [-> ->]. apply (wp_ret _ _ (fun r _ => snd r = b_pos (vb_bounds mb) + sz_len (b_size (vb_bounds mb)))). reflexivity. }
      cbv beta. intros r2 p3 Er. rewrite Er. apply wp_finish; [exact G|repeat constructor; assumption|exact C2|lia|reflexivity|apply (new_len_bound nh); [exact Hn|auto]].
  Qed.
  Lemma wp_prepare : forall fuel, wpost (prepare fuel m items) 0 (fun pl _ => plan_good pl).
  Proof. intros fuel. rewrite WriteTerm.prepare_eq. eapply wp_bind; [apply wp_scan|]. cbv beta. intros sc p G. apply wp_plan, G. Qed.
End Panic.

(** * The modifications *)

Lemma nth_error_ext : forall {A} (l l' : list A), (forall i, nth_error l i = nth_error l' i) -> l = l'.
Proof.
  induction l as [|x l IH]; intros [|y l'] H.
  - reflexivity.
  - specialize (H O). discriminate.
  - specialize (H O). discriminate.
  - pose proof (H O) as H0. injection H0 as ->. f_equal. apply IH. intros i. apply (H (Datatypes.S i)).
Qed.
Lemma nth_error_skip : forall {A} (l : list A) n i, nth_error (skipn n l) i = nth_error l (n + i).
Proof. induction l as [|x l IH]; intros [|n] i; cbn; try reflexivity; [now destruct i|apply IH]. Qed.
Lemma nth_error_first : forall {A} (l : list A) n i, nth_error (firstn n l) i = if (i <? n)%nat then nth_error l i else None.
Proof.
  induction l as [|x l IH]; intros [|n] [|i]; try reflexivity.
  - cbn [firstn nth_error]. now destruct (_ <? _)%nat.
  - cbn [firstn nth_error]. rewrite IH. reflexivity.
Qed.
Lemma N_lt_dec : forall a b, {a < b} + {~ a < b}.
Proof. intros a b. destruct (a <? b) eqn:E; [left|right]; lia. Qed.
Lemma slice_ext : forall g f p n, (forall i, p <= i < p + n -> nth_error g (N.to_nat i) = nth_error f (N.to_nat i)) -> slice g p n = slice f p n.
Proof.
  intros g f p n H. unfold slice. apply nth_error_ext. intros i. rewrite !nth_error_first, !nth_error_skip. destruct (i <? N.to_nat n)%nat eqn:E; [|reflexivity].
  specialize (H (p + N.of_nat i) ltac:(lia)). rewrite N2Nat.inj_add, Nat2N.id in H. exact H.
Qed.
Lemma read_many_fields : forall w rd g, (forall p v p', rd g p = Ok (v, p') -> p' = p + w /\ v = field g p w) ->
  forall k p l p', read_many k rd g p = Ok (l, p') -> forall v, In v l -> exists i, i < N.of_nat (List.length l) /\ v = field g (p + w * i) w.
Proof.
  intros w rd g R. induction k as [|k IH]; intros p l p' H v Iv; cbn [read_many] in H; [injection H as <- <-; destruct Iv|].
  inv_bind H. apply R in E. destruct E as [-> ->]. inv_bind H. injection H as <- <-. cbn [List.length]. destruct Iv as [<-|Iv].
  - exists 0. split; [lia|]. f_equal. lia.
  - destruct (IH _ _ _ E v Iv) as (i & Li & ->). exists (1 + i). split; [lia|]. f_equal. lia.
Qed.
Lemma table_fields : forall w rd s g p t p', (forall p v p', rd g p = Ok (v, p') -> p' = p + w /\ v = field g p w) ->
  table_parse w rd Checked s g p = Ok (t, p') -> forall v, In v (snd t) -> exists i, i < N.of_nat (List.length (snd t)) /\ v = field g (p + 8 + w * i) w.
Proof.
  intros w rd s f p t p' R H. unfold table_parse in H. inv_bind H. unfold parse_full_head in E. inv_bind E. unfold read_u8 in E0. inv_bind E0. injection E0 as <- <-.
  apply read_exact_inv in E1. destruct E1 as (-> & -> & _). inv_bind E. injection E as <- <-. apply read_exact_inv in E0. destruct E0 as (-> & -> & _).
  cbn [fst] in H. destruct (unbe (slice f p 1)) eqn:E1; [|discriminate]. inv_bind H. apply read_u32_inv in E. destruct E as (-> & -> & L). inv_bind H. apply lift_inv in E.
  destruct E as [E ->]. destruct (negb (8 + w * field f (p + 1 + 3) 4 =? v)) eqn:X; [discriminate|]. inv_bind H. injection E0 as <- <-. inv_bind H.
  injection H as <- <-. cbn [snd]. intros x Ix. destruct (read_many_fields w rd f R _ _ _ _ E0 x Ix) as (i & Li & ->). exists i. split; [exact Li|]. f_equal. lia.
Qed.

Section Modify.
  Context (f : bytes) (items : list atom_data) (Lf : blen f < 2 ^ 62) (La : nsum (map ad_len items) < 2 ^ 61).
  Notation bad := (wflaw f items).
  Context (cap : N) (diff : Z) (Ld : (- Z.of_N (blen f) <= diff <= Z.of_N (room items))%Z).

  (** The file differs from [f] at most in the tables [D]. *)
  Definition tinv (D : list table) (s : wst) : Prop :=
    (exists a b, stf f 0 a b s) /\ blen (w_file s) = blen f /\
    forall p, (forall t, In t D -> ~ (b_pos (snd t) <= p < tb_end t)) -> nth_error (w_file s) (N.to_nat p) = nth_error f (N.to_nat p).
  Definition calm_offset (v : N) : Prop := in_i64 (as_i64 v + diff) = true.
  Lemma offsets_calm : forall wide l, Forall calm_offset l -> WritePanic.pw (fun _ => False) (write_offsets cap Checked wide diff l).
  Proof.
    intros wide l F. induction F as [|v l Hv F IH]; [apply WritePanic.pw_ret|]. cbn [write_offsets].
    apply WritePanic.pw_bind; [apply WritePanic.pw_lift; intros q E; unfold addi in E; rewrite Hv in E; discriminate|intro].
    apply WritePanic.pw_bind; [apply WritePanic.pw_write|intro; exact IH].
  Qed.
  Lemma room_lt : room items < 2 ^ 62.
  Proof. unfold room. assert (2 ^ 61 + 100 < 2 ^ 62) by reflexivity. lia. Qed.
  Lemma calm_small : forall v, v + room items < 2 ^ 63 -> calm_offset v.
  Proof.
    intros v L. unfold calm_offset. rewrite as_i64_lt by lia. apply in64. assert (W4 : (2 ^ 63)%Z = Z.of_N (2 ^ 63)) by reflexivity.
    assert (W3 : 2 ^ 63 = 2 * 2 ^ 62) by reflexivity. lia.
  Qed.
  Lemma adjust_calm : forall wide b D s r s', found_in f InStbl (tname wide) b -> (forall t, In t D -> apart t (wide, b)) -> tinv D s ->
    adjust_table cap Checked wide diff b s = (r, s') -> bad \/ (forall q, r <> Panic q) /\ (r = Ok tt -> tinv ((wide, b) :: D) s').
  Proof.
    intros wide b D s r s' [F Sz] Ap ((a0 & b0 & S) & Ls & Sm) H. unfold adjust_table in H. destruct F as (w & K & Iw & B). pose proof (proj1 B) as Lb.
    assert (W : two64 = 4 * 2 ^ 62) by reflexivity. assert (W3 : two63 = 2 * 2 ^ 62) by reflexivity.
    assert (Ec : content_pos Checked b = Ok (b_pos b + head_len (b_size b))).
    { unfold content_pos, add64. destruct (_ <? _) eqn:X; [reflexivity|rewrite W in X; lia]. }
    unfold wbind at 1, wlift at 1 in H. rewrite Ec in H. pose proof (stf_file _ _ _ _ _ S) as Fs.
    unfold wbind at 1, w_read at 1 in H. destruct (b_pos b + head_len (b_size b) <? two63) eqn:E63; [|rewrite W3 in E63; lia].
    destruct ((if wide then co64_parse Checked (b_size b) else stco_parse Checked (b_size b)) (w_file s) (b_pos b + head_len (b_size b))) as [[t q]|e|x|] eqn:Et.
    2: { injection H as <- <-. right. split; discriminate. }
    2: { exfalso. assert (N : content_len Checked (b_size b) = Ok (sz_len (b_size b) - head_len (b_size b))).
         { destruct Sz as [S1 S2]. unfold content_len, head_len in *. destruct (sz_ext (b_size b)); unfold sub64; destruct (_ <=? _) eqn:X; try reflexivity; lia. }
         assert (P : WritePanic.pk (fun _ => False) (if wide then co64_parse Checked (b_size b) else stco_parse Checked (b_size b))).
         { assert (Q : forall w0 rd, WritePanic.pk (fun _ => False) rd -> WritePanic.pk (fun _ => False) (table_parse w0 rd Checked (b_size b))).
           { intros w0 rd Q. unfold table_parse. rewrite N. apply WritePanic.pk_bind; [apply WritePanic.pk_full|intro vf]. destruct (fst vf); [|apply WritePanic.pk_fail].
             apply WritePanic.pk_bind; [unfold read_u32; apply WritePanic.pk_bind; [apply WritePanic.pk_read|intro; apply WritePanic.pk_ret]|intro n].
             apply WritePanic.pk_bind; [apply WritePanic.pk_lift; discriminate|intro c]. destruct (negb _); [apply WritePanic.pk_fail|].
             apply WritePanic.pk_bind; [apply WritePanic.pk_pos|intro tp]. apply WritePanic.pk_bind; [apply WritePanic.pk_many, Q|intro; apply WritePanic.pk_ret]. }
           destruct wide; apply Q; unfold read_u32, read_u64; (apply WritePanic.pk_bind; [apply WritePanic.pk_read|intro; apply WritePanic.pk_ret]). }
         exact (P _ _ _ Et). }
    2: { injection H as <- <-. right. split; discriminate. }
    assert (T : fst t = b_pos b + head_len (b_size b) + 8 /\ content_len Checked (b_size b) = Ok (8 + width wide * N.of_nat (List.length (snd t))) /\
                b_pos b + head_len (b_size b) + 8 + width wide * N.of_nat (List.length (snd t)) <= blen (w_file s) /\
                forall v, In v (snd t) -> exists i, i < N.of_nat (List.length (snd t)) /\ v = field (w_file s) (b_pos b + head_len (b_size b) + 8 + width wide * i) (width wide)).
    { destruct wide.
      - destruct (table_inv 8 read_u64 (b_size b) (w_file s) (b_pos b + head_len (b_size b)) t q) as (T1 & T2 & T3); [|exact Et|].
        + intros p v p' R. apply read_u64_inv in R. destruct R as (-> & _ & R). lia.
        + split; [exact T1|]. split; [exact T2|]. split; [exact T3|]. eapply (table_fields 8 read_u64); [|exact Et]. intros p v p' R. apply read_u64_inv in R. destruct R as (-> & R & _). auto.
      - destruct (table_inv 4 read_u32 (b_size b) (w_file s) (b_pos b + head_len (b_size b)) t q) as (T1 & T2 & T3); [|exact Et|].
        + intros p v p' R. apply read_u32_inv in R. destruct R as (-> & _ & R). lia.
        + split; [exact T1|]. split; [exact T2|]. split; [exact T3|]. eapply (table_fields 4 read_u32); [|exact Et]. intros p v p' R. apply read_u32_inv in R. destruct R as (-> & R & _). auto. }
    destruct T as (T1 & T2 & T3 & T4).
    assert (Sb : b_pos b + sz_len (b_size b) = b_pos b + head_len (b_size b) + 8 + width wide * N.of_nat (List.length (snd t))).
    { unfold content_len, head_len in *. destruct (sz_ext (b_size b)); apply sub64_inv in T2; lia. }
    assert (Same : forall i, i < N.of_nat (List.length (snd t)) -> field (w_file s) (b_pos b + head_len (b_size b) + 8 + width wide * i) (width wide) = field f (b_pos b + head_len (b_size b) + 8 + width wide * i) (width wide)).
    { intros i Li. unfold field. f_equal. apply slice_ext. intros j Lj. apply Sm. intros x Ix Rx. unfold apart in Ap. specialize (Ap x Ix). unfold tb_end in *. cbn [snd] in Ap.
      assert (width wide * i + width wide <= width wide * N.of_nat (List.length (snd t))) by (rewrite <- (N.mul_1_r (width wide)) at 2; rewrite <- N.mul_add_distr_l; apply N.mul_le_mono_l; lia). lia. }
    assert (C : bad \/ Forall calm_offset (snd t)).
    { destruct (Forall_Exists_dec (fun v => v + room items < 2 ^ 63) (fun v => N_lt_dec (v + room items) (2 ^ 63)) (snd t)) as [A|A].
      - right. eapply Forall_impl; [|exact A]. cbv beta. apply calm_small.
      - apply Exists_exists in A. destruct A as (v & Iv & Nv). destruct (T4 v Iv) as (i & Li & Ev). rewrite (Same i Li) in Ev. destruct wide.
        + left. apply (W_far f items (b_pos b) (head_len (b_size b)) (sz_len (b_size b)) i); [exists w; auto|unfold width in *; lia|rewrite Ls in T3; lia|]. unfold width in Ev. rewrite <- Ev. lia.
        + exfalso. apply Nv. assert (v < 256 ^ 4).
          { rewrite Ev. unfold field. eapply N.lt_le_trans; [apply unbe_lt|]. apply N.pow_le_mono_r; [discriminate|]. unfold slice, blen, width. rewrite firstn_length. lia. }
          pose proof room_lt. assert (256 ^ 4 + 2 ^ 62 < 2 ^ 63) by reflexivity. lia. }
    destruct C as [C|C]; [now left|]. right. set (wd := width wide * N.of_nat (List.length (snd t))) in *.
    assert (Cut : exists x y z, w_file s = x ++ y ++ z /\ blen x = fst t /\ blen y = wd).
    { exists (firstn (N.to_nat (fst t)) (w_file s)), (firstn (N.to_nat wd) (skipn (N.to_nat (fst t)) (w_file s))), (skipn (N.to_nat wd) (skipn (N.to_nat (fst t)) (w_file s))).
      split; [rewrite firstn_skipn, firstn_skipn; reflexivity|]. unfold blen in *. rewrite !firstn_length, skipn_length. lia. }
    destruct Cut as (x & y & z & Ex & Lx & Ly).
    destruct (tri_seek f 0 (fst t) a0 b0 x (y ++ z) ltac:(rewrite <- Fs; exact Ex) (eq_sym Lx) ltac:(rewrite W3; lia) s (proj1 S)) as (s1 & Es & S1).
    unfold wbind at 1 in H. rewrite Es in H. unfold wbind at 1 in H. pose proof (offsets_calm wide (snd t) C s1) as Np. destruct (write_offsets cap Checked wide diff (snd t) s1) as [r2 s2] eqn:Ew.
    cbn [fst] in Np. eapply write_offsets_st in Ew; [|apply S1|exact Ly|lia]. destruct Ew as [Ab|(-> & d & Ld2 & S2)].
    - destruct r2 as [| |x0|]; try contradiction; [destruct (Np x0 eq_refl)|]. injection H as <- <-. split; discriminate.
    - destruct (tri_flush f 0 (x ++ d) z s2 S2) as (s3 & Ef & S3). rewrite Ef in H. injection H as <- <-. split; [discriminate|]. intros _.
      pose proof (stf_file _ _ _ _ _ S3) as F3. rewrite <- app_assoc in F3. split; [exists (x ++ d), z; exact S3|]. split.
      + rewrite F3. rewrite Ex in Ls. rewrite !blen_app in *. lia.
      + intros p Np'. rewrite F3. rewrite <- (Sm p (fun t0 It => Np' t0 (or_intror It))), Ex. apply nth_mid; [exact Ld2|]. intro R.
        apply (Np' (wide, b) (or_introl eq_refl)). unfold tb_end. cbn [snd]. lia.
  Qed.

  Lemma adjust_all : forall l D s r s', ForallOrdPairs apart (D ++ traks_tables l) -> Forall (fun t => found_in f InStbl (tname (fst t)) (snd t)) (traks_tables l) -> tinv D s ->
    adjust_traks cap Checked diff l s = (r, s') -> bad \/ forall q, r <> Panic q.
  Proof.
    (* one table, then the rest *)
    assert (One : forall wide o D D' s r s', ForallOrdPairs apart (D ++ otab wide o ++ D') -> Forall (fun t => found_in f InStbl (tname (fst t)) (snd t)) (otab wide o) -> tinv D s ->
      (match o with Some b => adjust_table cap Checked wide diff b | None => wret tt end) s = (r, s') ->
      bad \/ (forall q, r <> Panic q) /\ (r = Ok tt -> tinv (D ++ otab wide o) s')).
    { intros wide o D D' s r s' Ap Fo T H. destruct o as [b|]; cbn [otab] in *.
      - inversion Fo as [|? ? Fb _]; subst. cbn [fst snd] in Fb. apply fop_app_inv in Ap. destruct Ap as (_ & _ & Ap).
        destruct (adjust_calm wide b D s r s' Fb) as [C|[C1 C2]]; [intros t It; apply Ap; [exact It|now left]|exact T|exact H|now left|]. right. split; [exact C1|].
        intros E. destruct (C2 E) as (X1 & X2 & X3). split; [exact X1|]. split; [exact X2|]. intros p Np. apply X3. intros t [<-|It]; apply Np; apply in_or_app; [right; now left|now left].
      - injection H as <- <-. right. split; [discriminate|]. intros _. rewrite app_nil_r. exact T. }
    induction l as [|t l IH]; intros D s r s' Ap Fo T H; cbn [adjust_traks] in H; [injection H as <- <-; right; discriminate|].
    unfold traks_tables in *. cbn [flat_map] in *. apply Forall_app in Fo. destruct Fo as [Fo Fl].
    assert (X : forall r1 s1, match trak_stbl t with Some sb => adjust_stbl cap Checked diff sb | None => wret tt end s = (r1, s1) ->
      bad \/ (forall q, r1 <> Panic q) /\ (r1 = Ok tt -> tinv (D ++ trak_tables t) s1)).
    { intros r1 s1 X. assert (Et : trak_tables t = match trak_stbl t with Some sb => stbl_tables sb | None => [] end).
      { unfold trak_tables, trak_stbl, omdia, ominf, ostbl. destruct (tb_mdia t) as [d|]; [|reflexivity]. destruct (db_minf d) as [n|]; reflexivity. }
      rewrite Et in *. destruct (trak_stbl t) as [sb|]; [|injection X as <- <-; right; split; [discriminate|intros _; rewrite app_nil_r; exact T]].
      unfold stbl_tables in *. apply Forall_app in Fo. destruct Fo as [F1 F2]. unfold adjust_stbl in X. unfold wbind at 1 in X.
      destruct (match sb_stco sb with Some b => adjust_table cap Checked false diff b | None => wret tt end s) as [r2 s2] eqn:E1.
      rewrite <- !app_assoc in Ap. destruct (One false (sb_stco sb) D _ s r2 s2 Ap F1 T E1) as [C|[C1 C2]]; [now left|].
      destruct r2 as [u|e|q|]; [|injection X as <- <-; right; split; [exact C1|discriminate]|now destruct (C1 q)|injection X as <- <-; right; split; discriminate].
      destruct u. rewrite app_assoc in Ap. destruct (One true (sb_co64 sb) _ _ s2 r1 s1 Ap F2 (C2 eq_refl) X) as [C|[C3 C4]]; [now left|]. right. split; [exact C3|].
      intros E. rewrite app_assoc. apply C4, E. }
    unfold wbind at 1 in H. destruct (match trak_stbl t with Some sb => adjust_stbl cap Checked diff sb | None => wret tt end s) as [r1 s1].
    destruct (X r1 s1 eq_refl) as [C|[C1 C2]]; [now left|]. destruct r1 as [u|e|q|]; [|injection H as <- <-; right; discriminate|now destruct (C1 q)|injection H as <- <-; right; discriminate].
    destruct u. eapply IH; [|exact Fl|apply C2; reflexivity|exact H]. rewrite <- app_assoc. exact Ap.
  Qed.

  Lemma updates_calm : forall l, Forall (growable items) l -> WritePanic.pw (fun _ => False) (update_all cap Checked diff l).
  Proof.
    intros l F. induction F as [|b l G F IH]; [apply WritePanic.pw_ret|]. cbn [update_all]. apply WritePanic.pw_bind; [|intro; exact IH]. unfold update_atom.
    apply WritePanic.pw_bind; [apply WritePanic.pw_lift; intros q E; unfold addi in E; pose proof (calm_small _ G) as C; unfold calm_offset in C; rewrite C in E; discriminate|intro].
    apply WritePanic.pw_bind; [apply WritePanic.pw_sstart|intro]. destruct (sz_ext _).
    - apply WritePanic.pw_bind; [apply WritePanic.pw_write|intro]. apply WritePanic.pw_bind; [apply WritePanic.pw_scur|intro; apply WritePanic.pw_write].
    - apply WritePanic.pw_write.
  Qed.

  (** * The new boxes *)

  Notation po := (WritePanic.po (fun _ => False)).
  Lemma add32_ok : forall k n, bad \/ k + n mod 2 ^ 32 < 2 ^ 32 -> bad \/ po (olift (add32 Checked k (as_u32 n))).
  Proof.
    intros k n [B|L]; [now left|right]. intros q E. unfold olift, add32, as_u32 in E. cbn [snd] in E. assert (W : two32 = 2 ^ 32) by reflexivity. rewrite W in E.
    destruct (_ <? _) eqn:X; [discriminate|]. lia.
  Qed.
  Lemma po_raw : forall d, po (write_typed d).
  Proof.
    intros d. unfold write_typed. apply WritePanic.po_bind; [apply WritePanic.po_emit|intro]. apply WritePanic.po_bind; [apply WritePanic.po_emit|intro].
    unfold write_raw. destruct d; try apply WritePanic.po_emit. apply WritePanic.po_map. intro. apply WritePanic.po_emit.
  Qed.
  Lemma po_values : forall l, (forall d, In d l -> 16 + data_len d mod 2 ^ 32 < 2 ^ 32) ->
    po (omap (fun d => dl <~ olift (add32 Checked 16 (as_u32 (data_len d))) ;; emit (be32 dl) ~;; emit (fc_bytes DATA) ~;; write_typed d) l).
  Proof.
    induction l as [|d l IH]; intros H; cbn [omap]; [apply WritePanic.po_ret|]. apply WritePanic.po_bind; [|intro; apply IH; intros; apply H; now right].
    apply WritePanic.po_bind.
    - intros q E. unfold olift, add32, as_u32 in E. cbn [snd] in E. assert (W : two32 = 2 ^ 32) by reflexivity. rewrite W in E. specialize (H d (or_introl eq_refl)).
      destruct (_ <? _) eqn:X; [discriminate|]. lia.
    - intros dl. apply WritePanic.po_bind; [apply WritePanic.po_emit|intro]. apply WritePanic.po_bind; [apply WritePanic.po_emit|intro]. apply po_raw.
  Qed.
  Lemma po_item : forall a, In a items -> bad \/ po (ad_write Checked a).
  Proof.
    intros a Ia.
    assert (V : bad \/ forall d, In d (ad_data a) -> 16 + data_len d mod 2 ^ 32 < 2 ^ 32).
    { destruct (Forall_Exists_dec (fun d => 16 + data_len d mod 2 ^ 32 < 2 ^ 32) (fun d => N_lt_dec _ _) (ad_data a)) as [A|A].
      - right. rewrite Forall_forall in A. exact A.
      - left. apply Exists_exists in A. destruct A as (d & Id & Nd). eapply W_long_value; [exact Ia|exact Id|lia]. }
    destruct V as [V|V]; [now left|].
    assert (Nm : bad \/ forall mean name, ad_ident a = IFreeform mean name -> 12 + blen (enc8 mean) mod 2 ^ 32 < 2 ^ 32 /\ 12 + blen (enc8 name) mod 2 ^ 32 < 2 ^ 32).
    { destruct (ad_ident a) as [i|mean name] eqn:Ei; [right; discriminate|].
      destruct (N_lt_dec (12 + blen (enc8 mean) mod 2 ^ 32) (2 ^ 32)) as [A|A]; [|left; eapply W_long_name; [exact Ia|exact Ei|left; lia]].
      destruct (N_lt_dec (12 + blen (enc8 name) mod 2 ^ 32) (2 ^ 32)) as [A'|A']; [|left; eapply W_long_name; [exact Ia|exact Ei|right; lia]].
      right. intros mean' name' E. injection E as <- <-. split; assumption. }
    destruct Nm as [Nm|Nm]; [now left|]. right. unfold ad_write. apply WritePanic.po_bind; [apply WritePanic.po_emit|intro].
    apply WritePanic.po_bind; [|intro; apply po_values, V]. destruct (ad_ident a) as [i|mean name]; [apply WritePanic.po_emit|]. destruct (Nm mean name eq_refl) as [N1 N2].
    assert (A : forall n, 12 + n mod 2 ^ 32 < 2 ^ 32 -> po (olift (add32 Checked 12 (as_u32 n)))).
    { intros n L q E. unfold olift, add32, as_u32 in E. cbn [snd] in E. assert (W : two32 = 2 ^ 32) by reflexivity. rewrite W in E. destruct (_ <? _) eqn:X; [discriminate|]. lia. }
    apply WritePanic.po_bind; [apply WritePanic.po_emit|intro]. apply WritePanic.po_bind; [apply A, N1|intro].
    do 4 (apply WritePanic.po_bind; [apply WritePanic.po_emit|intro]). apply WritePanic.po_bind; [apply A, N2|intro].
    do 3 (apply WritePanic.po_bind; [apply WritePanic.po_emit|intro]). apply WritePanic.po_emit.
  Qed.
  Lemma po_items : bad \/ po (ilst_write Checked items).
  Proof.
    assert (H : forall l, incl l items -> bad \/ po (omap (ad_write Checked) l)).
    { induction l as [|a l IH]; intros Il; cbn [omap]; [right; apply WritePanic.po_ret|].
      destruct (po_item a (Il a (or_introl eq_refl))) as [B|B]; [now left|]. destruct IH as [C|C]; [intros x Ix; apply Il; now right|now left|].
      right. apply WritePanic.po_bind; [exact B|intro; exact C]. }
    destruct (H items (incl_refl _)) as [B|B]; [now left|]. right. unfold ilst_write. apply WritePanic.po_bind; [|intro; exact B].
    unfold write_head. destruct (sz_ext _); repeat (apply WritePanic.po_bind; [|intro]); apply WritePanic.po_emit.
  Qed.
  Lemma po_new : forall n, new_items n = items -> bad \/ po (new_atoms_write Checked n).
  Proof.
    intros n E. destruct po_items as [B|B]; [now left|]. right. rewrite <- E in B.
    assert (H : forall s id, po (write_head s id)) by (intros s id; unfold write_head; destruct (sz_ext _); repeat (apply WritePanic.po_bind; [|intro]); apply WritePanic.po_emit).
    assert (Hd : forall o, po (match o with Some h => hdlr_write h | None => oret tt end)) by (intros [h|]; [apply WritePanic.po_hdlr|apply WritePanic.po_ret]).
    assert (M : forall x, po (ilst_write Checked (nm_ilst x)) -> po (meta_write Checked x)).
    { intros x P. unfold meta_write. apply WritePanic.po_bind; [apply H|intro]. apply WritePanic.po_bind; [unfold write_full_head; apply WritePanic.po_bind; [apply WritePanic.po_emit|intro; apply WritePanic.po_emit]|intro].
      apply WritePanic.po_bind; [apply Hd|intro; exact P]. }
    destruct n as [x|x|h l]; cbn [new_items new_atoms_write] in *.
    - unfold udta_write. apply WritePanic.po_bind; [apply H|intro; apply M, B].
    - apply M, B.
    - apply WritePanic.po_bind; [apply Hd|intro; exact B].
  Qed.
End Modify.

Theorem panics_have_causes : forall cap fuel m items f q, blen f < 2 ^ 62 -> nsum (map ad_len items) < 2 ^ 61 ->
  wr_res (write_tag cap fuel m items f) = Panic q -> wflaw f items.
Proof.
  intros cap fuel m items f q Lf La H. unfold write_tag, write_tag_to in H. destruct (wp_prepare m f items Lf La fuel) as [B|G]; [exact B|].
  destruct (prepare fuel m items f 0) as [[p x]|e|y|]; try discriminate H; [|contradiction].
  destruct m.
  2: { exfalso. pose proof (WritePanic.pw_execute Wrapping (fun _ => False) ltac:(discriminate) cap p (Wst f 0 [] []) q) as X.
       destruct (execute cap Wrapping p _) as [r s]. destruct (bw_flush s). destruct (X H). }
  destruct G as ((_ & _ & hi & T) & U & Lm & Lo & Ld & Ni).
  destruct (po_new f items Lf La (pl_new p) Ni) as [B|Po]; [exact B|].
  assert (X : wflaw f items \/ forall q, fst (execute cap Checked p (Wst f 0 [] [])) <> Panic q).
  { unfold execute.
    assert (R : WritePanic.pw (fun _ => False) (update_all cap Checked (pl_diff p) (pl_update p) =;;
        (n <== wlift (addi Checked (as_i64 (pl_old_len p)) (pl_diff p)) ;; file_set_len (i_as_u64 n)) =;;
        bw_seek_start (pl_start p) =;; bw_out cap (new_atoms_write Checked (pl_new p)) =;;
        (q <== wlift (addi Checked (as_i64 (pl_moved_start p)) (pl_diff p)) ;; bw_seek_start (i_as_u64 q)) =;;
        bw_write cap (pl_moved p) =;; bw_flush)).
    { pose proof (room_lt f items Lf La) as Rl. assert (W3 : 2 ^ 63 = 2 * 2 ^ 62) by reflexivity.
      assert (A : forall n, n <= blen f -> forall q, addi Checked (as_i64 n) (pl_diff p) = Panic q -> False).
      { intros n L q0 E. unfold addi in E. pose proof (calm_small f items Lf La (pl_diff p) Ld n ltac:(lia)) as C. unfold calm_offset in C. rewrite C in E. discriminate. }
      apply WritePanic.pw_bind; [now apply (updates_calm f items Lf La)|intro].
      apply WritePanic.pw_bind; [apply WritePanic.pw_bind; [apply WritePanic.pw_lift, A; lia|intro; apply WritePanic.pw_setlen]|intro].
      apply WritePanic.pw_bind; [apply WritePanic.pw_sstart|intro].
      apply WritePanic.pw_bind; [apply WritePanic.pw_bind; [apply WritePanic.pw_chunks|intro; apply WritePanic.pw_lift, Po]|intro].
      apply WritePanic.pw_bind; [apply WritePanic.pw_bind; [apply WritePanic.pw_lift, A; lia|intro; apply WritePanic.pw_sstart]|intro].
      apply WritePanic.pw_bind; [apply WritePanic.pw_write|intro; apply WritePanic.pw_flush]. }
    unfold wbind at 1.
    assert (First : wflaw f items \/ forall q, fst ((if b_pos (vb_bounds (pl_moov p)) <? pl_mdat_pos p then adjust_traks cap Checked (pl_diff p) (vb_trak (pl_moov p)) else wret tt) (Wst f 0 [] [])) <> Panic q).
    { destruct (_ <? _); [|right; discriminate]. destruct (adjust_traks cap Checked (pl_diff p) (vb_trak (pl_moov p)) (Wst f 0 [] [])) as [r s] eqn:E.
      destruct T as [T1 T2]. eapply (adjust_all f items Lf La cap (pl_diff p) Ld (vb_trak (pl_moov p)) []) in E; [exact E|exact T2| |].
      - eapply Forall_impl; [|exact T1]. cbv beta. tauto.
      - split; [exists [], f; apply st_init|]. split; [reflexivity|]. intros; reflexivity. }
    destruct First as [B|N]; [now left|]. right. intros q0.
    destruct ((if b_pos (vb_bounds (pl_moov p)) <? pl_mdat_pos p then adjust_traks cap Checked (pl_diff p) (vb_trak (pl_moov p)) else wret tt) (Wst f 0 [] [])) as [[u|e|y|] s]; cbn [fst] in *; try discriminate; [|now destruct (N y)].
    intros E. exact (R s q0 E). }
  destruct X as [B|N]; [exact B|]. exfalso. destruct (execute cap Checked p (Wst f 0 [] [])) as [r s]. destruct (bw_flush s). cbn [wr_res] in H. subst r. now apply (N q).
Qed.
