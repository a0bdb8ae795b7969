(** The boxes of an arbitrary file as the writer finds them: its scan succeeds with them, or fails for a cause in the
    file. *)

From Coq Require Import List NArith ZArith Bool Lia Arith String.
From Coq Require Import ZifyBool ZifyNat ZifyN.
From Verif Require Import Base BaseLemmas Utf UtfLemmas Types Stream Parse Find Write TagSpec FileSpec ParseLemmas FailSpec FailProofs PanicSpec WPanicSpec Display Described DescribedIs DescribedWrite ErrSpec LayoutSpec.
From Verif Require WPanicProofs ErrProofs ErrExact WriteTerm PanicProofs.
Import ListNotations.
Local Open Scope list_scope.
Local Open Scope d_scope.

(** * Visited places are places that are looked at *)

Fixpoint vends (w' : within) (w : standing) (q : N) : Prop :=
  match w', w with
  | [], [(l, _)] => l = Top
  | (l', e) :: w', (l, k) :: w => l' = l /\ e <= q + k /\ vends w' w e
  | _, _ => False
  end.
Lemma vends_mono : forall w' w q q', vends w' w q -> q <= q' -> vends w' w q'.
Proof. intros [|[l' e] w'] [|[l k] w] q q' H L; cbn [vends] in *; auto. destruct H as (A & B & C). split; [exact A|]. split; [lia|exact C]. Qed.
Lemma vends_inner : forall w' w q, vends w' w q -> lv w' = inner w.
Proof. intros [|[l' e] w'] [|[l k] w] q H; cbn in *; try contradiction; [|apply H]. destruct w; [now subst|contradiction]. Qed.
Lemma vends_step : forall w' l k w q size, vends w' ((l, k) :: w) q -> vends w' ((l, k - size) :: w) (q + size).
Proof. intros [|[l' e] w'] l k w q size H; cbn [vends] in *; [exact H|]. destruct H as (A & B & C). split; [exact A|]. split; [lia|exact C]. Qed.
Lemma visits_scans : forall f w q, visits f w q -> exists w', scans f w' q /\ vends w' w q.
Proof.
  intros f w q H. induction H as [|l k w q id head size H IH K B O|l k w q id head size l' d H IH K B O|l l' k w q H IH].
  - exists []. split; [constructor|reflexivity].
  - destruct IH as (w' & L & E). exists w'. split; [|now apply vends_step]. eapply Scan_past; [exact L|exact B|]. now rewrite (vends_inner _ _ _ E).
  - destruct IH as (w' & L & E). exists ((l', q + size) :: w'). split.
    + eapply Scan_into; [exact L|exact B|]. now rewrite (vends_inner _ _ _ E).
    + cbn [vends]. split; [reflexivity|]. split; [lia|now apply vends_step].
  - destruct IH as ([|[l1 e] w'] & L & E); [cbn in E; contradiction|]. destruct E as (-> & E1 & E2). exists w'. split.
    + eapply Scan_out; [exact L|lia].
    + eapply vends_mono; [exact E2|lia].
Qed.

(** * Rows *)

Lemma row_visits : forall f l k q ns q', row f l k q ns q' -> forall w, visits f ((l, k) :: w) q -> visits f ((l, 0) :: w) q'.
Proof.
  intros f l k q ns q' H. induction H as [l q|l k q id head size ns q' K B O L H IH|l k q id head size l' d inside q1 ns q' K B O V H1 IH1 H2 IH2]; intros w S.
  - exact S.
  - apply IH. eapply Visits_past; eassumption.
  - apply IH2. eapply Visits_out, IH1. eapply Visits_into; eassumption.
Qed.

(** What the writer keeps of a box. *)
Definition bound (n : node) : bounds := Bounds (n_at n) (Size (n_head n =? 16) (n_size n)).
Definition stbl_of (n : node) : stbl_bounds :=
  StblBounds (bound n) (option_map bound (final (id4 "stco") (n_inside n))) (option_map bound (final (id4 "co64") (n_inside n))).
Definition minf_of (n : node) : minf_bounds := MinfBounds (bound n) (option_map stbl_of (final (id4 "stbl") (n_inside n))).
Definition mdia_of (n : node) : mdia_bounds := MdiaBounds (bound n) (option_map minf_of (final (id4 "minf") (n_inside n))).
Definition trak_of (n : node) : trak_bounds := TrakBounds (bound n) (option_map mdia_of (final (id4 "mdia") (n_inside n))).
Definition meta_of (n : node) : meta_bounds :=
  MetaBounds (bound n) (option_map bound (final (id4 "hdlr") (n_inside n))) (option_map bound (final (id4 "ilst") (n_inside n))).
Definition udta_of (n : node) : udta_bounds := UdtaBounds (bound n) (option_map meta_of (final (id4 "meta") (n_inside n))).
Definition moov_of (n : node) : moov_bounds :=
  MoovBounds (bound n) (map trak_of (filter (named (id4 "trak")) (n_inside n))) (option_map udta_of (final (id4 "udta") (n_inside n))).

Definition opt_upd {A} (id : fourcc) (g : node -> A) (o : option A) (n : node) : option A := if named id n then Some (g n) else o.
Lemma fold_opt : forall {A} id (g : node -> A) ns o, fold_left (opt_upd id g) ns (option_map g o) = option_map g (fold_left (fun o n => if named id n then Some n else o) ns o).
Proof. intros A id g ns. induction ns as [|n ns IH]; intros o; [reflexivity|]. cbn [fold_left]. rewrite <- IH. f_equal. unfold opt_upd. now destruct (named id n). Qed.
Lemma fold_final : forall {A} id (g : node -> A) ns, fold_left (opt_upd id g) ns None = option_map g (final id ns).
Proof. intros A id g ns. exact (fold_opt id g ns None). Qed.
Lemma fold_pair : forall {A B C} (u : A -> C -> A) (v : B -> C -> B) l (x : A * B), fold_left (fun x n => (u (fst x) n, v (snd x) n)) l x = (fold_left u l (fst x), fold_left v l (snd x)).
Proof. intros A B C u v l. induction l as [|n l IH]; intros x; [now destruct x|]. cbn [fold_left]. now rewrite IH. Qed.
Lemma fold_filter : forall {A} id (g : node -> A) l acc, fold_left (fun acc n => if named id n then acc ++ [g n] else acc) l acc = acc ++ map g (filter (named id) l).
Proof. intros A id g l. induction l as [|n l IH]; intros acc; [cbn; now rewrite app_nil_r|]. cbn [fold_left filter]. rewrite IH. destruct (named id n); [|reflexivity]. cbn [map]. now rewrite <- app_assoc. Qed.

Section Layout.
  Context (m : mode) (f : bytes) (items : list atom_data) (Lf : blen f < 2 ^ 62).
  Notation bad := (wflaw f items).
  Notation head_at := (PanicProofs.head_at f).

  (** * Operations *)

  Definition tri {A} (x : R A) (p : N) (E : err -> Prop) (Q : A -> N -> Prop) : Prop :=
    bad \/ match x f p with Ok (a, p') => Q a p' | Err e => E e | _ => True end.
  Lemma tri_bind : forall {A B} (x : R A) (k : A -> R B) p E Q S, tri x p E Q -> (forall a p', Q a p' -> tri (k a) p' E S) -> tri (bind x k) p E S.
  Proof. intros A B x k p E Q S [H|H] K; [now left|]. unfold tri, bind. destruct (x f p) as [[a p']|e|q|]; try (right; exact H); try (right; exact I). apply K, H. Qed.
  Lemma tri_weak : forall {A} (x : R A) p (E E' : err -> Prop) (Q Q' : A -> N -> Prop), tri x p E Q -> (forall e, E e -> E' e) -> (forall a p', Q a p' -> Q' a p') -> tri x p E' Q'.
  Proof. intros A x p E E' Q Q' [H|H] K L; [now left|]. right. destruct (x f p) as [[a p']|e|q|]; auto. Qed.
  Lemma tri_ret : forall {A} (a : A) p E (Q : A -> N -> Prop), Q a p -> tri (ret a) p E Q. Proof. intros. now right. Qed.
  Lemma tri_fail : forall {A} e p (E : err -> Prop) (Q : A -> N -> Prop), E e -> tri (fail e) p E Q. Proof. intros. now right. Qed.
  Lemma tri_lift : forall {A} (r : res A) p a E, bad \/ r = Ok a -> tri (lift r) p E (fun x q => x = a /\ q = p).
  Proof. intros A r p a E [H| ->]; [now left|]. right. cbn. auto. Qed.
  Definition eof (p n : N) (e : err) : Prop := e = EIoEof /\ blen f < p + n.
  Lemma tri_read : forall n p, tri (read_exact n) p (eof p n) (fun b q => b = slice f p n /\ q = p + n /\ (n = 0 \/ p + n <= blen f)).
  Proof.
    intros n p. right. destruct (read_exact n f p) as [[b q]|e|x|] eqn:E; try exact I.
    - apply read_exact_inv in E. destruct E as (-> & -> & E). auto.
    - unfold read_exact in E. destruct (n =? 0); [discriminate|]. destruct (_ <=? _) eqn:X; [discriminate|]. injection E as <-. split; [reflexivity|lia].
  Qed.
  Lemma tri_num : forall n p, n <> 0 -> tri (b <- read_exact n ;; ret (unbe b)) p (eof p n) (fun v q => v = field f p n /\ q = p + n /\ q <= blen f).
  Proof. intros n p N0. eapply tri_bind; [apply tri_read|]. intros b q (-> & -> & H). apply tri_ret. split; [reflexivity|]. split; [reflexivity|]. lia. Qed.
  Lemma tri_u8 : forall p, tri read_u8 p (eof p 1) (fun v q => v = field f p 1 /\ q = p + 1 /\ q <= blen f). Proof. intros p. now apply tri_num. Qed.
  Lemma tri_u32 : forall p, tri read_u32 p (eof p 4) (fun v q => v = field f p 4 /\ q = p + 4 /\ q <= blen f). Proof. intros p. now apply tri_num. Qed.
  Lemma tri_u64 : forall p, tri read_u64 p (eof p 8) (fun v q => v = field f p 8 /\ q = p + 8 /\ q <= blen f). Proof. intros p. now apply tri_num. Qed.
  Lemma tri_seek_on : forall n p, n < 2 ^ 63 -> tri (seek_cur (as_i64 n)) p (fun e => e = EIoSeek /\ 2 ^ 63 <= p + n) (fun _ q => q = p + n /\ q < 2 ^ 63).
  Proof.
    intros n p L. right. rewrite (WPanicProofs.as_i64_lt n L). unfold seek_cur. assert (W : two63 = 2 ^ 63) by reflexivity. rewrite W. rewrite <- N2Z.inj_add, N2Z.id.
    destruct (_ && _)%Z eqn:E; [split; [reflexivity|lia]|split; [reflexivity|lia]].
  Qed.
  Lemma tri_vec : forall n p, n < 2 ^ 63 -> tri (read_u8_vec n) p (fun e => eof p n e /\ n <> 0) (fun b q => b = slice f p n /\ q = p + n /\ (n = 0 \/ q <= blen f)).
  Proof.
    intros n p L. unfold read_u8_vec. assert (W : two63 = 2 ^ 63) by reflexivity. destruct (two63 <=? n) eqn:E; [rewrite W in E; lia|].
    destruct (N.eq_dec n 0) as [->|Z].
    - right. unfold read_exact. cbn. split; [reflexivity|]. split; [lia|now left].
    - eapply tri_weak; [apply tri_read|auto|]. cbv beta. intros b q (-> & -> & H). auto.
  Qed.
  Definition text_err (p n : N) (e : err) : Prop := eof p n e /\ n <> 0 \/ e = EUtf8 /\ (n = 0 \/ p + n <= blen f) /\ ~ is_utf8 (slice f p n).
  Lemma dec8_is : forall b s, dec8 b = Some s -> is_utf8 b.
  Proof. exact ErrExact.dec_is_utf8. Qed.
  Lemma tri_utf8 : forall n p, n < 2 ^ 63 -> tri (read_utf8 n) p (text_err p n) (fun _ q => q = p + n /\ (n = 0 \/ q <= blen f) /\ is_utf8 (slice f p n)).
  Proof.
    intros n p L. unfold read_utf8. eapply tri_bind; [eapply tri_weak; [apply tri_vec, L|intros e H; now left|intros b q H; exact H]|].
    intros b q (-> & -> & H). destruct (dec8 _) eqn:E; [apply tri_ret; split; [reflexivity|]; split; [exact H|]; eapply dec8_is; exact E|].
    apply tri_fail. right. split; [reflexivity|]. split; [exact H|now apply ErrProofs.is_utf8_dec].
  Qed.

  (** * Described programs *)

  Definition told (ns : list fourcc) (e : err) (t : ustring) : Prop := exists ns' s, wcause f (ns ++ ns') e s /\ t = says ns' s.
  Definition dpost {A} (ns : list fourcc) (x : D A) (p : N) (Q : A -> N -> Prop) : Prop :=
    bad \/ match x f p with DOk (a, p') => Q a p' | DErr e t => told ns e t | _ => True end.
  Lemma told_here : forall ns e t, wcause f ns e t -> told ns e t.
  Proof. intros ns e t H. exists [], t. rewrite app_nil_r. auto. Qed.
  Lemma dp_bind : forall {A B} ns (x : D A) (k : A -> D B) p Q S, dpost ns x p Q -> (forall a p', Q a p' -> dpost ns (k a) p' S) -> dpost ns (dbind x k) p S.
  Proof. intros A B ns x k p Q S [H|H] K; [now left|]. unfold dpost, dbind. destruct (x f p) as [[a p']|e t|q|]; try (right; exact H); try (right; exact I). apply K, H. Qed.
  Lemma dp_weak : forall {A} ns (x : D A) p (Q Q' : A -> N -> Prop), dpost ns x p Q -> (forall a p', Q a p' -> Q' a p') -> dpost ns x p Q'.
  Proof. intros A ns x p Q Q' [H|H] K; [now left|]. right. destruct (x f p) as [[a p']|e t|q|]; auto. Qed.
  Lemma dp_ret : forall {A} ns (a : A) p (Q : A -> N -> Prop), Q a p -> dpost ns (dret a) p Q. Proof. intros. now right. Qed.
  Lemma dp_fail : forall {A} ns e t p (Q : A -> N -> Prop), wcause f ns e t -> dpost ns (dfail e t) p Q. Proof. intros. right. now apply told_here. Qed.
  Lemma dp_saying : forall {A} ns t (x : R A) p E Q, tri x p E Q -> (forall e, E e -> wcause f ns e t) -> dpost ns (saying t x) p Q.
  Proof. intros A ns t x p E Q [H|H] K; [now left|]. right. unfold saying. destruct (x f p) as [[a p']|e|q|]; auto using told_here. Qed.
  Lemma dp_plainly : forall {A} ns (x : R A) p E Q, tri x p E Q -> (forall e, E e -> wcause f ns e (from_text e)) -> dpost ns (plainly x) p Q.
  Proof. intros A ns x p E Q [H|H] K; [now left|]. right. unfold plainly. destruct (x f p) as [[a p']|e|q|]; auto using told_here. Qed.
  Lemma dp_lift : forall {A} ns (r : res A) p a, bad \/ r = Ok a -> dpost ns (plainly (lift r)) p (fun x q => x = a /\ q = p).
  Proof. intros A ns r p a H. eapply (dp_plainly ns _ _ (fun _ => False)); [now apply tri_lift|]. intros e []. Qed.
  Lemma dp_parsing : forall {A} ns i (x : D A) p Q, dpost (ns ++ [i]) x p Q -> dpost ns (parsing i x) p Q.
  Proof.
    intros A ns i x p Q [H|H]; [now left|]. right. unfold parsing. destruct (x f p) as [[a p']|e t|q|]; auto.
    destruct H as (ns' & s & C & ->). exists (i :: ns'), s. split; [|reflexivity]. now rewrite <- app_assoc in C.
  Qed.

  Lemma dp_head : forall ns p, head_spot f ns p -> dpost ns d_head p (fun h q => head_at p h /\ q = p + head_len (hd_size h)).
  Proof.
    intros ns p HP.
    assert (G : dpost ns d_head p (fun _ _ => True)).
    { unfold d_head. eapply dp_bind; [eapply dp_saying; [apply tri_u32|intros e [-> L]; now apply (WCut_size _ _ p)]|]. cbv beta. intros v q (-> & -> & L1).
      eapply dp_bind; [eapply dp_saying; [apply tri_read|intros e [-> L]; apply (WCut_name _ _ p); [exact HP|lia]]|]. cbv beta. intros b q (-> & -> & L2). cbv zeta.
      destruct (field f p 4 =? 1) eqn:E1.
      - eapply dp_bind; [eapply dp_saying; [apply tri_u64|intros e [-> L]; apply (WCut_long_size _ _ p); [exact HP|lia|lia]]|]. intros. now apply dp_ret.
      - destruct (field f p 4 <? 8) eqn:E8; [|now apply dp_ret]. rewrite <- ErrProofs.fc_slice by lia. apply dp_fail. apply (WSmall_size _ _ p); [exact HP|lia|lia|lia]. }
    destruct G as [G|G]; [now left|]. right. pose proof (DescribedIs.same_head f p) as Sm.
    destruct (d_head f p) as [[h q]|e t|x|]; auto. cbn [undress] in Sm. symmetry in Sm. apply parse_head_inv in Sm. destruct Sm as [-> B]. split; [exact B|reflexivity].
  Qed.
  Lemma dp_full : forall w p0 head size, visited f w p0 (id4 "meta") head size -> inner w = InUdta -> let p := p0 + head in
    dpost (trail w ++ [id4 "meta"]) d_full p (fun v q => v = (field f p 1, slice f (p + 1) 3) /\ q = p + 4 /\ q <= blen f).
  Proof.
    intros w p0 head size V Iw p. unfold d_full. eapply dp_bind; [eapply dp_saying; [apply tri_u8|intros e [-> L]; now apply (WCut_version _ w p0 head size)]|]. cbv beta. intros v q (-> & -> & L1).
    eapply dp_bind; [eapply dp_saying; [apply tri_read|intros e [-> L]; apply (WCut_flags _ w p0 head size); [exact V|exact Iw|unfold p in L1, L; lia]]|]. cbv beta. intros b q (-> & -> & L2).
    apply dp_ret. split; [reflexivity|lia].
  Qed.

  (** * Boxes *)

  (** A box with the head [h] is visited at [q]. *)
  Definition spot (w : standing) (q : N) (h : head) : Prop := (exists l k w', w = (l, k) :: w' /\ 0 < k) /\ visits f w q /\ head_at q h.
  Lemma spot_visited : forall w q h id, spot w q h -> fourcc_eqb (hd_fourcc h) id = true -> visited f w q id (head_len (hd_size h)) (sz_len (hd_size h)).
  Proof. intros w q h id ((l & k & w' & -> & K) & S & H) E. exists l, k, w'. split; [reflexivity|]. split; [exact S|]. split; [exact K|]. now apply PanicProofs.fourcc_is. Qed.
  Lemma spot_any : forall w q h, spot w q h -> visited f w q (hd_fourcc h) (head_len (hd_size h)) (sz_len (hd_size h)).
  Proof. intros w q h H. apply (spot_visited w q h); [exact H|]. apply fourcc_eqb_eq. reflexivity. Qed.
  Lemma spot_sound : forall w q h, spot w q h ->
    bad \/ content_len m (hd_size h) = Ok (sz_len (hd_size h) - head_len (hd_size h)) /\ head_len (hd_size h) <= sz_len (hd_size h) < 2 ^ 63.
  Proof. intros w q h (_ & S & H). destruct (visits_scans _ _ _ S) as (w' & L & _). exact (WPanicProofs.head_sound m f items Lf w' q h (conj L H)). Qed.
  Lemma spot_in : forall w q h, spot w q h -> q + head_len (hd_size h) <= blen f.
  Proof. intros w q h (_ & _ & H). exact (proj1 H). Qed.

  Definition node_of (q : N) (h : head) (inside : list node) : node := Node q (head_len (hd_size h)) (sz_len (hd_size h)) (hd_fourcc h) inside.
  Lemma bound_of : forall q h inside, bound (node_of q h inside) = Bounds q (hd_size h).
  Proof. intros q [[x n] id] inside. unfold bound, node_of. cbn [n_at n_head n_size hd_size sz_len]. unfold head_len. cbn [sz_ext]. now destruct x. Qed.
  (** The step from a box to behind it. *)
  Definition step (l : level) (q : N) (h : head) (inside : list node) (p : N) : Prop :=
    scan_opens l (hd_fourcc h) = None /\ inside = [] /\ q + sz_len (hd_size h) < 2 ^ 63 /\ p = q + sz_len (hd_size h) \/
    exists l' d, scan_opens l (hd_fourcc h) = Some (l', d) /\ (d = 0 \/ q + head_len (hd_size h) + d <= blen f /\ field f (q + head_len (hd_size h)) 1 = 0) /\
      row f l' (sz_len (hd_size h) - head_len (hd_size h) - d) (q + head_len (hd_size h) + d) inside p.
  Lemma step_row : forall l k q h inside p ns q', 0 < k -> head_at q h -> step l q h inside p -> row f l (k - sz_len (hd_size h)) p ns q' -> row f l k q (node_of q h inside :: ns) q'.
  Proof.
    intros l k q h inside p ns q' K H [(O & -> & L & ->)|(l' & d & O & V & R)] Rn.
    - eapply Row_past; eassumption.
    - eapply Row_into; eassumption.
  Qed.
  Lemma step_visits : forall l k w q h inside p, spot ((l, k) :: w) q h -> step l q h inside p -> visits f ((l, k - sz_len (hd_size h)) :: w) p.
  Proof.
    intros l k w q h inside p ((l0 & k0 & w0 & X & K) & S & H) [(O & -> & L & ->)|(l' & d & O & V & R)]; injection X as <- <- <-.
    - eapply Visits_past; eassumption.
    - eapply Visits_out, row_visits; [exact R|]. eapply Visits_into; eassumption.
  Qed.
  (** Behind a box, with what is kept of it. *)
  Definition kept {A} (g : node -> A) (w : standing) (q : N) (h : head) (x : A) (p : N) : Prop := exists inside, step (inner w) q h inside p /\ x = g (node_of q h inside).

  Lemma dp_skip : forall w q h, spot w q h -> scan_opens (inner w) (hd_fourcc h) = None -> noted (inner w) (hd_fourcc h) = [] ->
    dpost (trail w) (plainly (skip_atom m h)) (q + head_len (hd_size h)) (fun _ p => step (inner w) q h [] p).
  Proof.
    intros w q h H O W. destruct (spot_sound w q h H) as [F|[E S]]; [now left|].
    eapply dp_plainly with (E := fun e => e = EIoSeek /\ 2 ^ 63 <= q + sz_len (hd_size h)).
    - unfold skip_atom. eapply tri_bind; [apply tri_lift; right; exact E|]. cbv beta. intros c p [-> ->].
      eapply tri_weak; [apply tri_seek_on; lia|cbv beta; intros e [-> L]; split; [reflexivity|lia]|cbv beta; intros u p [-> L]].
      left. split; [exact O|]. split; [reflexivity|]. lia.
    - intros e [-> L]. replace (trail w) with (trail w ++ noted (inner w) (hd_fourcc h)) by (rewrite W; apply app_nil_r).
      eapply WToo_far; [apply spot_any; exact H|exact O|exact L].
  Qed.
  Lemma tri_bounds : forall q h E, head_at q h -> tri (find_bounds m (hd_size h)) (q + head_len (hd_size h)) E (fun b p => b = Bounds q (hd_size h) /\ p = q + head_len (hd_size h)).
  Proof.
    intros q h E H. unfold find_bounds. apply (tri_bind _ _ _ _ (fun c p => c = q + head_len (hd_size h) /\ p = q + head_len (hd_size h))); [right; cbn; auto|].
    intros c p [-> ->]. eapply tri_bind; [apply (tri_lift _ _ q); right; unfold sub64; destruct (_ <=? _) eqn:X; [f_equal; lia|lia]|].
    intros x p [-> ->]. apply tri_ret. auto.
  Qed.
  Lemma dp_bounds : forall ns q h, head_at q h -> dpost ns (plainly (find_bounds m (hd_size h))) (q + head_len (hd_size h)) (fun b p => b = Bounds q (hd_size h) /\ p = q + head_len (hd_size h)).
  Proof. intros ns q h H. eapply dp_plainly; [apply (tri_bounds q h (fun _ => False) H)|]. intros e []. Qed.
  Lemma dp_leaf : forall w q h id, spot w q h -> fourcc_eqb (hd_fourcc h) id = true -> scan_opens (inner w) (hd_fourcc h) = None -> noted (inner w) (hd_fourcc h) = [hd_fourcc h] ->
    dpost (trail w) (d_leaf m id (hd_size h)) (q + head_len (hd_size h)) (kept bound w q h).
  Proof.
    intros w q h id P E O W. destruct (spot_sound w q h P) as [F|[_ S]]; [now left|]. apply fourcc_eqb_eq in E. subst id. unfold d_leaf. apply dp_parsing.
    pose proof (spot_in w q h P) as Lq. assert (W4 : two64 = 4 * 2 ^ 62) by reflexivity. assert (W3 : 2 ^ 63 = 2 * 2 ^ 62) by reflexivity.
    eapply dp_plainly with (E := fun e => e = EIoSeek /\ 2 ^ 63 <= q + sz_len (hd_size h)).
    - unfold leaf_find. eapply tri_bind; [apply tri_bounds, P|]. cbv beta. intros b p [-> ->].
      apply (tri_bind _ _ _ _ (fun _ p => step (inner w) q h [] p)); [|intros u p Hp; apply tri_ret; exists []; split; [exact Hp|now rewrite bound_of]].
      unfold seek_to_end. apply (tri_bind _ _ _ _ (fun c p => c = q + head_len (hd_size h) /\ p = q + head_len (hd_size h))); [right; cbn; auto|].
      intros c p [-> ->]. unfold bounds_end. cbn [b_pos b_size].
      eapply tri_bind; [apply (tri_lift _ _ (q + sz_len (hd_size h))); right; unfold add64; destruct (_ <? _) eqn:X; [reflexivity|rewrite W4 in X; lia]|].
      intros e p [-> ->]. eapply tri_bind; [apply (tri_lift _ _ (sz_len (hd_size h) - head_len (hd_size h))); right; unfold sub64; destruct (_ <=? _) eqn:X; [f_equal; lia|lia]|].
      intros d p [-> ->]. eapply tri_weak; [apply tri_seek_on; lia|cbv beta; intros e [-> L]; split; [reflexivity|lia]|cbv beta; intros u p [-> L]].
      left. split; [exact O|]. split; [reflexivity|]. lia.
    - intros e [-> L]. rewrite <- W. eapply WToo_far; [apply spot_any; exact P|exact O|exact L].
  Qed.

  (** A loop over the boxes of a container. *)
  Lemma dloop : forall {S} (limit : res N) (body : head -> S -> D S) (upd : S -> node -> S) l w lim ns, (bad \/ limit = Ok lim /\ lim < 2 ^ 63) -> (forall k, trail ((l, k) :: w) = ns) ->
    (forall h s q k, spot ((l, k) :: w) q h -> dpost ns (body h s) (q + head_len (hd_size h)) (kept (upd s) ((l, k) :: w) q h)) ->
    forall fuel parsed s p, visits f ((l, lim - parsed) :: w) p ->
    dpost ns (d_loop fuel m limit body parsed s) p (fun s' p' => exists rs, row f l (lim - parsed) p rs p' /\ s' = fold_left upd rs s).
  Proof.
    intros S limit body upd l w lim ns [F|[-> Ll]] T B; [intros; now left|]. induction fuel as [|fuel IH]; intros parsed s p K; cbn [d_loop]; [right; exact I|].
    eapply dp_bind; [apply dp_lift; now right|]. cbv beta. intros l' p' [-> ->]. destruct (parsed <? lim) eqn:E.
    2: { apply dp_ret. exists []. split; [|reflexivity]. replace (lim - parsed) with 0 by lia. constructor. }
    eapply dp_bind; [apply dp_head; exists l, (lim - parsed), w; split; [exact K|]; split; [right; lia|now rewrite T]|]. intros h p1 [H ->].
    assert (P : spot ((l, lim - parsed) :: w) p h) by (split; [exists l, (lim - parsed), w; split; [reflexivity|lia]|split; assumption]).
    eapply dp_bind; [apply B; exact P|]. cbv beta. intros s' p2 (inside & St & ->). cbn [inner] in St.
    destruct (spot_sound _ p h P) as [F|[_ Sz]]; [now left|].
    eapply dp_bind; [apply (dp_lift _ _ _ (parsed + sz_len (hd_size h)))|].
    { right. unfold add64. assert (W : two64 = 2 * 2 ^ 63) by reflexivity. destruct (parsed + sz_len (hd_size h) <? two64) eqn:X; [reflexivity|]. rewrite W in X. lia. }
    cbv beta. intros x p3 [-> ->]. pose proof (step_visits _ _ _ _ _ _ _ P St) as V2. replace (lim - parsed - sz_len (hd_size h)) with (lim - (parsed + sz_len (hd_size h))) in V2 by lia.
    eapply dp_weak; [apply IH; exact V2|]. cbv beta. intros s' p' (rs & R & ->). exists (node_of p h inside :: rs). split; [|reflexivity].
    eapply step_row; [lia|exact H|exact St|]. replace (lim - parsed - sz_len (hd_size h)) with (lim - (parsed + sz_len (hd_size h))) by lia. exact R.
  Qed.
  Lemma trail_under : forall l k l0 k1 k0 w0, trail ((l, k) :: (l0, k1) :: w0) = trail ((l0, k0) :: w0) ++ level_name l.
  Proof. intros. rewrite ErrProofs.trail_cons. f_equal. now rewrite !ErrProofs.trail_cons. Qed.
  (** The content of a box whose first [d] bytes have been read. *)
  Lemma dcontainer : forall {S} w q h l d (body : head -> S -> D S) (upd : S -> node -> S), spot w q h -> scan_opens (inner w) (hd_fourcc h) = Some (l, d) ->
    (forall h' s q' k w', spot ((l, k) :: w') q' h' -> dpost (trail ((l, k) :: w')) (body h' s) (q' + head_len (hd_size h')) (kept (upd s) ((l, k) :: w') q' h')) ->
    forall fuel s, dpost (trail w ++ level_name l) (d_loop fuel m (content_len m (hd_size h)) body d s) (q + head_len (hd_size h) + d)
      (fun s' p => exists rs, row f l (sz_len (hd_size h) - head_len (hd_size h) - d) (q + head_len (hd_size h) + d) rs p /\ s' = fold_left upd rs s).
  Proof.
    intros S w q h l d body upd P O B fuel s. pose proof P as ((l0 & k0 & w0 & -> & K0) & Sw & H). destruct (spot_sound _ q h P) as [F|[E Sz]]; [now left|].
    apply (dloop _ body upd l ((l0, k0 - sz_len (hd_size h)) :: w0) (sz_len (hd_size h) - head_len (hd_size h))); [right; split; [exact E|lia]| | |].
    - intros k. apply trail_under.
    - intros h' s' q' k P'. pose proof (B h' s' q' k _ P') as B'. now rewrite (trail_under _ _ _ _ k0) in B'.
    - eapply Visits_into; [exact Sw|exact K0|exact H|exact O].
  Qed.
  (** Children called [id] are gone into or kept, the others skipped. *)
  Lemma dskip : forall {S} w q h (upd : S -> node -> S) s, spot w q h -> scan_opens (inner w) (hd_fourcc h) = None -> noted (inner w) (hd_fourcc h) = [] ->
    (forall inside, upd s (node_of q h inside) = s) ->
    dpost (trail w) (plainly (skip_atom m h) ;#; dret s) (q + head_len (hd_size h)) (kept (upd s) w q h).
  Proof.
    intros S w q h upd s P O W U. eapply dp_bind; [apply (dp_skip w q); assumption|]. cbv beta. intros u p Hp. apply dp_ret. exists []. split; [exact Hp|now rewrite U].
  Qed.
  Lemma dkeep : forall {S A} w q h (x : D A) (g : node -> A) (k : A -> S) (upd : S -> node -> S) s, dpost (trail w) x (q + head_len (hd_size h)) (kept g w q h) ->
    (forall inside, upd s (node_of q h inside) = k (g (node_of q h inside))) ->
    dpost (trail w) (y <# x ;; dret (k y)) (q + head_len (hd_size h)) (kept (upd s) w q h).
  Proof.
    intros S A w q h x g k upd s X U. eapply dp_bind; [exact X|]. cbv beta. intros y p (inside & Hp & ->). apply dp_ret. exists inside. split; [exact Hp|now rewrite U].
  Qed.
  Lemma named_of : forall q h inside id, named id (node_of q h inside) = fourcc_eqb (hd_fourcc h) id. Proof. reflexivity. Qed.

  Section Find.
    Context (fuel : nat).

    (** A box with one kind of child. *)
    Lemma dopt : forall {A B} (id : fourcc) (l : level) k nm (find : size -> D A) (g : node -> A) (mk : bounds -> option A -> B) w q h,
      spot w q h -> scan_opens (inner w) (hd_fourcc h) = Some (l, 0) -> level_name l = [nm] -> (forall i, scan_opens l i = if fourcc_eqb i id then Some k else None) -> (forall i, noted l i = []) ->
      (forall w' q' h', spot w' q' h' -> inner w' = l -> fourcc_eqb (hd_fourcc h') id = true -> dpost (trail w' ++ [id]) (find (hd_size h')) (q' + head_len (hd_size h')) (kept g w' q' h')) ->
      dpost (trail w ++ [nm])
        (b <# plainly (find_bounds m (hd_size h)) ;;
         r <# d_loop fuel m (content_len m (hd_size h)) (fun h r => if fourcc_eqb (hd_fourcc h) id then x <# parsing id (find (hd_size h)) ;; dret (Some x) else plainly (skip_atom m h) ;#; dret r) 0 None ;;
         dret (mk b r)) (q + head_len (hd_size h)) (kept (fun n => mk (bound n) (option_map g (final id (n_inside n)))) w q h).
    Proof.
      intros A B id l k nm find g mk w q h P O Nm Ol Nl F. eapply dp_bind; [apply dp_bounds, P|]. cbv beta. intros b p [-> ->].
      eapply dp_bind. { rewrite <- Nm. replace (q + head_len (hd_size h)) with (q + head_len (hd_size h) + 0) by lia. apply (dcontainer w q h l 0 _ (opt_upd id g)); [exact P|exact O|].
        intros h' s q' k' w' P'. destruct (fourcc_eqb (hd_fourcc h') id) eqn:E.
        - apply (dkeep ((l, k') :: w') q' h' _ g Some (opt_upd id g) s); [apply dp_parsing; now apply F|]. intros inside. unfold opt_upd. now rewrite named_of, E.
        - apply (dskip ((l, k') :: w') q' h' (opt_upd id g) s); [exact P'|cbn [inner]; rewrite Ol, E; reflexivity|apply Nl|]. intros inside. unfold opt_upd. now rewrite named_of, E. }
      cbv beta. intros r p (rs & R & ->). apply dp_ret. exists rs. split; [|rewrite fold_final, bound_of; reflexivity].
      right. exists l, 0. split; [exact O|]. split; [now left|]. exact R.
    Qed.
    (** A box with two kinds of boxes to note. *)
    Lemma dnote : forall {B} (a b : fourcc) (l : level) d nm (mk : option bounds * option bounds -> B) w q h,
      spot w q h -> scan_opens (inner w) (hd_fourcc h) = Some (l, d) -> level_name l = [nm] -> (forall i, scan_opens l i = None) -> fourcc_eqb a b = false ->
      (forall i, noted l i = (if fourcc_eqb i a then [i] else []) ++ (if fourcc_eqb i b then [i] else [])) ->
      (d = 0 \/ q + head_len (hd_size h) + d <= blen f /\ field f (q + head_len (hd_size h)) 1 = 0) ->
      dpost (trail w ++ [nm])
        (r <# d_loop fuel m (content_len m (hd_size h)) (fun h r =>
           if fourcc_eqb (hd_fourcc h) a then x <# d_leaf m a (hd_size h) ;; dret (Some x, snd r)
           else if fourcc_eqb (hd_fourcc h) b then x <# d_leaf m b (hd_size h) ;; dret (fst r, Some x)
           else plainly (skip_atom m h) ;#; dret r) d (None, None) ;;
         dret (mk r)) (q + head_len (hd_size h) + d) (kept (fun n => mk (option_map bound (final a (n_inside n)), option_map bound (final b (n_inside n)))) w q h).
    Proof.
      intros B a b l d nm mk w q h P O Nm Ol Ab Nl V. eapply dp_bind. { rewrite <- Nm. apply (dcontainer w q h l d _ (fun x n => (opt_upd a bound (fst x) n, opt_upd b bound (snd x) n))); [exact P|exact O|].
        assert (Ne : forall i, fourcc_eqb i a = true -> fourcc_eqb i b = false) by (intros i E; apply fourcc_eqb_eq in E; now subst i).
        intros h' s q' k' w' P'. set (upd := fun x n => (opt_upd a bound (fst x) n, opt_upd b bound (snd x) n)). destruct (fourcc_eqb (hd_fourcc h') a) eqn:E.
        - apply (dkeep ((l, k') :: w') q' h' _ bound (fun x => (Some x, snd s)) upd s).
          + apply dp_leaf; [exact P'|exact E|apply Ol|]. cbn [inner]. rewrite Nl, E, (Ne _ E). reflexivity.
          + intros inside. unfold upd, opt_upd. now rewrite !named_of, E, (Ne _ E).
        - destruct (fourcc_eqb (hd_fourcc h') b) eqn:E2.
          + apply (dkeep ((l, k') :: w') q' h' _ bound (fun x => (fst s, Some x)) upd s).
            * apply dp_leaf; [exact P'|exact E2|apply Ol|]. cbn [inner]. rewrite Nl, E, E2. reflexivity.
            * intros inside. unfold upd, opt_upd. now rewrite !named_of, E, E2.
          + apply (dskip ((l, k') :: w') q' h' upd s); [exact P'|apply Ol|cbn [inner]; rewrite Nl, E, E2; reflexivity|]. intros inside. unfold upd, opt_upd. rewrite !named_of, E, E2. now destruct s. }
      cbv beta. intros r p (rs & R & ->). apply dp_ret. exists rs. split.
      - right. exists l, d. split; [exact O|]. split; [exact V|]. exact R.
      - rewrite (fold_pair (opt_upd a bound) (opt_upd b bound)). cbn [fst snd]. rewrite !fold_final. reflexivity.
    Qed.

    Lemma dp_stbl : forall w q h, spot w q h -> inner w = InMinf -> fourcc_eqb (hd_fourcc h) (id4 "stbl") = true -> dpost (trail w ++ [id4 "stbl"]) (d_stbl_find fuel m (hd_size h)) (q + head_len (hd_size h)) (kept stbl_of w q h).
    Proof.
      intros w q h P Iw E. unfold d_stbl_find. eapply dp_bind; [apply dp_bounds, P|]. cbv beta. intros b p [-> ->].
      eapply dp_weak.
      - replace (q + head_len (hd_size h)) with (q + head_len (hd_size h) + 0) by lia.
        apply (dnote (id4 "stco") (id4 "co64") InStbl 0 (id4 "stbl") (fun r => StblBounds (Bounds q (hd_size h)) (fst r) (snd r)) w q h P); [|reflexivity|reflexivity|reflexivity|reflexivity|now left].
        rewrite Iw. unfold scan_opens. now rewrite E.
      - intros x p (inside & St & ->). exists inside. split; [exact St|]. unfold stbl_of. now rewrite bound_of.
    Qed.
    Lemma dp_minf : forall w q h, spot w q h -> inner w = InMdia -> fourcc_eqb (hd_fourcc h) (id4 "minf") = true -> dpost (trail w ++ [id4 "minf"]) (d_minf_find fuel m (hd_size h)) (q + head_len (hd_size h)) (kept minf_of w q h).
    Proof.
      intros w q h P Iw E. apply (dopt (id4 "stbl") InMinf (InStbl, 0) (id4 "minf") (d_stbl_find fuel m) stbl_of MinfBounds w q h P); [|reflexivity|reflexivity|reflexivity|exact dp_stbl].
      rewrite Iw. unfold scan_opens. now rewrite E.
    Qed.
    Lemma dp_mdia : forall w q h, spot w q h -> inner w = InTrak -> fourcc_eqb (hd_fourcc h) (id4 "mdia") = true -> dpost (trail w ++ [id4 "mdia"]) (d_mdia_find fuel m (hd_size h)) (q + head_len (hd_size h)) (kept mdia_of w q h).
    Proof.
      intros w q h P Iw E. apply (dopt (id4 "minf") InMdia (InMinf, 0) (id4 "mdia") (d_minf_find fuel m) minf_of MdiaBounds w q h P); [|reflexivity|reflexivity|reflexivity|exact dp_minf].
      rewrite Iw. unfold scan_opens. now rewrite E.
    Qed.
    Lemma dp_trak : forall w q h, spot w q h -> inner w = InMoov -> fourcc_eqb (hd_fourcc h) (id4 "trak") = true -> dpost (trail w ++ [id4 "trak"]) (d_trak_find fuel m (hd_size h)) (q + head_len (hd_size h)) (kept trak_of w q h).
    Proof.
      intros w q h P Iw E. apply (dopt (id4 "mdia") InTrak (InMdia, 0) (id4 "trak") (d_mdia_find fuel m) mdia_of TrakBounds w q h P); [|reflexivity|reflexivity|reflexivity|exact dp_mdia].
      rewrite Iw. unfold scan_opens. now rewrite E.
    Qed.
    Lemma dp_meta : forall w q h, spot w q h -> inner w = InUdta -> fourcc_eqb (hd_fourcc h) (id4 "meta") = true -> dpost (trail w ++ [id4 "meta"]) (d_meta_find fuel m (hd_size h)) (q + head_len (hd_size h)) (kept meta_of w q h).
    Proof.
      intros w q h P Iw E. unfold d_meta_find. eapply dp_bind; [apply dp_bounds, P|]. cbv beta. intros b p [-> ->].
      pose proof (spot_visited _ _ _ _ P E) as Vi.
      eapply dp_bind; [eapply dp_full; [exact Vi|exact Iw]|]. cbv beta. intros vf p (-> & -> & Le). cbn [fst].
      destruct (negb _) eqn:Ev; [apply dp_fail; eapply WBad_version; [exact Vi|exact Iw|exact Le|lia]|].
      eapply dp_weak.
      - apply (dnote (id4 "hdlr") (id4 "ilst") InMeta 4 (id4 "meta") (fun r => MetaBounds (Bounds q (hd_size h)) (fst r) (snd r)) w q h P); [|reflexivity|reflexivity|reflexivity|reflexivity|right; split; [exact Le|lia]].
        rewrite Iw. unfold scan_opens. now rewrite E.
      - intros x p (inside & St & ->). exists inside. split; [exact St|]. unfold meta_of. now rewrite bound_of.
    Qed.
    Lemma dp_udta : forall w q h, spot w q h -> inner w = InMoov -> fourcc_eqb (hd_fourcc h) (id4 "udta") = true -> fourcc_eqb (hd_fourcc h) (id4 "trak") = false ->
      dpost (trail w ++ [id4 "udta"]) (d_udta_find fuel m (hd_size h)) (q + head_len (hd_size h)) (kept udta_of w q h).
    Proof.
      intros w q h P Iw E NT. apply (dopt (id4 "meta") InUdta (InMeta, 4) (id4 "udta") (d_meta_find fuel m) meta_of UdtaBounds w q h P); [|reflexivity|reflexivity|reflexivity|exact dp_meta].
      rewrite Iw. unfold scan_opens. now rewrite NT, E.
    Qed.
    Definition moov_upd (x : list trak_bounds * option udta_bounds) (n : node) : list trak_bounds * option udta_bounds :=
      (if named (id4 "trak") n then fst x ++ [trak_of n] else fst x, opt_upd (id4 "udta") udta_of (snd x) n).
    Lemma dp_moov : forall w q h, spot w q h -> inner w = Top -> fourcc_eqb (hd_fourcc h) (id4 "moov") = true -> dpost (trail w ++ [id4 "moov"]) (d_moov_find fuel m (hd_size h)) (q + head_len (hd_size h)) (kept moov_of w q h).
    Proof.
      intros w q h P Iw E. unfold d_moov_find. eapply dp_bind; [apply dp_bounds, P|]. cbv beta. intros b p [-> ->].
      assert (O : scan_opens (inner w) (hd_fourcc h) = Some (InMoov, 0)) by (rewrite Iw; unfold scan_opens; now rewrite E).
      eapply dp_bind. { change [id4 "moov"] with (level_name InMoov). replace (q + head_len (hd_size h)) with (q + head_len (hd_size h) + 0) by lia. apply (dcontainer w q h InMoov 0 _ moov_upd); [exact P|exact O|].
        intros h' s q' k' w' P'. set (w1 := (InMoov, k') :: w') in *. unfold d_moov_fbody. cbv zeta. change TRACK with (id4 "trak"). change USER_DATA with (id4 "udta").
        destruct (fourcc_eqb (hd_fourcc h') (id4 "trak")) eqn:E1; [|destruct (fourcc_eqb (hd_fourcc h') (id4 "udta")) eqn:E2].
        - apply (dkeep w1 q' h' _ trak_of (fun t => (fst s ++ [t], snd s)) moov_upd s); [apply dp_parsing, dp_trak; [exact P'|reflexivity|exact E1]|].
          intros inside. unfold moov_upd, opt_upd. rewrite !named_of, E1. apply fourcc_eqb_eq in E1. now rewrite E1.
        - apply (dkeep w1 q' h' _ udta_of (fun u => (fst s, Some u)) moov_upd s); [apply dp_parsing, dp_udta; [exact P'|reflexivity|exact E2|exact E1]|].
          intros inside. unfold moov_upd, opt_upd. now rewrite !named_of, E1, E2.
        - apply (dskip w1 q' h' moov_upd s); [exact P'| |reflexivity|].
          + cbn [w1 inner]. unfold scan_opens. now rewrite E1, E2.
          + intros inside. unfold moov_upd, opt_upd. rewrite !named_of, E1, E2. now destruct s. }
      cbv beta. intros r p (rs & R & ->). apply dp_ret. exists rs. split.
      - right. exists InMoov, 0. split; [exact O|]. split; [now left|exact R].
      - replace (fold_left moov_upd rs ([], None)) with (map trak_of (filter (named (id4 "trak")) rs), option_map udta_of (final (id4 "udta") rs)).
        + unfold moov_of. rewrite bound_of. reflexivity.
        + symmetry. rewrite <- fold_final. pose proof (fold_filter (id4 "trak") trak_of rs []) as Ff. cbn [app] in Ff. rewrite <- Ff.
          exact (fold_pair (fun a n => if named (id4 "trak") n then a ++ [trak_of n] else a) (opt_upd (id4 "udta") udta_of) rs ([], None)).
    Qed.

    Definition top_upd (x : option moov_bounds * option bounds) (n : node) : option moov_bounds * option bounds :=
      (opt_upd (id4 "moov") moov_of (fst x) n, opt_upd (id4 "mdat") bound (snd x) n).
    (** What the scan finds. *)
    Definition scanned_as (ns : list node) (sc : moov_bounds * N) : Prop :=
      layout f ns /\ exists mo, movie ns = Some mo /\ fst sc = moov_of mo /\ snd sc = match final (id4 "mdat") ns with Some n => n_at n | None => 0 end.
    Lemma dp_scan : dpost [] (d_scan fuel m) 0 (fun sc _ => exists ns, scanned_as ns sc).
    Proof.
      unfold d_scan. assert (W : two63 = 2 ^ 63) by reflexivity. assert (W3 : 2 ^ 63 = 2 * 2 ^ 62) by reflexivity.
      apply (dp_bind _ _ _ _ (fun _ q => exists h, spot [(Top, blen f)] 0 h /\ hd_fourcc h = id4 "ftyp" /\ q = sz_len (hd_size h) /\ 0 < q <= blen f /\ is_utf8 (slice f (head_len (hd_size h)) (sz_len (hd_size h) - head_len (hd_size h))))).
      - unfold d_ftyp. eapply dp_bind; [apply dp_head; exists Top, (blen f), []; split; [constructor|]; split; [now left|reflexivity]|]. intros h p1 [H ->].
        destruct (negb _) eqn:E; [apply dp_fail; eapply WNot_type; [exact H|intros N; rewrite N in E; discriminate]|]. apply negb_false_iff in E.
        assert (Lh : 8 <= head_len (hd_size h)) by (destruct H as (_ & _ & [H|H]); lia).
        assert (P : spot [(Top, blen f)] 0 h) by (split; [exists Top, (blen f), []; split; [reflexivity|pose proof (proj1 H); lia]|split; [constructor|exact H]]).
        pose proof (PanicProofs.fourcc_is _ _ _ _ H E) as B. pose proof (spot_in _ _ _ P) as Li. destruct (spot_sound _ _ _ P) as [F|[Ec Sz]]; [now left|].
        eapply dp_bind; [apply dp_lift; right; exact Ec|]. cbv beta. intros c p2 [-> ->].
        eapply dp_weak; [eapply dp_plainly; [apply tri_utf8; lia|]|].
        + intros e [[[-> Le] Ne]|(-> & Le & U)]; cbn [from_text]; [eapply WCut_type; [exact B|lia]|eapply WBad_type; [exact B|lia|exact U]].
        + cbv beta. intros s q (-> & Lq & U). exists h. split; [exact P|]. split; [now apply fourcc_eqb_eq|]. split; [lia|]. split; [lia|exact U].
      - intros s q (h & P & Eh & Eq & Lq & U). pose proof P as (_ & _ & H). apply (dp_bind _ _ _ _ (fun n p => n = blen f - q /\ p = q)).
        { right. unfold plainly, remaining_stream_len, bind, position, seek_end, lift, sub64. destruct (q <=? blen f) eqn:X; [|lia].
          unfold seek_start. destruct (q <? two63) eqn:Y; [|rewrite W in Y; lia]. cbn. auto. }
        intros n p2 [-> ->].
        assert (O : scan_opens Top (hd_fourcc h) = None) by (rewrite Eh; reflexivity).
        assert (St : step Top 0 h [] q) by (left; split; [exact O|]; split; [reflexivity|]; lia).
        eapply dp_bind; [apply (dloop _ (d_top_fbody fuel m) top_upd Top [] (blen f - q)); [right; split; [reflexivity|lia]|reflexivity| |]|].
        + intros h' s' q' k' P'. set (w1 := [(Top, k')]) in *. unfold d_top_fbody. cbv zeta. change MOVIE with (id4 "moov"). change MEDIA_DATA with (id4 "mdat").
          change (@nil fourcc) with (trail w1). destruct (fourcc_eqb (hd_fourcc h') (id4 "moov")) eqn:E1; [|destruct (fourcc_eqb (hd_fourcc h') (id4 "mdat")) eqn:E2].
          * apply (dkeep w1 q' h' _ moov_of (fun x => (Some x, snd s')) top_upd s'); [apply dp_parsing, dp_moov; [exact P'|reflexivity|exact E1]|].
            intros inside. unfold top_upd, opt_upd. rewrite !named_of, E1. apply fourcc_eqb_eq in E1. now rewrite E1.
          * apply (dkeep w1 q' h' _ bound (fun x => (fst s', Some x)) top_upd s').
            { apply dp_leaf; [exact P'|exact E2| |]; cbn [w1 inner]; [unfold scan_opens; now rewrite E1|unfold noted; now rewrite E2]. }
            intros inside. unfold top_upd, opt_upd. now rewrite !named_of, E1, E2.
          * apply (dskip w1 q' h' top_upd s'); [exact P'|cbn [w1 inner]; unfold scan_opens; now rewrite E1|cbn [w1 inner]; unfold noted; now rewrite E2|].
            intros inside. unfold top_upd, opt_upd. rewrite !named_of, E1, E2. now destruct s'.
        + rewrite N.sub_0_r. pose proof (step_visits _ _ _ _ _ _ _ P St) as V. now rewrite <- Eq in V.
        + cbv beta. intros r p (rs & R & ->). rewrite N.sub_0_r in R. set (ns := node_of 0 h [] :: rs).
          assert (Ly : layout f ns).
          { split; [|exists p; eapply step_row; [lia|exact H|exact St|now rewrite <- Eq]].
            exists (head_len (hd_size h)), (sz_len (hd_size h)). split; [|split; [lia|exact U]]. apply (PanicProofs.fourcc_is f 0 h (id4 "ftyp") H). rewrite Eh. reflexivity. }
          assert (Fr : fold_left top_upd rs (None, None) = fold_left top_upd ns (None, None)).
          { unfold ns. cbn [fold_left]. unfold top_upd at 3, opt_upd. rewrite !named_of, Eh. reflexivity. }
          rewrite Fr, (fold_pair (opt_upd (id4 "moov") moov_of) (opt_upd (id4 "mdat") bound) ns (None, None) : fold_left top_upd ns (None, None) = _). cbn [fst snd]. rewrite !fold_final. fold (movie ns). destruct (movie ns) as [mo|] eqn:Em; cbn [option_map].
          * apply dp_ret. exists ns. split; [exact Ly|]. exists mo. split; [exact Em|]. split; [reflexivity|]. cbn [snd]. now destruct (final (id4 "mdat") ns).
          * apply dp_fail. eapply WNo_movie; [exact Ly|exact Em].
    Qed.
  End Find.
End Layout.
