(** The outcome of the operations that reading and writing start with: programs on an arbitrary file either stop with an
    error or a panic that OutSpec.v describes, or go on at the position it describes. *)

From Coq Require Import List NArith ZArith Bool Lia Arith String.
From Coq Require Import ZifyBool ZifyNat ZifyN.
From Verif Require Import Base BaseLemmas Utf UtfLemmas Types Stream Parse Find TagSpec FileSpec ParseLemmas FailSpec FailProofs PanicSpec PanicProofs Display Described DescribedIs ErrSpec ErrProofs FirstSpec OutSpec.
From Verif Require Import OutUnique.
From Verif Require ErrExact FirstUnique.
Import ListNotations.
Local Open Scope list_scope.
Local Open Scope d_scope.

(** * Numbers *)

Lemma sub64_is : forall m a b, (exists c, less m a b c /\ sub64 m a b = Ok c) \/ lacking m a b /\ sub64 m a b = Panic POverflow.
Proof.
  intros m a b. unfold sub64, less, lacking. destruct (b <=? a) eqn:E; [left; exists (a - b); split; [left; split; [lia|reflexivity]|reflexivity]|]. destruct m; [right; split; [split; [reflexivity|lia]|reflexivity]|].
  left. exists (a + two64 - b). assert (W : two64 = 2 ^ 64) by reflexivity. rewrite W. split; [right; split; [reflexivity|split; [lia|reflexivity]]|]. rewrite N.mod_small by lia. reflexivity.
Qed.
Lemma add64_is : forall m a b, (exists c, kept m (a + b) c /\ add64 m a b = Ok c) \/ beyond m (a + b) /\ add64 m a b = Panic POverflow.
Proof.
  intros m a b. unfold add64, kept, beyond. assert (W : two64 = 2 ^ 64) by reflexivity. rewrite W. destruct (a + b <? 2 ^ 64) eqn:E; [left; exists (a + b); split; [left; split; [lia|reflexivity]|reflexivity]|]. destruct m; [right; split; [split; [reflexivity|lia]|reflexivity]|].
  left. exists ((a + b) mod 2 ^ 64). split; [right; split; [reflexivity|split; [lia|reflexivity]]|reflexivity].
Qed.
Lemma less_more : forall m a b c d n, less m a b c -> less m c d n -> b + d <= 2 ^ 64 -> less m a (b + d) n.
Proof.
  intros m a b c d n [[A ->]|(M & A & ->)] [[B ->]|(M' & B & ->)] L; unfold less.
  - left. split; lia.
  - right. split; [exact M'|]. split; lia.
  - right. split; [exact M|]. split; lia.
  - exfalso. lia.
Qed.
Lemma lacking_more : forall m a b d, lacking m a b -> lacking m a (b + d).
Proof. intros m a b d [M A]. split; [exact M|lia]. Qed.
Lemma less_lacking : forall m a b c d, less m a b c -> lacking m c d -> lacking m a (b + d).
Proof. intros m a b c d [[A ->]|(M & A & ->)] [M' B]; [split; [exact M'|lia]|congruence]. Qed.
Lemma less_enough : forall m a b c, less m a b c -> ~ lacking m a b.
Proof. intros m a b c A B. exact (less_lacks _ _ _ _ A B). Qed.
Lemma kept_small : forall m a c, kept m a c -> a < 2 ^ 64 -> c = a.
Proof. intros m a c [[_ E]|(_ & A & _)] L; [exact E|lia]. Qed.

Section Outcome.
  Context (m : mode) (f : bytes) (Lf : blen f < 2 ^ 62) (F : nat).
  Local Notation head_at := (PanicProofs.head_at f).
  Local Notation hl h := (head_len (hd_size h)).
  Local Notation sz h := (sz_len (hd_size h)).
  (** What holds if the fuel [F] is used up. *)
  Context (worn : Prop).

  (** * Operations *)

  Definition rpost {A} (x : R A) (p : N) (E : err -> Prop) (Q : A -> N -> Prop) : Prop :=
    match x f p with Ok (a, p') => Q a p' | Err e => E e | Panic _ => False | Fuel => False end.
  Lemma rp_bind : forall {A B} (x : R A) (k : A -> R B) p E Q S, rpost x p E Q -> (forall a p', Q a p' -> rpost (k a) p' E S) -> rpost (bind x k) p E S.
  Proof. intros A B x k p E Q S H K. unfold rpost, bind in *. destruct (x f p) as [[a p']|e|q|]; try exact H. apply K, H. Qed.
  Lemma rp_weak : forall {A} (x : R A) p (E E' : err -> Prop) (Q Q' : A -> N -> Prop), rpost x p E Q -> (forall e, E e -> E' e) -> (forall a p', Q a p' -> Q' a p') -> rpost x p E' Q'.
  Proof. intros A x p E E' Q Q' H K L. unfold rpost in *. destruct (x f p) as [[a p']|e|q|]; auto. Qed.
  Lemma rp_ret : forall {A} (a : A) p E (Q : A -> N -> Prop), Q a p -> rpost (ret a) p E Q. Proof. intros. exact H. Qed.
  Definition short (p n : N) (e : err) : Prop := e = EIoEof /\ blen f < p + n.
  Lemma rp_read : forall n p, rpost (read_exact n) p (short p n) (fun b q => b = slice f p n /\ q = p + n /\ (n = 0 \/ p + n <= blen f)).
  Proof.
    intros n p. unfold rpost. destruct (read_exact n f p) as [[b q]|e|x|] eqn:E.
    - apply read_exact_inv in E. destruct E as (-> & -> & E). auto.
    - unfold read_exact in E. destruct (n =? 0); [discriminate|]. destruct (_ <=? _) eqn:X; [discriminate|]. injection E as <-. split; [reflexivity|lia].
    - unfold read_exact in E. destruct (n =? 0); [discriminate|]. destruct (_ <=? _); discriminate.
    - unfold read_exact in E. destruct (n =? 0); [discriminate|]. destruct (_ <=? _); discriminate.
  Qed.
  Lemma rp_num : forall n p, n <> 0 -> rpost (b <- read_exact n ;; ret (unbe b)) p (short p n) (fun v q => v = field f p n /\ q = p + n /\ q <= blen f).
  Proof. intros n p N0. eapply rp_bind; [apply rp_read|]. intros b q (-> & -> & H). apply rp_ret. split; [reflexivity|]. split; [reflexivity|]. lia. Qed.
  Lemma rp_u8 : forall p, rpost read_u8 p (short p 1) (fun v q => v = field f p 1 /\ q = p + 1 /\ q <= blen f). Proof. intros p. now apply rp_num. Qed.
  Lemma rp_u16 : forall p, rpost read_u16 p (short p 2) (fun v q => v = field f p 2 /\ q = p + 2 /\ q <= blen f). Proof. intros p. now apply rp_num. Qed.
  Lemma rp_u32 : forall p, rpost read_u32 p (short p 4) (fun v q => v = field f p 4 /\ q = p + 4 /\ q <= blen f). Proof. intros p. now apply rp_num. Qed.
  Lemma rp_u64 : forall p, rpost read_u64 p (short p 8) (fun v q => v = field f p 8 /\ q = p + 8 /\ q <= blen f). Proof. intros p. now apply rp_num. Qed.
  Lemma rp_near : forall (n : N) p, p <= blen f -> n < 2 ^ 30 -> rpost (seek_cur (Z.of_N n)) p (fun _ => False) (fun _ q => q = p + n).
  Proof.
    intros n p L Ln. unfold rpost, seek_cur. assert (W : two63 = 2 * 2 ^ 62) by reflexivity. assert (2 ^ 30 < 2 ^ 62) by reflexivity. rewrite W. rewrite <- N2Z.inj_add, N2Z.id. destruct (_ && _)%Z eqn:E; [reflexivity|lia].
  Qed.
  Lemma rp_i64 : forall n p, p <= blen f -> n < 2 ^ 30 -> rpost (seek_cur (as_i64 n)) p (fun _ => False) (fun _ q => q = p + n).
  Proof. intros n p L Ln. assert (2 ^ 30 < 2 ^ 63) by reflexivity. rewrite (as_i64_small f Lf) by lia. now apply rp_near. Qed.

  Local Notation no_desc := (ErrProofs.no_desc f).
  Definition dpost7 (q : N) (r : N * N) (p : N) : Prop := p = q + fst r /\ descriptor_at f q (field f q 1) (fst r) (snd r).
  Lemma rp_len7 : forall k q i, (k <> 0)%nat -> slice f (q + 1) (blen i) = i -> Forall (fun b => 128 <= b2n b) i -> blen i + N.of_nat k = 4 ->
    rpost (desc_len_loop k (1 + blen i) (sum7 i 0)) (q + 1 + blen i) (fun e => e = EIoEof /\ no_desc q) (dpost7 q).
  Proof.
    induction k as [|k IH]; intros q i K0 Si Fi Lk; [lia|]. cbn [desc_len_loop].
    eapply rp_bind; [eapply rp_weak; [apply rp_u8|intros e [-> L]; split; [reflexivity|]; now apply (no_desc_cut f Lf q i Si Fi ltac:(lia))|intros a p H; exact H]|]. intros v p (-> & -> & L). cbv zeta.
    destruct (slice_one f Lf (q + 1 + blen i) ltac:(lia)) as [z Hz].
    assert (V : field f (q + 1 + blen i) 1 = b2n z) by (unfold field; rewrite Hz; unfold unbe; cbn; lia). rewrite V.
    assert (S2 : slice f (q + 1) (blen i + 1) = i ++ [z]) by (rewrite (slice_snoc f Lf) by lia; rewrite Si, Hz; reflexivity).
    assert (S3 : sum7 i 0 * 128 + b2n z mod 128 = sum7 (i ++ [z]) 0) by (unfold sum7; rewrite fold_left_app; reflexivity). rewrite S3.
    assert (Dz : (blen i < 3 /\ b2n z < 128 \/ blen i = 3) -> descriptor_at f q (field f q 1) (1 + blen i + 1) (sum7 (i ++ [z]) 0)).
    { intros D. split; [lia|]. split; [reflexivity|]. exists i, z. replace (1 + blen i + 1 - 1) with (blen i + 1) by lia. split; [exact S2|]. split; [lia|]. split; [exact Fi|]. split; [exact D|reflexivity]. }
    destruct (b2n z <? 128) eqn:C.
    - apply rp_ret. unfold dpost7. cbn [fst snd]. split; [lia|]. apply Dz. lia.
    - destruct k as [|k].
      + cbn [desc_len_loop]. apply rp_ret. unfold dpost7. cbn [fst snd]. split; [lia|]. apply Dz. lia.
      + replace (1 + blen i + 1) with (1 + blen (i ++ [z])) by (rewrite blen_app; change (blen [z]) with 1; lia).
        replace (q + 1 + blen i + 1) with (q + 1 + blen (i ++ [z])) by (rewrite blen_app; change (blen [z]) with 1; lia).
        apply IH; [discriminate| | |].
        * rewrite blen_app. change (blen [z]) with 1. exact S2.
        * apply Forall_app. split; [exact Fi|]. constructor; [lia|constructor].
        * rewrite blen_app. change (blen [z]) with 1. lia.
  Qed.
  Lemma rp_desc_head : forall q, rpost parse_desc_head q (fun e => e = EIoEof /\ no_desc q) (fun h p => let '(tag, n, len) := h in p = q + n /\ descriptor_at f q tag n len).
  Proof.
    intros q. unfold parse_desc_head.
    eapply rp_bind; [eapply rp_weak; [apply rp_u8|intros e [-> L]; split; [reflexivity|]|intros a p H; exact H]|].
    - intros tag n len (Ln & _ & i & z & _ & -> & _). lia.
    - cbv beta. intros v p (-> & -> & L). eapply rp_bind; [|intros r p' H; apply rp_ret; exact H].
      replace (q + 1) with (q + 1 + blen (@nil byte)) by (change (blen (@nil byte)) with 0; lia).
      change (desc_len_loop 4 1 0) with (desc_len_loop 4 (1 + blen (@nil byte)) (sum7 [] 0)).
      apply rp_len7; [discriminate|reflexivity|constructor|reflexivity].
  Qed.

  (** * Described programs *)

  Definition dpost {A} (E : fault -> Prop) (x : D A) (p : N) (Q : A -> N -> Prop) : Prop :=
    match x f p with DOk (a, p') => Q a p' | DErr e t => E (Fails e t) | DPanic k => E (Breaks k) | DFuel => worn end.
  Lemma dp_bind : forall {A B} E (x : D A) (k : A -> D B) p Q S, dpost E x p Q -> (forall a p', Q a p' -> dpost E (k a) p' S) -> dpost E (dbind x k) p S.
  Proof. intros A B E x k p Q S H K. unfold dpost, dbind in *. destruct (x f p) as [[a p']|e t|q|]; try exact H. apply K, H. Qed.
  Lemma dp_weak : forall {A} (E E' : fault -> Prop) (x : D A) p (Q Q' : A -> N -> Prop), dpost E x p Q -> (forall y, E y -> E' y) -> (forall a p', Q a p' -> Q' a p') -> dpost E' x p Q'.
  Proof. intros A E E' x p Q Q' H K L. unfold dpost in *. destruct (x f p) as [[a p']|e t|q|]; auto. Qed.
  Lemma dp_then : forall {A} (E : fault -> Prop) (x : D A) p (Q Q' : A -> N -> Prop), dpost E x p Q -> (forall a p', Q a p' -> Q' a p') -> dpost E x p Q'.
  Proof. intros. eapply dp_weak; eauto. Qed.
  Lemma dp_ret : forall {A} E (a : A) p (Q : A -> N -> Prop), Q a p -> dpost E (dret a) p Q. Proof. intros. exact H. Qed.
  Lemma dp_fail : forall {A} (E : fault -> Prop) e t p (Q : A -> N -> Prop), E (Fails e t) -> dpost E (dfail e t) p Q. Proof. intros. exact H. Qed.
  Lemma dp_saying : forall {A} (E : fault -> Prop) t (x : R A) p E0 Q, rpost x p E0 Q -> (forall e, E0 e -> E (Fails e t)) -> dpost E (saying t x) p Q.
  Proof. intros A E t x p E0 Q H K. unfold rpost, dpost, saying in *. destruct (x f p) as [[a p']|e|q|]; auto; contradiction. Qed.
  Lemma dp_plainly : forall {A} (E : fault -> Prop) (x : R A) p E0 Q, rpost x p E0 Q -> (forall e, E0 e -> E (Fails e (from_text e))) -> dpost E (plainly x) p Q.
  Proof. intros A E x p E0 Q H K. unfold rpost, dpost, plainly in *. destruct (x f p) as [[a p']|e|q|]; auto; contradiction. Qed.
  Lemma dp_sub : forall (E : fault -> Prop) a b p, (lacking m a b -> E (Breaks POverflow)) -> dpost E (plainly (lift (sub64 m a b))) p (fun x q => less m a b x /\ q = p).
  Proof. intros E a b p H. unfold dpost, plainly, lift. destruct (sub64_is m a b) as [(c & A & ->)|[A ->]]; auto. Qed.
  Lemma dp_add : forall (E : fault -> Prop) a b p, (beyond m (a + b) -> E (Breaks POverflow)) -> dpost E (plainly (lift (add64 m a b))) p (fun x q => kept m (a + b) x /\ q = p).
  Proof. intros E a b p H. unfold dpost, plainly, lift. destruct (add64_is m a b) as [(c & A & ->)|[A ->]]; auto. Qed.
  Lemma content_is : forall h, content_len m (hd_size h) = sub64 m (sz h) (hl h).
  Proof. intros h. unfold content_len, head_len. destruct (sz_ext _); reflexivity. Qed.
  Lemma dp_content : forall (E : fault -> Prop) h p, (lacking m (sz h) (hl h) -> E (Breaks POverflow)) -> dpost E (plainly (lift (content_len m (hd_size h)))) p (fun x q => less m (sz h) (hl h) x /\ q = p).
  Proof. intros E h p H. rewrite content_is. now apply dp_sub. Qed.
  Lemma dp_near : forall E (n : N) p, p <= blen f -> n < 2 ^ 30 -> dpost E (plainly (seek_cur (Z.of_N n))) p (fun _ q => q = p + n).
  Proof. intros E n p L Ln. eapply dp_plainly; [apply rp_near; assumption|]. intros e []. Qed.
  Lemma dp_i64 : forall E (n : N) p, p <= blen f -> n < 2 ^ 30 -> dpost E (plainly (seek_cur (as_i64 n))) p (fun _ q => q = p + n).
  Proof. intros E n p L Ln. eapply dp_plainly; [apply rp_i64; assumption|]. intros e []. Qed.

  (** What stops a program, with the names of the boxes around. *)
  Definition told (stop : list fourcc -> fault -> Prop) (ns : list fourcc) (x : fault) : Prop :=
    match x with
    | Fails e t => exists ns' s, stop (ns ++ ns') (Fails e s) /\ t = says ns' s
    | Breaks k => exists ns', stop ns' (Breaks k)
    end.
  Lemma told_here : forall (stop : list fourcc -> fault -> Prop) ns x, stop ns x -> told stop ns x.
  Proof. intros stop ns [e t|k] H; [exists [], t; rewrite app_nil_r; auto|exists ns; exact H]. Qed.
  Lemma dp_parsing : forall {A} stop ns i (x : D A) p Q, dpost (told stop (ns ++ [i])) x p Q -> dpost (told stop ns) (parsing i x) p Q.
  Proof.
    intros A stop ns i x p Q H. unfold dpost, parsing in *. destruct (x f p) as [[a p']|e t|q|]; auto.
    destruct H as (ns' & s & C & ->). exists (i :: ns'), s. split; [|reflexivity]. now rewrite <- app_assoc in C.
  Qed.

  Definition failing (P : err -> ustring -> Prop) (x : fault) : Prop := match x with Fails e t => P e t | Breaks _ => False end.
  Lemma dp_head : forall p, dpost (failing (head_wrong f p)) d_head p (fun h q => head_at p h /\ q = p + hl h).
  Proof.
    intros p.
    assert (G : dpost (failing (head_wrong f p)) d_head p (fun _ _ => True)).
    { unfold d_head. eapply dp_bind; [eapply dp_saying; [apply rp_u32|intros e [-> L]; now apply No_size]|]. cbv beta. intros v q (-> & -> & L1).
      eapply dp_bind; [eapply dp_saying; [apply rp_read|intros e [-> L]; apply No_name; lia]|]. cbv beta. intros b q (-> & -> & L2). cbv zeta.
      destruct (field f p 4 =? 1) eqn:E1.
      - eapply dp_bind; [eapply dp_saying; [apply rp_u64|intros e [-> L]; apply No_long_size; lia]|]. intros. now apply dp_ret.
      - destruct (field f p 4 <? 8) eqn:E8; [|now apply dp_ret]. rewrite <- (fc_slice f Lf) by lia. apply dp_fail. apply Below_eight; lia. }
    unfold dpost in *. pose proof (DescribedIs.same_head f p) as Sm.
    destruct (d_head f p) as [[h q]|e t|x|]; auto. cbn [undress] in Sm. symmetry in Sm. apply parse_head_inv in Sm. destruct Sm as [-> B]. split; [exact B|reflexivity].
  Qed.
  Lemma dp_full : forall p top said, dpost (failing (full_wrong f p top said)) d_full p (fun v q => v = (field f p 1, slice f (p + 1) 3) /\ q = p + 4 /\ q <= blen f).
  Proof.
    intros p top said. unfold d_full. eapply dp_bind; [eapply dp_saying; [apply rp_u8|intros e [-> L]; now apply No_version]|]. cbv beta. intros v q (-> & -> & L1).
    eapply dp_bind; [eapply dp_saying; [apply rp_read|intros e [-> L]; apply No_flags; lia]|]. cbv beta. intros b q (-> & -> & L2).
    apply dp_ret. split; [reflexivity|lia].
  Qed.
  (** The version is checked behind it. *)
  Lemma dp_version : forall {A} p said (x : N * bytes -> D A) (E : fault -> Prop) Q,
    (forall e t, full_wrong f p 0 said e t -> E (Fails e t)) ->
    (full_fine f p 0 -> dpost E (x (field f p 1, slice f (p + 1) 3)) (p + 4) Q) ->
    dpost E (vf <# d_full ;; if negb (fst vf =? 0) then dfail (EUnknownVersion (fst vf)) said else x vf) p Q.
  Proof.
    intros A p said x E Q C K. eapply dp_bind; [eapply dp_weak; [apply (dp_full p 0 said)|intros [e t|k] H; [now apply C|contradiction H]|intros a q H; exact H]|].
    cbv beta. intros vf q (-> & -> & L). cbn [fst]. destruct (negb _) eqn:EV; [apply dp_fail, C, Other_version; lia|]. apply K. split; lia.
  Qed.

  (** * Moves *)

  Lemma head_len_le : forall h, hl h <= 16.
  Proof. intros h. unfold head_len. destruct (sz_ext _); lia. Qed.
  Lemma size_lt : forall q h, head_at q h -> sz h < 2 ^ 64.
  Proof.
    intros q h (_ & _ & [(_ & _ & E)|(_ & _ & _ & E)]); rewrite E; [exact (PanicProofs.field_lt f Lf (q + 8) 8)|].
    pose proof (PanicProofs.field_lt f Lf q 4) as L. assert (256 ^ 4 < 2 ^ 64) by reflexivity. lia.
  Qed.
  Lemma dskip : forall q h, head_at q h -> dpost (fun x => skipped m q (hl h) (sz h) (Stops x)) (plainly (skip_atom m h)) (q + hl h) (fun _ p => skipped m q (hl h) (sz h) (Goes p)).
  Proof.
    intros q h H. pose proof (size_lt q h H) as Ls. pose proof (proj1 H) as Lq. unfold skip_atom. rewrite content_is. unfold dpost, plainly, bind, lift.
    destruct (sub64_is m (sz h) (hl h)) as [(c & A & ->)|[A ->]]; [|now apply Skip_short].
    assert (W : two63 = 2 * 2 ^ 62) by reflexivity. assert (W4 : two64 = 4 * 2 ^ 62) by reflexivity. assert (W3 : 2 ^ 63 = 2 * 2 ^ 62) by reflexivity. assert (W5 : 2 ^ 64 = 4 * 2 ^ 62) by reflexivity.
    unfold seek_cur, as_i64. rewrite W, W4. rewrite W5 in Ls. destruct A as [[C ->]|(M & C & ->)].
    2: { rewrite W5. pose proof (head_len_le h) as Lh. destruct (_ <? 2 * 2 ^ 62) eqn:X; [lia|]. destruct (_ && _)%Z eqn:Y; [|lia].
      replace (Z.to_N _) with (q + sz h) by lia. now apply Skip_less. }
    destruct (sz h - hl h <? 2 * 2 ^ 62) eqn:X; destruct (_ && _)%Z eqn:Y.
    - replace (Z.to_N _) with (q + sz h) by lia. apply Skip_on; lia.
    - cbn [from_text]. apply Skip_far; lia.
    - replace (Z.to_N _) with (q + sz h - 2 ^ 64) by lia. apply Skip_back; lia.
    - cbn [from_text]. apply Skip_before; lia.
  Qed.
  Lemma dbounds : forall E q h, head_at q h -> dpost E (plainly (find_bounds m (hd_size h))) (q + hl h) (fun b p => b = Bounds q (hd_size h) /\ p = q + hl h).
  Proof.
    intros E q h H. unfold dpost, plainly, find_bounds, bind, position, lift, sub64. destruct (_ <=? _) eqn:X; [|lia]. cbn. split; [|reflexivity]. f_equal. lia.
  Qed.
  Lemma dended : forall q h p, head_at q h -> p < 2 ^ 63 -> dpost (fun x => ended m q (sz h) p (Stops x)) (plainly (seek_to_end m (Bounds q (hd_size h)))) p (fun _ p' => ended m q (sz h) p (Goes p')).
  Proof.
    intros q h p H Lp. pose proof (size_lt q h H) as Ls. pose proof (proj1 H) as Lq.
    assert (W : two63 = 2 * 2 ^ 62) by reflexivity. assert (W4 : two64 = 4 * 2 ^ 62) by reflexivity. assert (W3 : 2 ^ 63 = 2 * 2 ^ 62) by reflexivity. assert (W5 : 2 ^ 64 = 4 * 2 ^ 62) by reflexivity.
    unfold dpost, plainly, seek_to_end, bind, position, bounds_end, lift. cbn [b_pos b_size].
    destruct (add64_is m q (sz h)) as [(e & A & ->)|[A ->]]; [|now apply End_over].
    destruct (sub64_is m e p) as [(c & B & ->)|[B ->]]; [|now apply (End_behind _ _ _ _ e)].
    pose proof (less_enough _ _ _ _ B) as NB.
    assert (Le : e < 4 * 2 ^ 62) by (destruct A as [[A ->]|(_ & _ & ->)]; [lia|rewrite <- W5; apply N.mod_lt; discriminate]).
    rewrite W3 in Lp. unfold seek_cur, as_i64. rewrite W, W4. destruct B as [[B ->]|(M & B & ->)]; [|rewrite W5]; (destruct (_ <? 2 * 2 ^ 62) eqn:X; destruct (_ && _)%Z eqn:V;
      [replace (Z.to_N _) with e by lia; apply (End_on _ _ _ _ e); [exact A|exact NB|lia]|cbn [from_text]; apply (End_far _ _ _ _ e); [exact A|exact NB|lia]|
       try (exfalso; lia)|cbn [from_text]; try (apply (End_far _ _ _ _ e); [exact A|exact NB|lia])]).
    - replace (Z.to_N _) with e by lia. apply (End_on _ _ _ _ e); [exact A|exact NB|lia].
  Qed.
  (** Reading bytes and texts. *)
  Lemma dvec : forall p n bad, dpost (fun x => taken f p n (fun _ => True) bad (Stops x)) (plainly (read_u8_vec n)) p (fun _ p' => taken f p n (fun _ => True) bad (Goes p')).
  Proof.
    intros p n bad. assert (W : two63 = 2 ^ 63) by reflexivity. unfold dpost, plainly, read_u8_vec. rewrite W. destruct (2 ^ 63 <=? n) eqn:X; [apply Take_much; lia|].
    unfold read_exact. destruct (n =? 0) eqn:Z.
    - replace (taken f p n (fun _ => True) bad (Goes p)) with (taken f p n (fun _ => True) bad (Goes (p + n))) by (do 2 f_equal; lia). apply Take_good; [lia|lia|exact I].
    - destruct (p + n <=? blen f) eqn:Y; [apply Take_good; [lia|lia|exact I]|]. cbn [from_text]. apply Take_cut; lia.
  Qed.
  Lemma dutf8 : forall p n, dpost (fun x => taken f p n is_utf8 not_utf8 (Stops x)) (plainly (read_utf8 n)) p (fun _ p' => taken f p n is_utf8 not_utf8 (Goes p')).
  Proof.
    intros p n. assert (W : two63 = 2 ^ 63) by reflexivity. unfold dpost, plainly, read_utf8, bind, read_u8_vec. rewrite W. destruct (2 ^ 63 <=? n) eqn:X; [apply Take_much; lia|].
    unfold read_exact. destruct (n =? 0) eqn:Z.
    - assert (n = 0) by lia. subst n. cbn [dec8 ret]. rewrite <- (N.add_0_r p) at 2. apply Take_good; [reflexivity|now left|]. exists []. split; reflexivity.
    - destruct (p + n <=? blen f) eqn:Y; [|cbn [from_text]; apply Take_cut; lia]. destruct (dec8 _) eqn:D; cbn [ret fail].
      + apply Take_good; [lia|lia|]. eapply ErrExact.dec_is_utf8; exact D.
      + cbn [from_text]. apply Take_bad; [lia|lia|]. now apply is_utf8_dec.
  Qed.
  Lemma dutf16 : forall p n, dpost (fun x => taken f p n is_utf16 not_utf16 (Stops x)) (plainly (read_utf16 n)) p (fun _ p' => taken f p n is_utf16 not_utf16 (Goes p')).
  Proof.
    intros p n. assert (W : two63 = 2 ^ 63) by reflexivity. unfold dpost, plainly, read_utf16, bind, read_u8_vec. rewrite W. destruct (2 ^ 63 <=? n) eqn:X; [apply Take_much; lia|].
    unfold read_exact. destruct (n =? 0) eqn:Z.
    - assert (n = 0) by lia. subst n. change (dec16 (bytes_units [])) with (Some (@nil N)). cbn [ret]. rewrite <- (N.add_0_r p) at 2. apply Take_good; [reflexivity|now left|]. exists [], []. split; [reflexivity|]. split; [reflexivity|now left].
    - destruct (p + n <=? blen f) eqn:Y; [|cbn [from_text]; apply Take_cut; lia]. destruct (dec16 _) eqn:D; cbn [ret fail].
      + apply Take_good; [lia|lia|]. eapply ErrExact.dec_is_utf16; exact D.
      + cbn [from_text]. apply Take_bad; [lia|lia|]. now apply is_utf16_dec.
  Qed.

  (** A loop over boxes: [St] holds in front of a box, with the number of boxes and the sum of their sizes so far, and [Bd]
      behind it. *)
  Lemma dloop : forall {S} lim (body : head -> S -> D S) (E : fault -> Prop) (St : nat -> S -> N -> N -> Prop) (Bd : nat -> S -> N -> N -> N -> Prop),
    (forall s d q, St F s d q -> worn) ->
    (forall c s d q e t, St c s d q -> d < lim -> head_wrong f q e t -> E (Fails e t)) ->
    (forall c s d q h, St c s d q -> d < lim -> head_at q h -> dpost E (body h s) (q + hl h) (fun s' p => Bd c s' d (sz h) p)) ->
    (forall c s d z p, Bd c s d z p -> beyond m (d + z) -> E (Breaks POverflow)) ->
    (forall c s d z p d', Bd c s d z p -> kept m (d + z) d' -> St (Datatypes.S c) s d' p) ->
    forall fuel c d s p, (c + fuel = F)%nat -> St c s d p -> dpost E (d_loop fuel m (Ok lim) body d s) p (fun s' p' => exists c' d', lim <= d' /\ St c' s' d' p').
  Proof.
    intros S lim body E St Bd HZ HE B HO HN. induction fuel as [|fuel IH]; intros c d s p CF K; cbn [d_loop]; [replace c with F in K by lia; exact (HZ _ _ _ K)|].
    apply (dp_bind _ _ _ _ (fun x q => x = lim /\ q = p)); [unfold dpost; cbn; auto|]. cbv beta. intros l' p' [-> ->].
    destruct (d <? lim) eqn:EL; [|apply dp_ret; exists c, d; split; [lia|exact K]].
    eapply dp_bind; [eapply dp_weak; [apply dp_head|intros [e t|k] W; [eapply HE; [exact K|lia|exact W]|contradiction W]|intros a q H; exact H]|]. cbv beta. intros h p1 [H ->].
    eapply dp_bind; [eapply B; [exact K|lia|exact H]|]. cbv beta. intros s' p2 K2.
    eapply dp_bind; [apply dp_add; intros L; eapply HO; eassumption|]. cbv beta. intros x p3 (L & ->). apply (IH (Datatypes.S c)); [lia|]. eapply HN; eassumption.
  Qed.

  (** The file type, and the length of the rest of the file. *)
  Lemma dtype : dpost (fun x => type_out m f (Stops x)) (d_ftyp m) 0 (fun _ q => type_out m f (Goes q)).
  Proof.
    unfold d_ftyp. eapply dp_bind; [eapply dp_weak; [apply dp_head|intros [e t|k] X; [apply Type_no_head, X|contradiction X]|intros a q H; exact H]|]. cbv beta. intros h p1 [H ->].
    destruct (negb _) eqn:E; [apply dp_fail; eapply Type_other; [exact H|intros N; rewrite N in E; discriminate]|]. apply negb_false_iff in E.
    pose proof (fourcc_is f _ _ _ H E) as B. change FILETYPE with (id4 "ftyp") in B.
    eapply dp_bind; [apply dp_content; intros L; eapply Type_short; eassumption|]. cbv beta. intros c p2 (C & ->). rewrite N.add_0_l.
    eapply dp_weak; [apply dutf8|intros x X; eapply Type_taken; eassumption|cbv beta; intros a p X; eapply Type_taken; eassumption].
  Qed.
  Lemma type_in : forall p, type_out m f (Goes p) -> p <= blen f.
  Proof.
    intros p W. inversion W as [| | |hd size n o B L T Eo]. subst o. inversion T as [| | |L1 L2 U E0]. subst p. pose proof (proj1 B). lia.
  Qed.
  Lemma dremaining : forall E q, q <= blen f -> dpost E (plainly (remaining_stream_len m)) q (fun n p => n = blen f - q /\ p = q).
  Proof.
    intros E q Lq. assert (W : two63 = 2 ^ 63) by reflexivity. assert (W3 : 2 ^ 63 = 2 * 2 ^ 62) by reflexivity.
    unfold dpost, plainly, remaining_stream_len, bind, position, seek_end, lift, sub64. destruct (q <=? blen f) eqn:X; [|lia].
    unfold seek_start. destruct (q <? two63) eqn:Y; [|rewrite W in Y; lia]. cbn. auto.
  Qed.
End Outcome.
