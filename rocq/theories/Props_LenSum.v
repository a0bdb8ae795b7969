(** Sums of lengths in 64 bits: C86 (see properties.jsonl). *)

From Coq Require Import List NArith ZArith Bool Lia Arith String.
From Coq Require Import ZifyBool ZifyNat ZifyN.
From Verif Require Import Base BaseLemmas Utf UtfLemmas Types Stream Parse Find Write TagSpec FileSpec WOutSpec WOutPlan ExampleFile LenSum.
Import ListNotations.
Local Open Scope list_scope.

(** The number [n] in 64 bits: with overflow checks there is none from 2^64 on. *)
Definition in64 (m : mode) (n : N) : res N :=
  if n <? 2 ^ 64 then Ok n else match m with Checked => Panic POverflow | Wrapping => Ok (n mod 2 ^ 64) end.

Lemma add_in64 : forall m a b, rbind (in64 m a) (fun x => rbind (in64 m b) (fun y => add64 m x y)) = in64 m (a + b).
Proof.
  intros m a b. assert (W : two64 = 2 ^ 64) by reflexivity. unfold in64, add64. rewrite W. set (k := 2 ^ 64). assert (K : k <> 0) by (unfold k; discriminate). clearbody k.
  destruct (N.ltb_spec a k); destruct (N.ltb_spec b k); cbn [rbind].
  - reflexivity.
  - destruct (N.ltb_spec (a + b) k); [lia|]. destruct m; [reflexivity|]. cbn [rbind].
    rewrite <- (N.add_mod_idemp_r a b k) by exact K. destruct (N.ltb_spec (a + b mod k) k); [rewrite (N.mod_small (a + b mod k)) by assumption; reflexivity|reflexivity].
  - destruct (N.ltb_spec (a + b) k); [lia|]. destruct m; [reflexivity|]. cbn [rbind].
    rewrite <- (N.add_mod_idemp_l a b k) by exact K. destruct (N.ltb_spec (a mod k + b) k); [rewrite (N.mod_small (a mod k + b)) by assumption; reflexivity|reflexivity].
  - destruct (N.ltb_spec (a + b) k); [lia|]. destruct m; [reflexivity|]. cbn [rbind].
    rewrite (N.add_mod a b k) by exact K. destruct (N.ltb_spec (a mod k + b mod k) k); [rewrite (N.mod_small (a mod k + b mod k)) by assumption; reflexivity|reflexivity].
Qed.
Lemma small_in64 : forall m n, n < 2 ^ 64 -> in64 m n = Ok n.
Proof. intros m n L. unfold in64. destruct (N.ltb_spec n (2 ^ 64)); [reflexivity|lia]. Qed.
Lemma addr_in64 : forall m a b, a < 2 ^ 64 -> b < 2 ^ 64 -> add64 m a b = in64 m (a + b).
Proof. intros m a b A B. rewrite <- add_in64, !small_in64 by assumption. reflexivity. Qed.
Lemma in64_cases : forall m n, (exists k, in64 m n = Ok k) \/ m = Checked /\ in64 m n = Panic POverflow.
Proof.
  intros m n. unfold in64. destruct (n <? 2 ^ 64); [left; eexists; reflexivity|]. destruct m; [right; split; reflexivity|left; eexists; reflexivity].
Qed.
Lemma in64_eq : forall m n k, in64 m n = Ok k -> k < 2 ^ 64 /\ in64 m k = Ok k.
Proof.
  intros m n k H. assert (L : k < 2 ^ 64); [|split; [exact L|apply small_in64, L]]. unfold in64 in H. destruct (N.ltb_spec n (2 ^ 64)) as [L|L].
  - injection H as <-. exact L.
  - destruct m; [discriminate|]. injection H as <-. apply N.mod_lt. discriminate.
Qed.

Lemma sum_in64 : forall m l acc, rbind (in64 m acc) (fun a => sum_from m a (map (in64 m) l)) = in64 m (acc + nsum l).
Proof.
  intros m l. induction l as [|x r IH]; intros acc.
  - unfold nsum. cbn [map sum_from fold_right]. rewrite N.add_0_r. destruct (in64 m acc); reflexivity.
  - change (nsum (x :: r)) with (x + nsum r). rewrite N.add_assoc, <- IH, <- add_in64. cbn [map sum_from].
    destruct (in64 m acc) as [a| | |]; [|reflexivity..]. cbn [rbind]. destruct (in64 m x) as [b| | |]; reflexivity.
Qed.
Lemma sum64_is : forall m l, sum64 m (map (in64 m) l) = in64 m (nsum l).
Proof. intros m l. unfold sum64. pose proof (sum_in64 m l 0) as X. rewrite (small_in64 m 0) in X by reflexivity. exact X. Qed.

(** No single allocation is of 2^63 bytes or more. *)
Definition in_memory (a : atom_data) : Prop :=
  Forall (fun d => value_len d < 2 ^ 63) (ad_data a) /\
  match ad_ident a with IFourcc _ => True | IFreeform mean name => blen (enc8 mean) < 2 ^ 63 /\ blen (enc8 name) < 2 ^ 63 end.

(** The length of an item: what it should be, or a panic, or cut to 64 bits. *)
Theorem C86_item : forall m a, in_memory a -> ad_len64 m a = in64 m (item_len a).
Proof.
  intros m a [D I]. rewrite <- item_len_is. unfold ad_len64.
  assert (P : 2 ^ 64 = 2 * 2 ^ 63) by reflexivity. assert (P' : 16 < 2 ^ 63) by reflexivity.
  assert (M : map (fun d => add64 m 16 (data_len d)) (ad_data a) = map (in64 m) (map (fun d => 16 + data_len d) (ad_data a))).
  { rewrite map_map. apply map_ext_in. intros d Id. rewrite Forall_forall in D. specialize (D d Id). rewrite <- value_len_is in D. apply addr_in64; lia. }
  rewrite M, sum64_is. clear M. unfold ad_len. set (n := nsum _). destruct (ad_ident a) as [f|me na].
  - rewrite <- add_in64. rewrite (small_in64 m 8) by reflexivity. cbn [rbind]. reflexivity.
  - destruct I as [I1 I2]. rewrite !addr_in64 by lia. set (x := blen (enc8 me)) in *. set (y := blen (enc8 na)) in *.
    rewrite !(small_in64 m (12 + _)) by lia. cbn [rbind]. rewrite (addr_in64 m 8 (12 + x)), (small_in64 m (8 + (12 + x))) by lia. cbn [rbind].
    rewrite (addr_in64 m (8 + (12 + x)) (12 + y)) by lia. rewrite <- (add_in64 m (8 + (12 + x) + (12 + y)) n).
    destruct (in64_cases m n) as [[k K]|[_ K]]; rewrite K; destruct (in64_cases m (8 + (12 + x) + (12 + y))) as [[z Z]|[_ Z]]; rewrite Z; reflexivity.
Qed.
Print Assumptions C86_item.

(** Containers, with or without a handler.  (With overflow checks off and from 2^64 on, the sizes are wrong.) *)
Definition small_handler (h : option bytes) : Prop := match h with Some b => blen b < 2 ^ 31 | None => True end.
Definition exact64 (r : res size) (s : size) (m : mode) : Prop :=
  (sz_len s < 2 ^ 64 -> r = Ok s) /\ (2 ^ 64 <= sz_len s -> m = Checked -> r = Panic POverflow).

Lemma from_exact : forall m n, n < 2 ^ 64 -> exact64 (size_from64 m n) (size_from n) m.
Proof.
  intros m n L. unfold size_from64, size_from. cbn [sz_len]. assert (P : 4294967296 < 2 ^ 64 - 16) by reflexivity. rewrite (addr_in64 m n 8) by lia.
  split; cbn [sz_len].
  - intros B. destruct (4294967295 <? n + 8) eqn:E.
    + rewrite small_in64 by lia. cbn [rbind]. rewrite E, (addr_in64 m (n + 8) 8), small_in64 by lia. reflexivity.
    + rewrite small_in64 by lia. cbn [rbind]. rewrite E. reflexivity.
  - intros B ->. destruct (4294967295 <? n + 8) eqn:E; [|lia]. unfold in64 at 1. destruct (N.ltb_spec (n + 8) (2 ^ 64)) as [X|X]; [|reflexivity].
    cbn [rbind]. rewrite E, (addr_in64 Checked (n + 8) 8) by lia. unfold in64. destruct (N.ltb_spec (n + 8 + 8) (2 ^ 64)); [lia|reflexivity].
Qed.
Lemma from_in64 : forall m n, exact64 (rbind (in64 m n) (size_from64 m)) (size_from n) m.
Proof.
  intros m n. unfold in64. destruct (N.ltb_spec n (2 ^ 64)) as [L|L]; [exact (from_exact m n L)|].
  assert (X : n < sz_len (size_from n)) by (unfold size_from; cbn [sz_len]; destruct (_ <? _); lia).
  split; [lia|]. intros _ ->. reflexivity.
Qed.
Lemma exact_then : forall m r s n (k : N -> N), exact64 r s m -> (forall x, k x = x + n) -> n < 2 ^ 63 ->
  exact64 (rbind r (fun t => rbind (in64 m (k (sz_len t))) (size_from64 m))) (size_from (k (sz_len s))) m.
Proof.
  intros m r s n k [A B] K L. rewrite (K (sz_len s)). assert (X : sz_len s + n < sz_len (size_from (sz_len s + n))) by (unfold size_from; cbn [sz_len]; destruct (_ <? _); lia).
  destruct (N.ltb_spec (sz_len s) (2 ^ 64)) as [C|C].
  - rewrite (A C). cbn [rbind]. rewrite K. apply from_in64.
  - split; [lia|]. intros _ M. rewrite (B C M). reflexivity.
Qed.
Lemma res_ext : forall {A B} (r : res A) (k k' : A -> res B), (forall a, r = Ok a -> k a = k' a) -> rbind r k = rbind r k'.
Proof. intros A B r k k' H. destruct r as [a| | |]; [exact (H a eq_refl)|reflexivity..]. Qed.
Lemma add64_lt : forall m a b c, add64 m a b = Ok c -> c < 2 ^ 64.
Proof.
  intros m a b c H. unfold add64 in H. assert (W : two64 = 2 ^ 64) by reflexivity. rewrite W in H. destruct (N.ltb_spec (a + b) (2 ^ 64)) as [L|L].
  - injection H as <-. exact L.
  - destruct m; [discriminate|]. injection H as <-. apply N.mod_lt. discriminate.
Qed.
Lemma size64_lt : forall m n s, size_from64 m n = Ok s -> sz_len s < 2 ^ 64.
Proof.
  intros m n s H. unfold size_from64 in H. destruct (add64 m n 8) as [k| | |] eqn:E; try discriminate. cbn [rbind] in H. apply add64_lt in E.
  destruct (4294967295 <? k); [|injection H as <-; exact E]. destruct (add64 m k 8) as [j| | |] eqn:F; try discriminate. injection H as <-. exact (add64_lt _ _ _ _ F).
Qed.
Lemma rbind_ok : forall {A B} (r : res A) (k : A -> res B) b, rbind r k = Ok b -> exists a, r = Ok a /\ k a = Ok b.
Proof. intros A B [a| | |] k b H; try discriminate. exists a. split; [reflexivity|exact H]. Qed.

Lemma list_in64 : forall m items, Forall in_memory items -> exact64 (ilst_size64 m items) (ilst_size items) m.
Proof.
  intros m items F. unfold ilst_size64, ilst_size.
  assert (M : map (ad_len64 m) items = map (in64 m) (map ad_len items)).
  { rewrite map_map. apply map_ext_in. intros a Ia. rewrite Forall_forall in F. rewrite item_len_is. apply C86_item, F, Ia. }
  rewrite M, sum64_is. apply from_in64.
Qed.
Lemma handler_in64 : forall m h, small_handler h -> hdlr_len64 m h = Ok (hdlr_len_or_zero h) /\ hdlr_len_or_zero h < 2 ^ 32.
Proof.
  intros m [b|] L; [|split; reflexivity]. cbn [small_handler hdlr_len64 hdlr_len_or_zero] in *. unfold hdlr_size.
  assert (P : 2 ^ 31 + 16 < 2 ^ 32) by reflexivity. assert (Q : 2 ^ 32 < 2 ^ 64) by reflexivity. change (2 ^ 32) with 4294967296 in P, Q |- *.
  assert (X : sz_len (size_from (blen b)) < 4294967296) by (unfold size_from; cbn [sz_len]; destruct (_ <? _); lia).
  assert (B : blen b < 2 ^ 64) by lia. destruct (from_exact m (blen b) B) as [Y _]. split; [|exact X]. rewrite Y by lia. reflexivity.
Qed.

Theorem C86_containers : forall m h items, Forall in_memory items -> small_handler h ->
  let x := NewMeta h items in
  exact64 (ilst_size64 m items) (ilst_size items) m /\ exact64 (meta_size64 m x) (meta_size x) m /\
  exact64 (udta_size64 m x) (udta_size x) m /\ exact64 (moov_size64 m x) (moov_size x) m.
Proof.
  intros m h items F Sh x. pose proof (list_in64 m items F) as I.
  assert (P : 2 ^ 32 + 4 < 2 ^ 63) by reflexivity. assert (Q : 2 ^ 64 = 2 * 2 ^ 63) by reflexivity.
  assert (Nx : forall r s, exact64 r s m -> (forall t, r = Ok t -> sz_len t < 2 ^ 64) -> exact64 (rbind r (fun t => size_from64 m (sz_len t))) (size_from (sz_len s)) m).
  { intros r s E L. assert (K1 : forall x, (fun x => x) x = x + 0) by (intros; cbv beta; lia).
    pose proof (exact_then m r s 0 (fun x => x) E K1 eq_refl) as X. cbv beta in X.
    rewrite (res_ext r _ (fun t => rbind (in64 m (sz_len t)) (size_from64 m))); [exact X|]. intros t T. rewrite small_in64 by exact (L t T). reflexivity. }
  assert (M : exact64 (meta_size64 m x) (meta_size x) m).
  { unfold meta_size64, meta_size, x. cbn [nm_hdlr nm_ilst]. destruct (handler_in64 m h Sh) as [-> B]. cbn [rbind]. set (hl := hdlr_len_or_zero h) in *.
    assert (K1 : forall x, (fun x => hl + x + 4) x = x + (hl + 4)) by (intros; cbv beta; lia). assert (K2 : hl + 4 < 2 ^ 63) by lia.
    pose proof (exact_then m _ _ (hl + 4) (fun x => hl + x + 4) I K1 K2) as X. cbv beta in X.
    rewrite (res_ext (ilst_size64 m items) _ (fun t => rbind (in64 m (hl + sz_len t + 4)) (size_from64 m))); [exact X|].
    intros t T. unfold ilst_size64 in T. apply rbind_ok in T. destruct T as (n & _ & T). apply size64_lt in T.
    rewrite (addr_in64 m hl (sz_len t)) by lia. rewrite <- (add_in64 m (hl + sz_len t) 4). rewrite (small_in64 m 4) by reflexivity. cbn [rbind].
    destruct (in64 m (hl + sz_len t)); reflexivity. }
  assert (Ml : forall t, meta_size64 m x = Ok t -> sz_len t < 2 ^ 64).
  { intros t T. unfold meta_size64 in T. do 4 (apply rbind_ok in T; destruct T as (? & _ & T)). exact (size64_lt _ _ _ T). }
  assert (U : exact64 (udta_size64 m x) (udta_size x) m) by exact (Nx _ _ M Ml).
  assert (Ul : forall t, udta_size64 m x = Ok t -> sz_len t < 2 ^ 64).
  { intros t T. unfold udta_size64 in T. apply rbind_ok in T; destruct T as (? & _ & T). exact (size64_lt _ _ _ T). }
  split; [exact I|]. split; [exact M|]. split; [exact U|]. exact (Nx _ _ U Ul).
Qed.
Print Assumptions C86_containers.

(** The sums are those of the specification of writing (C75). *)
Theorem C86_sums : forall items,
  sz_len (ilst_size items) = new_size (list_len items) /\
  sz_len (meta_size (NewMeta (Some meta_hdlr) items)) = new_size (meta_content items) /\
  sz_len (udta_size (NewMeta (Some meta_hdlr) items)) = new_size (new_size (meta_content items)).
Proof.
  intros items.
  assert (E : forall n, sz_len (size_from n) = new_size n).
  { intros n. unfold size_from, new_size. cbn [sz_len]. change (2 ^ 32) with 4294967296. destruct (4294967295 <? n + 8) eqn:X; destruct (4294967296 <=? n + 8) eqn:Y; lia. }
  assert (L : sz_len (ilst_size items) = new_size (list_len items)).
  { unfold ilst_size. rewrite E. f_equal. apply list_len_is. }
  assert (M : sz_len (meta_size (NewMeta (Some meta_hdlr) items)) = new_size (meta_content items)).
  { unfold meta_size. rewrite E. f_equal. cbn [nm_hdlr nm_ilst]. rewrite L. unfold meta_content. change (hdlr_len_or_zero (Some meta_hdlr)) with 33. lia. }
  split; [exact L|]. split; [exact M|]. unfold udta_size. rewrite E, M. reflexivity.
Qed.
Print Assumptions C86_sums.
Example C86_example :
  let items := [AtomData (IFreeform (str "a") (str "b")) [DUtf8 (str "c"); DUtf16 (str "de")]; AtomData (IFourcc TITLE) [DBmp [n2b 7]]] in
  Forall in_memory items /\ moov_size64 Checked (NewMeta (Some meta_hdlr) items) = Ok (moov_size (NewMeta (Some meta_hdlr) items)) /\
  sum64 Checked (map (in64 Checked) [2 ^ 63; 1; 2 ^ 63]) = Panic POverflow /\ sum64 Wrapping (map (in64 Wrapping) [2 ^ 63; 1; 2 ^ 63]) = Ok 1.
Proof.
  split; [|split; [vm_compute; reflexivity|split; vm_compute; reflexivity]].
  repeat constructor.
Qed.
