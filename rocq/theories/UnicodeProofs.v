(** The encoders and decoders of Utf.v are those of UnicodeSpec. *)

From Coq Require Import List NArith Bool Lia Arith.
From Coq Require Import ZifyBool ZifyNat ZifyN.
From Verif Require Import Base BaseLemmas Utf UtfLemmas UnicodeSpec.
Import ListNotations.

(** * Binary numbers *)

Lemma val_from : forall l n, fold_left (fun n (d : bool) => 2 * n + (if d then 1 else 0)) l n = n * 2 ^ N.of_nat (length l) + val l.
Proof.
  unfold val. induction l as [|d l IH]; intros n; cbn [fold_left length].
  - change (2 ^ N.of_nat 0) with 1. lia.
  - rewrite IH, (IH (2 * 0 + _)). rewrite Nat2N.inj_succ, N.pow_succ_r'. lia.
Qed.
Lemma val_app : forall a b, val (a ++ b) = val a * 2 ^ N.of_nat (length b) + val b.
Proof. intros a b. unfold val at 1. rewrite fold_left_app. apply val_from. Qed.
Lemma val_lt : forall l, val l < 2 ^ N.of_nat (length l).
Proof.
  induction l as [|d l IH] using rev_ind; [reflexivity|]. rewrite val_app, app_length, Nat2N.inj_add, N.pow_add_r. cbn [length]. change (2 ^ N.of_nat 1) with 2.
  destruct d; unfold val at 2; cbn [fold_left]; lia.
Qed.
Lemma val_onto : forall k n, n < 2 ^ N.of_nat k -> exists l, bits k l /\ val l = n.
Proof.
  induction k as [|k IH]; intros n H.
  - change (2 ^ N.of_nat 0) with 1 in H. exists []. split; [reflexivity|]. unfold val. cbn. lia.
  - rewrite Nat2N.inj_succ, N.pow_succ_r' in H. destruct (IH (n / 2)) as (l & L & V); [apply N.div_lt_upper_bound; lia|].
    exists (l ++ [N.odd n]). split; [unfold bits in *; rewrite app_length; cbn; lia|]. rewrite val_app. cbn [length]. change (2 ^ N.of_nat 1) with 2. rewrite V.
    unfold val. cbn [fold_left]. pose proof (N.div2_odd n) as D. rewrite N.div2_div in D. unfold N.b2n in D. destruct (N.odd n); lia.
Qed.
Lemma val_bits : forall k l, bits k l -> val l < 2 ^ N.of_nat k.
Proof. intros k l <-. apply val_lt. Qed.

(** * Characters in UTF-8 *)

Lemma scalar_is : forall c, scalar c <-> is_scalar c = true.
Proof. intros c. unfold scalar, is_scalar. lia. Qed.

Ltac val_facts :=
  repeat match goal with H : bits ?k ?l |- _ =>
    let B := fresh "B" in pose proof (val_bits k l H) as B;
    let x := eval vm_compute in (2 ^ N.of_nat k) in change (2 ^ N.of_nat k) with x in B;
    unfold bits in H; revert H end; intros.
Ltac val_apps :=
  rewrite ?val_app, ?app_length;
  repeat match goal with H : length ?l = _ |- _ => rewrite ?H; clear H end;
  change (N.of_nat 2) with 2 in *; change (N.of_nat 3) with 3 in *; change (N.of_nat 4) with 4 in *; change (N.of_nat 5) with 5 in *; 
  change (N.of_nat 6) with 6 in *; change (N.of_nat 7) with 7 in *; change (N.of_nat 8) with 8 in *.

Lemma enc8_values : forall c, is_scalar c = true -> numbers (enc8_char c) =
  if c <? 128 then [c] else if c <? 2048 then [192 + c / 64; 128 + c mod 64]
  else if c <? 65536 then [224 + c / 4096; 128 + c / 64 mod 64; 128 + c mod 64]
  else [240 + c / 262144; 128 + c / 4096 mod 64; 128 + c / 64 mod 64; 128 + c mod 64].
Proof.
  intros c H. unfold is_scalar in H. unfold numbers, enc8_char.
  destruct (c <? 128) eqn:E1; [cbn [map]; rewrite b2n_n2b, N.mod_small by lia; reflexivity|].
  destruct (c <? 2048) eqn:E2; [cbn [map]; rewrite !b2n_n2b, !(N.mod_small _ 256) by lia; reflexivity|].
  destruct (c <? 65536) eqn:E3; cbn [map]; rewrite !b2n_n2b, !(N.mod_small _ 256) by lia; reflexivity.
Qed.

(** The value of the concatenation of digits of known lengths. *)
Lemma val2 : forall a b k, bits k b -> val (a ++ b) = val a * 2 ^ N.of_nat k + val b.
Proof. intros a b k <-. apply val_app. Qed.

Lemma val_i0 : forall x k, bits k x -> val ([false] ++ x) = val x.
Proof. intros x k H. rewrite (val2 _ _ k H). unfold val at 1. cbn [fold_left]. lia. Qed.
Lemma val_10 : forall x, bits 6 x -> val ([true; false] ++ x) = 128 + val x.
Proof. intros x H. rewrite (val2 _ _ 6 H). change (val [true; false]) with 2. change (2 ^ N.of_nat 6) with 64. lia. Qed.

Lemma utf8_char_fwd : forall c l, utf8_char c l -> scalar c /\ numbers (enc8_char c) = l.
Proof.
  intros c l H. destruct H as [x X|y x Y X M|z y x Z Y X M Sc|u v z y x U V Z Y X M Sc].
  - pose proof (val_bits _ _ X) as B. change (2 ^ N.of_nat 7) with 128 in B. assert (Sc : scalar (val x)) by (unfold scalar; lia). split; [exact Sc|].
    rewrite enc8_values by (apply scalar_is, Sc). rewrite (val_i0 _ _ X). replace (val x <? 128) with true by lia. reflexivity.
  - pose proof (val_bits _ _ X) as BX. pose proof (val_bits _ _ Y) as BY. change (2 ^ N.of_nat 6) with 64 in BX. change (2 ^ N.of_nat 5) with 32 in BY.
    rewrite (val2 _ _ 6 X) in *. change (2 ^ N.of_nat 6) with 64 in *. rewrite (val2 _ _ 5 Y), (val_10 _ X). change (val [true; true; false]) with 6. change (2 ^ N.of_nat 5) with 32.
    assert (Sc : scalar (val y * 64 + val x)) by (unfold scalar; lia). split; [exact Sc|]. rewrite enc8_values by (apply scalar_is, Sc).
    replace (_ <? 128) with false by lia. replace (_ <? 2048) with true by lia. f_equal; [lia|f_equal; lia].
  - pose proof (val_bits _ _ X) as BX. pose proof (val_bits _ _ Y) as BY. pose proof (val_bits _ _ Z) as BZ.
    change (2 ^ N.of_nat 6) with 64 in BX, BY. change (2 ^ N.of_nat 4) with 16 in BZ.
    assert (E : val (z ++ y ++ x) = val z * 4096 + val y * 64 + val x).
    { rewrite (val_app z), app_length, Nat2N.inj_add, N.pow_add_r, X, Y, (val2 _ _ 6 X). change (2 ^ N.of_nat 6) with 64. lia. }
    rewrite E in *. rewrite (val2 _ _ 4 Z), (val_10 _ X), (val_10 _ Y). change (val [true; true; true; false]) with 14. change (2 ^ N.of_nat 4) with 16.
    split; [exact Sc|]. rewrite enc8_values by (apply scalar_is, Sc).
    replace (_ <? 128) with false by lia. replace (_ <? 2048) with false by lia. replace (_ <? 65536) with true by lia. f_equal; [lia|f_equal; [lia|f_equal; lia]].
  - pose proof (val_bits _ _ X) as BX. pose proof (val_bits _ _ Y) as BY. pose proof (val_bits _ _ Z) as BZ. pose proof (val_bits _ _ U) as BU. pose proof (val_bits _ _ V) as BV.
    change (2 ^ N.of_nat 6) with 64 in BX, BY. change (2 ^ N.of_nat 4) with 16 in BZ. change (2 ^ N.of_nat 3) with 8 in BU. change (2 ^ N.of_nat 2) with 4 in BV.
    assert (E : val (u ++ v ++ z ++ y ++ x) = val u * 262144 + (val v * 16 + val z) * 4096 + val y * 64 + val x).
    { rewrite (val_app u), (val_app v), (val_app z), !app_length, !Nat2N.inj_add, !N.pow_add_r, X, Y, Z, V, (val2 _ _ 6 X).
      change (2 ^ N.of_nat 6) with 64. change (2 ^ N.of_nat 4) with 16. change (2 ^ N.of_nat 2) with 4. lia. }
    rewrite E in *. assert (VZ : bits 6 (v ++ z)) by (unfold bits in *; rewrite app_length; lia).
    rewrite (val2 _ _ 3 U), (val_10 _ X), (val_10 _ Y), (val_10 _ VZ), (val2 _ _ 4 Z). change (val [true; true; true; true; false]) with 30. change (2 ^ N.of_nat 4) with 16. change (2 ^ N.of_nat 3) with 8.
    split; [exact Sc|]. destruct Sc as [Sc1 Sc2]. rewrite enc8_values by (apply scalar_is; split; assumption).
    replace (_ <? 128) with false by lia. replace (_ <? 2048) with false by lia. replace (_ <? 65536) with false by lia. f_equal; [lia|f_equal; [lia|f_equal; [lia|f_equal; lia]]].
Qed.

Lemma onto : forall k B n, 2 ^ N.of_nat k = B -> n < B -> exists l, bits k l /\ val l = n.
Proof. intros k B n <-. apply val_onto. Qed.

Lemma utf8_char_ex : forall c, scalar c -> exists l, utf8_char c l.
Proof.
  intros c Sc. destruct (N.lt_ge_cases c 128) as [L1|L1]; [|destruct (N.lt_ge_cases c 2048) as [L2|L2]; [|destruct (N.lt_ge_cases c 65536) as [L3|L3]]].
  - destruct (onto 7 128 c eq_refl L1) as (x & X & <-). eexists. apply U8_1, X.
  - destruct (onto 6 64 (c mod 64) eq_refl ltac:(lia)) as (x & X & Vx). destruct (onto 5 32 (c / 64) eq_refl ltac:(lia)) as (y & Y & Vy).
    assert (E : c = val (y ++ x)) by (rewrite (val2 _ _ 6 X); change (2 ^ N.of_nat 6) with 64; lia). rewrite E in *. eexists. apply U8_2; [exact Y|exact X|lia].
  - destruct (onto 6 64 (c mod 64) eq_refl ltac:(lia)) as (x & X & Vx). destruct (onto 6 64 (c / 64 mod 64) eq_refl ltac:(lia)) as (y & Y & Vy).
    destruct (onto 4 16 (c / 4096) eq_refl ltac:(lia)) as (z & Z & Vz).
    assert (E : c = val (z ++ y ++ x)).
    { rewrite (val_app z), app_length, Nat2N.inj_add, N.pow_add_r, X, Y, (val2 _ _ 6 X). change (2 ^ N.of_nat 6) with 64. lia. }
    rewrite E in *. eexists. apply U8_3; [exact Z|exact Y|exact X|lia|exact Sc].
  - assert (L4 : c <= 0x10FFFF) by (destruct Sc; assumption).
    destruct (onto 6 64 (c mod 64) eq_refl ltac:(lia)) as (x & X & Vx). destruct (onto 6 64 (c / 64 mod 64) eq_refl ltac:(lia)) as (y & Y & Vy).
    destruct (onto 4 16 (c / 4096 mod 16) eq_refl ltac:(lia)) as (z & Z & Vz). destruct (onto 2 4 (c / 65536 mod 4) eq_refl ltac:(lia)) as (v & V & Vv).
    destruct (onto 3 8 (c / 262144) eq_refl ltac:(lia)) as (u & U & Vu).
    assert (E : c = val (u ++ v ++ z ++ y ++ x)).
    { rewrite (val_app u), (val_app v), (val_app z), !app_length, !Nat2N.inj_add, !N.pow_add_r, X, Y, Z, V, (val2 _ _ 6 X).
      change (2 ^ N.of_nat 6) with 64. change (2 ^ N.of_nat 4) with 16. change (2 ^ N.of_nat 2) with 4. lia. }
    rewrite E in *. eexists. apply U8_4; [exact U|exact V|exact Z|exact Y|exact X|lia|exact Sc].
Qed.
Lemma utf8_char_is : forall c l, utf8_char c l <-> scalar c /\ numbers (enc8_char c) = l.
Proof.
  intros c l. split; [apply utf8_char_fwd|]. intros [Sc E]. destruct (utf8_char_ex c Sc) as (l' & H). destruct (utf8_char_fwd c l' H) as [_ E']. congruence.
Qed.

(** * Characters in UTF-16 *)

Lemma numbers_app : forall a b, numbers (a ++ b) = numbers a ++ numbers b. Proof. intros. apply map_app. Qed.
Lemma numbers_be16 : forall n, n < 65536 -> numbers (be16 n) = [n / 256; n mod 256].
Proof.
  intros n H. unfold numbers, be16. cbn [be map]. change (256 ^ N.of_nat 1) with 256. change (256 ^ N.of_nat 0) with 1. rewrite !b2n_n2b, N.div_1_r, (N.mod_small (n / 256)) by lia. reflexivity.
Qed.
Lemma enc16_values : forall c, is_scalar c = true -> numbers (units_bytes (enc16_char c)) =
  if c <? 65536 then [c / 256; c mod 256]
  else [(55296 + (c - 65536) / 1024) / 256; (55296 + (c - 65536) / 1024) mod 256; (56320 + (c - 65536) mod 1024) / 256; (56320 + (c - 65536) mod 1024) mod 256].
Proof.
  intros c H. unfold is_scalar in H. unfold enc16_char, units_bytes. destruct (c <? 65536) eqn:E; cbn [map concat]; rewrite app_nil_r.
  - apply numbers_be16. lia.
  - rewrite numbers_app, !numbers_be16 by lia. reflexivity.
Qed.

Lemma utf16_char_fwd : forall c l, utf16_char c l -> scalar c /\ numbers (units_bytes (enc16_char c)) = l.
Proof.
  intros c l0 H. destruct H as [h l Hh Hl Sc|u w1 w2 a b1 b2 U W1 W2 A B1 B2 M].
  - pose proof (val_bits _ _ Hh) as B1. pose proof (val_bits _ _ Hl) as B2. change (2 ^ N.of_nat 8) with 256 in B1, B2. rewrite (val2 _ _ 8 Hl) in *. change (2 ^ N.of_nat 8) with 256 in *.
    split; [exact Sc|]. rewrite enc16_values by (apply scalar_is, Sc). replace (_ <? 65536) with true by lia. f_equal; [lia|f_equal; lia].
  - pose proof (val_bits _ _ U) as BU. pose proof (val_bits _ _ W1) as BW1. pose proof (val_bits _ _ W2) as BW2. pose proof (val_bits _ _ A) as BA. pose proof (val_bits _ _ B1) as BB1. pose proof (val_bits _ _ B2) as BB2.
    change (2 ^ N.of_nat 8) with 256 in BB2. change (2 ^ N.of_nat 2) with 4 in BB1, BW1, BW2. change (2 ^ N.of_nat 6) with 64 in BA. change (2 ^ N.of_nat 5) with 32 in BU.
    assert (E : val (u ++ a ++ b1 ++ b2) = val u * 65536 + val a * 1024 + val b1 * 256 + val b2).
    { rewrite (val_app u), (val_app a), !app_length, !Nat2N.inj_add, !N.pow_add_r, A, B1, B2, (val2 _ _ 8 B2).
      change (2 ^ N.of_nat 8) with 256. change (2 ^ N.of_nat 6) with 64. change (2 ^ N.of_nat 2) with 4. lia. }
    rewrite (val2 _ _ 2 W2) in M. rewrite E, (val2 _ _ 2 W1), (val2 _ _ 6 A), (val2 _ _ 2 B1).
    change (val [true; true; false; true; true; false]) with 54. change (val [true; true; false; true; true; true]) with 55. change (2 ^ N.of_nat 2) with 4 in *. change (2 ^ N.of_nat 6) with 64.
    assert (Sc : scalar (val u * 65536 + val a * 1024 + val b1 * 256 + val b2)) by (unfold scalar; lia). split; [exact Sc|]. rewrite enc16_values by (apply scalar_is, Sc).
    replace (_ <? 65536) with false by lia. f_equal; [lia|f_equal; [lia|f_equal; [lia|f_equal; lia]]].
Qed.
Lemma utf16_char_ex : forall c, scalar c -> exists l, utf16_char c l.
Proof.
  intros c Sc. destruct (N.lt_ge_cases c 65536) as [L|L].
  - destruct (onto 8 256 (c mod 256) eq_refl ltac:(lia)) as (l & Hl & Vl). destruct (onto 8 256 (c / 256) eq_refl ltac:(lia)) as (h & Hh & Vh).
    assert (E : c = val (h ++ l)) by (rewrite (val2 _ _ 8 Hl); change (2 ^ N.of_nat 8) with 256; lia). rewrite E in *. eexists. apply U16_1; [exact Hh|exact Hl|exact Sc].
  - assert (L4 : c <= 0x10FFFF) by (destruct Sc; assumption).
    destruct (onto 8 256 (c mod 256) eq_refl ltac:(lia)) as (b2 & B2 & V2). destruct (onto 2 4 (c / 256 mod 4) eq_refl ltac:(lia)) as (b1 & B1 & V1).
    destruct (onto 6 64 (c / 1024 mod 64) eq_refl ltac:(lia)) as (a & A & Va). destruct (onto 5 32 (c / 65536) eq_refl ltac:(lia)) as (u & U & Vu).
    destruct (onto 2 4 ((c / 65536 - 1) / 4) eq_refl ltac:(lia)) as (w1 & W1 & Vw1). destruct (onto 2 4 ((c / 65536 - 1) mod 4) eq_refl ltac:(lia)) as (w2 & W2 & Vw2).
    assert (E : c = val (u ++ a ++ b1 ++ b2)).
    { rewrite (val_app u), (val_app a), !app_length, !Nat2N.inj_add, !N.pow_add_r, A, B1, B2, (val2 _ _ 8 B2).
      change (2 ^ N.of_nat 8) with 256. change (2 ^ N.of_nat 6) with 64. change (2 ^ N.of_nat 2) with 4. lia. }
    assert (M : val u = val (w1 ++ w2) + 1) by (rewrite (val2 _ _ 2 W2); change (2 ^ N.of_nat 2) with 4; lia).
    rewrite E. eexists. apply (U16_2 u w1 w2 a b1 b2); assumption.
Qed.
Lemma utf16_char_is : forall c l, utf16_char c l <-> scalar c /\ numbers (units_bytes (enc16_char c)) = l.
Proof.
  intros c l. split; [apply utf16_char_fwd|]. intros [Sc E]. destruct (utf16_char_ex c Sc) as (l' & H). destruct (utf16_char_fwd c l' H) as [_ E']. congruence.
Qed.

(** * Texts *)

Lemma numbers_inj : forall a b, numbers a = numbers b -> a = b.
Proof. induction a as [|x a IH]; intros [|y b] H; try discriminate; [reflexivity|]. injection H as H1 H2. f_equal; [now apply b2n_inj|now apply IH]. Qed.
Lemma utf8_is : forall s l, utf8 s l <-> wf_ustr s = true /\ numbers (enc8 s) = l.
Proof.
  induction s as [|c s IH]; intros l.
  - split; [intros H; inversion H; split; reflexivity|]. intros [_ <-]. constructor.
  - rewrite enc8_cons, numbers_app. cbn [wf_ustr forallb]. split.
    + intros H. inversion H as [|c' lc s' r Hc Hs]; subst. apply utf8_char_is in Hc. destruct Hc as [Sc <-]. apply IH in Hs. destruct Hs as [W <-]. apply scalar_is in Sc. split; [|reflexivity].
      unfold wf_ustr in *. rewrite Sc. exact W.
    + intros [W <-]. apply andb_true_iff in W. destruct W as [W1 W2]. constructor; [apply utf8_char_is; split; [apply scalar_is, W1|reflexivity]|apply IH; split; [exact W2|reflexivity]].
Qed.
Lemma units_app : forall a b, units_bytes (a ++ b) = units_bytes a ++ units_bytes b. Proof. intros. unfold units_bytes. now rewrite map_app, concat_app. Qed.
Lemma utf16_is : forall s l, utf16 s l <-> wf_ustr s = true /\ numbers (units_bytes (enc16 s)) = l.
Proof.
  induction s as [|c s IH]; intros l.
  - split; [intros H; inversion H; split; reflexivity|]. intros [_ <-]. constructor.
  - rewrite enc16_cons, units_app, numbers_app. cbn [wf_ustr forallb]. split.
    + intros H. inversion H as [|c' lc s' r Hc Hs]; subst. apply utf16_char_is in Hc. destruct Hc as [Sc <-]. apply IH in Hs. destruct Hs as [W <-]. apply scalar_is in Sc. split; [|reflexivity].
      unfold wf_ustr in *. rewrite Sc. exact W.
    + intros [W <-]. apply andb_true_iff in W. destruct W as [W1 W2]. constructor; [apply utf16_char_is; split; [apply scalar_is, W1|reflexivity]|apply IH; split; [exact W2|reflexivity]].
Qed.
Lemma dec8_is : forall l s, dec8 l = Some s <-> utf8 s (numbers l).
Proof. intros l s. rewrite dec8_correct, utf8_is. split; intros [A B]; (split; [exact A|]); [now rewrite B|now apply numbers_inj]. Qed.
Lemma dec16_is : forall l s, Nat.even (length l) = true -> dec16 (bytes_units l) = Some s <-> utf16 s (numbers l).
Proof.
  intros l s Ev. rewrite (dec16_correct _ _ (bytes_units_wf (length l) l (le_n _))), utf16_is. pose proof (units_bytes_bytes_units (length l) l (le_n _) Ev) as X.
  split; intros [A B]; (split; [exact A|]).
  - now rewrite B, X.
  - apply numbers_inj in B. rewrite <- B, bytes_units_units_bytes; [reflexivity|now apply enc16_units].
Qed.
(** An odd last byte is dropped. *)
Lemma units_drop : forall n l x, (length l <= n)%nat -> Nat.even (length l) = true -> bytes_units (l ++ [x]) = bytes_units l.
Proof.
  induction n as [|n IH]; intros l x L Ev.
  - destruct l; [reflexivity|cbn in L; lia].
  - destruct l as [|a [|b r]]; [reflexivity|discriminate|]. cbn [app bytes_units]. f_equal. apply IH; [cbn in L; lia|exact Ev].
Qed.

(** * Table 3-7 *)

Lemma Forall2_cons_iff : forall {A B} (P : A -> B -> Prop) x y l l', Forall2 P (x :: l) (y :: l') <-> P x y /\ Forall2 P l l'.
Proof. intros. split; [intros H; inversion H; auto|intros []; now constructor]. Qed.
Lemma row_dec8 : forall r l rest, In r table_3_7 -> in_row r (numbers l) -> exists c, dec8 (l ++ rest) = ocons c (dec8 rest).
Proof.
  intros r l rest Hr H. unfold in_row, numbers in H.
  repeat (destruct Hr as [<-|Hr]); [..|destruct Hr];
  repeat match goal with
  | H : Forall2 _ (_ :: _) (map _ ?l) |- _ => destruct l as [|? ?]; cbn [map] in H; [inversion H|apply Forall2_cons_iff in H; destruct H as [? H]; cbn [fst snd] in *]
  | H : Forall2 _ [] (map _ ?l) |- _ => destruct l as [|? ?]; cbn [map] in H; [clear H|inversion H]
  end; cbn [app dec8]; unfold is_cont;
  repeat match goal with |- context [if ?b then _ else _] => lazymatch b with context [if _ then _ else _] => fail | _ => idtac end; let E := fresh "E" in destruct b eqn:E; try (exfalso; lia) end; eexists; reflexivity.
Qed.
Lemma char_row : forall c, scalar c -> exists r, In r table_3_7 /\ in_row r (numbers (enc8_char c)).
Proof.
  intros c Sc. rewrite enc8_values by (apply scalar_is, Sc). destruct Sc as [S1 S2]. unfold in_row, table_3_7.
  destruct (c <? 128) eqn:E1; [eexists; split; [now left|]; repeat constructor; cbn [fst snd]; lia|].
  destruct (c <? 2048) eqn:E2; [eexists; split; [right; now left|]; repeat constructor; cbn [fst snd]; lia|].
  destruct (c <? 65536) eqn:E3.
  - destruct (N.lt_ge_cases c 0x1000); [eexists; split; [do 2 right; now left|]; repeat constructor; cbn [fst snd]; lia|].
    destruct (N.lt_ge_cases c 0xD000); [eexists; split; [do 3 right; now left|]; repeat constructor; cbn [fst snd]; lia|].
    destruct (N.lt_ge_cases c 0xE000); [eexists; split; [do 4 right; now left|]; repeat constructor; cbn [fst snd]; lia|].
    eexists; split; [do 5 right; now left|]; repeat constructor; cbn [fst snd]; lia.
  - destruct (N.lt_ge_cases c 0x40000); [eexists; split; [do 6 right; now left|]; repeat constructor; cbn [fst snd]; lia|].
    destruct (N.lt_ge_cases c 0x100000); [eexists; split; [do 7 right; now left|]; repeat constructor; cbn [fst snd]; lia|].
    eexists; split; [do 8 right; now left|]; repeat constructor; cbn [fst snd]; lia.
Qed.
Lemma numbers_split : forall l a b, numbers l = a ++ b -> exists x y, l = x ++ y /\ numbers x = a /\ numbers y = b.
Proof. intros l a b H. unfold numbers in H. apply map_eq_app in H. exact H. Qed.
Lemma well_formed_is : forall l, well_formed (numbers l) <-> exists s, dec8 l = Some s.
Proof.
  intros l. split.
  - intros H. remember (numbers l) as n eqn:E. revert l E. induction H as [|r a rest Hr Ha Hw IH]; intros l E.
    + destruct l; [exists []; reflexivity|discriminate].
    + symmetry in E. apply numbers_split in E. destruct E as (x & y & -> & <- & Ey). destruct (IH y (eq_sym Ey)) as (s & D). destruct (row_dec8 r x y Hr Ha) as (c & C).
      exists (c :: s). rewrite C, D. reflexivity.
  - intros (s & H). apply dec8_is in H. remember (numbers l) as n eqn:E. clear E l. revert n H. unfold utf8. induction s as [|c s IH]; intros n H.
    + inversion H. constructor.
    + inversion H as [|c' a s' r Hc Hs]; subst. apply utf8_char_is in Hc. destruct Hc as [Sc <-]. destruct (char_row c Sc) as (r0 & R1 & R2). econstructor; [exact R1|exact R2|now apply IH].
Qed.
