(** The UTF-8 and UTF-16 decoders are the exact inverses of the encoders. *)

From Coq Require Import List NArith ZArith Lia Bool Arith.
From Coq Require Import ZifyBool ZifyNat ZifyN.
From Verif Require Import Base BaseLemmas Utf.
Import ListNotations.

Ltac Zify.zify_post_hook ::= Z.div_mod_to_equations.

Lemma ustr_eqb_eq : forall a b, ustr_eqb a b = true <-> a = b.
Proof.
  induction a as [|x a IH]; destruct b as [|y b]; cbn; try (split; congruence).
  rewrite andb_true_iff, N.eqb_eq, IH. split; [intros [-> ->]|intros [= -> ->]]; auto.
Qed.

Lemma ustr_eqb_refl : forall a, ustr_eqb a a = true.
Proof. intros. apply ustr_eqb_eq. reflexivity. Qed.

Lemma ocons_some : forall {A} (x : A) o l, ocons x o = Some l -> exists r, o = Some r /\ l = x :: r.
Proof. intros A x [r|] l H; cbn in H; [|discriminate]. injection H as <-. eauto. Qed.

Lemma ocons_eq : forall {A} (x y : A) o r, x = y -> o = Some r -> ocons x o = Some (y :: r).
Proof. intros. subst. reflexivity. Qed.

(** * UTF-8 *)

Lemma enc8_cons : forall c s, enc8 (c :: s) = enc8_char c ++ enc8 s.
Proof. reflexivity. Qed.

Lemma enc8_app : forall a b, enc8 (a ++ b) = enc8 a ++ enc8 b.
Proof. intros. unfold enc8. rewrite map_app, concat_app. reflexivity. Qed.

Ltac cond :=
  match goal with
  | |- context [if ?b then _ else _] =>
    let E := fresh "E" in
    first [ assert (E : b = true) by (unfold is_cont, is_scalar in *; lia); rewrite E; clear E
          | assert (E : b = false) by (unfold is_cont, is_scalar in *; lia); rewrite E; clear E ]
  end.

Lemma dec8_enc8_char : forall c r, is_scalar c = true -> dec8 (enc8_char c ++ r) = ocons c (dec8 r).
Proof.
  intros c r Hc. unfold is_scalar in Hc. unfold enc8_char.
  destruct (c <? 128) eqn:E1.
  { cbn [app dec8]. rewrite b2n_n2b. rewrite (N.mod_small c) by lia. rewrite E1. reflexivity. }
  destruct (c <? 2048) eqn:E2.
  { cbn [app dec8]. rewrite !b2n_n2b.
    rewrite (N.mod_small (192 + c / 64)), (N.mod_small (128 + c mod 64)) by lia.
    cond. cond. cond. f_equal. lia. }
  destruct (c <? 65536) eqn:E3.
  { cbn [app dec8]. rewrite !b2n_n2b.
    rewrite (N.mod_small (224 + c / 4096)), (N.mod_small (128 + (c / 64) mod 64)), (N.mod_small (128 + c mod 64)) by lia.
    cond. cond. cond.
    assert (X : (if 224 + c / 4096 =? 224 then 159 <? 128 + (c / 64) mod 64
             else if 224 + c / 4096 =? 237 then 128 + (c / 64) mod 64 <? 160 else true) = true).
    { destruct (224 + c / 4096 =? 224) eqn:F1; [lia|].
      destruct (224 + c / 4096 =? 237) eqn:F2; [|reflexivity]. lia. }
    rewrite X. cond. f_equal. lia. }
  cbn [app dec8]. rewrite !b2n_n2b.
  rewrite (N.mod_small (240 + c / 262144)), (N.mod_small (128 + (c / 4096) mod 64)),
    (N.mod_small (128 + (c / 64) mod 64)), (N.mod_small (128 + c mod 64)) by lia.
  cond. cond. cond. cond.
  assert (X : (if 240 + c / 262144 =? 240 then 143 <? 128 + (c / 4096) mod 64
           else if 240 + c / 262144 =? 244 then 128 + (c / 4096) mod 64 <? 144 else true) = true).
  { destruct (240 + c / 262144 =? 240) eqn:F1; [lia|].
    destruct (240 + c / 262144 =? 244) eqn:F2; [|reflexivity]. lia. }
  rewrite X. cond. f_equal. lia.
Qed.

Lemma dec8_enc8 : forall s, wf_ustr s = true -> dec8 (enc8 s) = Some s.
Proof.
  induction s as [|c s IH]; intros H; [reflexivity|].
  cbn in H. apply andb_true_iff in H. destruct H as [Hc Hs].
  rewrite enc8_cons, dec8_enc8_char by assumption. rewrite IH by assumption. reflexivity.
Qed.

Lemma enc8_char_1 : forall b, b2n b < 128 -> is_scalar (b2n b) = true /\ enc8_char (b2n b) = [b].
Proof.
  intros b H. unfold is_scalar, enc8_char. split; [lia|].
  cond. rewrite n2b_b2n. reflexivity.
Qed.

Lemma n2b_eq : forall n b, n = b2n b -> n2b n = b.
Proof. intros n b ->. apply n2b_b2n. Qed.

Lemma dec8_inv : forall n l s, (length l <= n)%nat -> dec8 l = Some s -> wf_ustr s = true /\ enc8 s = l.
Proof.
  induction n as [|n IH]; intros l s Hn H.
  - destruct l; [|cbn in Hn; lia]. cbn in H. injection H as <-. auto.
  - destruct l as [|b0 r0]; [cbn in H; injection H as <-; auto|].
    cbn [length] in Hn. cbn [dec8] in H.
    destruct (b2n b0 <? 128) eqn:E1.
    { apply ocons_some in H. destruct H as (r & Hr & ->).
      apply IH in Hr; [|lia]. destruct Hr as [Hw He].
      destruct (enc8_char_1 b0) as [A B]; [lia|].
      cbn [wf_ustr forallb]. fold (wf_ustr r). rewrite A, Hw, enc8_cons, B, He. auto. }
    destruct ((193 <? b2n b0) && (b2n b0 <? 224)) eqn:E2.
    { destruct r0 as [|b1 r1]; [discriminate|].
      destruct (is_cont (b2n b1)) eqn:C1; [|discriminate].
      apply ocons_some in H. destruct H as (r & Hr & ->).
      cbn [length] in Hn. apply IH in Hr; [|lia]. destruct Hr as [Hw He].
      unfold is_cont in *. pose proof (b2n_lt b0). pose proof (b2n_lt b1).
      cbn [wf_ustr forallb]. fold (wf_ustr r). rewrite Hw, enc8_cons, He.
      set (c := (b2n b0 - 192) * 64 + (b2n b1 - 128)) in *.
      split; [unfold is_scalar; lia|].
      unfold enc8_char. cond. cond.
      rewrite (n2b_eq _ b0), (n2b_eq _ b1) by lia. reflexivity. }
    destruct ((223 <? b2n b0) && (b2n b0 <? 240)) eqn:E3.
    { destruct r0 as [|b1 [|b2 r2]]; try discriminate.
      match type of H with (if ?b then _ else _) = _ => destruct b eqn:C1; [|discriminate] end.
      apply ocons_some in H. destruct H as (r & Hr & ->).
      cbn [length] in Hn. apply IH in Hr; [|lia]. destruct Hr as [Hw He].
      unfold is_cont in *. pose proof (b2n_lt b0). pose proof (b2n_lt b1). pose proof (b2n_lt b2).
      cbn [wf_ustr forallb]. fold (wf_ustr r). rewrite Hw, enc8_cons, He.
      set (c := (b2n b0 - 224) * 4096 + (b2n b1 - 128) * 64 + (b2n b2 - 128)) in *.
      apply andb_true_iff in C1. destruct C1 as [C1 C2].
      assert (is_scalar c = true /\ (c <? 2048) = false /\ (c <? 65536) = true) as (S1 & S2 & S3).
      { unfold is_scalar. destruct (b2n b0 =? 224) eqn:F; [lia|].
        destruct (b2n b0 =? 237) eqn:G; lia. }
      split; [rewrite S1; reflexivity|].
      unfold enc8_char. assert ((c <? 128) = false) as -> by lia. rewrite S2, S3.
      rewrite (n2b_eq _ b0), (n2b_eq _ b1), (n2b_eq _ b2) by lia. reflexivity. }
    destruct ((239 <? b2n b0) && (b2n b0 <? 245)) eqn:E4; [|discriminate].
    destruct r0 as [|b1 [|b2 [|b3 r3]]]; try discriminate.
    match type of H with (if ?b then _ else _) = _ => destruct b eqn:C1; [|discriminate] end.
    apply ocons_some in H. destruct H as (r & Hr & ->).
    cbn [length] in Hn. apply IH in Hr; [|lia]. destruct Hr as [Hw He].
    unfold is_cont in *. pose proof (b2n_lt b0). pose proof (b2n_lt b1). pose proof (b2n_lt b2). pose proof (b2n_lt b3).
    cbn [wf_ustr forallb]. fold (wf_ustr r). rewrite Hw, enc8_cons, He.
    set (c := (b2n b0 - 240) * 262144 + (b2n b1 - 128) * 4096 + (b2n b2 - 128) * 64 + (b2n b3 - 128)) in *.
    apply andb_true_iff in C1. destruct C1 as [C1 C2].
    assert (is_scalar c = true /\ (c <? 65536) = false) as (S1 & S2).
    { unfold is_scalar. destruct (b2n b0 =? 240) eqn:F; [lia|].
      destruct (b2n b0 =? 244) eqn:G; lia. }
    split; [rewrite S1; reflexivity|].
    unfold enc8_char. assert ((c <? 128) = false) as -> by lia.
    assert ((c <? 2048) = false) as -> by lia. rewrite S2.
    rewrite (n2b_eq _ b0), (n2b_eq _ b1), (n2b_eq _ b2), (n2b_eq _ b3) by lia. reflexivity.
Qed.

Theorem dec8_correct : forall l s, dec8 l = Some s <-> wf_ustr s = true /\ enc8 s = l.
Proof.
  intros l s. split.
  - apply (dec8_inv (length l)). lia.
  - intros [H <-]. apply dec8_enc8. exact H.
Qed.

(** * UTF-16 *)

Definition wf_units (u : list N) : Prop := Forall (fun c => c < 65536) u.

Lemma enc16_cons : forall c s, enc16 (c :: s) = enc16_char c ++ enc16 s.
Proof. reflexivity. Qed.

Lemma enc16_units : forall s, wf_ustr s = true -> wf_units (enc16 s).
Proof.
  induction s as [|c s IH]; intros H; [constructor|].
  cbn in H. apply andb_true_iff in H. destruct H as [Hc Hs].
  rewrite enc16_cons. apply Forall_app. split; [|exact (IH Hs)].
  unfold enc16_char, is_scalar in *. destruct (c <? 65536) eqn:E; repeat constructor; lia.
Qed.

Lemma dec16_enc16_char : forall c r, is_scalar c = true -> dec16 (enc16_char c ++ r) = ocons c (dec16 r).
Proof.
  intros c r H. unfold is_scalar, enc16_char in *.
  destruct (c <? 65536) eqn:E; cbn [app dec16].
  - cond. reflexivity.
  - cond. cond. cond. f_equal. lia.
Qed.

Lemma dec16_enc16 : forall s, wf_ustr s = true -> dec16 (enc16 s) = Some s.
Proof.
  induction s as [|c s IH]; intros H; [reflexivity|].
  cbn in H. apply andb_true_iff in H. destruct H as [Hc Hs].
  rewrite enc16_cons, dec16_enc16_char by assumption. rewrite IH by assumption. reflexivity.
Qed.

Lemma dec16_inv : forall n u s, (length u <= n)%nat -> wf_units u -> dec16 u = Some s ->
  wf_ustr s = true /\ enc16 s = u.
Proof.
  induction n as [|n IH]; intros u s Hn Hu H.
  - destruct u; [|cbn in Hn; lia]. cbn in H. injection H as <-. auto.
  - destruct u as [|c r]; [cbn in H; injection H as <-; auto|].
    cbn [length] in Hn. cbn [dec16] in H. inversion Hu as [|? ? Hc Hr]; subst.
    destruct ((c <? 55296) || (57343 <? c)) eqn:E1.
    { apply ocons_some in H. destruct H as (r' & Hd & ->).
      apply IH in Hd; [|lia|assumption]. destruct Hd as [Hw He].
      cbn [wf_ustr forallb]. fold (wf_ustr r'). rewrite Hw, enc16_cons, He.
      unfold is_scalar, enc16_char. split; [lia|]. cond. reflexivity. }
    destruct (c <? 56320) eqn:E2; [|discriminate].
    destruct r as [|d r']; [discriminate|].
    destruct ((56319 <? d) && (d <? 57344)) eqn:E3; [|discriminate].
    apply ocons_some in H. destruct H as (r'' & Hd & ->).
    inversion Hr; subst.
    cbn [length] in Hn. apply IH in Hd; [|lia|assumption]. destruct Hd as [Hw He].
    cbn [wf_ustr forallb]. fold (wf_ustr r''). rewrite Hw, enc16_cons, He.
    set (x := 65536 + (c - 55296) * 1024 + (d - 56320)) in *.
    unfold is_scalar, enc16_char. split; [lia|]. cond.
    cbn [app]. f_equal; [lia|]. f_equal. lia.
Qed.

Theorem dec16_correct : forall u s, wf_units u ->
  (dec16 u = Some s <-> wf_ustr s = true /\ enc16 s = u).
Proof.
  intros u s Hu. split.
  - apply (dec16_inv (length u)); auto.
  - intros [H <-]. apply dec16_enc16. exact H.
Qed.

Lemma units_bytes_cons : forall c u, units_bytes (c :: u) = be16 c ++ units_bytes u.
Proof. reflexivity. Qed.

Lemma bytes_units_units_bytes : forall u, wf_units u -> bytes_units (units_bytes u) = u.
Proof.
  induction 1 as [|c u Hc Hu IH]; [reflexivity|].
  rewrite units_bytes_cons. cbn [be16 be app bytes_units]. rewrite IH. f_equal.
  change [n2b (c / 256 ^ N.of_nat 1); n2b (c / 256 ^ N.of_nat 0)] with (be 2 c).
  apply unbe_be. exact Hc.
Qed.

Lemma bytes_units_wf : forall n l, (length l <= n)%nat -> wf_units (bytes_units l).
Proof.
  induction n as [|n IH]; intros l H.
  - destruct l; [|cbn in H; lia]. constructor.
  - destruct l as [|a [|b r]]; try constructor.
    + apply (unbe_lt [a; b]).
    + apply IH. cbn in H. lia.
Qed.

Lemma units_bytes_bytes_units : forall n l, (length l <= n)%nat -> Nat.even (length l) = true ->
  units_bytes (bytes_units l) = l.
Proof.
  induction n as [|n IH]; intros l H E.
  - destruct l; [|cbn in H; lia]. reflexivity.
  - destruct l as [|a [|b r]]; [reflexivity|discriminate|].
    cbn [bytes_units]. rewrite units_bytes_cons, IH; [|cbn in H; lia|exact E].
    change (be16 (unbe [a; b])) with (be (length [a;b]) (unbe [a;b])). rewrite be_unbe. reflexivity.
Qed.

Lemma blen_units_bytes : forall u, blen (units_bytes u) = 2 * blen u.
Proof.
  induction u as [|c u IH]; [reflexivity|].
  rewrite units_bytes_cons, blen_app, blen_cons, IH. unfold be16. rewrite blen_be. lia.
Qed.

Lemma units_bytes_odd : forall n l x, (length l <= n)%nat -> Nat.even (length l) = true ->
  bytes_units (l ++ [x]) = bytes_units l.
Proof.
  induction n as [|n IH]; intros l x H E.
  - destruct l; [|cbn in H; lia]. reflexivity.
  - destruct l as [|a [|b r]]; [reflexivity|discriminate|].
    cbn [app bytes_units]. rewrite IH; [reflexivity|cbn in H; lia|exact E].
Qed.
