(** Lemmas about bytes, big-endian codecs, equality tests and machine arithmetic. *)

From Coq Require Import List NArith ZArith Lia Bool Arith.
From Coq Require Import Init.Byte.
From Coq Require Strings.Byte.
From Coq Require Import ZifyBool ZifyNat ZifyN.
From Verif Require Import Base.
Import ListNotations.

Ltac Zify.zify_post_hook ::= Z.div_mod_to_equations.

Lemma b2n_lt : forall b, b2n b < 256.
Proof. intros b. unfold b2n. pose proof (Byte.to_N_bounded b). lia. Qed.

Lemma n2b_b2n : forall b, n2b (b2n b) = b.
Proof.
  intros b. unfold n2b. rewrite N.mod_small by apply b2n_lt.
  unfold b2n. rewrite Byte.of_to_N. reflexivity.
Qed.

Lemma b2n_n2b : forall n, b2n (n2b n) = n mod 256.
Proof.
  intros n. unfold n2b, b2n.
  assert (H : n mod 256 < 256) by (apply N.mod_lt; lia).
  destruct (Byte.of_N (n mod 256)) eqn:E.
  - apply Byte.to_of_N in E. exact E.
  - apply Byte.of_N_None_iff in E. lia.
Qed.

Lemma b2n_inj : forall a b, b2n a = b2n b -> a = b.
Proof. intros a b H. rewrite <- (n2b_b2n a), <- (n2b_b2n b), H. reflexivity. Qed.

Lemma byte_eqb_eq : forall a b, byte_eqb a b = true <-> a = b.
Proof.
  intros a b. unfold byte_eqb. split; intros H.
  - apply Byte.byte_dec_bl. exact H.
  - apply Byte.byte_dec_lb. exact H.
Qed.

Lemma byte_eqb_refl : forall a, byte_eqb a a = true.
Proof. intros. apply byte_eqb_eq. reflexivity. Qed.

Lemma bytes_eqb_eq : forall a b, bytes_eqb a b = true <-> a = b.
Proof.
  induction a as [|x a IH]; destruct b as [|y b]; cbn; try (split; congruence).
  rewrite andb_true_iff, byte_eqb_eq, IH. split; [intros [-> ->]|intros [= -> ->]]; auto.
Qed.

Lemma fourcc_eqb_eq : forall a b, fourcc_eqb a b = true <-> a = b.
Proof.
  intros [a0 a1 a2 a3] [b0 b1 b2 b3]. unfold fourcc_eqb. cbn.
  rewrite !andb_true_iff, !byte_eqb_eq. split.
  - intros [[[-> ->] ->] ->]. reflexivity.
  - intros [= -> -> -> ->]. auto.
Qed.

Lemma fourcc_eqb_refl : forall a, fourcc_eqb a a = true.
Proof. intros. apply fourcc_eqb_eq. reflexivity. Qed.

Lemma fourcc_eqb_neq : forall a b, fourcc_eqb a b = false <-> a <> b.
Proof.
  intros a b. rewrite <- not_true_iff_false, fourcc_eqb_eq. reflexivity.
Qed.

Lemma fourcc_eqb_sym : forall a b, fourcc_eqb a b = fourcc_eqb b a.
Proof.
  intros a b. destruct (fourcc_eqb a b) eqn:E; symmetry.
  - apply fourcc_eqb_eq in E. subst. apply fourcc_eqb_refl.
  - apply fourcc_eqb_neq in E. apply fourcc_eqb_neq. congruence.
Qed.

(** * Lengths *)

Lemma blen_nil : forall {A}, blen (@nil A) = 0.
Proof. reflexivity. Qed.
Lemma blen_cons : forall {A} (x : A) l, blen (x :: l) = 1 + blen l.
Proof. intros. unfold blen. cbn [length]. lia. Qed.
Lemma blen_app : forall {A} (a b : list A), blen (a ++ b) = blen a + blen b.
Proof. intros. unfold blen. rewrite app_length. lia. Qed.
Lemma blen_map : forall {A B} (g : A -> B) l, blen (map g l) = blen l.
Proof. intros. unfold blen. rewrite map_length. reflexivity. Qed.
Lemma to_nat_blen : forall {A} (l : list A), N.to_nat (blen l) = length l.
Proof. intros. unfold blen. lia. Qed.
Lemma blen_0 : forall {A} (l : list A), blen l = 0 -> l = [].
Proof. intros A [|x l] H; [reflexivity|]. rewrite blen_cons in H. lia. Qed.

Lemma be_length : forall k v, length (be k v) = k.
Proof. induction k; intros; cbn [be length]; [|rewrite IHk]; reflexivity. Qed.
Lemma blen_be : forall k v, blen (be k v) = N.of_nat k.
Proof. intros. unfold blen. rewrite be_length. reflexivity. Qed.
Lemma blen_fc : forall f, blen (fc_bytes f) = 4.
Proof. reflexivity. Qed.
Lemma zeros_length : forall n, length (zeros n) = N.to_nat n.
Proof. intros. unfold zeros. apply repeat_length. Qed.
Lemma blen_zeros : forall n, blen (zeros n) = n.
Proof. intros. unfold blen. rewrite zeros_length. lia. Qed.
Lemma zeros_0 : zeros 0 = [].
Proof. reflexivity. Qed.

(** * Big-endian numbers *)

Lemma unbe_acc : forall l a, fold_left (fun a b => a * 256 + b2n b) l a = a * 256 ^ blen l + unbe l.
Proof.
  induction l as [|x l IH]; intros a.
  - cbn. change (blen (@nil byte)) with 0. rewrite N.pow_0_r. unfold unbe. cbn. lia.
  - unfold unbe. cbn [fold_left]. rewrite IH, (IH (0 * 256 + b2n x)), blen_cons.
    replace (256 ^ (1 + blen l)) with (256 * 256 ^ blen l).
    + nia.
    + rewrite N.pow_add_r. reflexivity.
Qed.

Lemma unbe_cons : forall x l, unbe (x :: l) = b2n x * 256 ^ blen l + unbe l.
Proof. intros. unfold unbe at 1. cbn [fold_left]. rewrite unbe_acc. lia. Qed.

Lemma unbe_lt : forall l, unbe l < 256 ^ blen l.
Proof.
  induction l as [|x l IH].
  - reflexivity.
  - rewrite unbe_cons, blen_cons, N.pow_add_r. pose proof (b2n_lt x).
    change (256 ^ 1) with 256. nia.
Qed.

Lemma unbe_be_mod : forall k v, unbe (be k v) = v mod 256 ^ N.of_nat k.
Proof.
  induction k as [|k IH]; intros v.
  - cbn [be]. change (256 ^ N.of_nat 0) with 1. rewrite N.mod_1_r. reflexivity.
  - cbn [be]. rewrite unbe_cons, IH, blen_be, b2n_n2b.
    replace (N.of_nat (S k)) with (N.of_nat k + 1) by lia.
    rewrite N.pow_add_r. change (256 ^ 1) with 256.
    assert (256 ^ N.of_nat k <> 0) by (apply N.pow_nonzero; lia).
    rewrite N.mod_mul_r by lia. lia.
Qed.

Lemma unbe_be : forall k v, v < 256 ^ N.of_nat k -> unbe (be k v) = v.
Proof. intros. rewrite unbe_be_mod, N.mod_small; auto. Qed.

Lemma be_mod : forall k v, be k (v mod 256 ^ N.of_nat k) = be k v.
Proof.
  assert (G : forall k j v, be k (v mod 256 ^ N.of_nat (k + j)) = be k v).
  { induction k as [|k IH]; intros j v; [reflexivity|].
    cbn [be]. f_equal.
    - apply b2n_inj. rewrite !b2n_n2b.
      assert (256 ^ N.of_nat k <> 0) by (apply N.pow_nonzero; lia).
      assert (256 ^ N.of_nat (j+1) <> 0) by (apply N.pow_nonzero; lia).
      replace (N.of_nat (S k + j)) with (N.of_nat k + N.of_nat (j + 1)) by lia.
      rewrite N.pow_add_r, N.mod_mul_r by lia.
      rewrite (N.mul_comm (256 ^ N.of_nat k)), N.div_add by lia.
      rewrite N.div_small by (apply N.mod_lt; lia). rewrite N.add_0_l.
      replace (N.of_nat (j + 1)) with (1 + N.of_nat j) by lia.
      rewrite N.pow_add_r. change (256 ^ 1) with 256.
      assert (256 ^ N.of_nat j <> 0) by (apply N.pow_nonzero; lia).
      rewrite N.mod_mul_r by lia.
      rewrite (N.mul_comm 256), N.mod_add by lia. apply N.mod_mod. lia.
    - replace (S k + j)%nat with (k + S j)%nat by lia. apply IH. }
  intros k v. specialize (G k 0%nat v). rewrite Nat.add_0_r in G. exact G.
Qed.

Lemma be_unbe : forall l, be (length l) (unbe l) = l.
Proof.
  induction l as [|x l IH]; [reflexivity|].
  cbn [length be]. rewrite unbe_cons.
  fold (blen l). pose proof (unbe_lt l) as L.
  assert (256 ^ blen l <> 0) by (apply N.pow_nonzero; lia).
  f_equal.
  - rewrite (N.add_comm (_ * _)), N.div_add by lia. rewrite N.div_small by lia.
    rewrite N.add_0_l. apply n2b_b2n.
  - rewrite <- (be_mod (length l) (b2n x * 256 ^ blen l + unbe l)). fold (blen l).
    rewrite (N.add_comm (b2n x * _)), N.mod_add by lia. rewrite N.mod_small by lia. exact IH.
Qed.

Lemma unbe_inj : forall a b, length a = length b -> unbe a = unbe b -> a = b.
Proof. intros a b L H. rewrite <- (be_unbe a), <- (be_unbe b), L, H. reflexivity. Qed.

Lemma unbe_app : forall a b, unbe (a ++ b) = unbe a * 256 ^ blen b + unbe b.
Proof.
  induction a as [|x a IH]; intros b; [cbn [app]; change (unbe []) with 0; lia|].
  cbn [app]. rewrite !unbe_cons, IH, blen_app, N.pow_add_r. nia.
Qed.

(** * Slices *)

Lemma firstn_length_app : forall {A} (a b : list A), firstn (length a) (a ++ b) = a.
Proof. intros. rewrite firstn_app, Nat.sub_diag, firstn_all, firstn_O, app_nil_r. reflexivity. Qed.

Lemma skipn_length_app : forall {A} (a b : list A), skipn (length a) (a ++ b) = b.
Proof. intros. rewrite skipn_app, Nat.sub_diag, skipn_all, skipn_O. reflexivity. Qed.

Lemma firstn_blen_app : forall {A} (a b : list A) n, n = blen a -> firstn (N.to_nat n) (a ++ b) = a.
Proof. intros A a b n ->. rewrite to_nat_blen. apply firstn_length_app. Qed.

Lemma skipn_blen_app : forall {A} (a b : list A) n, n = blen a -> skipn (N.to_nat n) (a ++ b) = b.
Proof. intros A a b n ->. rewrite to_nat_blen. apply skipn_length_app. Qed.

Lemma slice_app : forall a b c p n, p = blen a -> n = blen b -> slice (a ++ b ++ c) p n = b.
Proof.
  intros. unfold slice. rewrite skipn_blen_app by assumption. apply firstn_blen_app. assumption.
Qed.

Lemma blen_slice : forall f p n, p + n <= blen f -> blen (slice f p n) = n.
Proof.
  intros f p n H. unfold slice, blen in *. rewrite firstn_length, skipn_length. lia.
Qed.

(** * Machine arithmetic inside the range *)

Lemma add64_ok : forall m a b, a + b < two64 -> add64 m a b = Ok (a + b).
Proof. intros. unfold add64. replace (a + b <? two64) with true by (symmetry; apply N.ltb_lt; lia). reflexivity. Qed.
Lemma sub64_ok : forall m a b, b <= a -> sub64 m a b = Ok (a - b).
Proof. intros. unfold sub64. replace (b <=? a) with true by (symmetry; apply N.leb_le; lia). reflexivity. Qed.
Lemma add32_ok : forall m a b, a + b < two32 -> add32 m a b = Ok (a + b).
Proof. intros. unfold add32. replace (a + b <? two32) with true by (symmetry; apply N.ltb_lt; lia). reflexivity. Qed.
Lemma as_i64_small : forall n, n < two63 -> as_i64 n = Z.of_N n.
Proof. intros. unfold as_i64. replace (n <? two63) with true by (symmetry; apply N.ltb_lt; lia). reflexivity. Qed.
Lemma addi_ok : forall m a b, (- Z.of_N two63 <= a + b < Z.of_N two63)%Z -> addi m a b = Ok (a + b)%Z.
Proof.
  intros. unfold addi, in_i64.
  replace (_ && _) with true; [reflexivity|].
  symmetry. apply andb_true_iff. split; [apply Z.leb_le|apply Z.ltb_lt]; lia.
Qed.
Lemma subi_ok : forall m a b, (- Z.of_N two63 <= a - b < Z.of_N two63)%Z -> subi m a b = Ok (a - b)%Z.
Proof.
  intros. unfold subi, in_i64.
  replace (_ && _) with true; [reflexivity|].
  symmetry. apply andb_true_iff. split; [apply Z.leb_le|apply Z.ltb_lt]; lia.
Qed.
Lemma i_as_u64_small : forall z, (0 <= z < Z.of_N two64)%Z -> i_as_u64 z = Z.to_N z.
Proof. intros. unfold i_as_u64. rewrite Z.mod_small by lia. reflexivity. Qed.
Lemma i_as_u32_small : forall z, (0 <= z < Z.of_N two32)%Z -> i_as_u32 z = Z.to_N z.
Proof. intros. unfold i_as_u32. rewrite Z.mod_small by lia. reflexivity. Qed.
Lemma as_u32_small : forall n, n < two32 -> as_u32 n = n.
Proof. intros. unfold as_u32. apply N.mod_small. assumption. Qed.

Lemma nsum_app_aux : forall (l r : list N), fold_right N.add 0 (l ++ r) = fold_right N.add 0 l + fold_right N.add 0 r.
Proof. induction l; intros; cbn; [lia|]. rewrite IHl. lia. Qed.
