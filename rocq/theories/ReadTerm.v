(** Termination of reading in both build profiles, for files whose 64-bit size fields are neither
    zero nor above 2^63; heads of the wrong length; unknown type codes. *)

From Coq Require Import List NArith ZArith Bool Lia Arith String.
From Coq Require Import ZifyBool ZifyNat ZifyN.
From Verif Require Import Base BaseLemmas Utf UtfLemmas Types Stream Parse Find Write TagSpec FileSpec ParseLemmas ReadProofs ReadMore ReadSpec ReadFacts ReadBad ReadErr.
Import ListNotations.
Local Open Scope list_scope.
Ltac Zify.zify_post_hook ::= Z.div_mod_to_equations.

  (** What a head in this file can be. *)
  Lemma read_some : forall f n p b q, n <> 0 -> read_exact n f p = Ok (b, q) -> q = p + n /\ p + n <= blen f /\ b = slice f p n.
  Proof.
    intros f n p b q H. unfold read_exact. rewrite (proj2 (N.eqb_neq n 0) H).
    destruct (N.leb_spec (p + n) (blen f)); [|discriminate]. intros E. injection E as <- <-. auto.
  Qed.
  Lemma head_inv : forall f p h q, parse_head f p = Ok (h, q) ->
    q = p + head_len (hd_size h) /\ q <= blen f /\
    fc_bytes (hd_fourcc h) = slice f (p + 4) 4 /\
    if sz_ext (hd_size h) then field f p 4 = 1 /\ sz_len (hd_size h) = field f (p + 8) 8
    else sz_len (hd_size h) = field f p 4 /\ 8 <= field f p 4.
  Proof.
    intros f p h q. unfold parse_head, read_u32, read_u64, bind.
    destruct (read_exact 4 f p) as [[a p1]| | |] eqn:E1; try discriminate. apply read_some in E1; [|discriminate].
    destruct E1 as (-> & L1 & ->). unfold ret.
    destruct (read_exact 4 f (p + 4)) as [[b p2]| | |] eqn:E2; try discriminate. apply read_some in E2; [|discriminate].
    destruct E2 as (-> & L2 & ->).
    assert (FB : fc_bytes (fourcc_of_bytes (slice f (p + 4) 4)) = slice f (p + 4) 4).
    { symmetry. apply fourcc_of_slice; [exact L2|reflexivity]. }
    fold (field f p 4). destruct (N.eqb_spec (field f p 4) 1) as [E|E].
    - destruct (read_exact 8 f (p + 4 + 4)) as [[c p3]| | |] eqn:E3; try discriminate. apply read_some in E3; [|discriminate].
      destruct E3 as (-> & L3 & ->). intros H. injection H as <- <-. cbn. unfold head_len. cbn.
      repeat split; try lia; auto. unfold field. do 2 f_equal. lia.
    - destruct (N.ltb_spec (field f p 4) 8); [discriminate|]. intros H'. injection H' as <- <-. cbn. unfold head_len. cbn.
      repeat split; try lia; auto.
  Qed.

Section Forward.
  Context (f : bytes) (m : mode) (Sm : small f) (T : tame f) (fuel : nat) (Fu : blen f < N.of_nat fuel).

  (** Never out of fuel, never backwards. *)
  Definition good_end {A} (p0 : N) (r : res (A * N)) : Prop :=
    match r with Ok (_, q) => p0 <= q < two63 | Fuel => False | _ => True end.
  Definition fw {A} (r : R A) : Prop := forall p, p < two63 -> good_end p (r f p).

  Lemma fw_bind : forall {A B} (r : R A) (k : A -> R B), fw r -> (forall a, fw (k a)) -> fw (bind r k).
  Proof.
    intros A B r k H K p L. unfold bind. specialize (H p L). unfold good_end in *. destruct (r f p) as [[a q]| | |]; auto.
    specialize (K a q). unfold good_end in K. destruct (k a f q) as [[b q']| | |]; auto; [|apply K; apply H].
    assert (q <= q' < two63) by (apply K; apply H). lia.
  Qed.
  Lemma fw_ret : forall {A} (a : A), fw (ret a). Proof. intros A a p L. unfold good_end, ret. lia. Qed.
  Lemma fw_fail : forall {A} e, fw (@fail A e). Proof. intros A e p L. exact I. Qed.
  Lemma fw_lift : forall {A} (r : res A), r <> Fuel -> fw (lift r).
  Proof. intros A r H p L. unfold good_end, lift. destruct r; auto. lia. Qed.
  Lemma fw_read : forall n, fw (read_exact n).
  Proof.
    intros n p L. unfold good_end, read_exact. unfold small in Sm. destruct (N.eqb_spec n 0); [lia|].
    destruct (N.leb_spec (p + n) (blen f)); [unfold two63; lia|exact I].
  Qed.
  Lemma fw_seek : forall d, (0 <= d)%Z -> fw (seek_cur d).
  Proof.
    intros d H p L. unfold good_end, seek_cur. destruct ((0 <=? Z.of_N p + d) && (Z.of_N p + d <? Z.of_N two63))%Z eqn:E; [|exact I].
    apply andb_true_iff in E. lia.
  Qed.
  Lemma fw_pos : fw position. Proof. intros p L. unfold good_end, position. lia. Qed.
  Lemma nf_add : forall a b, add64 m a b <> Fuel.
  Proof. intros. unfold add64. destruct (_ <? _); [discriminate|destruct m; discriminate]. Qed.
  Lemma nf_sub : forall a b, sub64 m a b <> Fuel.
  Proof. intros. unfold sub64. destruct (_ <=? _); [discriminate|destruct m; discriminate]. Qed.
  Lemma nf_content : forall s, content_len m s <> Fuel.
  Proof. intros. unfold content_len. destruct (sz_ext s); apply nf_sub. Qed.
  Lemma nf_nanos : forall a b, mvhd_nanos m a b <> Fuel.
  Proof.
    intros. unfold mvhd_nanos, mul64, div64, rbind. destruct (_ <? _); [destruct (a =? 0); discriminate|].
    destruct m; [discriminate|]. destruct (a =? 0); discriminate.
  Qed.

  Ltac fw1 :=
    match goal with
    | |- fw (bind _ _) => apply fw_bind; [|intro]
    | |- fw (ret _) => apply fw_ret
    | |- fw (fail _) => apply fw_fail
    | |- fw (lift _) => apply fw_lift; (apply nf_add || apply nf_sub || apply nf_content || apply nf_nanos || discriminate)
    | |- fw (read_exact _) => apply fw_read
    | |- fw (seek_cur _) => apply fw_seek; lia
    | |- fw position => apply fw_pos
    | |- fw (if ?b then _ else _) => destruct b
    | |- fw (match ?x with _ => _ end) => destruct x
    end.
  Ltac fws := repeat fw1.

  Lemma fw_u8 : fw read_u8. Proof. unfold read_u8. fws. Qed.
  Lemma fw_u16 : fw read_u16. Proof. unfold read_u16. fws. Qed.
  Lemma fw_u32 : fw read_u32. Proof. unfold read_u32. fws. Qed.
  Lemma fw_u64 : fw read_u64. Proof. unfold read_u64. fws. Qed.
  Lemma fw_vec : forall n, fw (read_u8_vec n). Proof. intros. unfold read_u8_vec. fws. Qed.
  Lemma fw_utf8 : forall n, fw (read_utf8 n). Proof. intros. unfold read_utf8. fws. apply fw_vec. Qed.
  Lemma fw_utf16 : forall n, fw (read_utf16 n). Proof. intros. unfold read_utf16. fws. apply fw_vec. Qed.
  Lemma fw_full : fw parse_full_head. Proof. unfold parse_full_head. fws. apply fw_u8. Qed.
  Lemma fw_head : fw parse_head. Proof. unfold parse_head. fws; (apply fw_u32 || apply fw_u64). Qed.
  Lemma fw_bounds : forall s, fw (find_bounds m s). Proof. intros. unfold find_bounds. fws. Qed.
  Lemma fw_data : forall t n, fw (data_parse t n).
  Proof. intros. unfold data_parse. fws; (apply fw_vec || apply fw_utf8 || apply fw_utf16). Qed.

  Lemma head_tame : forall p h q, parse_head f p = Ok (h, q) ->
    q = p + head_len (hd_size h) /\ q <= blen f /\ 0 < sz_len (hd_size h) < two63 /\ (sz_ext (hd_size h) = false -> 8 <= sz_len (hd_size h)).
  Proof.
    intros p h q H. destruct (head_inv f p h q H) as (Q & L & _ & X). split; [exact Q|]. split; [exact L|].
    unfold head_len in Q. destruct (sz_ext (hd_size h)).
    - destruct X as [E ->]. specialize (T p). split; [|discriminate]. apply T; [exact E|lia].
    - destruct X as [-> E]. split; [|auto]. pose proof (field_lt f p 4 ltac:(lia)). unfold two63. change (256 ^ 4) with 4294967296 in *. lia.
  Qed.

  (** A parser run behind a head ends behind the start of the head. *)
  Definition bfw {A} (r : head -> R A) : Prop := forall p0 h p, parse_head f p0 = Ok (h, p) -> good_end (p0 + 1) (r h f p).

  Lemma bfw_fw : forall {A} (r : head -> R A), (forall h, fw (r h)) -> bfw r.
  Proof.
    intros A r H p0 h p E. destruct (head_tame p0 h p E) as (-> & L & _). specialize (H h (p0 + head_len (hd_size h))).
    assert (8 <= head_len (hd_size h)) by (unfold head_len; destruct (sz_ext (hd_size h)); lia).
    unfold small in Sm. unfold good_end in *. destruct (r h f _) as [[]| | |]; auto; [|apply H; unfold two63; lia].
    assert (p0 + head_len (hd_size h) <= n < two63) by (apply H; unfold two63; lia). lia.
  Qed.
  (** The rest does not move backwards. *)
  Lemma bfw_bind : forall {A B} (r : head -> R A) (k : head -> A -> R B), bfw r -> (forall h a, fw (k h a)) -> bfw (fun h => bind (r h) (k h)).
  Proof.
    intros A B r k H K p0 h p E. specialize (H p0 h p E). unfold bind, good_end in *. destruct (r h f p) as [[a q]| | |]; auto.
    specialize (K h a q). unfold good_end in K. destruct (k h a f q) as [[b q']| | |]; auto; [|apply K; apply H].
    assert (q <= q' < two63) by (apply K; apply H). lia.
  Qed.
  Lemma bfw_if : forall {A} (c : head -> bool) (x y : head -> R A), bfw x -> bfw y -> bfw (fun h => if c h then x h else y h).
  Proof. intros A c x y X Y p0 h p E. destruct (c h); [apply (X p0 h p E)|apply (Y p0 h p E)]. Qed.

  Lemma sub_i64 : forall a b c, a < two63 -> b <= 16 -> sub64 m a b = Ok c -> as_i64 c = (Z.of_N a - Z.of_N b)%Z.
  Proof.
    intros a b c La Lb. unfold sub64. destruct (N.leb_spec b a).
    - intros E. injection E as <-. rewrite as_i64_small by lia. lia.
    - destruct m; [discriminate|]. intros E. injection E as <-. unfold as_i64, two64, two63 in *.
      set (x := (a + 18446744073709551616 - b) mod 18446744073709551616).
      assert (x = 18446744073709551616 + a - b) by (subst x; rewrite N.mod_small; lia). clearbody x.
      destruct (N.ltb_spec x 9223372036854775808); lia.
  Qed.
  Lemma bfw_skip : bfw (skip_atom m).
  Proof.
    intros p0 h p E. destruct (head_tame p0 h p E) as (-> & L & [L0 L1] & L2). unfold small in Sm.
    unfold good_end, skip_atom, bind, lift. destruct (content_len m (hd_size h)) as [c| | |] eqn:C; auto; [|exact (nf_content _ C)].
    assert (D : as_i64 c = (Z.of_N (sz_len (hd_size h)) - Z.of_N (head_len (hd_size h)))%Z).
    { unfold content_len, head_len in *. destruct (sz_ext (hd_size h)); apply sub_i64; auto; lia. }
    unfold seek_cur. rewrite D. set (t := (_ + _)%Z). destruct ((0 <=? t) && (t <? Z.of_N two63))%Z eqn:B; [|exact I].
    apply andb_true_iff in B. subst t. unfold head_len in *. destruct (sz_ext (hd_size h)); lia.
  Qed.

  Lemma fw_loop : forall {S} (body : head -> S -> R S) limit, limit <> Fuel -> (forall s, bfw (fun h => body h s)) ->
    forall n parsed s p, blen f < p + N.of_nat n -> (0 < n)%nat -> p < two63 -> good_end p (atom_loop n m limit body parsed s f p).
  Proof.
    intros S body limit NL B n. induction n as [|n IH]; intros parsed s p L N0 L63; [lia|]. cbn [atom_loop].
    unfold bind at 1, lift at 1. destruct limit as [l| | |]; try exact I; [|congruence].
    destruct (parsed <? l); [|apply fw_ret, L63]. unfold bind at 1. destruct (parse_head f p) as [[h q]| | |] eqn:E; try exact I.
    2:{ pose proof (fw_head p L63) as X. rewrite E in X. exact X. }
    unfold bind at 1. specialize (B s p h q E). unfold good_end in B. destruct (body h s f q) as [[s' q']| | |]; try exact I; [|exact B].
    unfold bind, lift. destruct (add64 m parsed (sz_len (hd_size h))) as [pa| | |] eqn:A; try exact I; [|exact (nf_add _ _ A)].
    destruct (head_tame p h q E) as (Q & Lq & _). assert (8 <= head_len (hd_size h)) by (unfold head_len; destruct (sz_ext (hd_size h)); lia).
    specialize (IH pa s' q' ltac:(lia) ltac:(lia) ltac:(lia)). unfold good_end in *.
    destruct (atom_loop n m _ body pa s' f q') as [[]| | |]; auto. lia.
  Qed.
  Lemma fw_loop' : forall {S} (body : head -> S -> R S) limit parsed s, limit <> Fuel -> (forall s, bfw (fun h => body h s)) ->
    fw (atom_loop fuel m limit body parsed s).
  Proof. intros. intros p L. apply fw_loop; auto; lia. Qed.

  (** Descriptors. *)
  Lemma desc_len_end : forall k hl len p, p < two63 -> len < 128 ^ (4 - N.of_nat k) -> (k <= 4)%nat ->
    match desc_len_loop k hl len f p with Ok (x, q) => p <= q < two63 /\ snd x < 128 ^ 4 | Fuel => False | _ => True end.
  Proof.
    induction k as [|k IH]; intros hl len p L Ln K; cbn [desc_len_loop].
    - unfold ret. cbn [snd]. rewrite N.sub_0_r in Ln. repeat split; auto; lia.
    - unfold bind at 1, read_u8, bind at 1. destruct (read_exact 1 f p) as [[b q]| | |] eqn:E; auto.
      2:{ pose proof (fw_read 1 p L) as X. rewrite E in X. exact X. }
      apply read_some in E; [|discriminate]. destruct E as (-> & Lq & ->). unfold ret at 1. unfold small in Sm.
      set (v := unbe (slice f p 1)). assert (Ln' : len * 128 + v mod 128 < 128 ^ (4 - N.of_nat k)).
      { replace (4 - N.of_nat k) with (N.succ (4 - N.of_nat (S k))) by lia. rewrite N.pow_succ_r'.
        assert (v mod 128 < 128) by (apply N.mod_lt; discriminate). nia. }
      cbv zeta. destruct (v <? 128).
      + unfold ret. cbn [snd]. split; [unfold two63; lia|].
        eapply N.lt_le_trans; [exact Ln'|]. apply N.pow_le_mono_r; lia.
      + specialize (IH (hl + 1) (len * 128 + v mod 128) (p + 1) ltac:(unfold two63; lia) Ln' ltac:(lia)).
        destruct (desc_len_loop k _ _ f (p + 1)) as [[x q]| | |]; auto. destruct IH as (A & B). split; [lia|exact B].
  Qed.
  Lemma desc_head_end : forall p, p < two63 ->
    match parse_desc_head f p with
    | Ok (x, q) => p < q < two63 /\ p < blen f /\ snd x < 2 ^ 28 | Fuel => False | _ => True end.
  Proof.
    intros p L. unfold parse_desc_head, read_u8, bind. destruct (read_exact 1 f p) as [[b q]| | |] eqn:E; auto.
    2:{ pose proof (fw_read 1 p L) as X. rewrite E in X. exact X. }
    apply read_some in E; [|discriminate]. destruct E as (-> & Lq & ->). unfold ret. unfold small in Sm.
    assert (X : p + 1 < two63) by (unfold two63; lia). apply (desc_len_end 4 1 0) in X; [|reflexivity|lia].
    destruct (desc_len_loop 4 1 0 f (p + 1)) as [[x q]| | |]; auto. destruct X as [A B]. cbn [snd]. repeat split; try lia.
  Qed.
  Lemma fw_dloop : forall {S} (body : N -> N -> S -> R S) len, (forall t l s, l < 2 ^ 28 -> fw (body t l s)) ->
    forall n parsed s p, blen f < p + N.of_nat n -> (0 < n)%nat -> p < two63 -> good_end p (desc_loop n m len body parsed s f p).
  Proof.
    intros S body len B n. induction n as [|n IH]; intros parsed s p L N0 L63; [lia|]. cbn [desc_loop].
    destruct (parsed <? len); [|apply fw_ret, L63]. unfold bind at 1. pose proof (desc_head_end p L63) as E.
    destruct (parse_desc_head f p) as [[[[t hl] dl] q]| | |]; try exact I; [|exact E]. cbn [snd] in E. destruct E as (Q & Lp & Ld).
    unfold bind at 1. specialize (B t dl s Ld q (proj2 Q)). unfold good_end in B. destruct (body t dl s f q) as [[s' q']| | |]; try exact I; [|exact B].
    unfold bind at 1, lift at 1. destruct (add64 m hl dl) as [k| | |] eqn:A; try exact I; [|exact (nf_add _ _ A)].
    unfold bind at 1, lift at 1. destruct (add64 m parsed k) as [pa| | |] eqn:A'; try exact I; [|exact (nf_add _ _ A')].
    specialize (IH pa s' q' ltac:(lia) ltac:(lia) ltac:(lia)). unfold good_end in *.
    destruct (desc_loop n m len body pa s' f q') as [[]| | |]; auto. lia.
  Qed.
  Lemma fw_dloop' : forall {S} (body : N -> N -> S -> R S) len parsed s, (forall t l s, l < 2 ^ 28 -> fw (body t l s)) ->
    fw (desc_loop fuel m len body parsed s).
  Proof. intros. intros p L. apply fw_dloop; auto; lia. Qed.
  Lemma fw_ds : forall i n, n < 2 ^ 28 -> fw (parse_ds_desc m i n).
  Proof.
    intros i n L p Lp. unfold parse_ds_desc, read_u16, bind. destruct (read_exact 2 f p) as [[b q]| | |] eqn:E; auto; try exact I.
    2:{ pose proof (fw_read 2 p Lp) as X. rewrite E in X. exact X. }
    apply read_some in E; [|discriminate]. destruct E as (-> & Lq & _). unfold ret at 1. cbv zeta. unfold lift.
    destruct (sub64 m n 2) as [d| | |] eqn:D; try exact I; [|exact (nf_sub _ _ D)].
    apply sub_i64 in D; [|unfold two63; lia|lia]. unfold seek_cur. rewrite D. unfold small in Sm.
    set (t := (_ + _)%Z). destruct ((0 <=? t) && (t <? Z.of_N two63))%Z eqn:B; [|exact I].
    apply andb_true_iff in B. subst t. unfold ret, good_end. lia.
  Qed.
  Lemma fw_skipd : forall n, n < 2 ^ 28 -> fw (seek_cur (as_i64 n)).
  Proof. intros n L. rewrite as_i64_small by (unfold two63; lia). apply fw_seek. lia. Qed.
  Lemma fw_dc : forall i n, fw (parse_dc_desc fuel m i n).
  Proof.
    intros. unfold parse_dc_desc. fws; try apply fw_u32. apply fw_dloop'. intros. unfold dc_body. fws; [apply fw_ds, H|apply fw_skipd, H].
  Qed.
  Lemma fw_es : forall i n, fw (parse_es_desc fuel m i n).
  Proof.
    intros. unfold parse_es_desc. fws. apply fw_dloop'. intros. unfold es_body. fws; [apply fw_dc|apply fw_skipd, H].
  Qed.
  Lemma fw_desc_head : fw parse_desc_head.
  Proof. intros p L. pose proof (desc_head_end p L) as X. unfold good_end. destruct (parse_desc_head f p) as [[]| | |]; auto. lia. Qed.
  Lemma fw_esds : forall i s, fw (parse_esds fuel m i s).
  Proof. intros. unfold parse_esds. fws; (apply fw_full || apply fw_desc_head || apply fw_es). Qed.

  (** Atoms that end with [seek_to_end]. *)
  Lemma bounds_tame : forall p0 h p, parse_head f p0 = Ok (h, p) -> find_bounds m (hd_size h) f p = Ok (Bounds p0 (hd_size h), p).
  Proof.
    intros p0 h p E. destruct (head_tame p0 h p E) as (-> & _). unfold find_bounds, bind, position, lift, ret.
    rewrite sub64_ok by lia. do 3 f_equal. lia.
  Qed.
  Lemma end_arith : forall e q d, e < two64 -> q < two63 -> sub64 m e q = Ok d ->
    (Z.of_N q + as_i64 d = Z.of_N e \/ Z.of_N q + as_i64 d = Z.of_N e - Z.of_N two64)%Z.
  Proof.
    intros e q d Le Lq D. unfold sub64 in D. destruct (N.leb_spec q e).
    - injection D as <-. unfold as_i64. destruct (N.ltb_spec (e - q) two63); [left|right]; lia.
    - destruct m; [discriminate|]. injection D as <-. rewrite N.mod_small by (unfold two63, two64 in *; lia).
      left. unfold as_i64. destruct (N.ltb_spec (e + two64 - q) two63); unfold two63, two64 in *; lia.
  Qed.
  Lemma end_tame : forall p0 h p q, parse_head f p0 = Ok (h, p) -> q < two63 ->
    match seek_to_end m (Bounds p0 (hd_size h)) f q with Ok (_, q') => p0 < q' < two63 | Fuel => False | _ => True end.
  Proof.
    intros p0 h p q E Lq. destruct (head_tame p0 h p E) as (-> & L & [L0 L1] & _). unfold small in Sm.
    unfold seek_to_end, bind, position, lift, bounds_end. cbn [b_pos b_size].
    assert (Le : p0 + sz_len (hd_size h) < two64) by (unfold two63, two64 in *; lia).
    rewrite add64_ok by exact Le. destruct (sub64 m (p0 + sz_len (hd_size h)) q) as [d| | |] eqn:D; try exact I; [|exact (nf_sub _ _ D)].
    apply end_arith in D; [|exact Le|exact Lq].
    unfold seek_cur. destruct ((0 <=? Z.of_N q + as_i64 d) && (Z.of_N q + as_i64 d <? Z.of_N two63))%Z eqn:B; [|exact I].
    apply andb_true_iff in B. lia.
  Qed.
  Lemma bfw_enclosed : forall {A} (r : head -> R A) (k : A -> head -> R unit) , (forall h, fw (r h)) ->
    bfw (fun h => b <- find_bounds m (hd_size h) ;; x <- r h ;; seek_to_end m b ;;; ret x).
  Proof.
    intros A r k H p0 h p E. destruct (head_tame p0 h p E) as (_ & L & _). unfold small in Sm.
    unfold bind at 1. rewrite (bounds_tame p0 h p E). unfold bind at 1.
    specialize (H h p ltac:(unfold two63; lia)). unfold good_end in H. destruct (r h f p) as [[x q]| | |]; try exact I; [|exact H].
    unfold bind. pose proof (end_tame p0 h p q E ltac:(lia)) as X. destruct (seek_to_end m _ f q) as [[u q']| | |]; try exact I; [|exact X].
    unfold ret, good_end. lia.
  Qed.
  Lemma bfw_eq : forall {A} (r r' : head -> R A), (forall h p, r h f p = r' h f p) -> bfw r -> bfw r'.
  Proof. intros A r r' E H p0 h p X. rewrite <- E. apply (H p0 h p X). Qed.
  Lemma bfw_mp4a : bfw (fun h => mp4a_parse fuel m (hd_size h)).
  Proof.
    eapply bfw_eq; [|apply (bfw_enclosed (fun _ => seek_cur 28 ;;; h <- parse_head ;;
      if negb (fourcc_eqb (hd_fourcc h) ELEMENTARY_STREAM_DESCRIPTION) then fail (EAtomNotFound ELEMENTARY_STREAM_DESCRIPTION)
      else parse_esds fuel m mp4a_default (hd_size h)) (fun _ _ => ret tt))].
    - intros h p. unfold mp4a_parse, bind. destruct (find_bounds m (hd_size h) f p) as [[b q]| | |]; auto.
      destruct (seek_cur 28 f q) as [[u q1]| | |]; auto. destruct (parse_head f q1) as [[h' q2]| | |]; auto.
      destruct (negb _); reflexivity.
    - intros h. fws; [apply fw_head|apply fw_esds].
  Qed.
  Lemma bfw_mvhd : bfw (fun h => mvhd_parse m (hd_size h)).
  Proof.
    eapply bfw_eq; [|apply (bfw_enclosed (fun _ => vf <- parse_full_head ;;
       match fst vf with
       | 0 => seek_cur 8 ;;; timescale <- read_u32 ;; duration <- read_u32 ;; lift (mvhd_nanos m timescale duration)
       | 1 => seek_cur 16 ;;; timescale <- read_u32 ;; duration <- read_u64 ;; lift (mvhd_nanos m timescale duration)
       | v => fail (EUnknownVersion v)
       end) (fun _ _ => ret tt))].
    - intros h p. unfold mvhd_parse, bind. destruct (find_bounds m (hd_size h) f p) as [[b q]| | |]; try reflexivity.
      destruct (parse_full_head f q) as [[b1 q1]| | |]; reflexivity.
    - intros h. fws; (apply fw_full || apply fw_u32 || apply fw_u64).
  Qed.

  (** Containers. *)
  Ltac body := intros s; repeat first
    [ apply bfw_skip
    | match goal with |- bfw (fun h => bind (skip_atom m h) _) => apply (bfw_bind (fun h => skip_atom m h) (fun _ _ => ret s)); [apply bfw_skip|intros; apply fw_ret] end
    | apply bfw_if ].
  Lemma bfw_one : forall {Y} id (sub : size -> R Y), bfw (fun h => sub (hd_size h)) -> forall s, bfw (fun h => one_body id m sub h s).
  Proof.
    intros Y id sub H s. unfold one_body. apply bfw_if.
    - apply (bfw_bind (fun h => sub (hd_size h)) (fun _ x => ret (Some x))); [exact H|intros; apply fw_ret].
    - apply (bfw_bind (fun h => skip_atom m h) (fun _ _ => ret s)); [apply bfw_skip|intros; apply fw_ret].
  Qed.
  Lemma fw_one : forall {Y} id (sub : size -> R Y) limit parsed s, limit <> Fuel -> bfw (fun h => sub (hd_size h)) ->
    fw (atom_loop fuel m limit (one_body id m sub) parsed s).
  Proof. intros. apply fw_loop'; auto. intros. apply bfw_one. assumption. Qed.
  Lemma bfw_sub : forall {Y} (sub : size -> R Y), (forall s, fw (sub s)) -> bfw (fun h => sub (hd_size h)).
  Proof. intros. apply bfw_fw. auto. Qed.

  Lemma fw_item : forall i n, fw (atom_data_parse fuel m i n).
  Proof.
    intros. unfold atom_data_parse. apply fw_bind; [|intro; fws]. apply fw_loop'; [discriminate|]. intros a. unfold item_body. cbv zeta.
    repeat apply bfw_if.
    - apply bfw_fw. intros h. fws; (apply fw_full || apply fw_data).
    - apply bfw_fw. intros h. fws; (apply fw_full || apply fw_utf8).
    - apply bfw_fw. intros h. fws; (apply fw_full || apply fw_utf8).
    - apply (bfw_bind (fun h => skip_atom m h) (fun _ _ => ret a)); [apply bfw_skip|intros; apply fw_ret].
  Qed.
  Lemma fw_ilst : forall s, fw (ilst_parse fuel m s).
  Proof.
    intros. apply fw_loop'; [apply nf_content|]. intros l. unfold ilst_body. apply bfw_if.
    - apply (bfw_bind (fun h => skip_atom m h) (fun _ _ => ret l)); [apply bfw_skip|intros; apply fw_ret].
    - apply bfw_fw. intros h. fws. apply fw_item.
  Qed.
  Lemma fw_meta : forall s, fw (meta_parse fuel m s).
  Proof. intros. unfold meta_parse. fws; [apply fw_full|]. apply (fw_one ITEM_LIST); [apply nf_content|apply bfw_sub, fw_ilst]. Qed.
  Lemma fw_udta : forall s, fw (udta_parse fuel m s).
  Proof. intros. apply (fw_one METADATA); [apply nf_content|apply bfw_sub, fw_meta]. Qed.
  Lemma fw_stsd : forall s, fw (stsd_parse fuel m s).
  Proof. intros. unfold stsd_parse. fws; [apply fw_full|]. apply (fw_one MP4_AUDIO); [apply nf_content|apply bfw_mp4a]. Qed.
  Lemma fw_stbl : forall s, fw (stbl_parse fuel m s).
  Proof. intros. apply (fw_one SAMPLE_TABLE_SAMPLE_DESCRIPTION); [apply nf_content|apply bfw_sub, fw_stsd]. Qed.
  Lemma fw_minf : forall s, fw (minf_parse fuel m s).
  Proof. intros. apply (fw_one SAMPLE_TABLE); [apply nf_content|apply bfw_sub, fw_stbl]. Qed.
  Lemma fw_mdia : forall s, fw (mdia_parse fuel m s).
  Proof. intros. apply (fw_one MEDIA_INFORMATION); [apply nf_content|apply bfw_sub, fw_minf]. Qed.
  Lemma fw_trak : forall s, fw (trak_parse fuel m s).
  Proof. intros. apply (fw_one MEDIA); [apply nf_content|apply bfw_sub, fw_mdia]. Qed.
  Lemma fw_moov : forall s, fw (moov_parse fuel m s).
  Proof.
    intros. apply fw_loop'; [apply nf_content|]. intros r. unfold moov_body. cbv zeta. repeat apply bfw_if.
    - apply (bfw_bind (fun h => mvhd_parse m (hd_size h)) (fun _ d => ret (Moov (Some d) (mv_trak r) (mv_udta r)))); [apply bfw_mvhd|intros; apply fw_ret].
    - apply bfw_fw. intros h. fws. apply fw_trak.
    - apply bfw_fw. intros h. fws. apply fw_udta.
    - apply (bfw_bind (fun h => skip_atom m h) (fun _ _ => ret r)); [apply bfw_skip|intros; apply fw_ret].
  Qed.
  Lemma fw_find : forall n len parsed p, blen f < p + N.of_nat n -> (0 < n)%nat -> p < two63 ->
    good_end p (find_moov n m fuel len parsed f p).
  Proof.
    induction n as [|n IH]; intros len parsed p L N0 L63; [lia|]. cbn [find_moov]. destruct (len <=? parsed); [exact I|].
    unfold bind at 1. destruct (parse_head f p) as [[h q]| | |] eqn:E; try exact I.
    2:{ pose proof (fw_head p L63) as X. rewrite E in X. exact X. }
    destruct (head_tame p h q E) as (Q & Lq & _). assert (8 <= head_len (hd_size h)) by (unfold head_len; destruct (sz_ext (hd_size h)); lia).
    unfold small in Sm. destruct (fourcc_eqb (hd_fourcc h) MOVIE).
    - pose proof (fw_moov (hd_size h) q ltac:(unfold two63; lia)) as X. unfold good_end in *. destruct (moov_parse _ _ _ f q) as [[]| | |]; auto. lia.
    - unfold bind at 1. pose proof (bfw_skip p h q E) as X. unfold good_end in X. destruct (skip_atom m h f q) as [[u q']| | |]; try exact I; [|exact X].
      unfold bind at 1, lift at 1. destruct (add64 m parsed (sz_len (hd_size h))) as [pa| | |] eqn:A; try exact I; [|exact (nf_add _ _ A)].
      specialize (IH len pa q' ltac:(lia) ltac:(lia) ltac:(lia)). unfold good_end in *. destruct (find_moov n m fuel len pa f q') as [[]| | |]; auto. lia.
  Qed.

  Theorem read_tame : read_tag fuel m f <> Fuel.
  Proof.
    assert (X : good_end 0 (read_tag_from fuel m f 0)).
    { unfold read_tag_from. apply (fw_bind (ftyp_parse m)); [unfold ftyp_parse; fws; (apply fw_head || apply fw_utf8)| |unfold two63; lia].
      intros ft. apply fw_bind.
      - intros p L. unfold remaining_stream_len, bind, position, seek_end, lift. destruct (sub64 m (blen f) p) as [d| | |] eqn:D; try exact I; [|exact (nf_sub _ _ D)].
        unfold seek_start. destruct (p <? two63); [|exact I]. unfold ret, good_end. lia.
      - intros len. apply fw_bind; [|intro; apply fw_ret]. intros p L. apply fw_find; auto; lia. }
    unfold read_tag. destruct (read_tag_from fuel m f 0) as [[]| | |]; try discriminate. contradiction.
  Qed.
End Forward.

(** * Heads *)

Lemma slice_split : forall f p a n, a <= n -> slice f p n = slice f p a ++ slice f (p + a) (n - a).
Proof.
  intros f p a n H. unfold slice. rewrite <- (firstn_skipn (N.to_nat a) (firstn (N.to_nat n) (skipn (N.to_nat p) f))).
  rewrite firstn_firstn, skipn_firstn_comm, skipn_skipn. f_equal; [f_equal; lia|]. f_equal; [lia|]. f_equal. lia.
Qed.

(** Whatever is parsed as a head is the head that would be written. *)
Lemma head_is_written : forall f p h q, parse_head f p = Ok (h, q) ->
  q = p + head_len (hd_size h) /\ slice f p (head_len (hd_size h)) = out (write_head (hd_size h) (hd_fourcc h)).
Proof.
  intros f p h q H. destruct (head_inv f p h q H) as (Q & L & I & X). split; [exact Q|]. rewrite write_head_bytes.
  assert (BE : forall pos n k, n = N.of_nat k -> pos + n <= blen f -> be k (field f pos n) = slice f pos n).
  { intros pos n k -> Lp. unfold field. apply blen_slice in Lp. rewrite <- (be_unbe (slice f pos (N.of_nat k))) at 2. f_equal. unfold blen in Lp. lia. }
  unfold head_len in *. destruct (sz_ext (hd_size h)).
  - destruct X as [E ->]. rewrite I, <- E, (BE p 4 4%nat), (BE (p + 8) 8 8%nat) by (reflexivity || lia).
    rewrite (slice_split f p 4 16), (slice_split f (p + 4) 4 (16 - 4)) by lia. do 2 f_equal. replace (p + 4 + 4) with (p + 8) by lia. reflexivity.
  - destruct X as [-> E]. rewrite I, (BE p 4 4%nat) by (reflexivity || lia). apply (slice_split f p 4 8). lia.
Qed.

Lemma head_short : forall f p, p + 8 <= blen f -> field f p 4 < 8 -> field f p 4 <> 1 -> parse_head f p = Err EParsing.
Proof.
  intros f p L S N. unfold parse_head, read_u32, bind. rewrite (read_exact_in 4) by lia. unfold ret.
  rewrite (read_exact_in 4) by lia. fold (field f p 4). rewrite (proj2 (N.eqb_neq _ _) N), (proj2 (N.ltb_lt _ _) S). reflexivity.
Qed.

(** Running a loop over complete atoms, when what the body returns depends on where an atom is. *)
Fixpoint psteps {S} (body : head -> S -> R S) (f : bytes) (p : N) (ks : list atom) (s s' : S) : Prop :=
  match ks with
  | [] => s = s'
  | k :: r => exists s1, body (head_of k) s f (p + hlen k) = Ok (s1, p + asize k) /\ psteps body f (p + asize k) r s1 s'
  end.
Lemma loop_prefix : forall {S} m body ks fuel limit parsed (s s' : S) f p,
  small f -> forallb fits ks = true -> psteps body f p ks s s' -> sits f p (render_all ks) ->
  parsed + blen (render_all ks) <= limit -> limit < 2 ^ 64 -> (List.length ks < fuel)%nat ->
  atom_loop fuel m (Ok limit) body parsed s f p =
  atom_loop (fuel - List.length ks) m (Ok limit) body (parsed + blen (render_all ks)) s' f (p + blen (render_all ks)).
Proof.
  intros S m body ks. induction ks as [|k r IH]; intros fuel limit parsed s s' f p Sm F St H L L64 Fu.
  - cbn [psteps] in St. subst. change (render_all []) with (@nil byte). rewrite blen_nil, !N.add_0_r. cbn [List.length].
    rewrite Nat.sub_0_r. reflexivity.
  - destruct fuel as [|fuel]; [cbn in Fu; lia|]. cbn [forallb] in F. apply andb_true_iff in F. destruct F as [Fk Fr].
    destruct St as (s1 & Hk & St). rewrite render_all_cons in H. apply sits_app in H. destruct H as [Sk Sr].
    rewrite blen_render_all_cons in *. pose proof (asize_pos k) as A8.
    cbn [atom_loop]. unfold bind at 1, lift at 1. rewrite (proj2 (N.ltb_lt parsed limit)) by lia.
    unfold bind at 1. rewrite (head_at f p k Sm Fk Sk).
    unfold bind at 1. rewrite Hk. unfold bind at 1, lift at 1. cbn [hd_size head_of sz_len size_of].
    rewrite add64_ok by (unfold two64; lia). fold (asize k) in Sr.
    rewrite (IH fuel limit (parsed + asize k) s1 s' f (p + asize k)); auto; [|lia|cbn in Fu; lia].
    cbn [List.length]. rewrite !N.add_assoc. reflexivity.
Qed.
Lemma loop_all : forall {S} m body ks fuel limit parsed (s s' : S) f p,
  small f -> forallb fits ks = true -> psteps body f p ks s s' -> sits f p (render_all ks) ->
  parsed + blen (render_all ks) = limit -> limit < 2 ^ 64 -> (List.length ks < fuel)%nat ->
  atom_loop fuel m (Ok limit) body parsed s f p = Ok (s', p + blen (render_all ks)).
Proof.
  intros S m body ks fuel limit parsed s s' f p Sm F St H L L64 Fu. rewrite (loop_prefix m body ks fuel limit parsed s s'); auto; [|lia].
  destruct (fuel - List.length ks)%nat as [|n] eqn:E; [lia|]. cbn [atom_loop]. unfold bind, lift. rewrite (proj2 (N.ltb_ge _ _)) by lia. reflexivity.
Qed.
Lemma find_moov_prefix : forall m inner pre fuel len parsed f p,
  forallb fits pre = true -> named_kids (id4 "moov") pre = [] -> small f -> sits f p (render_all pre) ->
  parsed + blen (render_all pre) <= len -> len < 2 ^ 64 -> (List.length pre < fuel)%nat ->
  find_moov fuel m inner len parsed f p =
  find_moov (fuel - List.length pre) m inner len (parsed + blen (render_all pre)) f (p + blen (render_all pre)).
Proof.
  intros m inner pre. induction pre as [|x r IH]; intros fuel len parsed f p Fp Np Sm S L L64 Fu.
  - change (render_all []) with (@nil byte). rewrite blen_nil, !N.add_0_r. cbn [List.length]. rewrite Nat.sub_0_r. reflexivity.
  - destruct fuel as [|fuel]; [cbn in Fu; lia|]. cbn [find_moov].
    cbn [forallb] in Fp. apply andb_true_iff in Fp. destruct Fp as [Fx Fr]. rewrite blen_render_all_cons in *. pose proof (asize_pos x).
    rewrite (proj2 (N.leb_gt len parsed)) by lia. rewrite render_all_cons in S. apply sits_app in S. destruct S as [Sx Sr].
    erewrite bind_ok by (apply (head_at f p x Sm Fx Sx)).
    cbn [hd_fourcc hd_size head_of sz_len size_of]. change MOVIE with (id4 "moov") at 1. rewrite fourcc_eqb_named.
    cbn [named_kids filter] in Np. destruct (is_named (id4 "moov") x); [discriminate|].
    erewrite bind_ok by (apply (kid_skip m x f p Sm Sx)).
    erewrite bind_ok by (unfold lift; rewrite add64_ok by (unfold two64; lia); reflexivity).
    rewrite IH; auto; [|lia|cbn in Fu; lia]. cbn [List.length]. rewrite !N.add_assoc. reflexivity.
Qed.
Lemma top_steps : forall fuel m f ks r p, small f -> sits f p (render_all ks) -> named_kids (id4 "moov") ks = [] ->
  exists b, psteps (top_fbody fuel m) f p ks r (fst r, b).
Proof.
  intros fuel m f. induction ks as [|k ks IH]; intros r p Sm St N; [exists (snd r); destruct r; reflexivity|].
  cbn [named_kids filter] in N. destruct (is_named (id4 "moov") k) eqn:E; [discriminate|].
  rewrite render_all_cons in St. apply sits_app in St. destruct St as [Sk Sr].
  assert (K : exists r1, top_fbody fuel m (head_of k) r f (p + hlen k) = Ok (r1, p + asize k) /\ fst r1 = fst r).
  { unfold top_fbody. cbn [hd_fourcc hd_size head_of]. change MOVIE with (id4 "moov"). rewrite fourcc_eqb_named, E.
    destruct (fourcc_eqb (a_id k) MEDIA_DATA); [|exists r; split; [apply kid_skip_ret; assumption|reflexivity]].
    eexists. split; [erewrite bind_ok by (apply leaf_kid; assumption); reflexivity|reflexivity]. }
  destruct K as (r1 & K & E1). destruct (IH r1 (p + asize k) Sm Sr N) as (b & H). exists b, r1. split; [exact K|]. rewrite <- E1. exact H.
Qed.

(** A head announcing a length below 8 behind any number of complete atoms. *)
Theorem short_head : forall cap fuel m atoms ft s pre n id g,
  let f := render_all (ft :: pre) ++ be 4 n ++ fc_bytes id ++ g in
  forallb fits (ft :: pre) = true -> small f -> blen f < N.of_nat fuel ->
  a_id ft = id4 "ftyp" -> wf_ustr s = true -> a_content ft = enc8 s -> named_kids (id4 "moov") pre = [] ->
  n < 8 -> n <> 1 ->
  read_tag fuel m f = Err EParsing /\ write_tag cap fuel m atoms f = WResult (Err EParsing) f [].
Proof.
  intros cap fuel m atoms ft s pre n id g f F Sm Fu I W C N L1 L2.
  cbn [forallb] in F. apply andb_true_iff in F. destruct F as [Fft F].
  assert (Ef : f = render ft ++ render_all pre ++ be 4 n ++ fc_bytes id ++ g) by (unfold f; rewrite render_all_cons, <- app_assoc; reflexivity).
  assert (P : ftyp_parse m f 0 = Ok (s, asize ft)).
  { pose proof (ftyp_parses m ft s Fft I W C f 0 Sm) as X. rewrite N.add_0_l in X. apply X. exists [], (render_all pre ++ be 4 n ++ fc_bytes id ++ g). auto. }
  assert (S : sits f (asize ft) (render_all pre)) by (exists (render ft), (be 4 n ++ fc_bytes id ++ g); auto).
  assert (B : blen f = asize ft + blen (render_all pre) + 8 + blen g).
  { rewrite Ef, !blen_app, blen_be, blen_fc. unfold asize. lia. }
  assert (H : parse_head f (asize ft + blen (render_all pre)) = Err EParsing).
  { assert (X : field f (asize ft + blen (render_all pre)) 4 = n).
    { unfold field. replace (slice f _ 4) with (be 4 n); [apply unbe_be; lia|]. symmetry.
      rewrite Ef, app_assoc. apply (slice_app (render ft ++ render_all pre) (be 4 n) (fc_bytes id ++ g)); [rewrite blen_app; reflexivity|].
      rewrite blen_be. reflexivity. }
    apply head_short; rewrite ?X; auto. lia. }
  assert (Len : remaining_stream_len m f (asize ft) = Ok (blen (render_all pre) + 8 + blen g, asize ft)).
  { unfold remaining_stream_len, bind, position, seek_end, lift. rewrite sub64_ok by lia. unfold seek_start.
    unfold small in Sm. rewrite (proj2 (N.ltb_lt _ two63)) by (unfold two63; lia). unfold ret. do 2 f_equal. lia. }
  pose proof (kids_count pre) as Kc. unfold blen in Kc at 1. unfold small in Sm. split.
  - unfold read_tag, read_tag_from. erewrite bind_ok by exact P. erewrite bind_ok by exact Len. unfold bind at 1.
    rewrite find_moov_prefix with (pre := pre); auto; try lia.
    destruct (fuel - List.length pre)%nat as [|k] eqn:E; [lia|]. cbn [find_moov]. rewrite (proj2 (N.leb_gt _ _)) by lia.
    unfold bind at 1. rewrite H. reflexivity.
  - unfold write_tag, write_tag_to, prepare, scan. unfold bind at 1. unfold bind at 1. rewrite P. unfold bind at 1. rewrite Len.
    destruct (top_steps fuel m f pre (None, None) (asize ft) Sm S N) as (b & St). unfold bind at 1.
    rewrite (loop_prefix m _ pre fuel (blen (render_all pre) + 8 + blen g) 0 _ _ f (asize ft) Sm F St S); try lia.
    destruct (fuel - List.length pre)%nat as [|k] eqn:E; [lia|]. cbn [atom_loop]. unfold bind at 1, lift at 1.
    rewrite (proj2 (N.ltb_lt _ _)) by lia. unfold bind at 1. rewrite H. reflexivity.
Qed.

