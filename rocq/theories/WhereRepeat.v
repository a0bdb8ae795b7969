(** A file of 93 bytes in which one value is read any number of times. *)

From Coq Require Import List NArith ZArith Bool Lia Arith String.
From Coq Require Import ZifyBool ZifyNat ZifyN.
From Verif Require Import Base BaseLemmas Utf Types Stream Parse TagSpec FileSpec ParseLemmas FailSpec FailProofs.
Import ListNotations.
Local Open Scope list_scope.

(** An item of 26 bytes in an item list of [16 + 26 * k] bytes.  The item goes on with a value of one byte and an atom
    of 2^64 - 25 bytes: skipping the last one seeks back to the start of the item. *)
Definition repeat_file (k : N) : bytes :=
  (be 4 8 ++ fc_bytes (id4 "ftyp")) ++ (be 4 9 ++ fc_bytes (id4 "moov")) ++ (be 4 9 ++ fc_bytes (id4 "udta")) ++
  (be 4 13 ++ fc_bytes (id4 "meta") ++ be 4 0) ++
  (be 4 1 ++ fc_bytes (id4 "ilst") ++ be 8 (16 + 26 * k)) ++
  (be 4 26 ++ fc_bytes (id4 "what")) ++
  (be 4 17 ++ fc_bytes (id4 "data") ++ be 4 0 ++ be 4 0 ++ [n2b 42]) ++
  (be 4 1 ++ fc_bytes (id4 "free") ++ be 8 (2 ^ 64 - 25)).

Definition raw_file (s : bytes) : bytes :=
  Eval vm_compute in
  (be 4 8 ++ fc_bytes (id4 "ftyp")) ++ (be 4 9 ++ fc_bytes (id4 "moov")) ++ (be 4 9 ++ fc_bytes (id4 "udta")) ++
  (be 4 13 ++ fc_bytes (id4 "meta") ++ be 4 0) ++
  (be 4 1 ++ fc_bytes (id4 "ilst") ++ s) ++
  (be 4 26 ++ fc_bytes (id4 "what")) ++
  (be 4 17 ++ fc_bytes (id4 "data") ++ be 4 0 ++ be 4 0 ++ [n2b 42]) ++
  (be 4 1 ++ fc_bytes (id4 "free") ++ be 8 (2 ^ 64 - 25)).

(** A loop that is done after one child. *)
Lemma loop_once : forall {S} f fuel m limit l (body : head -> S -> R S) parsed s p h q1 s' q2,
  limit = Ok l -> parsed < l -> parse_head f p = Ok (h, q1) -> body h s f q1 = Ok (s', q2) ->
  parsed + sz_len (hd_size h) < two64 -> l <= parsed + sz_len (hd_size h) ->
  atom_loop (Datatypes.S (Datatypes.S fuel)) m limit body parsed s f p = Ok (s', q2).
Proof.
  intros S f fuel m limit l body parsed s p h q1 s' q2 -> L H B A E. cbn [atom_loop]. unfold bind at 1, lift at 1.
  destruct (N.ltb_spec parsed l); [|lia]. unfold bind at 1. rewrite H. unfold bind at 1. rewrite B, add64_ok by exact A. unfold bind at 1, lift at 1.
  unfold bind at 1, lift at 1. destruct (N.ltb_spec (parsed + sz_len (hd_size h)) l); [lia|]. reflexivity.
Qed.

Section Repeat.
  Context (b0 b1 b2 b3 b4 b5 b6 b7 : Byte.byte) (k : N)
          (K : unbe [b0; b1; b2; b3; b4; b5; b6; b7] = 16 + 26 * k) (Kl : 26 * k < 2 ^ 63).
  Let f : bytes := raw_file [b0; b1; b2; b3; b4; b5; b6; b7].

  Lemma rep_ftyp : forall m, ftyp_parse m f 0 = Ok ([], 8).
  Proof. intros []; vm_compute; reflexivity. Qed.
  Lemma rep_len : forall m, remaining_stream_len m f 8 = Ok (85, 8).
  Proof. intros []; vm_compute; reflexivity. Qed.
  Lemma rep_moov : parse_head f 8 = Ok (Head (Size false 9) MOVIE, 16).
  Proof. vm_compute; reflexivity. Qed.
  Lemma rep_udta : parse_head f 16 = Ok (Head (Size false 9) USER_DATA, 24).
  Proof. vm_compute; reflexivity. Qed.
  Lemma rep_meta : parse_head f 24 = Ok (Head (Size false 13) METADATA, 32).
  Proof. vm_compute; reflexivity. Qed.
  Lemma rep_full : parse_full_head f 32 = Ok ((0, be 3 0), 36).
  Proof. vm_compute; reflexivity. Qed.
  Lemma rep_ilst : parse_head f 36 = Ok (Head (Size true (16 + 26 * k)) ITEM_LIST, 52).
  Proof. rewrite <- K. vm_compute. reflexivity. Qed.
  Lemma rep_item : parse_head f 52 = Ok (Head (Size false 26) (id4 "what"), 60).
  Proof. vm_compute; reflexivity. Qed.
  Lemma rep_value : forall fuel m, atom_data_parse (S (S (S fuel))) m (id4 "what") 18 f 60 = Ok (AtomData (IFourcc (id4 "what")) [DReserved [n2b 42]], 52).
  Proof. intros fuel []; vm_compute; reflexivity. Qed.

  Definition copies (n : nat) : list atom_data :=
    match n with O => [] | S _ => [AtomData (IFourcc (id4 "what")) (repeat (DReserved [n2b 42]) n)] end.
  Lemma copies_add : forall n, ilst_add (copies n) (AtomData (IFourcc (id4 "what")) [DReserved [n2b 42]]) = copies (S n).
  Proof.
    intros [|n]; [reflexivity|]. unfold copies at 1. cbn [ilst_add ad_ident ad_data]. change (ident_eqb (IFourcc (id4 "what")) (IFourcc (id4 "what"))) with true.
    cbv iota. unfold copies. do 2 f_equal. change [DReserved [n2b 42]] with (repeat (DReserved [n2b 42]) 1). rewrite <- repeat_app. f_equal. lia.
  Qed.
  Lemma rep_loop : forall m inner j fuel n, (j < fuel)%nat -> N.of_nat (n + j) = k ->
    atom_loop fuel m (Ok (26 * k)) (ilst_body (S (S (S inner))) m) (26 * N.of_nat n) (copies n) f 52 = Ok (copies (n + j), 52).
  Proof.
    intros m inner. induction j as [|j IH]; intros fuel n F E; (destruct fuel as [|fuel]; [lia|]); cbn [atom_loop]; unfold bind at 1; cbn [lift].
    - assert (X : 26 * N.of_nat n <? 26 * k = false) by lia. rewrite X, Nat.add_0_r. reflexivity.
    - assert (X : 26 * N.of_nat n <? 26 * k = true) by lia. rewrite X. unfold bind at 1. rewrite rep_item. unfold bind at 1.
      unfold ilst_body at 1. cbn [hd_fourcc hd_size]. change (fourcc_eqb (id4 "what") FREE) with false. cbv iota.
      change (content_len m (Size false 26)) with (@Ok N 18). unfold bind at 1. cbn [lift]. unfold bind at 1. rewrite rep_value. cbn [ret].
      rewrite copies_add. unfold bind at 1. cbn [sz_len]. unfold lift.
      assert (A : add64 m (26 * N.of_nat n) 26 = Ok (26 * N.of_nat (S n))) by (unfold add64, two64; change (2 ^ 64) with 18446744073709551616 in *; destruct (N.ltb_spec (26 * N.of_nat n + 26) 18446744073709551616); [f_equal; lia|lia]).
      rewrite A. rewrite IH by lia. do 2 f_equal. f_equal. lia.
  Qed.
  Lemma rep_read : forall m fuel, (N.to_nat k + 3 <= fuel)%nat -> read_tag fuel m f = Ok (Tag [] (AudioInfo None None None None None) (copies (N.to_nat k))).
  Proof.
    intros m fuel F. destruct fuel as [|[|[|fuel]]]; try lia.
    assert (I : ilst_parse (S (S (S fuel))) m (Size true (16 + 26 * k)) f 52 = Ok (copies (N.to_nat k), 52)).
    { unfold ilst_parse. assert (C : content_len m (Size true (16 + 26 * k)) = Ok (26 * k)) by (unfold content_len; cbn [sz_ext sz_len]; rewrite sub64_ok by lia; f_equal; lia).
      rewrite C. apply (rep_loop m fuel (N.to_nat k) (S (S (S fuel))) 0); lia. }
    assert (M : meta_parse (S (S (S fuel))) m (Size false 13) f 32 = Ok (Some (copies (N.to_nat k)), 52)).
    { unfold meta_parse, bind at 1. rewrite rep_full. cbn [fst N.eqb negb].
      eapply (loop_once f _ m _ 5); [reflexivity|lia|exact rep_ilst| |cbn [hd_size sz_len]; unfold two64; change (2 ^ 63) with 9223372036854775808 in *; lia|cbn [hd_size sz_len]; lia].
      unfold meta_body. cbn [hd_fourcc hd_size]. change (fourcc_eqb ITEM_LIST ITEM_LIST) with true. cbv iota. unfold bind at 1. rewrite I. reflexivity. }
    assert (U : udta_parse (S (S (S fuel))) m (Size false 9) f 24 = Ok (Some (Some (copies (N.to_nat k))), 52)).
    { unfold udta_parse. eapply (loop_once f _ m _ 1); [reflexivity|lia|exact rep_meta| |reflexivity|cbn [hd_size sz_len]; lia].
      unfold udta_body. cbn [hd_fourcc hd_size]. change (fourcc_eqb METADATA METADATA) with true. cbv iota. unfold bind at 1. rewrite M. reflexivity. }
    assert (V : moov_parse (S (S (S fuel))) m (Size false 9) f 16 = Ok (Moov None [] (Some (Some (Some (copies (N.to_nat k))))), 52)).
    { unfold moov_parse. eapply (loop_once f _ m _ 1); [reflexivity|lia|exact rep_udta| |reflexivity|cbn [hd_size sz_len]; lia].
      unfold moov_body. cbn [hd_fourcc hd_size]. change (fourcc_eqb USER_DATA MOVIE_HEADER) with false. change (fourcc_eqb USER_DATA TRACK) with false.
      change (fourcc_eqb USER_DATA USER_DATA) with true. cbv iota. unfold bind at 1. rewrite U. reflexivity. }
    unfold read_tag, read_tag_from. unfold bind at 1. rewrite rep_ftyp. unfold bind at 1. rewrite rep_len. unfold bind at 1.
    cbn [find_moov]. change (85 <=? 0) with false. cbv iota. unfold bind at 1. rewrite rep_moov.
    cbn [hd_fourcc hd_size]. change (fourcc_eqb MOVIE MOVIE) with true. cbv iota. rewrite V. reflexivity.
  Qed.
End Repeat.

Theorem repeat_reads : forall k m fuel, 26 * k < 2 ^ 63 -> k + 3 <= N.of_nat fuel ->
  read_tag fuel m (repeat_file k) = Ok (Tag [] (AudioInfo None None None None None) (copies (N.to_nat k))).
Proof.
  intros k m fuel K F. assert (E : unbe (be 8 (16 + 26 * k)) = 16 + 26 * k) by (apply unbe_be; change (256 ^ N.of_nat 8) with (2 * 2 ^ 63); lia).
  change (repeat_file k) with (raw_file (be 8 (16 + 26 * k))). pose proof (be_length 8 (16 + 26 * k)) as L. revert E L. generalize (be 8 (16 + 26 * k)). intros s E L.
  do 8 (destruct s as [|? s]; [discriminate L|]). destruct s; [|discriminate L]. apply rep_read; [exact E|exact K|lia].
Qed.
