(** A file of 48 bytes that keeps the reader busy for more than 2^63 operations. *)

From Coq Require Import List NArith ZArith Bool Lia Arith String.
From Coq Require Import ZifyBool ZifyNat ZifyN.
From Verif Require Import Base BaseLemmas Utf Types Stream Parse Find Write TagSpec FileSpec ParseLemmas.
From Verif Require Import Fault ReadIO IoProofs IoCost.
Import ListNotations.
Local Open Scope list_scope.

(** A movie atom of 2^64 - 1 bytes, in it user data of 9 bytes, in it an atom of 2^64 - 8 bytes: skipping the
    last one seeks back to the start of the user data. *)
Definition loop_file : bytes :=
  (be 4 8 ++ fc_bytes (id4 "ftyp")) ++
  (be 4 1 ++ fc_bytes (id4 "moov") ++ be 8 (2 ^ 64 - 1)) ++
  (be 4 9 ++ fc_bytes (id4 "udta")) ++
  (be 4 1 ++ fc_bytes (id4 "free") ++ be 8 (2 ^ 64 - 8)).

Lemma loop_head : run io_parse_head loop_file 24 = Ok (Head (Size false 9) (id4 "udta"), 32) /\ work io_parse_head loop_file 24 = 10.
Proof. split; vm_compute; reflexivity. Qed.
Lemma loop_udta : forall fuel m r, run (io_moov_body (S (S fuel)) m (Head (Size false 9) (id4 "udta")) r) loop_file 32
  = Ok (Moov (mv_mvhd r) (mv_trak r) (Some None), 24).
Proof. intros fuel [] r; vm_compute; reflexivity. Qed.

Definition loop_limit : N := 2 ^ 64 - 17.
Definition calls {A} (x : IO A) (f : bytes) (p : N) : N := blen (asked x f p).
Lemma calls_bind : forall {A B} (x : IO A) (k : A -> IO B) f p,
  calls (io_bind x k) f p = calls x f p + match run x f p with Ok (a, q) => calls (k a) f q | _ => 0 end.
Proof.
  intros. unfold calls. rewrite asked_bind, blen_app. destruct (run x f p) as [[]| | |]; reflexivity.
Qed.
Lemma loop_calls : forall fuel m r, calls (io_moov_body (S (S fuel)) m (Head (Size false 9) (id4 "udta")) r) loop_file 32 = 4.
Proof. intros fuel [] r; vm_compute; reflexivity. Qed.
Lemma head_calls : calls io_parse_head loop_file 24 = 2.
Proof. vm_compute; reflexivity. Qed.

Lemma loop_runs : forall m inner k fuel parsed r,
  (k < fuel)%nat -> parsed <= loop_limit + 8 -> loop_limit <= parsed + 9 * N.of_nat k ->
  (exists u, run (io_atom_loop fuel m (Ok loop_limit) (io_moov_body (S (S inner)) m) parsed r) loop_file 24
             = Ok (Moov (mv_mvhd r) (mv_trak r) u, 24) /\ (u = mv_udta r \/ u = Some None)) /\
  6 * (loop_limit - parsed) <= 9 * calls (io_atom_loop fuel m (Ok loop_limit) (io_moov_body (S (S inner)) m) parsed r) loop_file 24.
Proof.
  intros m inner. destruct loop_head as [H1 _].
  induction k as [|k IH]; intros fuel parsed r F L1 L2; (destruct fuel as [|fuel]; [lia|]); cbn [io_atom_loop].
  - assert (E : parsed <? loop_limit = false) by lia. rewrite run_bind, calls_bind. cbn [io_lift run]. rewrite E.
    split; [exists (mv_udta r); split; [destruct r; reflexivity|left; reflexivity]|lia].
  - rewrite run_bind, calls_bind. cbn [io_lift run]. destruct (N.ltb_spec parsed loop_limit) as [E|E]; [|split; [exists (mv_udta r); split; [destruct r; reflexivity|left; reflexivity]|lia]].
    rewrite run_bind, calls_bind, H1, head_calls, run_bind, calls_bind, loop_udta, loop_calls.
    assert (A : add64 m parsed 9 = Ok (parsed + 9)).
    { unfold add64. destruct (N.ltb_spec (parsed + 9) two64); [reflexivity|]. unfold loop_limit, two64 in *. lia. }
    cbn [hd_size sz_len]. rewrite run_bind, calls_bind. cbn [io_lift run]. rewrite A.
    destruct (IH fuel (parsed + 9) (Moov (mv_mvhd r) (mv_trak r) (Some None))) as [R C]; [lia|lia|lia|].
    split; [|lia]. destruct R as (u & R & U). exists u. split; [exact R|]. right. cbn in U. destruct U; assumption.
Qed.

Lemma loop_start : forall m, run (io_ftyp_parse m) loop_file 0 = Ok ([], 8) /\ run (io_remaining_stream_len m) loop_file 8 = Ok (40, 8) /\
  run io_parse_head loop_file 8 = Ok (Head (Size true (2 ^ 64 - 1)) (id4 "moov"), 24) /\ content_len m (Size true (2 ^ 64 - 1)) = Ok loop_limit.
Proof. intros []; repeat split; vm_compute; reflexivity. Qed.

Theorem loop_reads : forall m fuel, 2 ^ 61 < N.of_nat fuel ->
  read_tag fuel m loop_file = Ok (Tag [] (AudioInfo None None None None None) []) /\
  2 ^ 63 <= calls (io_read_tag_from fuel m) loop_file 0.
Proof.
  intros m fuel F. destruct (loop_start m) as (S1 & S2 & S3 & S4).
  destruct fuel as [|[|fuel]]; [lia|lia|].
  destruct (loop_runs m fuel (N.to_nat (2 ^ 61)) (S (S fuel)) 0 (Moov None [] None)) as [(u & R & U) C];
    [lia|unfold loop_limit; lia|unfold loop_limit; lia|].
  unfold read_tag. rewrite <- (read_is (S (S fuel)) m loop_file 0). unfold io_read_tag_from.
  remember (S (S fuel)) as big eqn:Eb.
  assert (M : run (io_find_moov big m big 40 0) loop_file 8 = Ok (Moov None [] u, 24) /\
              6 * loop_limit <= 9 * calls (io_find_moov big m big 40 0) loop_file 8).
  { rewrite Eb at 1 3. cbn [io_find_moov]. change (40 <=? 0) with false. cbv iota. rewrite run_bind, calls_bind, S3. cbn [hd_fourcc hd_size].
    change (fourcc_eqb (id4 "moov") MOVIE) with true. cbv iota. unfold io_moov_parse. rewrite S4, <- ?Eb. split; [exact R|lia]. }
  destruct M as [M1 M2].
  rewrite !run_bind, S1, run_bind, S2, run_bind, M1, calls_bind, S1, calls_bind, S2, calls_bind. cbn [io_ret run].
  split; [|unfold loop_limit in M2; lia]. do 2 f_equal. unfold moov_atoms. cbn [mv_udta] in *. destruct U as [-> | ->]; reflexivity.
Qed.
