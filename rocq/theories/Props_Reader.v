(** Theorems about reading from other readers than files: C82 (see properties.jsonl). *)

From Coq Require Import List NArith ZArith Bool Lia Arith String.
From Coq Require Import ZifyBool ZifyNat ZifyN.
From Verif Require Import Base BaseLemmas Utf Types Stream Parse Find Write TagSpec FileSpec ReadSpec ReadFacts ReadProofs WriteBytes ScanProofs OffsetProofs UpdateMeans UpdateTwice FailSpec Described ErrSpec ReadIO IoProofs IoCost Reader ReaderProofs ExampleFile.
From Verif Require IoWalk IoForward Props_Err Props_Out OutSpec Props_IO Props_Any.
Import ListNotations.
Local Open Scope list_scope.

(** * C82: readers that accept other places *)

(** A file is the reader that accepts what [lseek] accepts. *)
Theorem C82_file : forall fuel m f, read_on file_places fuel m f = read_tag fuel m f.
Proof. intros fuel m f. unfold read_on, read_tag. rewrite run_file, (read_is fuel m f 0). reflexivity. Qed.
Print Assumptions C82_file.
(** Between two readers with the same bytes, of which one accepts more places, the only difference is that the other may fail
    to seek: no other error, no other tag and no panic comes from it. *)
Theorem C82_more : forall (P Q : places) fuel m f, (forall q, P q = true -> Q q = true) ->
  read_on P fuel m f = read_on Q fuel m f \/ read_on P fuel m f = Err EIoSeek.
Proof. intros P Q fuel m f H. unfold read_on. destruct (run_more P Q (io_read_tag_from fuel m) f 0 H) as [-> | ->]; [now left|now right]. Qed.
Print Assumptions C82_more.

(** Every reader that accepts the places up to the end of the movie reads a well-formed file. *)
Theorem C82_well_formed : forall (P : places) f g t fuel m ft pre mv post,
  good_sizes f -> describes f t -> blen (render_all f ++ g) < 2 ^ 62 -> blen (render_all f) < N.of_nat fuel ->
  f = ft :: pre ++ mv :: post -> a_id mv = id4 "moov" -> (forall q, q <= blen (render_all (ft :: pre ++ [mv])) -> P q = true) ->
  read_on P fuel m (render_all f ++ g) = Ok t.
Proof.
  intros P f g t fuel m ft pre mv post G D L Fu E J HP. pose proof (IoWalk.described_forward f g t fuel m G D L Fu) as A.
  destruct (read_described_end f g t fuel m G D L Fu) as (ft' & pre' & mv' & post' & E' & J' & N' & R). rewrite <- (read_is fuel m _ 0) in R.
  assert (Eq : ft :: pre ++ [mv] = ft' :: pre' ++ [mv']).
  { destruct D as (ft1 & pre1 & mv1 & post1 & E1 & _ & _ & _ & J1 & N1 & _). apply named_two in N1. destruct N1 as [N1 N2].
    assert (U : forall a p v o, f = a :: p ++ v :: o -> a_id v = id4 "moov" -> a = ft1 /\ p = pre1 /\ v = mv1).
    { intros a p v o Ea Jv. rewrite Ea in E1. injection E1 as <- E1. apply app_split in E1. destruct E1 as [(<- & <- & _)|[(z & -> & ->)|(z & -> & ->)]]; [auto|exfalso|exfalso].
      - rewrite named_app, named_this in N1 by exact Jv. apply app_eq_nil in N1. destruct N1 as [_ N1]. discriminate N1.
      - rewrite named_app, named_this in N2 by exact Jv. apply app_eq_nil in N2. destruct N2 as [_ N2]. discriminate N2. }
    destruct (U _ _ _ _ E J) as (-> & -> & ->). destruct (U _ _ _ _ E' J') as (-> & -> & ->). reflexivity. }
  rewrite Eq in HP. unfold read_on. rewrite (read_on_ahead P fuel m _ t _ A R HP). reflexivity.
Qed.
Print Assumptions C82_well_formed.
(** With overflow checks, any file without a huge box that is read from a file is read from every reader that accepts the
    places up to where reading ends. *)
Theorem C82_as_far : forall (P : places) f t q fuel, blen f < 2 ^ 62 -> no_huge_box f ->
  read_tag_from fuel Checked f 0 = Ok (t, q) -> (forall s, s <= q -> P s = true) -> read_on P fuel Checked f = Ok t.
Proof.
  intros P f t q fuel L H R HP. rewrite <- (read_is fuel Checked f 0) in R. pose proof (IoForward.w_read f L H fuel 0 ltac:(reflexivity)) as W.
  unfold read_on. rewrite (read_on_ahead P fuel Checked f t q); [reflexivity| |exact R|exact HP]. exact (proj1 W).
Qed.
Print Assumptions C82_as_far.
(** Bytes in memory, or any other reader that accepts at least what a file accepts, give what the file gives, if no box is of
    2^62 bytes or more: whatever that is, in both profiles. *)
Theorem C82_small_boxes : forall (P : places) f fuel m, blen f < 2 ^ 62 -> (forall q id head size, box_at f q id head size -> size < 2 ^ 62) ->
  (forall q, q < 2 ^ 63 -> P q = true) -> read_on P fuel m f = read_tag fuel m f.
Proof.
  intros P f fuel m L Sz HP. rewrite <- C82_file. destruct (C82_more file_places P fuel m f) as [E|E].
  - intros q H. apply HP. unfold file_places in H. assert (W : two63 = 2 ^ 63) by reflexivity. lia.
  - now rewrite E.
  - exfalso. rewrite C82_file, <- Props_Err.C63_described in E. pose proof (Props_Out.out_sound m fuel f L) as O. unfold Props_Out.outcome_of in O.
    destruct (d_read fuel m f) as [a|e t|p|]; cbn [undress] in E; try discriminate. injection E as ->. destruct O as (ns & s & St & _). exact (near_stops m f L Sz ns _ St s eq_refl).
Qed.
Print Assumptions C82_small_boxes.

(** Otherwise the same bytes can be read from memory and not from a file, *)
Definition far_bytes : bytes := be 4 12 ++ fc_bytes (id4 "ftyp") ++ map n2b [77; 52; 65; 32] ++
  be 4 1 ++ fc_bytes (id4 "moov") ++ be 8 (2 ^ 63 - 4) ++ be 4 1 ++ fc_bytes (id4 "free") ++ be 8 (2 ^ 63 - 20).
Theorem C82_memory_refuted : no_huge_box far_bytes /\ forall m,
  read_on memory_places 3 m far_bytes = Ok (Tag [77; 52; 65; 32] (AudioInfo None None None None None) []) /\ read_tag 3 m far_bytes = Err EIoSeek.
Proof. split; [apply Props_Any.no_hugeb_ok; vm_compute; reflexivity|]. intros []; split; vm_compute; reflexivity. Qed.
Print Assumptions C82_memory_refuted.
(** and from a file, but not from a reader that refuses places behind its end. *)
Definition cut_bytes : bytes := be 4 12 ++ fc_bytes (id4 "ftyp") ++ map n2b [77; 52; 65; 32] ++ be 4 17 ++ fc_bytes (id4 "moov") ++ be 4 9 ++ fc_bytes (id4 "free").
Theorem C82_end_refuted : forall m,
  read_on (fun q => q <=? blen cut_bytes) 3 m cut_bytes = Err EIoSeek /\ read_tag 3 m cut_bytes = Ok (Tag [77; 52; 65; 32] (AudioInfo None None None None None) []).
Proof. intros []; split; vm_compute; reflexivity. Qed.
Print Assumptions C82_end_refuted.

(** * Examples *)

Example C82_example : exists pre mv post, let f := ex_ftyp :: pre ++ mv :: post in let P := fun q => q <=? blen (render_all f) in
  good_sizes f /\ describes f ex_tag /\ (blen (render_all f) <? N.of_nat 1000) = true /\ a_id mv = id4 "moov" /\
  (forall q, q <= blen (render_all (ex_ftyp :: pre ++ [mv])) -> P q = true) /\ P (2 ^ 62) = false /\ read_on P 1000 Checked (render_all f) = Ok ex_tag.
Proof.
  exists [Atom false (id4 "free") (zeros 3) []], ex_moov, [ex_mdat; Atom false (id4 "junk") (raw [1]) []]. cbv zeta.
  split; [exact ex_sizes|]. split; [exact ex_describes|]. split; [vm_compute; reflexivity|]. split; [reflexivity|]. split; [|split; vm_compute; reflexivity].
  intros q H. apply N.leb_le. eapply N.le_trans; [exact H|]. vm_compute. discriminate.
Qed.
(** A file with small boxes whose movie is cut in a value: memory and file agree on the error. *)
Example C82_small_example : let f := be 4 12 ++ fc_bytes (id4 "ftyp") ++ map n2b [77; 52; 65; 32] ++ be 4 100 ++ fc_bytes (id4 "moov") ++ be 4 90 ++ fc_bytes (id4 "udta") in
  blen f < 2 ^ 62 /\ (forall q id head size, box_at f q id head size -> size < 2 ^ 62) /\ (forall q, q < 2 ^ 63 -> memory_places q = true) /\ read_on memory_places 5 Checked f = Err EIoEof.
Proof.
  cbv zeta. split; [vm_compute; reflexivity|]. split.
  - intros q id head size (A & _ & B). destruct B as [(B & -> & ->)|(_ & _ & -> & ->)].
    + exfalso. set (f := be 4 12 ++ _) in *. assert (X : forallb (fun k => negb (field f (N.of_nat k) 4 =? 1)) (seq 0 28) = true) by (vm_compute; reflexivity).
      rewrite forallb_forall in X. specialize (X (N.to_nat q)). rewrite N2Nat.id, B in X. discriminate X. apply in_seq. assert (Z : blen f = 28) by (vm_compute; reflexivity). lia.
    + eapply N.lt_trans; [apply field_lt; lia|]. reflexivity.
  - split; [|vm_compute; reflexivity]. intros q H. unfold memory_places. assert (W : two64 = 2 ^ 64) by reflexivity. assert (2 ^ 63 < 2 ^ 64) by reflexivity. lia.
Qed.
