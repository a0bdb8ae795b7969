(** Theorems about what writing costs: C81 (see properties.jsonl). *)

From Coq Require Import List NArith ZArith Bool Lia Arith String.
From Coq Require Import ZifyBool ZifyNat ZifyN.
From Verif Require Import Base BaseLemmas Types Utf Stream Parse Find Write TagSpec FileSpec ParseLemmas ReadProofs ReadSpec ReadFacts ReadBad ReadTerm WriteBytes WriteState ScanProofs AdjustProofs FramesProofs WriteProofs WriteMain UpdateMeans UpdateTwice OffsetProofs.
From Verif Require EditSpec ExampleFile WriteExample FailSpec PanicSpec OutSpec LayoutSpec WOutSpec CostSpec CostProofs WOutUnique Props_Write Props_Write2 Props_Power.
Import ListNotations.
Local Open Scope list_scope.

(** Everything behind the movie of a well-formed file is loaded. *)
Lemma last_loaded : forall fuel m items f ft pre mv post, laid_out f ft pre mv post -> good_sizes f -> good_moov mv ->
  exact_items items -> good_sizes (update_file items f) -> blen (render_all f) < N.of_nat fuel ->
  exists p q x, prepare fuel m items (render_all f) 0 = Ok (p, q) /\ pl_moved p = x ++ render_all post.
Proof.
  intros fuel m items f ft pre mv post (-> & I & (s & Ws & C) & J & N & P) G GM Ex G' Fu.
  pose proof (update_at items ft pre mv post I J N) as Eu. rewrite Eu in *.
  rewrite named_app in N. apply app_eq_nil in N. destruct N as [N1 N2].
  assert (N1' : Forall plain_moov (named_kids (id4 "moov") pre)) by (rewrite N1; constructor).
  destruct (scan_finds_last fuel m ft s pre mv post G Fu I Ws C J N1' N2 P) as (q & Sc). unfold update_last in *.
  set (d := match named_kids (id4 "mdat") post with [] => 0%Z | _ => growth items mv end) in *.
  set (A := render_all (ft :: pre)) in *. set (T := render_all post).
  assert (Ef : render_all (ft :: pre ++ mv :: post) = A ++ render mv ++ T).
  { change (ft :: pre ++ mv :: post) with ((ft :: pre) ++ mv :: post). rewrite render_all_app, render_all_cons. reflexivity. }
  assert (Ef' : render_all ((ft :: pre) ++ update_moov items d mv :: post) = A ++ render (update_moov items d mv) ++ T).
  { rewrite render_all_app, render_all_cons. reflexivity. }
  destruct G as [F1 Sm]. destruct G' as [F1' Sm'].
  rewrite Ef in *. rewrite Ef' in *.
  assert (Fm : fits (update_moov items d mv) = true).
  { rewrite forallb_forall in F1'. apply F1'. apply in_or_app. right. left. reflexivity. }
  assert (Gr : (growth items mv = Z.of_N (asize (update_moov items d mv)) - Z.of_N (asize mv))%Z).
  { unfold growth. rewrite (update_moov_size items d 0 mv GM). reflexivity. }
  assert (Gb : (- 2 ^ 62 < growth items mv < 2 ^ 62)%Z).
  { rewrite Gr. rewrite !blen_app in Sm, Sm'. fold (asize mv) in Sm. fold (asize (update_moov items d mv)) in Sm'. lia. }
  assert (Db : (- 2 ^ 62 < d < 2 ^ 62)%Z) by (unfold d; destruct (named_kids (id4 "mdat") post); [lia|exact Gb]).
  assert (Sp : blen A + asize mv < 2 ^ 62) by (rewrite !blen_app in Sm; fold (asize mv) in Sm; lia).
  destruct (moov_site m items Ex (blen A) d mv GM Sp Fm Db)
    as (fs & fsd & old & nw & new & r & tail & R1 & R2 & R3 & R4 & R5 & R6 & R7 & R8 & R9 & R10 & R11).
  assert (L0 : blen A + blen (prefix fs (blen old)) + blen old <= blen (A ++ render mv ++ T)).
  { rewrite R1. unfold framed. rewrite !blen_app. lia. }
  assert (Ln : new_atoms_len new < 2 ^ 62).
  { rewrite R9. rewrite R4, !blen_app in Sm'. lia. }
  destruct (prepare_ok fuel m items _ _ _ q _ _ new r Sc R10 L0 Sm Ln) as (q' & Pr).
  assert (Mv : skipn (N.to_nat (blen A + blen (prefix fs (blen old)) + blen old)) (A ++ render mv ++ T) = suffix fs ++ T).
  { replace (A ++ render mv ++ T) with ((A ++ prefix fs (blen old) ++ old) ++ suffix fs ++ T).
    - apply skipn_app_at. rewrite !blen_app. lia.
    - rewrite R1. unfold framed. rewrite <- !app_assoc. reflexivity. }
  rewrite Mv in Pr. eexists _, q', (suffix fs). split; [exact Pr|reflexivity].
Qed.

Import FailSpec PanicSpec OutSpec LayoutSpec WOutSpec CostSpec.

(** * C81: the bytes handed to the device and the calls *)

(** Before the plan is made nothing is handed over at all; with the plan, the bytes and the calls are limited, and the bytes
    of a write that succeeds are known. *)
Theorem C81_bytes : forall cap fuel m items f ns mo s e d, blen f < 2 ^ 62 -> 8 < cap ->
  finds m f ns -> movie ns = Some mo -> ready m f items mo s e d ->
  let w := write_tag cap fuel m items f in
  handed (wr_ops w) <= cost m f items ns mo e /\ (wr_res w = Ok tt -> handed (wr_ops w) = cost m f items ns mo e).
Proof.
  intros cap fuel m items f ns mo s e d L C Fi M R w. destruct (CostProofs.calls_cost cap fuel m items f L C) as [[O N]|(ns' & mo' & s' & e' & d' & Fi' & M' & R' & A & B & _)].
  - fold w in O, N. rewrite O. split; [unfold handed; cbn [map fold_right]; lia|contradiction].
  - pose proof (WOutUnique.finds_one m f _ _ Fi Fi') as <-. rewrite M in M'. injection M' as <-. destruct (WOutUnique.ready_one m f items _ _ _ _ _ _ _ R R') as (<- & <- & <-). split; assumption.
Qed.
Print Assumptions C81_bytes.
(** The writer goes to another place twice per table and per surrounding box and five times more; apart from that, every two
    calls hand over a full buffer. *)
Theorem C81_calls : forall cap fuel m items f ns mo s e d, blen f < 2 ^ 62 -> 8 < cap ->
  finds m f ns -> movie ns = Some mo -> ready m f items mo s e d ->
  let w := write_tag cap fuel m items f in
  N.of_nat (List.length (wr_ops w)) <= 2 * handed (wr_ops w) / cap + moves ns mo /\ N.of_nat (List.length (wr_ops w)) <= 2 * cost m f items ns mo e / cap + moves ns mo.
Proof.
  intros cap fuel m items f ns mo s e d L C Fi M R w.
  assert (Q : forall a b k, a <= b -> cap * k <= 2 * a + cap * moves ns mo -> k <= 2 * b / cap + moves ns mo).
  { intros a b k Hab Hk. rewrite <- N.div_add by lia. apply N.div_le_lower_bound; [lia|]. nia. }
  destruct (CostProofs.calls_cost cap fuel m items f L C) as [[O _]|(ns' & mo' & s' & e' & d' & Fi' & M' & R' & A & _ & B & _)].
  - fold w in O. rewrite O. cbn [List.length]. split; apply N.le_0_l.
  - pose proof (WOutUnique.finds_one m f _ _ Fi Fi') as <-. rewrite M in M'. injection M' as <-. destruct (WOutUnique.ready_one m f items _ _ _ _ _ _ _ R R') as (<- & <- & <-).
    fold w in A, B. split; [exact (Q _ _ _ (N.le_refl _) B)|exact (Q _ _ _ A B)].
Qed.
Print Assumptions C81_calls.
(** Nothing is handed over, and no call is made, unless the boxes are found and the plan is made. *)
Theorem C81_none : forall cap fuel m items f, blen f < 2 ^ 62 -> 8 < cap ->
  (forall ns mo s e d, finds m f ns -> movie ns = Some mo -> ~ ready m f items mo s e d) -> wr_ops (write_tag cap fuel m items f) = [].
Proof.
  intros cap fuel m items f L C H. destruct (CostProofs.calls_cost cap fuel m items f L C) as [[O _]|(ns' & mo' & s' & e' & d' & Fi' & M' & R' & _)]; [exact O|].
  destruct (H _ _ _ _ _ Fi' M' R').
Qed.
Print Assumptions C81_none.

(** Everything behind the place of the metadata is handed over again, and everything behind the movie of a well-formed
    file: the media data, if it is there. *)
Theorem C81_rest : forall cap fuel m items f ns mo s e d, blen f < 2 ^ 62 -> 8 < cap ->
  finds m f ns -> movie ns = Some mo -> ready m f items mo s e d ->
  wr_res (write_tag cap fuel m items f) = Ok tt -> blen f - e <= handed (wr_ops (write_tag cap fuel m items f)).
Proof.
  intros cap fuel m items f ns mo s e d L C Fi M R O. destruct (C81_bytes cap fuel m items f ns mo s e d L C Fi M R) as [_ E]. rewrite (E O). unfold cost. lia.
Qed.
Print Assumptions C81_rest.
Theorem C81_behind : forall cap fuel m items ft pre mv post, 8 < cap ->
  let f := ft :: pre ++ mv :: post in
  updatable f items -> a_id mv = id4 "moov" -> blen (render_all f) < N.of_nat fuel ->
  let w := write_tag cap fuel m items (render_all f) in
  wr_res w = Ok tt /\ blen (render_all post) <= handed (wr_ops w).
Proof.
  intros cap fuel m items ft pre mv post C f U J Fu w. destruct (U) as ((G & t & D) & E & S & G').
  destruct (Props_Write.write_ok cap fuel m f items U Fu) as (ops & W & _). fold w in W. split; [rewrite W; reflexivity|].
  destruct (described_laid_out f t D) as (ft' & pre' & mv' & post' & LO & GM).
  assert (Ep : post' = post).
  { destruct LO as (E' & I & _ & J' & N & _). unfold f in E'. injection E' as <- E'. apply app_split in E'. apply named_two in N. destruct N as [N1 N2].
    destruct E' as [(_ & _ & E')|[(z & -> & ->)|(z & -> & ->)]]; [now symmetry| |]; exfalso.
    - rewrite named_app, named_this in N1 by exact J. apply app_eq_nil in N1. destruct N1 as [_ N1]. discriminate N1.
    - rewrite named_app, named_this in N2 by exact J. apply app_eq_nil in N2. destruct N2 as [_ N2]. discriminate N2. }
  subst post'. destruct (last_loaded fuel m items f ft' pre' mv' post LO G (GM items U) (storable_exact _ S) G' Fu) as (p & q & x & Pr & Pm).
  destruct (CostProofs.calls_cost cap fuel m items (render_all f)) as [[_ N]|(ns & mo & s & e & d & Fi & M & R & _ & B & _ & p' & q' & Pr' & Pm')]; [apply G|exact C| |].
  - fold w in N. rewrite W in N. now elim N.
  - rewrite Pr in Pr'. injection Pr' as <- <-. fold w in B. rewrite B by (rewrite W; reflexivity). unfold cost.
    assert (X : blen (skipn (N.to_nat e) (render_all f)) = blen x + blen (render_all post)) by (rewrite <- Pm', Pm, blen_app; reflexivity).
    assert (Y : forall (l : bytes) n, blen (skipn (N.to_nat n) l) = blen l - n) by (intros l n; unfold blen; rewrite skipn_length; lia).
    rewrite Y in X. lia.
Qed.
Print Assumptions C81_behind.

(** "A write that changes nothing is cheap" is false: writing the same tag again leaves the file as it is and hands over all
    media data behind the movie. *)
Theorem C81_nothing_new_refuted : forall cap fuel m ft pre mv post a, 8 < cap ->
  let f := ft :: pre ++ mv :: post in
  updatable f a -> EditSpec.in_reach a f -> a_id mv = id4 "moov" ->
  blen (render_all f) < N.of_nat fuel -> blen (render_all (update_file a f)) < N.of_nat fuel ->
  let w1 := write_tag cap fuel m a (render_all f) in
  let w2 := write_tag cap fuel m a (wr_file w1) in
  wr_res w2 = Ok tt /\ wr_file w2 = wr_file w1 /\ blen (render_all post) <= handed (wr_ops w2).
Proof.
  intros cap fuel m ft pre mv post a C f U R J Fu Fu' w1 w2. destruct (Props_Write2.C07_idempotent cap fuel m f a U R Fu Fu') as (_ & Ok2 & Same).
  split; [exact Ok2|]. split; [exact Same|]. unfold w2, w1. destruct (Props_Write.write_ok cap fuel m f a U Fu) as (ops & W & _). rewrite W. cbn [wr_file].
  pose proof (Props_Write2.written_updatable f a a U U R (conj eq_refl eq_refl)) as U2.
  assert (Eu : exists mv2, update_file a f = ft :: pre ++ mv2 :: post /\ a_id mv2 = id4 "moov").
  { destruct (U) as ((_ & t & (ft' & pre' & mv' & post' & E' & I & _ & _ & J' & N & _)) & _). unfold f in *. injection E' as <- E'. pose proof N as N0. apply app_split in E'. apply named_two in N. destruct N as [N1 N2].
    destruct E' as [(<- & <- & <-)|[(z & -> & ->)|(z & -> & ->)]]; [|exfalso|exfalso].
    - pose proof (update_at a ft pre mv post I J N0) as Eq. eexists. split; [exact Eq|]. rewrite update_moov_id. exact J.
    - rewrite named_app, named_this in N1 by exact J. apply app_eq_nil in N1. destruct N1 as [_ N1]. discriminate N1.
    - rewrite named_app, named_this in N2 by exact J. apply app_eq_nil in N2. destruct N2 as [_ N2]. discriminate N2. }
  destruct Eu as (mv2 & Eu & J2). rewrite Eu in *. apply (C81_behind cap fuel m a ft pre mv2 post C U2 J2 Fu').
Qed.
Print Assumptions C81_nothing_new_refuted.

(** * Examples *)

(** A file with media data behind the movie, to which the same tag is written twice. *)
Example C81_nothing_new_example : exists pre mv post,
  let f := ExampleFile.ex_ftyp :: pre ++ mv :: post in let a := Props_Write.ex_new_items in let w1 := write_tag 64 1000 Checked a (render_all f) in
  a_id mv = id4 "moov" /\ blen (render_all post) = 25 /\ updatable f a /\ EditSpec.in_reach a f /\ (blen (render_all f) <? N.of_nat 1000) = true /\ (blen (render_all (update_file a f)) <? N.of_nat 1000) = true.
Proof.
  exists [Atom false (id4 "free") (zeros 3) []], ExampleFile.ex_moov, [ExampleFile.ex_mdat; Atom false (id4 "junk") (ExampleFile.raw [1]) []]. cbv zeta.
  split; [reflexivity|]. split; [vm_compute; reflexivity|]. split; [exact Props_Write.ex_updatable|]. split; [exact Props_Write2.ex_in_reach|]. split; vm_compute; reflexivity.
Qed.
(** One item is replaced by two of the same length: 4 bytes of a table, 3 sizes of 4 bytes, the list of 58 bytes, and the 10
    bytes behind it, in 7 calls. *)
Example C81_example : let f := Props_Power.small Props_Power.one_item in let items := Props_Power.two_items in let mo := Props_Power.small_movie in let w := write_tag 8192 30 Checked items f in
  exists s e d, blen f < 2 ^ 62 /\ finds Checked f Props_Power.small_nodes /\ movie Props_Power.small_nodes = Some mo /\ ready Checked f items mo s e d /\
  wr_res w = Ok tt /\ handed (wr_ops w) = 84 /\ blen f - e = 10 /\ moves Props_Power.small_nodes mo = 13 /\ List.length (wr_ops w) = 7%nat.
Proof.
  cbv zeta. exists 135, 193, 0%Z. split; [vm_compute; reflexivity|]. split; [exact Props_Power.small_finds|]. split; [vm_compute; reflexivity|].
  split; [|split; [vm_compute; reflexivity|split; [vm_compute; reflexivity|split; [vm_compute; reflexivity|split; vm_compute; reflexivity]]]].
  split; [|vm_compute; discriminate]. split; [left; split; vm_compute; reflexivity|]. split; [vm_compute; reflexivity|].
  exists (-58)%Z. split; left; repeat split; vm_compute; (reflexivity || discriminate).
Qed.
