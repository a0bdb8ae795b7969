(** Theorems about writing to any bytes: termination and panics, and files with two movie atoms:
    C42 - C44 (see properties.jsonl). *)

From Coq Require Import List NArith ZArith Bool Lia Arith String.
From Coq Require Import ZifyBool ZifyNat ZifyN.
From Verif Require Import Base BaseLemmas Utf UtfLemmas Types Stream Parse Find Write TagSpec FileSpec ParseLemmas ReadProofs
  ExampleFile ReadMore ReadSpec ReadTerm ScanProofs WriteBytes WriteMain UpdateMeans UpdateTwice WriteExample WriteTerm WritePanic Props_Write.
Import ListNotations.
Local Open Scope list_scope.

(** * C42: writing always terminates *)

(** Writing these items has an outcome: some number of steps of the evaluator is enough, and with more
    it does the same. *)
Definition write_returns (m : mode) (items : list atom_data) (f : bytes) (pos : N) : Prop :=
  exists n, forall cap fuel, (n <= fuel)%nat ->
    wr_res (write_tag_to cap n m items f pos) <> Fuel /\ write_tag_to cap fuel m items f pos = write_tag_to cap n m items f pos.
(** No number of steps is enough. *)
Definition write_hangs (m : mode) (items : list atom_data) (f : bytes) : Prop :=
  forall cap fuel, wr_res (write_tag cap fuel m items f) = Fuel.

(** With overflow checks it does, whatever the file contains and wherever the cursor is. *)
Theorem C42_debug : forall items f pos, write_returns Checked items f pos.
Proof.
  intros items f pos. pose (n := N.to_nat (2 ^ 63 + 1)). assert (B : forall k, (n <= k)%nat -> big k).
  { intros k H. unfold big. subst n. assert (2 ^ 64 = 2 * 2 ^ 63) as -> by reflexivity. lia. }
  clearbody n. exists n. intros cap fuel L. pose proof (write_terminates cap n items f pos (B n (le_n n))) as T.
  split; [exact T|apply write_fuel; assumption].
Qed.
Print Assumptions C42_debug.
(** Without checks it does not: an atom with a 64-bit length of zero is visited forever. *)
Theorem C42_release_refuted : forall ft s id g items,
  fits ft = true -> a_id ft = id4 "ftyp" -> wf_ustr s = true -> a_content ft = enc8 s -> id <> id4 "moov" ->
  let f := render ft ++ (be 4 1 ++ fc_bytes id ++ be 8 0) ++ g in
  blen f < 2 ^ 62 -> write_hangs Wrapping items f.
Proof. intros ft s id g items H1 H2 H3 H4 H5 f H6 cap fuel. unfold f. rewrite (write_spins ft s id g) by assumption. reflexivity. Qed.
Print Assumptions C42_release_refuted.
(** Without checks it does on files none of whose 64-bit length fields is zero or at least 2^63. *)
Theorem C42_release_partial : forall m items f pos, blen f < 2 ^ 62 -> tame f -> pos < 2 ^ 63 -> write_returns m items f pos.
Proof.
  intros m items f pos Sm T Lp. pose (n := S (N.to_nat (blen f))). assert (L : blen f < N.of_nat n) by lia. clearbody n.
  exists n. intros cap fuel K. pose proof (write_tame f m Sm T n L cap items pos Lp) as H. split; [exact H|apply write_fuel; assumption].
Qed.
Print Assumptions C42_release_partial.

Definition tameb (f : bytes) : bool :=
  forallb (fun k => let p := N.of_nat k in negb (field f p 4 =? 1) || (blen f <? p + 16) || ((0 <? field f (p + 8) 8) && (field f (p + 8) 8 <? 2 ^ 63))) (seq 0 (List.length f)).
Lemma tameb_ok : forall f, tameb f = true -> tame f.
Proof.
  intros f H p E L. unfold tameb in H. rewrite forallb_forall in H. specialize (H (N.to_nat p)). rewrite N2Nat.id in H.
  specialize (H ltac:(apply in_seq; unfold blen in L; lia)). cbv zeta in H. rewrite E in H. cbn in H. lia.
Qed.
(** The example file has atoms with 64-bit lengths; cut off somewhere it is still tame. *)
Example C42_example :
  tame (render_all ex_file) /\ tame (firstn 300 (render_all ex_file)) /\
  wr_res (write_tag 8192 1000 Wrapping ex_new_items (firstn 300 (render_all ex_file))) = Err EIoEof /\
  wr_res (write_tag 8192 300 Wrapping ex_new_items (render ex_ftyp ++ (be 4 1 ++ fc_bytes (id4 "mdat") ++ be 8 0) ++ raw [1])) = Fuel /\
  wr_res (write_tag 8192 300 Checked ex_new_items (render ex_ftyp ++ (be 4 1 ++ fc_bytes (id4 "mdat") ++ be 8 0) ++ raw [1])) = Panic POverflow.
Proof. split; [apply tameb_ok; vm_compute; reflexivity|]. split; [apply tameb_ok; vm_compute; reflexivity|]. repeat split; vm_compute; reflexivity. Qed.

(** * C43: writing never panics *)

(** False: a file that ends within its item list makes it panic, in both profiles; the file stays as it
    is. *)
Definition cut_list : bytes :=
  let f := render_all [ex_ftyp; Atom false (id4 "moov") [] [ex_mvhd; ex_udta [ex_meta [new_hdlr; ex_ilst]]]] in
  firstn (List.length f - 3) f.
(** The list is announced at 185 with 227 bytes; the file has 409. *)
Definition cut_moov : moov_bounds :=
  MoovBounds (Bounds 16 (Size false 396)) []
    (Some (UdtaBounds (Bounds 132 (Size false 280))
      (Some (MetaBounds (Bounds 140 (Size false 272)) (Some (Bounds 152 (Size false 33))) (Some (Bounds 185 (Size true 227))))))).
Lemma cut_scan : forall m, scan 1000 m cut_list 0 = Ok ((cut_moov, 0), 412).
Proof. intros []; vm_compute; reflexivity. Qed.
Lemma cut_len : blen cut_list = 409. Proof. vm_compute. reflexivity. Qed.
Theorem C43_cut_list_refuted : forall cap items,
  write_tag cap 1000 Checked items cut_list = WResult (Panic POverflow) cut_list [] /\
  write_tag cap 1000 Wrapping items cut_list = WResult (Panic PCapacity) cut_list [].
Proof.
  intros cap items.
  assert (A : prepare 1000 Checked items cut_list 0 = Panic POverflow).
  { rewrite prepare_eq. unfold bind at 1. rewrite cut_scan. unfold plan_rest, cut_moov.
    cbn [fst snd vb_udta vb_bounds ub_meta ub_bounds eb_hdlr eb_ilst eb_bounds].
    unfold bind, lift, ret, bounds_end. cbn [b_pos b_size sz_len]. change (add64 Checked 185 227) with (@Ok BinNums.N 412). cbv beta iota.
    change (subi Checked 0 (as_i64 227)) with (@Ok Z (-227)%Z). cbv beta iota. unfold addi. destruct (in_i64 _); [|reflexivity].
    unfold seek_end. cbn [snd fst]. rewrite cut_len. reflexivity. }
  assert (B : prepare 1000 Wrapping items cut_list 0 = Panic PCapacity).
  { rewrite prepare_eq. unfold bind at 1. rewrite cut_scan. unfold plan_rest, cut_moov.
    cbn [fst snd vb_udta vb_bounds ub_meta ub_bounds eb_hdlr eb_ilst eb_bounds].
    unfold bind, lift, ret, bounds_end. cbn [b_pos b_size sz_len]. change (add64 Wrapping 185 227) with (@Ok BinNums.N 412). cbv beta iota.
    change (subi Wrapping 0 (as_i64 227)) with (@Ok Z (-227)%Z). cbv beta iota. unfold addi.
    destruct (in_i64 _); unfold seek_end; cbn [snd fst]; rewrite cut_len; reflexivity. }
  unfold write_tag, write_tag_to. rewrite A, B. split; reflexivity.
Qed.
Print Assumptions C43_cut_list_refuted.

(** True for well-formed files. *)
Theorem C43_well_formed_partial : forall cap fuel m f items p,
  updatable f items -> blen (render_all f) < N.of_nat fuel -> wr_res (write_tag cap fuel m items (render_all f)) <> Panic p.
Proof. intros cap fuel m f items p U L. destruct (write_ok cap fuel m f items U L) as (ops & -> & _). discriminate. Qed.
Print Assumptions C43_well_formed_partial.
(** On any bytes a panic is an overflow caught by the checks or an allocation that is too large; with
    checks disabled nothing has been changed when it happens. *)
Theorem C43_kinds_partial : forall cap fuel m items f pos p,
  wr_res (write_tag_to cap fuel m items f pos) = Panic p -> p = PCapacity \/ m = Checked /\ p = POverflow.
Proof. exact write_panics. Qed.
Print Assumptions C43_kinds_partial.
Theorem C43_release_partial : forall cap fuel items f pos p,
  let w := write_tag_to cap fuel Wrapping items f pos in
  wr_res w = Panic p -> p = PCapacity /\ wr_file w = f /\ wr_ops w = [].
Proof. exact write_panics_early. Qed.
Print Assumptions C43_release_partial.

Example C43_example :
  wr_res (write_tag 8192 1000 Checked ex_new_items (render_all ex_file)) = Ok tt /\
  wr_res (write_tag 8192 1000 Wrapping ex_new_items cut_list) = Panic PCapacity /\ blen cut_list = 409.
Proof. repeat split; vm_compute; reflexivity. Qed.

(** * C44: what is written is read back, whatever the file *)

(** False: if the file goes on with the atoms of a second file behind its file type atom, reading uses
    the first movie atom and writing changes the second one.  The write succeeds and is never seen. *)
Theorem C44_second_movie_refuted : forall cap fuel m m' f t ft rest items,
  good_sizes f -> describes f t -> updatable (ft :: rest) items ->
  let g := f ++ rest in
  blen (render_all f) + blen (render_all (ft :: rest)) < 2 ^ 62 ->
  blen (render_all f) + blen (render_all (update_file items (ft :: rest))) < 2 ^ 62 ->
  blen (render_all g) < N.of_nat fuel ->
  read_tag fuel m' (render_all g) = Ok t /\
  wr_res (write_tag cap fuel m items (render_all g)) = Ok tt /\
  wr_file (write_tag cap fuel m items (render_all g)) = render_all f ++ render_all (tl (update_file items (ft :: rest))) /\
  read_tag fuel m' (wr_file (write_tag cap fuel m items (render_all g))) = Ok t.
Proof.
  intros cap fuel m m' f t ft rest items Gf Df U g L1 L2 Fu.
  assert (Lf : blen (render_all f) < N.of_nat fuel) by (unfold g in Fu; rewrite render_all_app, blen_app in Fu; lia).
  assert (Rd : forall h, blen (render_all f ++ h) < 2 ^ 62 -> read_tag fuel m' (render_all f ++ h) = Ok t).
  { intros h Lh. destruct (read_described_tail f h t fuel m' Gf Df Lh Lf) as (q & E). unfold read_tag. rewrite E. reflexivity. }
  rewrite blen_render_all_cons in L1.
  assert (Lg : blen (render_all g) < 2 ^ 62) by (unfold g; rewrite render_all_app, blen_app; lia).
  split; [unfold g in *; rewrite render_all_app in *; apply Rd, Lg|].
  destruct U as ((Gh & th & Dh) & E & S & G'). destruct (described_laid_out _ _ Dh) as (ft' & pre & mv & post & (Eh & I & _ & J & N & P) & GM).
  injection Eh as <- ->. specialize (GM items (conj (conj Gh (ex_intro _ th Dh)) (conj E (conj S G')))).
  rewrite (update_at items ft pre mv post I J N) in *. set (d := match named_kids (id4 "mdat") post with [] => 0%Z | _ => _ end) in *.
  destruct Df as (ft1 & pre1 & mv1 & post1 & -> & I1 & W1 & C1 & J1 & N1 & M1).
  rewrite named_app in N. apply app_eq_nil in N. destruct N as [Na Nb]. rewrite named_app in N1. apply app_eq_nil in N1. destruct N1 as [N1a N1b].
  assert (Eg : g = ft1 :: (pre1 ++ mv1 :: post1 ++ pre) ++ mv :: post) by (unfold g; repeat (cbn [app]; rewrite <- app_assoc); reflexivity).
  assert (Eu : update_last items ft1 (pre1 ++ mv1 :: post1 ++ pre) mv post = (ft1 :: pre1 ++ mv1 :: post1) ++ pre ++ update_moov items d mv :: post).
  { unfold update_last. fold d. repeat (cbn [app]; rewrite <- app_assoc). reflexivity. }
  destruct (write_last cap fuel m items ft1 (tg_ftyp t) (pre1 ++ mv1 :: post1 ++ pre) mv post) as (ops & W & _ & _); try assumption.
  - rewrite named_app, N1a, named_this, named_app, N1b, Na by exact J1. constructor; [|constructor]. eapply moov_plain, M1.
  - rewrite <- Eg. split; [|exact Lg]. unfold g. rewrite forallb_app. apply andb_true_iff. split; [apply Gf|].
    destruct Gh as [Gh _]. cbn [forallb] in Gh. apply andb_true_iff in Gh. apply Gh.
  - apply storable_exact, S.
  - rewrite Eu. split.
    + rewrite forallb_app. apply andb_true_iff. split; [apply Gf|]. destruct G' as [G' _]. cbn [app forallb] in G'. apply andb_true_iff in G'. apply G'.
    + rewrite render_all_app, blen_app. cbn [app] in L2. rewrite (blen_render_all_cons ft) in L2. lia.
  - rewrite <- Eg. exact Fu.
  - rewrite <- Eg, Eu, render_all_app in W. rewrite W. cbn [wr_res wr_file tl app]. split; [reflexivity|]. split; [reflexivity|]. apply Rd.
    rewrite blen_app. cbn [app] in L2. rewrite (blen_render_all_cons ft) in L2. lia.
Qed.
Print Assumptions C44_second_movie_refuted.
Example C44_example :
  let g := ex_file ++ tl ex_file in
  let w := write_tag 8192 3000 Checked ex_new_items (render_all g) in
  updatable ex_file ex_new_items /\ blen (render_all g) < 3000 /\ wr_file w <> render_all g /\
  read_tag 3000 Checked (wr_file w) = Ok ex_tag /\ tg_atoms ex_tag <> ex_new_items.
Proof.
  split; [exact ex_updatable|]. split; [vm_compute; reflexivity|]. split; [vm_compute; discriminate|]. split; [vm_compute; reflexivity|]. vm_compute. discriminate.
Qed.
