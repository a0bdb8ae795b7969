(** Reading while other programs change the file: C96 (see properties.jsonl and SharedRead). *)

From Coq Require Import List NArith ZArith Bool Lia Arith String.
From Coq Require Import ZifyBool ZifyNat ZifyN.
From Verif Require Import Base BaseLemmas Utf UtfLemmas Types Stream Parse Find Write TagSpec FileSpec ParseLemmas ReadProofs ReadMore ReadSpec ReadFacts
  WriteMain UpdateMeans UpdateTwice EditSpec EditProofs OffsetProofs ChunkSpec Fault ReadIO IoProofs IoWalk LookSpec LookProofs SharedRead SharedReadProofs
  WriteExample ExampleFile Props_Read Props_Write.
Import ListNotations.
Local Open Scope list_scope.

(** Without others: what [Props_Read.v] and all the rest is about. *)
Theorem C96_alone : forall fuel m f, shared_read [] fuel m f = read_tag fuel m f.
Proof. intros fuel m f. unfold shared_read, read_tag. rewrite shared_alone, <- (read_is fuel m f 0). reflexivity. Qed.
Print Assumptions C96_alone.

(** If every operation sees in the bytes that it reads what it would see in the well-formed file [f], the tag is the one
    of [f]. How long the file is at any time does not matter, as long as the movie starts inside. *)
Theorem C96_seen : forall f t k fuel m others x, good_sizes f -> describes f t -> blen (render_all f) < N.of_nat fuel -> movie_is f k ->
  (forall n, start f k < blen (after others x n) /\ blen (after others x n) < 2 ^ 62) ->
  sees_same (steps (io_read_tag_from fuel m) (render_all f) 0) (render_all f) others x -> shared_read others fuel m x = Ok t.
Proof. exact shared_seen. Qed.
Print Assumptions C96_seen.

(** So the others may do anything at any time but change the file type atom, the movie and the heads of the atoms
    between them. *)
Theorem C96_kept : forall f t k fuel m others, good_sizes f -> describes f t -> blen (render_all f) < N.of_nat fuel -> movie_is f k ->
  keeping (intact f k) others -> (forall n, blen (after others (render_all f) n) < 2 ^ 62) -> shared_read others fuel m (render_all f) = Ok t.
Proof. intros f t k fuel m others G D Fu Mk K Ln. apply (shared_described f t k); auto. intros i Hi. reflexivity. Qed.
Print Assumptions C96_kept.

Lemma c96_keeps : forall f k others, movie_is f k ->
  Forall (fun g => forall x, start f (S k) <= blen x -> slice (g x) 0 (start f (S k)) = slice x 0 (start f (S k))) others -> keeping (intact f k) others.
Proof.
  intros f k others Mk H. unfold keeping. eapply Forall_impl; [|exact H]. cbv beta. intros g Hg x Ix.
  assert (Lx : start f (S k) <= blen x).
  { destruct Mk as (mv & Emv & _). pose proof (start_step f k mv Emv) as Pm. pose proof (asize_pos mv). assert (Hi : of_interest f k (start f (S k) - 1)) by (right; left; lia).
    specialize (Ix _ Hi). assert (Ls : start f (S k) <= blen (render_all f)).
    { unfold start. rewrite <- (firstn_skipn (S k) f) at 2. rewrite render_all_app, blen_app. lia. }
    assert (X : nth_error (render_all f) (N.to_nat (start f (S k) - 1)) <> None) by (apply nth_error_Some; unfold blen in *; lia).
    rewrite <- Ix in X. apply nth_error_Some in X. unfold blen in *. lia. }
  pose proof (Hg x Lx) as Sl.
  intros i Hi. rewrite <- (Ix i Hi). pose proof (interest_end f k i Hi) as Le. unfold slice in Sl. change (N.to_nat 0) with 0%nat in Sl. cbn [skipn] in Sl.
  assert (X : forall b : bytes, nth_error b (N.to_nat i) = nth_error (firstn (N.to_nat (start f (S k))) b) (N.to_nat i)).
  { intro b. destruct (lt_dec (N.to_nat i) (List.length b)) as [L|L].
    - rewrite <- (firstn_skipn (N.to_nat (start f (S k))) b) at 1. apply nth_error_app1. rewrite firstn_length. lia.
    - transitivity (@None byte); [|symmetry]; apply nth_error_None; rewrite ?firstn_length; lia. }
  rewrite (X x), (X (g x)), Sl. reflexivity.
Qed.
(** They may write, append and cut behind the movie. *)
Theorem C96_behind : forall f t k fuel m others, good_sizes f -> describes f t -> blen (render_all f) < N.of_nat fuel -> movie_is f k ->
  Forall (fun g => forall x, start f (S k) <= blen x -> slice (g x) 0 (start f (S k)) = slice x 0 (start f (S k))) others -> (forall n, blen (after others (render_all f) n) < 2 ^ 62) ->
  shared_read others fuel m (render_all f) = Ok t.
Proof. intros f t k fuel m others G D Fu Mk H Ln. apply (C96_kept f t k); auto. apply c96_keeps; auto. Qed.
Print Assumptions C96_behind.

(** Another program that writes a tag in one turn, before the first byte of the movie is looked at: the new tag is
    read. [j] is the number of operations before. *)
Theorem C96_written_before : forall cap fuel m f items t k j, updatable f items -> describes f t -> movie_is f k ->
  blen (render_all f) < N.of_nat fuel -> blen (render_all (update_file items f)) < N.of_nat fuel ->
  (forall i z y, (i < j)%nat -> nth_error (steps (io_read_tag_from fuel m) (render_all (update_file items f)) 0) i = Some z -> In y (looked z) -> st_to y <= start f k) ->
  shared_read (repeat (fun b => b) j ++ [fun b => wr_file (write_tag cap fuel m items b)]) fuel m (render_all f) = Ok (Tag (tg_ftyp t) (tg_info t) items).
Proof.
  intros cap fuel m f items t k j U D Mk Fu Fu' Fr. destruct (write_ok cap fuel m f items U Fu) as (ops & W & _).
  set (g := fun b => wr_file (write_tag cap fuel m items b)). assert (Eg : g (render_all f) = render_all (update_file items f)) by (unfold g; rewrite W; reflexivity).
  pose proof (updated_describes f t items U D) as D'. destruct (U) as ((G & _) & _ & _ & G').
  destruct D as (ft & pre & mv & post & E & Ift & _ & _ & Imv & Nm & _).
  assert (Ek : k = S (List.length pre)) by (apply (one_movie ft pre mv post); [exact Ift|exact Nm|rewrite <- E; exact Mk]).
  assert (Eu : exists mv', a_id mv' = id4 "moov" /\ update_file items f = (ft :: pre) ++ mv' :: post).
  { eexists. split; [|rewrite E; apply (update_at items ft pre mv post Ift Imv Nm)]. rewrite <- Imv. unfold update_moov. destruct (split_on _ _) as [[[? ?] ?]|]; reflexivity. }
  destruct Eu as (mv' & Imv' & Eu).
  assert (Sk : start (update_file items f) k = start f k).
  { unfold start. rewrite Eu, E, Ek. cbn [firstn app]. rewrite !firstn_app, firstn_all, Nat.sub_diag. reflexivity. }
  assert (Skk : start f k = blen (render_all (ft :: pre))).
  { unfold start. rewrite E, Ek. cbn [firstn]. rewrite firstn_app, firstn_all, Nat.sub_diag. cbn [firstn]. rewrite app_nil_r. reflexivity. }
  assert (Mk' : movie_is (update_file items f) k).
  { exists mv'. split; [|exact Imv']. rewrite Eu, Ek. cbn [app nth_error]. rewrite nth_error_app2, Nat.sub_diag by lia. reflexivity. }
  assert (Rf : render_all f = render_all (ft :: pre) ++ render mv ++ render_all post).
  { rewrite E. change (ft :: pre ++ mv :: post) with ((ft :: pre) ++ mv :: post). rewrite render_all_app, render_all_cons. reflexivity. }
  assert (Rf' : render_all (update_file items f) = render_all (ft :: pre) ++ render mv' ++ render_all post) by (rewrite Eu, render_all_app, render_all_cons; reflexivity).
  assert (Id : forall n (x : bytes), fold_left (fun x g => g x) (repeat (fun b : bytes => b) n) x = x) by (induction n as [|n IH]; intro x; cbn; auto).
  assert (Af : forall n, ((n <= j)%nat -> after (repeat (fun b => b) j ++ [g]) (render_all f) n = render_all f) /\
     ((j < n)%nat -> after (repeat (fun b => b) j ++ [g]) (render_all f) n = render_all (update_file items f))).
  { intro n. unfold after. split; intro L.
    - rewrite firstn_app, repeat_length. replace (n - j)%nat with 0%nat by lia. cbn [firstn]. rewrite app_nil_r.
      replace j with (n + (j - n))%nat by lia. rewrite repeat_app, firstn_app, repeat_length, Nat.sub_diag. cbn [firstn]. rewrite app_nil_r, firstn_all2 by (rewrite repeat_length; lia). apply Id.
    - rewrite firstn_all2 by (rewrite app_length, repeat_length; cbn; lia). rewrite fold_left_app, Id. exact Eg. }
  apply (shared_seen (update_file items f) _ k); auto.
  - intro n. rewrite Sk, Skk. pose proof (asize_pos mv). pose proof (asize_pos mv'). unfold asize in *. destruct (Af n) as [A1 A2]. destruct (le_lt_dec n j) as [L|L].
    + rewrite (A1 L). split; [|apply G]. rewrite Rf, !blen_app. lia.
    + rewrite (A2 L). split; [|apply G']. rewrite Rf', !blen_app. lia.
  - intros i z y p Ez Iy Cy. destruct (Af (S i)) as [A1 A2]. destruct (le_lt_dec (S i) j) as [L|L]; [|rewrite (A2 L); reflexivity].
    rewrite (A1 L). specialize (Fr i z y ltac:(lia) Ez Iy). unfold covers in Cy. rewrite Skk in Fr. unfold blen in Fr. rewrite Rf, Rf', !nth_error_app1 by lia. reflexivity.
Qed.
Print Assumptions C96_written_before.

(** The example file: a program that replaces everything behind the movie by three bytes and one that cuts the file
    behind the movie, both in the middle of the reading. *)
Definition c96_end : N := start ex_file 3.
Definition c96_others : list (bytes -> bytes) :=
  repeat (fun b => b) 7 ++ (fun b => slice b 0 c96_end ++ raw [1; 2; 3]) :: repeat (fun b => b) 60 ++ [fun b => slice b 0 c96_end].
Lemma c96_slice : forall n (x y : bytes), n <= blen x -> slice (slice x 0 n ++ y) 0 n = slice x 0 n.
Proof.
  intros n x y L. unfold slice, blen in *. change (N.to_nat 0) with 0%nat. cbn [skipn].
  rewrite firstn_app, firstn_firstn, Nat.min_id, firstn_length. replace (N.to_nat n - Nat.min (N.to_nat n) (List.length x))%nat with 0%nat by lia. cbn [firstn]. apply app_nil_r.
Qed.
Example C96_example : good_sizes ex_file /\ describes ex_file ex_tag /\ movie_is ex_file 2 /\
  Forall (fun g => forall x, start ex_file 3 <= blen x -> slice (g x) 0 (start ex_file 3) = slice x 0 (start ex_file 3)) c96_others /\
  (forall n, blen (after c96_others (render_all ex_file) n) < 2 ^ 62) /\
  shared_read c96_others 1000 Checked (render_all ex_file) = Ok ex_tag /\
  blen (render_all ex_file) = 799 /\ blen (after c96_others (render_all ex_file) 8) = 777 /\ blen (after c96_others (render_all ex_file) 69) = 774.
Proof.
  split; [exact ex_sizes|]. split; [exact ex_describes|]. split; [eexists; split; reflexivity|]. split; [|split].
  - fold c96_end. unfold c96_others. apply Forall_forall. intros g Ig x Lx. apply in_app_or in Ig. destruct Ig as [Ig|[Ig|Ig]].
    + apply repeat_spec in Ig. subst g. reflexivity.
    + subst g. apply c96_slice, Lx.
    + apply (in_app_or (repeat (fun b : bytes => b) 60)) in Ig. destruct Ig as [Ig|[Ig|[]]]; [apply repeat_spec in Ig; subst g; reflexivity|]. subst g.
      rewrite <- (app_nil_r (slice x 0 c96_end)) at 1. apply c96_slice, Lx.
  - intro n. assert (X : forall o x, Forall (fun g => forall x : bytes, blen (g x) <= blen x + 3) o -> blen (fold_left (fun x g => g x) o x) <= blen x + 3 * blen o).
    { induction o as [|g r IH]; intros x H; cbn [fold_left]; [unfold blen; cbn; lia|]. inversion_clear H. pose proof (IH (g x) H1) as I1. pose proof (H0 x) as I2. unfold blen in *. cbn [List.length]. lia. }
    assert (Y : forall x, blen (slice x 0 c96_end) <= blen x) by (intro x; unfold slice, blen; change (N.to_nat 0) with 0%nat; cbn [skipn]; rewrite firstn_length; lia).
    assert (All : Forall (fun g => forall x : bytes, blen (g x) <= blen x + 3) c96_others).
    { unfold c96_others. apply Forall_forall. intros g Ig x. specialize (Y x). apply in_app_or in Ig. destruct Ig as [Ig|[Ig|Ig]]; [apply repeat_spec in Ig; subst g; cbv beta; lia|subst g; cbv beta; rewrite blen_app; change (blen (raw [1; 2; 3])) with 3; lia|].
      apply (in_app_or (repeat (fun b : bytes => b) 60)) in Ig. destruct Ig as [Ig|[Ig|[]]]; [apply repeat_spec in Ig; subst g; cbv beta; lia|subst g; cbv beta; lia]. }
    unfold after. assert (Fn : Forall (fun g => forall x : bytes, blen (g x) <= blen x + 3) (firstn n c96_others)).
    { rewrite <- (firstn_skipn n c96_others) in All. apply Forall_app in All. apply All. }
    specialize (X (firstn n c96_others) (render_all ex_file) Fn). assert (L : blen (firstn n c96_others) <= 69) by (unfold blen; rewrite firstn_length; change (List.length c96_others) with 69%nat; lia).
    assert (Le : blen (render_all ex_file) = 799) by (vm_compute; reflexivity). rewrite Le in X. eapply N.le_lt_trans; [exact X|]. apply (N.le_lt_trans _ (799 + 3 * 69)); [|reflexivity]. apply N.add_le_mono_l, N.mul_le_mono_l. exact L.
  - split; [vm_compute; reflexivity|]. split; [vm_compute; reflexivity|]. split; vm_compute; reflexivity.
Qed.
Example C96_written_example : updatable ex_file ex_new_items /\ describes ex_file ex_tag /\ movie_is ex_file 2 /\
  (forall i z y, (i < 9)%nat -> nth_error (steps (io_read_tag_from 1000 Checked) (render_all (update_file ex_new_items ex_file)) 0) i = Some z -> In y (looked z) -> st_to y <= start ex_file 2).
Proof.
  split; [exact ex_updatable|]. split; [exact ex_describes|]. split; [eexists; split; reflexivity|]. intros i z y L E Iy.
  assert (X : forallb (fun z => forallb (fun y => st_to y <=? start ex_file 2) (looked z)) (firstn 9 (steps (io_read_tag_from 1000 Checked) (render_all (update_file ex_new_items ex_file)) 0)) = true) by (vm_compute; reflexivity).
  rewrite forallb_forall in X. assert (Iz : In z (firstn 9 (steps (io_read_tag_from 1000 Checked) (render_all (update_file ex_new_items ex_file)) 0))).
  { apply (nth_error_In _ i). rewrite <- E. symmetry. rewrite <- (firstn_skipn 9 (steps _ _ _)) at 1. apply nth_error_app1. apply Nat.nle_gt. intro K.
    assert (Ln : nth_error (firstn 9 (steps (io_read_tag_from 1000 Checked) (render_all (update_file ex_new_items ex_file)) 0)) 8 <> None) by (vm_compute; discriminate).
    apply nth_error_Some in Ln. lia. }
  specialize (X z Iz). rewrite forallb_forall in X. specialize (X y Iy). lia.
Qed.

(** "Reading while another program writes a tag gives the old tag or the new one" is false, also if the other program
    writes in one moment: the title is the old one and the artist the new one, without an error. And if the new metadata
    is of another size, reading fails although both files can be read. *)
Definition c96_old : list atom_data := [AtomData (IFourcc TITLE) [DUtf8 (str "One")]; AtomData (IFourcc ARTIST) [DUtf8 (str "First")]].
Definition c96_new : list atom_data := [AtomData (IFourcc TITLE) [DUtf8 (str "Two")]; AtomData (IFourcc ARTIST) [DUtf8 (str "Other")]].
Definition c96_file : list atom := update_file c96_old ex_file.
Theorem C96_torn_refuted : exists f items t i j s, let g := fun b => wr_file (write_tag 64 1000 Checked items b) in
  describes f t /\ good_sizes f /\ wr_res (write_tag 64 1000 Checked items (render_all f)) = Ok tt /\
  read_tag 1000 Checked (render_all f) = Ok t /\ read_tag 1000 Checked (g (render_all f)) = Ok (Tag (tg_ftyp t) (tg_info t) items) /\
  shared_read (repeat (fun b => b) i ++ [g]) 1000 Checked (render_all f) = Ok s /\ s <> t /\ s <> Tag (tg_ftyp t) (tg_info t) items /\
  (let h := fun b => wr_file (write_tag 64 1000 Checked [] b) in wr_res (write_tag 64 1000 Checked [] (render_all f)) = Ok tt /\
   exists e, shared_read (repeat (fun b => b) j ++ [h]) 1000 Checked (render_all f) = Err e).
Proof.
  exists c96_file, c96_new, (Tag (tg_ftyp ex_tag) (tg_info ex_tag) c96_old), 111%nat, 111%nat,
    (Tag (tg_ftyp ex_tag) (tg_info ex_tag) [AtomData (IFourcc TITLE) [DUtf8 (str "One")]; AtomData (IFourcc ARTIST) [DUtf8 (str "Other")]]). cbv zeta.
  assert (U : updatable ex_file c96_old).
  { destruct ex_updatable as (W & E & _). split; [exact W|]. split; [exact E|]. split; [apply storableb_ok; vm_compute; reflexivity|]. split; vm_compute; reflexivity. }
  split; [exact (updated_describes ex_file ex_tag c96_old U ex_describes)|]. split; [apply U|].
  split; [vm_compute; reflexivity|]. split; [vm_compute; reflexivity|]. split; [vm_compute; reflexivity|]. split; [vm_compute; reflexivity|].
  split; [discriminate|]. split; [discriminate|]. split; [vm_compute; reflexivity|]. eexists. vm_compute. reflexivity.
Qed.
Print Assumptions C96_torn_refuted.
