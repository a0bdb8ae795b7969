(** A test for the files the guarantees hold for: C93 (see properties.jsonl). *)

From Coq Require Import List NArith ZArith Bool Lia Arith String.
From Coq Require Import ZifyBool ZifyNat ZifyN.
From Verif Require Import Base BaseLemmas Utf UtfLemmas Types Stream Parse Find Write TagSpec FileSpec ParseLemmas ReadProofs ExampleFile
  Props_Read RepairSpec LastSpec LastProofs LastWrite LastMeans WriteExample Props_Write Props_Last TidySpec TidyProofs TidyRead TidyMeans Props_Tidy Accept AcceptAll.
Import ListNotations.
Local Open Scope list_scope.

(** * C93: the test accepts exactly the well-formed files *)

(** Exactly the bytes that are a well-formed file are accepted, with their meaning. *)
Theorem C93_exact : forall b t, (exists f, accept b = Some (f, t)) <-> exists f, b = render_all f /\ good_sizes f /\ describes f t.
Proof.
  intros b t. split.
  - intros (f & A). apply accept_ok in A. destruct A as (E & D & G). exists f. repeat split; try assumption; apply G.
  - intros (f & -> & G & D). exists (norm_file f). apply accept_all; assumption.
Qed.
Print Assumptions C93_exact.

(** So nothing is a well-formed file if the test does not accept it. *)
Theorem C93_rejected : forall f, accept (render_all f) = None -> ~ well_formed f.
Proof.
  intros f N (G & t & D). assert (X : exists g, accept (render_all f) = Some (g, t)) by (apply C93_exact; exists f; repeat split; try assumption; apply G).
  destruct X as (g & X). rewrite N in X. discriminate.
Qed.
Print Assumptions C93_rejected.

(** Whatever way the bytes are taken apart, they mean the same. *)
Theorem C93_one_meaning : forall f g t s, good_sizes f -> good_sizes g -> describes f t -> describes g s -> render_all f = render_all g -> t = s.
Proof.
  intros f g t s Gf Gg Df Dg E. pose proof (accept_all f t Gf Df) as A. rewrite E, (accept_all g s Gg Dg) in A. injection A as _ ->. reflexivity.
Qed.
Print Assumptions C93_one_meaning.

(** The tests of chunk offset tables and items are exact, too. *)
Theorem C93_tables : forall b, (exists f t, accept b = Some (f, t) /\ sound_tablesb f = true) <-> exists f, b = render_all f /\ well_formed f /\ sound_tables f.
Proof.
  intros b. split.
  - intros (f & t & A & S). apply accept_ok in A. destruct A as (E & D & G). exists f. split; [exact E|]. split; [split; [exact G|exists t; exact D]|apply sound_tablesb_ok, S].
  - intros (f & -> & (G & t & D) & S). exists (norm_file f), t. split; [apply accept_all; assumption|apply sound_tablesb_ok, sound_norm, S].
Qed.
Print Assumptions C93_tables.
Theorem C93_items : forall items, storableb items = true <-> storable items.
Proof. intro items. split; [apply storableb_ok|apply storableb_all]. Qed.
Print Assumptions C93_items.

(** A properly laid out file is read exactly if the test accepts it. *)
Theorem C93_read : forall f fuel t, good_sizes f -> tidy f -> blen (render_all f) < N.of_nat fuel ->
  (read_tag fuel Checked (render_all f) = Ok t <-> exists g, accept (render_all f) = Some (g, t)).
Proof.
  intros f fuel t G T Fu. split; intro H.
  - exists (norm_file f). apply accept_all; [exact G|]. apply (C91_exactly f Checked fuel t G T (or_introl eq_refl) Fu), H.
  - destruct H as (g & A). apply accept_ok in A. destruct A as (E & D & Gg). rewrite E in *. apply C15_read_returns_content; assumption.
Qed.
Print Assumptions C93_read.

(** If all the tests succeed, whatever is repeated in the file, writing succeeds and the items are read back. *)
Theorem C93_write : forall cap fuel m m' b f t items,
  accept b = Some (f, t) -> sound_tablesb f = true -> storableb items = true -> good_sizesb (last_file items f) = true ->
  blen b < N.of_nat fuel -> blen (render_all (last_file items f)) < N.of_nat fuel ->
  wr_res (write_tag cap fuel m items b) = Ok tt /\
  read_tag fuel m' (wr_file (write_tag cap fuel m items b)) = Ok (Tag (tg_ftyp t) (tg_info t) items).
Proof.
  intros cap fuel m m' b f t items A S St Z Fu Fw. apply accept_ok in A. destruct A as (-> & D & G). apply sound_tablesb_ok in S. apply storableb_ok in St.
  assert (G' : good_sizes (last_file items f)) by (unfold good_sizesb in Z; apply andb_true_iff in Z; destruct Z as [Z1 Z2]; split; [exact Z1|apply N.ltb_lt, Z2]).
  split; [apply (C88_written cap fuel m f items (described_outline f t D) S G St G' Fu)|apply C88_read; assumption].
Qed.
Print Assumptions C93_write.

(** * Examples *)

(** The file of C88, in which almost everything is repeated; [test] is everything C93_write asks for. *)
Example C93_example :
  (exists f, accept (render_all c88_file) = Some (f, c88_tag) /\ sound_tablesb f = true /\ good_sizesb (last_file ex_new_items f) = true) /\
  storableb ex_new_items = true /\ ~ exists t, describes (c91_file c91_mvhd (raw [0; 0; 0; 2; 0; 0; 0; 0; 0; 65; 66])) t.
Proof.
  split; [|split; [vm_compute; reflexivity|]].
  - exists (norm_file c88_file). split; [vm_compute; reflexivity|]. split; vm_compute; reflexivity.
  - intros (t & D). eapply (C93_rejected (c91_file c91_mvhd (raw [0; 0; 0; 2; 0; 0; 0; 0; 0; 65; 66]))); [vm_compute; reflexivity|]. split; [split; vm_compute; reflexivity|exists t; exact D].
Qed.
