(** [Tag::read_from_path] while other programs change the file: C96 through the buffer (see properties.jsonl and SharedBuf). *)

From Coq Require Import List NArith ZArith Bool Lia Arith String.
From Coq Require Import ZifyBool ZifyNat ZifyN.
From Verif Require Import Base BaseLemmas Utf UtfLemmas Types Stream Parse Find Write TagSpec FileSpec ReadSpec ReadFacts WriteMain UpdateMeans EditSpec ChunkSpec Fault ReadIO
  LookSpec SharedRead SharedReadProofs SharedBuf SharedBufProofs WriteExample ExampleFile Props_Read Props_Write Props_SharedRead.
Import ListNotations.
Local Open Scope list_scope.

(** Without others: any file, any capacity, and any calls of [read] that deliver less than asked for. *)
Theorem C96_path_alone : forall short cap fuel m b, blen b < 2 ^ 62 -> shared_read_path [] short cap fuel m b = read_tag fuel m b.
Proof.
  intros short cap fuel m b L. unfold shared_read_path, read_tag. rewrite <- (IoProofs.read_is fuel m b 0).
  rewrite (run_alone b cap L (io_read_tag_from fuel m) _ 0); [destruct (run (io_read_tag_from fuel m) b 0) as [[a q]| | |]; reflexivity|].
  split; [exists 0%nat; split; reflexivity|]. split; [reflexivity|]. split; [reflexivity|]. intros j Hj. change (blen (sb_buf (SBuf [] b 0 [] short))) with 0 in Hj. lia.
Qed.
Print Assumptions C96_path_alone.

(** The others may do anything at any time but change the file type atom, the movie and the heads of the atoms between
    them: also what is old in the buffer does no harm. *)
Theorem C96_path_kept : forall f t k cap short fuel m others, good_sizes f -> describes f t -> blen (render_all f) < N.of_nat fuel -> movie_is f k ->
  keeping (intact f k) others -> (forall n, blen (after others (render_all f) n) < 2 ^ 62) -> shared_read_path others short cap fuel m (render_all f) = Ok t.
Proof. intros f t k cap short fuel m others G D Fu Mk K Ln. apply (path_described f t k); auto. intros i Hi. reflexivity. Qed.
Print Assumptions C96_path_kept.

Theorem C96_path_behind : forall f t k cap short fuel m others, good_sizes f -> describes f t -> blen (render_all f) < N.of_nat fuel -> movie_is f k ->
  Forall (fun g => forall x, start f (S k) <= blen x -> slice (g x) 0 (start f (S k)) = slice x 0 (start f (S k))) others -> (forall n, blen (after others (render_all f) n) < 2 ^ 62) ->
  shared_read_path others short cap fuel m (render_all f) = Ok t.
Proof. intros f t k cap short fuel m others G D Fu Mk H Ln. apply (C96_path_kept f t k); auto. apply c96_keeps; auto. Qed.
Print Assumptions C96_path_behind.

(** The hypotheses: [C96_example]. Here the buffer has 16 bytes and the first calls deliver 1, 2 and 3 bytes. *)
Example C96_path_example : shared_read_path c96_others [1; 2; 3] 16 1000 Checked (render_all ex_file) = Ok ex_tag.
Proof. vm_compute. reflexivity. Qed.

(** As [C96_torn_refuted], with the buffer of 8192 bytes that the standard library takes: another program writes a new
    tag in one moment, and the title that is read is the old one, the artist the new one. *)
Theorem C96_path_torn_refuted : exists f items t i s, let g := fun b => wr_file (write_tag 64 1000 Checked items b) in
  describes f t /\ good_sizes f /\ wr_res (write_tag 64 1000 Checked items (render_all f)) = Ok tt /\
  shared_read_path [] [] 8192 1000 Checked (render_all f) = Ok t /\ shared_read_path [] [] 8192 1000 Checked (g (render_all f)) = Ok (Tag (tg_ftyp t) (tg_info t) items) /\
  shared_read_path (repeat (fun b => b) i ++ [g]) [] 8192 1000 Checked (render_all f) = Ok s /\ s <> t /\ s <> Tag (tg_ftyp t) (tg_info t) items.
Proof.
  exists c96_file, c96_new, (Tag (tg_ftyp ex_tag) (tg_info ex_tag) c96_old), 45%nat,
    (Tag (tg_ftyp ex_tag) (tg_info ex_tag) [AtomData (IFourcc TITLE) [DUtf8 (str "One")]; AtomData (IFourcc ARTIST) [DUtf8 (str "Other")]]). cbv zeta.
  assert (U : updatable ex_file c96_old).
  { destruct ex_updatable as (W & E & _). split; [exact W|]. split; [exact E|]. split; [apply storableb_ok; vm_compute; reflexivity|]. split; vm_compute; reflexivity. }
  split; [exact (updated_describes ex_file ex_tag c96_old U ex_describes)|]. split; [apply U|].
  split; [vm_compute; reflexivity|]. split; [vm_compute; reflexivity|]. split; [vm_compute; reflexivity|]. split; [vm_compute; reflexivity|].
  split; discriminate.
Qed.
Print Assumptions C96_path_torn_refuted.
