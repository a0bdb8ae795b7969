(** The bytes calls leave in a file with repeated containers: more of C79 (see properties.jsonl). *)

From Coq Require Import List NArith ZArith Bool Lia Arith String.
From Coq Require Import ZifyBool ZifyNat ZifyN.
From Verif Require Import Base BaseLemmas Utf UtfLemmas Types Stream Parse Find Write TagApi TagOps TagSpec TagOpsSpec TagLemmas TagProofs TagAccess TagRefine
  FileSpec ParseLemmas ReadProofs ExampleFile ReadFacts NewMeans WriteBytes DumpProofs WriteState ScanProofs AdjustProofs WriteProofs WriteMain UpdateMeans UpdateTwice
  EditSpec EditProofs OffsetProofs WriteExample StoreSpec StoreProofs SizeProofs LastSpec LastProofs LastWrite LastMeans LastTwice LastSize
  Props_Read Props_ReadErr Props_Dump Props_Write Props_Write2 Props_Write3 Props_Last WireSpec WireProofs Props_Wire.
Import ListNotations.
Local Open Scope list_scope.

(** The last atom called [id]. *)
Definition last_called (id : string) (l : list atom) (a : atom) : Prop := exists x y, l = x ++ a :: y /\ a_id a = id4 id /\ named_kids (id4 id) y = [].
(** The item list that counts has these bytes: the last one of the last metadata of the last user data of the movie. *)
Definition last_list (g : list atom) (content : bytes) : Prop :=
  exists mv ud me il, only_kid "moov" g mv /\ last_called "udta" (a_kids mv) ud /\ last_called "meta" (a_kids ud) me /\ last_called "ilst" (a_kids me) il /\ a_content il = content.

Lemma last_meta_list : forall items me, last_called "ilst" (a_kids (last_meta items me)) (new_ilst items).
Proof.
  intros items me. unfold last_meta. destruct (last_cases (id4 "ilst") (a_kids me)) as [N|(x & c & y & E & I & N)].
  - rewrite (proj2 (split_last_none _ _) N). exists (a_kids me ++ missing_hdlr me), []. split; [unfold with_kids; cbn [a_kids]; rewrite <- app_assoc; reflexivity|split; reflexivity].
  - rewrite E, split_last_at by assumption. exists (x ++ missing_hdlr me), y. split; [unfold with_kids; cbn [a_kids]; rewrite <- app_assoc; reflexivity|split; [reflexivity|exact N]].
Qed.
Lemma last_udta_list : forall items u, exists me, last_called "meta" (a_kids (last_udta items u)) me /\ last_called "ilst" (a_kids me) (new_ilst items).
Proof.
  intros items u. unfold last_udta. destruct (last_cases (id4 "meta") (a_kids u)) as [N|(x & c & y & E & I & N)].
  - rewrite (proj2 (split_last_none _ _) N). exists (FileSpec.new_meta items). split; [exists (a_kids u), []; repeat split|eexists [_], []; repeat split].
  - rewrite E, split_last_at by assumption. exists (last_meta items c). split; [exists x, y; split; [reflexivity|split; [|exact N]]; rewrite last_meta_id; exact I|apply last_meta_list].
Qed.
Lemma last_moov_list : forall items d mv, exists u me, last_called "udta" (a_kids (last_moov items d mv)) u /\ last_called "meta" (a_kids u) me /\ last_called "ilst" (a_kids me) (new_ilst items).
Proof.
  intros items d mv. unfold last_moov. destruct (last_cases (id4 "udta") (a_kids mv)) as [N|(x & c & y & E & I & N)].
  - rewrite (proj2 (split_last_none _ _) N). exists (FileSpec.new_udta items), (FileSpec.new_meta items).
    split; [exists (move_traks d (a_kids mv)), []; repeat split|split; [exists [], []; repeat split|eexists [_], []; repeat split]].
  - rewrite E, split_last_at by assumption. destruct (last_udta_list items c) as (me & A & B). exists (last_udta items c), me.
    split; [exists (move_traks d x), y; split; [reflexivity|split; [rewrite last_udta_id; exact I|exact N]]|split; assumption].
Qed.
Lemma last_file_list : forall items f t, describes f t -> last_list (last_file items f) (flat_map entry_bytes (seen items)).
Proof.
  intros items f t (ft & pre & mv & post & -> & I & _ & _ & J & N & _). pose proof N as N'. apply named_two in N'. destruct N' as [N1 N2].
  unfold last_file. change (ft :: pre ++ mv :: post) with ((ft :: pre) ++ mv :: post). rewrite split_last_at by assumption. set (d := match named_kids _ post with [] => _ | _ => _ end). clearbody d.
  destruct (last_moov_list items d mv) as (u & me & A & B & C). exists (last_moov items d mv), u, me, (new_ilst items).
  split; [apply kid_at; [rewrite last_moov_id; exact J|rewrite named_other by (rewrite I; discriminate); exact N1|exact N2]|].
  split; [exact A|]. split; [exact B|]. split; [exact C|]. rewrite entries_render. reflexivity.
Qed.

(** Every well-formed file, whatever is repeated in it, whose tables that count are sound: the bytes the calls determine are those of the item list that counts. *)
Theorem C79_repeated : forall cap fuel m f t l ops w,
  describes f t -> good_sizes f -> sound_tables f -> source l -> Forall careful ops -> Forall plain ops ->
  effects ops (seen l) w -> let size := blen (render_all f) + blen (flat_map entry_bytes w) + 85 in
  size < 2 ^ 32 -> size < N.of_nat fuel ->
  let r := write_tag cap fuel m (TagOps.run_ops l ops) (render_all f) in
  wr_res r = Ok tt /\
  exists g, tiles (wr_file r) g /\ file_edit f g /\ last_list g (flat_map entry_bytes w).
Proof.
  intros cap fuel m f t l ops w D G E S C P Ef size L Fu r.
  assert (Sl : storable l) by (destruct S as [->|(f0 & t0 & D0 & U0 & ->)]; [split; constructor|exact (read_storable f0 t0 D0 U0)]).
  apply (C79_calls l ops w (proj1 Sl) P) in Ef. subst w.
  pose proof (storable_run_ops ops l Sl C) as Si. set (items := TagOps.run_ops l ops) in *.
  assert (Z : blen (flat_map entry_bytes (seen items)) = announced items) by (rewrite entries_render; apply ilst_content, storable_exact, Si).
  assert (L' : blen (render_all f) + announced items + 85 < 2 ^ 32) by (unfold size in L; lia).
  destruct (last_small f t items D E Si L') as (G' & _).
  destruct (C88_written cap fuel m f items (described_outline f t D) E G Si G') as (W & Ti & Ed); [unfold size in Fu; lia|].
  split; [exact W|]. exists (last_file items f). split; [exact Ti|]. split; [exact Ed|]. exact (last_file_list items f t D).
Qed.
Print Assumptions C79_repeated.

(** The file of C88 with repeated user data, metadata and item lists, and the calls of C79. *)
Example C79_repeated_example :
  describes c88_file c88_tag /\ good_sizes c88_file /\ sound_tables c88_file /\ ~ editable c88_file /\ source ex_items /\ Forall careful c79_ops /\ Forall plain c79_ops /\
  let w := seen (TagOps.run_ops ex_items c79_ops) in
  effects c79_ops (seen ex_items) w /\ blen (render_all c88_file) + blen (flat_map entry_bytes w) + 85 < 2500.
Proof.
  destruct C88_example as (A & B & C & _ & _ & E & _). destruct C79_example as (S & Ca & P & _ & _ & _ & Ef & _).
  do 7 (split; [assumption|]). split; [exact Ef|]. vm_compute. reflexivity.
Qed.
