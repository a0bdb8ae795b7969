(** Numbers outside the movie atom that address bytes of the file: C83 (see properties.jsonl and FragSpec). *)

From Coq Require Import List NArith ZArith Bool Lia Arith String.
From Coq Require Import ZifyBool ZifyNat ZifyN.
From Verif Require Import Base BaseLemmas Utf UtfLemmas Types Stream Parse Find Write TagSpec FileSpec ParseLemmas ReadProofs
  ExampleFile ReadFacts NewMeans WriteBytes DumpProofs WriteState ScanProofs AdjustProofs WriteProofs WriteMain UpdateMeans UpdateTwice
  EditSpec EditProofs OffsetProofs WriteExample ChunkSpec ChunkProofs FragSpec FragProofs Props_Read Props_ReadErr Props_Dump Props_Write Props_Write2.
Import ListNotations.
Local Open Scope list_scope.

(** Every atom but the movie keeps its number and all its bytes; those behind the movie move by
    [displacement], those in front of it do not. *)
Theorem C83_atoms : forall cap fuel m f items, updatable f items -> blen (render_all f) < N.of_nat fuel ->
  let w := write_tag cap fuel m items (render_all f) in
  wr_res w = Ok tt /\ exists g, wr_file w = render_all g /\ (Z.of_N (blen (wr_file w)) - Z.of_N (blen (render_all f)) = displacement items f)%Z /\
  forall k a, nth_error f k = Some a -> a_id a <> id4 "moov" -> nth_error g k = Some a /\
    (behind f k -> Z.of_N (start g k) = Z.of_N (start f k) + displacement items f)%Z /\ (~ behind f k -> start g k = start f k).
Proof.
  intros cap fuel m f items U Fu w. destruct (write_ok cap fuel m f items U Fu) as (ops & W & _). unfold w. rewrite W. split; [reflexivity|].
  exists (update_file items f). destruct (U) as ((_ & t & D) & E & _). split; [reflexivity|]. split; [reflexivity|].
  intros k a Ek Na. split; [exact (others_same items f t D k a Ek Na)|]. destruct (others_start items f t D E k a Ek Na) as [[B S1]|[B S1]]; split; intros; tauto.
Qed.
Print Assumptions C83_atoms.

(** So a fragment keeps the position it stores as the beginning of its data, whatever is written: it is still
    the place of the same data if and only if that is not behind the movie or nothing moves. *)
Theorem C83_absolute : forall cap fuel m f items, updatable f items -> blen (render_all f) < N.of_nat fuel ->
  exists g, wr_file (write_tag cap fuel m items (render_all f)) = render_all g /\
  forall k a o j n, nth_error f k = Some a -> fragment_base a o -> within f j o n ->
    nth_error g k = Some a /\ fragment_base a o /\ (same_place f g j o o <-> (behind f j -> displacement items f = 0%Z)).
Proof.
  intros cap fuel m f items U Fu. destruct (write_ok cap fuel m f items U Fu) as (ops & W & _). rewrite W. exists (update_file items f). split; [reflexivity|].
  destruct (U) as ((_ & t & D) & E & _). intros k a o j n Ek Fb (b & Ej & Nb & S1 & S2).
  assert (Na : a_id a <> id4 "moov") by (destruct Fb as (Ia & _); rewrite Ia; discriminate).
  split; [exact (others_same items f t D k a Ek Na)|]. split; [exact Fb|]. unfold same_place.
  destruct (others_start items f t D E j b Ej Nb) as [[B X]|[B X]]; split; intros Y; try tauto; try (intros _); try (specialize (Y B)); lia.
Qed.
Print Assumptions C83_absolute.

(** A place given relative to the beginning of a fragment stays right if and only if both are on the same side
    of the movie or nothing moves. *)
Theorem C83_relative : forall cap fuel m f items, updatable f items -> blen (render_all f) < N.of_nat fuel ->
  exists g, wr_file (write_tag cap fuel m items (render_all f)) = render_all g /\
  forall k a (r : Z) o o' j n, nth_error f k = Some a -> a_id a = id4 "moof" -> within f j o n ->
    (Z.of_N o = Z.of_N (start f k) + r)%Z -> (Z.of_N o' = Z.of_N (start g k) + r)%Z ->
    (same_place f g j o o' <-> ((behind f j <-> behind f k) \/ displacement items f = 0%Z)).
Proof.
  intros cap fuel m f items U Fu. destruct (write_ok cap fuel m f items U Fu) as (ops & W & _). rewrite W. exists (update_file items f). split; [reflexivity|].
  destruct (U) as ((_ & t & D) & E & _). intros k a r o o' j n Ek Ia (b & Ej & Nb & S1 & S2) Eo Eo'.
  assert (Na : a_id a <> id4 "moov") by (rewrite Ia; discriminate). unfold same_place.
  destruct (others_start items f t D E j b Ej Nb) as [[B X]|[B X]]; destruct (others_start items f t D E k a Ek Na) as [[C Y]|[C Y]]; split; intros Z1.
  - left. tauto.
  - lia.
  - right. lia.
  - destruct Z1 as [Z1|Z1]; [tauto|lia].
  - right. lia.
  - destruct Z1 as [Z1|Z1]; [tauto|lia].
  - left. tauto.
  - lia.
Qed.
Print Assumptions C83_relative.

(** Where the place is the same, the bytes are. *)
Theorem C83_bytes : forall cap fuel m f items, updatable f items -> blen (render_all f) < N.of_nat fuel ->
  exists g, wr_file (write_tag cap fuel m items (render_all f)) = render_all g /\
  forall j o o' n, within f j o n -> same_place f g j o o' -> slice (render_all g) o' n = slice (render_all f) o n.
Proof.
  intros cap fuel m f items U Fu. destruct (write_ok cap fuel m f items U Fu) as (ops & W & _). rewrite W. exists (update_file items f). split; [reflexivity|].
  destruct (U) as ((_ & t & D) & E & _). intros j o o' n (b & Ej & Nb & S1 & S2) SP. unfold same_place in SP.
  pose proof (others_same items f t D j b Ej Nb) as Eg. destruct (atom_at f j b Ej) as [_ F2]. destruct (atom_at _ j b Eg) as [_ G2].
  rewrite (atom_slice f j b o n Ej) by lia. rewrite (atom_slice (update_file items f) j b o' n Eg) by lia. f_equal. lia.
Qed.
Print Assumptions C83_bytes.

(** A movie without samples of its own, a fragment whose header says that its data begins at byte 96, and the
    data: after writing, byte 96 is a byte of the movie. *)
Definition c83_tfhd (o : N) : atom := Atom false (id4 "tfhd") (raw [0] ++ raw [0; 0; 1] ++ be 4 1 ++ be 8 o) [].
Definition c83_moof (o : N) : atom := Atom false (id4 "moof") [] [Atom false (id4 "mfhd") (zeros 8) []; Atom false (id4 "traf") [] [c83_tfhd o]].
Definition c83_file : list atom := [ex_ftyp; c04_moov [ex_udta []]; c83_moof 96; ex_mdat].
Lemma c83_base : forall o, o < 2 ^ 64 -> fragment_base (c83_moof o) o.
Proof.
  intros o L. split; [reflexivity|]. split; [exact L|]. eexists _, (c83_tfhd o), (raw [0]), (raw [0; 0; 1]), (be 4 1), []. split; [right; left; reflexivity|].
  split; [reflexivity|]. split; [left; reflexivity|]. split; [reflexivity|]. split; [unfold a_content, c83_tfhd; cbn [a_pre a_kids]; change (render_all []) with (@nil byte); rewrite !app_nil_r; reflexivity|]. repeat split.
Qed.
Lemma c83_updatable : updatable c83_file ex_new_items.
Proof.
  split; [split; [split; vm_compute; reflexivity|]|].
  { eexists. apply (c04_describes [] _ [c83_moof 96; ex_mdat]); try reflexivity.
    - constructor.
    - constructor; [|constructor]. apply box_none; reflexivity. }
  split; [apply editableb_ok; vm_compute; reflexivity|]. split; [apply storableb_ok; vm_compute; reflexivity|split; vm_compute; reflexivity].
Qed.
Example C83_example :
  updatable c83_file ex_new_items /\ displacement ex_new_items c83_file = 173%Z /\ behind c83_file 3 /\ behind c83_file 2 /\
  nth_error c83_file 2 = Some (c83_moof 96) /\ fragment_base (c83_moof 96) 96 /\ within c83_file 3 96 8 /\ start c83_file 2 = 32 /\
  slice (render_all c83_file) 96 8 = raw [10; 11; 12; 13; 14; 15; 16; 17] /\
  slice (render_all (update_file ex_new_items c83_file)) 269 8 = raw [10; 11; 12; 13; 14; 15; 16; 17].
Proof.
  assert (Mv : movie_is c83_file 1) by (eexists; split; reflexivity).
  split; [exact c83_updatable|]. split; [vm_compute; reflexivity|]. split; [exists 1%nat; split; [exact Mv|lia]|]. split; [exists 1%nat; split; [exact Mv|lia]|].
  split; [reflexivity|]. split; [apply c83_base; reflexivity|]. split; [eexists; split; [reflexivity|]; split; [discriminate|]; split; vm_compute; discriminate|].
  split; [reflexivity|]. split; vm_compute; reflexivity.
Qed.

(** The wanted statement, that the data of every fragment is found again where its header says, is false. *)
Theorem C83_absolute_refuted : exists f items k a o j n,
  updatable f items /\ nth_error f k = Some a /\ fragment_base a o /\ within f j o n /\ nth_error (update_file items f) k = Some a /\
  ~ same_place f (update_file items f) j o o /\ slice (render_all (update_file items f)) o n <> slice (render_all f) o n.
Proof.
  exists c83_file, ex_new_items, 2%nat, (c83_moof 96), 96, 3%nat, 8. destruct C83_example as (U & D & B & _ & E & Fb & In & _ & S1 & _).
  split; [exact U|]. split; [exact E|]. split; [exact Fb|]. split; [exact In|]. split; [reflexivity|].
  split; [vm_compute; discriminate|]. rewrite S1. vm_compute. discriminate.
Qed.
Print Assumptions C83_absolute_refuted.
