(** Numbers outside the movie atom that address bytes of the file, in files with repeated containers: more of C83 (see properties.jsonl and FragSpec). *)

From Coq Require Import List NArith ZArith Bool Lia Arith String.
From Coq Require Import ZifyBool ZifyNat ZifyN.
From Verif Require Import Base BaseLemmas Utf UtfLemmas Types Stream Parse Find Write TagSpec FileSpec ParseLemmas ReadProofs
  ExampleFile ReadFacts NewMeans WriteBytes DumpProofs WriteState ScanProofs AdjustProofs WriteProofs WriteMain UpdateMeans UpdateTwice
  EditSpec EditProofs OffsetProofs WriteExample StoreSpec StoreProofs SizeProofs LastSpec LastProofs LastWrite LastMeans LastTwice LastSize LiveSpec LiveProofs
  ChunkSpec ChunkProofs ChunkLive FragSpec FragProofs Props_Read Props_ReadErr Props_Dump Props_Write Props_Write2 Props_Last Props_LiveChunk Props_Frag.
Import ListNotations.
Local Open Scope list_scope.

Lemma live_others : forall items f t, describes f t -> sound_tables f -> forall k a, nth_error f k = Some a -> a_id a <> id4 "moov" ->
  (behind f k /\ (Z.of_N (start (last_file items f) k) = Z.of_N (start f k) + last_displacement items f)%Z) \/ (~ behind f k /\ start (last_file items f) k = start f k).
Proof.
  intros items f t (ft & pre & mv & post & -> & I & _ & _ & J & N & _) So k a E Na. pose proof (sound_at _ _ _ _ J (N2 pre post N) So) as G.
  destruct (live_other_atom items ft pre mv post J N G k a E Na) as [_ X]. pose proof (movie_m ft pre mv post I J N) as M. rewrite (live_disp items ft pre mv post J N G).
  destruct (Nat.leb_spec k (S (List.length pre))) as [L|L]; [right|left]; (split; [|lia]).
  - intros (q & Q & Lq). apply M in Q. lia.
  - exists (S (List.length pre)). split; [now apply M|exact L].
Qed.

(** All that C83 says, for every well-formed file, whatever is repeated in it, whose tables that count are sound: which atoms move, which positions in the
    file stored in fragments and which distances from the beginning of a fragment stay right, and that the bytes are then the same. *)
Theorem C83_repeated : forall cap fuel m f d items, describes f d -> sound_tables f -> good_sizes f -> storable items -> good_sizes (last_file items f) -> blen (render_all f) < N.of_nat fuel ->
  let w := write_tag cap fuel m items (render_all f) in let move := (Z.of_N (blen (wr_file w)) - Z.of_N (blen (render_all f)))%Z in
  wr_res w = Ok tt /\ exists g, wr_file w = render_all g /\
  (forall k a, nth_error f k = Some a -> a_id a <> id4 "moov" -> nth_error g k = Some a /\
    (behind f k -> Z.of_N (start g k) = Z.of_N (start f k) + move)%Z /\ (~ behind f k -> start g k = start f k)) /\
  (forall k a o j n, nth_error f k = Some a -> fragment_base a o -> within f j o n -> nth_error g k = Some a /\ (same_place f g j o o <-> (behind f j -> move = 0%Z))) /\
  (forall k a (r : Z) o o' j n, nth_error f k = Some a -> a_id a = id4 "moof" -> within f j o n ->
    (Z.of_N o = Z.of_N (start f k) + r)%Z -> (Z.of_N o' = Z.of_N (start g k) + r)%Z -> (same_place f g j o o' <-> ((behind f j <-> behind f k) \/ move = 0%Z))) /\
  (forall j o o' n, within f j o n -> same_place f g j o o' -> slice (render_all g) o' n = slice (render_all f) o n).
Proof.
  intros cap fuel m f d items D So G St G' Fu w move. destruct (live_tiles cap fuel m f items (described_outline f d D) So G St G' Fu) as (W1 & W2). assert (Em : move = last_displacement items f) by (unfold move, w; rewrite W2; reflexivity).
  rewrite Em. clearbody move. unfold w. rewrite W1, W2. split; [reflexivity|]. exists (last_file items f). split; [reflexivity|]. clear move Em.
  pose proof (live_others items f d D So) as Mv. pose proof (live_atoms items f d D So) as At. split; [|split; [|split]].
  - intros k a E Na. split; [exact (At k a E Na)|]. destruct (Mv k a E Na) as [[B X]|[B X]]; split; intros; tauto.
  - intros k a o j n Ek Fb (b & Ej & Nb & S1 & S2). assert (Na : a_id a <> id4 "moov") by (destruct Fb as (Ia & _); rewrite Ia; discriminate). split; [exact (At k a Ek Na)|]. unfold same_place.
    destruct (Mv j b Ej Nb) as [[B X]|[B X]]; split; intros Y; try tauto; try (intros _); try (specialize (Y B)); lia.
  - intros k a r o o' j n Ek Ia (b & Ej & Nb & S1 & S2) Eo Eo'. assert (Na : a_id a <> id4 "moov") by (rewrite Ia; discriminate). unfold same_place.
    destruct (Mv j b Ej Nb) as [[B X]|[B X]]; destruct (Mv k a Ek Na) as [[C Y]|[C Y]]; split; intros Z1; try (left; tauto); try lia; try (right; lia); (destruct Z1 as [Z1|Z1]; [tauto|lia]).
  - intros j o o' n (b & Ej & Nb & S1 & S2) SP. apply (kept_slice f (last_file items f) j b o o' n); [exact Ej|exact (At j b Ej Nb)|exact S1|exact S2|exact SP].
Qed.
Print Assumptions C83_repeated.

(** A fragmented file with two user data atoms. *)
Definition c83_twice : list atom := [ex_ftyp; c04_moov [ex_udta []; ex_udta []]; c83_moof 104; ex_mdat].
Example C83_repeated_example :
  (exists d, describes c83_twice d) /\ sound_tables c83_twice /\ good_sizes c83_twice /\ storable ex_new_items /\ good_sizes (last_file ex_new_items c83_twice) /\ ~ editable c83_twice /\
  last_displacement ex_new_items c83_twice = 173%Z /\ nth_error c83_twice 2 = Some (c83_moof 104) /\ fragment_base (c83_moof 104) 104 /\ within c83_twice 3 104 8 /\ behind c83_twice 3.
Proof.
  split. { eexists. apply (c04_describes [] _ [c83_moof 104; ex_mdat]); try reflexivity; repeat (constructor; [apply box_none; reflexivity|]); constructor. }
  split; [constructor|]. split; [split; vm_compute; reflexivity|]. split; [apply ex_updatable|]. split; [split; vm_compute; reflexivity|].
  split. { intro E. apply Forall_inv in E. destruct E as (_ & O & _). exact (proj1 (Nat.leb_nle 2 1) eq_refl O). }
  split; [vm_compute; reflexivity|]. split; [reflexivity|]. split; [apply c83_base; reflexivity|]. split; [eexists; split; [reflexivity|]; split; [discriminate|]; split; vm_compute; discriminate|].
  exists 1%nat. split; [eexists; split; reflexivity|lia].
Qed.
