(** Theorems about the bytes calls leave in a file: C79 (see properties.jsonl). *)

From Coq Require Import List NArith ZArith Bool Lia Arith String.
From Coq Require Import ZifyBool ZifyNat ZifyN.
From Coq Require Strings.Byte.
From Verif Require Import Base BaseLemmas Utf UtfLemmas Types Stream Parse Find Write TagApi TagOps TagSpec TagOpsSpec TagLemmas TagProofs TagAccess TagRefine
  FileSpec ParseLemmas ReadProofs ExampleFile ReadFacts NewMeans WriteBytes DumpProofs WriteState ScanProofs AdjustProofs WriteProofs WriteMain UpdateMeans UpdateTwice
  EditSpec EditProofs OffsetProofs WriteExample StoreSpec StoreProofs SizeProofs Props_Read Props_ReadErr Props_Dump Props_Write Props_Write2 Props_Write3
  WireSpec WireProofs.
Import ListNotations.
Local Open Scope list_scope.

(** * C79: what calls leave in the file, byte for byte *)

(** Every sequence of methods that take no function changes names, type codes and payloads in the one
    way [effects] allows. *)
Theorem C79_calls : forall l ops w, unique_idents l -> Forall plain ops ->
  (effects ops (seen l) w <-> w = seen (TagOps.run_ops l ops)).
Proof.
  intros l ops w U P. pose proof (run_effects ops l U P) as R. split; [intro E; exact (effects_fun _ _ _ _ E R)|intros ->; exact R].
Qed.
Print Assumptions C79_calls.

(** Written to a file, exactly these bytes are its item list, and nothing else about it changes but
    what [file_edit] says. *)
Theorem C79_file : forall cap fuel m f t l ops w,
  describes f t -> good_sizes f -> editable f -> source l -> Forall careful ops -> Forall plain ops ->
  effects ops (seen l) w -> let size := blen (render_all f) + blen (flat_map entry_bytes w) + 85 in
  size < 2 ^ 32 -> size < N.of_nat fuel ->
  let r := write_tag cap fuel m (TagOps.run_ops l ops) (render_all f) in
  wr_res r = Ok tt /\
  exists g, tiles (wr_file r) g /\ file_edit f g /\ item_list g (flat_map entry_bytes w).
Proof.
  intros cap fuel m f t l ops w D G E S C P Ef size L Fu r.
  assert (Sl : storable l) by (destruct S as [->|(f0 & t0 & D0 & U0 & ->)]; [split; constructor|exact (read_storable f0 t0 D0 U0)]).
  apply (C79_calls l ops w (proj1 Sl) P) in Ef. subst w.
  pose proof (storable_run_ops ops l Sl C) as Si. set (items := TagOps.run_ops l ops) in *.
  assert (Z : blen (flat_map entry_bytes (seen items)) = announced items).
  { rewrite entries_render. apply ilst_content, storable_exact, Si. }
  assert (L' : blen (render_all f) + announced items + 85 < 2 ^ 32) by (unfold size in L; lia).
  pose proof (small_updatable f t items D G E Si L') as Up.
  destruct (write_ok cap fuel m f items Up ltac:(unfold size in Fu; lia)) as (o & W & _). subst r. rewrite W. split; [reflexivity|]. cbn [wr_file].
  exists (update_file items f). destruct Up as (_ & _ & _ & G'). split; [apply render_tiles, G'|]. split; [exact (file_edit_update items f t D E)|].
  exact (update_file_list items f t D E).
Qed.
Print Assumptions C79_file.

(** What the methods that look at a tag say, in terms of the type codes and bytes. *)
Lemma stored_seen : forall l k, stored (seen l) k = map seen_value (values l k).
Proof. induction l as [|a l IH]; intro k; [reflexivity|]. rewrite seen_cons. cbn [stored values fst snd]. destruct (ident_dec (ad_ident a) k); [reflexivity|apply IH]. Qed.

Lemma textual_seen : forall d, textual (seen_value d) = match d with DUtf8 _ | DUtf16 _ => true | _ => false end.
Proof. destruct d; reflexivity. Qed.
Lemma image_seen : forall d, image (seen_value d) = match d with DJpeg _ | DPng _ | DBmp _ => true | _ => false end.
Proof. destruct d; reflexivity. Qed.
Lemma numbers_seen : forall d, map snd (filter number (map seen_value d)) = filter_map data_bytes d.
Proof. induction d as [|x d IH]; [reflexivity|]. cbn [map filter filter_map]. rewrite number_seen. destruct x; cbn; rewrite ?IH; reflexivity. Qed.
Lemma texts_seen : forall d, Forall2 reads_text (filter textual (map seen_value d)) (filter_map data_string d).
Proof.
  induction d as [|x d IH]; [constructor|]. cbn [map filter filter_map]. rewrite textual_seen.
  destruct x; cbn; try exact IH; constructor; try exact IH; [left|right]; reflexivity.
Qed.
Lemma images_seen : forall d, Forall2 (fun v x => picture x = v) (filter image (map seen_value d)) (filter_map data_image d).
Proof.
  induction d as [|x d IH]; [constructor|]. cbn [map filter filter_map]. rewrite image_seen.
  destruct x; cbn; try exact IH; constructor; try exact IH; reflexivity.
Qed.
Lemma bytes_at_seen : forall l i, bytes_at (seen l) (named i) = first (bytes_of l i).
Proof.
  intros l i. unfold bytes_at, bytes_of. rewrite stored_seen, data_of_values, <- numbers_seen. destruct (filter number _); reflexivity.
Qed.
Lemma field_is : forall k v, nonzero (be_int v k 2) = field k v.
Proof.
  intros k v. unfold be_int, field. assert (L : (List.length (skipn k v) = List.length v - k)%nat) by apply skipn_length.
  destruct (skipn k v) as [|a [|b r]] eqn:E; cbn [List.length] in L.
  - replace (Nat.ltb (List.length v) (k + 2)) with true by (symmetry; apply Nat.ltb_lt; lia). reflexivity.
  - replace (Nat.ltb (List.length v) (k + 2)) with true by (symmetry; apply Nat.ltb_lt; lia). reflexivity.
  - replace (Nat.ltb (List.length v) (k + 2)) with false by (symmetry; apply Nat.ltb_ge; lia). cbn [firstn nonzero].
    replace (unbe [a; b]) with (256 * b2n a + b2n b) by (unfold unbe; cbn; lia). reflexivity.
Qed.

Theorem C79_getters : forall l i,
  Forall2 reads_text (filter textual (stored (seen l) (named i))) (get_strings i l) /\
  get_string i l = hd_error (get_strings i l) /\
  (get_flag i l = true <-> exists r, bytes_at (seen l) (named i) = Some (Byte.x01 :: r)) /\
  (forall k, get_int k i l = match bytes_at (seen l) (named i) with
     | Some v => if (k <=? List.length v)%nat then Some (unbe (firstn k v)) else None
     | None => None end) /\
  Forall2 (fun v x => picture x = v) (filter image (stored (seen l) covr)) (artworks l) /\
  (forall x, get_media_type l = Some x <-> exists r, bytes_at (seen l) stik = Some (be 1 (media x) ++ r)) /\
  (forall x, get_advisory_rating l = Some x <-> exists b r, bytes_at (seen l) rtng = Some (b :: r) /\
     match x with RInoffensive => b = Byte.x00 | RClean => b = Byte.x02 | RExplicit => b <> Byte.x00 /\ b <> Byte.x02 end) /\
  (forall k, get_pair (pair_ident k) l = match bytes_at (seen l) (pair_code k) with
     | Some v => (field 2 v, field 4 v) | None => (None, None) end) /\
  standard_genres l = flat_map code_of (filter number (stored (seen l) gnre)) /\
  Forall2 reads_text (filter textual (stored (seen l) cgen)) (custom_genres l).
Proof.
  intros l i. rewrite !stored_seen.
  split; [unfold get_strings, strings_of; rewrite data_of_values; apply texts_seen|].
  split; [unfold get_string, get_strings; destruct (strings_of l i); reflexivity|].
  split. { rewrite bytes_at_seen. unfold get_flag. destruct (first (bytes_of l i)) as [[|b v]|].
    - split; [discriminate|intros (r & E); discriminate].
    - split; [intro H; exists v; do 2 f_equal; apply b2n_inj; change (b2n Byte.x01) with 1; lia|]. intros (r & E). injection E as -> _. reflexivity.
    - split; [discriminate|intros (r & E); discriminate]. }
  split. { intro k. rewrite bytes_at_seen. unfold get_int. destruct (first (bytes_of l i)) as [v|]; [|reflexivity]. unfold be_int. cbn [Nat.add skipn].
    destruct (Nat.leb_spec k (List.length v)); [replace (Nat.ltb (List.length v) k) with false by (symmetry; apply Nat.ltb_ge; lia)|
      replace (Nat.ltb (List.length v) k) with true by (symmetry; apply Nat.ltb_lt; lia)]; reflexivity. }
  split; [unfold artworks, images_of; rewrite data_of_values; apply images_seen|].
  split. { intro x. change stik with (named (AFourcc MEDIA_TYPE)). rewrite bytes_at_seen. unfold get_media_type.
    destruct (first (bytes_of l (AFourcc MEDIA_TYPE))) as [[|b v]|].
    - split; [discriminate|intros (r & E); destruct x; discriminate].
    - rewrite media_of_inv. split; [intro H; exists v; rewrite <- media_is, <- H, n2b_b2n; reflexivity|].
      intros (r & E). rewrite <- media_is in E. injection E as -> _. destruct x; reflexivity.
    - split; [discriminate|intros (r & E); discriminate]. }
  split. { intro x. change rtng with (named (AFourcc ADVISORY_RATING)). rewrite bytes_at_seen. unfold get_advisory_rating.
    destruct (first (bytes_of l (AFourcc ADVISORY_RATING))) as [[|b v]|].
    - split; [discriminate|intros (? & ? & E & _); discriminate].
    - split.
      + intro H. exists b, v. split; [reflexivity|]. injection H as <-. destruct b; cbn; try reflexivity; split; discriminate.
      + intros (b' & r & E & H). injection E as <- _. f_equal. destruct x; [subst; reflexivity|subst; reflexivity|]. destruct H as [H1 H2].
        destruct b; cbn; try reflexivity; contradiction.
    - split; [discriminate|intros (? & ? & E & _); discriminate]. }
  split. { intro k. rewrite <- pair_named, bytes_at_seen. unfold get_pair, tnumber, ttotal. destruct (first (bytes_of l (pair_ident k))) as [v|]; [|reflexivity].
    rewrite !field_is. reflexivity. }
  split; [|unfold custom_genres, get_strings, strings_of; rewrite data_of_values; apply texts_seen].
  unfold standard_genres, bytes_of. rewrite data_of_values. change (named (AFourcc STANDARD_GENRE)) with gnre.
  rewrite <- numbers_seen. induction (filter number (map seen_value (values l gnre))) as [|[c b] d IH]; [reflexivity|].
  cbn [map filter_map flat_map snd code_of]. destruct b as [|p [|q b]]; [exact IH|exact IH|]. cbn [app]. rewrite <- IH.
  replace (unbe [p; q]) with (256 * b2n p + b2n q) by (unfold unbe; cbn; lia). reflexivity.
Qed.
Print Assumptions C79_getters.
Definition c79_ops : list tag_op :=
  [OpSetPair false 3 12; OpSetArtwork (Img FPng (raw [137; 80])); OpSetMediaType MTAudioBook; OpAddGenre (str "Dub"); OpTakeGenre].
Example C79_example :
  source ex_items /\ Forall careful c79_ops /\ Forall plain c79_ops /\ describes ex_file ex_tag /\ good_sizes ex_file /\ editable ex_file /\
  let w := seen (TagOps.run_ops ex_items c79_ops) in
  effects c79_ops (seen ex_items) w /\ blen (render_all ex_file) + blen (flat_map entry_bytes w) + 85 < 2000.
Proof.
  split; [right; exists ex_file, ex_tag; split; [exact ex_describes|split; [exact ex_no_utf16|reflexivity]]|].
  split. { unfold c79_ops. repeat constructor; cbn; discriminate. } split; [repeat constructor|].
  split; [exact ex_describes|]. split; [exact ex_sizes|]. split; [exact ex_editable|]. split; [|vm_compute; reflexivity].
  apply C79_calls; [|repeat constructor|reflexivity]. unfold unique_idents. repeat constructor; cbn; intuition discriminate.
Qed.
(** A track number set in a new tag: 30 bytes. *)
Example C79_example_bytes :
  flat_map entry_bytes (seen (TagOps.run_ops [] [OpSetPair false 3 12])) =
  raw [0; 0; 0; 30; 116; 114; 107; 110; 0; 0; 0; 22; 100; 97; 116; 97; 0; 0; 0; 0; 0; 0; 0; 0; 0; 0; 0; 3; 0; 12] /\
  effects [OpSetPair false 3 12; OpRemovePairNumber false] [] [(pair_code false, [(0, raw [0; 0; 0; 0; 0; 12])])] /\
  get_pair (pair_ident false) (TagOps.run_ops [] [OpSetPair false 3 12]) = (field 2 (raw [0; 0; 0; 3; 0; 12]), Some 12).
Proof.
  split; [vm_compute; reflexivity|]. split; [|vm_compute; reflexivity].
  apply (C79_calls [] [OpSetPair false 3 12; OpRemovePairNumber false]); [constructor|repeat constructor|vm_compute; reflexivity].
Qed.
