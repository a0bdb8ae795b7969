(** Theorems about where in the file the parts of a tag are: C56, and how large they are: C57, see properties.jsonl. *)

From Coq Require Import List NArith ZArith Bool Lia Arith String Permutation.
From Coq Require Import ZifyBool ZifyNat ZifyN.
From Verif Require Import Base BaseLemmas Utf Types Stream Parse TagSpec FileSpec ReadSpec ParseLemmas ReadProofs ReadFacts FailSpec WhereSpec WhereProofs WhereRepeat
  ExampleFile Props_Read Props_Term.
Import ListNotations.
Local Open Scope list_scope.

(** * C56: everything read is in the file *)

(** Whatever the file, well-formed or not: every item is made of parts that are stored in it. *)
Theorem C56_in_file : forall fuel m f t, read_tag fuel m f = Ok t ->
  exists l, merged l (tg_atoms t) /\ Forall (somewhere f) l.
Proof.
  intros fuel m f t H.
  apply (read_list f m fuel (fun l => exists g, l = fold_left ilst_add g [] /\ Forall (somewhere f) g)) in H; [|intros s p l p'; apply ilst_somewhere].
  destruct H as (_ & _ & _ & [(g & -> & F)| ->]).
  - exists g. split; [apply merged_fold|exact F].
  - exists []. split; [apply (merged_fold [])|constructor].
Qed.
Print Assumptions C56_in_file.

(** If no atom has a 64-bit size of 0 or of at least 2^63: the items follow each other in the file in this
    order, and so do the parts of each of them; none of them is used twice. *)
Theorem C56_in_order : forall fuel m f t, blen f < 2 ^ 62 -> tame f -> blen f < N.of_nat fuel -> read_tag fuel m f = Ok t ->
  exists l a b, merged l (tg_atoms t) /\ items_in f a l b.
Proof.
  intros fuel m f t L T F H.
  apply (read_list f m fuel (fun l => exists g a b, l = fold_left ilst_add g [] /\ items_in f a g b)) in H.
  - destruct H as (_ & _ & _ & [(g & a & b & -> & I)| ->]).
    + exists g, a, b. split; [apply merged_fold|exact I].
    + exists [], 0, 0. split; [apply (merged_fold [])|]. constructor. lia.
  - intros s p l p' E. destruct (ilst_order f m L T fuel F s p l p' E) as (g & -> & I). exists g, p, p'. auto.
Qed.
Print Assumptions C56_in_order.

(** The file type is the content of the first atom, the duration is computed from a movie header, and the
    audio parameters are those of descriptors in the file. *)
Theorem C56_file_type : forall fuel m f t, read_tag fuel m f = Ok t -> filetype_at_start f (tg_ftyp t).
Proof. intros fuel m f t H. apply (read_list f m fuel (fun _ => True)) in H; [apply H|auto]. Qed.
Print Assumptions C56_file_type.
Theorem C56_duration : forall fuel m f t d, read_tag fuel m f = Ok t -> ai_duration (tg_info t) = Some d -> duration_somewhere m f d.
Proof. intros fuel m f t d H. apply (read_list f m fuel (fun _ => True)) in H; [|auto]. destruct H as (_ & H & _). apply H. Qed.
Print Assumptions C56_duration.
Theorem C56_audio : forall fuel m f t, read_tag fuel m f = Ok t -> let i := tg_info t in
  ai_channels i = None /\ ai_rate i = None /\ ai_max i = None /\ ai_avg i = None \/
  audio_somewhere f (ai_channels i) (ai_rate i) (ai_max i) (ai_avg i).
Proof. intros fuel m f t H. apply (read_list f m fuel (fun _ => True)) in H; [|auto]. destruct H as (_ & _ & H & _). exact H. Qed.
Print Assumptions C56_audio.

(** * C57: a tag is not larger than its file *)

(** Each value counts with its bytes and twelve more. *)
Definition weight (l : list (data_ident * data)) : N := fold_right (fun v a => 12 + blen (payload (snd v)) + a) 0 l.
Definition part_weight (l : list part) : N := fold_right (fun d a => 12 + blen (payload d) + a) 0 (datas l).
Lemma weight_app : forall a b, weight (a ++ b) = weight a + weight b.
Proof. induction a as [|x a IH]; intros b; [reflexivity|]. unfold weight in *. cbn [app fold_right]. rewrite IH. lia. Qed.
Lemma weight_item : forall id l, weight (every_value [item_of id l]) = part_weight l.
Proof.
  intros id l. unfold every_value. cbn [flat_map]. rewrite app_nil_r. unfold item_of. cbn [ad_ident ad_data]. unfold weight, part_weight.
  induction (datas l) as [|d r IH]; [reflexivity|]. cbn [map fold_right snd]. now rewrite IH.
Qed.
Lemma weight_perm : forall a b, Permutation a b -> weight a = weight b.
Proof. intros a b P. induction P; cbn [weight fold_right] in *; unfold weight in *; lia. Qed.
Lemma slice_whole : forall f p n (x : bytes), slice f p n = x -> blen x = n -> n <> 0 -> p + n <= blen f.
Proof.
  intros f p n x E B N0. unfold slice in E. assert (H : blen (firstn (N.to_nat n) (skipn (N.to_nat p) f)) = n) by now rewrite E.
  unfold blen in *. rewrite firstn_length, skipn_length in H. lia.
Qed.
Lemma part_fits : forall f q n x, part_at f q n x -> q <= q + n /\ part_weight [x] <= n /\ q + part_weight [x] <= blen f.
Proof.
  intros f q n x H. split; [lia|]. destruct x as [d|s|s]; [|unfold part_weight; cbn [datas flat_map app fold_right]; destruct H as (_ & hd & (L & _) & _); lia ..].
  destruct H as (_ & hd & odd & (L & _ & Hh) & S & Sz & P & _). unfold part_weight. cbn [datas flat_map app fold_right].
  assert (8 <= hd) by lia. pose proof (blen_app (payload d) odd) as Ba.
  assert (Q4 : q + hd + 4 <= blen f) by (eapply slice_whole; [exact S| |lia]; rewrite blen_cons, blen_be; reflexivity).
  split; [lia|]. destruct (N.eq_dec (blen (payload d ++ odd)) 0) as [Z|Z]; [lia|].
  pose proof (slice_whole _ _ _ _ P eq_refl Z). lia.
Qed.
Lemma parts_fit : forall f a l b, parts_in f a l b -> a <= b /\ part_weight l <= b - a /\ (l <> [] -> a + part_weight l <= blen f).
Proof.
  intros f a l b I. induction I as [a b L|a q n x r b L P I (IH1 & IH2 & IH3)].
  - split; [exact L|]. split; [cbn; lia|congruence].
  - apply part_fits in P. assert (W : part_weight (x :: r) = part_weight [x] + part_weight r).
    { unfold part_weight. cbn [datas flat_map]. rewrite app_nil_r. fold (datas r). destruct x; cbn [app fold_right]; lia. }
    rewrite W. split; [lia|]. split; [lia|]. intros _. destruct r as [|y r]; [change (part_weight []) with 0; lia|].
    specialize (IH3 ltac:(discriminate)). lia.
Qed.
Lemma items_fit : forall f a l b, items_in f a l b -> a <= b /\ weight (every_value l) <= b - a /\ (l <> [] -> a + weight (every_value l) <= blen f).
Proof.
  intros f a l b I. induction I as [a b L|a p id hd n l c r b L B Nf P D I (IH1 & IH2 & IH3)].
  - split; [exact L|]. split; [cbn; lia|congruence].
  - apply parts_fit in P. assert (W : weight (every_value (item_of id l :: r)) = part_weight l + weight (every_value r)).
    { rewrite <- (weight_item id l), <- weight_app. f_equal. unfold every_value. cbn [flat_map]. now rewrite app_nil_r. }
    rewrite W. assert (l <> []) by (intros ->; apply D; reflexivity). destruct P as (P1 & P2 & P3). specialize (P3 H). split; [lia|]. split; [lia|]. intros _.
    destruct r as [|y r]; [change (weight (every_value [])) with 0; lia|]. specialize (IH3 ltac:(discriminate)). lia.
Qed.
Theorem C57_no_larger : forall fuel m f t, blen f < 2 ^ 62 -> tame f -> blen f < N.of_nat fuel -> read_tag fuel m f = Ok t ->
  weight (every_value (tg_atoms t)) <= blen f.
Proof.
  intros fuel m f t L T F H. destruct (C56_in_order fuel m f t L T F H) as (l & a & b & M & I).
  rewrite (weight_perm _ _ (merged_values _ _ M)). apply items_fit in I. destruct l; [cbn; lia|]. destruct I as (_ & _ & I). specialize (I ltac:(discriminate)). lia.
Qed.
Print Assumptions C57_no_larger.

(** Not in general: a file of 93 bytes in which one value is read any number of times. *)
Theorem C57_refuted : forall k m fuel, 26 * k < 2 ^ 63 -> k + 3 <= N.of_nat fuel ->
  blen (repeat_file k) = 93 /\
  exists t, read_tag fuel m (repeat_file k) = Ok t /\ weight (every_value (tg_atoms t)) = 13 * k.
Proof.
  intros k m fuel K F. split; [reflexivity|]. eexists. split; [apply repeat_reads; assumption|]. cbn [tg_atoms].
  rewrite <- (N2Nat.id k) at 2. destruct (N.to_nat k) as [|n]; [reflexivity|]. unfold copies, every_value. cbn [flat_map ad_ident ad_data]. rewrite app_nil_r.
  induction (S n) as [|j IH]; [reflexivity|]. cbn [repeat map]. unfold weight in *. cbn [fold_right snd]. rewrite IH. change (blen (payload (DReserved [n2b 42]))) with 1. lia.
Qed.
Print Assumptions C57_refuted.

(** A file with much that is wrong with it that is read nonetheless: sizes that do not add up, and text behind the end
    of the movie atom. *)
Definition odd_file : bytes :=
  (be 4 8 ++ fc_bytes (id4 "ftyp")) ++ (be 4 9 ++ fc_bytes (id4 "moov")) ++ (be 4 9 ++ fc_bytes (id4 "udta")) ++
  (be 4 13 ++ fc_bytes (id4 "meta") ++ be 4 0) ++ (be 4 9 ++ fc_bytes (id4 "ilst")) ++ (be 4 9 ++ fc_bytes (id4 "what")) ++
  (be 4 17 ++ fc_bytes (id4 "data") ++ be 4 1 ++ be 4 0 ++ [n2b 65]).
Example C56_example :
  read_tag 1000 Checked (render_all ex_file) = Ok ex_tag /\ tame (render_all ex_file) /\ tg_atoms ex_tag <> [] /\
  read_tag 1000 Checked odd_file = Ok (Tag [] (AudioInfo None None None None None) [AtomData (IFourcc (id4 "what")) [DUtf8 [65]]]) /\ tame odd_file /\
  weight (every_value [AtomData (IFourcc (id4 "what")) [DUtf8 [65]]]) = 13 /\ blen odd_file = 69 /\
  read_tag 1000 Checked (repeat_file 9) = Ok (Tag [] (AudioInfo None None None None None) [AtomData (IFourcc (id4 "what")) (repeat (DReserved [n2b 42]) 9)]).
Proof.
  split; [vm_compute; reflexivity|]. split; [apply tameb_ok; vm_compute; reflexivity|]. split; [vm_compute; discriminate|]. split; [vm_compute; reflexivity|].
  split; [apply tameb_ok; vm_compute; reflexivity|]. repeat split; vm_compute; reflexivity.
Qed.
