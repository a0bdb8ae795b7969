(** What is read of items with UTF-16 text that have been written to a file. *)

From Coq Require Import List NArith ZArith Bool Lia Arith String.
From Coq Require Import ZifyBool ZifyNat ZifyN.
From Verif Require Import Base BaseLemmas Utf UtfLemmas Types Stream Parse Find Write TagSpec FileSpec ParseLemmas ReadSpec ReadFacts ReadProofs ScanProofs NewMeans UpdateMeans WriteBytes Utf16Proofs WOutSpec WOutPlan
  RepairSpec RepairProofs SpillSpec SpillProofs SpillPlace SpillMain.
Import ListNotations.
Local Open Scope list_scope.

Lemma list_front_len : forall pre it post ds s r, exact_items pre -> ad_data it = ds ++ DUtf16 s :: r -> Forall exact_data ds ->
  blen (list_front pre it ds s) <= list_len (pre ++ it :: post).
Proof.
  intros pre it post ds s r P A F. pose proof (front_size it ds s r A F) as Z. unfold list_front, front. rewrite !blen_app, blen_be, blen_fc, (ilst_content pre P).
  rewrite <- list_len_is, map_app, nsum_app. cbn [map]. assert (C : forall x l, nsum (x :: l) = x + nsum l) by reflexivity. rewrite C.
  unfold stub. rewrite !blen_app, !blen_be, !blen_fc, ?blen_cons, ?blen_app, ?blen_be, ?blen_zeros. lia.
Qed.

Lemma cut_never : forall items a l, describable items -> lossy items -> Forall (fun i => ad_len i < 2 ^ 32) items -> fits a = true -> blen (render a) < 2 ^ 62 ->
  a_content a = firstn (announced items) (all_bytes items) -> ilst_means a l -> l <> items.
Proof.
  intros items a l D Lo L32 Fa La Ca Me. destruct (lossy_or items) as [E|(pre & it & post & ds & s & r & Ei & P & A & F & Ne)]; [apply exact_not_lossy in E; contradiction|].
  pose proof (raw_list_front pre it post ds s r P A F) as [g Hg]. pose proof (list_front_len pre it post ds s r P A F) as Lf. rewrite <- Ei in Hg, Lf. rewrite <- all_bytes_raw in Hg.
  assert (Ln : csize a = list_len items).
  { unfold csize. rewrite Ca. pose proof (all_bytes_len items) as X. unfold blen, announced in *. rewrite firstn_length. lia. }
  pose (fuel := S (N.to_nat (blen (render a)))). assert (Fu : blen (render a) < N.of_nat fuel) by lia. clearbody fuel.
  assert (Ff : fuel_for fuel a). { unfold fuel_for. fold (asize a) in Fu. rewrite asize_eq in Fu. pose proof (hlen_pos a). lia. }
  pose proof (ilst_kid fuel Checked a l Fa Ff Me) as K.
  assert (Si : sits (render a) 0 (render a)) by (exists [], []; rewrite app_nil_r; split; reflexivity).
  assert (Sf : sits (render a) (0 + hlen a) (list_front pre it ds s)).
  { pose proof (sits_content _ _ _ Si) as Sc. rewrite Ca, Hg in Sc. rewrite firstn_app, firstn_all2 in Sc by (unfold blen, announced in *; lia). apply sits_app in Sc. apply Sc. }
  specialize (K (render a) 0 La Si). rewrite Ei. rewrite Ei in D, L32. revert K.
  assert (Cl : content_len Checked (size_of a) = Ok (nsum (map ad_len (pre ++ it :: post)))) by (rewrite content_len_of, Ln, <- list_len_is, Ei; reflexivity).
  assert (Lx : nsum (map ad_len (pre ++ it :: post)) < 2 ^ 62). { rewrite <- Ei, list_len_is, <- Ln. fold (asize a) in La. rewrite asize_eq in La. lia. }
  exact (ilst_wrong fuel Checked pre it post ds s r (size_of a) (render a) (0 + hlen a) l _ D L32 P A F Ne La Sf Fu Lx Cl).
Qed.

(** The list of a file around one list. *)
Lemma relist_list : forall c a t, a_id a = id4 "ilst" -> alone c -> describes (relist c a) t -> ilst_means a (tg_atoms t).
Proof.
  intros c a t I (N1 & N2 & U1 & U2 & M1 & M2 & I1 & I2) (ft & pre & mv & post & E & _ & _ & _ & J & N & Mm).
  destruct (relist_parts c a ft pre mv post E N) as (-> & -> & -> & ->). destruct Mm as (_ & dur & auds & uo & _ & _ & Lu & _ & Ei).
  destruct Lu as (l & F & ->). cbn [relist_moov a_kids] in F. rewrite named_app, named_this, U1, U2 in F by reflexivity. cbn [app] in F.
  inversion F as [|u x us xs Hu F']; subst. inversion F'; subst. cbn [last_opt fold_left] in Ei.
  destruct Hu as (_ & oo & (l & F2 & ->) & ->). cbn [relist_udta a_kids] in F2. rewrite named_app, named_this, M1, M2 in F2 by reflexivity. cbn [app] in F2.
  inversion F2 as [|e y es ys He F3]; subst. inversion F3; subst. cbn [last_opt fold_left join] in Ei.
  destruct He as (_ & l & F4 & ->). cbn [relist_meta a_kids] in F4. rewrite named_app, named_this, I1, I2 in F4 by exact I. cbn [app] in F4.
  inversion F4 as [|i z is zs Hi F5]; subst. inversion F5; subst. cbn [last_opt fold_left] in Ei.
  rewrite Ei. exact Hi.
Qed.
