(** Files with a few bytes behind the last atom. *)

From Coq Require Import List NArith ZArith Bool Lia Arith String.
From Coq Require Import ZifyBool ZifyNat ZifyN.
From Verif Require Import Base BaseLemmas Utf UtfLemmas Types Stream Parse Find Write TagSpec FileSpec ParseLemmas ReadSpec ReadFacts ReadProofs ReadTerm ScanProofs RepairSpec RepairProofs.
Import ListNotations.
Local Open Scope list_scope.

Lemma head_short : forall f p, p <= blen f -> blen f < p + 8 -> parse_head f p = Err EIoEof.
Proof.
  intros f p L1 L2. unfold parse_head, read_u32, bind, read_exact. change (4 =? 0) with false. cbv iota.
  destruct (p + 4 <=? blen f) eqn:E; [|reflexivity]. unfold ret. rewrite (proj2 (N.leb_gt (p + 4 + 4) (blen f))) by lia. reflexivity.
Qed.

Lemma scan_tail : forall fuel m g s mv z, shell g s mv -> forallb fits g = true -> blen (render_all g ++ z) < 2 ^ 62 -> 0 < blen z < 8 ->
  blen (render_all g ++ z) < N.of_nat fuel -> scan fuel m (render_all g ++ z) 0 = Err EIoEof.
Proof.
  intros fuel m g s mv z Sh F Sm Z Fu. destruct Sh as (ft & pre & post & -> & I & W & C & J & N & P & T & U). set (f := render_all (ft :: pre ++ mv :: post) ++ z) in *. change (small f) in Sm.
  cbn [forallb] in F. apply andb_true_iff in F. destruct F as [Fft F]. set (rest := pre ++ mv :: post) in *.
  assert (Ef : f = render ft ++ render_all rest ++ z) by (unfold f; rewrite render_all_cons, <- app_assoc; reflexivity).
  assert (Pf : ftyp_parse m f 0 = Ok (s, asize ft)).
  { pose proof (ftyp_parses m ft s Fft I W C f 0 Sm) as X. rewrite N.add_0_l in X. apply X. exists [], (render_all rest ++ z). auto. }
  assert (S : sits f (asize ft) (render_all rest)) by (exists (render ft), z; auto).
  assert (B : blen f = asize ft + blen (render_all rest) + blen z) by (rewrite Ef, !blen_app; fold (asize ft); lia).
  assert (Len : remaining_stream_len m f (asize ft) = Ok (blen (render_all rest) + blen z, asize ft)).
  { unfold remaining_stream_len, bind, position, seek_end, lift. rewrite sub64_ok by lia. unfold seek_start. unfold small in Sm.
    rewrite (proj2 (N.ltb_lt _ two63)) by (unfold two63; lia). unfold ret. do 2 f_equal. lia. }
  assert (R : forall k, In k rest -> ready fuel k).
  { intros k X. split.
    - rewrite forallb_forall in F. apply F, X.
    - unfold fuel_for. apply kid_in_size in X. rewrite asize_eq in X. lia. }
  rewrite named_app in N. apply app_eq_nil in N. destruct N as [N1 N2].
  assert (St : psteps (top_fbody fuel m) f (asize ft) rest (None, None)
    (last_of moov_at (id4 "moov") (asize ft) rest None, last_of bounds_of (id4 "mdat") (asize ft) rest None)).
  { apply (top_finds fuel m f Sm rest (asize ft) (None, None) S). unfold rest. rewrite named_app, named_cons, N1, N2.
    rewrite (proj2 (is_named_eq _ _) J). constructor; [|constructor]. apply moov_finds; [exact Sm|apply R|split; [exact P|split; assumption]]. apply in_or_app. right. left. reflexivity. }
  unfold scan. erewrite bind_ok by exact Pf. erewrite bind_ok by exact Len. unfold bind at 1.
  rewrite (loop_prefix m (top_fbody fuel m) rest fuel (blen (render_all rest) + blen z) 0 (None, None) _ f (asize ft) Sm F St S); try lia.
  - assert (Lr : (List.length rest < fuel)%nat) by (pose proof (kids_count rest) as K; unfold blen in K at 1; lia).
    destruct (fuel - List.length rest)%nat as [|n] eqn:E; [lia|]. cbn [atom_loop]. unfold bind at 1, lift at 1. rewrite (proj2 (N.ltb_lt _ _)) by lia.
    unfold bind at 1. rewrite head_short by lia. reflexivity.
  - unfold small in Sm. assert (2 ^ 62 < 2 ^ 64) by reflexivity. lia.
  - pose proof (kids_count rest) as K. unfold blen in K at 1. lia.
Qed.

Lemma write_tail : forall cap fuel m g s mv z items, shell g s mv -> forallb fits g = true -> blen (render_all g ++ z) < 2 ^ 62 -> 0 < blen z < 8 ->
  blen (render_all g ++ z) < N.of_nat fuel -> write_tag cap fuel m items (render_all g ++ z) = WResult (Err EIoEof) (render_all g ++ z) [].
Proof.
  intros cap fuel m g s mv z items Sh F Sm Z Fu. unfold write_tag, write_tag_to, prepare. unfold bind at 1. rewrite (scan_tail fuel m g s mv z Sh F Sm Z Fu). reflexivity.
Qed.
