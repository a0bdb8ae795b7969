(** The plan of writing to an arbitrary file, and the bytes that are written for the items, are those of WOutSpec.v. *)

From Coq Require Import List NArith ZArith Bool Lia Arith String.
From Coq Require Import ZifyBool ZifyNat ZifyN.
From Verif Require Import Base BaseLemmas Utf UtfLemmas Types Stream Parse Find Write TagSpec FileSpec ParseLemmas FailSpec PanicSpec WPanicSpec Display Described ErrSpec FirstSpec OutSpec LayoutSpec WOutSpec.
From Verif Require OutBase OutUnique WOutUnique LayoutProofs LayoutWrite WriteTerm ReadFacts.
Import ListNotations.
Local Open Scope list_scope.

(** * Signed numbers *)

Lemma as_i64_is : forall n, as_i64 n = signed n.
Proof. intros n. unfold as_i64, signed. assert (W : two63 = 2 ^ 63) by reflexivity. assert (V : Z.of_N two64 = (2 ^ 64)%Z) by reflexivity. now rewrite W, V. Qed.
Lemma i_as_u64_is : forall z, i_as_u64 z = unsigned z.
Proof. intros z. unfold i_as_u64, unsigned. assert (V : Z.of_N two64 = (2 ^ 64)%Z) by reflexivity. now rewrite V. Qed.
Lemma in_i64_is : forall z, in_i64 z = true <-> in_range z.
Proof.
  intros z. unfold in_i64, in_range. assert (W : Z.of_N two63 = (2 ^ 63)%Z) by reflexivity. rewrite W. lia.
Qed.
Lemma unsigned_lt : forall z, unsigned z < 2 ^ 64.
Proof. intros z. unfold unsigned. pose proof (Z.mod_pos_bound z (2 ^ 64) ltac:(lia)). assert (W : Z.of_N (2 ^ 64) = (2 ^ 64)%Z) by reflexivity. lia. Qed.
Lemma signed_range : forall n, n < 2 ^ 64 -> in_range (signed n).
Proof. intros n L. unfold signed, in_range. destruct (n <? 2 ^ 63) eqn:E; lia. Qed.
Lemma unsigned_signed : forall n, n < 2 ^ 64 -> unsigned (signed n) = n.
Proof.
  intros n L. unfold signed, unsigned. destruct (n <? 2 ^ 63) eqn:E.
  - rewrite Z.mod_small by lia. lia.
  - replace (Z.of_N n - 2 ^ 64)%Z with (Z.of_N n + (-1) * 2 ^ 64)%Z by lia. rewrite Z.mod_add by lia. rewrite Z.mod_small by lia. lia.
Qed.
Lemma signed_mod : forall n, ((signed n) mod 2 ^ 64 = Z.of_N n mod 2 ^ 64)%Z.
Proof.
  intros n. unfold signed. destruct (n <? 2 ^ 63) eqn:E; [reflexivity|].
  replace (Z.of_N n - 2 ^ 64)%Z with (Z.of_N n + (-1) * 2 ^ 64)%Z by lia. now rewrite Z.mod_add by lia.
Qed.
Lemma wrap_is : forall z, in_range (wrap_i64 z) /\ unsigned (wrap_i64 z) = unsigned z.
Proof.
  intros z. unfold wrap_i64. rewrite as_i64_is, i_as_u64_is. pose proof (unsigned_lt z) as L. split; [now apply signed_range|now apply unsigned_signed].
Qed.
Lemma turn_is : forall m z, (exists c, turned m z c /\ (if in_i64 z then Ok z else match m with Checked => Panic POverflow | Wrapping => Ok (wrap_i64 z) end) = Ok c) \/
  too_big m z /\ (if in_i64 z then Ok z else match m with Checked => Panic POverflow | Wrapping => Ok (wrap_i64 z) end) = Panic POverflow.
Proof.
  intros m z. destruct (in_i64 z) eqn:E.
  - left. exists z. split; [|reflexivity]. left. split; [now apply in_i64_is|reflexivity].
  - assert (N : ~ in_range z) by (intros H; apply in_i64_is in H; congruence). destruct m; [right; split; [split; [reflexivity|exact N]|reflexivity]|].
    left. exists (wrap_i64 z). split; [|reflexivity]. right. destruct (wrap_is z) as [A B]. auto.
Qed.
Lemma addi_is : forall m a b, (exists c, turned m (a + b) c /\ addi m a b = Ok c) \/ too_big m (a + b) /\ addi m a b = Panic POverflow.
Proof. intros m a b. exact (turn_is m (a + b)). Qed.
Lemma subi_is : forall m b, (exists c, turned m (- b) c /\ subi m 0 b = Ok c) \/ too_big m (- b) /\ subi m 0 b = Panic POverflow.
Proof. intros m b. exact (turn_is m (- b)). Qed.
Lemma turned_zero : forall m, turned m 0 0. Proof. intros m. left. split; [unfold in_range; lia|reflexivity]. Qed.
Lemma turned_mod : forall m a c, turned m a c -> unsigned c = unsigned a.
Proof. intros m a c [[_ ->]|(_ & _ & _ & E)]; [reflexivity|exact E]. Qed.
Lemma turned_not : forall m a c, turned m a c -> ~ too_big m a.
Proof. intros m a c T B. exact (WOutUnique.turned_big _ _ _ T B). Qed.

(** * Lengths *)

Lemma sz_from : forall n, sz_len (size_from n) = new_size n.
Proof.
  intros n. unfold size_from, new_size. cbn [sz_len]. assert (W : 2 ^ 32 = 4294967295 + 1) by reflexivity. rewrite W.
  destruct (4294967295 <? n + 8) eqn:A; destruct (4294967295 + 1 <=? n + 8) eqn:B; lia.
Qed.
Lemma ext_from : forall n, sz_ext (size_from n) = (2 ^ 32 <=? n + 8).
Proof.
  intros n. unfold size_from. cbn [sz_ext]. assert (W : 2 ^ 32 = 4294967295 + 1) by reflexivity. rewrite W.
  destruct (4294967295 <? n + 8) eqn:A; destruct (4294967295 + 1 <=? n + 8) eqn:B; lia.
Qed.
Lemma units_len : forall l, blen (flat_map (be 2) l) = 2 * blen l.
Proof. induction l as [|x l IH]; [reflexivity|]. cbn [flat_map]. rewrite blen_app, blen_be, IH. unfold blen. cbn [List.length]. lia. Qed.
Lemma value_len_is : forall d, data_len d = value_len d.
Proof. intros [v|s|s|v|v|v|v]; try reflexivity. unfold value_len. cbn [data_len payload]. rewrite units_len, N.mul_comm, N.div_mul by discriminate. reflexivity. Qed.
Lemma item_len_is : forall a, ad_len a = item_len a.
Proof.
  intros a. unfold ad_len, item_len, nsum, name_len. rewrite (map_ext (fun d => 16 + data_len d) (fun d => 16 + value_len d)) by (intros d; now rewrite value_len_is).
  destruct (ad_ident a); lia.
Qed.
Lemma list_len_is : forall items, nsum (map ad_len items) = list_len items.
Proof. intros items. unfold list_len. rewrite (map_ext ad_len item_len) by apply item_len_is. reflexivity. Qed.
Lemma meta_len_is : forall items, meta_size (NewMeta (Some meta_hdlr) items) = size_from (meta_content items).
Proof.
  intros items. unfold meta_size. cbn [nm_hdlr nm_ilst hdlr_len_or_zero]. unfold ilst_size. rewrite sz_from, list_len_is. f_equal. unfold meta_content.
  assert (E : sz_len (hdlr_size meta_hdlr) = 33) by reflexivity. rewrite E. lia.
Qed.
Lemma boxes_len : forall items mo, new_atoms_len (LayoutWrite.new_boxes items mo) = pieces_len items mo.
Proof.
  intros items mo. unfold LayoutWrite.new_boxes, pieces_len. destruct (user_data mo) as [u|]; [destruct (metadata mo) as [e|]|]; cbn [new_atoms_len].
  - unfold ilst_size. rewrite sz_from, list_len_is. now destruct (final _ _).
  - now rewrite meta_len_is, sz_from.
  - unfold udta_size. now rewrite meta_len_is, !sz_from.
Qed.

(** * The plan *)

Section Plan.
  Context (m : mode) (f : bytes) (Lf : blen f < 2 ^ 62) (items : list atom_data).
  Definition plan_with (mo : node) (mp s e : N) (d : Z) : plan :=
    Plan (LayoutProofs.moov_of mo) mp s e d (map LayoutProofs.bound (around mo)) (LayoutWrite.new_boxes items mo) (blen f) (skipn (N.to_nat e) f).
  Definition pout (mo : node) (mp : N) (r : res (plan * N)) : Prop :=
    match r with
    | Ok (pl, _) => exists s e d, ready m f items mo s e d /\ pl = plan_with mo mp s e d
    | Err e => plan_stops m f items mo (Fails e (from_text e))
    | Panic k => plan_stops m f items mo (Breaks k)
    | Fuel => False
    end.
  (** From the difference on. *)
  Lemma plan_tail : forall mo mp s e d0 p, kept m (n_at (edge mo) + n_size (edge mo)) e -> s = match old_list mo with Some i => n_at i | None => e end -> turned m (less_old mo) d0 ->
    pout mo mp ((diff <- lift (addi m d0 (as_i64 (new_atoms_len (LayoutWrite.new_boxes items mo)))) ;;
      old_len <- seek_end ;;
      moved_len <- lift (sub64 m old_len e) ;;
      if two63 <=? moved_len then lift (Panic PCapacity) else
      seek_start e ;;;
      mv <- read_to_end ;;
      ret (Plan (LayoutProofs.moov_of mo) mp s e diff (map LayoutProofs.bound (around mo)) (LayoutWrite.new_boxes items mo) old_len mv)) f p).
  Proof.
    intros mo mp s e d0 p K Es T0. assert (W : two63 = 2 ^ 63) by reflexivity. assert (W3 : 2 ^ 63 = 2 * 2 ^ 62) by reflexivity. assert (W4 : 2 ^ 64 = 4 * 2 ^ 62) by reflexivity.
    rewrite boxes_len, as_i64_is. unfold bind at 1, lift at 1. destruct (addi_is m d0 (signed (pieces_len items mo))) as [(d & T & ->)|[B ->]]; [|exact (Plan_new _ _ _ _ _ T0 B)].
    assert (P : planned m items mo s e d) by (split; [exact K|]; split; [exact Es|]; exists d0; auto).
    unfold bind at 1, seek_end at 1. unfold bind at 1, lift at 1. destruct (OutBase.sub64_is m (blen f) e) as [(k & L & ->)|[L ->]]; [|exact (Plan_cut _ _ _ _ _ K L)].
    rewrite W. destruct (2 ^ 63 <=? k) eqn:X; [apply (Plan_much _ _ _ _ _ _ _ _ P L); lia|].
    unfold bind at 1, seek_start. rewrite W. destruct (e <? 2 ^ 63) eqn:Y; [|apply (Plan_far _ _ _ _ _ _ _ _ P L); lia].
    assert (Le : e <= blen f) by (destruct L as [[L _]|(_ & L & ->)]; lia).
    unfold bind, read_to_end, ret. exists s, e, d. split; [split; assumption|]. unfold plan_with. rewrite N.min_l by lia. reflexivity.
  Qed.
  Lemma plan_is : forall mo mp p, pout mo mp (WriteTerm.plan_rest m items (LayoutProofs.moov_of mo, mp) f p).
  Proof.
    intros mo mp p. pose proof (plan_tail mo mp) as T.
    assert (E : forall n, bounds_end m (LayoutProofs.bound n) = add64 m (n_at n) (n_size n)) by reflexivity.
    unfold WriteTerm.plan_rest, around, LayoutWrite.new_boxes, edge, host, less_old, old_list, metadata in *. cbv zeta. change (fst (LayoutProofs.moov_of mo, mp)) with (LayoutProofs.moov_of mo). change (snd (LayoutProofs.moov_of mo, mp)) with mp.
    change (vb_udta (LayoutProofs.moov_of mo)) with (option_map LayoutProofs.udta_of (user_data mo)) in *. change (vb_bounds (LayoutProofs.moov_of mo)) with (LayoutProofs.bound mo) in *.
    assert (PE : forall P, beyond m (n_at (edge mo) + n_size (edge mo)) -> P = POverflow -> plan_stops m f items mo (Breaks P)) by (intros P B ->; now apply Plan_end).
    assert (PO : forall P, too_big m (less_old mo) -> P = POverflow -> plan_stops m f items mo (Breaks P)) by (intros P B ->; now apply Plan_old).
    unfold edge, host, less_old, old_list, metadata in PE, PO.
    destruct (user_data mo) as [u|]; cbn [option_map within_it] in *.
    2: { unfold bind at 1, ret at 1. cbv iota beta. unfold bind at 1, ret at 1. cbv beta. unfold bind at 1. unfold bind at 1. rewrite E. unfold lift at 1.
         destruct (OutBase.add64_is m (n_at mo) (n_size mo)) as [(e & K & ->)|[B ->]]; [|now apply PE]. unfold ret at 1. cbn [fst snd app map] in *.
         apply T; [exact K|reflexivity|apply turned_zero]. }
    change (ub_bounds (LayoutProofs.udta_of u)) with (LayoutProofs.bound u) in *. change (ub_meta (LayoutProofs.udta_of u)) with (option_map LayoutProofs.meta_of (final (id4 "meta") (n_inside u))) in *.
    destruct (final (id4 "meta") (n_inside u)) as [e|]; cbn [option_map within_it] in *.
    2: { unfold bind at 1, ret at 1. cbv iota beta. unfold bind at 1, ret at 1. cbv beta. unfold bind at 1. unfold bind at 1. rewrite E. unfold lift at 1.
         destruct (OutBase.add64_is m (n_at u) (n_size u)) as [(e & K & ->)|[B ->]]; [|now apply PE]. unfold ret at 1. cbn [fst snd app map] in *.
         apply T; [exact K|reflexivity|apply turned_zero]. }
    change (eb_bounds (LayoutProofs.meta_of e)) with (LayoutProofs.bound e) in *. change (eb_ilst (LayoutProofs.meta_of e)) with (option_map LayoutProofs.bound (final (id4 "ilst") (n_inside e))) in *.
    change (eb_hdlr (LayoutProofs.meta_of e)) with (option_map LayoutProofs.bound (final (id4 "hdlr") (n_inside e))) in *.
    assert (Eh : match option_map LayoutProofs.bound (final (id4 "hdlr") (n_inside e)) with Some _ => None | None => Some meta_hdlr end = match final (id4 "hdlr") (n_inside e) with Some _ => None | None => Some meta_hdlr end) by (now destruct (final (id4 "hdlr") (n_inside e))).
    rewrite Eh. clear Eh. set (nh := match final (id4 "hdlr") (n_inside e) with Some _ => None | None => Some meta_hdlr end) in *.
    destruct (final (id4 "ilst") (n_inside e)) as [i|]; cbn [option_map within_it] in *.
    2: { unfold bind at 1, ret at 1. cbv iota beta. unfold bind at 1. unfold bind at 1. rewrite E. unfold lift at 1.
         destruct (OutBase.add64_is m (n_at e) (n_size e)) as [(e' & K & ->)|[B ->]]; [|now apply PE]. unfold ret at 1. unfold bind at 1, ret at 1. cbn [fst snd app map] in *.
         apply T; [exact K|reflexivity|apply turned_zero]. }
    unfold bind at 1. unfold bind at 1. rewrite E. unfold lift at 1. destruct (OutBase.add64_is m (n_at i) (n_size i)) as [(e' & K & ->)|[B ->]]; [|now apply PE].
    unfold bind at 1, lift at 1. change (sz_len (b_size (LayoutProofs.bound i))) with (n_size i). rewrite as_i64_is.
    destruct (subi_is m (signed (n_size i))) as [(d0 & T0 & ->)|[B ->]]; [|now apply PO]. unfold ret at 1. cbv iota beta. unfold bind at 1, ret at 1. cbv beta. unfold bind at 1, ret at 1. cbn [fst snd app map] in *.
    apply T; [exact K|reflexivity|exact T0].
  Qed.
End Plan.

(** * The bytes of the items *)

Section Pour.
  Context (m : mode).
  Definition pours (o : Write.Out unit) (ps : list piece) : Prop := List.concat (fst o) = poured m ps /\ snd o = if all_poured m ps then Ok tt else Panic POverflow.
  Lemma pours_bind : forall o1 o2 ps1 ps2, pours o1 ps1 -> pours o2 ps2 -> pours (o1 ~;; o2) (ps1 ++ ps2).
  Proof.
    intros o1 o2 ps1 ps2 [B1 R1] [B2 R2].
    assert (A : all_poured m (ps1 ++ ps2) = all_poured m ps1 && all_poured m ps2) by (unfold all_poured; apply forallb_app).
    assert (P : poured m (ps1 ++ ps2) = if all_poured m ps1 then poured m ps1 ++ poured m ps2 else poured m ps1).
    { clear. induction ps1 as [|p r IH]; [reflexivity|]. cbn [app poured all_poured forallb]. destruct (too_long m p); [reflexivity|]. cbn [negb andb]. rewrite IH. unfold all_poured. destruct (forallb _ r); [now rewrite app_assoc|reflexivity]. }
    unfold pours, obind. rewrite R1, A, P. destruct (all_poured m ps1); cbn [andb fst snd]; [|split; [exact B1|reflexivity]]. rewrite concat_app, B1, B2. auto.
  Qed.
  Lemma pours_nil : pours (oret tt) []. Proof. split; reflexivity. Qed.
  Lemma pours_map : forall {A} (g : A -> Write.Out unit) (p : A -> list piece) l, (forall x, pours (g x) (p x)) -> pours (omap g l) (flat_map p l).
  Proof. intros A g p l H. induction l as [|x l IH]; [apply pours_nil|]. cbn [omap flat_map]. apply pours_bind; [apply H|exact IH]. Qed.
  (** Programs that only emit. *)
  Lemma pours_plain : forall o b, List.concat (fst o) = b -> snd o = Ok tt -> pours o [(None, b)].
  Proof. intros o b B R. unfold pours, poured, all_poured, too_long. cbn [fst snd forallb]. destruct m; (split; [now rewrite app_nil_r|exact R]). Qed.
  Lemma head_is : forall n id, fst (write_head (size_from n) id) <> [] /\ List.concat (fst (write_head (size_from n) id)) = new_head id n /\ snd (write_head (size_from n) id) = Ok tt.
  Proof.
    intros n id. unfold write_head, new_head, header. rewrite ext_from, sz_from. unfold new_size. destruct (2 ^ 32 <=? n + 8); cbn; repeat (split; [try discriminate; rewrite ?app_nil_r; reflexivity|]); reflexivity.
  Qed.
  Lemma pours_head : forall n id, pours (write_head (size_from n) id) [(None, new_head id n)].
  Proof. intros n id. destruct (head_is n id) as (_ & B & R). now apply pours_plain. Qed.
  (** A size of 32 bits and what follows it. *)
  Lemma pours_sized : forall k n (r : Write.Out unit) b, k < 2 ^ 32 -> snd r = Ok tt -> List.concat (fst r) = b -> pours (l <~ olift (add32 m k (as_u32 n)) ;; emit (be32 l) ~;; r) [(Some (k + n mod 2 ^ 32), be 4 (k + n) ++ b)].
  Proof.
    intros k n r b Lk R B. assert (W : two32 = 2 ^ 32) by reflexivity. assert (W4 : 256 ^ N.of_nat 4 = 2 ^ 32) by reflexivity. unfold as_u32, add32. rewrite W.
    assert (M : be 4 ((k + n mod 2 ^ 32) mod 2 ^ 32) = be 4 (k + n)).
    { rewrite N.add_mod_idemp_r by discriminate. rewrite <- W4. apply be_mod. }
    unfold pours, poured, all_poured, too_long, obind, olift. cbn [fst snd forallb].
    destruct (k + n mod 2 ^ 32 <? 2 ^ 32) eqn:E.
    - assert (T : (2 ^ 32 <=? k + n mod 2 ^ 32) = false) by lia. rewrite T.
      assert (E4 : be32 (k + n mod 2 ^ 32) = be 4 (k + n)). { rewrite <- M. unfold be32. f_equal. symmetry. apply N.mod_small. lia. }
      destruct m; cbn [emit snd fst app negb andb]; rewrite ?R; cbn [emit snd fst app negb andb List.concat]; rewrite B, E4, app_nil_r; auto.
    - assert (T : (2 ^ 32 <=? k + n mod 2 ^ 32) = true) by lia. rewrite T.
      destruct m; cbn [emit snd fst app negb andb List.concat]; [auto|]. rewrite R, B, app_nil_r. split; [|reflexivity]. f_equal. exact M.
  Qed.
  Lemma pours_text : forall id s, pours (l <~ olift (add32 m 12 (as_u32 (blen (enc8 s)))) ;; emit (be32 l) ~;; emit (fc_bytes id) ~;; emit (zeros 4) ~;; emit (enc8 s)) [text_piece id s].
  Proof. intros id s. apply (pours_sized 12 (blen (enc8 s))); [reflexivity|reflexivity|]. cbn. now rewrite app_nil_r. Qed.
  Lemma pours_value : forall d, pours (dl <~ olift (add32 m 16 (as_u32 (data_len d))) ;; emit (be32 dl) ~;; emit (fc_bytes DATA) ~;; write_typed d) [value_piece d].
  Proof.
    intros d. rewrite value_len_is. destruct (ReadFacts.write_raw_bytes d) as [B R]. apply (pours_sized 16 (value_len d)); [reflexivity| |].
    - unfold write_typed, obind, emit. cbn [fst snd]. exact R.
    - unfold write_typed, obind, emit. cbn [fst snd app List.concat]. unfold ReadFacts.out in B. rewrite B. reflexivity.
  Qed.
  Lemma pours_item : forall a, pours (ad_write m a) (item_pieces a).
  Proof.
    intros a. unfold ad_write, item_pieces. rewrite item_len_is. apply (pours_bind _ _ [(None, be 4 (item_len a))]).
    - apply pours_plain; [|reflexivity]. unfold emit. cbn [fst List.concat]. rewrite app_nil_r. unfold be32, as_u32. exact (be_mod 4 (item_len a)).
    - apply pours_bind.
      + destruct (ad_ident a) as [id|mean name]; [apply pours_plain; [|reflexivity]; unfold emit; cbn [fst List.concat]; now rewrite app_nil_r|].
        apply (pours_bind _ _ [(None, fc_bytes (id4 "----"))]); [apply pours_plain; reflexivity|].
        assert (A : forall (r : N) (x : Write.Out unit), (emit (be32 r) ~;; emit (fc_bytes MEAN) ~;; emit (zeros 4) ~;; emit (enc8 mean) ~;; x) = ((emit (be32 r) ~;; emit (fc_bytes MEAN) ~;; emit (zeros 4) ~;; emit (enc8 mean)) ~;; x)) by reflexivity.
        assert (A' : forall x : Write.Out unit, (l <~ olift (add32 m 12 (as_u32 (blen (enc8 mean)))) ;; emit (be32 l) ~;; emit (fc_bytes MEAN) ~;; emit (zeros 4) ~;; emit (enc8 mean) ~;; x) =
          ((l <~ olift (add32 m 12 (as_u32 (blen (enc8 mean)))) ;; emit (be32 l) ~;; emit (fc_bytes MEAN) ~;; emit (zeros 4) ~;; emit (enc8 mean)) ~;; x)).
        { intros x. unfold olift, add32. destruct (_ <? _); [reflexivity|]. destruct m; reflexivity. }
        rewrite A'. apply (pours_bind _ _ [text_piece (id4 "mean") mean] [text_piece (id4 "name") name]); apply pours_text.
      + assert (E : map value_piece (ad_data a) = flat_map (fun d => [value_piece d]) (ad_data a)) by (clear; induction (ad_data a) as [|d l IH]; [reflexivity|]; cbn [map flat_map app]; now rewrite IH).
        rewrite E. apply pours_map. intros d. apply pours_value.
  Qed.
  Lemma pours_list : forall items, pours (ilst_write m items) (list_pieces items).
  Proof.
    intros items. unfold ilst_write, list_pieces, ilst_size. rewrite list_len_is. apply (pours_bind _ _ [(None, new_head (id4 "ilst") (list_len items))]); [apply pours_head|]. apply pours_map, pours_item.
  Qed.
  Lemma pours_handler : pours (hdlr_write meta_hdlr) [handler_piece].
  Proof. apply pours_plain; reflexivity. Qed.
  Lemma pours_meta : forall items, pours (meta_write m (NewMeta (Some meta_hdlr) items)) (meta_pieces items).
  Proof.
    intros items. unfold meta_write, meta_pieces. rewrite meta_len_is. cbn [nm_hdlr nm_ilst].
    set (n := meta_content items). destruct (head_is n METADATA) as (Hn & B & R).
    assert (A : forall x : Write.Out unit, (write_head (size_from n) METADATA ~;; write_full_head 0 (zeros 3) ~;; x) = ((write_head (size_from n) METADATA ~;; write_full_head 0 (zeros 3)) ~;; x)).
    { intros x. unfold write_full_head, obind, emit. rewrite R. cbn [fst snd]. rewrite <- !app_assoc. reflexivity. }
    rewrite A. apply (pours_bind _ _ [(None, new_head (id4 "meta") n ++ zeros 4)]); [|apply (pours_bind _ _ [handler_piece]); [apply pours_handler|apply pours_list]].
    apply pours_plain; [|unfold obind; now rewrite R]. unfold obind. rewrite R. cbn [fst]. rewrite concat_app, B. reflexivity.
  Qed.
  Lemma pours_boxes : forall items mo, pours (new_atoms_write m (LayoutWrite.new_boxes items mo)) (pieces items mo).
  Proof.
    intros items mo. unfold LayoutWrite.new_boxes, pieces. destruct (user_data mo) as [u|]; [destruct (metadata mo) as [e|]|]; cbn [new_atoms_write].
    - apply pours_bind; [destruct (final _ _); [apply pours_nil|apply pours_handler]|apply pours_list].
    - apply pours_meta.
    - unfold udta_write, udta_pieces. unfold udta_size. rewrite meta_len_is, sz_from. apply (pours_bind _ _ [(None, new_head (id4 "udta") (new_size (meta_content items)))]); [apply pours_head|apply pours_meta].
  Qed.
End Pour.
