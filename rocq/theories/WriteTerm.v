(** Termination of writing: never out of steps, and more steps change nothing. *)

From Coq Require Import List NArith ZArith Bool Lia Arith String.
From Coq Require Import ZifyBool ZifyNat ZifyN.
From Verif Require Import Base BaseLemmas Utf UtfLemmas Types Stream Parse Find Write TagSpec FileSpec ParseLemmas ReadProofs ReadMore ReadSpec ReadFacts ReadBad ReadErr ReadTerm.
Import ListNotations.
Local Open Scope list_scope.
Ltac Zify.zify_post_hook ::= Z.div_mod_to_equations.

(** * The scan with overflow checks, on any bytes *)

Lemma nf_leaf : forall m s, nf (leaf_find m s).
Proof. intros. unfold leaf_find, find_bounds, seek_to_end, bounds_end. nf. Qed.
Lemma guards_leaf : forall s, (sz_ext s = true \/ 8 <= sz_len s) -> guards s (leaf_find Checked s).
Proof.
  intros s Hs f p v q H. refine (to_end_sane (ret tt) s Hs (fwd_ret tt) f p tt q _).
  unfold leaf_find in H. apply bind_inv in H. destruct H as (b & p1 & E & H). apply bind_inv in H. destruct H as (u & p2 & E2 & H).
  unfold bind at 1. rewrite E. unfold bind at 1. cbn [ret]. unfold bind. rewrite E2. injection H as _ <-. reflexivity.
Qed.
Lemma nf_bounds : forall m s, nf (find_bounds m s). Proof. intros. unfold find_bounds. nf. Qed.

Section Scan.
  Context (fuel : nat) (F : big fuel).
  Ltac loop := apply nf_loop; [apply nf_content || discriminate|intros h l|intros h l Hh|lia|unfold big in F; lia].
  Ltac fin := nf; (apply nf_skip || apply nf_leaf || apply nf_bounds || idtac).

  Lemma ft_stbl : forall s, nf (stbl_find fuel Checked s).
  Proof.
    intros. unfold stbl_find. apply nf_bind; [apply nf_bounds|intro]. apply nf_bind; [|intro; apply nf_ret]. loop; unfold stbl_fbody; cbv zeta.
    - fin.
    - repeat destruct (fourcc_eqb _ _); [apply guards_l, guards_leaf, Hh..|apply guards_l, guards_skip].
  Qed.
  Lemma ft_minf : forall s, nf (minf_find fuel Checked s).
  Proof.
    intros. unfold minf_find. apply nf_bind; [apply nf_bounds|intro]. apply nf_bind; [|intro; apply nf_ret]. loop; unfold minf_fbody.
    - fin. apply ft_stbl.
    - destruct (fourcc_eqb _ _); [apply guards_l, guards_r; intro; apply guards_l, guards_loop|apply guards_l, guards_skip].
  Qed.
  Lemma ft_mdia : forall s, nf (mdia_find fuel Checked s).
  Proof.
    intros. unfold mdia_find. apply nf_bind; [apply nf_bounds|intro]. apply nf_bind; [|intro; apply nf_ret]. loop; unfold mdia_fbody.
    - fin. apply ft_minf.
    - destruct (fourcc_eqb _ _); [apply guards_l, guards_r; intro; apply guards_l, guards_loop|apply guards_l, guards_skip].
  Qed.
  Lemma ft_trak : forall s, nf (trak_find fuel Checked s).
  Proof.
    intros. unfold trak_find. apply nf_bind; [apply nf_bounds|intro]. apply nf_bind; [|intro; apply nf_ret]. loop; unfold trak_fbody.
    - fin. apply ft_mdia.
    - destruct (fourcc_eqb _ _); [apply guards_l, guards_r; intro; apply guards_l, guards_loop|apply guards_l, guards_skip].
  Qed.
  Lemma ft_meta : forall s, nf (meta_find fuel Checked s).
  Proof.
    intros. unfold meta_find. apply nf_bind; [apply nf_bounds|intro]. apply nf_bind; [apply nf_full|intro]. destruct (negb _); [apply nf_fail|].
    apply nf_bind; [|intro; apply nf_ret]. loop; unfold meta_fbody; cbv zeta.
    - fin.
    - repeat destruct (fourcc_eqb _ _); [apply guards_l, guards_leaf, Hh..|apply guards_l, guards_skip].
  Qed.
  Lemma ft_udta : forall s, nf (udta_find fuel Checked s).
  Proof.
    intros. unfold udta_find. apply nf_bind; [apply nf_bounds|intro]. apply nf_bind; [|intro; apply nf_ret]. loop; unfold udta_fbody.
    - fin. apply ft_meta.
    - destruct (fourcc_eqb _ _); [|apply guards_l, guards_skip].
      apply guards_l. unfold meta_find. apply guards_r. intro. apply guards_r. intro. destruct (negb _); [apply guards_fail|apply guards_l, guards_loop].
  Qed.
  Lemma ft_moov : forall s, nf (moov_find fuel Checked s).
  Proof.
    intros. unfold moov_find. apply nf_bind; [apply nf_bounds|intro]. apply nf_bind; [|intro; apply nf_ret]. loop; unfold moov_fbody; cbv zeta.
    - fin; (apply ft_trak || apply ft_udta).
    - repeat destruct (fourcc_eqb _ _); [apply guards_l, guards_r; intro; apply guards_l, guards_loop..|apply guards_l, guards_skip].
  Qed.
  Lemma nf_remaining : nf (remaining_stream_len Checked).
  Proof. unfold remaining_stream_len, seek_end, seek_start. intros f p. unfold bind, position, lift, ret, sub64. repeat (destruct (_ <? _) || destruct (_ <=? _)); discriminate. Qed.
  Lemma ft_scan : nf (scan fuel Checked).
  Proof.
    unfold scan. apply nf_bind; [unfold ftyp_parse; nf; [apply nf_head|apply nf_utf8]|intro]. apply nf_bind; [apply nf_remaining|intro].
    apply nf_bind; [|intro; destruct (fst _); [apply nf_ret|apply nf_fail]]. loop; unfold top_fbody; cbv zeta.
    - fin. apply ft_moov.
    - repeat destruct (fourcc_eqb _ _); [apply guards_l, guards_r; intro; apply guards_l, guards_loop|apply guards_l, guards_leaf, Hh|apply guards_l, guards_skip].
  Qed.
End Scan.

(** * The plan and its execution *)

(** What follows the scan takes no steps. *)
Definition plan_rest (m : mode) (atoms : list atom_data) (sc : moov_bounds * N) : R plan :=
  let mb := fst sc in
  let udta := vb_udta mb in
  let meta := match udta with Some u => ub_meta u | None => None end in
  let hdlr := match meta with Some e => eb_hdlr e | None => None end in
  let ilst := match meta with Some e => eb_ilst e | None => None end in
  let new_hdlr := match hdlr with None => Some meta_hdlr | Some _ => None end in
  d0 <- match ilst with
        | Some b =>
          e <- lift (bounds_end m b) ;;
          d <- lift (subi m 0 (as_i64 (sz_len (b_size b)))) ;;
          ret (b_pos b, e, d)
        | None => ret (0, 0, 0%Z)
        end ;;
  let '(start0, moved0, diff0) := d0 in
  d1 <- match meta with
        | Some e =>
          match ilst with
          | None => s <- lift (bounds_end m (eb_bounds e)) ;; ret (s, s)
          | Some _ => ret (start0, moved0)
          end
        | None => ret (start0, moved0)
        end ;;
  d2 <- match udta with
        | Some u =>
          match meta with
          | None => s <- lift (bounds_end m (ub_bounds u)) ;; ret (s, s)
          | Some _ => ret d1
          end
        | None => s <- lift (bounds_end m (vb_bounds mb)) ;; ret (s, s)
        end ;;
  let update :=
    vb_bounds mb ::
    match udta with Some u => [ub_bounds u] | None => [] end ++
    match meta with Some e => [eb_bounds e] | None => [] end in
  let new :=
    match udta, meta with
    | None, _ => NUdta (NewMeta new_hdlr atoms)
    | Some _, None => NMeta (NewMeta new_hdlr atoms)
    | Some _, Some _ => NIlst new_hdlr atoms
    end in
  diff <- lift (addi m diff0 (as_i64 (new_atoms_len new))) ;;
  old_len <- seek_end ;;
  moved_len <- lift (sub64 m old_len (snd d2)) ;;
  if two63 <=? moved_len then lift (Panic PCapacity) else
  seek_start (snd d2) ;;;
  moved <- read_to_end ;;
  ret (Plan mb (snd sc) (fst d2) (snd d2) diff update new old_len moved).
Lemma prepare_eq : forall fuel m atoms, prepare fuel m atoms = (sc <- scan fuel m ;; plan_rest m atoms sc).
Proof. reflexivity. Qed.

Lemma nf_addi : forall m a b, addi m a b <> Fuel.
Proof. intros. unfold addi. destruct (in_i64 _); [discriminate|]. destruct m; discriminate. Qed.
Lemma nf_subi : forall m a b, subi m a b <> Fuel.
Proof. intros. unfold subi. destruct (in_i64 _); [discriminate|]. destruct m; discriminate. Qed.
Lemma nf_add32 : forall m a b, add32 m a b <> Fuel.
Proof. intros. unfold add32. destruct (_ <? _); [discriminate|]. destruct m; discriminate. Qed.
Lemma nf_send : nf seek_end. Proof. intros f p. unfold seek_end. discriminate. Qed.
Lemma nf_sstart : forall q, nf (seek_start q). Proof. intros q f p. unfold seek_start. destruct (_ <? _); discriminate. Qed.
Lemma nf_rest : nf read_to_end. Proof. intros f p. discriminate. Qed.
Lemma nf_plan : forall m atoms sc, nf (plan_rest m atoms sc).
Proof.
  intros. unfold plan_rest, bounds_end. cbv zeta.
  repeat (nf; try (apply nf_send || apply nf_sstart || apply nf_rest || (apply nf_lift; (apply nf_addi || apply nf_subi)))).
Qed.

(** Writing produces bytes without taking steps. *)
Definition nfw {A} (x : W A) : Prop := forall s, fst (x s) <> Fuel.
Lemma nfw_bind : forall {A B} (x : W A) (k : A -> W B), nfw x -> (forall a, nfw (k a)) -> nfw (wbind x k).
Proof.
  intros A B x k H K s. unfold wbind. pose proof (H s) as H'. destruct (x s) as [[a|e|q|] s']; cbn [fst] in *; try discriminate; [apply K|congruence].
Qed.
Lemma nfw_ret : forall {A} (a : A), nfw (wret a). Proof. intros A a s. discriminate. Qed.
Lemma nfw_lift : forall {A} (r : res A), r <> Fuel -> nfw (wlift r). Proof. intros A r H s. exact H. Qed.
Lemma nfw_os : forall d, nfw (os_write d). Proof. intros [|b d] s; discriminate. Qed.
Lemma nfw_flush : nfw bw_flush. Proof. intros s. unfold bw_flush. pose proof (nfw_os (w_buf s) s) as H. destruct (os_write _ _); exact H. Qed.
Lemma nfw_write : forall cap d, nfw (bw_write cap d).
Proof. intros cap d s. unfold bw_write. destruct (cap <=? _); [apply nfw_os|discriminate]. Qed.
Lemma nfw_sstart : forall q, nfw (bw_seek_start q).
Proof. intros q. apply nfw_bind; [apply nfw_flush|]. intros _ s. destruct (_ <? _); discriminate. Qed.
Lemma nfw_scur : forall d, nfw (bw_seek_cur d).
Proof. intros d. apply nfw_bind; [apply nfw_flush|]. intros _ s. cbv zeta. destruct (_ && _)%bool; discriminate. Qed.
Lemma nfw_setlen : forall n, nfw (file_set_len n).
Proof. intros n s. unfold file_set_len. destruct (_ <? _); discriminate. Qed.
Lemma nfw_chunks : forall cap l, nfw (bw_chunks cap l).
Proof. induction l as [|d l IH]; [apply nfw_ret|]. apply nfw_bind; [apply nfw_write|intro; apply IH]. Qed.
Lemma nfw_out : forall {A} cap (o : Out A), snd o <> Fuel -> nfw (bw_out cap o).
Proof. intros A cap o H. apply nfw_bind; [apply nfw_chunks|intro; apply nfw_lift, H]. Qed.
Lemma nfw_read : forall {A} (r : R A) q, nf r -> nfw (w_read r q).
Proof.
  intros A r q H s. unfold w_read. destruct (_ <? _); [|discriminate]. pose proof (H (w_file s) q).
  destruct (r (w_file s) q) as [[a x]| | |]; cbn [fst]; try discriminate. congruence.
Qed.

Definition nfo {A} (x : Out A) : Prop := snd x <> Fuel.
Lemma nfo_bind : forall {A B} (x : Out A) (k : A -> Out B), nfo x -> (forall a, nfo (k a)) -> nfo (obind x k).
Proof. intros A B x k H K. unfold nfo, obind in *. destruct (snd x) as [a| | |]; cbn [snd]; try discriminate; [apply K|congruence]. Qed.
Lemma nfo_emit : forall b, nfo (emit b). Proof. intros b. discriminate. Qed.
Lemma nfo_ret : forall {A} (a : A), nfo (oret a). Proof. intros A a. discriminate. Qed.
Lemma nfo_map : forall {A} (g : A -> Out unit) l, (forall a, nfo (g a)) -> nfo (omap g l).
Proof. intros A g l H. induction l as [|x l IH]; [apply nfo_ret|]. cbn [omap]. apply nfo_bind; [apply H|intro; exact IH]. Qed.
Ltac nfo1 :=
  match goal with
  | |- nfo (obind _ _) => apply nfo_bind; [|intro]
  | |- nfo (emit _) => apply nfo_emit
  | |- nfo (oret _) => apply nfo_ret
  | |- nfo (olift (add32 _ _ _)) => apply nf_add32
  | |- nfo (omap _ _) => apply nfo_map; intro
  | |- nfo (if ?b then _ else _) => destruct b
  | |- nfo (match ?x with _ => _ end) => destruct x
  end.
Ltac nfos := repeat nfo1.
Lemma nfo_ad : forall m a, nfo (ad_write m a).
Proof. intros. unfold ad_write, write_typed, write_raw. nfos. Qed.
Lemma nfo_ilst : forall m l, nfo (ilst_write m l).
Proof. intros. unfold ilst_write, write_head. nfos. apply nfo_ad. Qed.
Lemma nfo_hdlr : forall h, nfo (hdlr_write h). Proof. intros. unfold hdlr_write, write_head. nfos. Qed.
Lemma nfo_meta : forall m x, nfo (meta_write m x).
Proof. intros. unfold meta_write, write_head, write_full_head. nfos; (apply nfo_hdlr || apply nfo_ilst). Qed.
Lemma nfo_new : forall m n, nfo (new_atoms_write m n).
Proof.
  intros m [x|x|h l]; unfold new_atoms_write, udta_write, write_head.
  - nfos; apply nfo_meta.
  - apply nfo_meta.
  - nfos; (apply nfo_hdlr || apply nfo_ilst).
Qed.

Lemma nf_many : forall k r, nf r -> nf (read_many k r).
Proof. intros k r H. induction k as [|k IH]; cbn [read_many]; nf; assumption. Qed.
Lemma nf_table : forall w rd m s, nf rd -> nf (table_parse w rd m s).
Proof. intros w rd m s H. unfold table_parse, read_u32. nf; try apply nf_full; apply nf_many, H. Qed.
Lemma nfw_offsets : forall cap m wide diff l, nfw (write_offsets cap m wide diff l).
Proof.
  induction l as [|c l IH]; [apply nfw_ret|]. cbn [write_offsets]. apply nfw_bind; [apply nfw_lift, nf_addi|intro].
  apply nfw_bind; [apply nfw_write|intro; apply IH].
Qed.
Lemma nfw_table : forall cap m wide diff b, nfw (adjust_table cap m wide diff b).
Proof.
  intros. unfold adjust_table, content_pos, co64_parse, stco_parse. apply nfw_bind; [apply nfw_lift, nf_add|intro].
  apply nfw_bind; [apply nfw_read; destruct wide; apply nf_table; unfold read_u32, read_u64; nf|intro].
  apply nfw_bind; [apply nfw_sstart|intro]. apply nfw_bind; [apply nfw_offsets|intro; apply nfw_flush].
Qed.
Lemma nfw_traks : forall cap m diff l, nfw (adjust_traks cap m diff l).
Proof.
  induction l as [|t l IH]; [apply nfw_ret|]. cbn [adjust_traks]. apply nfw_bind; [|intro; apply IH].
  destruct (trak_stbl t); [|apply nfw_ret]. apply nfw_bind; [|intro]; (destruct (sb_stco _) || destruct (sb_co64 _)); (apply nfw_table || apply nfw_ret).
Qed.
Lemma nfw_updates : forall cap m diff l, nfw (update_all cap m diff l).
Proof.
  induction l as [|b l IH]; [apply nfw_ret|]. cbn [update_all]. apply nfw_bind; [|intro; apply IH]. unfold update_atom.
  apply nfw_bind; [apply nfw_lift, nf_addi|intro]. apply nfw_bind; [apply nfw_sstart|intro]. destruct (sz_ext _).
  - apply nfw_bind; [apply nfw_write|intro]. apply nfw_bind; [apply nfw_scur|intro; apply nfw_write].
  - apply nfw_write.
Qed.
Lemma nfw_execute : forall cap m p, nfw (execute cap m p).
Proof.
  intros. unfold execute. apply nfw_bind; [destruct (_ <? _); [apply nfw_traks|apply nfw_ret]|intro].
  apply nfw_bind; [apply nfw_updates|intro]. apply nfw_bind; [apply nfw_bind; [apply nfw_lift, nf_addi|intro; apply nfw_setlen]|intro].
  apply nfw_bind; [apply nfw_sstart|intro]. apply nfw_bind; [apply nfw_out, nfo_new|intro].
  apply nfw_bind; [apply nfw_bind; [apply nfw_lift, nf_addi|intro; apply nfw_sstart]|intro].
  apply nfw_bind; [apply nfw_write|intro; apply nfw_flush].
Qed.

Lemma write_steps : forall cap fuel m items f pos, scan fuel m f pos <> Fuel -> wr_res (write_tag_to cap fuel m items f pos) <> Fuel.
Proof.
  intros cap fuel m items f pos H. unfold write_tag_to. assert (P : prepare fuel m items f pos <> Fuel).
  { rewrite prepare_eq. unfold bind. destruct (scan fuel m f pos) as [[sc q]| | |]; try discriminate; [apply nf_plan|congruence]. }
  destruct (prepare fuel m items f pos) as [[p q]| | |]; try discriminate; [|congruence].
  pose proof (nfw_execute cap m p (Wst f 0 [] [])) as X. destruct (execute cap m p _) as [r s]. destruct (bw_flush s). exact X.
Qed.

(** With overflow checks, enough steps are enough for all bytes. *)
Theorem write_terminates : forall cap fuel items f pos, big fuel -> wr_res (write_tag_to cap fuel Checked items f pos) <> Fuel.
Proof. intros cap fuel items f pos B. apply write_steps, ft_scan, B. Qed.

(** * More steps do not change a result *)

Section More.
  Context (m : mode) (n n' : nat) (L : (n <= n')%nat).
  Ltac lp := apply rf_loop; [exact L|intros ? ?].
  Lemma fm_stbl : forall s, refines (stbl_find n m s) (stbl_find n' m s). Proof. intros. unfold stbl_find. rf. lp. rf. Qed.
  Lemma fm_minf : forall s, refines (minf_find n m s) (minf_find n' m s).
  Proof. intros. unfold minf_find. rf. lp. unfold minf_fbody. rf. apply fm_stbl. Qed.
  Lemma fm_mdia : forall s, refines (mdia_find n m s) (mdia_find n' m s).
  Proof. intros. unfold mdia_find. rf. lp. unfold mdia_fbody. rf. apply fm_minf. Qed.
  Lemma fm_trak : forall s, refines (trak_find n m s) (trak_find n' m s).
  Proof. intros. unfold trak_find. rf. lp. unfold trak_fbody. rf. apply fm_mdia. Qed.
  Lemma fm_meta : forall s, refines (meta_find n m s) (meta_find n' m s). Proof. intros. unfold meta_find. rf. lp. rf. Qed.
  Lemma fm_udta : forall s, refines (udta_find n m s) (udta_find n' m s).
  Proof. intros. unfold udta_find. rf. lp. unfold udta_fbody. rf. apply fm_meta. Qed.
  Lemma fm_moov : forall s, refines (moov_find n m s) (moov_find n' m s).
  Proof. intros. unfold moov_find. rf. lp. unfold moov_fbody. cbv zeta. rf; [apply fm_trak|apply fm_udta]. Qed.
  Lemma fm_scan : refines (scan n m) (scan n' m).
  Proof. unfold scan. rf. lp. unfold top_fbody. cbv zeta. rf. apply fm_moov. Qed.
  Theorem write_fuel : forall cap items f pos, wr_res (write_tag_to cap n m items f pos) <> Fuel ->
    write_tag_to cap n' m items f pos = write_tag_to cap n m items f pos.
  Proof.
    intros cap items f pos H. unfold write_tag_to in *. rewrite !prepare_eq in *. unfold bind in *.
    destruct (fm_scan f pos) as [E|E]; rewrite E in *; [exfalso; apply H|]; reflexivity.
  Qed.
End More.

(** * Both profiles, for files whose 64-bit size fields are neither zero nor 2^63 or more *)

Section Tame.
  Context (f : bytes) (m : mode) (Sm : small f) (T : tame f) (fuel : nat) (Fu : blen f < N.of_nat fuel).

  Lemma w_leaf : bfw f (fun h => leaf_find m (hd_size h)).
  Proof.
    intros p0 h p E. destruct (head_tame f T fuel Fu p0 h p E) as (_ & Lh & _). unfold small in Sm.
    unfold leaf_find, bind at 1. rewrite (bounds_tame f m T fuel Fu p0 h p E). unfold bind.
    pose proof (end_tame f m Sm T fuel Fu p0 h p p E ltac:(unfold two63; lia)) as X. destruct (seek_to_end m _ f p) as [[u q]| | |]; try exact I; [|exact X].
    unfold ret, good_end. lia.
  Qed.
  Lemma w_sk : forall {S} (s : S), bfw f (fun h => skip_atom m h ;;; ret s).
  Proof. intros. apply (bfw_bind f fuel Fu (fun h => skip_atom m h) (fun _ _ => ret s)); [apply (bfw_skip f m Sm T fuel Fu)|intros; apply (fw_ret f fuel Fu)]. Qed.
  Lemma w_bind : forall {A B} (r : size -> R A) (k : A -> B), bfw f (fun h => r (hd_size h)) -> bfw f (fun h => x <- r (hd_size h) ;; ret (k x)).
  Proof. intros. apply (bfw_bind f fuel Fu (fun h => r (hd_size h)) (fun _ x => ret (k x))); [assumption|intros; apply (fw_ret f fuel Fu)]. Qed.
  Lemma w_bounds : forall s, fw f (find_bounds m s). Proof. intros. apply (fw_bounds f m fuel Fu). Qed.
  Lemma w_loop : forall {S B} s (body : head -> S -> R S) parsed (x : S) (k : S -> B), (forall s, bfw f (fun h => body h s)) ->
    fw f (r <- atom_loop fuel m (content_len m s) body parsed x ;; ret (k r)).
  Proof. intros. apply (fw_bind f fuel Fu); [apply (fw_loop' f m Sm T fuel Fu); [apply ReadMore.nf_content|assumption]|intros; apply (fw_ret f fuel Fu)]. Qed.
  Lemma w_sub : forall {A} (r : size -> R A), (forall s, fw f (r s)) -> bfw f (fun h => r (hd_size h)).
  Proof. intros. apply (bfw_sub f Sm T fuel Fu); assumption. Qed.

  Lemma w_stbl : forall s, fw f (stbl_find fuel m s).
  Proof.
    intros. apply (fw_bind f fuel Fu); [apply w_bounds|intro b]. apply (w_loop s (stbl_fbody m) 0 (None, None) (fun r => StblBounds b (fst r) (snd r))).
    intros r. unfold stbl_fbody. cbv zeta. repeat apply bfw_if; [| |apply w_sk];
      [apply (w_bind (leaf_find m) (fun b => (Some b, snd r)))|apply (w_bind (leaf_find m) (fun b => (fst r, Some b)))]; apply w_leaf.
  Qed.
  Lemma w_minf : forall s, fw f (minf_find fuel m s).
  Proof.
    intros. apply (fw_bind f fuel Fu); [apply w_bounds|intro b]. apply (w_loop s (minf_fbody fuel m) 0 None (MinfBounds b)). intros r. unfold minf_fbody.
    apply bfw_if; [|apply w_sk]. apply (w_bind (stbl_find fuel m) Some), w_sub, w_stbl.
  Qed.
  Lemma w_mdia : forall s, fw f (mdia_find fuel m s).
  Proof.
    intros. apply (fw_bind f fuel Fu); [apply w_bounds|intro b]. apply (w_loop s (mdia_fbody fuel m) 0 None (MdiaBounds b)). intros r. unfold mdia_fbody.
    apply bfw_if; [|apply w_sk]. apply (w_bind (minf_find fuel m) Some), w_sub, w_minf.
  Qed.
  Lemma w_trak : forall s, fw f (trak_find fuel m s).
  Proof.
    intros. apply (fw_bind f fuel Fu); [apply w_bounds|intro b]. apply (w_loop s (trak_fbody fuel m) 0 None (TrakBounds b)). intros r. unfold trak_fbody.
    apply bfw_if; [|apply w_sk]. apply (w_bind (mdia_find fuel m) Some), w_sub, w_mdia.
  Qed.
  Lemma w_meta : forall s, fw f (meta_find fuel m s).
  Proof.
    intros. apply (fw_bind f fuel Fu); [apply w_bounds|intro b]. apply (fw_bind f fuel Fu); [apply (fw_full f Sm fuel Fu)|intro vf]. destruct (negb _); [apply fw_fail|].
    apply (w_loop s (meta_fbody m) 4 (None, None) (fun r => MetaBounds b (fst r) (snd r))).
    intros r. unfold meta_fbody. cbv zeta. repeat apply bfw_if; [| |apply w_sk];
      [apply (w_bind (leaf_find m) (fun b => (Some b, snd r)))|apply (w_bind (leaf_find m) (fun b => (fst r, Some b)))]; apply w_leaf.
  Qed.
  Lemma w_udta : forall s, fw f (udta_find fuel m s).
  Proof.
    intros. apply (fw_bind f fuel Fu); [apply w_bounds|intro b]. apply (w_loop s (udta_fbody fuel m) 0 None (UdtaBounds b)). intros r. unfold udta_fbody.
    apply bfw_if; [|apply w_sk]. apply (w_bind (meta_find fuel m) Some), w_sub, w_meta.
  Qed.
  Lemma w_moov : forall s, fw f (moov_find fuel m s).
  Proof.
    intros. apply (fw_bind f fuel Fu); [apply w_bounds|intro b]. apply (w_loop s (moov_fbody fuel m) 0 ([], None) (fun r => MoovBounds b (fst r) (snd r))).
    intros r. unfold moov_fbody. cbv zeta. repeat apply bfw_if; [| |apply w_sk].
    - apply (w_bind (trak_find fuel m) (fun t => (fst r ++ [t], snd r))), w_sub, w_trak.
    - apply (w_bind (udta_find fuel m) (fun u => (fst r, Some u))), w_sub, w_udta.
  Qed.
  Lemma w_top : forall r, bfw f (fun h => top_fbody fuel m h r).
  Proof.
    intros r. unfold top_fbody. cbv zeta. repeat apply bfw_if; [| |apply w_sk].
    - apply (w_bind (moov_find fuel m) (fun x => (Some x, snd r))), w_sub, w_moov.
    - apply (w_bind (leaf_find m) (fun b => (fst r, Some b))), w_leaf.
  Qed.
  Lemma w_scan : forall pos, pos < two63 -> scan fuel m f pos <> Fuel.
  Proof.
    intros pos L E. assert (X : good_end pos (scan fuel m f pos)); [|rewrite E in X; exact X]. clear E. revert pos L. change (fw f (scan fuel m)).
    unfold scan. apply (fw_bind f fuel Fu).
    - unfold ftyp_parse. apply (fw_bind f fuel Fu); [apply (fw_head f Sm fuel Fu)|intro h]. destruct (negb _); [apply fw_fail|].
      apply (fw_bind f fuel Fu); [apply (fw_lift f fuel Fu), ReadMore.nf_content|intro]. apply (fw_utf8 f Sm fuel Fu).
    - intros _. apply (fw_bind f fuel Fu).
      + intros p L. unfold remaining_stream_len, bind, position, seek_end, lift. pose proof (ReadMore.nf_sub m (blen f) p).
        destruct (sub64 m (blen f) p) as [d| | |]; try exact I; [|congruence].
        unfold seek_start. destruct (p <? two63); [|exact I]. unfold ret, good_end. lia.
      + intros len. apply (fw_bind f fuel Fu); [apply (fw_loop' f m Sm T fuel Fu); [discriminate|apply w_top]|].
        intros r. destruct (fst r); [apply (fw_ret f fuel Fu)|apply fw_fail].
  Qed.
  Theorem write_tame : forall cap items pos, pos < two63 -> wr_res (write_tag_to cap fuel m items f pos) <> Fuel.
  Proof. intros cap items pos L. apply write_steps, w_scan, L. Qed.
End Tame.

(** * Without checks, on an atom with a 64-bit size of zero *)

Lemma scan_spin : forall inner len f p id g a, small f -> f = a ++ (be 4 1 ++ fc_bytes id ++ be 8 0) ++ g -> blen a = p ->
  id <> MOVIE -> 0 < len -> forall fuel r, atom_loop fuel Wrapping (Ok len) (top_fbody inner Wrapping) 0 r f p = Fuel.
Proof.
  intros inner len f p id g a Sm E P N L. induction fuel as [|fuel IH]; intros r; [reflexivity|]. cbn [atom_loop].
  erewrite bind_ok by reflexivity. rewrite (proj2 (N.ltb_lt 0 len)) by exact L.
  assert (H : parse_head f p = Ok (Head (Size true 0) id, p + 16)).
  { pose proof (head_roundtrip (Size true 0) id ltac:(reflexivity) f p Sm) as X. rewrite write_head_bytes in X. cbn [sz_ext sz_len] in X.
    rewrite !blen_app, !blen_be, blen_fc in X. apply X. exists a, g. auto. }
  assert (B : p + 16 <= blen f) by (subst; rewrite !blen_app, !blen_be, blen_fc; lia). unfold small in Sm.
  assert (Sk : seek_cur (-16) f (p + 16) = Ok (tt, p)).
  { unfold seek_cur. replace (Z.of_N (p + 16) + -16)%Z with (Z.of_N p) by lia.
    rewrite (proj2 (Z.leb_le _ _)), (proj2 (Z.ltb_lt _ _)) by (unfold two63; lia). cbn [andb]. rewrite N2Z.id. reflexivity. }
  erewrite bind_ok by exact H. unfold top_fbody at 1. cbn [hd_fourcc hd_size]. rewrite (proj2 (fourcc_eqb_neq _ _) N).
  assert (X : exists r', (if fourcc_eqb id MEDIA_DATA
    then b <- leaf_find Wrapping (Size true 0) ;; ret (fst r, Some b)
    else skip_atom Wrapping (Head (Size true 0) id) ;;; ret r) f (p + 16) = Ok (r', p)).
  { destruct (fourcc_eqb id MEDIA_DATA).
    - exists (fst r, Some (Bounds p (Size true 0))). unfold leaf_find, find_bounds, seek_to_end, bind, position, lift, bounds_end, ret.
      unfold head_len. cbn [sz_ext sz_len b_pos b_size]. rewrite sub64_ok by lia. replace (p + 16 - 16) with p by lia. cbn [b_pos b_size sz_len].
      rewrite add64_ok by (unfold two64; lia). rewrite N.add_0_r.
      assert (D : sub64 Wrapping p (p + 16) = Ok 18446744073709551600).
      { unfold sub64. rewrite (proj2 (N.leb_gt _ _)) by lia. f_equal. unfold two64. rewrite N.mod_small; lia. }
      rewrite D. change (as_i64 18446744073709551600) with (-16)%Z. rewrite Sk. reflexivity.
    - exists r. unfold skip_atom. cbn [hd_size]. change (content_len Wrapping (Size true 0)) with (@Ok BinNums.N 18446744073709551600).
      unfold bind, lift. change (as_i64 18446744073709551600) with (-16)%Z. rewrite Sk. reflexivity. }
  destruct X as (r' & X). erewrite bind_ok by exact X. erewrite bind_ok by reflexivity. apply IH.
Qed.
Lemma write_spins : forall ft s id g cap fuel items, fits ft = true -> a_id ft = id4 "ftyp" -> wf_ustr s = true -> a_content ft = enc8 s ->
  id <> MOVIE -> let f := render ft ++ (be 4 1 ++ fc_bytes id ++ be 8 0) ++ g in small f ->
  write_tag cap fuel Wrapping items f = WResult Fuel f [].
Proof.
  intros ft s id g cap fuel items F I W C N f Sm.
  assert (P : ftyp_parse Wrapping f 0 = Ok (s, asize ft)).
  { pose proof (ftyp_parses Wrapping ft s F I W C f 0 Sm) as X. rewrite N.add_0_l in X. apply X. eexists [], _. split; reflexivity. }
  assert (B : blen f = asize ft + 16 + blen g).
  { unfold f. rewrite !blen_app, !blen_be, blen_fc. unfold asize. lia. }
  unfold write_tag, write_tag_to. rewrite prepare_eq.
  assert (S : scan fuel Wrapping f 0 = Fuel).
  { unfold scan. erewrite bind_ok by exact P. erewrite bind_ok by (apply remaining_ok; [lia|exact Sm]). unfold bind.
    rewrite (scan_spin fuel (blen f - asize ft) f (asize ft) id g (render ft)); auto. lia. }
  unfold bind. rewrite S. reflexivity.
Qed.
