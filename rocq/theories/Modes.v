(** Debug and release builds agree unless the debug build stops with an arithmetic overflow. *)

From Coq Require Import List NArith ZArith Bool Lia Arith.
From Verif Require Import Base Utf Types Stream Parse Find Write.
Import ListNotations.

Definition over {A} (r : res A) : Prop := r = Panic POverflow.

Lemma g_add : forall a b, over (add64 Checked a b) \/ add64 Wrapping a b = add64 Checked a b.
Proof. intros. unfold over, add64. destruct (_ <? _); auto. Qed.
Lemma g_sub : forall a b, over (sub64 Checked a b) \/ sub64 Wrapping a b = sub64 Checked a b.
Proof. intros. unfold over, sub64. destruct (_ <=? _); auto. Qed.
Lemma g_mul : forall a b, over (mul64 Checked a b) \/ mul64 Wrapping a b = mul64 Checked a b.
Proof. intros. unfold over, mul64. destruct (_ <? _); auto. Qed.
Lemma g_add32 : forall a b, over (add32 Checked a b) \/ add32 Wrapping a b = add32 Checked a b.
Proof. intros. unfold over, add32. destruct (_ <? _); auto. Qed.
Lemma g_addi : forall a b, over (addi Checked a b) \/ addi Wrapping a b = addi Checked a b.
Proof. intros. unfold over, addi. destruct (in_i64 _); auto. Qed.
Lemma g_subi : forall a b, over (subi Checked a b) \/ subi Wrapping a b = subi Checked a b.
Proof. intros. unfold over, subi. destruct (in_i64 _); auto. Qed.
Lemma g_content : forall s, over (content_len Checked s) \/ content_len Wrapping s = content_len Checked s.
Proof. intros s. unfold content_len. destruct (sz_ext s); apply g_sub. Qed.
Lemma g_end : forall b, over (bounds_end Checked b) \/ bounds_end Wrapping b = bounds_end Checked b.
Proof. intros. apply g_add. Qed.
Lemma g_cpos : forall b, over (content_pos Checked b) \/ content_pos Wrapping b = content_pos Checked b.
Proof. intros. apply g_add. Qed.
Lemma g_nanos : forall a b, over (mvhd_nanos Checked a b) \/ mvhd_nanos Wrapping a b = mvhd_nanos Checked a b.
Proof. intros. unfold mvhd_nanos. destruct (g_mul b 1000000000) as [E|E]; rewrite E; [left; reflexivity|auto]. Qed.

(** * Readers *)

Definition agree {A} (r r' : R A) : Prop := forall f p, over (r f p) \/ r' f p = r f p.
Lemma ag_refl : forall {A} (r : R A), agree r r. Proof. intros A r f p. right. reflexivity. Qed.
Lemma ag_bind : forall {A B} (r r' : R A) (k k' : A -> R B), agree r r' -> (forall a, agree (k a) (k' a)) -> agree (bind r k) (bind r' k').
Proof.
  intros A B r r' k k' H K f p. unfold bind. destruct (H f p) as [E|E]; rewrite E; [left; reflexivity|].
  destruct (r f p) as [[a q]| | |]; [apply K|right..]; reflexivity.
Qed.
Lemma ag_lift : forall {A} (r r' : res A), over r \/ r' = r -> agree (lift r) (lift r').
Proof. intros A r r' [E|E] f p; unfold lift; rewrite E; [left|right]; reflexivity. Qed.
Ltac ag :=
  repeat match goal with
  | |- agree ?r ?r => apply ag_refl
  | |- agree (bind _ _) (bind _ _) => apply ag_bind; [|intro]
  | |- agree (lift _) (lift _) => apply ag_lift; auto using g_add, g_sub, g_mul, g_content, g_end, g_nanos, g_addi, g_subi
  | |- agree (if ?b then _ else _) _ => destruct b
  | |- agree (let '(_, _) := ?x in _) _ => destruct x
  | |- agree (match ?x with _ => _ end) _ => destruct x
  | |- agree (let _ := _ in _) _ => cbv zeta
  end.
Lemma ag_loop : forall {S} n limit limit' (b b' : head -> S -> R S), over limit \/ limit' = limit ->
  (forall h s, agree (b h s) (b' h s)) ->
  forall parsed s, agree (atom_loop n Checked limit b parsed s) (atom_loop n Wrapping limit' b' parsed s).
Proof.
  intros S n limit limit' b b' L B. induction n as [|n IH]; intros parsed s; [apply ag_refl|]. cbn [atom_loop].
  apply ag_bind; [apply ag_lift, L|intro]. ag; [apply B|apply IH].
Qed.
Lemma ag_dloop : forall {S} n len (b b' : N -> N -> S -> R S), (forall t l s, agree (b t l s) (b' t l s)) ->
  forall parsed s, agree (desc_loop n Checked len b parsed s) (desc_loop n Wrapping len b' parsed s).
Proof.
  intros S n len b b' B. induction n as [|n IH]; intros parsed s; [apply ag_refl|]. cbn [desc_loop]. ag; [apply B|apply IH].
Qed.

Ltac lp := apply ag_loop; [auto using g_content|intros ? ?].
Lemma a_skip : forall h, agree (skip_atom Checked h) (skip_atom Wrapping h).
Proof. intros. unfold skip_atom. ag. Qed.
Lemma a_fb : forall s, agree (find_bounds Checked s) (find_bounds Wrapping s).
Proof. intros. unfold find_bounds. ag. Qed.
Lemma a_se : forall b, agree (seek_to_end Checked b) (seek_to_end Wrapping b).
Proof. intros. unfold seek_to_end. ag. Qed.
Ltac ah := ag; auto using a_skip, a_fb, a_se.

Lemma a_ilst : forall n s, agree (ilst_parse n Checked s) (ilst_parse n Wrapping s).
Proof. intros. lp. unfold ilst_body. ah. unfold atom_data_parse. ah. lp. unfold item_body. ah. Qed.
Lemma a_meta : forall n s, agree (meta_parse n Checked s) (meta_parse n Wrapping s).
Proof. intros. unfold meta_parse. ah. lp. unfold meta_body. ah. apply a_ilst. Qed.
Lemma a_udta : forall n s, agree (udta_parse n Checked s) (udta_parse n Wrapping s).
Proof. intros. lp. unfold udta_body. ah. apply a_meta. Qed.
Lemma a_mp4a : forall n s, agree (mp4a_parse n Checked s) (mp4a_parse n Wrapping s).
Proof.
  intros. unfold mp4a_parse. ah. unfold parse_esds. ah. unfold parse_es_desc. ah. apply ag_dloop. intros. unfold es_body. ah.
  unfold parse_dc_desc. ah. apply ag_dloop. intros. unfold dc_body, parse_ds_desc. ah.
Qed.
Lemma a_trak : forall n s, agree (trak_parse n Checked s) (trak_parse n Wrapping s).
Proof.
  intros. lp. unfold trak_body. ah. lp. unfold mdia_body. ah. lp. unfold minf_body. ah. lp. unfold stbl_body. ah.
  unfold stsd_parse. ah. lp. unfold stsd_body. ah. apply a_mp4a.
Qed.
Lemma a_mvhd : forall s, agree (mvhd_parse Checked s) (mvhd_parse Wrapping s).
Proof. intros. unfold mvhd_parse. ah. Qed.
Lemma a_moov : forall n s, agree (moov_parse n Checked s) (moov_parse n Wrapping s).
Proof. intros. lp. unfold moov_body. ah; [apply a_mvhd|apply a_trak|apply a_udta]. Qed.
Lemma a_find : forall n inner len parsed, agree (find_moov n Checked inner len parsed) (find_moov n Wrapping inner len parsed).
Proof. induction n as [|n IH]; intros; [apply ag_refl|]. cbn [find_moov]. ah. apply a_moov. Qed.
Lemma a_rem : agree (remaining_stream_len Checked) (remaining_stream_len Wrapping).
Proof. unfold remaining_stream_len. ah. Qed.
Lemma a_ftyp : agree (ftyp_parse Checked) (ftyp_parse Wrapping).
Proof. unfold ftyp_parse. ah. Qed.
Lemma a_read : forall n, agree (read_tag_from n Checked) (read_tag_from n Wrapping).
Proof. intros. unfold read_tag_from. ah; auto using a_rem, a_ftyp, a_find. Qed.

Theorem read_modes : forall n f, read_tag n Checked f <> Panic POverflow -> read_tag n Wrapping f = read_tag n Checked f.
Proof.
  intros n f H. unfold read_tag in *. destruct (a_read n f 0) as [E|E]; rewrite E in *; [contradiction|reflexivity].
Qed.

(** * The write path *)

Lemma a_leaf : forall s, agree (leaf_find Checked s) (leaf_find Wrapping s).
Proof. intros. unfold leaf_find. ah. Qed.
Lemma a_tfind : forall n s, agree (trak_find n Checked s) (trak_find n Wrapping s).
Proof.
  intros. unfold trak_find. ah. lp. unfold trak_fbody. ah. unfold mdia_find. ah. lp. unfold mdia_fbody. ah. unfold minf_find. ah.
  lp. unfold minf_fbody. ah. unfold stbl_find. ah. lp. unfold stbl_fbody. ah; apply a_leaf.
Qed.
Lemma a_ufind : forall n s, agree (udta_find n Checked s) (udta_find n Wrapping s).
Proof.
  intros. unfold udta_find. ah. lp. unfold udta_fbody. ah. unfold meta_find. ah. lp. unfold meta_fbody. ah; apply a_leaf.
Qed.
Lemma a_scan : forall n, agree (scan n Checked) (scan n Wrapping).
Proof.
  intros. unfold scan. ah; auto using a_ftyp, a_rem. apply ag_loop; [auto|intros]. unfold top_fbody. ah; [|apply a_leaf].
  unfold moov_find. ah. lp. unfold moov_fbody. ah; [apply a_tfind|apply a_ufind].
Qed.
Lemma a_prepare : forall n atoms, agree (prepare n Checked atoms) (prepare n Wrapping atoms).
Proof. intros. unfold prepare. apply ag_bind; [apply a_scan|intro sc]. cbv zeta. ag; try (apply ag_lift; apply g_end). Qed.

Definition oagree {A} (o o' : Out A) : Prop := over (snd o) \/ o' = o.
Lemma og_refl : forall {A} (o : Out A), oagree o o. Proof. right. reflexivity. Qed.
Lemma og_bind : forall {A B} (x x' : Out A) (k k' : A -> Out B), oagree x x' -> (forall a, oagree (k a) (k' a)) -> oagree (obind x k) (obind x' k').
Proof.
  intros A B x x' k k' H K. unfold obind. destruct H as [E| ->]; [left; rewrite E; reflexivity|].
  destruct (snd x) as [a| | |]; [|right; reflexivity..]. destruct (K a) as [E|E]; [left; exact E|right; rewrite E; reflexivity].
Qed.
Lemma og_lift : forall {A} (r r' : res A), over r \/ r' = r -> oagree (olift r) (olift r').
Proof. intros A r r' [E| ->]; [left; exact E|apply og_refl]. Qed.
Lemma og_map : forall {A} (g g' : A -> Out unit) l, (forall x, oagree (g x) (g' x)) -> oagree (omap g l) (omap g' l).
Proof. intros A g g' l H. induction l as [|x r IH]; [apply og_refl|]. apply og_bind; [apply H|intro; apply IH]. Qed.
Ltac og :=
  repeat match goal with
  | |- oagree ?r ?r => apply og_refl
  | |- oagree (obind _ _) (obind _ _) => apply og_bind; [|intro]
  | |- oagree (olift _) (olift _) => apply og_lift, g_add32
  | |- oagree (omap _ _) (omap _ _) => apply og_map; intro
  | |- oagree (match ?x with _ => _ end) _ => destruct x
  end.
Lemma og_ilst : forall l, oagree (ilst_write Checked l) (ilst_write Wrapping l).
Proof. intros. unfold ilst_write. og. unfold ad_write. og. Qed.
Lemma og_meta : forall x, oagree (meta_write Checked x) (meta_write Wrapping x).
Proof. intros. unfold meta_write. og; apply og_ilst. Qed.
Lemma og_new : forall n, oagree (new_atoms_write Checked n) (new_atoms_write Wrapping n).
Proof. intros []; unfold new_atoms_write, udta_write; og; auto using og_meta, og_ilst. Qed.
Theorem dump_modes : forall atoms, snd (dump_tag_to Checked atoms) <> Panic POverflow -> dump_tag_to Wrapping atoms = dump_tag_to Checked atoms.
Proof.
  intros atoms H. assert (X : oagree (dump_tag_to Checked atoms) (dump_tag_to Wrapping atoms)).
  { unfold dump_tag_to, moov_write, udta_write. og. apply og_meta. }
  destruct X as [E|E]; [contradiction|exact E].
Qed.

Definition wagree {A} (x x' : W A) : Prop := forall s, over (fst (x s)) \/ x' s = x s.
Lemma wg_refl : forall {A} (x : W A), wagree x x. Proof. intros A x s. right. reflexivity. Qed.
Lemma wg_bind : forall {A B} (x x' : W A) (k k' : A -> W B), wagree x x' -> (forall a, wagree (k a) (k' a)) -> wagree (wbind x k) (wbind x' k').
Proof.
  intros A B x x' k k' H K s. unfold wbind. destruct (H s) as [E|E].
  - left. destruct (x s) as [r s']. cbn in E. rewrite E. reflexivity.
  - rewrite E. destruct (x s) as [[a| | |] s']; [apply K|right; reflexivity..].
Qed.
Lemma wg_lift : forall {A} (r r' : res A), over r \/ r' = r -> wagree (wlift r) (wlift r').
Proof. intros A r r' [E| ->] s; [left; exact E|right; reflexivity]. Qed.
Lemma wg_read : forall {A} (r r' : R A) q, agree r r' -> wagree (w_read r q) (w_read r' q).
Proof.
  intros A r r' q H s. unfold w_read. destruct (q <? two63); [|right; reflexivity].
  destruct (H (w_file s) q) as [E|E]; rewrite E; [left|right]; reflexivity.
Qed.
Lemma wg_out : forall {A} cap (o o' : Out A), oagree o o' -> wagree (bw_out cap o) (bw_out cap o').
Proof.
  intros A cap o o' [E| ->]; [|apply wg_refl]. intros s. left. unfold bw_out, wbind.
  assert (X : forall l s, exists s', bw_chunks cap l s = (Ok tt, s')).
  { induction l as [|d l IH]; intros s0; [eexists; reflexivity|]. cbn [bw_chunks]. unfold wbind.
    assert (Y : exists s1, bw_write cap d s0 = (Ok tt, s1)).
    { unfold bw_write, os_write. destruct (_ <? _), (_ <=? _); destruct d; eexists; reflexivity. }
    destruct Y as (s1 & ->). apply IH. }
  destruct (X (fst o) s) as (s' & ->). exact E.
Qed.
Ltac wg :=
  repeat match goal with
  | |- wagree ?r ?r => apply wg_refl
  | |- wagree (wbind _ _) (wbind _ _) => apply wg_bind; [|intro]
  | |- wagree (wlift _) (wlift _) => apply wg_lift; auto using g_addi, g_cpos
  | |- wagree (if ?x then _ else _) _ => destruct x
  | |- wagree (match ?x with _ => _ end) _ => destruct x
  end.
Lemma wg_table : forall cap w d b, wagree (adjust_table cap Checked w d b) (adjust_table cap Wrapping w d b).
Proof.
  intros. unfold adjust_table. wg.
  - apply wg_read. destruct w; unfold co64_parse, stco_parse, table_parse; ag.
  - generalize (snd a0). intros l. induction l as [|o l IH]; cbn [write_offsets]; wg. exact IH.
Qed.
Lemma wg_traks : forall cap d l, wagree (adjust_traks cap Checked d l) (adjust_traks cap Wrapping d l).
Proof.
  intros cap d. induction l as [|t l IH]; [apply wg_refl|]. cbn [adjust_traks]. apply wg_bind; [|intro; exact IH].
  destruct (trak_stbl t) as [sb|]; [|apply wg_refl]. unfold adjust_stbl. apply wg_bind; [|intro]; destruct (_ sb); auto using wg_refl, wg_table.
Qed.
Lemma wg_update : forall cap d l, wagree (update_all cap Checked d l) (update_all cap Wrapping d l).
Proof.
  intros cap d. induction l as [|t l IH]; [apply wg_refl|]. cbn [update_all]. apply wg_bind; [|intro; exact IH].
  unfold update_atom. wg.
Qed.
Lemma wg_execute : forall cap p, wagree (execute cap Checked p) (execute cap Wrapping p).
Proof. intros. unfold execute. wg; auto using wg_traks, wg_update, wg_out, og_new. Qed.

Theorem write_modes : forall cap n atoms f pos, wr_res (write_tag_to cap n Checked atoms f pos) <> Panic POverflow ->
  write_tag_to cap n Wrapping atoms f pos = write_tag_to cap n Checked atoms f pos.
Proof.
  intros cap n atoms f pos H. unfold write_tag_to in *.
  destruct (a_prepare n atoms f pos) as [E|E]; [rewrite E in H; contradiction|]. rewrite E.
  destruct (prepare n Checked atoms f pos) as [[p q]| | |]; try reflexivity.
  destruct (wg_execute cap p (Wst f 0 [] [])) as [X|X]; [|rewrite X; reflexivity].
  destruct (execute cap Checked p (Wst f 0 [] [])) as [r s]. cbn in X. destruct (bw_flush s). cbn in H. contradiction.
Qed.
