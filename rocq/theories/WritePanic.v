(** Which panics writing can run into. *)

From Coq Require Import List NArith ZArith Bool Lia Arith.
From Verif Require Import Base Utf Types Stream Parse Find Write WriteTerm.
Import ListNotations.

Section Panics.
  (** [K]: the panics that are possible; overflows are if they are checked. *)
  Context (m : mode) (K : panic -> Prop) (KO : m = Checked -> K POverflow).

  Definition pk {A} (r : R A) : Prop := forall f p q, r f p = Panic q -> K q.
  Lemma pk_bind : forall {A B} (r : R A) (k : A -> R B), pk r -> (forall a, pk (k a)) -> pk (bind r k).
  Proof. intros A B r k H Hk f p q E. unfold bind in E. specialize (H f p). destruct (r f p) as [[a p']|e|x|]; try discriminate; [eapply Hk, E|apply H; congruence]. Qed.
  Lemma pk_ret : forall {A} (a : A), pk (ret a). Proof. intros A a f p q E. discriminate. Qed.
  Lemma pk_fail : forall {A} e, pk (@fail A e). Proof. intros A e f p q E. discriminate. Qed.
  Lemma pk_read : forall n, pk (read_exact n).
  Proof. intros n f p q E. unfold read_exact in E. destruct (n =? 0); [discriminate|]. destruct (_ <=? _); discriminate. Qed.
  Lemma pk_seek : forall d, pk (seek_cur d). Proof. intros d f p q E. unfold seek_cur in E. destruct (_ && _)%bool; discriminate. Qed.
  Lemma pk_pos : pk position. Proof. intros f p q E. discriminate. Qed.
  Lemma pk_send : pk seek_end. Proof. intros f p q E. discriminate. Qed.
  Lemma pk_sstart : forall n, pk (seek_start n). Proof. intros n f p q E. unfold seek_start in E. destruct (_ <? _); discriminate. Qed.
  Lemma pk_rest : pk read_to_end. Proof. intros f p q E. discriminate. Qed.
  Lemma pk_lift : forall {A} (r : res A), (forall q, r = Panic q -> K q) -> pk (lift r).
  Proof. intros A r H f p q E. unfold lift in E. destruct r; try discriminate. apply H. congruence. Qed.
  Lemma k_add : forall a b q, add64 m a b = Panic q -> K q.
  Proof. intros a b q E. unfold add64 in E. destruct (_ <? _); [discriminate|]. destruct m; [|discriminate]. injection E as <-. auto. Qed.
  Lemma k_sub : forall a b q, sub64 m a b = Panic q -> K q.
  Proof. intros a b q E. unfold sub64 in E. destruct (_ <=? _); [discriminate|]. destruct m; [|discriminate]. injection E as <-. auto. Qed.
  Lemma k_addi : forall a b q, addi m a b = Panic q -> K q.
  Proof. intros a b q E. unfold addi in E. destruct (in_i64 _); [discriminate|]. destruct m; [|discriminate]. injection E as <-. auto. Qed.
  Lemma k_subi : forall a b q, subi m a b = Panic q -> K q.
  Proof. intros a b q E. unfold subi in E. destruct (in_i64 _); [discriminate|]. destruct m; [|discriminate]. injection E as <-. auto. Qed.
  Lemma k_add32 : forall a b q, add32 m a b = Panic q -> K q.
  Proof. intros a b q E. unfold add32 in E. destruct (_ <? _); [discriminate|]. destruct m; [|discriminate]. injection E as <-. auto. Qed.
  Lemma k_content : forall s q, content_len m s = Panic q -> K q.
  Proof. intros s q. unfold content_len. destruct (sz_ext s); apply k_sub. Qed.
  Lemma k_end : forall b q, bounds_end m b = Panic q -> K q. Proof. intros b q. apply k_add. Qed.

  Ltac pk1 :=
    match goal with
    | |- pk (bind _ _) => apply pk_bind; [|intro]
    | |- pk (ret _) => apply pk_ret
    | |- pk (fail _) => apply pk_fail
    | |- pk (read_exact _) => apply pk_read
    | |- pk (seek_cur _) => apply pk_seek
    | |- pk position => apply pk_pos
    | |- pk seek_end => apply pk_send
    | |- pk (seek_start _) => apply pk_sstart
    | |- pk read_to_end => apply pk_rest
    | |- pk (lift (add64 _ _ _)) => apply pk_lift, k_add
    | |- pk (lift (sub64 _ _ _)) => apply pk_lift, k_sub
    | |- pk (lift (addi _ _ _)) => apply pk_lift, k_addi
    | |- pk (lift (subi _ _ _)) => apply pk_lift, k_subi
    | |- pk (lift (content_len _ _)) => apply pk_lift, k_content
    | |- pk (lift (bounds_end _ _)) => apply pk_lift, k_end
    | |- pk (if ?b then _ else _) => destruct b
    | |- pk (let '(_, _) := ?x in _) => destruct x
    | |- pk (match ?x with _ => _ end) => destruct x
    end.
  Ltac pks := cbv zeta; repeat pk1.

  Lemma pk_head : pk parse_head. Proof. unfold parse_head, read_u32, read_u64. pks. Qed.
  Lemma pk_full : pk parse_full_head. Proof. unfold parse_full_head, read_u8. pks. Qed.
  Lemma pk_skip : forall h, pk (skip_atom m h). Proof. intros. unfold skip_atom. pks. Qed.
  Lemma pk_bounds : forall s, pk (find_bounds m s). Proof. intros. unfold find_bounds. pks. Qed.
  Lemma pk_leaf : forall s, pk (leaf_find m s). Proof. intros. unfold leaf_find, seek_to_end. pks. apply pk_bounds. Qed.
  Lemma pk_loop : forall {S} fuel limit (body : head -> S -> R S) parsed s, (forall q, limit = Panic q -> K q) -> (forall h s, pk (body h s)) ->
    pk (atom_loop fuel m limit body parsed s).
  Proof.
    intros S fuel limit body. induction fuel as [|fuel IH]; intros parsed s Hl B; [intros f p q E; discriminate|]. cbn [atom_loop].
    apply pk_bind; [apply pk_lift, Hl|intro]. destruct (_ <? _); [|apply pk_ret]. apply pk_bind; [apply pk_head|intro].
    apply pk_bind; [apply B|intro]. apply pk_bind; [apply pk_lift, k_add|intro]. apply IH; assumption.
  Qed.

  Section Scan.
    Context (fuel : nat).
    Ltac sub := pks; try apply pk_bounds; try apply pk_full; apply pk_loop; [apply k_content|intros h l].
    Lemma pk_stbl : forall s, pk (stbl_find fuel m s). Proof. intros. unfold stbl_find. sub. unfold stbl_fbody. pks; (apply pk_leaf || apply pk_skip). Qed.
    Lemma pk_minf : forall s, pk (minf_find fuel m s). Proof. intros. unfold minf_find. sub. unfold minf_fbody. pks; (apply pk_stbl || apply pk_skip). Qed.
    Lemma pk_mdia : forall s, pk (mdia_find fuel m s). Proof. intros. unfold mdia_find. sub. unfold mdia_fbody. pks; (apply pk_minf || apply pk_skip). Qed.
    Lemma pk_trak : forall s, pk (trak_find fuel m s). Proof. intros. unfold trak_find. sub. unfold trak_fbody. pks; (apply pk_mdia || apply pk_skip). Qed.
    Lemma pk_meta : forall s, pk (meta_find fuel m s). Proof. intros. unfold meta_find. sub. unfold meta_fbody. pks; (apply pk_leaf || apply pk_skip). Qed.
    Lemma pk_udta : forall s, pk (udta_find fuel m s). Proof. intros. unfold udta_find. sub. unfold udta_fbody. pks; (apply pk_meta || apply pk_skip). Qed.
    Lemma pk_moov : forall s, pk (moov_find fuel m s).
    Proof. intros. unfold moov_find. sub. unfold moov_fbody. pks; (apply pk_trak || apply pk_udta || apply pk_skip). Qed.
  End Scan.

  (** ** The modifications *)
  Definition pw {A} (x : W A) : Prop := forall s q, fst (x s) = Panic q -> K q.
  Lemma pw_bind : forall {A B} (x : W A) (k : A -> W B), pw x -> (forall a, pw (k a)) -> pw (wbind x k).
  Proof.
    intros A B x k H Hk s q E. unfold wbind in E. specialize (H s). destruct (x s) as [[a|e|y|] s']; cbn [fst] in *; try discriminate; [eapply Hk, E|apply H; congruence].
  Qed.
  Lemma pw_ret : forall {A} (a : A), pw (wret a). Proof. intros A a s q E. discriminate. Qed.
  Lemma pw_lift : forall {A} (r : res A), (forall q, r = Panic q -> K q) -> pw (wlift r). Proof. intros A r H s q E. apply H, E. Qed.
  Lemma pw_os : forall d, pw (os_write d). Proof. intros [|b d] s q E; discriminate. Qed.
  Lemma pw_flush : pw bw_flush.
  Proof. intros s q E. unfold bw_flush in E. pose proof (pw_os (w_buf s) s q) as H. destruct (os_write _ _); apply H, E. Qed.
  Lemma pw_write : forall cap d, pw (bw_write cap d).
  Proof. intros cap d s q E. unfold bw_write in E. destruct (cap <=? _); [eapply pw_os, E|discriminate]. Qed.
  Lemma pw_sstart : forall n, pw (bw_seek_start n).
  Proof. intros n. apply pw_bind; [apply pw_flush|]. intros _ s q. destruct (_ <? _); discriminate. Qed.
  Lemma pw_scur : forall d, pw (bw_seek_cur d).
  Proof. intros d. apply pw_bind; [apply pw_flush|]. intros _ s q. cbv zeta. destruct (_ && _)%bool; discriminate. Qed.
  Lemma pw_setlen : forall n, pw (file_set_len n).
  Proof. intros n s q. unfold file_set_len. destruct (_ <? _); discriminate. Qed.
  Lemma pw_chunks : forall cap l, pw (bw_chunks cap l).
  Proof. induction l as [|d l IH]; [apply pw_ret|]. apply pw_bind; [apply pw_write|intro; apply IH]. Qed.
  Lemma pw_read : forall {A} (r : R A) n, pk r -> pw (w_read r n).
  Proof.
    intros A r n H s q E. unfold w_read in E. destruct (_ <? _); [|discriminate]. specialize (H (w_file s) n).
    destruct (r (w_file s) n) as [[a x]| | |]; cbn [fst] in E; try discriminate. apply H. congruence.
  Qed.
  Definition po {A} (x : Out A) : Prop := forall q, snd x = Panic q -> K q.
  Lemma po_bind : forall {A B} (x : Out A) (k : A -> Out B), po x -> (forall a, po (k a)) -> po (obind x k).
  Proof. intros A B x k H Hk q. unfold obind, po in *. destruct (snd x) as [a| | |]; cbn [snd]; try discriminate; [apply Hk|intro E; apply H; congruence]. Qed.
  Lemma po_emit : forall b, po (emit b). Proof. intros b q. discriminate. Qed.
  Lemma po_ret : forall {A} (a : A), po (oret a). Proof. intros A a q. discriminate. Qed.
  Lemma po_map : forall {A} (g : A -> Out unit) l, (forall a, po (g a)) -> po (omap g l).
  Proof. intros A g l H. induction l as [|x l IH]; [apply po_ret|]. cbn [omap]. apply po_bind; [apply H|intro; exact IH]. Qed.
  Ltac po1 :=
    match goal with
    | |- po (obind _ _) => apply po_bind; [|intro]
    | |- po (emit _) => apply po_emit
    | |- po (oret _) => apply po_ret
    | |- po (olift (add32 _ _ _)) => intro; apply k_add32
    | |- po (omap _ _) => apply po_map; intro
    | |- po (if ?b then _ else _) => destruct b
    | |- po (match ?x with _ => _ end) => destruct x
    end.
  Ltac pos := repeat po1.
  Lemma po_ad : forall a, po (ad_write m a). Proof. intros. unfold ad_write, write_typed, write_raw. pos. Qed.
  Lemma po_ilst : forall l, po (ilst_write m l). Proof. intros. unfold ilst_write, write_head. pos. apply po_ad. Qed.
  Lemma po_hdlr : forall h, po (hdlr_write h). Proof. intros. unfold hdlr_write, write_head. pos. Qed.
  Lemma po_meta : forall x, po (meta_write m x). Proof. intros. unfold meta_write, write_head, write_full_head. pos; (apply po_hdlr || apply po_ilst). Qed.
  Lemma po_new : forall n, po (new_atoms_write m n).
  Proof.
    intros [x|x|h l]; unfold new_atoms_write, udta_write, write_head.
    - pos; apply po_meta.
    - apply po_meta.
    - pos; (apply po_hdlr || apply po_ilst).
  Qed.
  Lemma pk_many : forall k r, pk r -> pk (read_many k r).
  Proof. intros k r H. induction k as [|k IH]; cbn [read_many]; pks; assumption. Qed.
  Lemma pk_table : forall w rd s, pk rd -> pk (table_parse w rd m s).
  Proof. intros w rd s H. unfold table_parse, read_u32. pks; try apply pk_full; apply pk_many, H. Qed.
  Lemma pw_offsets : forall cap wide diff l, pw (write_offsets cap m wide diff l).
  Proof.
    induction l as [|c l IH]; [apply pw_ret|]. cbn [write_offsets]. apply pw_bind; [apply pw_lift, k_addi|intro].
    apply pw_bind; [apply pw_write|intro; apply IH].
  Qed.
  Lemma pw_table : forall cap wide diff b, pw (adjust_table cap m wide diff b).
  Proof.
    intros. unfold adjust_table, content_pos, co64_parse, stco_parse. apply pw_bind; [apply pw_lift, k_add|intro].
    apply pw_bind; [apply pw_read; destruct wide; apply pk_table; unfold read_u32, read_u64; pks|intro].
    apply pw_bind; [apply pw_sstart|intro]. apply pw_bind; [apply pw_offsets|intro; apply pw_flush].
  Qed.
  Lemma pw_traks : forall cap diff l, pw (adjust_traks cap m diff l).
  Proof.
    induction l as [|t l IH]; [apply pw_ret|]. cbn [adjust_traks]. apply pw_bind; [|intro; apply IH].
    destruct (trak_stbl t); [|apply pw_ret]. apply pw_bind; [|intro]; (destruct (sb_stco _) || destruct (sb_co64 _)); (apply pw_table || apply pw_ret).
  Qed.
  Lemma pw_updates : forall cap diff l, pw (update_all cap m diff l).
  Proof.
    induction l as [|b l IH]; [apply pw_ret|]. cbn [update_all]. apply pw_bind; [|intro; apply IH]. unfold update_atom.
    apply pw_bind; [apply pw_lift, k_addi|intro]. apply pw_bind; [apply pw_sstart|intro]. destruct (sz_ext _).
    - apply pw_bind; [apply pw_write|intro]. apply pw_bind; [apply pw_scur|intro; apply pw_write].
    - apply pw_write.
  Qed.
  Lemma pw_execute : forall cap p, pw (execute cap m p).
  Proof.
    intros. unfold execute. apply pw_bind; [destruct (_ <? _); [apply pw_traks|apply pw_ret]|intro].
    apply pw_bind; [apply pw_updates|intro]. apply pw_bind; [apply pw_bind; [apply pw_lift, k_addi|intro; apply pw_setlen]|intro].
    apply pw_bind; [apply pw_sstart|intro]. apply pw_bind; [apply pw_bind; [apply pw_chunks|intro; apply pw_lift, po_new]|intro].
    apply pw_bind; [apply pw_bind; [apply pw_lift, k_addi|intro; apply pw_sstart]|intro].
    apply pw_bind; [apply pw_write|intro; apply pw_flush].
  Qed.

  (** ** Scan and plan: allocations too *)
  Context (KC : K PCapacity).
  Lemma pk_scan : forall fuel, pk (scan fuel m).
  Proof.
    intros. unfold scan, ftyp_parse, remaining_stream_len, read_utf8, read_u8_vec. pks; try apply pk_head.
    - apply pk_lift. intros q E. injection E as <-. exact KC.
    - apply pk_loop; [discriminate|]. intros h l. unfold top_fbody. pks; (apply pk_moov || apply pk_leaf || apply pk_skip).
  Qed.
  Lemma pk_prepare : forall fuel items, pk (prepare fuel m items).
  Proof.
    intros. rewrite prepare_eq. apply pk_bind; [apply pk_scan|intro]. unfold plan_rest. pks.
    all: apply pk_lift; intros q E; injection E as <-; exact KC.
  Qed.
End Panics.

(** Any bytes: a panic is a checked overflow or an allocation. *)
Theorem write_panics : forall cap fuel m items f pos q, wr_res (write_tag_to cap fuel m items f pos) = Panic q ->
  q = PCapacity \/ m = Checked /\ q = POverflow.
Proof.
  intros cap fuel m items f pos q H. unfold write_tag_to in H.
  pose proof (pk_prepare m (fun q => q = PCapacity \/ m = Checked /\ q = POverflow) ltac:(cbn; auto) ltac:(cbn; auto) fuel items f pos) as P.
  destruct (prepare fuel m items f pos) as [[p x]| |y|]; try discriminate H.
  - pose proof (pw_execute m (fun q => q = PCapacity \/ m = Checked /\ q = POverflow) ltac:(cbn; auto) cap p (Wst f 0 [] []) q) as X.
    destruct (execute cap m p _) as [r s]. destruct (bw_flush s). apply X, H.
  - apply P. injection H as <-. reflexivity.
Qed.
(** Without checks nothing has been touched then. *)
Theorem write_panics_early : forall cap fuel items f pos q, wr_res (write_tag_to cap fuel Wrapping items f pos) = Panic q ->
  q = PCapacity /\ wr_file (write_tag_to cap fuel Wrapping items f pos) = f /\ wr_ops (write_tag_to cap fuel Wrapping items f pos) = [].
Proof.
  intros cap fuel items f pos q H. split; [destruct (write_panics _ _ _ _ _ _ _ H) as [E|[E _]]; [exact E|discriminate E]|].
  unfold write_tag_to in *. destruct (prepare fuel Wrapping items f pos) as [[p x]| |y|]; try discriminate H; [|split; reflexivity].
  pose proof (pw_execute Wrapping (fun _ => False) ltac:(discriminate) cap p (Wst f 0 [] []) q) as X.
  destruct (execute cap Wrapping p _) as [r s]. destruct (bw_flush s). destruct (X H).
Qed.
