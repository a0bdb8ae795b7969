(** Writing with the descriptions of errors: the text of Find.v and Write.v, with the strings the source attaches to
    errors (src/error.rs) and the wrappers [FindAtom::find] (src/atom/mod.rs 105-113) and [ParseAtom::parse] (mod.rs
    87-97) that put the name of the atom before them. *)

From Coq Require Import List NArith ZArith Bool String.
From Verif Require Import Base Utf Types Stream Parse Find Write Display Described.
From Verif Require Fault WriteTerm.
Import ListNotations.
Local Open Scope list_scope.
Local Open Scope d_scope.

(** * The scan *)

(** [find_atom] of mdat, hdlr, ilst, stco and co64, see [leaf_find], in [FindAtom::find]. *)
Definition d_leaf (m : mode) (id : fourcc) (s : size) : D bounds := parsing id (plainly (leaf_find m s)).

(** stbl.rs 45-66. *)
Definition d_stbl_fbody (m : mode) (h : head) (r : option bounds * option bounds) : D (option bounds * option bounds) :=
  let id := hd_fourcc h in
  if fourcc_eqb id SAMPLE_TABLE_CHUNK_OFFSET then b <# d_leaf m SAMPLE_TABLE_CHUNK_OFFSET (hd_size h) ;; dret (Some b, snd r)
  else if fourcc_eqb id SAMPLE_TABLE_CHUNK_OFFSET_64 then b <# d_leaf m SAMPLE_TABLE_CHUNK_OFFSET_64 (hd_size h) ;; dret (fst r, Some b)
  else plainly (skip_atom m h) ;#; dret r.
Definition d_stbl_find (fuel : nat) (m : mode) (s : size) : D stbl_bounds :=
  b <# plainly (find_bounds m s) ;;
  r <# d_loop fuel m (content_len m s) (d_stbl_fbody m) 0 (None, None) ;;
  dret (StblBounds b (fst r) (snd r)).

(** minf.rs 42-61. *)
Definition d_minf_fbody (fuel : nat) (m : mode) (h : head) (r : option stbl_bounds) : D (option stbl_bounds) :=
  if fourcc_eqb (hd_fourcc h) SAMPLE_TABLE then x <# parsing SAMPLE_TABLE (d_stbl_find fuel m (hd_size h)) ;; dret (Some x)
  else plainly (skip_atom m h) ;#; dret r.
Definition d_minf_find (fuel : nat) (m : mode) (s : size) : D minf_bounds :=
  b <# plainly (find_bounds m s) ;;
  r <# d_loop fuel m (content_len m s) (d_minf_fbody fuel m) 0 None ;;
  dret (MinfBounds b r).

(** mdia.rs 42-61. *)
Definition d_mdia_fbody (fuel : nat) (m : mode) (h : head) (r : option minf_bounds) : D (option minf_bounds) :=
  if fourcc_eqb (hd_fourcc h) MEDIA_INFORMATION then x <# parsing MEDIA_INFORMATION (d_minf_find fuel m (hd_size h)) ;; dret (Some x)
  else plainly (skip_atom m h) ;#; dret r.
Definition d_mdia_find (fuel : nat) (m : mode) (s : size) : D mdia_bounds :=
  b <# plainly (find_bounds m s) ;;
  r <# d_loop fuel m (content_len m s) (d_mdia_fbody fuel m) 0 None ;;
  dret (MdiaBounds b r).

(** trak.rs 42-61. *)
Definition d_trak_fbody (fuel : nat) (m : mode) (h : head) (r : option mdia_bounds) : D (option mdia_bounds) :=
  if fourcc_eqb (hd_fourcc h) MEDIA then x <# parsing MEDIA (d_mdia_find fuel m (hd_size h)) ;; dret (Some x)
  else plainly (skip_atom m h) ;#; dret r.
Definition d_trak_find (fuel : nat) (m : mode) (s : size) : D trak_bounds :=
  b <# plainly (find_bounds m s) ;;
  r <# d_loop fuel m (content_len m s) (d_trak_fbody fuel m) 0 None ;;
  dret (TrakBounds b r).

(** meta.rs 94-124. *)
Definition d_meta_fbody (m : mode) (h : head) (r : option bounds * option bounds) : D (option bounds * option bounds) :=
  let id := hd_fourcc h in
  if fourcc_eqb id HANDLER_REFERENCE then b <# d_leaf m HANDLER_REFERENCE (hd_size h) ;; dret (Some b, snd r)
  else if fourcc_eqb id ITEM_LIST then b <# d_leaf m ITEM_LIST (hd_size h) ;; dret (fst r, Some b)
  else plainly (skip_atom m h) ;#; dret r.
Definition d_meta_find (fuel : nat) (m : mode) (s : size) : D meta_bounds :=
  b <# plainly (find_bounds m s) ;;
  vf <# d_full ;;
  if negb (fst vf =? 0) then dfail (EUnknownVersion (fst vf)) (txt "Unknown metadata (meta) version") else
  r <# d_loop fuel m (content_len m s) (d_meta_fbody m) 4 (None, None) ;;
  dret (MetaBounds b (fst r) (snd r)).

(** udta.rs 64-83. *)
Definition d_udta_fbody (fuel : nat) (m : mode) (h : head) (r : option meta_bounds) : D (option meta_bounds) :=
  if fourcc_eqb (hd_fourcc h) METADATA then x <# parsing METADATA (d_meta_find fuel m (hd_size h)) ;; dret (Some x)
  else plainly (skip_atom m h) ;#; dret r.
Definition d_udta_find (fuel : nat) (m : mode) (s : size) : D udta_bounds :=
  b <# plainly (find_bounds m s) ;;
  r <# d_loop fuel m (content_len m s) (d_udta_fbody fuel m) 0 None ;;
  dret (UdtaBounds b r).

(** moov.rs 69-90. *)
Definition d_moov_fbody (fuel : nat) (m : mode) (h : head) (r : list trak_bounds * option udta_bounds) : D (list trak_bounds * option udta_bounds) :=
  let id := hd_fourcc h in
  if fourcc_eqb id TRACK then t <# parsing TRACK (d_trak_find fuel m (hd_size h)) ;; dret (fst r ++ [t], snd r)
  else if fourcc_eqb id USER_DATA then u <# parsing USER_DATA (d_udta_find fuel m (hd_size h)) ;; dret (fst r, Some u)
  else plainly (skip_atom m h) ;#; dret r.
Definition d_moov_find (fuel : nat) (m : mode) (s : size) : D moov_bounds :=
  b <# plainly (find_bounds m s) ;;
  r <# d_loop fuel m (content_len m s) (d_moov_fbody fuel m) 0 ([], None) ;;
  dret (MoovBounds b (fst r) (snd r)).

(** mod.rs 357-387. *)
Definition d_top_fbody (fuel : nat) (m : mode) (h : head) (r : option moov_bounds * option bounds) : D (option moov_bounds * option bounds) :=
  let id := hd_fourcc h in
  if fourcc_eqb id MOVIE then x <# parsing MOVIE (d_moov_find fuel m (hd_size h)) ;; dret (Some x, snd r)
  else if fourcc_eqb id MEDIA_DATA then b <# d_leaf m MEDIA_DATA (hd_size h) ;; dret (fst r, Some b)
  else plainly (skip_atom m h) ;#; dret r.
Definition d_scan (fuel : nat) (m : mode) : D (moov_bounds * N) :=
  d_ftyp m ;#;
  len <# plainly (remaining_stream_len m) ;;
  r <# d_loop fuel m (Ok len) (d_top_fbody fuel m) 0 (None, None) ;;
  match fst r with
  | None => dfail (EAtomNotFound MOVIE) (txt "Missing necessary data, no movie (moov) atom found")
  | Some mb => dret (mb, match snd r with Some b => b_pos b | None => 0 end)
  end.

(** mod.rs 356-454: the rest of the preparation only uses [?] on results of the standard library
    ([WriteTerm.prepare_eq]: the preparation is the scan and this rest). *)
Definition d_prepare (fuel : nat) (m : mode) (atoms : list atom_data) : D plan :=
  sc <# d_scan fuel m ;;
  plainly (WriteTerm.plan_rest m atoms sc).

(** * The modifications *)

(** [Stco::parse_atom], stco.rs 17-44, and [Co64::parse_atom], co64.rs 17-44, see [table_parse], with what they say about
    a size that does not match and about an unknown version. *)
Definition d_table (w : N) (rd : R N) (mismatch version : string) (m : mode) (s : size) : D (N * list N) :=
  vf <# d_full ;;
  match fst vf with
  | 0 =>
    entries <# plainly read_u32 ;;
    c <# plainly (lift (content_len m s)) ;;
    if negb (8 + w * entries =? c) then dfail EParsing (txt mismatch) else
    table_pos <# plainly position ;;
    offs <# plainly (read_many (N.to_nat entries) rd) ;;
    dret (table_pos, offs)
  | v => dfail (EUnknownVersion v) (txt version)
  end.
Definition d_stco : mode -> size -> D (N * list N) :=
  d_table 4 read_u32 "Sample table chunk offset (stco) offset table size doesn't match atom length" "Unknown sample table chunk offset (stco) version".
Definition d_co64 : mode -> size -> D (N * list N) :=
  d_table 8 read_u64 "Sample table chunk offset 64 (co64) offset table size doesn't match atom length" "Unknown 64bit sample table chunk offset (co64) version".

(** A computation on the writer, see [W]. *)
Definition DW (A : Type) := wst -> dres A * wst.
Definition dwret (A : Type) (a : A) : DW A := fun s => (DOk a, s).
Definition dwbind (A B : Type) (x : DW A) (k : A -> DW B) : DW B :=
  fun s => match x s with
           | (DOk a, s') => k a s'
           | (DErr e t, s') => (DErr e t, s')
           | (DPanic p, s') => (DPanic p, s')
           | (DFuel, s') => (DFuel, s')
           end.
(** [op?]. *)
Definition dress {A} (r : res A) : dres A :=
  match r with Ok a => DOk a | Err e => DErr e (from_text e) | Panic p => DPanic p | Fuel => DFuel end.
Definition dwlift (A : Type) (r : res A) : DW A := fun s => (dress r, s).
Definition dw {A} (x : W A) : DW A := fun s => match x s with (r, s') => (dress r, s') end.
(** mod.rs 466-467, 477-478. *)
Definition dw_table (m : mode) (wide : bool) (s : size) (q : N) : DW (N * list N) :=
  fun st => if q <? two63 then
              match (if wide then parsing SAMPLE_TABLE_CHUNK_OFFSET_64 (d_co64 m s) else parsing SAMPLE_TABLE_CHUNK_OFFSET (d_stco m s)) (w_file st) q with
              | DOk (a, _) => (DOk a, st)
              | DErr e t => (DErr e t, st)
              | DPanic p => (DPanic p, st)
              | DFuel => (DFuel, st)
              end
            else (DErr EIoSeek [], st).
(** mod.rs 456-526: the program of [Fault.v]. *)
Definition d_execute (cap : N) (m : mode) (p : plan) : DW unit :=
  Fault.g_execute DW dwret dwbind dwlift (fun d => dw (bw_write cap d)) (fun q => dw (bw_seek_start q)) (fun d => dw (bw_seek_cur d)) (dw bw_flush)
    (fun n => dw (file_set_len n)) dw_table m p.

(** [Tag::write_to_path], see [write_tag]: what is returned. *)
Definition d_write (cap : N) (fuel : nat) (m : mode) (atoms : list atom_data) (f : bytes) : dres unit :=
  match d_prepare fuel m atoms f 0 with
  | DOk (p, _) => fst (d_execute cap m p (Wst f 0 [] []))
  | DErr e t => DErr e t
  | DPanic q => DPanic q
  | DFuel => DFuel
  end.

(** * Writing with descriptions is writing *)

From Verif Require Import DescribedIs.

Lemma same_leaf : forall m id s, same (d_leaf m id s) (leaf_find m s). Proof. intros. unfold d_leaf. same_auto. Qed.
Global Hint Resolve same_leaf : same.
Lemma same_stbl_fbody : forall m h r, same (d_stbl_fbody m h r) (stbl_fbody m h r). Proof. intros. unfold d_stbl_fbody, stbl_fbody. same_auto. Qed.
Global Hint Resolve same_stbl_fbody : same.
Lemma same_stbl_find : forall fuel m s, same (d_stbl_find fuel m s) (stbl_find fuel m s). Proof. intros. unfold d_stbl_find, stbl_find. same_auto. Qed.
Global Hint Resolve same_stbl_find : same.
Lemma same_minf_fbody : forall fuel m h r, same (d_minf_fbody fuel m h r) (minf_fbody fuel m h r). Proof. intros. unfold d_minf_fbody, minf_fbody. same_auto. Qed.
Global Hint Resolve same_minf_fbody : same.
Lemma same_minf_find : forall fuel m s, same (d_minf_find fuel m s) (minf_find fuel m s). Proof. intros. unfold d_minf_find, minf_find. same_auto. Qed.
Global Hint Resolve same_minf_find : same.
Lemma same_mdia_fbody : forall fuel m h r, same (d_mdia_fbody fuel m h r) (mdia_fbody fuel m h r). Proof. intros. unfold d_mdia_fbody, mdia_fbody. same_auto. Qed.
Global Hint Resolve same_mdia_fbody : same.
Lemma same_mdia_find : forall fuel m s, same (d_mdia_find fuel m s) (mdia_find fuel m s). Proof. intros. unfold d_mdia_find, mdia_find. same_auto. Qed.
Global Hint Resolve same_mdia_find : same.
Lemma same_trak_fbody : forall fuel m h r, same (d_trak_fbody fuel m h r) (trak_fbody fuel m h r). Proof. intros. unfold d_trak_fbody, trak_fbody. same_auto. Qed.
Global Hint Resolve same_trak_fbody : same.
Lemma same_trak_find : forall fuel m s, same (d_trak_find fuel m s) (trak_find fuel m s). Proof. intros. unfold d_trak_find, trak_find. same_auto. Qed.
Lemma same_meta_fbody : forall m h r, same (d_meta_fbody m h r) (meta_fbody m h r). Proof. intros. unfold d_meta_fbody, meta_fbody. same_auto. Qed.
Global Hint Resolve same_trak_find same_meta_fbody : same.
Lemma same_meta_find : forall fuel m s, same (d_meta_find fuel m s) (meta_find fuel m s). Proof. intros. unfold d_meta_find, meta_find. same_auto. Qed.
Global Hint Resolve same_meta_find : same.
Lemma same_udta_fbody : forall fuel m h r, same (d_udta_fbody fuel m h r) (udta_fbody fuel m h r). Proof. intros. unfold d_udta_fbody, udta_fbody. same_auto. Qed.
Global Hint Resolve same_udta_fbody : same.
Lemma same_udta_find : forall fuel m s, same (d_udta_find fuel m s) (udta_find fuel m s). Proof. intros. unfold d_udta_find, udta_find. same_auto. Qed.
Global Hint Resolve same_udta_find : same.
Lemma same_moov_fbody : forall fuel m h r, same (d_moov_fbody fuel m h r) (moov_fbody fuel m h r). Proof. intros. unfold d_moov_fbody, moov_fbody. same_auto. Qed.
Global Hint Resolve same_moov_fbody : same.
Lemma same_moov_find : forall fuel m s, same (d_moov_find fuel m s) (moov_find fuel m s). Proof. intros. unfold d_moov_find, moov_find. same_auto. Qed.
Global Hint Resolve same_moov_find : same.
Lemma same_top_fbody : forall fuel m h r, same (d_top_fbody fuel m h r) (top_fbody fuel m h r). Proof. intros. unfold d_top_fbody, top_fbody. same_auto. Qed.
Global Hint Resolve same_top_fbody : same.
Lemma same_scan : forall fuel m, same (d_scan fuel m) (scan fuel m). Proof. intros. unfold d_scan, scan. same_auto. Qed.
Global Hint Resolve same_scan : same.
Lemma same_prepare : forall fuel m atoms, same (d_prepare fuel m atoms) (prepare fuel m atoms).
Proof. intros. rewrite WriteTerm.prepare_eq. unfold d_prepare. same_auto. Qed.
Lemma same_table : forall w rd a b m s, same (d_table w rd a b m s) (table_parse w rd m s). Proof. intros. unfold d_table, table_parse. same_auto. Qed.
Global Hint Resolve same_table : same.

(** The same result and the same state. *)
Definition wsame {A} (x : DW A) (y : W A) : Prop := forall s, let (r, s') := x s in (undress r, s') = y s.
Lemma undress_dress : forall {A} (r : res A), undress (dress r) = r. Proof. intros A [a|e|q|]; reflexivity. Qed.
Lemma ws_bind : forall {A B} (x : DW A) y (k : A -> DW B) k', wsame x y -> (forall a, wsame (k a) (k' a)) -> wsame (dwbind A B x k) (wbind y k').
Proof.
  intros A B x y k k' H K s. specialize (H s). unfold dwbind, wbind. destruct (x s) as [r s']. rewrite <- H. destruct r as [a|e t|q|]; cbn [undress]; try reflexivity. apply K.
Qed.
Lemma ws_ret : forall {A} (a : A), wsame (dwret A a) (wret a). Proof. intros A a s. reflexivity. Qed.
Lemma ws_lift : forall {A} (r : res A), wsame (dwlift A r) (wlift r). Proof. intros A r s. unfold dwlift, wlift. cbn. now rewrite undress_dress. Qed.
Lemma ws_dw : forall {A} (x : W A), wsame (dw x) x. Proof. intros A x s. unfold dw. destruct (x s) as [r s']. now rewrite undress_dress. Qed.
Lemma ws_table : forall m wide s q, wsame (dw_table m wide s q) (Fault.w_table m wide s q).
Proof.
  intros m wide s q st. unfold dw_table, Fault.w_table, w_read. destruct (q <? two63); [|reflexivity]. destruct wide.
  - pose proof (same_parsing SAMPLE_TABLE_CHUNK_OFFSET_64 _ _ (same_table 8 read_u64 "Sample table chunk offset 64 (co64) offset table size doesn't match atom length" "Unknown 64bit sample table chunk offset (co64) version" m s) (w_file st) q) as H.
    unfold co64_parse. rewrite <- H. fold d_co64. destruct (parsing _ (d_co64 m s) (w_file st) q) as [[a p]|e t|x|]; reflexivity.
  - pose proof (same_parsing SAMPLE_TABLE_CHUNK_OFFSET _ _ (same_table 4 read_u32 "Sample table chunk offset (stco) offset table size doesn't match atom length" "Unknown sample table chunk offset (stco) version" m s) (w_file st) q) as H.
    unfold stco_parse. rewrite <- H. fold d_stco. destruct (parsing _ (d_stco m s) (w_file st) q) as [[a p]|e t|x|]; reflexivity.
Qed.
Lemma ws_execute : forall cap m p, wsame (d_execute cap m p) (Fault.w_execute cap m p).
Proof.
  intros cap m p. unfold d_execute, Fault.w_execute, Fault.g_execute.
  apply ws_bind; [|intros _].
  { destruct (_ <? _); [|apply ws_ret]. induction (vb_trak (pl_moov p)) as [|t l IH]; cbn [Fault.g_traks]; [apply ws_ret|]. apply ws_bind; [|intros _; exact IH].
    destruct (trak_stbl t) as [sb|]; [|apply ws_ret]. unfold Fault.g_stbl.
    assert (T : forall wide b, wsame (Fault.g_table DW dwret dwbind dwlift (fun d => dw (bw_write cap d)) (fun q => dw (bw_seek_start q)) (dw bw_flush) dw_table m wide (pl_diff p) b)
                                 (Fault.g_table W (@wret) (@wbind) (@wlift) (bw_write cap) bw_seek_start bw_flush Fault.w_table m wide (pl_diff p) b)).
    { intros wide b. unfold Fault.g_table. apply ws_bind; [apply ws_lift|intros cp]. apply ws_bind; [apply ws_table|intros tb]. apply ws_bind; [apply ws_dw|intros _].
      apply ws_bind; [|intros _; apply ws_dw]. induction (snd tb) as [|co r IHr]; cbn [Fault.g_offsets]; [apply ws_ret|].
      apply ws_bind; [apply ws_lift|intros v]. apply ws_bind; [apply ws_dw|intros _; exact IHr]. }
    apply ws_bind; [destruct (sb_stco sb); [apply T|apply ws_ret]|intros _]. destruct (sb_co64 sb); [apply T|apply ws_ret]. }
  apply ws_bind; [|intros _].
  { induction (pl_update p) as [|b l IH]; cbn [Fault.g_update_all]; [apply ws_ret|]. apply ws_bind; [|intros _; exact IH]. unfold Fault.g_update.
    apply ws_bind; [apply ws_lift|intros n]. apply ws_bind; [apply ws_dw|intros _]. destruct (sz_ext _); [|apply ws_dw].
    apply ws_bind; [apply ws_dw|intros _]. apply ws_bind; [apply ws_dw|intros _]. apply ws_dw. }
  apply ws_bind; [apply ws_bind; [apply ws_lift|intros n; apply ws_dw]|intros _].
  apply ws_bind; [apply ws_dw|intros _].
  apply ws_bind; [|intros _].
  { unfold Fault.g_out. apply ws_bind; [|intros _; apply ws_lift]. induction (fst (new_atoms_write m (pl_new p))) as [|d l IH]; cbn [Fault.g_chunks]; [apply ws_ret|].
    apply ws_bind; [apply ws_dw|intros _; exact IH]. }
  apply ws_bind; [apply ws_bind; [apply ws_lift|intros n; apply ws_dw]|intros _].
  apply ws_bind; [apply ws_dw|intros _]. apply ws_dw.
Qed.

Theorem described_is_write : forall cap fuel m atoms f, undress (d_write cap fuel m atoms f) = wr_res (write_tag cap fuel m atoms f).
Proof.
  intros cap fuel m atoms f. pose proof (same_prepare fuel m atoms f 0) as H. unfold d_write, write_tag, write_tag_to. rewrite <- H.
  destruct (d_prepare fuel m atoms f 0) as [[p q]|e t|q|]; cbn [undress]; try reflexivity.
  pose proof (ws_execute cap m p (Wst f 0 [] [])) as X. rewrite Fault.program_is_execute in X. destruct (d_execute cap m p (Wst f 0 [] [])) as [r s]. rewrite <- X.
  destruct (bw_flush s). reflexivity.
Qed.
