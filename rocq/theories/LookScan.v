(** Which bytes of a file the scan of the write path looks at: proofs for C84. *)

From Coq Require Import List NArith ZArith Bool Lia Arith String.
From Coq Require Import ZifyBool ZifyNat ZifyN.
From Verif Require Import Base BaseLemmas Utf Types Stream Parse Find Write Fault ReadIO IoProofs IoCost Reader ReaderProofs LookSpec LookProofs.
Import ListNotations.
Local Open Scope list_scope.
Local Open Scope io_scope.

Ltac stay2 := repeat match goal with
  | |- stays (io_bind _ _) => apply stays_bind; [|intro]
  | |- stays (io_atom_loop _ _ _ _ _ _) => apply stays_loop; intros
  | |- stays (if ?b then _ else _) => destruct b
  | |- stays (match ?x with _ => _ end) => destruct x
  | |- stays _ => solve [auto using stays_ret, stays_bounds, stays_to_end, stays_skip, stays_full, stays_ftyp] || (cbn; solve [auto]) || (cbn; split; [exact I|intro; exact I])
  end.
Lemma stays_leaf : forall m s, stays (io_leaf_find m s). Proof. intros. unfold io_leaf_find. stay2. Qed.
Lemma stays_stblf : forall fuel m s, stays (io_stbl_find fuel m s).
Proof. intros. unfold io_stbl_find. stay2. unfold io_stbl_fbody. cbv zeta. stay2; apply stays_leaf. Qed.
Lemma stays_minff : forall fuel m s, stays (io_minf_find fuel m s).
Proof. intros. unfold io_minf_find. stay2. unfold io_minf_fbody. stay2; apply stays_stblf. Qed.
Lemma stays_mdiaf : forall fuel m s, stays (io_mdia_find fuel m s).
Proof. intros. unfold io_mdia_find. stay2. unfold io_mdia_fbody. stay2; apply stays_minff. Qed.
Lemma stays_trakf : forall fuel m s, stays (io_trak_find fuel m s).
Proof. intros. unfold io_trak_find. stay2. unfold io_trak_fbody. stay2; apply stays_mdiaf. Qed.
Lemma stays_metaf : forall fuel m s, stays (io_meta_find fuel m s).
Proof. intros. unfold io_meta_find. stay2. unfold io_meta_fbody. cbv zeta. stay2; apply stays_leaf. Qed.
Lemma stays_udtaf : forall fuel m s, stays (io_udta_find fuel m s).
Proof. intros. unfold io_udta_find. stay2. unfold io_udta_fbody. stay2; apply stays_metaf. Qed.
Lemma stays_moovf : forall fuel m s, stays (io_moov_find fuel m s).
Proof. intros. unfold io_moov_find. stay2. unfold io_moov_fbody. cbv zeta. stay2; [apply stays_trakf|apply stays_udtaf]. Qed.
Lemma stays_top : forall fuel m h r, stays (io_top_fbody fuel m h r).
Proof. intros. unfold io_top_fbody. cbv zeta. stay2; [apply stays_moovf|apply stays_leaf]. Qed.

Theorem scan_pass : forall fuel m f p, forallb ahead (asked (io_scan fuel m) f p) = true -> pass (io_scan fuel m) f p.
Proof.
  intros fuel m f p H. unfold io_scan in *. rewrite asked_bind, forallb_app in H. apply andb_prop in H. destruct H as [H1 H2].
  apply pass_bind; [apply pass_stays; [apply stays_ftyp|exact H1]|]. intros ft q Eq. rewrite Eq in H2. rewrite asked_bind, forallb_app in H2. apply andb_prop in H2. destruct H2 as [_ H2].
  apply pass_bind; [apply pass_rest|]. intros len q' Eq'. rewrite Eq' in H2. rewrite asked_bind, forallb_app in H2. apply andb_prop in H2. destruct H2 as [H2 _].
  apply pass_bind; [apply pass_stays; [apply stays_loop; intros; apply stays_top|exact H2]|]. intros [[mb|] o] q'' _; (apply pass_stays; [exact I|reflexivity]).
Qed.
