(** Decision procedures for the hypotheses of the theorems about writing, used for the examples. *)

From Coq Require Import List NArith ZArith Bool Lia Arith String.
From Coq Require Import ZifyBool ZifyNat ZifyN.
From Verif Require Import Base BaseLemmas Utf Types TagSpec FileSpec EditSpec ExampleFile.
Import ListNotations.
Local Open Scope list_scope.

Definition good_tableb (w : nat) (a : atom) : bool :=
  let offs := table_entries w (a_pre a) in
  match a_kids a with [] => true | _ => false end &&
  (if list_eq_dec byte_dec (a_pre a) ((n2b 0 :: firstn 3 (skipn 1 (a_pre a))) ++ be 4 (blen offs) ++ flat_map (be w) offs) then true else false) &&
  (4 <=? List.length (a_pre a))%nat && (blen offs <? 2 ^ 32) && forallb (fun o => (o <? 2 ^ (8 * N.of_nat w)) && (o <? 2 ^ 62)) offs.
Definition at_most_oneb (id : fourcc) (l : list atom) : bool := (List.length (named_kids id l) <=? 1)%nat.
Definition only_childb (id : fourcc) (p : atom -> bool) (a : atom) : bool :=
  at_most_oneb id (a_kids a) && forallb p (named_kids id (a_kids a)).
Definition good_stblb (a : atom) : bool :=
  at_most_oneb (id4 "stco") (a_kids a) && at_most_oneb (id4 "co64") (a_kids a) &&
  forallb (good_tableb 4) (named_kids (id4 "stco") (a_kids a)) && forallb (good_tableb 8) (named_kids (id4 "co64") (a_kids a)).
Definition good_trakb : atom -> bool := only_childb (id4 "mdia") (only_childb (id4 "minf") (only_childb (id4 "stbl") good_stblb)).
Definition good_udtab : atom -> bool := only_childb (id4 "meta") (fun a => at_most_oneb (id4 "ilst") (a_kids a)).
Definition good_moovb (a : atom) : bool :=
  forallb good_trakb (named_kids (id4 "trak") (a_kids a)) && only_childb (id4 "udta") good_udtab a.
Definition editableb (f : list atom) : bool := forallb good_moovb (named_kids (id4 "moov") f).

Lemma good_tableb_ok : forall w a, good_tableb w a = true -> good_table w a.
Proof.
  intros w a H. unfold good_tableb in H. repeat rewrite andb_true_iff in H. destruct H as ((((K & E) & L4) & L) & F).
  split; [destruct (a_kids a); [reflexivity|discriminate]|]. destruct (list_eq_dec byte_dec (a_pre a) _) as [E'|]; [|discriminate].
  exists (n2b 0 :: firstn 3 (skipn 1 (a_pre a))), (table_entries w (a_pre a)). split.
  - exists (firstn 3 (skipn 1 (a_pre a))). split; [|reflexivity]. rewrite firstn_length, skipn_length. lia.
  - split; [exact E'|]. split; [lia|]. apply Forall_forall. intros o I. rewrite forallb_forall in F. specialize (F o I). lia.
Qed.
Lemma at_most_oneb_ok : forall id l, at_most_oneb id l = true -> at_most_one id l.
Proof. intros id l H. unfold at_most_oneb in H. unfold at_most_one. lia. Qed.
Lemma forallb_ok : forall {A} (p : A -> bool) (P : A -> Prop) l, (forall x, p x = true -> P x) -> forallb p l = true -> Forall P l.
Proof. intros A p P l H F. apply Forall_forall. intros x I. rewrite forallb_forall in F. apply H, F, I. Qed.
Lemma only_childb_ok : forall id p (P : atom -> Prop) a, (forall x, p x = true -> P x) -> only_childb id p a = true -> only_child id P a.
Proof.
  intros id p P a H E. unfold only_childb in E. apply andb_true_iff in E. destruct E as [A B].
  split; [apply at_most_oneb_ok, A|eapply forallb_ok; eassumption].
Qed.
Lemma good_stblb_ok : forall a, good_stblb a = true -> good_stbl a.
Proof.
  intros a H. unfold good_stblb in H. repeat rewrite andb_true_iff in H. destruct H as (((A & B) & C) & D).
  repeat split; try (apply at_most_oneb_ok; assumption); (eapply forallb_ok; [|eassumption]); apply good_tableb_ok.
Qed.
Lemma editableb_ok : forall f, editableb f = true -> editable f.
Proof.
  intros f. apply forallb_ok. intros mv H. apply andb_true_iff in H. destruct H as [A B]. split.
  - eapply forallb_ok; [|exact A]. intro k. do 3 (apply only_childb_ok; intro). apply good_stblb_ok.
  - revert B. do 2 (apply only_childb_ok; intro). apply at_most_oneb_ok.
Qed.

(** Items: distinct identifiers are left to the caller. *)
Definition storableb (items : list atom_data) : bool :=
  (List.length (nodup ident_dec (idents items)) =? List.length items)%nat &&
  forallb (fun i =>
    match ad_ident i with
    | IFourcc f => if fourcc_dec f (id4 "free") then false else true
    | IFreeform m n => wf_ustr m && wf_ustr n
    end &&
    match ad_data i with [] => false | _ => true end &&
    forallb (fun d => match d with DUtf8 s => wf_ustr s | DUtf16 [] => true | DUtf16 _ => false | _ => true end) (ad_data i)) items.
Lemma nodup_length : forall {A} (dec : forall a b : A, {a = b} + {a <> b}) l, (List.length (nodup dec l) <= List.length l)%nat.
Proof. intros A dec l. induction l as [|x l IH]; [auto|]. cbn [nodup]. destruct (in_dec dec x l); cbn [List.length]; lia. Qed.
Lemma nodup_same : forall {A} (dec : forall a b : A, {a = b} + {a <> b}) l, List.length (nodup dec l) = List.length l -> NoDup l.
Proof.
  intros A dec l. induction l as [|x l IH]; intro H; [constructor|]. cbn [nodup] in H. pose proof (nodup_length dec l). destruct (in_dec dec x l).
  - cbn [List.length] in H. lia.
  - constructor; [assumption|]. apply IH. cbn [List.length] in H. lia.
Qed.
Lemma storableb_ok : forall items, storableb items = true -> storable items.
Proof.
  intros items H. unfold storableb in H. apply andb_true_iff in H. destruct H as [N F]. apply Nat.eqb_eq in N. split.
  - apply (nodup_same ident_dec). rewrite N. unfold idents. rewrite map_length. reflexivity.
  - eapply forallb_ok; [|exact F]. cbv beta. intros i H. repeat rewrite andb_true_iff in H. destruct H as ((A & B) & C). split; [|split].
    + destruct (ad_ident i); cbn [storable_ident]; [destruct (fourcc_dec f (id4 "free")); [discriminate|assumption]|apply andb_true_iff, A].
    + destruct (ad_data i); discriminate.
    + eapply forallb_ok; [|exact C]. intros d Hd. destruct d; try (split; [exact I|exact I]).
      * split; [exact Hd|exact I].
      * destruct s; [split; reflexivity|discriminate].
Qed.

Definition in_rangeb (d : Z) (t : nat * atom) : bool :=
  forallb (fun o => ((0 <=? Z.of_N o + d) && (Z.of_N o + d <? 2 ^ (8 * Z.of_nat (fst t))) && (Z.of_N o + d <? 2 ^ 62))%Z) (offsets t).
Lemma in_reachb_ok : forall items f, forallb (in_rangeb (displacement items f)) (file_tables f) = true -> in_reach items f.
Proof.
  intros items f H _. eapply forallb_ok; [|exact H]. intros t F. eapply forallb_ok; [|exact F]. cbv beta. intros o E. lia.
Qed.

Lemma ex_editable : editable ex_file.
Proof. apply editableb_ok. vm_compute. reflexivity. Qed.
