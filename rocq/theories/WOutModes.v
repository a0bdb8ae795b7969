(** What writing does with overflow checks and without them, in the words of WOutSpec.v. *)

From Coq Require Import List NArith ZArith Bool Lia String.
From Coq Require Import ZifyBool ZifyNat ZifyN.
From Verif Require Import Base Types Utf TagSpec FileSpec FailSpec PanicSpec Display ErrSpec FirstSpec OutSpec LayoutSpec WOutSpec OutModes.
Import ListNotations.
Local Open Scope list_scope.

Lemma turned_wraps : forall a c, turned Checked a c -> turned Wrapping a c.
Proof. intros a c [H|(M & _)]; [now left|discriminate M]. Qed.
Lemma none_big : forall a, ~ too_big Wrapping a. Proof. intros a [M _]. discriminate M. Qed.
Lemma none_far : forall d o, ~ too_far Wrapping d o. Proof. intros d o. apply none_big. Qed.
Lemma all_near : forall d l, Forall (fun x => ~ too_far Wrapping d x) l. Proof. intros d l. apply Forall_forall. intros x _. apply none_far. Qed.
Lemma all_near_at : forall d l, Forall (fun b => ~ too_far Wrapping d (n_size b)) l. Proof. intros d l. apply Forall_forall. intros x _. apply none_far. Qed.
Lemma none_long : forall p, too_long Wrapping p = false. Proof. reflexivity. Qed.
Lemma all_wraps : forall l, all_poured Wrapping l = true. Proof. intros l. apply forallb_forall. reflexivity. Qed.
Lemma poured_wraps : forall l, all_poured Checked l = true -> poured Wrapping l = poured Checked l.
Proof.
  induction l as [|p l IH]; [reflexivity|]. intros A. cbn [all_poured forallb] in A. apply andb_prop in A. destruct A as [A1 A2]. cbn [poured]. rewrite none_long.
  destruct (too_long Checked p); [discriminate A1|]. f_equal. apply IH, A2.
Qed.

Section Same.
  Context (f : bytes) (items : list atom_data).
  Local Notation over := OutModes.over.

  Lemma pass_same : forall l q id head size nm o, pass_out Checked l q id head size nm o -> o <> over -> pass_out Wrapping l q id head size nm o.
  Proof. intros l q id head size nm o A N. destruct A; [apply Pass_noted|apply Pass_other]; try assumption; [now apply ended_same|now apply skipped_same]. Qed.
  Lemma comes_same : forall k w q, comes Checked f k w q -> comes Wrapping f k w q.
  Proof.
    intros k w q H. induction H as [p T|k l n d ns w q id head size nm p d' H IH Ld B O P K|k l n d ns w q id head size l' s p n' H IH Ld B O E L|k l' n' d' inside l n d ns w q head size id p d'' H IH L K].
    - apply Come_first, type_same; [exact T|discriminate].
    - eapply Come_past; [exact IH|exact Ld|exact B|exact O|apply pass_same; [exact P|discriminate]|now apply kept_wraps].
    - eapply Come_into; [exact IH|exact Ld|exact B|exact O|apply enter_same; [exact E|discriminate]|now apply less_wraps].
    - eapply Come_out; [exact IH|exact L|now apply kept_wraps].
  Qed.
  Lemma finds_same : forall ns, finds Checked f ns -> finds Wrapping f ns.
  Proof. intros ns (k & n & d & q & A & L). exists k, n, d, q. split; [now apply comes_same|exact L]. Qed.
  Lemma scan_same : forall nm x, scan_stops Checked f nm x -> x <> Breaks POverflow -> scan_stops Wrapping f nm x.
  Proof.
    intros nm x A N. assert (NO : Stops x <> over) by (intros E; injection E as ->; now apply N). destruct A; try (contradiction (N eq_refl)).
    - now apply Scan_type, type_same.
    - eapply Scan_head; [apply comes_same; eassumption|assumption|assumption].
    - eapply Scan_pass; [apply comes_same; eassumption|eassumption|eassumption|eassumption|now apply pass_same].
    - eapply Scan_enter; [apply comes_same; eassumption|eassumption|eassumption|eassumption|now apply enter_same].
    - eapply Scan_none; [apply finds_same; eassumption|assumption].
  Qed.
  Lemma planned_same : forall mo s e d, planned Checked items mo s e d -> planned Wrapping items mo s e d.
  Proof. intros mo s e d (K & E & d0 & T1 & T2). split; [now apply kept_wraps|]. split; [exact E|]. exists d0. split; now apply turned_wraps. Qed.
  Lemma plan_same : forall mo x, plan_stops Checked f items mo x -> x <> Breaks POverflow -> plan_stops Wrapping f items mo x.
  Proof.
    intros mo x A N. destruct A; try (contradiction (N eq_refl)).
    - eapply Plan_much; [apply planned_same; eassumption|apply less_wraps; eassumption|assumption].
    - eapply Plan_far; [apply planned_same; eassumption|apply less_wraps; eassumption|assumption|assumption].
  Qed.
  Lemma ready_same : forall mo s e d, ready Checked f items mo s e d -> ready Wrapping f items mo s e d.
  Proof. intros mo s e d [P L]. split; [now apply planned_same|exact L]. Qed.
  Lemma table_same : forall d wide n g g' o, table_out Checked d wide n g g' o -> (forall ns, o <> Some (ns, Breaks POverflow)) -> table_out Wrapping d wide n g g' o.
  Proof.
    intros d wide n g g' o A N. destruct A; try (exfalso; eapply N; reflexivity).
    - now apply Table_version.
    - now apply Table_cut.
    - eapply Table_count; [assumption|assumption|apply less_wraps; eassumption|assumption].
    - apply Table_offsets; try assumption. now apply less_wraps.
    - apply Table_fine; try assumption; [now apply less_wraps|apply all_near].
  Qed.
  Lemma tables_same : forall d l g g' o, tables_out Checked d l g g' o -> (forall ns, o <> Some (ns, Breaks POverflow)) -> tables_out Wrapping d l g g' o.
  Proof.
    intros d l g g' o A. induction A as [g|wide n l g g' g'' o T A IH|wide n l g g' x T]; intros N; [constructor| |].
    - eapply Tables_next; [apply table_same; [exact T|discriminate]|exact (IH N)].
    - apply Tables_stop, table_same; assumption.
  Qed.
  Lemma tables_done_same : forall d ns g o, tables_done Checked d ns f g o -> (forall nm, o <> Some (nm, Breaks POverflow)) -> tables_done Wrapping d ns f g o.
  Proof. intros d ns g o A N. unfold tables_done in *. destruct (adjusts ns); [now apply tables_same|exact A]. Qed.
  Lemma rest_same : forall mo s e d g o g', rest_out Checked f items mo s e d g o g' -> (forall nm, o <> Halts nm (Breaks POverflow)) -> rest_out Wrapping f items mo s e d g o g'.
  Proof.
    intros mo s e d g o g' A N. destruct A as [|A1 A2|A1 A2 A3|A1 A2 A3]; try (exfalso; eapply N; reflexivity); rewrite <- (poured_wraps _ A1); [apply Rest_far|apply Rest_done]; try assumption; try apply all_wraps; apply none_big.
  Qed.
  Lemma write_same : forall o g, write_out Checked f items o g -> (forall nm, o <> Halts nm (Breaks POverflow)) -> write_out Wrapping f items o g.
  Proof.
    intros o g A N. destruct A; try (exfalso; eapply N; reflexivity).
    - apply Write_scan, scan_same; [assumption|]. intros ->. eapply N. reflexivity.
    - eapply Write_plan; [apply finds_same; eassumption|eassumption|]. apply plan_same; [assumption|]. intros ->. eapply N. reflexivity.
    - eapply Write_tables; [apply finds_same; eassumption|eassumption|apply ready_same; eassumption|]. apply tables_done_same; [assumption|]. intros nm' E. injection E as -> ->. eapply N. reflexivity.
    - eapply Write_no_length; [apply finds_same; eassumption|eassumption|apply ready_same; eassumption|apply tables_done_same; [eassumption|discriminate]|apply all_near_at|apply none_big|assumption].
    - eapply Write_rest; [apply finds_same; eassumption|eassumption|apply ready_same; eassumption|apply tables_done_same; [eassumption|discriminate]|apply all_near_at|apply none_big|assumption|eassumption|apply rest_same; eassumption].
  Qed.

  (** Without overflow checks only memory that cannot be had breaks. *)
  Local Notation safe o := (forall k, o = Stops (Breaks k) -> k = PCapacity).
  Lemma skipped_cap : forall q hd sz o, skipped Wrapping q hd sz o -> safe o.
  Proof. intros q hd sz o A k E. destruct A as [L|M L|L1 L2 L3|L1 L2 L3|L1 L2 L3|L1 L2 L3]; try discriminate E. destruct (lacks_none _ _ L). Qed.
  Lemma ended_cap : forall q sz c o, ended Wrapping q sz c o -> safe o.
  Proof. intros q sz c o A k E. destruct A as [B|e K L|e K L1 L2|e K L1 L2]; try discriminate E; [destruct (none_beyond _ B)|destruct (lacks_none _ _ L)]. Qed.
  Lemma taken_cap : forall p n good e s o, taken f p n good (Fails e s) o -> safe o.
  Proof. intros p n good e s o A k E. destruct A; try discriminate E. now injection E as <-. Qed.
  Lemma type_cap : forall o, type_out Wrapping f o -> safe o.
  Proof. intros o A k E. destruct A as [e s H|id hd sz B NI|hd sz B L|hd sz n o B L T]; try discriminate E; [destruct (lacks_none _ _ L)|exact (taken_cap _ _ _ _ _ _ T k E)]. Qed.
  Lemma enter_cap : forall l s q hd sz o, enter_out Wrapping f l s q hd sz o -> safe o.
  Proof. intros l s q hd sz o A k E. destruct A; try discriminate E. exfalso. eapply lacks_none; eassumption. Qed.
  Lemma pass_cap : forall l q id head size nm o, pass_out Wrapping l q id head size nm o -> safe o.
  Proof. intros l q id head size nm o A k E. destruct A as [o Nn H|o Nn H]; [exact (ended_cap _ _ _ _ H k E)|exact (skipped_cap _ _ _ _ H k E)]. Qed.
  Lemma scan_cap : forall nm x k, scan_stops Wrapping f nm x -> x = Breaks k -> k = PCapacity.
  Proof.
    intros nm x k A E. destruct A; try discriminate E; subst;
      try (exfalso; eapply none_beyond; eassumption); [eapply type_cap|eapply pass_cap|eapply enter_cap]; try eassumption; reflexivity.
  Qed.
  Lemma table_cap : forall d wide n g g' nm k, ~ table_out Wrapping d wide n g g' (Some (nm, Breaks k)).
  Proof. intros d wide n g g' nm k A. inversion A; subst; [eapply lacks_none; eassumption|eapply none_far; eassumption]. Qed.
  Lemma tables_cap : forall d l g g' o nm k, tables_out Wrapping d l g g' o -> o <> Some (nm, Breaks k).
  Proof. intros d l g g' o nm k A E. induction A as [g|wide n l g g' g'' o T A IH|wide n l g g' x T]; [discriminate E|exact (IH E)|]. injection E as ->. exact (table_cap _ _ _ _ _ _ _ T). Qed.
  Lemma rest_cap : forall mo s e d g o g' nm k, rest_out Wrapping f items mo s e d g o g' -> o <> Halts nm (Breaks k).
  Proof. intros mo s e d g o g' nm k A E. destruct A as [A|A1 A2|A1 A2 A3|A1 A2 A3]; try discriminate E; [rewrite all_wraps in A; discriminate A|exact (none_big _ A2)]. Qed.
  Lemma write_cap : forall o nm k g, write_out Wrapping f items o g -> o = Halts nm (Breaks k) -> k = PCapacity.
  Proof.
    intros o nm k g A E. destruct A as [nm' x H|ns mo x H1 H2 H3|ns mo s e d g nm' x H1 H2 H3 H4|ns mo s e d g bs b bs' H1 H2 H3 H4 H5 H6 H7|ns mo s e d g H1 H2 H3 H4 H5 H6|ns mo s e d g H1 H2 H3 H4 H5 H6 H7|ns mo s e d g fs p v o g' H1 H2 H3 H4 H5 H6 H7 H8 H9]; try discriminate E.
    - injection E as -> ->. eapply scan_cap; [exact H|reflexivity].
    - injection E as <- ->. inversion H3; subst; try reflexivity; exfalso; try (eapply none_beyond; eassumption); try (eapply none_big; eassumption). eapply lacks_none; eassumption.
    - injection E as -> ->. exfalso. unfold tables_done in H4. destruct (adjusts ns); [exact (tables_cap _ _ _ _ _ _ _ H4 eq_refl)|destruct H4; discriminate].
    - destruct (none_far _ _ H7).
    - destruct (none_big _ H6).
    - destruct (rest_cap _ _ _ _ _ _ _ _ _ H9 E).
  Qed.
End Same.
