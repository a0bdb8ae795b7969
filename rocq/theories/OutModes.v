(** What overflow checks change about the outcome of reading: without them nothing overflows, and whatever is not stopped by
    one has the same outcome. *)

From Coq Require Import List NArith ZArith Bool Lia String.
From Verif Require Import Base BaseLemmas Types Utf TagSpec FileSpec FailSpec PanicSpec Display ErrSpec FirstSpec OutSpec.
Import ListNotations.
Local Open Scope list_scope.

Lemma less_wraps : forall a b c, less Checked a b c -> less Wrapping a b c.
Proof. intros a b c [[A B]|(M & _)]; [now left|discriminate M]. Qed.
Lemma kept_wraps : forall a c, kept Checked a c -> kept Wrapping a c.
Proof. intros a c [[A B]|(M & _)]; [now left|discriminate M]. Qed.
Lemma lacks_none : forall a b, ~ lacking Wrapping a b.
Proof. intros a b [M _]. discriminate M. Qed.
Lemma none_beyond : forall a, ~ beyond Wrapping a.
Proof. intros a [M _]. discriminate M. Qed.

Section Same.
  Context (f : bytes).
  Definition over : out := Stops (Breaks POverflow).
  Ltac moves := first [eassumption|eapply less_wraps; eassumption|eapply kept_wraps; eassumption|apply lacks_none|apply none_beyond].
  Ltac contra := match goal with H : ?x <> over |- _ => contradiction (H eq_refl) end.

  Lemma skipped_same : forall q hd sz o, skipped Checked q hd sz o -> o <> over -> skipped Wrapping q hd sz o.
  Proof. intros q hd sz o A N. destruct A; try contra; [discriminate|now apply Skip_on|now apply Skip_far|now apply Skip_back|now apply Skip_before]. Qed.
  Lemma ended_same : forall q sz c o, ended Checked q sz c o -> o <> over -> ended Wrapping q sz c o.
  Proof. intros q sz c o A N. destruct A; try contra; [eapply End_far|eapply End_on]; moves. Qed.
  Lemma type_same : forall o, type_out Checked f o -> o <> over -> type_out Wrapping f o.
  Proof. intros o A N. destruct A; try contra; [now apply Type_no_head|eapply Type_other; eassumption|eapply Type_taken; moves]. Qed.
  Lemma value_same : forall q hd sz o, value_out Checked f q hd sz o -> o <> over -> value_out Wrapping f q hd sz o.
  Proof. intros q hd sz o A N. destruct A; try contra; [now apply Value_stops|apply Value_other; moves|eapply Value_bytes; moves|eapply Value_utf8; moves|eapply Value_utf16; moves]. Qed.
  Lemma name_same : forall q hd sz o, name_out Checked f q hd sz o -> o <> over -> name_out Wrapping f q hd sz o.
  Proof. intros q hd sz o A N. destruct A; try contra; [now apply Name_stops|eapply Name_utf8; moves]. Qed.
  Lemma header_same : forall q hd sz o, header_out Checked f q hd sz o -> o <> over -> header_out Wrapping f q hd sz o.
  Proof. intros q hd sz o A N. destruct A; try contra; [now apply Header_stops|eapply Header_zero; moves|eapply Header_ends; [eassumption|moves|assumption|now apply ended_same]]. Qed.
  Lemma desc_same : forall n p w q, desc_at Checked f n p w q -> desc_at Wrapping f n p w q.
  Proof.
    intros n p w q A. induction A as [|k w q tag h len H IH K D T C|k q h len H IH K D L|k w q H IH]; [constructor| |now eapply Descs_into|now apply Descs_out].
    eapply Descs_past; [exact IH|exact K|exact D|exact T|]. intros E Nw. split; [exact (proj1 (C E Nw))|apply lacks_none].
  Qed.
  Lemma descs_same : forall n p o, descs_out Checked f n p o -> o <> over -> descs_out Wrapping f n p o.
  Proof.
    intros n p o A N. destruct A; try contra; match goal with H : desc_at _ _ _ _ _ _ |- _ => apply desc_same in H end;
      [eapply Desc_none|eapply Desc_config|eapply Desc_specific|eapply Desc_end]; eassumption.
  Qed.
  Lemma entry_same : forall q sz a o, entry_out Checked f q sz a o -> o <> over -> entry_out Wrapping f q sz a o.
  Proof.
    intros q sz a o A N. destruct A; try contra;
      [now apply Entry_stops|eapply Entry_no_esds; eassumption|eapply Entry_versions; eassumption|eapply Entry_none; eassumption|eapply Entry_tag; eassumption| |].
    - eapply Entry_descs; [eassumption|eassumption|eassumption|moves|now apply descs_same].
    - eapply Entry_ends; [eassumption|eassumption|eassumption|moves|apply descs_same; [eassumption|discriminate]|now apply ended_same].
  Qed.
  Lemma part_same : forall q id hd sz o, part_out Checked f q id hd sz o -> o <> over -> part_out Wrapping f q id hd sz o.
  Proof. intros q id hd sz o A N. destruct A; [apply Part_value|apply Part_name|apply Part_other]; try assumption; [now apply value_same|now apply name_same|now apply skipped_same]. Qed.
  Lemma in_item_same : forall n q0 k v d q, in_item_at Checked f n q0 k v d q -> in_item_at Wrapping f n q0 k v d q.
  Proof.
    intros n q0 k v d q A. induction A as [|k v d q id hd sz p d' H IH L B W S]; [constructor|]. eapply Parts_next; [exact IH|exact L|exact B|apply part_same; [exact W|discriminate]|now apply kept_wraps].
  Qed.
  Lemma item_same : forall id n q0 o, item_out Checked f id n q0 o -> o <> over -> item_out Wrapping f id n q0 o.
  Proof.
    intros id n q0 o A N. destruct A; try contra; match goal with H : in_item_at _ _ _ _ _ _ _ _ |- _ => apply in_item_same in H end;
      [eapply Item_no_head; eassumption|eapply Item_part; [eassumption|assumption|eassumption|now apply part_same]|eapply Item_no_value; eassumption|eapply Item_full; eassumption].
  Qed.
  Lemma leaf_same : forall l q id hd sz ns o, leaf_out Checked f l q id hd sz ns o -> o <> over -> leaf_out Wrapping f l q id hd sz ns o.
  Proof.
    intros l q id hd sz ns o A N. destruct A; try contra;
      [apply Leaf_header; try assumption; now apply header_same|apply Leaf_entry; try assumption; now apply entry_same|eapply Leaf_item; [assumption|assumption|moves|now apply item_same]|
       apply Leaf_other; try assumption; now apply skipped_same].
  Qed.
  Lemma enter_same : forall l s q hd sz o, enter_out Checked f l s q hd sz o -> o <> over -> enter_out Wrapping f l s q hd sz o.
  Proof. intros l s q hd sz o A N. destruct A; try contra; [eapply Enter_version; eassumption|apply Enter_fine; moves]. Qed.
  Lemma arrives_same : forall k w q, arrives Checked f k w q -> arrives Wrapping f k w q.
  Proof.
    intros k w q A. induction A as [p T|k l n d w q id hd sz ns p d' H IH L B W S|k l n d w q id hd sz l' s p n' H IH L B O NI W S|k l' n' d' l n d w q d'' H IH L N1 N2 S].
    - apply Arrive_first, type_same; [exact T|discriminate].
    - eapply Arrive_past; [exact IH|exact L|exact B|apply leaf_same; [exact W|discriminate]|now apply kept_wraps].
    - eapply Arrive_into; [exact IH|exact L|exact B|exact O|exact NI|apply enter_same; [exact W|discriminate]|now apply less_wraps].
    - eapply Arrive_out; [exact IH|exact L|exact N1|exact N2|now apply kept_wraps].
  Qed.
  Lemma end_same : arrives_at_end Checked f -> arrives_at_end Wrapping f.
  Proof. intros (k & n & d & w & q & A & L). exists k, n, d, w, q. split; [now apply arrives_same|exact L]. Qed.
  Lemma stops_same : forall ns x, stops_with Checked f ns x -> x <> Breaks POverflow -> stops_with Wrapping f ns x.
  Proof.
    intros ns x A N. assert (N' : Stops x <> over) by (intros E; injection E as ->; now apply N).
    destruct A; try (contradiction (N eq_refl)); try match goal with H : arrives _ _ _ _ _ |- _ => apply arrives_same in H end.
    - apply Stop_type. now apply type_same.
    - eapply Stop_end; eassumption.
    - eapply Stop_head; eassumption.
    - eapply Stop_leaf; [eassumption|assumption|eassumption|now apply leaf_same].
    - eapply Stop_enter; [eassumption|assumption|eassumption|eassumption|assumption|now apply enter_same].
  Qed.

  (** Nothing overflows without checks. *)
  Ltac none := try discriminate; try (exfalso; first [eapply lacks_none; eassumption|eapply none_beyond; eassumption]).
  Lemma skipped_safe : forall q hd sz o, skipped Wrapping q hd sz o -> o <> over.
  Proof. intros q hd sz o A. destruct A; none. Qed.
  Lemma ended_safe : forall q sz c o, ended Wrapping q sz c o -> o <> over.
  Proof. intros q sz c o A. destruct A; none. Qed.
  Lemma taken_safe : forall p n good bad o, taken f p n good bad o -> bad <> Breaks POverflow -> o <> over.
  Proof. intros p n good bad o A B. destruct A; try discriminate. intros E. injection E as ->. now apply B. Qed.
  Lemma type_safe : forall o, type_out Wrapping f o -> o <> over.
  Proof. intros o A. destruct A; none. eapply taken_safe; [eassumption|discriminate]. Qed.
  Lemma value_safe : forall q hd sz o, value_out Wrapping f q hd sz o -> o <> over.
  Proof. intros q hd sz o A. destruct A; none; eapply taken_safe; try eassumption; discriminate. Qed.
  Lemma name_safe : forall q hd sz o, name_out Wrapping f q hd sz o -> o <> over.
  Proof. intros q hd sz o A. destruct A; none; eapply taken_safe; try eassumption; discriminate. Qed.
  Lemma header_safe : forall q hd sz o, header_out Wrapping f q hd sz o -> o <> over.
  Proof. intros q hd sz o A. destruct A; none; eapply ended_safe; eassumption. Qed.
  Lemma descs_safe : forall n p o, descs_out Wrapping f n p o -> o <> over.
  Proof. intros n p o A. destruct A; none. Qed.
  Lemma entry_safe : forall q sz a o, entry_out Wrapping f q sz a o -> o <> over.
  Proof. intros q sz a o A. destruct A; none; [eapply descs_safe; eassumption|eapply ended_safe; eassumption]. Qed.
  Lemma part_safe : forall q id hd sz o, part_out Wrapping f q id hd sz o -> o <> over.
  Proof. intros q id hd sz o A. destruct A; [eapply value_safe|eapply name_safe|eapply skipped_safe]; eassumption. Qed.
  Lemma item_safe : forall id n q0 o, item_out Wrapping f id n q0 o -> o <> over.
  Proof. intros id n q0 o A. destruct A; none. eapply part_safe; eassumption. Qed.
  Lemma leaf_safe : forall l q id hd sz ns o, leaf_out Wrapping f l q id hd sz ns o -> o <> over.
  Proof. intros l q id hd sz ns o A. destruct A; none; [eapply header_safe|eapply entry_safe|eapply item_safe|eapply skipped_safe]; eassumption. Qed.
  Lemma enter_safe : forall l s q hd sz o, enter_out Wrapping f l s q hd sz o -> o <> over.
  Proof. intros l s q hd sz o A. destruct A; none. Qed.
  Lemma stops_safe : forall ns x, stops_with Wrapping f ns x -> x <> Breaks POverflow.
  Proof.
    intros ns x A. destruct A; none; intros E; subst; [eapply type_safe|eapply leaf_safe|eapply enter_safe]; try eassumption; reflexivity.
  Qed.
End Same.
