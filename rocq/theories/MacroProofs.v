(** Proofs about the accessor macros. *)

From Coq Require Import List Arith NArith Bool String Lia ZifyBool ZifyNat ZifyN.
From Verif Require Import Base Utf Types TagApi Display Macro MacroSpec.
Import ListNotations.
Local Open Scope list_scope.

(** * Taking the arguments apart *)

Lemma split_pieces s : pieces s (split_on 44 s).
Proof.
  induction s as [|x r IH].
  - now apply Pieces_last.
  - cbn [split_on]. destruct (N.eqb_spec x 44) as [-> | D].
    + now apply (Pieces_more []).
    + remember (split_on 44 r) as q. destruct IH as [p H | p s ps H IH].
      * apply Pieces_last. intros [E | E]; [now apply D | contradiction].
      * apply (Pieces_more (x :: p)); [|exact IH].
        intros [E | E]; [now apply D | contradiction].
Qed.

Lemma split_bare p : ~ In 44 p -> split_on 44 p = [p].
Proof.
  induction p as [|x p IH]; [reflexivity|]. intros H. cbn [split_on].
  destruct (N.eqb_spec x 44) as [-> | D]; [exfalso; apply H; now left|].
  rewrite IH; [reflexivity|]. intros I. apply H. now right.
Qed.
Lemma split_app p s : ~ In 44 p -> split_on 44 (p ++ 44 :: s) = p :: split_on 44 s.
Proof.
  induction p as [|x p IH]; intros H.
  - reflexivity.
  - cbn [app split_on]. destruct (N.eqb_spec x 44) as [-> | D]; [exfalso; apply H; now left|].
    rewrite IH; [reflexivity|]. intros I. apply H. now right.
Qed.
Lemma pieces_split s ps : pieces s ps -> split_on 44 s = ps.
Proof.
  induction 1 as [p H | p s ps H _ IH]; [now apply split_bare|].
  rewrite split_app, IH by assumption. reflexivity.
Qed.

Lemma white_blank c : white c = true <-> blank c.
Proof.
  unfold white, blank, In. split.
  - intros H.
    assert (D : 9 <= c <= 13 \/ c = 32 \/ c = 133 \/ c = 160 \/ c = 5760 \/ 8192 <= c <= 8202 \/ c = 8232 \/
                c = 8233 \/ c = 8239 \/ c = 8287 \/ c = 12288) by lia.
    lia.
  - intros H. repeat (destruct H as [<- | H]; [reflexivity|]). destruct H.
Qed.

Lemma trim_start_splits s : exists before, s = before ++ trim_start s /\ Forall blank before /\
  forall c r, trim_start s = c :: r -> ~ blank c.
Proof.
  induction s as [|x s (b & E & F & T)].
  - exists []. split; [reflexivity|]. split; [constructor|]. intros c r H. discriminate H.
  - cbn [trim_start]. destruct (white x) eqn:W.
    + exists (x :: b). split; [cbn [app]; now rewrite <- E|]. split; [|exact T].
      constructor; [now apply white_blank | exact F].
    + exists []. split; [reflexivity|]. split; [constructor|].
      intros c r H. injection H as -> ->. intros B. apply white_blank in B. congruence.
Qed.
Lemma trim_start_skip b s : Forall blank b -> trim_start (b ++ s) = trim_start s.
Proof.
  induction 1 as [|c b H _ IH]; [reflexivity|]. cbn [app trim_start].
  apply white_blank in H. rewrite H. exact IH.
Qed.
Lemma trim_start_stop s : (forall c r, s = c :: r -> ~ blank c) -> trim_start s = s.
Proof.
  destruct s as [|c r]; [reflexivity|]. intros H. cbn [trim_start].
  destruct (white c) eqn:W; [|reflexivity].
  exfalso. apply (H c r eq_refl). now apply white_blank.
Qed.

Lemma trim_trimmed s : trimmed s (trim s).
Proof.
  unfold trim.
  destruct (trim_start_splits s) as (b & E & F & T).
  destruct (trim_start_splits (rev (trim_start s))) as (a & E' & F' & T').
  remember (trim_start (rev (trim_start s))) as m.
  assert (R : trim_start s = rev m ++ rev a).
  { rewrite <- rev_app_distr, <- E', rev_involutive. reflexivity. }
  exists b, (rev a). rewrite <- R. split; [exact E|]. split; [exact F|].
  split; [now apply Forall_rev|]. split.
  - intros c r H. apply (T c (r ++ rev a)). rewrite R, H. reflexivity.
  - intros c r H. apply (T' c (rev r)). rewrite <- (rev_involutive m), H, rev_app_distr. reflexivity.
Qed.
Lemma trimmed_trim s m : trimmed s m -> trim s = m.
Proof.
  intros (b & a & -> & B & A & F & L). unfold trim. rewrite trim_start_skip by exact B.
  assert (K : trim_start (rev m) = rev m).
  { apply trim_start_stop. intros c r H. apply (L c (rev r)).
    rewrite <- (rev_involutive m), H. reflexivity. }
  destruct m as [|c m].
  - cbn [app]. rewrite <- (app_nil_r a), trim_start_skip by exact A. reflexivity.
  - rewrite (trim_start_stop ((c :: m) ++ a)).
    + rewrite rev_app_distr, trim_start_skip by now apply Forall_rev.
      rewrite K. apply rev_involutive.
    + intros c' r H. injection H as <- _. now apply (F c m).
Qed.

Lemma unquote_unquoted m : unquoted m (unquote m).
Proof.
  induction m as [|c m IH]; [constructor|]. cbn [unquote filter].
  destruct (N.eqb_spec c 34) as [-> | D]; cbn [negb]; now constructor.
Qed.
Lemma unquoted_unquote m v : unquoted m v -> unquote m = v.
Proof.
  induction 1 as [|m v _ IH | c m v D _ IH]; [reflexivity | exact IH |].
  cbn [unquote filter]. destruct (N.eqb_spec c 34); [contradiction|]. cbn [negb]. now rewrite <- IH.
Qed.

Lemma argument_value p : argument p (unquote (trim p)).
Proof. exists (trim p). split; [apply trim_trimmed | apply unquote_unquoted]. Qed.
Lemma value_argument p v : argument p v -> unquote (trim p) = v.
Proof. intros (m & T & U). rewrite (trimmed_trim _ _ T). now apply unquoted_unquote. Qed.

Lemma all_blank p : trim p = [] <-> Forall blank p.
Proof.
  split.
  - intros E. destruct (trim_trimmed p) as (b & a & H & B & A & _). rewrite E in H. subst p.
    now apply Forall_app.
  - intros F. apply trimmed_trim. exists p, []. rewrite app_nil_r.
    split; [reflexivity|]. split; [exact F|]. split; [constructor|]. split.
    + intros c r H. discriminate H.
    + intros c [|? r] H; discriminate H.
Qed.

(** What is computed from the arguments. *)
Definition filled (up : N -> ustring) (vi code : ustring) : holes :=
  Holes vi (macro_name vi) (match macro_name vi with [] => [] | c :: r => up c ++ r end)
    (txt "ident::" ++ flat_map up vi) code.

Theorem base_values_accepts up input vi code :
  arguments input vi code -> base_values up input = Expanded (filled up vi code).
Proof.
  intros (p1 & p2 & rest & P & A & NA & B & NB & C).
  unfold base_values. rewrite (pieces_split _ _ P), (value_argument _ _ A).
  destruct vi as [|c vi]; [contradiction|]. rewrite (value_argument _ _ B).
  destruct code as [|d code]; [contradiction|].
  destruct rest as [|p3 more]; [reflexivity|].
  rewrite (proj2 (all_blank p3) (C p3 more eq_refl)). reflexivity.
Qed.
Theorem base_values_refuses up input e : refused input e -> base_values up input = Rejected e.
Proof.
  intros [p1 rest P A | p1 vi P A NA | p1 vi p2 rest P A NA B | p1 vi p2 code p3 rest arg P A NA B NB C NC];
    unfold base_values; rewrite (pieces_split _ _ P), (value_argument _ _ A); [reflexivity| | |];
    destruct vi as [|c vi]; try contradiction; [reflexivity| |]; rewrite (value_argument _ _ B);
    [reflexivity|]; destruct code as [|d code]; [contradiction|].
  rewrite (trimmed_trim _ _ C). destruct arg; [contradiction | reflexivity].
Qed.
Theorem base_values_decides input :
  (exists vi code, arguments input vi code) \/ exists e, refused input e.
Proof.
  pose proof (split_pieces input) as P. remember (split_on 44 input) as ps. clear Heqps.
  destruct ps as [|p1 rest]; [inversion P|].
  pose proof (argument_value p1) as A. destruct (unquote (trim p1)) as [|c vi] eqn:E1.
  { right. eexists. eapply Refused_first; eassumption. }
  assert (NA : c :: vi <> []) by discriminate.
  destruct rest as [|p2 rest].
  { right. eexists. eapply Refused_one; eassumption. }
  pose proof (argument_value p2) as B. destruct (unquote (trim p2)) as [|d code] eqn:E2.
  { right. eexists. eapply Refused_second; eassumption. }
  assert (NB : d :: code <> []) by discriminate.
  destruct rest as [|p3 rest].
  { left. exists (c :: vi), (d :: code), p1, p2, []. repeat (split; [assumption|]). intros ? ? H. discriminate H. }
  destruct (trim p3) as [|x arg] eqn:E3.
  - left. exists (c :: vi), (d :: code), p1, p2, (p3 :: rest). repeat (split; [assumption|]).
    intros p' more H. injection H as <- _. now apply all_blank.
  - right. eexists. apply (Refused_third input p1 (c :: vi) p2 (d :: code) p3 rest (x :: arg)); try assumption;
      [|discriminate].
    rewrite <- E3. apply trim_trimmed.
Qed.

(** * The words *)

Lemma macro_name_spaced s : spaced s (macro_name s).
Proof.
  induction s as [|c s IH]; [constructor|]. constructor; [|exact IH].
  destruct (N.eqb_spec c 95); [left | right]; now split.
Qed.
Lemma spaced_macro_name s t : spaced s t -> macro_name s = t.
Proof.
  induction 1 as [|c d s t H _ IH]; [reflexivity|]. cbn [macro_name map].
  fold (macro_name s). rewrite IH. f_equal.
  destruct H as [(-> & ->) | (D & ->)]; [reflexivity|].
  destruct (N.eqb_spec c 95); [contradiction | reflexivity].
Qed.

Lemma macro_plural_y stem : macro_plural (stem ++ txt "y") = stem ++ txt "ies".
Proof. unfold macro_plural. rewrite rev_app_distr. change (txt "y") with [121]. cbn [rev app]. now rewrite rev_involutive. Qed.
Lemma macro_plural_s s : (forall stem, s <> stem ++ txt "y") -> macro_plural s = s ++ txt "s".
Proof.
  intros H. unfold macro_plural. destruct (rev s) as [|x r] eqn:E; [reflexivity|].
  destruct (N.eq_dec x 121) as [-> | D].
  - exfalso. apply (H (rev r)). rewrite <- (rev_involutive s), E. reflexivity.
  - destruct x as [|q]; [reflexivity|].
    repeat (destruct q as [q | q |]; try reflexivity). now elim D.
Qed.
Lemma plural_macro s p : plural s p -> macro_plural s = p.
Proof. intros [stem | t H]; [apply macro_plural_y | now apply macro_plural_s]. Qed.
Lemma y_dec (s : ustring) : (exists stem, s = stem ++ txt "y") \/ (forall stem, s <> stem ++ txt "y").
Proof.
  destruct (rev s) as [|x r] eqn:E.
  - right. intros stem ->. rewrite rev_app_distr in E. discriminate E.
  - destruct (N.eq_dec x 121) as [-> | D].
    + left. exists (rev r). rewrite <- (rev_involutive s), E. reflexivity.
    + right. intros stem ->. rewrite rev_app_distr in E. injection E as E _. now elim D.
Qed.
Lemma macro_plural_plural s : plural s (macro_plural s).
Proof.
  destruct (y_dec s) as [(stem & ->) | H].
  - rewrite macro_plural_y. constructor.
  - rewrite (macro_plural_s _ H). now constructor.
Qed.

Lemma plural_longer s : (List.length s < List.length (macro_plural s) <= List.length s + 2)%nat.
Proof.
  destruct (y_dec s) as [(stem & ->) | H].
  - rewrite macro_plural_y, !app_length. cbn. lia.
  - rewrite (macro_plural_s _ H), app_length. cbn. lia.
Qed.

(** * Names *)

Lemma eq_text_spec a b : eq_text a b = true <-> a = b.
Proof.
  revert b; induction a as [|x a IH]; intros [|y b]; cbn [eq_text]; split; try discriminate; try reflexivity.
  - intros H. apply andb_true_iff in H. destruct H as [H K]. apply N.eqb_eq in H. apply IH in K. now subst.
  - intros H. injection H as -> ->. rewrite N.eqb_refl. now apply IH.
Qed.

Lemma lookup_in ms m : NoDup (map m_name ms) -> In m ms -> lookup ms (m_name m) = Some m.
Proof.
  unfold lookup. induction ms as [|x ms IH]; intros D I; [destruct I|]. cbn [find].
  destruct (eq_text (m_name x) (m_name m)) eqn:E.
  - apply eq_text_spec in E. destruct I as [-> | I]; [reflexivity|].
    exfalso. cbn [map] in D. inversion D as [|? ? N _]. apply N. rewrite E. now apply in_map.
  - destruct I as [-> | I].
    + assert (F : eq_text (m_name m) (m_name m) = true) by now apply eq_text_spec. congruence.
    + apply IH; [|exact I]. cbn [map] in D. now inversion D.
Qed.

Ltac len H := apply (f_equal (@List.length N)) in H; rewrite ?app_length in H; cbn in H; lia.
Lemma block_distinct k v : NoDup (map m_name (block k v)).
Proof.
  pose proof (plural_longer (v_ident v)) as L.
  destruct k; cbn [block single_block multiple_block flag_block int_block map m_name];
    repeat constructor; cbn [In]; intros H;
    repeat match goal with [ H : _ \/ _ |- _ ] => destruct H as [H | H] end; try contradiction;
    try (discriminate H); try (len H);
    (try apply app_inv_head in H); len H.
Qed.

Lemma expand_all_in up is ms k input v : expand_all up is = Expanded ms -> In (k, input) is ->
  base_values up input = Expanded v -> incl (block k v) ms.
Proof.
  revert ms; induction is as [|[k' input'] is IH]; intros ms E I B; [destruct I|].
  cbn [expand_all] in E. destruct (expand up k' input') as [ms1 | ?] eqn:E1; [|discriminate E].
  destruct (expand_all up is) as [ms2 | ?] eqn:E2; [|discriminate E]. injection E as <-.
  destruct I as [X | I].
  - injection X as -> ->. unfold expand in E1. rewrite B in E1. injection E1 as <-.
    now apply incl_appl, incl_refl.
  - apply incl_appr. now apply IH.
Qed.

(** * Calls *)

Section Calls.
  Variables (ms : list method) (k : macro) (v : holes) (i : ident_arg).
  Hypothesis D : NoDup (map m_name ms).
  Hypothesis S : incl (block k v) ms.
  Hypothesis C : constant (v_path v) = Some i.

  Lemma call_in p n b a l : In (Method p n b) (block k v) -> call ms n a l = run ms b a l.
  Proof. intros I. unfold call. rewrite (lookup_in ms (Method p n b) D (S _ I) : lookup ms n = _). reflexivity. Qed.
  Lemma ask_in p n b l : In (Method p n b) (block k v) ->
    ask ms n l = match run_plain b NoArg l with Some (v, _) => Some v | None => None end.
  Proof. intros I. unfold ask. rewrite (lookup_in ms (Method p n b) D (S _ I) : lookup ms n = _). reflexivity. Qed.
End Calls.

Ltac here := cbn; tauto.
Theorem offered_call ms k v i n a l r l' : NoDup (map m_name ms) -> incl (block k v) ms ->
  constant (v_path v) = Some i -> v_name v = macro_name (v_ident v) ->
  offered k (v_ident v) i n a l r l' -> call ms n a l = Some (r, l').
Proof.
  intros D S C W H.
  destruct H as
    [l K | l K | l s K | l label K Sp | l K | l vip K P | l vip K P | l s vip K P | l s K | l s vip K P
    | l vip K P | l vip label K P Sp G | l vip label K P Sp G | l K | l K | l label K Sp | l size K
    | l size n K | l size label K Sp];
    try (apply plural_macro in P; subst vip); try (apply spaced_macro_name in Sp; subst label).
  - destruct K as [-> | ->]; erewrite call_in with (b := BNextString (v_path v)) by (try eassumption; here);
      cbn [run run_plain]; rewrite C; reflexivity.
  - destruct K as [-> | ->]; erewrite call_in with (b := BTakeNextString (v_path v)) by (try eassumption; here);
      cbn [run run_plain]; rewrite C; unfold take_string; destruct (take_strings_of l i); reflexivity.
  - destruct K as [-> | ->]; erewrite call_in with (b := BSetUtf8 (v_path v)) by (try eassumption; here);
      cbn [run run_plain]; rewrite C; reflexivity.
  - subst k. erewrite call_in with (b := BFormatOne (v_ident v) (v_name v)) by (try eassumption; here).
    cbn [run]. erewrite ask_in with (b := BNextString (v_path v)) by (try eassumption; here).
    cbn [run_plain]. rewrite C, W. cbn [write_one]. fold (get_string i l). destruct (get_string i l); reflexivity.
  - destruct k; try (now elim K); (erewrite call_in with (b := BRemove (v_path v)) by (try eassumption; here);
      cbn [run run_plain]; rewrite C; reflexivity).
  - subst k. erewrite call_in with (b := BStrings (v_path v)) by (try eassumption; here).
    cbn [run run_plain]; rewrite C; reflexivity.
  - subst k. erewrite call_in with (b := BTakeStrings (v_path v)) by (try eassumption; here).
    cbn [run run_plain]; rewrite C; unfold take_all_strings; destruct (take_strings_of l i); reflexivity.
  - subst k. erewrite call_in with (b := BSetAllUtf8 (v_path v)) by (try eassumption; here).
    cbn [run run_plain]; rewrite C; reflexivity.
  - subst k. erewrite call_in with (b := BAddUtf8 (v_path v)) by (try eassumption; here).
    cbn [run run_plain]; rewrite C; reflexivity.
  - subst k. erewrite call_in with (b := BAddAllUtf8 (v_path v)) by (try eassumption; here).
    cbn [run run_plain]; rewrite C; reflexivity.
  - subst k. erewrite call_in with (b := BRemove (v_path v)) by (try eassumption; here).
    cbn [run run_plain]; rewrite C; reflexivity.
  - subst k. erewrite call_in with (b := BFormatMany _ (v_ident v) _ (v_name v)) by (try eassumption; here).
    cbn [run]. erewrite ask_in with (b := BStrings (v_path v)) by (try eassumption; here).
    cbn [run_plain]. rewrite C. unfold get_strings in G |- *.
    rewrite (proj2 (Nat.ltb_lt _ _) G). reflexivity.
  - subst k. erewrite call_in with (b := BFormatMany _ (v_ident v) _ (v_name v)) by (try eassumption; here).
    cbn [run]. erewrite ask_in with (b := BStrings (v_path v)) by (try eassumption; here).
    cbn [run_plain]. rewrite C. unfold get_strings in G.
    rewrite (proj2 (Nat.ltb_ge _ _) G).
    erewrite ask_in with (b := BNextString (v_path v)) by (try eassumption; here).
    cbn [run_plain]. rewrite C, W. fold (get_string i l). destruct (get_string i l); reflexivity.
  - subst k. erewrite call_in with (b := BFlag (v_path v)) by (try eassumption; here).
    cbn [run run_plain]; rewrite C; reflexivity.
  - subst k. erewrite call_in with (b := BSetFlag (v_path v)) by (try eassumption; here).
    cbn [run run_plain]; rewrite C; reflexivity.
  - subst k. erewrite call_in with (b := BFormatFlag (v_ident v) (v_name v)) by (try eassumption; here).
    cbn [run]. erewrite ask_in with (b := BFlag (v_path v)) by (try eassumption; here).
    cbn [run_plain]. rewrite C, W. reflexivity.
  - destruct K as [(-> & ->) | (-> & ->)];
      (erewrite call_in with (b := BInt _ (v_path v)) by (try eassumption; here));
      cbn [run run_plain]; rewrite C; reflexivity.
  - destruct K as [(-> & ->) | (-> & ->)];
      (erewrite call_in with (b := BSetInt _ (v_path v)) by (try eassumption; here));
      cbn [run run_plain]; rewrite C; reflexivity.
  - destruct K as [(-> & ->) | (-> & ->)];
      (erewrite call_in with (b := BFormatOne (v_ident v) (v_name v)) by (try eassumption; here));
      cbn [run]; (erewrite ask_in with (b := BInt _ (v_path v)) by (try eassumption; here));
      cbn [run_plain]; rewrite C, W; cbn [write_one]; fold (get_int 2 i l); fold (get_int 4 i l);
      match goal with [ |- context [get_int ?s i l] ] => destruct (get_int s i l) end; reflexivity.
Qed.

(** Every method of a block is offered, with some argument, on every tag. *)
Theorem block_offered k v i m l : v_name v = macro_name (v_ident v) -> In m (block k v) ->
  exists a r l', offered k (v_ident v) i (m_name m) a l r l'.
Proof.
  intros W I. pose proof (macro_plural_plural (v_ident v)) as P.
  pose proof (macro_name_spaced (v_ident v)) as Q. pose proof (macro_name_spaced (macro_plural (v_ident v))) as Q'.
  destruct k; cbn [block single_block multiple_block flag_block int_block In] in I;
    repeat match type of I with _ \/ _ => destruct I as [I | I] end; try contradiction; subst m; cbn [m_name].
  - eexists NoArg, _, _. apply O_text. tauto.
  - eexists NoArg, _, _. apply O_take_text. tauto.
  - eexists (TextArg []), _, _. apply O_set_text. tauto.
  - eexists NoArg, _, _. apply O_remove. discriminate.
  - eexists NoArg, _, _. eapply O_format_text; [reflexivity | exact Q].
  - eexists NoArg, _, _. apply O_texts; [reflexivity | exact P].
  - eexists NoArg, _, _. apply O_text. tauto.
  - eexists NoArg, _, _. apply O_take_texts; [reflexivity | exact P].
  - eexists NoArg, _, _. apply O_take_text. tauto.
  - eexists (TextsArg []), _, _. apply O_set_texts; [reflexivity | exact P].
  - eexists (TextArg []), _, _. apply O_set_text. tauto.
  - eexists (TextsArg []), _, _. apply O_add_texts; [reflexivity | exact P].
  - eexists (TextArg []), _, _. apply O_add_text. tauto.
  - eexists NoArg, _, _. apply O_remove_all; [reflexivity | exact P].
  - destruct (Nat.ltb_spec 1 (List.length (get_strings i l))) as [G | G]; eexists NoArg, _, _.
    + eapply O_format_many; [reflexivity | exact P | exact Q' | exact G].
    + eapply O_format_few; [reflexivity | exact P | exact Q | exact G].
  - eexists NoArg, _, _. apply O_flag. reflexivity.
  - eexists NoArg, _, _. apply O_set_flag. reflexivity.
  - eexists NoArg, _, _. apply O_remove. discriminate.
  - eexists NoArg, _, _. eapply O_format_flag; [reflexivity | exact Q].
  - eexists NoArg, _, _. eapply (O_int MU16 _ _ l 2). tauto.
  - eexists (NumArg 0), _, _. eapply (O_set_int MU16 _ _ l 2). tauto.
  - eexists NoArg, _, _. apply O_remove. discriminate.
  - eexists NoArg, _, _. eapply (O_format_int MU16 _ _ l 2); [tauto | exact Q].
  - eexists NoArg, _, _. eapply (O_int MU32 _ _ l 4). tauto.
  - eexists (NumArg 0), _, _. eapply (O_set_int MU32 _ _ l 4). tauto.
  - eexists NoArg, _, _. apply O_remove. discriminate.
  - eexists NoArg, _, _. eapply (O_format_int MU32 _ _ l 4); [tauto | exact Q].
Qed.
