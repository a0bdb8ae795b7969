(** C77: the accessors generated by the macros of proc/src/lib.rs. *)

From Coq Require Import List Arith NArith Bool String Lia ZifyBool ZifyNat ZifyN.
From Verif Require Import Base Utf Types TagApi Display Macro MacroSpec MacroProofs.
Import ListNotations.
Local Open Scope list_scope.

(** Every text is either accepted as the arguments of a macro, with the values it denotes, or refused
    with a message, never both: a macro decides exactly by [arguments] and [refused]. *)
Theorem C77_arguments : forall up input,
  (forall vi code, arguments input vi code <->
     exists v, base_values up input = Expanded v /\ v_ident v = vi /\ v_text v = code) /\
  (forall message, refused input message <-> base_values up input = Rejected message).
Proof.
  intros up input. split.
  - intros vi code. split.
    + intros A. exists (filled up vi code). split; [now apply base_values_accepts | now split].
    + intros (v & E & <- & <-). destruct (base_values_decides input) as [(vi & code & A) | (e & R)].
      * rewrite (base_values_accepts up _ _ _ A) in E. injection E as <-. exact A.
      * rewrite (base_values_refuses up _ _ R) in E. discriminate E.
  - intros e. split; [apply base_values_refuses|].
    intros E. destruct (base_values_decides input) as [(vi & code & A) | (e' & R)].
    + rewrite (base_values_accepts up _ _ _ A) in E. discriminate E.
    + rewrite (base_values_refuses up _ _ R) in E. injection E as <-. exact R.
Qed.
Print Assumptions C77_arguments.

(** What the macros make of an accepted identifier: the name with blanks for underscores, the headline
    that differs from it in the first character only, and the path with the identifier in upper case. *)
Theorem C77_words : forall up input v, upper_case up -> base_values up input = Expanded v ->
  spaced (v_ident v) (v_name v) /\
  (exists c r, v_name v = c :: r /\ v_headline v = up c ++ r) /\
  exists upper, v_path v = txt "ident::" ++ upper /\
    (Forall (fun c => c < 128) (v_ident v) ->
     Forall2 (fun c d => 97 <= c <= 122 /\ d + 32 = c \/ ~ 97 <= c <= 122 /\ d = c) (v_ident v) upper).
Proof.
  intros up input v [U1 U2] E.
  destruct (base_values_decides input) as [(vi & code & A) | (e & R)];
    [|rewrite (base_values_refuses up _ _ R) in E; discriminate E].
  rewrite (base_values_accepts up _ _ _ A) in E. injection E as <-.
  destruct A as (p1 & p2 & rest & _ & _ & NA & _).
  cbn [filled v_ident v_name v_headline v_path]. split; [apply macro_name_spaced|]. split.
  - destruct vi as [|c vi]; [contradiction|]. cbn [macro_name map]. eexists _, _. split; reflexivity.
  - eexists. split; [reflexivity|]. clear NA. induction 1 as [|c s H _ IH]; [constructor|].
    cbn [flat_map]. destruct ((97 <=? c) && (c <=? 122)) eqn:Q.
    + rewrite U1 by lia. cbn [app]. constructor; [left; lia | exact IH].
    + rewrite U2 by lia. cbn [app]. constructor; [right; lia | exact IH].
Qed.
Print Assumptions C77_words.

(** The methods of one invocation have different names, whatever the identifier is, and exactly those
    named format_… are private. *)
Theorem C77_names : forall up k input ms, expand up k input = Expanded ms ->
  NoDup (map m_name ms) /\
  exists v formatted, base_values up input = Expanded v /\
    (k = MMultiple /\ plural (v_ident v) formatted \/ k <> MMultiple /\ formatted = v_ident v) /\
    forall m, In m ms -> m_public m = false <-> m_name m = txt "format_" ++ formatted.
Proof.
  intros up k input ms E. unfold expand in E. destruct (base_values up input) as [v | e]; [|discriminate E].
  injection E as <-. split; [apply block_distinct|].
  exists v, (match k with MMultiple => macro_plural (v_ident v) | _ => v_ident v end).
  split; [reflexivity|]. pose proof (plural_longer (v_ident v)) as L. split.
  - destruct k; try (right; split; [discriminate | reflexivity]). left. split; [reflexivity | apply macro_plural_plural].
  - intros m I.
    destruct k; cbn [block single_block multiple_block flag_block int_block In] in I;
      repeat match type of I with _ \/ _ => destruct I as [I | I] end; try contradiction; subst m; cbn [m_name m_public];
      split; try discriminate; try reflexivity; intros H; exfalso; solve [discriminate H | len H].
Qed.
Print Assumptions C77_names.

(** For every sequence of invocations that expands into methods of different names: each invocation
    gives the tag the methods its kind offers, under its name, for the item its identifier denotes. *)
Theorem C77_calls : forall up is ms, expand_all up is = Expanded ms -> NoDup (map m_name ms) ->
  forall k input v i, In (k, input) is -> base_values up input = Expanded v -> constant (v_path v) = Some i ->
  forall n a l r l', offered k (v_ident v) i n a l r l' -> call ms n a l = Some (r, l').
Proof.
  intros up is ms E D k input v i I B C n a l r l' O.
  apply (offered_call ms k v i); try assumption.
  - now apply (expand_all_in up is ms k input v).
  - destruct (base_values_decides input) as [(vi & code & A) | (e & R)];
      [|rewrite (base_values_refuses up _ _ R) in B; discriminate B].
    rewrite (base_values_accepts up _ _ _ A) in B. injection B as <-. reflexivity.
Qed.
Print Assumptions C77_calls.

(** ** The accessors of the library *)

(** The upper case of ASCII, and the expansion with it. *)
Definition up0 (c : N) : ustring := [if (97 <=? c) && (c <=? 122) then c - 32 else c].
Definition methods : list method :=
  match expand_all up0 invocations with Expanded ms => ms | Rejected _ => [] end.

Lemma up_ascii up s : upper_case up -> forallb (fun c => c <? 128) s = true -> flat_map up s = flat_map up0 s.
Proof.
  intros [U1 U2]. induction s as [|c s IH]; [reflexivity|]. intros H. cbn [forallb] in H. cbn [flat_map].
  rewrite IH by lia. f_equal. unfold up0. destruct ((97 <=? c) && (c <=? 122)) eqn:Q; [apply U1 | apply U2]; lia.
Qed.
(** The path does not depend on [up], and neither do the methods. *)
Lemma expand_up up k input : upper_case up ->
  match base_values up0 input with Expanded v => forallb (fun c => c <? 128) (v_ident v) | Rejected _ => true end = true ->
  expand up k input = expand up0 k input.
Proof.
  intros U H. unfold expand. destruct (base_values_decides input) as [(vi & code & A) | (e & R)].
  - rewrite (base_values_accepts up0 _ _ _ A) in H |- *. rewrite (base_values_accepts up _ _ _ A).
    unfold filled. cbn [filled v_ident] in H. rewrite (up_ascii up vi U H). destruct k; reflexivity.
  - now rewrite (base_values_refuses up0 _ _ R), (base_values_refuses up _ _ R).
Qed.
Lemma expand_all_up up is : upper_case up ->
  forallb (fun x => match base_values up0 (snd x) with
                    | Expanded v => forallb (fun c => c <? 128) (v_ident v)
                    | Rejected _ => true
                    end) is = true ->
  expand_all up is = expand_all up0 is.
Proof.
  intros U. induction is as [|[k input] is IH]; [reflexivity|]. intros H.
  cbn [forallb snd] in H. apply andb_true_iff in H. destruct H as [H K].
  cbn [expand_all]. rewrite (expand_up up k input U H), IH by exact K. reflexivity.
Qed.

Fixpoint distinct (l : list ustring) : bool :=
  match l with
  | [] => true
  | x :: r => negb (existsb (eq_text x) r) && distinct r
  end.
Lemma distinct_NoDup l : distinct l = true -> NoDup l.
Proof.
  induction l as [|x r IH]; intros H; [constructor|]. cbn [distinct] in H. apply andb_true_iff in H.
  destruct H as [H K]. constructor; [|now apply IH]. intros I.
  apply negb_true_iff in H. assert (T : existsb (eq_text x) r = true).
  { apply existsb_exists. exists x. split; [exact I | now apply eq_text_spec]. }
  congruence.
Qed.

Definition has_code (i : ident_arg) (code : ustring) : bool :=
  match i with
  | AFourcc (FourCC a b c d) => eq_text [b2n a; b2n b; b2n c; b2n d] code
  | AFreeform mean name => eq_text (txt "----:" ++ mean ++ txt ":" ++ name) code
  | AData _ => false
  end.
Lemma has_code_coded i code : has_code i code = true -> coded i code.
Proof.
  destruct i as [[a b c d] | mean name | ?]; cbn [has_code]; intros H; try discriminate H;
    apply eq_text_spec in H; subst code; constructor.
Qed.

(** The invocation of a row of the table, and that it resolves to the documented item. *)
Definition row_input (x : macro * string * ustring) : ustring := invocation (snd (fst x)) (snd x).
Definition row_ok (x : macro * string * ustring) : bool :=
  match base_values up0 (row_input x) with
  | Expanded v =>
      eq_text (v_ident v) (txt (snd (fst x))) &&
      match constant (v_path v) with Some i => has_code i (snd x) | None => false end
  | Rejected _ => false
  end.
Lemma rows_ok : forallb row_ok accessors = true.
Proof. vm_compute. reflexivity. Qed.
Lemma rows_invoked : invocations = map (fun x => (fst (fst x), row_input x)) accessors.
Proof. reflexivity. Qed.
Lemma methods_distinct : NoDup (map m_name methods).
Proof. apply distinct_NoDup. vm_compute. reflexivity. Qed.

(** The expansion of all the invocations: no macro refuses its arguments, no two methods have one name,
    each accessor of the table has the methods of its kind, acting on the item with the documented
    code, and there is no other method. *)
Theorem C77_tag : forall up, upper_case up -> exists ms,
  expand_all up invocations = Expanded ms /\ NoDup (map m_name ms) /\
  (forall k vi code, In (k, vi, code) accessors -> exists i, coded i code /\
     forall n a l r l', offered k (txt vi) i n a l r l' -> call ms n a l = Some (r, l')) /\
  (forall m, In m ms -> exists k vi code i, In (k, vi, code) accessors /\ coded i code /\
     forall l, exists a r l', offered k (txt vi) i (m_name m) a l r l').
Proof.
  intros up U.
  assert (X : expand_all up invocations = Expanded methods).
  { rewrite (expand_all_up up invocations U) by (vm_compute; reflexivity). vm_compute. reflexivity. }
  assert (R : forall k vi code, In (k, vi, code) accessors ->
            exists v i, base_values up0 (invocation vi code) = Expanded v /\ v_ident v = txt vi /\
              constant (v_path v) = Some i /\ coded i code).
  { intros k vi code I. pose proof (proj1 (forallb_forall _ _) rows_ok _ I) as H.
    unfold row_ok, row_input in H. cbn [fst snd] in H.
    destruct (base_values up0 (invocation vi code)) as [v | ?]; [|discriminate H].
    apply andb_true_iff in H. destruct H as [H K]. apply eq_text_spec in H.
    destruct (constant (v_path v)) as [i|] eqn:C; [|discriminate K].
    exists v, i. repeat (split; [reflexivity || assumption|]). now apply has_code_coded. }
  assert (X0 : expand_all up0 invocations = Expanded methods) by (vm_compute; reflexivity).
  exists methods. split; [exact X|]. split; [exact methods_distinct|]. split.
  - intros k vi code I. destruct (R k vi code I) as (v & i & B & V & C & Q). exists i. split; [exact Q|].
    intros n a l r l' O. rewrite <- V in O.
    apply (C77_calls up0 invocations methods X0 methods_distinct k (invocation vi code) v i); try assumption.
    rewrite rows_invoked. apply (in_map (fun x => (fst (fst x), row_input x)) _ _ I).
  - intros m I.
    assert (G : forall is ms, expand_all up0 is = Expanded ms -> In m ms ->
              exists k input v, In (k, input) is /\ base_values up0 input = Expanded v /\ In m (block k v)).
    { induction is as [|[k input] is IH]; intros ms E J.
      - injection E as <-. destruct J.
      - cbn [expand_all] in E. unfold expand in E.
        destruct (base_values up0 input) as [v | ?] eqn:B; [|discriminate E].
        destruct (expand_all up0 is) as [ms' | ?]; [|discriminate E]. injection E as <-.
        apply in_app_or in J. destruct J as [J | J].
        + exists k, input, v. split; [now left | now split].
        + destruct (IH ms' eq_refl J) as (k' & input' & v' & I' & B' & J'). exists k', input', v'.
          split; [now right | now split]. }
    destruct (G _ _ X0 I) as (k & input & v & J & B & M).
    rewrite rows_invoked in J. apply in_map_iff in J. destruct J as (((k' & vi) & code) & J & T).
    cbn [fst] in J. unfold row_input in J. cbn [fst snd] in J. injection J as <- <-.
    destruct (R k' vi code T) as (v' & i & B' & V & C & Q). rewrite B in B'. injection B' as <-.
    exists k', vi, code, i. split; [exact T|]. split; [exact Q|]. intros l. rewrite <- V.
    apply block_offered; [|exact M].
    destruct (base_values_decides (invocation vi code)) as [(vi' & code' & A) | (e & R')];
      [|rewrite (base_values_refuses up0 _ _ R') in B; discriminate B].
    rewrite (base_values_accepts up0 _ _ _ A) in B. injection B as <-. reflexivity.
Qed.
Print Assumptions C77_tag.

(** The texts the generated methods write are those of [Display for Tag]. *)
Theorem C77_display : forall up ms, upper_case up -> expand_all up invocations = Expanded ms ->
  forall k vi code, In (k, vi, code) accessors -> exists i, coded i code /\ forall l,
  match k with
  | MSingle => call ms (txt "format_" ++ txt vi) NoArg l = Some (VWritten (format_single vi i l), l)
  | MMultiple => forall vip, plural (txt vi) vip ->
                 call ms (txt "format_" ++ vip) NoArg l = Some (VWritten (format_multi vi i l), l)
  | MFlag => call ms (txt "format_" ++ txt vi) NoArg l = Some (VWritten (format_flag vi i l), l)
  | MU16 => call ms (txt "format_" ++ txt vi) NoArg l = Some (VWritten (format_int 2 vi i l), l)
  | MU32 => call ms (txt "format_" ++ txt vi) NoArg l = Some (VWritten (format_int 4 vi i l), l)
  end.
Proof.
  intros up ms U E k vi code I. destruct (C77_tag up U) as (ms' & E' & _ & T & _).
  rewrite E in E'. injection E' as <-. destruct (T k vi code I) as (i & Q0 & O).
  exists i. split; [exact Q0|]. intros l. pose proof (macro_name_spaced (txt vi)) as Q.
  destruct k.
  - rewrite (O _ _ _ _ _ (O_format_text _ _ i l _ eq_refl Q)). unfold format_single, line_opt, line.
    destruct (get_string i l); reflexivity.
  - intros vip P. unfold format_multi. destruct (Nat.ltb_spec 1 (List.length (get_strings i l))) as [G | G].
    + rewrite (O _ _ _ _ _ (O_format_many _ _ i l vip _ eq_refl P (macro_name_spaced vip) G)).
      now rewrite (plural_macro _ _ P).
    + rewrite (O _ _ _ _ _ (O_format_few _ _ i l vip _ eq_refl P Q G)). unfold line_opt, line.
      destruct (get_string i l); reflexivity.
  - rewrite (O _ _ _ _ _ (O_format_flag _ _ i l _ eq_refl Q)). reflexivity.
  - rewrite (O _ _ _ _ _ (O_format_int MU16 _ i l 2 _ (or_introl (conj eq_refl eq_refl)) Q)).
    unfold format_int, line_opt, line. destruct (get_int 2 i l); reflexivity.
  - rewrite (O _ _ _ _ _ (O_format_int MU32 _ i l 4 _ (or_intror (conj eq_refl eq_refl)) Q)).
    unfold format_int, line_opt, line. destruct (get_int 4 i l); reflexivity.
Qed.
Print Assumptions C77_display.

(** Two identifiers have one plural only if they are equal or end in y and ie. *)
Theorem C77_plural : forall s t p, plural s p -> plural t p ->
  s = t \/ exists stem, s = stem ++ txt "y" /\ t = stem ++ txt "ie" \/
                        t = stem ++ txt "y" /\ s = stem ++ txt "ie".
Proof.
  assert (Y : forall stem s, stem ++ txt "ies" = s ++ txt "s" -> s = stem ++ txt "ie").
  { intros stem s H. apply (app_inv_tail (txt "s")). rewrite <- H, <- app_assoc. reflexivity. }
  intros s t q [stem | s' N] H.
  - remember (stem ++ txt "ies") as p. destruct H as [stem' | t' N'].
    + left. apply app_inv_tail in Heqp. now subst.
    + right. exists stem. left. split; [reflexivity|]. apply Y. now symmetry.
  - remember (s' ++ txt "s") as p. destruct H as [stem' | t' N'].
    + right. exists stem'. right. split; [reflexivity|]. now apply Y.
    + left. apply app_inv_tail in Heqp. now subst.
Qed.
Print Assumptions C77_plural.

(** Examples: a tag with two artists, called by name. *)
Example C77_upper : upper_case up0.
Proof.
  split; intros c H; unfold up0; destruct ((97 <=? c) && (c <=? 122)) eqn:Q; (reflexivity || lia).
Qed.
Example C77_example_parse : arguments (invocation "album_artist" (txt "aART")) (txt "album_artist") (txt "aART").
Proof.
  apply (proj2 (proj1 (C77_arguments up0 _) _ _)). eexists. split; [reflexivity | now split].
Qed.
Example C77_example_refused : refused (txt """a"", ""b"", x") (txt "Found unexpected third positional argument: x.").
Proof. apply (proj2 (C77_arguments up0 _)). reflexivity. Qed.
Example C77_example_call :
  let l := [AtomData (IFourcc ARTIST) [DUtf8 (txt "A"); DUtf8 (txt "B")]] in
  call methods (txt "format_artists") NoArg l =
    Some (VWritten (txt "artists:" ++ nl ++ txt "    A" ++ nl ++ txt "    B" ++ nl), l) /\
  call methods (txt "take_artist") NoArg l = Some (VText (Some (txt "A")), []) /\
  call methods (txt "set_bpm") (NumArg 258) [] =
    Some (VNone, [AtomData (IFourcc BPM) [DBeSigned [Byte.x01; Byte.x02]]]) /\
  call methods (txt "categories") NoArg l = Some (VTexts [], l) /\
  call methods (txt "categorys") NoArg l = None.
Proof. vm_compute. repeat split. Qed.
