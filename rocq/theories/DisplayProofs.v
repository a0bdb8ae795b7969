(** Reading the text of a tag back. *)

From Coq Require Import List NArith ZArith Bool Lia Arith String.
From Coq Require Import ZifyBool ZifyNat ZifyN.
From Verif Require Import Base BaseLemmas Utf UtfLemmas Types TagApi TagOps TagSpec TagOpsSpec TagLemmas TagProofs
  TagAccess Display DisplaySpec.
Import ListNotations.
Local Open Scope list_scope.

Ltac Zify.zify_post_hook ::= Z.div_mod_to_equations.

(** * Lines *)

Definition unlines (ls : list ustring) : ustring := List.concat (map (fun l => l ++ [10]) ls).

Lemma unlines_app : forall a b, unlines (a ++ b) = unlines a ++ unlines b.
Proof. intros. unfold unlines. rewrite map_app, concat_app. reflexivity. Qed.

Lemma lines_from_line : forall l cur r, ~ In 10 l ->
  lines_from cur (l ++ 10 :: r) = (rev cur ++ l) :: lines_from [] r.
Proof.
  induction l as [|c l IH]; intros cur r H; cbn [app lines_from].
  - rewrite N.eqb_refl, app_nil_r. reflexivity.
  - destruct (N.eqb_spec c 10) as [->|E]; [exfalso; apply H; left; reflexivity|].
    rewrite IH by (intros I; apply H; right; exact I). cbn [rev]. rewrite <- app_assoc. reflexivity.
Qed.

Lemma lines_unlines : forall ls, Forall one_line ls -> lines (unlines ls) = ls.
Proof.
  induction ls as [|l ls IH]; intros H; [reflexivity|]. inversion H; subst.
  unfold lines, unlines. cbn [map List.concat]. rewrite <- app_assoc. cbn [app].
  rewrite lines_from_line by assumption. cbn [rev app]. f_equal. apply IH. assumption.
Qed.

Lemma ustr_eqb_spec : forall a b, reflect (a = b) (ustr_eqb a b).
Proof.
  induction a as [|x a IH]; intros [|y b]; cbn; try (constructor; congruence).
  destruct (N.eqb_spec x y); cbn; [|constructor; congruence].
  destruct (IH b); constructor; congruence.
Qed.

(** * Labels *)

Definition plain (l : ustring) : Prop :=
  ~ In 58 l /\ match l with c :: _ => c <> 32 /\ c <> 45 | [] => False end.
Definition plainb (l : ustring) : bool :=
  negb (existsb (N.eqb 58) l) && match l with c :: _ => negb (c =? 32) && negb (c =? 45) | [] => false end.

Lemma plainb_ok : forall l, plainb l = true -> plain l.
Proof.
  intros l H. unfold plainb in H. apply andb_prop in H. destruct H as [A B]. split.
  - intros I. apply negb_true_iff in A. rewrite <- not_true_iff_false in A. apply A.
    apply existsb_exists. exists 58. auto.
  - destruct l as [|c l]; [discriminate|]. apply andb_prop in B. destruct B. lia.
Qed.

Lemma plain_nc : forall l, plain l -> ~ In 58 l.
Proof. intros l [H _]. exact H. Qed.

Lemma after_label : forall l l' v, ~ In 58 l -> ~ In 58 l' ->
  after (l ++ word ": ") (l' ++ word ": " ++ v) = if ustr_eqb l l' then Some v else None.
Proof.
  induction l as [|c l IH]; intros [|c' l'] v H H'; cbn [app after ustr_eqb].
  - reflexivity.
  - change (word ": ") with [58; 32]. cbn [after app].
    destruct (N.eqb_spec 58 c') as [<-|]; [exfalso; apply H'; left; reflexivity|reflexivity].
  - change (word ": ") with [58; 32]. cbn [after app].
    destruct (N.eqb_spec c 58) as [->|]; [exfalso; apply H; left; reflexivity|reflexivity].
  - destruct (c =? c'); cbn [andb]; [|reflexivity]. apply IH; intros I; [apply H|apply H']; right; exact I.
Qed.

Lemma after_many : forall l p, ~ In 58 l -> ~ In 58 p -> after (l ++ word ": ") (p ++ word ":") = None.
Proof.
  induction l as [|c l IH]; intros [|c' p] H H'.
  - reflexivity.
  - change (word ": ") with [58; 32]. change (word ":") with [58]. cbn [after app].
    destruct (N.eqb_spec 58 c') as [<-|]; [exfalso; apply H'; left; reflexivity|reflexivity].
  - change (word ": ") with [58; 32]. change (word ":") with [58]. cbn [after app].
    destruct (N.eqb_spec c 58) as [->|]; [exfalso; apply H; left; reflexivity|reflexivity].
  - cbn [after app]. destruct (c =? c'); [|reflexivity]. apply IH; intros I; [apply H|apply H']; right; exact I.
Qed.

Lemma after_flag : forall l g, ~ In 58 g -> after (l ++ word ": ") g = None.
Proof.
  induction l as [|c l IH]; intros [|c' g] H; change (word ": ") with [58; 32]; cbn [app after]; try reflexivity.
  - destruct (N.eqb_spec 58 c') as [<-|]; [exfalso; apply H; left; reflexivity|reflexivity].
  - destruct (c =? c'); [|reflexivity]. apply IH. intros I. apply H. right. exact I.
Qed.

Lemma after_head : forall l x v, plain l -> x = 32 \/ x = 45 -> after (l ++ word ": ") (x :: v) = None.
Proof.
  intros [|c l] x v [_ P] H; [contradiction|]. cbn [app after].
  destruct (N.eqb_spec c x); [|reflexivity]. lia.
Qed.

Lemma plain_head : forall p x v, plain p -> x = 32 \/ x = 45 -> ustr_eqb (x :: v) (p ++ word ":") = false.
Proof.
  intros [|c p] x v [_ P] H; [contradiction|]. cbn [app ustr_eqb].
  destruct (N.eqb_spec x c); [lia|reflexivity].
Qed.

Lemma many_one : forall p l v, ~ In 58 l -> ~ In 58 p ->
  ustr_eqb (l ++ word ": " ++ v) (p ++ word ":") = false.
Proof.
  intros p l v H H'. destruct (ustr_eqb_spec (l ++ word ": " ++ v) (p ++ word ":")) as [E|]; [exfalso|reflexivity].
  revert p H' E. induction l as [|c l IH]; intros [|c' p] H' E; change (word ": ") with [58; 32] in *;
    change (word ":") with [58] in *; cbn [app] in E; try discriminate; injection E as E1 E2.
  - subst. apply H'. left. reflexivity.
  - subst. apply H. left. reflexivity.
  - apply (IH (fun I => H (or_intror I)) p (fun I => H' (or_intror I)) E2).
Qed.

Lemma many_flag : forall p g, ~ In 58 g -> ustr_eqb g (p ++ word ":") = false.
Proof.
  intros p g H. destruct (ustr_eqb_spec g (p ++ word ":")) as [->|]; [exfalso|reflexivity].
  apply H, in_or_app. right. left. reflexivity.
Qed.

Lemma many_many : forall p q, ustr_eqb (q ++ word ":") (p ++ word ":") = ustr_eqb q p.
Proof.
  intros p q. destruct (ustr_eqb_spec q p) as [->|N].
  - destruct (ustr_eqb_spec (p ++ word ":") (p ++ word ":")); congruence.
  - destruct (ustr_eqb_spec (q ++ word ":") (p ++ word ":")) as [E|]; [|reflexivity].
    apply app_inv_tail in E. contradiction.
Qed.

(** * Blocks *)

Inductive block := BOne (l v : ustring) | BMany (p : ustring) (vs : list ustring) | BFlag (l : ustring).

Definition block_lines (b : block) : list ustring :=
  match b with
  | BOne l v => [l ++ word ": " ++ v]
  | BMany p vs => (p ++ word ":") :: map (fun v => word "    " ++ v) vs
  | BFlag l => [l]
  end.

Definition key (b : block) : ustring := match b with BOne l _ => l | BMany p _ => p | BFlag l => l end.

Definition wf_block (b : block) : Prop :=
  match b with
  | BOne l _ => plain l
  | BMany p _ => plain p \/ exists x, p = 45 :: x
  | BFlag l => plain l
  end.

Lemma field_entries : forall l vs r, plain l -> field l (map (fun v => word "    " ++ v) vs ++ r) = field l r.
Proof.
  intros l vs r P. induction vs as [|v vs IH]; [reflexivity|]. cbn [map app field].
  change (word "    " ++ v) with (32 :: [32; 32; 32] ++ v). rewrite after_head by auto. exact IH.
Qed.

Lemma field_skip : forall l b r, plain l -> wf_block b -> (forall v, b <> BOne l v) ->
  field l (block_lines b ++ r) = field l r.
Proof.
  intros l [l' v|p vs|g] r P W N; cbn [block_lines app field]; cbn [wf_block] in W.
  - rewrite after_label by auto using plain_nc.
    destruct (ustr_eqb_spec l l') as [->|]; [exfalso; apply (N v); reflexivity|reflexivity].
  - rewrite field_entries by exact P.
    destruct W as [W|[x ->]]; [rewrite after_many by auto using plain_nc; reflexivity|].
    cbn [app]. rewrite after_head by auto. reflexivity.
  - rewrite after_flag by auto using plain_nc. reflexivity.
Qed.

Lemma field_hit : forall l v r, plain l -> field l (block_lines (BOne l v) ++ r) = Some v.
Proof.
  intros l v r P. cbn [block_lines app field]. rewrite after_label by auto using plain_nc.
  destruct (ustr_eqb_spec l l); congruence.
Qed.

Lemma indented_indent : forall v, indented (word "    " ++ v) = Some v.
Proof. reflexivity. Qed.

Lemma indented_plain : forall l r, plain l -> indented (l ++ r) = None.
Proof.
  intros [|c l] r [_ P]; [contradiction|]. cbn [app]. unfold indented. change (word "    ") with [32; 32; 32; 32].
  cbn [after]. destruct (N.eqb_spec 32 c); [lia|reflexivity].
Qed.

Lemma indented_dash : forall l, indented (45 :: l) = None.
Proof. reflexivity. Qed.

Lemma block_head : forall b, wf_block b -> exists h t, block_lines b = h :: t /\ indented h = None.
Proof.
  intros [l v|p vs|g] W; cbn in *; eexists; eexists; (split; [reflexivity|]).
  - apply indented_plain, W.
  - destruct W as [W|[x ->]]; [apply indented_plain, W|reflexivity].
  - rewrite <- (app_nil_r g). apply indented_plain, W.
Qed.

Lemma entries_app : forall vs r, entries (map (fun v => word "    " ++ v) vs ++ r) = vs ++ entries r.
Proof. induction vs as [|v vs IH]; intros r; [reflexivity|]. cbn [map app entries]. rewrite indented_indent, IH. reflexivity. Qed.

Lemma fields_entries : forall l p vs r, plain l -> plain p ->
  fields l p (map (fun v => word "    " ++ v) vs ++ r) = fields l p r.
Proof.
  intros l p vs r P Q. induction vs as [|v vs IH]; [reflexivity|]. cbn [map app fields].
  change (word "    " ++ v) with (32 :: [32; 32; 32] ++ v).
  rewrite plain_head, after_head by auto. exact IH.
Qed.

Lemma fields_skip : forall l p b r, plain l -> plain p -> wf_block b -> key b <> l -> key b <> p ->
  fields l p (block_lines b ++ r) = fields l p r.
Proof.
  intros l p [l' v|q vs|g] r P Q W N N'; cbn [block_lines app fields]; cbn [wf_block key] in *.
  - rewrite many_one, after_label by auto using plain_nc.
    destruct (ustr_eqb_spec l l') as [->|]; [congruence|reflexivity].
  - rewrite many_many. destruct (ustr_eqb_spec q p); [congruence|].
    rewrite fields_entries by assumption.
    destruct W as [W|[x ->]]; [rewrite after_many by auto using plain_nc; reflexivity|].
    cbn [app]. rewrite after_head by auto. reflexivity.
  - rewrite many_flag, after_flag by auto using plain_nc. reflexivity.
Qed.

Lemma fields_one : forall l p v r, plain l -> plain p -> fields l p (block_lines (BOne l v) ++ r) = [v].
Proof.
  intros l p v r P Q. cbn [block_lines app fields]. rewrite many_one, after_label by auto using plain_nc.
  destruct (ustr_eqb_spec l l); congruence.
Qed.

Lemma fields_many : forall l p vs r, entries r = [] -> fields l p (block_lines (BMany p vs) ++ r) = vs.
Proof.
  intros l p vs r E. cbn [block_lines app fields]. rewrite many_many.
  destruct (ustr_eqb_spec p p); [|congruence]. rewrite entries_app, E. apply app_nil_r.
Qed.

(** * Sections: the keys a section may use, and what it prints *)

Definition sect := (list ustring * option block)%type.

Definition sect_lines (s : sect) : list ustring := match snd s with Some b => block_lines b | None => [] end.
Definition wf_sect (s : sect) : Prop :=
  Forall plain (fst s) /\ match snd s with Some b => wf_block b /\ In (key b) (fst s) | None => True end.
Definition all_lines (ss : list sect) : list ustring := List.concat (map sect_lines ss).
Definition all_keys (ss : list sect) : list ustring := List.concat (map fst ss).

Lemma all_keys_in : forall ss s k, In s ss -> In k (fst s) -> In k (all_keys ss).
Proof. intros. unfold all_keys. apply in_concat. exists (fst s). split; [apply in_map; assumption|assumption]. Qed.

Lemma sect_skip_field : forall l s r, plain l -> wf_sect s -> ~ In l (fst s) -> field l (sect_lines s ++ r) = field l r.
Proof.
  intros l [ks [b|]] r P [_ W] N; cbn in *; [|reflexivity]. destruct W as [W K].
  apply field_skip; try assumption. intros v ->. contradiction.
Qed.

Lemma skip_field : forall l ss r, plain l -> Forall wf_sect ss -> ~ In l (all_keys ss) ->
  field l (all_lines ss ++ r) = field l r.
Proof.
  intros l ss r P W N. induction ss as [|s ss IH]; [reflexivity|]. inversion W; subst.
  unfold all_lines, all_keys in *. cbn [map List.concat] in *. rewrite <- app_assoc.
  rewrite sect_skip_field; [apply IH|..]; try assumption; intros I; apply N, in_or_app; auto.
Qed.

Lemma sect_skip_fields : forall l p s r, plain l -> plain p -> wf_sect s -> ~ In l (fst s) -> ~ In p (fst s) ->
  fields l p (sect_lines s ++ r) = fields l p r.
Proof.
  intros l p [ks [b|]] r P Q [_ W] N N'; cbn in *; [|reflexivity]. destruct W as [W K].
  apply fields_skip; try assumption; intros <-; contradiction.
Qed.

Lemma skip_fields : forall l p ss r, plain l -> plain p -> Forall wf_sect ss ->
  ~ In l (all_keys ss) -> ~ In p (all_keys ss) -> fields l p (all_lines ss ++ r) = fields l p r.
Proof.
  intros l p ss r P Q W N N'. induction ss as [|s ss IH]; [reflexivity|]. inversion W; subst.
  unfold all_lines, all_keys in *. cbn [map List.concat] in *. rewrite <- app_assoc.
  rewrite sect_skip_fields; [apply IH|..]; try assumption; intros I;
    solve [apply N, in_or_app; auto | apply N', in_or_app; auto].
Qed.

Lemma entries_sects : forall ss r, Forall wf_sect ss -> entries r = [] -> entries (all_lines ss ++ r) = [].
Proof.
  intros ss r W E. induction ss as [|[ks [b|]] ss IH]; [exact E| |]; inversion W as [|? ? W1 W2]; subst.
  - destruct W1 as [_ [W1 _]]. unfold all_lines. cbn [map List.concat sect_lines snd].
    destruct (block_head b) as (h & t & -> & H); [assumption|]. cbn [app entries]. rewrite H. reflexivity.
  - apply IH. assumption.
Qed.

Lemma split_sects : forall ss ks ob, NoDup (all_keys ss) -> In (ks, ob) ss ->
  exists A B, ss = A ++ (ks, ob) :: B /\
  forall k, In k ks -> ~ In k (all_keys A) /\ ~ In k (all_keys B).
Proof.
  intros ss ks ob D I. apply in_split in I. destruct I as (A & B & ->). exists A, B. split; [reflexivity|].
  intros k K. unfold all_keys in *. rewrite map_app, concat_app in D. cbn [map List.concat fst] in D.
  split; intros J.
  - induction (List.concat (map fst A)) as [|x r IH]; [contradiction|]. cbn in D. inversion D as [|? ? N D']; subst.
    destruct J as [->|J]; [|auto]. apply N, in_or_app. right. apply in_or_app. auto.
  - assert (D' : NoDup (ks ++ List.concat (map fst B))).
    { induction (List.concat (map fst A)) as [|x r IH]; [exact D|]. inversion D; auto. }
    clear D. revert D' K. induction ks as [|x r IH]; [contradiction|].
    cbn. intros D K. inversion D as [|? ? N D']; subst. destruct K as [->|K]; [|auto].
    apply N, in_or_app. right. exact J.
Qed.

Lemma all_lines_mid : forall A s B r,
  all_lines (A ++ s :: B) ++ r = all_lines A ++ sect_lines s ++ all_lines B ++ r.
Proof. intros. unfold all_lines. rewrite map_app, concat_app. cbn [map List.concat]. rewrite <- !app_assoc. reflexivity. Qed.

(** What a section says, found in the whole text. *)
Lemma find_field : forall ss r ks ob l, NoDup (all_keys ss) -> Forall wf_sect ss -> In (ks, ob) ss -> In l ks ->
  field l r = None ->
  field l (all_lines ss ++ r) =
  match ob with Some (BOne l' v) => if ustr_eqb l l' then Some v else None | _ => None end.
Proof.
  intros ss r ks ob l D W I K R. destruct (split_sects ss ks ob D I) as (A & B & -> & S).
  destruct (S l K) as [NA NB]. apply Forall_app in W. destruct W as [WA WB]. inversion WB as [|? ? W1 W2]; subst.
  assert (P : plain l). { destruct W1 as [W1 _]. rewrite Forall_forall in W1. apply W1, K. }
  rewrite all_lines_mid, skip_field by assumption.
  assert (F : field l (all_lines B ++ r) = None) by (rewrite skip_field by assumption; exact R).
  destruct W1 as [_ W1]. destruct ob as [b|]; cbn [sect_lines snd] in *; [|exact F]. destruct W1 as [W1 _].
  destruct b as [l' v|p vs|g]; try (rewrite field_skip; [exact F|assumption|assumption|discriminate]).
  destruct (ustr_eqb_spec l l') as [<-|N]; [apply field_hit, P|].
  rewrite field_skip; [exact F|assumption|assumption|]. intros v' [= E _]. congruence.
Qed.

Lemma find_fields : forall ss r ks ob l p, NoDup (all_keys ss) -> Forall wf_sect ss -> In (ks, ob) ss ->
  In l ks -> In p ks -> fields l p r = [] -> entries r = [] ->
  match ob with Some (BOne l' _) => l' = l | Some (BMany p' _) => p' = p | Some (BFlag _) => False | None => True end ->
  fields l p (all_lines ss ++ r) =
  match ob with Some (BOne _ v) => [v] | Some (BMany _ vs) => vs | _ => [] end.
Proof.
  intros ss r ks ob l p D W I K K' R R' M. destruct (split_sects ss ks ob D I) as (A & B & -> & S).
  destruct (S l K) as [NA NB]. destruct (S p K') as [NA' NB'].
  apply Forall_app in W. destruct W as [WA WB]. inversion WB as [|? ? W1 W2]; subst.
  assert (P : plain l). { destruct W1 as [W1 _]. rewrite Forall_forall in W1. apply W1, K. }
  assert (Q : plain p). { destruct W1 as [W1 _]. rewrite Forall_forall in W1. apply W1, K'. }
  rewrite all_lines_mid, skip_fields by assumption.
  destruct ob as [[l' v|p' vs|g]|]; cbn [sect_lines snd] in *; subst.
  - apply fields_one; assumption.
  - apply fields_many. apply entries_sects; assumption.
  - contradiction.
  - cbn [app]. rewrite skip_fields by assumption. exact R.
Qed.

(** A colon-free line with a plain head is printed by flags only. *)
Lemma in_block_plain : forall l b, plain l -> wf_block b -> (In l (block_lines b) <-> b = BFlag l).
Proof.
  intros l [l' v|p vs|g] P W; cbn [block_lines In]; split; intros H; try discriminate.
  - exfalso. destruct H as [<-|[]]. apply (plain_nc _ P). apply in_or_app. right. left. reflexivity.
  - exfalso. destruct H as [<-|H].
    + apply (plain_nc _ P). apply in_or_app. right. left. reflexivity.
    + apply in_map_iff in H. destruct H as (v & <- & _). destruct P as [_ P]. cbn in P. destruct P. congruence.
  - destruct H as [->|[]]. reflexivity.
  - injection H as ->. left. reflexivity.
Qed.

Lemma find_flag : forall ss r ks ob l, NoDup (all_keys ss) -> Forall wf_sect ss -> In (ks, ob) ss -> In l ks ->
  ~ In l r -> (In l (all_lines ss ++ r) <-> ob = Some (BFlag l)).
Proof.
  intros ss r ks ob l D W I K R. destruct (split_sects ss ks ob D I) as (A & B & -> & S).
  destruct (S l K) as [NA NB]. rewrite Forall_forall in W.
  assert (P : plain l).
  { destruct (W (ks, ob)) as [W1 _]; [apply in_or_app; right; left; reflexivity|].
    rewrite Forall_forall in W1. apply W1, K. }
  assert (Z : forall s, In s A \/ In s B -> ~ In l (sect_lines s)).
  { intros [ks' [b|]] J L; [|contradiction]. destruct (W (ks', Some b)) as [_ [W1 W2]].
    { apply in_or_app. destruct J; [left|right; right]; assumption. }
    cbn [sect_lines snd fst] in *. apply in_block_plain in L; [|assumption|assumption]. subst b. cbn [key] in W2.
    destruct J as [J|J]; [apply NA|apply NB]; eapply all_keys_in; eauto. }
  split.
  - intros H. apply in_app_or in H. destruct H as [H|H]; [|contradiction].
    unfold all_lines in H. apply in_concat in H. destruct H as (x & H & L). apply in_map_iff in H.
    destruct H as (s & <- & H). apply in_app_or in H. destruct H as [H|[H|H]].
    + exfalso. eapply Z; eauto.
    + subst s. destruct ob as [b|]; [|contradiction]. cbn [sect_lines snd] in L.
      destruct (W (ks, Some b)) as [_ [W1 W2]]; [apply in_or_app; right; left; reflexivity|].
      apply in_block_plain in L; [congruence|assumption|assumption].
    + exfalso. eapply Z; eauto.
  - intros ->. apply in_or_app. left. unfold all_lines. apply in_concat. exists [l]. split; [|left; reflexivity].
    apply in_map_iff. exists (ks, Some (BFlag l)). split; [reflexivity|]. apply in_or_app. right. left. reflexivity.
Qed.

(** * Headings *)

Lemma headings_app : forall a b, headings (a ++ b) = headings a ++ headings b.
Proof. induction a as [|l a IH]; intros b; [reflexivity|]. cbn [app headings]. destruct (indented l); rewrite IH; reflexivity. Qed.

Lemma upto_colon_app : forall l r, ~ In 58 l -> upto_colon (l ++ 58 :: r) = l.
Proof.
  induction l as [|c l IH]; intros r H; [reflexivity|]. cbn.
  destruct (N.eqb_spec c 58) as [->|]; [exfalso; apply H; left; reflexivity|].
  rewrite IH; [reflexivity|]. intros I. apply H. right. exact I.
Qed.

Lemma upto_colon_none : forall l, ~ In 58 l -> upto_colon l = l.
Proof.
  induction l as [|c l IH]; intros H; [reflexivity|]. cbn.
  destruct (N.eqb_spec c 58) as [->|]; [exfalso; apply H; left; reflexivity|].
  rewrite IH; [reflexivity|]. intros I. apply H. right. exact I.
Qed.

Lemma headings_entries : forall vs, headings (map (fun v => word "    " ++ v) vs) = [].
Proof. induction vs; [reflexivity|]. cbn [map headings]. rewrite indented_indent. exact IHvs. Qed.

Lemma headings_block : forall b, wf_block b -> plain (key b) -> headings (block_lines b) = [key b].
Proof.
  intros [l v|p vs|g] W K; cbn [block_lines headings key] in *.
  - rewrite indented_plain by exact W. change (word ": " ++ v) with (58 :: 32 :: v).
    rewrite upto_colon_app by auto using plain_nc. reflexivity.
  - rewrite indented_plain by exact K. change (word ":") with [58].
    rewrite upto_colon_app by auto using plain_nc. rewrite headings_entries. reflexivity.
  - rewrite <- (app_nil_r g) at 1. rewrite indented_plain by exact W.
    rewrite upto_colon_none by auto using plain_nc. reflexivity.
Qed.

Lemma subseq_refl_nil : forall {A} (m : list A), subseq [] m.
Proof. induction m; constructor; assumption. Qed.

Lemma subseq_one : forall {A} (x : A) m, In x m -> subseq [x] m.
Proof.
  intros A x m. induction m as [|y m IH]; [contradiction|]. intros [->|H].
  - apply Sub_take, subseq_refl_nil.
  - apply Sub_skip, IH, H.
Qed.

Lemma subseq_app : forall {A} (a b c d : list A), subseq a b -> subseq c d -> subseq (a ++ c) (b ++ d).
Proof. intros A a b c d H H'. induction H; cbn; [exact H'|constructor; assumption|constructor; assumption]. Qed.

Lemma headings_sects : forall ss, Forall wf_sect ss -> subseq (headings (all_lines ss)) (all_keys ss).
Proof.
  induction ss as [|[ks ob] ss IH]; intros W; [constructor|]. inversion W as [|? ? W1 W2]; subst.
  unfold all_lines, all_keys. cbn [map List.concat]. rewrite headings_app. apply subseq_app; [|apply IH, W2].
  destruct W1 as [W1 W3]. cbn [fst snd sect_lines] in *.
  destruct ob as [b|]; [|apply subseq_refl_nil]. destruct W3 as [W3 W4].
  change (sect_lines (ks, Some b)) with (block_lines b).
  rewrite headings_block; [apply subseq_one, W4|exact W3|]. rewrite Forall_forall in W1. apply W1, W4.
Qed.

(** * Numbers *)

Lemma digit_of : forall d, d < 10 -> digit (48 + d) = Some d.
Proof.
  intros d H. unfold digit. replace ((48 <=? 48 + d) && (48 + d <=? 57)) with true by lia. f_equal. lia.
Qed.

Lemma dec_digits_spec : forall f n, n < 10 ^ N.of_nat f -> (0 < f)%nat ->
  exists d ds, dec_digits f n = (48 + d) :: ds /\ d < 10 /\ (d = 0 -> n = 0 /\ ds = []) /\
  (forall r, digits_from d (ds ++ r) = digits_from n r) /\ ~ In 10 ds.
Proof.
  induction f as [|f IH]; intros n H P; [lia|]. cbn [dec_digits].
  destruct (N.ltb_spec n 10) as [L|L].
  - exists n, []. repeat split; try assumption; auto.
  - assert (B : n / 10 < 10 ^ N.of_nat f).
    { replace (N.of_nat (S f)) with (N.succ (N.of_nat f)) in H by lia. rewrite N.pow_succ_r' in H.
      apply N.div_lt_upper_bound; [discriminate|exact H]. }
    assert (F : (0 < f)%nat). { destruct f; [|lia]. exfalso. change (10 ^ N.of_nat 0) with 1 in B. lia. }
    destruct (IH (n / 10) B F) as (d & ds & E & D & Z & G & T).
    exists d, (ds ++ [48 + n mod 10]). rewrite E. cbn [app]. repeat split; try assumption.
    + apply Z in H0. lia.
    + apply Z in H0. lia.
    + intros r. rewrite <- app_assoc. cbn [app]. rewrite G. cbn [digits_from]. rewrite digit_of by lia.
      f_equal. lia.
    + intros I. apply in_app_or in I. destruct I as [I|[I|[]]]; [contradiction|]. lia.
Qed.

Lemma size_bound : forall n, n < 10 ^ N.of_nat (S (N.size_nat n)).
Proof.
  intros n. apply N.lt_le_trans with (2 ^ N.of_nat (S (N.size_nat n))).
  - destruct n as [|p]; [reflexivity|]. cbn [N.size_nat].
    induction p as [p IH|p IH|]; cbn [Pos.size_nat]; [| |reflexivity];
      rewrite Nat2N.inj_succ, N.pow_succ_r' by lia;
      change (N.pos p < 2 ^ N.of_nat (S (Pos.size_nat p))) in IH;
      destruct (2 ^ N.of_nat (S (Pos.size_nat p))); lia.
  - apply N.pow_le_mono_l. lia.
Qed.

Definition no_digit (r : ustring) : Prop := match r with [] => True | c :: _ => digit c = None end.

Lemma digits_stop : forall n r, no_digit r -> digits_from n r = (n, r).
Proof. intros n [|c r] H; [reflexivity|]. cbn in *. rewrite H. reflexivity. Qed.

Lemma number_dec : forall n r, no_digit r -> number (dec n ++ r) = Some (n, r).
Proof.
  intros n r H. unfold dec. destruct (dec_digits_spec (S (N.size_nat n)) n (size_bound n) ltac:(lia)) as (d & ds & E & D & Z & G & _).
  rewrite E. cbn [app number]. rewrite digit_of by exact D.
  destruct d as [|q].
  - destruct (Z eq_refl) as [-> ->]. cbn [app]. destruct r as [|c r]; [reflexivity|]. cbn in H. rewrite H. reflexivity.
  - rewrite G, digits_stop by exact H. reflexivity.
Qed.

Lemma whole_dec : forall n, whole_number (dec n) = Some n.
Proof. intros n. unfold whole_number. rewrite <- (app_nil_r (dec n)), number_dec by exact I. reflexivity. Qed.

Lemma dec_head : forall n, exists d ds, dec n = (48 + d) :: ds /\ d < 10 /\ ~ In 10 ds.
Proof.
  intros n. unfold dec. destruct (dec_digits_spec (S (N.size_nat n)) n (size_bound n) ltac:(lia)) as (d & ds & E & D & _ & _ & T).
  eauto.
Qed.

Lemma dec_one_line : forall n, one_line (dec n).
Proof. intros n. destruct (dec_head n) as (d & ds & -> & D & T). intros [I|I]; [lia|contradiction]. Qed.

Lemma dec_small : forall n, n < 10 -> dec n = [48 + n].
Proof. intros n H. unfold dec. cbn [dec_digits]. replace (n <? 10) with true by lia. reflexivity. Qed.

Lemma dec_two : forall n, 10 <= n < 100 -> dec n = [48 + n / 10; 48 + n mod 10].
Proof.
  intros n H. unfold dec. cbn [dec_digits]. replace (n <? 10) with false by lia.
  destruct n as [|p]; [lia|]. cbn [N.size_nat]. destruct (Pos.size_nat p) eqn:E; [destruct p; discriminate|].
  cbn [dec_digits]. replace (N.pos p / 10 <? 10) with true by lia. reflexivity.
Qed.

Lemma sixtieth_pad : forall n r, n < 60 -> sixtieth (pad2 n ++ r) = Some (n, r).
Proof.
  intros n r H. unfold pad2. destruct (N.ltb_spec n 10) as [L|L].
  - rewrite dec_small by exact L. cbn [app sixtieth]. change (digit 48) with (Some 0). rewrite digit_of by exact L.
    cbn. f_equal. f_equal. destruct n; reflexivity.
  - rewrite dec_two by lia. cbn [app sixtieth]. rewrite !digit_of by lia.
    replace (n / 10 <? 6) with true by lia. f_equal. f_equal. lia.
Qed.

Lemma pad_one_line : forall n, one_line (pad2 n).
Proof.
  intros n. unfold pad2. destruct (n <? 10); [|apply dec_one_line].
  intros [I|I]; [discriminate|]. apply (dec_one_line n I).
Qed.
