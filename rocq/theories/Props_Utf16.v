(** Which tags survive being dumped: C12, second part (see properties.jsonl). *)

From Coq Require Import List NArith ZArith Bool Lia Arith String.
From Coq Require Import ZifyBool ZifyNat ZifyN.
From Verif Require Import Base BaseLemmas Utf UtfLemmas Types Stream Parse Find Write TagSpec FileSpec ParseLemmas WOutSpec WOutPlan
  ReadFacts ExampleFile WriteBytes NewMeans Utf16Proofs.
Import ListNotations.
Local Open Scope list_scope.

(** Whatever else is in the tag, and however the bytes of the text happen to read as atoms, numbers or text: a dumped tag is read
    back, in whatever profile, exactly if none of its UTF-16 texts has a character. *)
Theorem C12_exactly : forall m m' items fuel,
  unique_idents items -> Forall (fun i => storable_ident (ad_ident i) /\ ad_data i <> [] /\ Forall good_data (ad_data i)) items ->
  Forall (fun i => item_len i < 2 ^ 32) items ->
  let f := out (dump_tag_to m items) in
  blen f < 2 ^ 62 -> blen f < N.of_nat fuel ->
  snd (dump_tag_to m items) = Ok tt /\
  ((exists t, read_tag fuel m' f = Ok t /\ tg_atoms t = items) <-> forall i s, In i items -> In (DUtf16 s) (ad_data i) -> s = []).
Proof.
  intros m m' items fuel U F L f S Fu.
  assert (L' : Forall (fun i => ad_len i < 2 ^ 32) items) by (apply Forall_impl with (2 := L); intros i X; rewrite item_len_is; exact X).
  destruct (dump_exactly m m' items fuel (conj U F) L' S Fu) as [O R]. split; [exact O|].
  assert (E : (forall i s, In i items -> In (DUtf16 s) (ad_data i) -> s = []) <-> ~ lossy items).
  { split.
    - intros H (i & s & Ii & Id & N). exact (N (H i s Ii Id)).
    - intros H i s Ii Id. destruct s as [|c s]; [reflexivity|]. exfalso. apply H. exists i, (c :: s). split; [exact Ii|]. split; [exact Id|discriminate]. }
  rewrite E. exact R.
Qed.
Print Assumptions C12_exactly.
(** Both sides occur; here with one code unit, which is followed by a text of type UTF-8 and another item. *)
Definition with_text (s : ustring) : list atom_data :=
  [AtomData (IFourcc TITLE) [DUtf8 (str "t")]; AtomData (IFreeform (str "a") (str "b")) [DBeSigned [n2b 1]; DUtf16 s; DUtf8 (str "c")]; AtomData (IFourcc (id4 "abcd")) [DReserved []]].
Example C12_exactly_example :
  unique_idents (with_text (str "x")) /\
  Forall (fun i => storable_ident (ad_ident i) /\ ad_data i <> [] /\ Forall good_data (ad_data i)) (with_text (str "x")) /\
  Forall (fun i => item_len i < 2 ^ 32) (with_text (str "x")) /\
  read_tag 400 Wrapping (out (dump_tag_to Checked (with_text (str "x")))) <> Ok (Tag dump_ftyp (AudioInfo None None None None None) (with_text (str "x"))) /\
  read_tag 400 Wrapping (out (dump_tag_to Checked (with_text []))) = Ok (Tag dump_ftyp (AudioInfo None None None None None) (with_text [])).
Proof.
  split; [repeat constructor; cbn; intuition discriminate|].
  split; [repeat constructor; try discriminate|]. split; [repeat constructor|].
  split; [vm_compute; discriminate|vm_compute; reflexivity].
Qed.
