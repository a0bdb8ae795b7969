(** Theorems about values: C68 (see properties.jsonl). *)

From Coq Require Import List NArith Bool Lia ZifyN ZifyNat ZifyBool.
From Verif Require Import Base BaseLemmas Utf UtfLemmas Types FileSpec TagOps Values ReadFacts.
Import ListNotations.

(** * C68: values are classified by their type codes, and accessors give their contents *)

(** Each predicate says which type codes (those stored in the file) a value may have. *)
Theorem C68_kinds : forall d,
  (data_is_bytes d = true <-> In (type_code d) [0; 21]) /\
  (data_is_string d = true <-> In (type_code d) [1; 2]) /\
  (data_is_image d = true <-> In (type_code d) [13; 14; 27]) /\
  (data_is_reserved d = true <-> type_code d = 0) /\ (data_is_utf8 d = true <-> type_code d = 1) /\ (data_is_utf16 d = true <-> type_code d = 2) /\
  (data_is_jpeg d = true <-> type_code d = 13) /\ (data_is_png d = true <-> type_code d = 14) /\ (data_is_be_signed d = true <-> type_code d = 21) /\
  (data_is_bmp d = true <-> type_code d = 27).
Proof. intros [v|s|s|v|v|v|v]; cbn; repeat (split; [split; intros; (congruence || lia || intuition congruence)|]); split; intros; (congruence || lia || intuition congruence). Qed.
Print Assumptions C68_kinds.

(** So every value is of exactly one of the three families. *)
Theorem C68_one_family : forall d,
  (if data_is_bytes d then 1 else 0) + (if data_is_string d then 1 else 0) + (if data_is_image d then 1 else 0) = 1.
Proof. now intros []. Qed.
Print Assumptions C68_one_family.

(** The bytes of a text, by the type code. *)
Definition text_bytes (code : N) (s : ustring) : bytes := if code =? 2 then flat_map (be 2) (enc16 s) else enc8 s.
Lemma enc8_inj : forall a b, wf_ustr a = true -> wf_ustr b = true -> enc8 a = enc8 b -> a = b.
Proof. intros a b A B E. apply dec8_enc8 in A, B. rewrite E, B in A. now injection A. Qed.
Lemma enc16_inj : forall a b, wf_ustr a = true -> wf_ustr b = true -> flat_map (be 2) (enc16 a) = flat_map (be 2) (enc16 b) -> a = b.
Proof.
  intros a b A B E. rewrite !utf16_bytes in E. apply (f_equal bytes_units) in E.
  rewrite !bytes_units_units_bytes in E by now apply enc16_units. apply dec16_enc16 in A, B. rewrite E, B in A. now injection A.
Qed.

(** An accessor returns the content stored in the file if the value is of its family, otherwise nothing. *)
Theorem C68_contents : forall d v s i,
  (data_bytes d = Some v <-> In (type_code d) [0; 21] /\ v = payload d) /\
  (good_data d -> wf_ustr s = true -> (data_string d = Some s <-> In (type_code d) [1; 2] /\ text_bytes (type_code d) s = payload d)) /\
  (data_image d = Some i <-> In (type_code d, img_format i) [(13, FJpeg); (14, FPng); (27, FBmp)] /\ img_data i = payload d) /\
  (data_image_data d = Some v <-> In (type_code d) [13; 14; 27] /\ v = payload d).
Proof.
  intros d v s i. split; [|split; [|split]].
  - destruct d; cbn; (split; [intros E; (discriminate || injection E as <-; tauto)|intros [I ->]; (reflexivity || intuition congruence)]).
  - intros G W. destruct d as [x|x|x|x|x|x|x]; cbn [type_code data_string payload good_data] in *; split;
      try (intros E; (discriminate || (injection E as <-; split; [cbn; tauto|reflexivity]))); intros [I E]; try (cbn in I; intuition discriminate).
    + f_equal. apply enc8_inj; [exact G|exact W|symmetry; exact E].
    + f_equal. apply enc16_inj; [exact G|exact W|symmetry; exact E].
  - destruct i as [[] x], d; cbn; (split; [intros E; (discriminate || injection E as <-; tauto)|intros [I ->]; (reflexivity || intuition congruence)]).
  - destruct d; cbn; (split; [intros E; (discriminate || injection E as <-; tauto)|intros [I ->]; (reflexivity || intuition congruence)]).
Qed.
Print Assumptions C68_contents.

(** The accessors of single types. *)
Theorem C68_single : forall d v s,
  (data_reserved d = Some v <-> type_code d = 0 /\ v = payload d) /\ (data_jpeg d = Some v <-> type_code d = 13 /\ v = payload d) /\
  (data_png d = Some v <-> type_code d = 14 /\ v = payload d) /\ (data_be_signed d = Some v <-> type_code d = 21 /\ v = payload d) /\
  (data_bmp d = Some v <-> type_code d = 27 /\ v = payload d) /\
  (data_utf8 d = Some s <-> type_code d = 1 /\ data_string d = Some s) /\ (data_utf16 d = Some s <-> type_code d = 2 /\ data_string d = Some s).
Proof.
  intros d v s; destruct d; cbn; repeat (split; [split; [intros E; (discriminate || injection E as <-; split; reflexivity)|intros [I E]; (discriminate || now subst || (injection E as <-; (reflexivity || discriminate)))]|]);
    (split; [intros E; (discriminate || injection E as <-; split; reflexivity)|intros [I E]; (discriminate || now subst || (injection E as <-; (reflexivity || discriminate)))]).
Qed.
Print Assumptions C68_single.

(** A value made from an image is the one value that gives the image back. *)
Theorem C68_image : forall i d, data_of_img i = d <-> data_image d = Some i.
Proof. intros [[] v] d; destruct d; cbn; split; intros E; (discriminate || now injection E as <-). Qed.
Print Assumptions C68_image.
Theorem C68_image_formats : forall v,
  type_code (data_of_img (img_jpeg v)) = 13 /\ type_code (data_of_img (img_png v)) = 14 /\ type_code (data_of_img (img_bmp v)) = 27 /\
  forall t, payload (data_of_img (Img t v)) = v /\
    (if fmt_is_jpeg t then 13 else 0) + (if fmt_is_png t then 14 else 0) + (if fmt_is_bmp t then 27 else 0) = type_code (data_of_img (Img t v)).
Proof. intros v. split; [|split; [|split]]; try reflexivity. now intros []. Qed.
Print Assumptions C68_image_formats.

Lemma enc8_empty : forall s, blen (enc8 s) = 0 -> s = [].
Proof.
  intros [|c s]; [reflexivity|]. cbn. rewrite blen_app. unfold enc8_char. intros E. exfalso.
  repeat match goal with H : context [if ?b then _ else _] |- _ => destruct b end; rewrite ?blen_cons in E; lia.
Qed.
Lemma enc16_empty : forall s, blen (enc16 s) = 0 -> s = [].
Proof.
  intros [|c s]; [reflexivity|]. rewrite enc16_cons, blen_app. unfold enc16_char. intros E. exfalso.
  repeat match goal with H : context [if ?b then _ else _] |- _ => destruct b end; rewrite ?blen_cons in E; lia.
Qed.
(** A value is empty if nothing is stored for it; an item if this holds for all its values. *)
Theorem C68_empty : forall d, data_is_empty d = true <-> payload d = [].
Proof.
  intros d. unfold data_is_empty. rewrite N.eqb_eq.
  assert (B : forall v : bytes, blen v = 0 <-> v = []) by (intros [|x v]; [split; reflexivity|split; [rewrite blen_cons; intros E; exfalso; lia|discriminate]]).
  destruct d as [v|s|s|v|v|v|v]; cbn [data_len payload]; try apply B. split.
  - intros E. now rewrite (enc16_empty _ E).
  - rewrite utf16_bytes. intros E. apply (f_equal blen) in E. rewrite blen_units_bytes in E. unfold blen in E |- *. cbn in E. lia.
Qed.
Print Assumptions C68_empty.
Theorem C68_item_empty : forall a, ad_is_empty a = true <-> forall d, In d (ad_data a) -> payload d = [].
Proof.
  intros [i l]. unfold ad_is_empty. cbn [ad_data]. assert (E : (match l with [] => true | _ => forallb data_is_empty l end) = forallb data_is_empty l) by now destruct l.
  rewrite E, forallb_forall. split; intros H d I; apply C68_empty, H, I.
Qed.
Print Assumptions C68_item_empty.

(** Assigning to the content of a value changes the content of values of the family, and never a type. *)
Theorem C68_assign : forall g h d,
  type_code (on_bytes g d) = type_code d /\ type_code (on_string h d) = type_code d /\ type_code (on_image g d) = type_code d /\
  data_bytes (on_bytes g d) = option_map g (data_bytes d) /\ data_string (on_string h d) = option_map h (data_string d) /\
  data_image (on_image g d) = option_map (fun i => Img (img_format i) (g (img_data i))) (data_image d) /\
  (data_is_bytes d = false -> on_bytes g d = d) /\ (data_is_string d = false -> on_string h d = d) /\ (data_is_image d = false -> on_image g d = d).
Proof. intros g h []; cbn; repeat (split; [(reflexivity || discriminate)|]); (reflexivity || discriminate). Qed.
Print Assumptions C68_assign.

(** ** Examples *)

Example C68_example : good_data (DUtf16 [128512]) /\ wf_ustr [128512] = true /\ payload (DUtf16 [128512]) = map n2b [216; 61; 222; 0] /\
  data_string (DUtf16 [128512]) = Some [128512] /\ data_is_empty (DUtf16 [128512]) = false /\ data_is_empty (DPng []) = true /\
  ad_is_empty (AtomData (IFourcc TITLE) [DPng []; DUtf8 []]) = true /\ ad_is_empty (AtomData (IFourcc TITLE) [DPng []; DUtf8 [65]]) = false /\ ad_is_empty (AtomData (IFourcc TITLE) []) = true.
Proof. cbn. repeat (split; [reflexivity|]). reflexivity. Qed.
