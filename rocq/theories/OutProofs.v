(** Reading an arbitrary file has the outcome that OutSpec.v describes, with and without overflow checks. *)

From Coq Require Import List NArith ZArith Bool Lia Arith String.
From Coq Require Import ZifyBool ZifyNat ZifyN.
From Verif Require Import Base BaseLemmas Utf UtfLemmas Types Stream Parse Find TagSpec FileSpec ParseLemmas FailSpec FailProofs PanicSpec PanicProofs Display Described DescribedIs ErrSpec ErrProofs FirstSpec OutSpec.
From Verif Require Import OutUnique.
From Verif Require ErrExact FirstUnique OutBase.
Import ListNotations.
Local Open Scope list_scope.
Local Open Scope d_scope.

Section Outcome.
  Context (m : mode) (f : bytes) (Lf : blen f < 2 ^ 62) (F : nat).
  Local Notation head_at := (PanicProofs.head_at f).
  Local Notation hl h := (head_len (hd_size h)).
  Local Notation sz h := (sz_len (hd_size h)).
  (** If the fuel [F] is used up, the reader takes that many steps. *)
  Definition worn : Prop := 2 ^ 28 < N.of_nat F -> busy m f F.
  Local Notation sub64_is := OutBase.sub64_is.
  Local Notation less_more := OutBase.less_more.
  Local Notation lacking_more := OutBase.lacking_more.
  Local Notation less_lacking := OutBase.less_lacking.
  Local Notation less_enough := OutBase.less_enough.
  Local Notation kept_small := OutBase.kept_small.
  Local Notation add64_is := OutBase.add64_is.
  Local Notation rpost := (OutBase.rpost f).
  Local Notation rp_bind := (OutBase.rp_bind f).
  Local Notation rp_weak := (OutBase.rp_weak f).
  Local Notation rp_ret := (OutBase.rp_ret f).
  Local Notation short := (OutBase.short f).
  Local Notation rp_read := (OutBase.rp_read f Lf).
  Local Notation rp_num := (OutBase.rp_num f Lf).
  Local Notation rp_u8 := (OutBase.rp_u8 f Lf).
  Local Notation rp_u16 := (OutBase.rp_u16 f Lf).
  Local Notation rp_u32 := (OutBase.rp_u32 f Lf).
  Local Notation rp_u64 := (OutBase.rp_u64 f Lf).
  Local Notation rp_near := (OutBase.rp_near f Lf).
  Local Notation rp_i64 := (OutBase.rp_i64 f Lf).
  Local Notation dpost7 := (OutBase.dpost7 f).
  Local Notation rp_len7 := (OutBase.rp_len7 f Lf).
  Local Notation rp_desc_head := (OutBase.rp_desc_head f Lf).
  Local Notation dpost := (OutBase.dpost f worn).
  Local Notation dp_bind := (OutBase.dp_bind f worn).
  Local Notation dp_weak := (OutBase.dp_weak f worn).
  Local Notation dp_then := (OutBase.dp_then f worn).
  Local Notation dp_ret := (OutBase.dp_ret f worn).
  Local Notation dp_fail := (OutBase.dp_fail f worn).
  Local Notation dp_saying := (OutBase.dp_saying f worn).
  Local Notation dp_plainly := (OutBase.dp_plainly f worn).
  Local Notation dp_sub := (OutBase.dp_sub m f worn).
  Local Notation dp_add := (OutBase.dp_add m f worn).
  Local Notation content_is := (OutBase.content_is m).
  Local Notation dp_content := (OutBase.dp_content m f worn).
  Local Notation dp_near := (OutBase.dp_near f Lf worn).
  Local Notation dp_i64 := (OutBase.dp_i64 f Lf worn).
  Local Notation dp_parsing := (OutBase.dp_parsing f worn).
  Local Notation dp_head := (OutBase.dp_head f Lf worn).
  Local Notation dp_full := (OutBase.dp_full f Lf worn).
  Local Notation dp_version := (OutBase.dp_version f Lf worn).
  Local Notation head_len_le := (OutBase.head_len_le f Lf).
  Local Notation size_lt := (OutBase.size_lt f Lf).
  Local Notation dskip := (OutBase.dskip m f Lf worn).
  Local Notation dbounds := (OutBase.dbounds m f Lf worn).
  Local Notation dended := (OutBase.dended m f Lf worn).
  Local Notation dvec := (OutBase.dvec f Lf worn).
  Local Notation dutf8 := (OutBase.dutf8 f Lf worn).
  Local Notation dutf16 := (OutBase.dutf16 f Lf worn).
  Local Notation dloop := (OutBase.dloop m f Lf F worn).
  Local Notation dtype := (OutBase.dtype m f Lf worn).
  Local Notation type_in := (OutBase.type_in m f Lf).
  Local Notation dremaining := (OutBase.dremaining m f Lf worn).
  Local Notation told := (OutBase.told (stops_with m f)).
  Local Notation failing := OutBase.failing.
  Local Notation told_here := (OutBase.told_here (stops_with m f)).

  (** * Items *)

  Lemma ddata : forall q hd size n, full_fine f (q + hd) 0 -> less m size (hd + 8) n ->
    dpost (fun x => value_out m f q hd size (Stops x)) (d_data (field f (q + hd + 1) 3) n) (q + hd + 8) (fun _ p => value_out m f q hd size (Goes p)).
  Proof.
    intros q hd size n Fv Sz. set (t := field f (q + hd + 1) 3) in *.
    assert (V : forall g : bytes -> data, In t kinds -> t <> 1 -> t <> 2 ->
      dpost (fun x => value_out m f q hd size (Stops x)) (v <# plainly (read_u8_vec n) ;; dret (g v)) (q + hd + 8) (fun _ p => value_out m f q hd size (Goes p))).
    { intros g Y N1 N2. eapply dp_bind; [eapply dp_weak; [apply (dvec _ _ not_utf8)|intros x H; eapply Value_bytes; eassumption|intros a p H; exact H]|].
      cbv beta. intros b p H. apply dp_ret. eapply Value_bytes; eassumption. }
    destruct (in_dec N.eq_dec t kinds) as [Y|Y].
    - assert (T8 : t = 1 -> dpost (fun x => value_out m f q hd size (Stops x)) (s <# plainly (read_utf8 n) ;; dret (DUtf8 s)) (q + hd + 8) (fun _ p => value_out m f q hd size (Goes p))).
      { intros T. eapply dp_bind; [eapply dp_weak; [apply dutf8|intros x H; eapply Value_utf8; eassumption|intros a p H; exact H]|]. cbv beta. intros b p H. apply dp_ret. eapply Value_utf8; eassumption. }
      assert (T16 : t = 2 -> dpost (fun x => value_out m f q hd size (Stops x)) (s <# plainly (read_utf16 n) ;; dret (DUtf16 s)) (q + hd + 8) (fun _ p => value_out m f q hd size (Goes p))).
      { intros T. eapply dp_bind; [eapply dp_weak; [apply dutf16|intros x H; eapply Value_utf16; eassumption|intros a p H; exact H]|]. cbv beta. intros b p H. apply dp_ret. eapply Value_utf16; eassumption. }
      pose proof Y as Y'. unfold kinds in Y'. cbn [In] in Y'. unfold d_data. destruct Y' as [E|[E|[E|[E|[E|[E|[E|[]]]]]]]]; rewrite <- E in *;
        first [apply T8; reflexivity|apply T16; reflexivity|apply V; [exact Y|discriminate|discriminate]].
    - assert (X : d_data t n = dfail (EUnknownDataType t) (txt "Unknown datatype code")).
      { clear - Y. clearbody t. unfold d_data. unfold kinds in Y. cbn [In] in Y.
        repeat match goal with |- context [match ?x with _ => _ end] => is_var x; destruct x end; try reflexivity; exfalso; apply Y; auto 10. }
      rewrite X. apply dp_fail. apply Value_other; [exact Fv|exact (less_enough _ _ _ _ Sz)|exact Y].
  Qed.
  Definition has_data (a : item_acc) : bool := match ia_data a with [] => false | _ => true end.
  Lemma ditem : forall h a q, head_at q h -> dpost (fun x => part_out m f q (hd_fourcc h) (hl h) (sz h) (Stops x)) (d_item_body m h a) (q + hl h)
    (fun a' p => part_out m f q (hd_fourcc h) (hl h) (sz h) (Goes p) /\ has_data a' = has_data a || fourcc_eqb (hd_fourcc h) (id4 "data")).
  Proof.
    intros h a q H. unfold d_item_body. cbv zeta. destruct (fourcc_eqb (hd_fourcc h) DATA) eqn:ED.
    { assert (EI : hd_fourcc h = id4 "data") by now apply fourcc_eqb_eq.
      apply dp_version; [intros e t W; apply Part_value; [exact EI|now apply Value_stops]|]. intros Fv. cbn [snd].
      eapply dp_bind; [apply (dp_near _ 4); [destruct Fv; lia|reflexivity]|]. cbv beta. intros u p2 ->.
      eapply dp_bind; [apply dp_content; intros L; apply Part_value; [exact EI|apply Value_short; [exact Fv|now apply lacking_more]]|]. cbv beta. intros c p3 (C1 & ->).
      eapply dp_bind; [apply dp_sub; intros L; apply Part_value; [exact EI|apply Value_short; [exact Fv|eapply less_lacking; eassumption]]|]. cbv beta. intros n p4 (C2 & ->).
      pose proof (head_len_le h) as Lh. assert (W64 : 32 <= 2 ^ 64) by discriminate. pose proof (less_more _ _ _ _ _ _ C1 C2 ltac:(lia)) as C.
      rewrite type_field. replace (q + hl h + 4 + 4) with (q + hl h + 8) by lia.
      eapply dp_bind; [eapply dp_weak; [apply ddata; [exact Fv|exact C]|intros x W; apply Part_value; [exact EI|exact W]|intros b p Hp; exact Hp]|].
      cbv beta. intros d p5 V. apply dp_ret. split; [apply Part_value; [exact EI|exact V]|].
      unfold has_data. cbn [ia_data]. change (id4 "data") with DATA. rewrite ED, orb_true_r. destruct (ia_data a); reflexivity. }
    change (id4 "data") with DATA. rewrite ED, orb_false_r.
    assert (T : forall id g, In id [id4 "mean"; id4 "name"] -> (forall s, ia_data (g s) = ia_data a) -> fourcc_eqb (hd_fourcc h) id = true -> dpost (fun x => part_out m f q (hd_fourcc h) (hl h) (sz h) (Stops x)) (
        vf <# d_full ;; (if negb (fst vf =? 0) then dfail (EUnknownVersion (fst vf)) (txt "Error reading data atom (data)") else
        c <# plainly (lift (content_len m (hd_size h))) ;; n <# plainly (lift (sub64 m c 4)) ;; s <# plainly (read_utf8 n) ;; dret (g s))) (q + hl h)
        (fun a' p => part_out m f q (hd_fourcc h) (hl h) (sz h) (Goes p) /\ has_data a' = has_data a)).
    { intros id g Hi Hg EI. apply fourcc_eqb_eq in EI. subst id.
      apply (dp_version _ _ (fun _ => c <# plainly (lift (content_len m (hd_size h))) ;; n <# plainly (lift (sub64 m c 4)) ;; s <# plainly (read_utf8 n) ;; dret (g s))); [intros e t W; apply Part_name; [exact Hi|now apply Name_stops]|]. intros Fv.
      eapply dp_bind; [apply dp_content; intros L; apply Part_name; [exact Hi|apply Name_short; [exact Fv|now apply lacking_more]]|]. cbv beta. intros c p3 (C1 & ->).
      eapply dp_bind; [apply dp_sub; intros L; apply Part_name; [exact Hi|apply Name_short; [exact Fv|eapply less_lacking; eassumption]]|]. cbv beta. intros n p4 (C2 & ->).
      pose proof (head_len_le h) as Lh. assert (W64 : 32 <= 2 ^ 64) by discriminate. pose proof (less_more _ _ _ _ _ _ C1 C2 ltac:(lia)) as C.
      eapply dp_bind; [eapply dp_weak; [apply dutf8|intros x W; apply Part_name; [exact Hi|eapply Name_utf8; [exact Fv|exact C|exact W]]|intros b p Hp; exact Hp]|].
      cbv beta. intros s p V. apply dp_ret. split; [apply Part_name; [exact Hi|eapply Name_utf8; [exact Fv|exact C|exact V]]|]. unfold has_data. now rewrite Hg. }
    destruct (fourcc_eqb (hd_fourcc h) MEAN) eqn:EM; [apply (T MEAN); [now left|reflexivity|exact EM]|].
    destruct (fourcc_eqb (hd_fourcc h) NAME) eqn:EN; [apply (T NAME); [right; now left|reflexivity|exact EN]|].
    assert (NI : ~ In (hd_fourcc h) [id4 "data"; id4 "mean"; id4 "name"]).
    { intros [N|[N|[N|[]]]]; [rewrite <- N in ED; discriminate|rewrite <- N in EM; discriminate|rewrite <- N in EN; discriminate]. }
    eapply dp_bind; [eapply dp_weak; [apply (dskip q h H)|intros x W; apply Part_other; [exact NI|exact W]|intros b p Hp; exact Hp]|].
    cbv beta. intros u p1 W. apply dp_ret. split; [apply Part_other; [exact NI|exact W]|reflexivity].
  Qed.

  Lemma ditem_whole : forall name n q, (forall v d p, in_item_at m f n q F v d p -> worn) ->
    dpost (fun x => item_out m f name n q (Stops x)) (d_item F m name n) q (fun _ p => item_out m f name n q (Goes p)).
  Proof.
    intros name n q HZ. unfold d_item.
    apply (dp_bind _ _ _ _ (fun a p => exists c d, n <= d /\ in_item_at m f n q c (has_data a) d p)).
    - apply (dloop n (d_item_body m) _ (fun c a d p => in_item_at m f n q c (has_data a) d p)
        (fun c a d z p => exists v q' id hd, in_item_at m f n q c v d q' /\ d < n /\ box_at f q' id hd z /\ part_out m f q' id hd z (Goes p) /\ has_data a = v || fourcc_eqb id (id4 "data"))) with (c := 0%nat).
      + intros a d p I0. exact (HZ _ _ _ I0).
      + intros c a d p e t I0 K W. eapply Item_no_head; eassumption.
      + intros c a d p h I0 K H. eapply dp_weak; [apply (ditem h a p H)|intros x W; eapply Item_part; eassumption|].
        cbv beta. intros a' p' [W Ha]. exists (has_data a), p, (hd_fourcc h), (hl h). auto.
      + intros c a d z p (v & q' & id & hd & I0 & K & B & W & _) L. eapply Item_sum; eassumption.
      + intros c a d z p d' (v & q' & id & hd & I0 & K & B & W & ->) L. eapply Parts_next; eassumption.
      + reflexivity.
      + constructor.
    - intros a p (c & d & L & I0). unfold has_data in I0. destruct (ia_data a) eqn:Ea.
      + apply dp_fail. change (fc_text name) with (bytes_text (fc_bytes name)). eapply Item_no_value; eassumption.
      + apply dp_ret. eapply Item_full; eassumption.
  Qed.

  (** * Descriptors *)

  Lemma fuel_desc : forall len, len < 2 ^ 28 -> forall parsed, worn \/ (F <> 0)%nat /\ len < parsed + N.of_nat F.
  Proof. intros len L parsed. unfold worn. destruct (N.lt_ge_cases (2 ^ 28) (N.of_nat F)) as [H|H]; [right; split; lia|left; lia]. Qed.
  Section Descriptors.
    Context (n0 p0 : N).
    Local Notation at_ w q := (desc_at m f n0 p0 w q).
    Local Notation stopped := (fun x => descs_out m f n0 p0 (Stops x)).

    Lemma ddesc_loop : forall {S} w2 len (body : N -> N -> S -> D S), len < 2 ^ 28 ->
      (forall tag dl s q n k, 0 < k -> at_ (k :: w2) q -> descriptor_at f q tag n dl -> dpost stopped (body tag dl s) (q + n) (fun _ p => at_ (k - (n + dl) :: w2) p)) ->
      forall fuel parsed s p, worn \/ (fuel <> 0)%nat /\ len < parsed + N.of_nat fuel -> at_ (len - parsed :: w2) p ->
        dpost stopped (d_desc_loop fuel m len body parsed s) p (fun _ p' => at_ (0 :: w2) p').
    Proof.
      intros S w2 len body Ll B. induction fuel as [|fuel IH]; intros parsed s p Z K; cbn [d_desc_loop]; [destruct Z as [Z|[Z _]]; [exact Z|now contradiction Z]|].
      destruct (parsed <? len) eqn:E; [|apply dp_ret; now replace 0 with (len - parsed) by lia].
      eapply dp_bind; [eapply dp_plainly; [apply rp_desc_head|]|].
      { intros e [-> Nd]. cbn [from_text]. eapply Desc_none; [exact K|lia|exact Nd]. }
      intros [[tag n] dl] p1 [-> D]. destruct (desc_small f Lf _ _ _ _ D) as [L1 L2].
      eapply dp_bind; [eapply B; [|exact K|exact D]; lia|]. cbv beta. intros s' p2 K2.
      assert (W : 2 ^ 64 = 4 * 2 ^ 62) by reflexivity. assert (W2 : 2 ^ 28 < 2 ^ 62) by reflexivity.
      eapply dp_bind; [apply dp_add; intros [_ X]; rewrite W in X; lia|]. intros k p3 (Ks & ->). apply kept_small in Ks; [subst k|rewrite W; lia].
      eapply dp_bind; [apply dp_add; intros [_ X]; rewrite W in X; lia|]. intros k p3 (Ks & ->). apply kept_small in Ks; [subst k|rewrite W; lia].
      apply IH; [destruct Z as [Z|[_ Z]]; [now left|right]; split; lia|]. replace (len - (parsed + (n + dl))) with (len - parsed - (n + dl)) by lia. exact K2.
    Qed.
    Lemma dseek_desc : forall E q n len tag, descriptor_at f q tag n len -> dpost E (plainly (seek_cur (as_i64 len))) (q + n) (fun _ p => p = q + n + len).
    Proof.
      intros E q n len tag D. destruct (desc_small f Lf _ _ _ _ D) as [L1 L2]. assert (W2 : 2 ^ 28 < 2 ^ 30) by reflexivity. apply dp_i64; [exact (proj1 D)|lia].
    Qed.
    Lemma dds : forall i q n len k w, 0 < k -> at_ (k :: w) q -> w <> [] -> descriptor_at f q 5 n len -> dpost stopped (d_ds_desc m i len) (q + n) (fun _ p => p = q + n + len /\ q + n + 2 <= blen f /\ ~ lacking m len 2).
    Proof.
      intros i q n len k w K0 K Hw D. unfold d_ds_desc, parse_ds_desc. destruct (desc_small f Lf _ _ _ _ D) as [L1 L2].
      pose proof (rp_u16 (q + n)) as U. unfold rpost in U. unfold dpost, plainly, bind at 1. destruct (read_u16 f (q + n)) as [[v p]|e|x|]; [|destruct U as [-> L]; cbn [from_text]; eapply Desc_specific; eassumption|contradiction|contradiction].
      destruct U as (-> & -> & L). cbv zeta. unfold bind at 1. unfold lift. destruct (sub64_is m len 2) as [(c & C & ->)|[C ->]]; [|eapply Desc_short; eassumption].
      assert (W2 : 2 ^ 28 < 2 ^ 30) by reflexivity. assert (Sk : rpost (seek_cur (as_i64 c)) (q + n + 2) (fun _ => False) (fun _ p => p = q + n + len)).
      { destruct C as [[C ->]|(M & C & ->)]; [eapply rp_weak; [apply rp_i64; [exact L|lia]|auto|intros a p ->; lia]|].
        unfold rpost, seek_cur, as_i64. assert (W : two63 = 2 * 2 ^ 62) by reflexivity. assert (W4 : two64 = 4 * 2 ^ 62) by reflexivity. assert (W5 : 2 ^ 64 = 4 * 2 ^ 62) by reflexivity. rewrite W, W4, W5.
        destruct (_ <? 2 * 2 ^ 62) eqn:X; [lia|]. destruct (_ && _)%Z eqn:Y; lia. }
      unfold rpost in Sk. unfold bind. destruct (seek_cur _ f _) as [[u p]|e|x|]; try contradiction.
      cbn. split; [exact Sk|]. split; [exact L|]. exact (less_enough _ _ _ _ C).
    Qed.
    Lemma ddc_body : forall tag dl i q n k k', 0 < k -> at_ [k; k'] q -> descriptor_at f q tag n dl -> dpost stopped (d_dc_body m tag dl i) (q + n) (fun _ p => at_ [k - (n + dl); k'] p).
    Proof.
      intros tag dl i q n k k' K0 K D. unfold d_dc_body. destruct (tag =? 5) eqn:T.
      - apply N.eqb_eq in T. subst tag. eapply dp_then; [eapply dds; [exact K0|exact K|discriminate|exact D]|]. cbv beta. intros u p (-> & L & L2). eapply Descs_past; [exact K|exact K0|exact D|right; discriminate|intros _ _; split; assumption].
      - eapply dp_bind; [eapply dseek_desc; exact D|]. cbv beta. intros u p ->. apply dp_ret. eapply Descs_past; [exact K|exact K0|exact D|right; discriminate|]. intros X. exfalso. lia.
    Qed.
    Lemma des_body : forall tag dl i q n k, 0 < k -> at_ [k] q -> descriptor_at f q tag n dl -> dpost stopped (d_es_body F m tag dl i) (q + n) (fun _ p => at_ [k - (n + dl)] p).
    Proof.
      intros tag dl i q n k K0 K D. unfold d_es_body. destruct (desc_small f Lf _ _ _ _ D) as [L1 L2]. assert (W2 : 2 ^ 28 < 2 ^ 62) by reflexivity.
      pose proof (proj1 D) as Ln. destruct (tag =? 4) eqn:T.
      - apply N.eqb_eq in T. subst tag. unfold d_dc_desc.
        assert (C : blen f < q + n + 13 -> descs_out m f n0 p0 (Stops (Fails EIoEof (from_text EIoEof)))) by (intros L; cbn [from_text]; eapply Desc_config; eassumption).
        eapply dp_bind; [apply (dp_near _ 5); [exact Ln|reflexivity]|]. cbv beta. intros u p1 ->.
        eapply dp_bind; [eapply dp_plainly; [apply rp_u32|intros e [-> L]; apply C; lia]|]. cbv beta. intros mx p2 (-> & -> & La).
        eapply dp_bind; [eapply dp_plainly; [apply rp_u32|intros e [-> L]; apply C; lia]|]. cbv beta. intros av p3 (-> & -> & Lb).
        eapply dp_then; [apply (ddesc_loop [k - (n + dl)]); [lia|intros; now apply ddc_body|apply fuel_desc; lia|]|cbv beta; intros x p H; now apply Descs_out].
        replace (q + n + 5 + 4 + 4) with (q + n + 13) by lia. apply Descs_into; [exact K|exact K0|exact D|lia].
      - eapply dp_bind; [eapply dseek_desc; exact D|]. cbv beta. intros u p ->. apply dp_ret. eapply Descs_past; [exact K|exact K0|exact D|left; lia|]. intros _ N. now contradiction N.
    Qed.
  End Descriptors.
  Lemma desc_near : forall n p w q, desc_at m f n p w q -> p <= blen f -> q <= blen f + 2 ^ 28.
  Proof.
    intros n p w q H Lp. assert (3 < 2 ^ 28) by reflexivity. induction H as [|k w q tag h len H IH K D T C|k q h len H IH K D L|k w q H IH]; try assumption; [lia| |lia].
    destruct (desc_small f Lf _ _ _ _ D) as [L1 L2]. pose proof (proj1 D). lia.
  Qed.
  Lemma descs_near : forall n p q, descs_out m f n p (Goes q) -> p <= blen f -> q <= blen f + 2 ^ 28.
  Proof. intros n p q H Lp. inversion H as [| | | |q' H' E]. subst q'. eapply desc_near; eassumption. Qed.
  Lemma des_desc : forall i n p, n < 2 ^ 28 -> p <= blen f -> dpost (fun x => descs_out m f n p (Stops x)) (d_es_desc F m i n) p (fun _ p' => descs_out m f n p (Goes p')).
  Proof.
    intros i n p Ln Lp. unfold d_es_desc. eapply dp_bind; [apply (dp_near _ 3); [exact Lp|reflexivity]|]. cbv beta. intros u p1 ->.
    eapply dp_then; [apply (ddesc_loop n p []); [exact Ln|intros; now apply des_body|now apply fuel_desc|constructor]|]. cbv beta. intros x p' H. now apply Desc_end.
  Qed.

  (** * Sample entries and headers *)

  Lemma dmp4a : forall q h, head_at q h -> dpost (fun x => entry_out m f q (sz h) (q + hl h + 28) (Stops x)) (d_mp4a F m (hd_size h)) (q + hl h) (fun _ p => entry_out m f q (sz h) (q + hl h + 28) (Goes p)).
  Proof.
    intros q h H. set (a := q + hl h + 28). unfold d_mp4a. eapply dp_bind; [apply dbounds, H|]. intros b p [-> ->].
    eapply dp_bind; [apply (dp_near _ 28); [exact (proj1 H)|reflexivity]|]. cbv beta. intros u p ->. fold a.
    eapply dp_bind; [eapply dp_weak; [apply dp_head|intros [e t|k] W; [now apply Entry_stops|contradiction W]|intros x p Hp; exact Hp]|]. cbv beta. intros h' p [H' ->]. destruct (negb _) eqn:E'.
    { apply dp_fail. eapply Entry_no_esds; [exact H'|]. intros N. rewrite N in E'. discriminate. }
    apply negb_false_iff in E'. pose proof (fourcc_is f _ _ _ H' E') as B. change ELEMENTARY_STREAM_DESCRIPTION with (id4 "esds") in B.
    apply (dp_bind _ _ _ _ (fun _ p => exists n len c, full_fine f (a + hl h') 0 /\ descriptor_at f (a + hl h' + 4) 3 n len /\ less m (sz h') (hl h' + 4 + n) c /\
      descs_out m f (N.min len c) (a + hl h' + 4 + n) (Goes p))).
    - unfold d_esds. apply (dp_version _ _ (fun _ => h0 <# d_desc_head ;; let '(tag, n, dl) := h0 in
        if negb (tag =? 3) then dfail (EDescriptorNotFound 3) (txt "Missing elementary stream descriptor") else
        c <# plainly (lift (content_len m (hd_size h'))) ;; c4 <# plainly (lift (sub64 m c 4)) ;; max_len <# plainly (lift (sub64 m c4 n)) ;; d_es_desc F m mp4a_default (N.min dl max_len))).
      { intros e t W. eapply Entry_versions; [exact B|exact W]. }
      intros Fv. eapply dp_bind; [eapply dp_plainly; [apply rp_desc_head|]|].
      { intros e [-> Nd]. cbn [from_text]. eapply Entry_none; [exact B|exact Fv|exact Nd]. }
      intros [[tag n] dl] p [-> D]. destruct (negb (tag =? 3)) eqn:T; [apply dp_fail; eapply Entry_tag; [exact B|exact Fv|exact D|lia]|].
      apply negb_false_iff, N.eqb_eq in T. subst tag.
      assert (Sh : lacking m (sz h') (hl h' + 4 + n) -> entry_out m f q (sz h) a (Stops (Breaks POverflow))) by (intros L; eapply Entry_short; eassumption).
      destruct (desc_small f Lf _ _ _ _ D) as [L1 L2]. assert (W2 : 2 ^ 28 < 2 ^ 62) by reflexivity. pose proof (head_len_le h') as Lh. assert (W64 : 32 <= 2 ^ 64) by discriminate.
      eapply dp_bind; [apply dp_content; intros L; apply Sh; now apply lacking_more, lacking_more|]. intros c1 p (C1 & ->).
      eapply dp_bind; [apply dp_sub; intros L; apply Sh, lacking_more; eapply less_lacking; eassumption|]. intros c2 p (C2 & ->). pose proof (less_more _ _ _ _ _ _ C1 C2 ltac:(lia)) as C3.
      eapply dp_bind; [apply dp_sub; intros L; apply Sh; eapply less_lacking; eassumption|]. intros c p (C4 & ->). pose proof (less_more _ _ _ _ _ _ C3 C4 ltac:(lia)) as C.
      eapply dp_weak; [apply des_desc; [lia|exact (proj1 D)]| |].
      + intros x W. eapply Entry_descs; [exact B|exact Fv|exact D|exact C|exact W].
      + cbv beta. intros x p W. exists n, dl, c. split; [exact Fv|]. split; [exact D|]. split; [exact C|exact W].
    - intros r p (n & len & c & Fv & D & L & W).
      eapply dp_bind; [eapply dp_weak; [apply (dended q h p H)|intros x X; eapply Entry_ends; eassumption|intros x p' X; exact X]|].
      { pose proof (descs_near _ _ _ W (proj1 D)) as Lp. assert (W2 : 2 ^ 28 < 2 ^ 62) by reflexivity. assert (W3 : 2 ^ 63 = 2 * 2 ^ 62) by reflexivity. lia. }
      cbv beta. intros v p' X. apply dp_ret. eapply Entry_ends; eassumption.
  Qed.
  Lemma dmvhd : forall q h, head_at q h -> dpost (fun x => header_out m f q (hl h) (sz h) (Stops x)) (d_mvhd m (hd_size h)) (q + hl h) (fun _ p => header_out m f q (hl h) (sz h) (Goes p)).
  Proof.
    intros q h H. unfold d_mvhd. eapply dp_bind; [apply dbounds, H|]. intros b p [-> ->].
    eapply dp_bind; [eapply dp_weak; [apply (dp_full (q + hl h) 1)|intros [e t|k] W; [eapply Header_stops, Header_version, W|contradiction W]|intros a p Hp; exact Hp]|]. cbv beta. intros vf p (-> & -> & Lp). cbn [fst snd].
    assert (NN : forall scale dur e, header_at f (q + hl h) scale dur e -> dpost (fun x => header_out m f q (hl h) (sz h) (Stops x)) (plainly (lift (mvhd_nanos m scale dur))) e
      (fun _ p => p = e /\ exists scale dur, header_at f (q + hl h) scale dur e /\ ~ beyond m (dur * 10 ^ 9) /\ scale <> 0)).
    { intros scale dur e Ha. unfold dpost, plainly, mvhd_nanos, mul64. assert (W : two64 = 2 ^ 64) by reflexivity. rewrite W. change 1000000000 with (10 ^ 9).
      assert (G : forall x, ~ beyond m (dur * 10 ^ 9) -> match lift (div64 x scale) f e with Ok (a, p') => p' = e /\ (exists scale0 dur0, header_at f (q + hl h) scale0 dur0 e /\ ~ beyond m (dur0 * 10 ^ 9) /\ scale0 <> 0)
        | Err y => header_out m f q (hl h) (sz h) (Stops (Fails y (from_text y))) | Panic k => header_out m f q (hl h) (sz h) (Stops (Breaks k)) | Fuel => worn end).
      { intros x NB. unfold div64. destruct (scale =? 0) eqn:Z; cbn [lift].
        - assert (scale = 0) by lia. subst scale. eapply Header_zero; [exact Ha|exact NB].
        - split; [reflexivity|]. exists scale, dur. split; [exact Ha|]. split; [exact NB|lia]. }
      assert (G' : forall x, ~ beyond m (dur * 10 ^ 9) -> match match lift (div64 x scale) f e with Ok a => DOk a | Err y => DErr y (from_text y) | Panic k => DPanic k | Fuel => DFuel end with
        DOk (a, p') => p' = e /\ (exists scale0 dur0, header_at f (q + hl h) scale0 dur0 e /\ ~ beyond m (dur0 * 10 ^ 9) /\ scale0 <> 0)
        | DErr y t => header_out m f q (hl h) (sz h) (Stops (Fails y t)) | DPanic k => header_out m f q (hl h) (sz h) (Stops (Breaks k)) | DFuel => worn end).
      { intros x NB. specialize (G x NB). destruct (lift (div64 x scale) f e) as [[a p']|y|k|]; exact G. }
      destruct (dur * 10 ^ 9 <? 2 ^ 64) eqn:X; cbn [rbind]; [apply G'; intros [_ Y]; lia|]. destruct m; cbn [rbind lift]; [eapply Header_much; [exact Ha|split; [reflexivity|lia]]|apply G'; intros [Y _]; discriminate Y]. }
    apply (dp_bind _ _ _ _ (fun _ p => exists scale dur, header_at f (q + hl h) scale dur p /\ ~ beyond m (dur * 10 ^ 9) /\ scale <> 0)).
    - destruct (N.lt_ge_cases 1 (field f (q + hl h) 1)) as [Y|Y].
      { assert (X : forall A (a b : D A), match field f (q + hl h) 1 with 0 => a | 1 => b | v => dfail (EUnknownVersion v) (txt "Error unknown movie header (mvhd) version " ++ dec v) end
          = dfail (EUnknownVersion (field f (q + hl h) 1)) (txt "Error unknown movie header (mvhd) version " ++ dec (field f (q + hl h) 1))) by (intros A a b; destruct (field f (q + hl h) 1) as [|[?|?|]]; try reflexivity; lia).
        rewrite X. apply dp_fail, Header_stops, Header_version. now apply Other_version. }
      assert (Fv : full_fine f (q + hl h) 1) by (split; lia).
      destruct (N.eq_dec (field f (q + hl h) 1) 0) as [Ev|Nv].
      + assert (C : blen f < q + hl h + 20 -> header_out m f q (hl h) (sz h) (Stops (Fails EIoEof (from_text EIoEof)))) by (intros L; apply Header_stops, Header_cut; [exact Fv|now rewrite Ev]).
        rewrite Ev. eapply dp_bind; [apply (dp_near _ 8); [exact Lp|reflexivity]|]. cbv beta. intros u p ->.
        eapply dp_bind; [eapply dp_plainly; [apply rp_u32|intros e [-> L]; apply C; lia]|]. cbv beta. intros sc p (-> & -> & La).
        eapply dp_bind; [eapply dp_plainly; [apply rp_u32|intros e [-> L]; apply C; lia]|]. cbv beta. intros du p (-> & -> & Lb).
        replace (q + hl h + 4 + 8) with (q + hl h + 12) in * by lia. replace (q + hl h + 12 + 4) with (q + hl h + 16) in * by lia. replace (q + hl h + 16 + 4) with (q + hl h + 20) in * by lia.
        eapply dp_then; [apply NN; split; [exact Lb|left; auto]|]. cbv beta. intros a p (-> & X). exact X.
      + assert (Ev : field f (q + hl h) 1 = 1) by lia.
        assert (C : blen f < q + hl h + 32 -> header_out m f q (hl h) (sz h) (Stops (Fails EIoEof (from_text EIoEof)))) by (intros L; apply Header_stops, Header_cut; [exact Fv|now rewrite Ev]).
        rewrite Ev. eapply dp_bind; [apply (dp_near _ 16); [exact Lp|reflexivity]|]. cbv beta. intros u p ->.
        eapply dp_bind; [eapply dp_plainly; [apply rp_u32|intros e [-> L]; apply C; lia]|]. cbv beta. intros sc p (-> & -> & La).
        eapply dp_bind; [eapply dp_plainly; [apply rp_u64|intros e [-> L]; apply C; lia]|]. cbv beta. intros du p (-> & -> & Lb).
        replace (q + hl h + 4 + 16) with (q + hl h + 20) in * by lia. replace (q + hl h + 20 + 4) with (q + hl h + 24) in * by lia. replace (q + hl h + 24 + 8) with (q + hl h + 32) in * by lia.
        eapply dp_then; [apply NN; split; [exact Lb|right; auto]|]. cbv beta. intros a p (-> & X). exact X.
    - intros d p (scale & dur & Ha & L & Z).
      eapply dp_bind; [eapply dp_weak; [apply (dended q h p H)|intros x X; eapply Header_ends; eassumption|intros x p' X; exact X]|].
      { pose proof (proj1 Ha) as Le. assert (W3 : 2 ^ 63 = 2 * 2 ^ 62) by reflexivity. lia. }
      cbv beta. intros v p' X. apply dp_ret. eapply Header_ends; eassumption.
  Qed.

  (** * Containers *)

  Lemma names_cons : forall l n d w, names ((l, n, d) :: w) = names w ++ level_name l.
  Proof. intros l n d w. unfold names. cbn [rev]. rewrite flat_map_app. cbn [flat_map fst]. now rewrite app_nil_r. Qed.
  (** The reader arrives after at least [c] steps. *)
  Definition arr (c : nat) (w : around) (q : N) : Prop := exists k, (c <= k)%nat /\ arrives m f k w q.
  Lemma arr_busy : forall w q, arr F w q -> worn.
  Proof. intros w q (k & L & A) _. destruct (arrives_before _ _ _ _ _ A F L) as (w' & q' & A'). left. eauto. Qed.
  Lemma arr_less : forall c c' w q, arr c w q -> (c' <= c)%nat -> arr c' w q.
  Proof. intros c c' w q (k & L & A) L'. exists k. split; [lia|exact A]. Qed.
  (** The head [h] is read at [q]. *)
  Definition spot (c : nat) (l : level) (n d : N) (w : around) (q : N) (h : head) : Prop := arr c ((l, n, d) :: w) q /\ d < n /\ head_at q h.
  (** The box of the size [z] is read; it has not been added to the sum yet. *)
  Definition done (c : nat) (l : level) (n : N) (w : around) (d z p : N) : Prop :=
    (exists q id hd ns, arr c ((l, n, d) :: w) q /\ d < n /\ box_at f q id hd z /\ leaf_out m f l q id hd z ns (Goes p)) \/
    (exists l' n' d', arr c ((l', n', d') :: (l, n, d + z) :: w) p /\ n' <= d' /\ l' <> Top /\ l' <> InMoov).
  Lemma done_over : forall c l n w d z p ns, done c l n w d z p -> beyond m (d + z) -> told ns (Breaks POverflow).
  Proof.
    intros c l n w d z p ns [(q & id & hd & ns' & (k & _ & A) & K & B & W)|(l' & n' & d' & (k & _ & A) & K & N1 & N2)] L; eexists.
    - eapply Stop_sum; eassumption.
    - eapply Stop_out; eassumption.
  Qed.
  Lemma done_next : forall c l n w d z p d', done c l n w d z p -> kept m (d + z) d' -> arr (Datatypes.S c) ((l, n, d') :: w) p.
  Proof.
    intros c l n w d z p d2 [(q & id & hd & ns' & (k & Lk & A) & K & B & W)|(l' & n' & d' & (k & Lk & A) & K & N1 & N2)] L; exists (Datatypes.S k); (split; [lia|]).
    - eapply Arrive_past; eassumption.
    - eapply Arrive_out; eassumption.
  Qed.
  Lemma leaf_done : forall c l n d w q h ns p, spot c l n d w q h -> leaf_out m f l q (hd_fourcc h) (hl h) (sz h) ns (Goes p) -> done c l n w d (sz h) p.
  Proof. intros c l n d w q h ns p (A & K & H) W. left. exists q, (hd_fourcc h), (hl h), ns. auto. Qed.
  Lemma leaf_told : forall c l n d w q h ns x, spot c l n d w q h -> leaf_out m f l q (hd_fourcc h) (hl h) (sz h) ns (Stops x) -> told (names ((l, n, d) :: w) ++ ns) x.
  Proof. intros c l n d w q h ns x ((k & _ & A) & K & H) W. apply told_here. eapply Stop_leaf; eassumption. Qed.
  Lemma enter_told : forall c l n d w q h l' s x, spot c l n d w q h -> opens l (hd_fourcc h) = Some (l', s) -> l' <> InItem -> enter_out m f l' s q (hl h) (sz h) (Stops x) -> told (names ((l, n, d) :: w) ++ level_name l') x.
  Proof. intros c l n d w q h l' s x ((k & _ & A) & K & H) O N W. apply told_here. eapply Stop_enter; eassumption. Qed.

  Definition body_fine {S} (l : level) (body : head -> S -> D S) : Prop :=
    forall c h s q n d w, spot c l n d w q h -> dpost (told (names ((l, n, d) :: w))) (body h s) (q + hl h) (fun _ p => done c l n w d (sz h) p).
  Lemma dcontainer : forall {S} c l n d w q h l' s (body : head -> S -> D S), spot c l n d w q h -> opens l (hd_fourcc h) = Some (l', s) -> l' <> InItem ->
    version_said l' = None \/ full_fine f (q + hl h) 0 -> body_fine l' body ->
    forall s0, dpost (told (names ((l, n, d) :: w) ++ level_name l')) (d_loop F m (content_len m (hd_size h)) body s s0) (q + hl h + s)
      (fun _ p => exists n' d', arr c ((l', n', d') :: (l, n, d + sz h) :: w) p /\ n' <= d').
  Proof.
    intros S c l n d w q h l' s body P O NI V B s0. rewrite content_is. destruct (sub64_is m (sz h) (hl h)) as [(n' & C & ->)|[C ->]].
    - pose proof P as ((k & Lk & A) & K & H).
      assert (A' : arr c ((l', n', s) :: (l, n, d + sz h) :: w) (q + hl h + s)).
      { exists (Datatypes.S k). split; [lia|]. eapply Arrive_into; [exact A|exact K|exact H|exact O|exact NI|apply Enter_fine; [exact V|exact (less_enough _ _ _ _ C)]|exact C]. }
      assert (Nm : forall d', names ((l, n, d) :: w) ++ level_name l' = names ((l', n', d') :: (l, n, d + sz h) :: w)) by (intros d'; now rewrite !names_cons).
      eapply dp_then; [apply (dloop n' body _ (fun i _ d' p => arr (c + i) ((l', n', d') :: (l, n, d + sz h) :: w) p) (fun i _ d' z p => done (c + i) l' n' ((l, n, d + sz h) :: w) d' z p)) with (c := 0%nat)|].
      + intros _ d' p A1. eapply arr_busy, arr_less; [exact A1|lia].
      + intros i _ d' p e t (k1 & _ & A1) K1 W. rewrite (Nm d'). apply told_here. eapply Stop_head; eassumption.
      + intros i a d' p h' A1 K1 H1. rewrite (Nm d'). apply B. split; [exact A1|]. split; assumption.
      + intros i _ d' z p D L. eapply done_over; eassumption.
      + intros i _ d' z p d2 D L. rewrite Nat.add_succ_r. eapply done_next; eassumption.
      + reflexivity.
      + rewrite Nat.add_0_r. exact A'.
      + cbv beta. intros _ p (i & d' & L & A1). exists n', d'. split; [eapply arr_less; [exact A1|lia]|exact L].
    - destruct F as [|fuel] eqn:EF; cbn [d_loop]; [unfold dpost, dfuel, worn; rewrite EF; cbn; lia|]. unfold dpost, dbind, plainly, lift.
      eapply enter_told; [exact P|exact O|exact NI|now apply Enter_short].
  Qed.
  Lemma dinside : forall {S} c l n d w q h l' s (body : head -> S -> D S), spot c l n d w q h -> opens l (hd_fourcc h) = Some (l', s) -> l' <> InItem -> l' <> Top -> l' <> InMoov ->
    version_said l' = None \/ full_fine f (q + hl h) 0 -> body_fine l' body ->
    forall s0, dpost (told (names ((l, n, d) :: w) ++ level_name l')) (d_loop F m (content_len m (hd_size h)) body s s0) (q + hl h + s) (fun _ p => done c l n w d (sz h) p).
  Proof.
    intros S c l n d w q h l' s body P O NI NT NM V B s0. eapply dp_then; [now apply (dcontainer c)|]. cbv beta. intros _ p (n' & d' & A & L). right. exists l', n', d'. auto.
  Qed.
  Lemma dbox0 : forall {S} c l n d w q h l' (body : head -> S -> D S), spot c l n d w q h -> opens l (hd_fourcc h) = Some (l', 0) -> l' <> InItem -> l' <> Top -> l' <> InMoov ->
    version_said l' = None -> body_fine l' body ->
    forall s0, dpost (told (names ((l, n, d) :: w) ++ level_name l')) (d_loop F m (content_len m (hd_size h)) body 0 s0) (q + hl h) (fun _ p => done c l n w d (sz h) p).
  Proof. intros S c l n d w q h l' body P O W1 W2 W3 V B s0. rewrite <- (N.add_0_r (q + hl h)). apply dinside; auto. Qed.
  (** Children called [id] are parsed, the others skipped. *)
  Lemma dchild : forall {A B} (id : fourcc) c l n d w h (x : D A) (g : A -> B) (r : B) q, spot c l n d w q h ->
    (fourcc_eqb (hd_fourcc h) id = false -> opens l (hd_fourcc h) = None /\ own l (hd_fourcc h) = []) ->
    (fourcc_eqb (hd_fourcc h) id = true -> dpost (told (names ((l, n, d) :: w) ++ [id])) x (q + hl h) (fun _ p => done c l n w d (sz h) p)) ->
    dpost (told (names ((l, n, d) :: w))) (if fourcc_eqb (hd_fourcc h) id then (y <# parsing id x ;; dret (g y)) else (plainly (skip_atom m h) ;#; dret r)) (q + hl h) (fun _ p => done c l n w d (sz h) p).
  Proof.
    intros A B id c l n d w h x g r q P O X. destruct (fourcc_eqb (hd_fourcc h) id).
    - eapply dp_bind; [apply dp_parsing, X; reflexivity|]. intros a p Hb. apply dp_ret. exact Hb.
    - destruct (O eq_refl) as (O1 & O2). eapply dp_bind; [eapply dp_weak; [apply (dskip q h), P| |intros a p Hp; exact Hp]|].
      + intros y Y. rewrite <- (app_nil_r (names _)). eapply leaf_told; [exact P|]. now apply Leaf_other.
      + cbv beta. intros a p Hp. apply dp_ret. eapply leaf_done; [exact P|]. now apply Leaf_other.
  Qed.

  Lemma dilst_body : body_fine InIlst (d_ilst_body F m).
  Proof.
    intros c h s q n d w P. unfold d_ilst_body. rewrite <- (app_nil_r (names _)). destruct (fourcc_eqb _ FREE) eqn:EF.
    { assert (O : opens InIlst (hd_fourcc h) = None) by (unfold opens; change (id4 "free") with FREE; now rewrite EF).
      eapply dp_bind; [eapply dp_weak; [apply (dskip q h), P| |intros a p Hp; exact Hp]|].
      - intros y Y. eapply leaf_told; [exact P|]. apply Leaf_other; [exact O|reflexivity|exact Y].
      - cbv beta. intros a p Hp. apply dp_ret. eapply leaf_done; [exact P|]. apply Leaf_other; [exact O|reflexivity|exact Hp]. }
    assert (NF : hd_fourcc h <> id4 "free") by (intros N; rewrite N in EF; discriminate).
    eapply dp_bind; [apply dp_content; intros L; eapply leaf_told; [exact P|now apply Leaf_short]|]. cbv beta. intros n' p (C & ->).
    eapply dp_bind; [eapply dp_weak; [apply ditem_whole| |intros a p Hp; exact Hp]|].
    - intros v d' p Hp _. right. destruct P as ((k & _ & A) & K & H). exists k, n, d, w, q, (hd_fourcc h), (hl h), (sz h), n', v, d', p. auto 10.
    - intros y Y. eapply leaf_told; [exact P|]. eapply Leaf_item; [reflexivity|exact NF|exact C|exact Y].
    - cbv beta. intros a p Hp. apply dp_ret. eapply leaf_done; [exact P|]. eapply Leaf_item; [reflexivity|exact NF|exact C|exact Hp].
  Qed.
  Lemma dmeta_body : body_fine InMeta (d_meta_body F m).
  Proof.
    intros c h s q n d w P. unfold d_meta_body. apply dchild; [exact P| |].
    - intros N. split; [|reflexivity]. unfold opens. change (id4 "ilst") with ITEM_LIST. now rewrite N.
    - intros Y. unfold d_ilst. apply (dbox0 c InMeta n d w q h InIlst); try discriminate; [exact P| |reflexivity|apply dilst_body]. unfold opens. change (id4 "ilst") with ITEM_LIST. now rewrite Y.
  Qed.
  Lemma dudta_body : body_fine InUdta (d_udta_body F m).
  Proof.
    intros c h s q n d w P. unfold d_udta_body. apply dchild; [exact P| |].
    - intros N. split; [|reflexivity]. unfold opens. change (id4 "meta") with METADATA. now rewrite N.
    - intros Y. assert (O : opens InUdta (hd_fourcc h) = Some (InMeta, 4)) by (unfold opens; change (id4 "meta") with METADATA; now rewrite Y).
      unfold d_meta. apply (dp_version _ _ (fun _ => d_loop F m (content_len m (hd_size h)) (d_meta_body F m) 4 None)).
      + intros e t W. eapply (enter_told _ _ _ _ _ _ _ InMeta); [exact P|exact O|discriminate|]. eapply Enter_version; [reflexivity|exact W].
      + intros Fv. apply (dinside c InUdta n d w q h InMeta 4); try discriminate; [exact P|exact O|now right|apply dmeta_body].
  Qed.
  Lemma dstsd_body : body_fine InStsd (d_stsd_body F m).
  Proof.
    intros c h s q n d w P. unfold d_stsd_body. apply dchild; [exact P| |].
    - intros N. split; [reflexivity|]. unfold own. change (id4 "mp4a") with MP4_AUDIO. now rewrite N.
    - intros Y. pose proof Y as Y'. apply fourcc_eqb_eq in Y'. eapply dp_weak; [apply (dmp4a q h), P| |].
      + intros x X. eapply leaf_told; [exact P|]. now apply Leaf_entry.
      + cbv beta. intros a p X. eapply leaf_done; [exact P|]. now apply Leaf_entry.
  Qed.
  Lemma dstbl_body : body_fine InStbl (d_stbl_body F m).
  Proof.
    intros c h s q n d w P. unfold d_stbl_body. apply dchild; [exact P| |].
    - intros N. split; [|reflexivity]. unfold opens. change (id4 "stsd") with SAMPLE_TABLE_SAMPLE_DESCRIPTION. now rewrite N.
    - intros Y. assert (O : opens InStbl (hd_fourcc h) = Some (InStsd, 8)) by (unfold opens; change (id4 "stsd") with SAMPLE_TABLE_SAMPLE_DESCRIPTION; now rewrite Y).
      unfold d_stsd. apply (dp_version _ _ (fun _ => plainly (seek_cur 4) ;#; d_loop F m (content_len m (hd_size h)) (d_stsd_body F m) 8 None)).
      + intros e t W. eapply (enter_told _ _ _ _ _ _ _ InStsd); [exact P|exact O|discriminate|]. eapply Enter_version; [reflexivity|exact W].
      + intros Fv. eapply dp_bind; [apply (dp_near _ 4); [exact (proj1 Fv)|reflexivity]|]. cbv beta. intros u p2 ->. replace (q + hl h + 4 + 4) with (q + hl h + 8) by lia.
        apply (dinside c InStbl n d w q h InStsd 8); try discriminate; [exact P|exact O|now right|apply dstsd_body].
  Qed.
  Lemma dminf_body : body_fine InMinf (d_minf_body F m).
  Proof.
    intros c h s q n d w P. unfold d_minf_body. apply dchild; [exact P| |].
    - intros N. split; [|reflexivity]. unfold opens. change (id4 "stbl") with SAMPLE_TABLE. now rewrite N.
    - intros Y. unfold d_stbl. apply (dbox0 c InMinf n d w q h InStbl); try discriminate; [exact P| |reflexivity|apply dstbl_body]. unfold opens. change (id4 "stbl") with SAMPLE_TABLE. now rewrite Y.
  Qed.
  Lemma dmdia_body : body_fine InMdia (d_mdia_body F m).
  Proof.
    intros c h s q n d w P. unfold d_mdia_body. apply dchild; [exact P| |].
    - intros N. split; [|reflexivity]. unfold opens. change (id4 "minf") with MEDIA_INFORMATION. now rewrite N.
    - intros Y. unfold d_minf. apply (dbox0 c InMdia n d w q h InMinf); try discriminate; [exact P| |reflexivity|apply dminf_body]. unfold opens. change (id4 "minf") with MEDIA_INFORMATION. now rewrite Y.
  Qed.
  Lemma dtrak_body : body_fine InTrak (d_trak_body F m).
  Proof.
    intros c h s q n d w P. unfold d_trak_body. apply dchild; [exact P| |].
    - intros N. split; [|reflexivity]. unfold opens. change (id4 "mdia") with MEDIA. now rewrite N.
    - intros Y. unfold d_mdia. apply (dbox0 c InTrak n d w q h InMdia); try discriminate; [exact P| |reflexivity|apply dmdia_body]. unfold opens. change (id4 "mdia") with MEDIA. now rewrite Y.
  Qed.
  Lemma dmoov_body : body_fine InMoov (d_moov_body F m).
  Proof.
    intros c h s q n d w P. unfold d_moov_body. cbv zeta.
    destruct (fourcc_eqb (hd_fourcc h) MOVIE_HEADER) eqn:E1.
    { pose proof E1 as Y'. apply fourcc_eqb_eq in Y'. eapply dp_bind; [|intros a p Hb; apply dp_ret; exact Hb]. apply dp_parsing. eapply dp_weak; [apply (dmvhd q h), P| |].
      - intros x X. eapply leaf_told; [exact P|]. now apply Leaf_header.
      - cbv beta. intros a p X. eapply leaf_done; [exact P|]. now apply Leaf_header. }
    destruct (fourcc_eqb (hd_fourcc h) TRACK) eqn:E2.
    { eapply dp_bind; [|intros a p Hb; apply dp_ret; exact Hb]. apply dp_parsing. unfold d_trak.
      apply (dbox0 c InMoov n d w q h InTrak); try discriminate; [exact P| |reflexivity|apply dtrak_body]. unfold opens. change (id4 "trak") with TRACK. now rewrite E2. }
    apply dchild; [exact P| |].
    - intros N. unfold opens, own. change (id4 "trak") with TRACK. change (id4 "udta") with USER_DATA. change (id4 "mvhd") with MOVIE_HEADER. rewrite E1, E2, N. auto.
    - intros Y. unfold d_udta. apply (dbox0 c InMoov n d w q h InUdta); try discriminate; [exact P| |reflexivity|apply dudta_body]. unfold opens. change (id4 "trak") with TRACK. change (id4 "udta") with USER_DATA. now rewrite E2, Y.
  Qed.

  (** * The file *)

  Definition through {A} (_ : A) (_ : N) : Prop := arrives_at_end m f.
  Lemma dfind_moov : forall len fuel c d p, (c + fuel = F)%nat -> arr c [(Top, len, d)] p -> dpost (told []) (d_find_moov fuel m F len d) p through.
  Proof.
    intros len. induction fuel as [|fuel IH]; intros c d p CF A; cbn [d_find_moov]; [eapply arr_busy, arr_less; [exact A|lia]|].
    destruct (len <=? d) eqn:E; [apply dp_fail, told_here; destruct A as (k & _ & A); eapply Stop_end; [exact A|lia]|].
    change (@nil fourcc) with (names [(Top, len, d)]).
    eapply dp_bind; [eapply dp_weak; [apply dp_head| |intros a q H; exact H]|].
    { intros [e t|k'] W; [|contradiction W]. apply told_here. destruct A as (k & _ & A). eapply Stop_head; [exact A|lia|exact W]. }
    cbv beta. intros h p1 [H ->]. assert (P : spot c Top len d [] p h) by (split; [exact A|split; [lia|exact H]]).
    destruct (fourcc_eqb _ MOVIE) eqn:EM.
    { apply dp_parsing. unfold d_moov. rewrite <- (N.add_0_r (p + hl h)).
      eapply dp_then; [apply (dcontainer c Top len d [] p h InMoov 0); [exact P| |discriminate|now left|apply dmoov_body]|].
      - unfold opens. change (id4 "moov") with MOVIE. now rewrite EM.
      - cbv beta. intros a p' (n' & d' & (k & _ & A') & L). exists k, n', d', [(Top, len, d + sz h)], p'. auto. }
    assert (O : opens Top (hd_fourcc h) = None) by (unfold opens; change (id4 "moov") with MOVIE; now rewrite EM).
    eapply dp_bind; [eapply dp_weak; [apply (dskip p h H)| |intros a p' Hp; exact Hp]|].
    { intros y Y. rewrite <- (app_nil_r (names _)). eapply leaf_told; [exact P|]. apply Leaf_other; [exact O|reflexivity|exact Y]. }
    cbv beta. intros u p2 Y.
    assert (Dn : done c Top len [] d (sz h) p2) by (eapply leaf_done; [exact P|]; apply Leaf_other; [exact O|reflexivity|exact Y]).
    eapply dp_bind; [apply dp_add; intros L; eapply done_over; eassumption|]. cbv beta. intros x p3 (L & ->). apply (IH (Datatypes.S c)); [lia|]. eapply done_next; eassumption.
  Qed.
  Lemma dread : dpost (told []) (d_read_from F m) 0 through.
  Proof.
    unfold d_read_from. assert (W : two63 = 2 ^ 63) by reflexivity. assert (W3 : 2 ^ 63 = 2 * 2 ^ 62) by reflexivity.
    assert (OW : forall x, type_out m f (Stops x) -> told [] x) by (intros x X; apply told_here; now apply Stop_type).
    eapply dp_bind; [eapply dp_weak; [apply dtype|exact OW|intros a q H; exact H]|]. cbv beta. intros s q T. pose proof (type_in q T) as Lq.
    eapply dp_bind; [apply dremaining, Lq|]. cbv beta. intros n p2 [-> ->].
    eapply dp_bind; [apply (dfind_moov _ _ 0%nat); [reflexivity|]; exists 0%nat; split; [lia|now apply Arrive_first]|intros r p3 Hr; apply dp_ret; exact Hr].
  Qed.
End Outcome.
