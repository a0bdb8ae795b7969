(** What becomes of UTF-16 texts that are not empty: the announced length is one byte per code unit, the
    text takes two (data.rs 136 and 395-399).  Nothing read behind such a text can make up for it. *)

From Coq Require Import List NArith ZArith Bool Lia Arith String.
From Coq Require Import ZifyBool ZifyNat ZifyN.
From Verif Require Import Base BaseLemmas Utf UtfLemmas Types Stream Parse Find Write TagSpec TagLemmas FileSpec ParseLemmas ReadProofs
  ReadFacts WriteBytes NewMeans DumpProofs TagProofs FailProofs.
Import ListNotations.
Local Open Scope list_scope.

(** ** Loops *)

Lemma loop_prefix : forall {S} m body ks fuel limit parsed (s s' r : S) f p q,
  forallb fits ks = true -> steps body ks s s' -> small f -> sits f p (render_all ks) ->
  parsed + blen (render_all ks) <= limit -> limit < 2 ^ 64 ->
  atom_loop fuel m (Ok limit) body parsed s f p = Ok (r, q) ->
  exists fuel', atom_loop fuel' m (Ok limit) body (parsed + blen (render_all ks)) s' f (p + blen (render_all ks)) = Ok (r, q).
Proof.
  intros S m body ks. induction ks as [|k ks IH]; intros fuel limit parsed s s' r f p q F St Sm H L L64 E.
  - cbn [steps] in St. subst s'. change (render_all []) with (@nil byte). rewrite blen_nil, !N.add_0_r. exists fuel. exact E.
  - destruct fuel as [|fuel]; [discriminate|]. cbn [forallb] in F. apply andb_true_iff in F. destruct F as [Fk Fr].
    destruct St as (s1 & Hk & St). rewrite render_all_cons in H. apply sits_app in H. destruct H as [Sk Sr].
    rewrite blen_render_all_cons in *. pose proof (asize_pos k) as A8.
    cbn [atom_loop] in E. unfold bind at 1, lift at 1 in E. rewrite (proj2 (N.ltb_lt parsed limit)) in E by lia.
    pose proof Sk as Sk'. rewrite render_eq in Sk'. apply sits_app in Sk'. destruct Sk' as [Sh _].
    unfold bind at 1 in E. rewrite (parses_head k Fk f p Sm Sh), blen_header in E. fold (hlen k) in E.
    unfold bind at 1 in E. rewrite (Hk f p Sm Sk) in E. unfold bind at 1, lift at 1 in E. cbn [hd_size head_of sz_len size_of] in E.
    rewrite add64_ok in E by (unfold two64; lia). fold (asize k) in Sr.
    rewrite !N.add_assoc. eapply IH with (p := p + asize k) (parsed := parsed + asize k); try eassumption. lia.
Qed.

(** One more round. *)
Lemma loop_round : forall {S} m (body : head -> S -> R S) fuel limit parsed s r f p q hd h,
  small f -> sits f p hd -> parses parse_head hd h -> parsed < limit ->
  atom_loop fuel m (Ok limit) body parsed s f p = Ok (r, q) ->
  exists fuel' s' p' parsed', body h s f (p + blen hd) = Ok (s', p') /\ add64 m parsed (sz_len (hd_size h)) = Ok parsed' /\
    atom_loop fuel' m (Ok limit) body parsed' s' f p' = Ok (r, q).
Proof.
  intros S m body fuel limit parsed s r f p q hd h Sm H P L E. destruct fuel as [|fuel]; [discriminate|].
  cbn [atom_loop] in E. unfold bind at 1, lift at 1 in E. rewrite (proj2 (N.ltb_lt parsed limit)) in E by lia.
  unfold bind at 1 in E. rewrite (P f p Sm H) in E. unfold bind at 1 in E.
  destruct (body h s f (p + blen hd)) as [[s' p']| | |] eqn:B; try discriminate.
  unfold bind at 1, lift at 1 in E. destruct (add64 m parsed _) as [parsed'| | |] eqn:A; try discriminate.
  exists fuel, s', p', parsed'. auto.
Qed.

(** The last atom of a container: nothing behind it is looked at. *)
Lemma loop_last : forall {S} m (body : head -> S -> R S) ks fuel limit parsed s s' r f p q hd h,
  forallb fits ks = true -> steps body ks s s' -> small f -> sits f p (render_all ks ++ hd) -> parses parse_head hd h ->
  0 < sz_len (hd_size h) -> parsed + blen (render_all ks) + sz_len (hd_size h) = limit -> limit < 2 ^ 64 ->
  atom_loop fuel m (Ok limit) body parsed s f p = Ok (r, q) ->
  body h s' f (p + blen (render_all ks) + blen hd) = Ok (r, q).
Proof.
  intros S m body ks fuel limit parsed s s' r f p q hd h F St Sm H P Pos L L64 E. apply sits_app in H. destruct H as [Hk Hh].
  assert (L1 : parsed + blen (render_all ks) <= limit) by lia. assert (L2 : parsed + blen (render_all ks) < limit) by lia.
  destruct (loop_prefix m body ks fuel limit parsed s s' r f p q F St Sm Hk L1 L64 E) as (fu & E1).
  destruct (loop_round m body fu limit _ s' r f _ q hd h Sm Hh P L2 E1) as (fu2 & t & p2 & pd & B & A & E2).
  rewrite add64_ok in A by (unfold two64; lia). injection A as <-. rewrite B. f_equal.
  destruct fu2 as [|fu2]; [discriminate|]. cbn [atom_loop] in E2. unfold bind at 1, lift at 1 in E2.
  rewrite (proj2 (N.ltb_ge _ _)) in E2 by lia. unfold ret in E2. injection E2 as -> ->. reflexivity.
Qed.

(** Heads. *)
Lemma short_head : forall id n, 8 <= n < 2 ^ 32 -> parses parse_head (be 4 n ++ fc_bytes id) (Head (Size false n) id).
Proof.
  intros id n L. unfold parse_head. eapply parses_bind; [apply parses_read_u32; apply L|].
  eapply parses_bind_r; [apply parses_read_exact; rewrite blen_fc; reflexivity|]. cbv beta zeta.
  rewrite (proj2 (N.eqb_neq _ _)) by lia. rewrite (proj2 (N.ltb_ge _ _)) by lia. rewrite fourcc_of_bytes_fc. apply parses_ret.
Qed.
Definition head_bytes (s : size) (id : fourcc) : bytes :=
  if sz_ext s then be 4 1 ++ fc_bytes id ++ be 8 (sz_len s) else be 4 (sz_len s) ++ fc_bytes id.
Lemma new_head : forall id n, n < 2 ^ 62 -> parses parse_head (head_bytes (size_from n) id) (Head (size_from n) id).
Proof.
  intros id n L. unfold head_bytes, size_from. cbn [sz_ext sz_len]. destruct (4294967295 <? n + 8) eqn:E.
  - unfold parse_head. eapply parses_bind; [apply parses_read_u32; reflexivity|].
    eapply parses_bind; [apply parses_read_exact; rewrite blen_fc; reflexivity|].
    cbv beta zeta. change (1 =? 1) with true. cbv iota. rewrite fourcc_of_bytes_fc.
    eapply parses_bind_r; [apply parses_read_u64; change (2 ^ 64) with 18446744073709551616; change (2 ^ 62) with 4611686018427387904 in L; lia|]. apply parses_ret.
  - apply short_head. lia.
Qed.
Lemma new_content : forall m n, content_len m (size_from n) = Ok n.
Proof.
  intros m n. unfold content_len, size_from. cbn [sz_ext sz_len]. destruct (4294967295 <? n + 8); rewrite sub64_ok by lia; f_equal; lia.
Qed.
Lemma new_positive : forall n, 8 <= sz_len (size_from n).
Proof. intros n. unfold size_from. cbn [sz_len]. destruct (_ <? _); lia. Qed.

(** ** One item *)

(** Everything in front of the text itself. *)
Definition stub (s : ustring) : bytes := be 4 (16 + blen (enc16 s)) ++ fc_bytes DATA ++ n2b 0 :: be 3 2 ++ zeros 4.
Definition ident_kids (i : data_ident) : list atom :=
  match i with IFourcc _ => [] | IFreeform m n => [text_atom (id4 "mean") m; text_atom (id4 "name") n] end.
Definition ident_fourcc (i : data_ident) : fourcc := match i with IFourcc f => f | IFreeform _ _ => FREEFORM end.

Lemma units_half : forall n l, (List.length l <= n)%nat -> (2 * List.length (bytes_units l) <= List.length l)%nat.
Proof.
  induction n as [|n IH]; intros [|a [|b l]] L; cbn [List.length bytes_units] in *; try lia.
  specialize (IH l ltac:(lia)). lia.
Qed.
Lemma utf16_short : forall n s f p r q, read_utf16 n f p = Ok (s, q) -> blen (enc16 r) = n -> r <> [] -> s <> r.
Proof.
  intros n s f p r q E N Ne ->. unfold read_utf16, bind in E. destruct (read_u8_vec n f p) as [[d p']| | |] eqn:R; try discriminate.
  destruct (dec16 (bytes_units d)) as [u|] eqn:D; [|discriminate]. unfold ret in E. injection E as -> _.
  apply dec16_correct in D; [|apply (bytes_units_wf (List.length d)); lia]. destruct D as [_ D].
  assert (Ld : blen d = n).
  { unfold read_u8_vec in R. destruct (_ <=? _); [discriminate|].
    unfold read_exact in R. destruct (n =? 0) eqn:Z.
    - apply N.eqb_eq in Z. injection R as <- _. rewrite Z. reflexivity.
    - destruct (p + n <=? blen f) eqn:G; [|discriminate]. injection R as <- _. unfold blen. rewrite slice_length by lia. lia. }
  pose proof (units_half _ d (Nat.le_refl _)) as U. rewrite <- D in U. unfold blen in *.
  destruct r as [|c r]; [contradiction|]. rewrite enc16_cons, app_length in *.
  assert (1 <= List.length (enc16_char c))%nat. { unfold enc16_char. destruct (_ <? _); cbn [List.length]; lia. }
  lia.
Qed.

Lemma item_stub : forall m s a f p a' q, small f -> sits f p (n2b 0 :: be 3 2 ++ zeros 4) -> s <> [] ->
  item_body m (Head (Size false (16 + blen (enc16 s))) DATA) a f p = Ok (a', q) ->
  exists x, ia_data a' = ia_data a ++ [x] /\ x <> DUtf16 s.
Proof.
  intros m s a f p a' q Sm H Ne E. unfold item_body in E. cbn [hd_fourcc hd_size] in E.
  change (fourcc_eqb DATA DATA) with true in E. cbv iota in E.
  change (n2b 0 :: be 3 2 ++ zeros 4) with ((n2b 0 :: be 3 2) ++ zeros 4) in H. apply sits_app in H. destruct H as [H1 H2].
  erewrite bind_ok in E by (apply (parses_full_head (n2b 0) (be 3 2) (be_length _ _) f p Sm H1)). cbn [fst snd] in E.
  change (negb (b2n (n2b 0) =? 0)) with false in E. cbv iota in E.
  erewrite bind_ok in E by (apply (parses_seek (zeros 4) 4 eq_refl f _ Sm H2)).
  set (n := blen (enc16 s)) in *.
  assert (C : content_len m (Size false (16 + n)) = Ok (8 + n)).
  { unfold content_len. cbn [sz_ext sz_len]. rewrite sub64_ok by lia. f_equal. lia. }
  unfold bind at 1, lift at 1 in E. rewrite C in E. unfold bind at 1, lift at 1 in E. rewrite sub64_ok in E by lia.
  replace (8 + n - 8) with n in E by lia. change (unbe (be 3 2)) with 2 in E. cbn [data_parse] in E.
  apply bind_inv in E. destruct E as (d & p1 & D & E). apply bind_inv in D. destruct D as (t & p2 & D & X).
  unfold ret in E, X. injection X as <- _. injection E as <- _. exists (DUtf16 t). split; [reflexivity|].
  intros X. injection X as X. exact (utf16_short n t f _ s _ D eq_refl Ne X).
Qed.

Lemma item_grows : forall m h a f p a' q, item_body m h a f p = Ok (a', q) -> exists e, ia_data a' = ia_data a ++ e.
Proof.
  intros m h a f p a' q E. unfold item_body in E.
  destruct (fourcc_eqb (hd_fourcc h) DATA); [|destruct (fourcc_eqb (hd_fourcc h) MEAN); [|destruct (fourcc_eqb (hd_fourcc h) NAME)]].
  - apply bind_inv in E. destruct E as (vf & p1 & _ & E). destruct (negb _); [discriminate|].
    do 4 (apply bind_inv in E; destruct E as (? & ? & _ & E)). unfold ret in E. injection E as <- _. eexists. reflexivity.
  - apply bind_inv in E. destruct E as (vf & p1 & _ & E). destruct (negb _); [discriminate|].
    do 3 (apply bind_inv in E; destruct E as (? & ? & _ & E)). unfold ret in E. injection E as <- _. exists []. symmetry. apply app_nil_r.
  - apply bind_inv in E. destruct E as (vf & p1 & _ & E). destruct (negb _); [discriminate|].
    do 3 (apply bind_inv in E; destruct E as (? & ? & _ & E)). unfold ret in E. injection E as <- _. exists []. symmetry. apply app_nil_r.
  - apply bind_inv in E. destruct E as (? & ? & _ & E). unfold ret in E. injection E as <- _. exists []. symmetry. apply app_nil_r.
Qed.

Lemma kids_steps : forall m i ds, good_ident i -> Forall good_data ds ->
  exists a, ia_data a = ds /\ steps (item_body m) (ident_kids i ++ map data_atom ds) (ItemAcc [] None None) a.
Proof.
  intros m i ds G F.
  assert (K : forall b, ia_data b = [] -> exists a, ia_data a = ds /\ steps (item_body m) (map data_atom ds) b a).
  { intros b B. eexists. split; [|apply (item_steps m _ ds [] [])].
    - cbn [ia_data]. rewrite B. reflexivity.
    - rewrite named_data. apply datas_mean, F.
    - rewrite named_no_data by discriminate. constructor.
    - rewrite named_no_data by discriminate. constructor. }
  destruct i as [c|me na]; cbn [ident_kids app].
  - apply K. reflexivity.
  - destruct G as [Gm Gn]. destruct (K (ItemAcc [] (Some me) (Some na)) eq_refl) as (a & A & S). exists a. split; [exact A|].
    cbn [steps]. eexists. split; [apply (item_mean m _ me); [reflexivity|apply text_atom_means, Gm]|].
    eexists. split; [apply (item_name_atom m _ na); [reflexivity|apply text_atom_means, Gn]|]. exact S.
Qed.

(** An item with such a text behind the values [ds] is not read as it was. *)
Lemma item_wrong : forall fuel m i ds s id len f p a q, good_ident i -> Forall good_data ds ->
  forallb fits (ident_kids i ++ map data_atom ds) = true -> small f ->
  sits f p (render_all (ident_kids i ++ map data_atom ds) ++ stub s) -> s <> [] -> 16 + blen (enc16 s) < 2 ^ 32 ->
  blen (render_all (ident_kids i ++ map data_atom ds)) < len -> len < 2 ^ 64 ->
  atom_data_parse fuel m id len f p = Ok (a, q) -> exists x e, ad_data a = ds ++ x :: e /\ x <> DUtf16 s.
Proof.
  intros fuel m i ds s id len f p a q G F Fi Sm H Ne L32 L L64 E.
  unfold atom_data_parse in E. apply bind_inv in E. destruct E as (c & p1 & E & R).
  destruct (kids_steps m i ds G F) as (b & B & St). apply sits_app in H. destruct H as [H1 H2].
  destruct (loop_prefix m (item_body m) _ fuel len 0 _ b c f p p1 Fi St Sm H1 (N.lt_le_incl _ _ L) L64 E) as (fu & E1).
  unfold stub in H2. rewrite app_assoc in H2. apply sits_app in H2. destruct H2 as [H2 H3].
  destruct (loop_round m (item_body m) fu len _ b c f _ p1 _ _ Sm H2 (short_head DATA (16 + blen (enc16 s)) ltac:(lia)) L E1) as (fu2 & b2 & p2 & pd & Bd & _ & E2).
  destruct (item_stub m s b f _ b2 p2 Sm H3 Ne Bd) as (x & X & Nx).
  assert (Z : exists e, ia_data c = (ds ++ [x]) ++ e).
  { eapply (atom_loop_inv (fun t => exists e, ia_data t = (ds ++ [x]) ++ e)) with (s := b2); [| |exact E2].
    - intros h t f0 q0 t' q1 (e & He) Hb. apply item_grows in Hb. destruct Hb as (e' & He'). exists (e ++ e'). rewrite He', He, <- app_assoc. reflexivity.
    - exists []. rewrite X, B, app_nil_r. reflexivity. }
  destruct Z as (e & Z). exists x, e. split; [|exact Nx].
  rewrite Z in R. rewrite <- app_assoc in R. cbn [app] in R. destruct (ds ++ x :: e) as [|y l] eqn:Y; [destruct ds; discriminate|].
  unfold ret in R. injection R as <- _. cbn [ad_data]. reflexivity.
Qed.

(** ** The list *)

Definition grown (l l' : list atom_data) : Prop :=
  (exists e, idents l' = idents l ++ e) /\ forall j, exists e, values l' j = values l j ++ e.
Lemma grown_refl : forall l, grown l l.
Proof. intros l. split; [exists []; symmetry; apply app_nil_r|]. intros j. exists []. symmetry. apply app_nil_r. Qed.
Lemma grown_trans : forall a b c, grown a b -> grown b c -> grown a c.
Proof.
  intros a b c [[e E] V] [[e' E'] V']. split.
  - exists (e ++ e'). rewrite E', E, <- app_assoc. reflexivity.
  - intros j. destruct (V j) as [x X], (V' j) as [y Y]. exists (x ++ y). rewrite Y, X, <- app_assoc. reflexivity.
Qed.
Lemma grown_add : forall l a, grown l (ilst_add l a).
Proof.
  intros l a. split.
  - rewrite ilst_add_ids. unfold insert_ident. destruct (in_dec _ _ _); [exists []; symmetry; apply app_nil_r|eexists; reflexivity].
  - intros j. rewrite ilst_add_values. eexists. reflexivity.
Qed.
Lemma ilst_grows : forall fuel m h l f p l' q, ilst_body fuel m h l f p = Ok (l', q) -> grown l l'.
Proof.
  intros fuel m h l f p l' q E. unfold ilst_body in E. destruct (fourcc_eqb _ _).
  - apply bind_inv in E. destruct E as (? & ? & _ & E). unfold ret in E. injection E as <- _. apply grown_refl.
  - do 2 (apply bind_inv in E; destruct E as (? & ? & _ & E)). unfold ret in E. injection E as <- _. apply grown_add.
Qed.

(** Once an item has been read wrongly, nothing that follows gives the right list. *)
Lemma never_right : forall pre it post ds x e s a l, unique_idents (pre ++ it :: post) -> ad_data a = ds ++ x :: e -> x <> DUtf16 s ->
  (exists r, ad_data it = ds ++ DUtf16 s :: r) -> Forall (fun o => ad_data o <> []) pre -> grown (ilst_add pre a) l -> l <> pre ++ it :: post.
Proof.
  intros pre it post ds x e s a l U A X (r & R) Np [[ei Gi] Gv] ->.
  assert (Vp : forall o, In o pre -> values (pre ++ it :: post) (ad_ident o) = values pre (ad_ident o)).
  { intros o. clear. induction pre as [|y pre IH]; [contradiction|]. intros H. cbn [app values].
    destruct (ident_dec (ad_ident y) (ad_ident o)) as [E|E]; [reflexivity|]. destruct H as [->|H]; [contradiction|]. apply IH, H. }
  rewrite ilst_add_ids in Gi. unfold insert_ident in Gi. unfold idents in Gi at 1. rewrite map_app in Gi. cbn [map] in Gi. fold (idents pre) (idents post) in Gi.
  destruct (in_dec ident_dec (ad_ident a) (idents pre)) as [I|I].
  - unfold idents in I. apply in_map_iff in I. destruct I as (o & Eo & Io).
    destruct (Gv (ad_ident a)) as (ev & Ev). rewrite ilst_add_values in Ev.
    destruct (ident_dec (ad_ident a) (ad_ident a)) as [_|N]; [|congruence]. rewrite <- Eo, Vp, A in Ev by exact Io. apply (f_equal (@List.length _)) in Ev.
    rewrite !app_length in Ev. cbn [List.length] in Ev. lia.
  - rewrite <- app_assoc in Gi. apply app_inv_head in Gi. cbn [app] in Gi. injection Gi as Ei _.
    destruct (Gv (ad_ident a)) as (ev & Ev). rewrite ilst_add_values in Ev. destruct (ident_dec (ad_ident a) (ad_ident a)) as [_|N]; [|congruence].
    assert (V0 : values pre (ad_ident a) = []) by (apply values_absent; exact I). rewrite V0 in Ev. cbn [app] in Ev.
    assert (V1 : values (pre ++ it :: post) (ad_ident a) = ad_data it).
    { clear -I Ei. induction pre as [|y pre IH].
      - cbn [app values]. rewrite Ei. destruct (ident_dec _ _); congruence.
      - cbn [app values]. destruct (ident_dec (ad_ident y) (ad_ident a)) as [E|E]; [exfalso; apply I; left; exact E|].
        apply IH. intros J. apply I. right. exact J. }
    rewrite V1, R, A, <- app_assoc in Ev. apply app_inv_head in Ev. cbn [app] in Ev. injection Ev as Ev _. congruence.
Qed.

Definition lossy (items : list atom_data) : Prop := exists a s, In a items /\ In (DUtf16 s) (ad_data a) /\ s <> [].

Lemma exact_or : forall ds, Forall exact_data ds \/ exists es s r, ds = es ++ DUtf16 s :: r /\ Forall exact_data es /\ s <> [].
Proof.
  induction ds as [|d ds IH]; [left; constructor|].
  assert (D : exact_data d \/ exists s, d = DUtf16 s /\ s <> []).
  { destruct d as [| |t| | | |]; try (left; reflexivity). destruct t as [|c t]; [left; reflexivity|]. right. exists (c :: t). split; [reflexivity|discriminate]. }
  destruct D as [D|(s & -> & N)].
  - destruct IH as [IH|(es & s & r & -> & F & N)]; [left; constructor; assumption|]. right. exists (d :: es), s, r. split; [reflexivity|]. split; [constructor; assumption|exact N].
  - right. exists [], s, ds. split; [reflexivity|]. split; [constructor|exact N].
Qed.
Lemma lossy_or : forall items, exact_items items \/ exists pre it post ds s r, items = pre ++ it :: post /\ exact_items pre /\
  ad_data it = ds ++ DUtf16 s :: r /\ Forall exact_data ds /\ s <> [].
Proof.
  induction items as [|a items IH]; [left; constructor|]. destruct (exact_or (ad_data a)) as [E|(ds & s & r & E & F & N)].
  - destruct IH as [IH|(pre & it & post & ds & s & r & -> & P & A & F & N)]; [left; constructor; assumption|]. right.
    exists (a :: pre), it, post, ds, s, r. split; [reflexivity|]. split; [constructor; assumption|]. auto.
  - right. exists [], a, items, ds, s, r. split; [reflexivity|]. split; [constructor|]. auto.
Qed.
Lemma exact_not_lossy : forall items, exact_items items <-> ~ lossy items.
Proof.
  intros items. split.
  - intros E (a & s & Ia & Id & N). unfold exact_items in E. rewrite Forall_forall in E. specialize (E a Ia). rewrite Forall_forall in E. specialize (E _ Id).
    unfold exact_data in E. cbn [units] in E. destruct s as [|c s]; [contradiction|]. rewrite enc16_cons, blen_app in E.
    unfold enc16_char in E. destruct (c <? 65536); rewrite ?blen_cons in E; lia.
  - intros N. destruct (lossy_or items) as [E|(pre & it & post & ds & s & r & -> & _ & A & _ & Ne)]; [exact E|]. exfalso. apply N.
    exists it, s. split; [apply in_or_app; right; left; reflexivity|]. split; [rewrite A; apply in_or_app; right; left; reflexivity|exact Ne].
Qed.

(** What is written, up to the text. *)
Definition front (it : atom_data) (ds : list data) (s : ustring) : bytes :=
  render_all (ident_kids (ad_ident it) ++ map data_atom ds) ++ stub s.
Definition list_front (pre : list atom_data) (it : atom_data) (ds : list data) (s : ustring) : bytes :=
  render_all (map item_atom pre) ++ (be 4 (ad_len it) ++ fc_bytes (ident_fourcc (ad_ident it))) ++ front it ds s.

Lemma raw_front : forall it ds s r, ad_data it = ds ++ DUtf16 s :: r -> Forall exact_data ds ->
  exists g, raw_item it = (be 4 (ad_len it) ++ fc_bytes (ident_fourcc (ad_ident it))) ++ front it ds s ++ g.
Proof.
  intros it ds s r A F. exists (payload (DUtf16 s) ++ flat_map raw_data r). unfold raw_item, front. rewrite A, flat_map_app. cbn [flat_map].
  rewrite render_all_app. unfold render_all at 2. rewrite (data_atoms_bytes ds F).
  assert (S : raw_data (DUtf16 s) = stub s ++ payload (DUtf16 s)).
  { unfold raw_data, stub. cbn [data_len type_code]. rewrite <- !app_assoc. cbn [app]. rewrite <- !app_assoc. reflexivity. }
  rewrite S. destruct (ad_ident it) as [c|me na]; cbn [ident_fourcc ident_kids].
  - change (render_all []) with (@nil byte). cbn [app]. rewrite <- !app_assoc. reflexivity.
  - rewrite !render_all_cons, !text_atom_bytes. change (render_all []) with (@nil byte). rewrite app_nil_r, <- !app_assoc. reflexivity.
Qed.
Lemma raw_items_exact : forall pre, exact_items pre -> flat_map raw_item pre = render_all (map item_atom pre).
Proof.
  intros pre E. induction E as [|a l Ea E IH]; [reflexivity|]. cbn [flat_map map]. rewrite render_all_cons, IH, item_atom_bytes by exact Ea. reflexivity.
Qed.
Lemma raw_list_front : forall pre it post ds s r, exact_items pre -> ad_data it = ds ++ DUtf16 s :: r -> Forall exact_data ds ->
  exists g, flat_map raw_item (pre ++ it :: post) = list_front pre it ds s ++ g.
Proof.
  intros pre it post ds s r P A F. destruct (raw_front it ds s r A F) as (g & G). exists (g ++ flat_map raw_item post).
  rewrite flat_map_app. cbn [flat_map]. rewrite (raw_items_exact pre P), G. unfold list_front. rewrite <- !app_assoc. reflexivity.
Qed.

Lemma nsum_app : forall a b, nsum (a ++ b) = nsum a + nsum b.
Proof. intros a b. unfold nsum. induction a as [|x a IH]; cbn; [reflexivity|]. cbn in IH. lia. Qed.
Lemma front_size : forall it ds s r, ad_data it = ds ++ DUtf16 s :: r -> Forall exact_data ds ->
  8 + blen (render_all (ident_kids (ad_ident it) ++ map data_atom ds)) + 16 + blen (enc16 s) <= ad_len it.
Proof.
  intros it ds s r A F. unfold ad_len. rewrite A, map_app, render_all_app, blen_app. unfold render_all at 2. rewrite (data_atoms_bytes ds F), raw_datas_len.
  rewrite (nsum_0 units ds F), nsum_app. cbn [map].
  assert (C : forall x l, nsum (x :: l) = x + nsum l) by reflexivity. rewrite !C. cbn [data_len].
  destruct (ad_ident it) as [c|me na]; cbn [ident_kids].
  - change (render_all []) with (@nil byte). rewrite blen_nil. lia.
  - rewrite !render_all_cons, !text_atom_bytes. change (render_all []) with (@nil byte). rewrite app_nil_r, blen_app, !raw_text_len. lia.
Qed.

Lemma front_fits : forall it ds s r, ad_data it = ds ++ DUtf16 s :: r -> Forall exact_data ds -> ad_len it < 2 ^ 32 ->
  forallb fits (ident_kids (ad_ident it) ++ map data_atom ds) = true.
Proof.
  intros it ds s r A F L. pose proof (front_size it ds s r A F) as Z. apply forallb_forall. intros k I.
  assert (X : a_ext k = false /\ a_kids k = []).
  { clear -I. apply in_app_iff in I. destruct I as [I|I].
    - destruct (ad_ident it); cbn in I; repeat (destruct I as [<-|I]; [split; reflexivity|]); contradiction.
    - apply in_map_iff in I. destruct I as (d & <- & _). split; reflexivity. }
  apply kid_in_size in I. apply fits_eq. rewrite asize_eq in I. destruct X as [X1 X2]. rewrite X1, X2. unfold hlen in I. rewrite X1 in I. split; [lia|reflexivity].
Qed.

Lemma ident_not_free : forall i, storable_ident i -> fourcc_eqb (ident_fourcc i) FREE = false.
Proof.
  intros [c|me na] S; [|reflexivity]. cbn [ident_fourcc]. rewrite fourcc_eqb_dec. cbn in S. change FREE with (id4 "free"). destruct (fourcc_dec _ _); [contradiction|reflexivity].
Qed.
Lemma storable_good : forall i, storable_ident i -> good_ident i.
Proof. intros [c|me na] S; [exact I|exact S]. Qed.


Theorem ilst_wrong : forall fuel m pre it post ds s r sz f p l q,
  let items := pre ++ it :: post in
  describable items -> Forall (fun a => ad_len a < 2 ^ 32) items -> exact_items pre -> ad_data it = ds ++ DUtf16 s :: r -> Forall exact_data ds -> s <> [] ->
  small f -> sits f p (list_front pre it ds s) -> blen f < N.of_nat fuel -> nsum (map ad_len items) < 2 ^ 62 -> content_len m sz = Ok (nsum (map ad_len items)) ->
  ilst_parse fuel m sz f p = Ok (l, q) -> l <> items.
Proof.
  intros fuel m pre it post ds s r sz f p l q items [U D] L32 P A Fd Ne Sm H Fu Lim C E. unfold ilst_parse in E. rewrite C in E.
  unfold items in *. rewrite Forall_app in D, L32. destruct D as [Dp Di], L32 as [Lp Li]. inversion Di as [|? ? (Si & _ & Gi) _]; subst. inversion Li as [|? ? Lit _]; subst.
  pose proof (front_size it ds s r A Fd) as FS.
  assert (Lsum : nsum (map ad_len (pre ++ it :: post)) = nsum (map ad_len pre) + ad_len it + nsum (map ad_len post)).
  { rewrite map_app, nsum_app. cbn [map]. unfold nsum at 2. cbn [fold_right]. fold (nsum (map ad_len post)). lia. }
  assert (Up : unique_idents pre).
  { clear -U. unfold unique_idents, idents in *. rewrite map_app in U. revert U. induction (map ad_ident pre) as [|x t IH]; intros U; [constructor|].
    inversion U as [|? ? N U']; subst. constructor; [|apply IH, U']. intros I. apply N, in_or_app. left. exact I. }
  assert (Pf : forallb fits (map item_atom pre) = true) by (apply (items_fit_len pre P); exact Lp).
  assert (Lpre : blen (render_all (map item_atom pre)) = nsum (map ad_len pre)) by (apply ilst_content, P).
  unfold list_front in H. apply sits_app in H. destruct H as [H1 H2]. apply sits_app in H2. destruct H2 as [H2 H3].
  assert (F2 : Forall2 item_means (filter not_free (map item_atom pre)) pre).
  { clear -Dp. induction Dp as [|a l (S & N & G) F IH]; [constructor|]. cbn [map filter]. unfold not_free at 1. rewrite item_atom_id by exact S. cbn [negb].
    constructor; [|exact IH]. apply item_atom_means; auto using storable_good. }
  assert (St : steps (ilst_body fuel m) (map item_atom pre) [] pre).
  { rewrite <- (merged_det pre _ _ (merged_fold pre) (merged_self pre Up)) at 2. apply ilst_steps; [exact Pf| |exact F2].
    intros k I. unfold fuel_for. apply kid_in_size in I. rewrite asize_eq in I. apply sits_len in H1. lia. }
  assert (L1 : 0 + blen (render_all (map item_atom pre)) <= nsum (map ad_len (pre ++ it :: post))) by lia.
  assert (L64 : nsum (map ad_len (pre ++ it :: post)) < 2 ^ 64) by (change (2 ^ 64) with (4 * 2 ^ 62); lia).
  destruct (loop_prefix m (ilst_body fuel m) _ fuel _ 0 [] pre l f p q Pf St Sm H1 L1 L64 E) as (fu & E1).
  assert (L2 : 0 + blen (render_all (map item_atom pre)) < nsum (map ad_len (pre ++ it :: post))) by lia.
  assert (L8 : 8 <= ad_len it < 2 ^ 32) by lia.
  destruct (loop_round m (ilst_body fuel m) fu _ _ pre l f _ q _ _ Sm H2 (short_head (ident_fourcc (ad_ident it)) (ad_len it) L8) L2 E1)
    as (fu2 & l2 & p2 & pd & B & _ & E2).
  unfold ilst_body in B. cbn [hd_fourcc hd_size] in B. rewrite (ident_not_free _ Si) in B.
  assert (Cl : content_len m (Size false (ad_len it)) = Ok (ad_len it - 8)).
  { unfold content_len. cbn [sz_ext sz_len]. apply sub64_ok. lia. }
  unfold bind at 1, lift at 1 in B. rewrite Cl in B. apply bind_inv in B. destruct B as (a & p3 & Pa & B). unfold ret in B. injection B as <- _.
  unfold front in H3. rewrite A in Gi. rewrite Forall_app in Gi. destruct Gi as [Gd _].
  assert (L16 : 16 + blen (enc16 s) < 2 ^ 32) by lia.
  assert (La : blen (render_all (ident_kids (ad_ident it) ++ map data_atom ds)) < ad_len it - 8) by lia.
  assert (Lb : ad_len it - 8 < 2 ^ 64) by (change (2 ^ 64) with (2 ^ 32 * 2 ^ 32); change (2 ^ 32) with 4294967296 in *; lia).
  destruct (item_wrong fuel m (ad_ident it) ds s _ _ f _ a p3 (storable_good _ Si) Gd (front_fits it ds s r A Fd Lit) Sm H3 Ne L16 La Lb Pa)
    as (x & e & X & Nx).
  apply never_right with (ds := ds) (x := x) (e := e) (s := s) (a := a); auto.
  - exists r. exact A.
  - apply Forall_impl with (2 := Dp). intros o (_ & N & _). exact N.
  - eapply (atom_loop_inv (grown (ilst_add pre a))) with (3 := E2); [|apply grown_refl].
    intros h t f0 q0 t' q1 Gt Hb. apply ilst_grows in Hb. eapply grown_trans; eassumption.
Qed.

(** ** The containers *)

(** [ilst] as the last atom of the metadata, and so on up to the movie: what is read is a list [l] read there. *)
Lemma meta_last : forall fuel m v ks n k f p o q, version0 v -> forallb fits ks = true ->
  steps (meta_body fuel m) ks None None -> small f -> n < 2 ^ 62 -> k < 2 ^ 62 ->
  k = 4 + blen (render_all ks) + sz_len (size_from n) ->
  sits f p (v ++ render_all ks ++ head_bytes (size_from n) ITEM_LIST) ->
  meta_parse fuel m (size_from k) f p = Ok (o, q) ->
  exists l, o = Some l /\ ilst_parse fuel m (size_from n) f (p + 4 + blen (render_all ks) + blen (head_bytes (size_from n) ITEM_LIST)) = Ok (l, q).
Proof.
  intros fuel m v ks n k f p o q V F St Sm N1 N2 K H E. unfold meta_parse in E. apply sits_app in H. destruct H as [H1 H2].
  destruct (parses_version0 v V) as (fl & _ & Pv). erewrite bind_ok in E by (apply (Pv f p Sm H1)). cbn [fst] in E.
  change (negb (0 =? 0)) with false in E. cbv iota in E. rewrite new_content in E. rewrite (blen_version0 v V) in H2, E.
  assert (K64 : k < 2 ^ 64) by (change (2 ^ 64) with (4 * 2 ^ 62); lia). pose proof (new_positive n) as Pos.
  pose proof (loop_last m (meta_body fuel m) ks fuel k 4 None None o f (p + 4) q _ _ F St Sm H2 (new_head ITEM_LIST n N1)) as X.
  cbn [hd_size] in X. specialize (X ltac:(lia) (eq_sym K) K64 E).
  unfold meta_body in X. cbn [hd_fourcc hd_size] in X. change (fourcc_eqb ITEM_LIST ITEM_LIST) with true in X. cbv iota in X.
  apply bind_inv in X. destruct X as (l & p1 & X & Y). unfold ret in Y. injection Y as <- <-. exists l. split; [reflexivity|exact X].
Qed.
Lemma udta_last : forall fuel m ks n k f p o q s0, forallb fits ks = true ->
  steps (udta_body fuel m) ks None s0 -> small f -> n < 2 ^ 62 -> k < 2 ^ 62 ->
  k = blen (render_all ks) + sz_len (size_from n) ->
  sits f p (render_all ks ++ head_bytes (size_from n) METADATA) ->
  udta_parse fuel m (size_from k) f p = Ok (o, q) ->
  exists x, o = Some x /\ meta_parse fuel m (size_from n) f (p + blen (render_all ks) + blen (head_bytes (size_from n) METADATA)) = Ok (x, q).
Proof.
  intros fuel m ks n k f p o q s0 F St Sm N1 N2 K H E. unfold udta_parse in E. rewrite new_content in E.
  assert (K64 : k < 2 ^ 64) by (change (2 ^ 64) with (4 * 2 ^ 62); lia). pose proof (new_positive n) as Pos.
  pose proof (loop_last m (udta_body fuel m) ks fuel k 0 None s0 o f p q _ _ F St Sm H (new_head METADATA n N1)) as X.
  cbn [hd_size] in X. specialize (X ltac:(lia) ltac:(lia) K64 E).
  unfold udta_body in X. cbn [hd_fourcc hd_size] in X. change (fourcc_eqb METADATA METADATA) with true in X. cbv iota in X.
  apply bind_inv in X. destruct X as (l & p1 & X & Y). unfold ret in Y. injection Y as <- <-. exists l. split; [reflexivity|exact X].
Qed.
Lemma moov_last : forall fuel m ks n k f p o q s0, forallb fits ks = true ->
  steps (moov_body fuel m) ks (Moov None [] None) s0 -> small f -> n < 2 ^ 62 -> k < 2 ^ 62 ->
  k = blen (render_all ks) + sz_len (size_from n) ->
  sits f p (render_all ks ++ head_bytes (size_from n) USER_DATA) ->
  moov_parse fuel m (size_from k) f p = Ok (o, q) ->
  exists x, mv_udta o = Some x /\ udta_parse fuel m (size_from n) f (p + blen (render_all ks) + blen (head_bytes (size_from n) USER_DATA)) = Ok (x, q).
Proof.
  intros fuel m ks n k f p o q s0 F St Sm N1 N2 K H E. unfold moov_parse in E. rewrite new_content in E.
  assert (K64 : k < 2 ^ 64) by (change (2 ^ 64) with (4 * 2 ^ 62); lia). pose proof (new_positive n) as Pos.
  pose proof (loop_last m (moov_body fuel m) ks fuel k 0 (Moov None [] None) s0 o f p q _ _ F St Sm H (new_head USER_DATA n N1)) as X.
  cbn [hd_size] in X. specialize (X ltac:(lia) ltac:(lia) K64 E).
  unfold moov_body in X. cbn [hd_fourcc hd_size] in X. change (fourcc_eqb USER_DATA MOVIE_HEADER) with false in X.
  change (fourcc_eqb USER_DATA TRACK) with false in X. change (fourcc_eqb USER_DATA USER_DATA) with true in X. cbv iota in X.
  apply bind_inv in X. destruct X as (l & p1 & X & Y). unfold ret in Y. injection Y as <- <-. exists l. split; [reflexivity|exact X].
Qed.

(** ** Dumped tags *)

Definition all_head (items : list atom_data) : bytes :=
  let n := nsum (map ad_len items) in
  let k := 4 + asize new_hdlr + sz_len (size_from n) in
  let u := sz_len (size_from k) in
  let v := sz_len (size_from u) in
  head_bytes (size_from v) MOVIE ++ head_bytes (size_from u) USER_DATA ++ head_bytes (size_from k) METADATA ++ zeros 4 ++ render new_hdlr ++
  head_bytes (size_from n) ITEM_LIST.

Lemma dump_raw : forall m items, Forall (fun a => ad_len a < 2 ^ 32) items ->
  writes (dump_tag_to m items) (render (Atom false (id4 "ftyp") (enc8 dump_ftyp) []) ++ all_head items ++ flat_map raw_item items).
Proof.
  intros m items L. unfold dump_tag_to. apply writes_bind; [split; vm_compute; reflexivity|].
  assert (K : hdlr_len_or_zero (Some meta_hdlr) + sz_len (ilst_size items) + 4 = 4 + asize new_hdlr + sz_len (size_from (nsum (map ad_len items)))).
  { cbn [hdlr_len_or_zero]. rewrite hdlr_size_eq. unfold ilst_size. lia. }
  assert (I : writes (ilst_write m items) (head_bytes (size_from (nsum (map ad_len items))) ITEM_LIST ++ flat_map raw_item items)).
  { unfold ilst_write. apply writes_bind; [apply writes_head|]. apply writes_omap. intros a Ia. rewrite Forall_forall in L. apply ad_write_raw, L, Ia. }
  unfold moov_write, udta_write, moov_size, udta_size, all_head. cbv zeta.
  assert (M : meta_size (NewMeta (Some meta_hdlr) items) = size_from (4 + asize new_hdlr + sz_len (size_from (nsum (map ad_len items))))).
  { unfold meta_size. cbn [nm_hdlr nm_ilst]. f_equal. exact K. }
  rewrite M, <- !app_assoc. apply writes_bind; [apply writes_head|]. apply writes_bind; [apply writes_head|].
  unfold meta_write. rewrite M. apply writes_bind; [apply writes_head|]. cbn [nm_hdlr nm_ilst].
  apply writes_bind; [eapply writes_eq; [apply writes_bind; apply writes_emit|reflexivity]|].
  apply writes_bind; [apply hdlr_write_bytes|exact I].
Qed.

Lemma size_from_le : forall n, n + 8 <= sz_len (size_from n) <= n + 16.
Proof. intros n. unfold size_from. cbn [sz_len]. destruct (_ <? _); lia. Qed.
Lemma head_bytes_len : forall n id, n + blen (head_bytes (size_from n) id) = sz_len (size_from n).
Proof.
  intros n id. unfold head_bytes, size_from. cbn [sz_ext sz_len]. destruct (_ <? _); rewrite !blen_app, !blen_be, blen_fc; lia.
Qed.

Theorem dump_never : forall m m' items fuel t, describable items -> Forall (fun a => ad_len a < 2 ^ 32) items -> lossy items ->
  blen (out (dump_tag_to m items)) < 2 ^ 62 -> blen (out (dump_tag_to m items)) < N.of_nat fuel ->
  read_tag fuel m' (out (dump_tag_to m items)) = Ok t -> tg_atoms t <> items.
Proof.
  intros m m' items fuel t D L Lo S Fu R. destruct (dump_raw m items L) as [O _]. rewrite O in *. clear O.
  destruct (lossy_or items) as [X|(pre & it & post & ds & s & r & E & P & A & F & Ne)]; [exfalso; apply (proj1 (exact_not_lossy items) X Lo)|].
  destruct (raw_list_front pre it post ds s r P A F) as (g & G). rewrite <- E in G.
  set (ft := Atom false (id4 "ftyp") (enc8 dump_ftyp) []) in *. set (f := render ft ++ all_head items ++ flat_map raw_item items) in *.
  assert (Sz : asize ft + blen (all_head items) + nsum (map ad_len items) <= blen f).
  { unfold f, asize. rewrite !blen_app. assert (nsum (map ad_len items) <= blen (flat_map raw_item items)); [|lia].
    clear. induction items as [|a l IH]; [vm_compute; discriminate|]. cbn [map flat_map]. unfold nsum in *. cbn [fold_right]. rewrite blen_app, raw_item_len. lia. }
  unfold all_head in Sz. cbv zeta in Sz. set (n := nsum (map ad_len items)) in *. set (k := 4 + asize new_hdlr + sz_len (size_from n)) in *.
  set (u := sz_len (size_from k)) in *. set (v := sz_len (size_from u)) in *. rewrite !blen_app in Sz.
  pose proof (head_bytes_len n ITEM_LIST) as B1. pose proof (head_bytes_len k METADATA) as B2. pose proof (head_bytes_len u USER_DATA) as B3.
  pose proof (head_bytes_len v MOVIE) as B4. fold u in B2. fold v in B3. change (blen (zeros 4)) with 4 in Sz. fold (asize new_hdlr) in Sz.
  assert (Ln : n < 2 ^ 62 /\ k < 2 ^ 62 /\ u < 2 ^ 62 /\ v < 2 ^ 62) by (unfold k in *; lia). destruct Ln as (Ln & Lk & Lu & Lv).
  unfold read_tag in R. destruct (read_tag_from fuel m' f 0) as [[t' q]| | |] eqn:Rf; try discriminate. injection R as ->.
  unfold read_tag_from in Rf.
  erewrite bind_ok in Rf. 2:{ apply (ftyp_parses m' ft dump_ftyp); [vm_compute; reflexivity|reflexivity|reflexivity|vm_compute; reflexivity|exact S|exists [], (all_head items ++ flat_map raw_item items); split; reflexivity]. }
  rewrite N.add_0_l in Rf. fold (asize ft) in Rf.
  erewrite bind_ok in Rf by (apply remaining_ok; [lia|exact S]).
  apply bind_inv in Rf. destruct Rf as (mv & p1 & M & Rt). unfold ret in Rt. injection Rt as <- _. cbn [tg_atoms].
  assert (Sits : sits f (asize ft) (head_bytes (size_from v) MOVIE ++ head_bytes (size_from u) USER_DATA ++ head_bytes (size_from k) METADATA ++
    (zeros 4 ++ render_all [new_hdlr] ++ head_bytes (size_from n) ITEM_LIST) ++ list_front pre it ds s)).
  { exists (render ft), g. split; [|reflexivity]. unfold f. rewrite G. unfold all_head. cbv zeta. fold n. fold k. fold u. fold v.
    change (render_all [new_hdlr]) with (render new_hdlr ++ []). rewrite app_nil_r, <- !app_assoc. reflexivity. }
  apply sits_app in Sits. destruct Sits as [Sv Sits].
  destruct fuel as [|fuel]; [discriminate|]. cbn [find_moov] in M. set (inner := Datatypes.S fuel) in *.
  destruct (_ <=? 0); [discriminate|]. erewrite bind_ok in M by (apply (new_head MOVIE v Lv f _ S Sv)). cbn [hd_fourcc hd_size] in M.
  change (fourcc_eqb MOVIE MOVIE) with true in M. cbv iota in M.
  apply sits_app in Sits. destruct Sits as [Su Sits].
  destruct (moov_last inner m' [] u v f _ mv p1 _ eq_refl eq_refl S Lu Lv eq_refl Su M) as (x & Ux & Pu).
  apply sits_app in Sits. destruct Sits as [Sk Sits]. change (blen (render_all [])) with 0 in Pu. rewrite N.add_0_r in Pu.
  destruct (udta_last inner m' [] k u f _ x p1 _ eq_refl eq_refl S Lk Lu eq_refl Sk Pu) as (y & -> & Pk).
  change (blen (render_all [])) with 0 in Pk. rewrite N.add_0_r in Pk. apply sits_app in Sits. destruct Sits as [Sn Sl].
  assert (St : steps (meta_body inner m') [new_hdlr] None None).
  { cbn [steps]. exists None. split; [|reflexivity]. unfold meta_body. cbn [hd_fourcc head_of]. change (fourcc_eqb (a_id new_hdlr) ITEM_LIST) with false.
    cbv iota. apply kid_skip_ret. }
  assert (Ek : k = 4 + blen (render_all [new_hdlr]) + sz_len (size_from n)).
  { unfold k. rewrite blen_render_all_cons. change (blen (render_all [])) with 0. lia. }
  destruct (meta_last inner m' (zeros 4) [new_hdlr] n k f _ y p1 zeros4_version0 eq_refl St S Ln Lk Ek Sn Pk) as (l & -> & Pl).
  unfold moov_atoms. rewrite Ux. cbn [ojoin].
  rewrite !blen_app in Sl. change (blen (zeros 4)) with 4 in Sl. rewrite !N.add_assoc in Sl. rewrite E. rewrite E in D, L.
  assert (C : content_len m' (size_from n) = Ok (nsum (map ad_len (pre ++ it :: post)))) by (rewrite <- E; apply new_content).
  assert (Ln' : nsum (map ad_len (pre ++ it :: post)) < 2 ^ 62) by (rewrite <- E; exact Ln).
  exact (ilst_wrong inner m' pre it post ds s r (size_from n) f _ l p1 D L P A F Ne S Sl Fu Ln' C Pl).
Qed.

Theorem dump_exactly : forall m m' items fuel, describable items -> Forall (fun a => ad_len a < 2 ^ 32) items ->
  blen (out (dump_tag_to m items)) < 2 ^ 62 -> blen (out (dump_tag_to m items)) < N.of_nat fuel ->
  snd (dump_tag_to m items) = Ok tt /\
  ((exists t, read_tag fuel m' (out (dump_tag_to m items)) = Ok t /\ tg_atoms t = items) <-> ~ lossy items).
Proof.
  intros m m' items fuel D L S Fu. split; [apply (dump_raw m items L)|]. split.
  - intros (t & R & E) Lo. exact (dump_never m m' items fuel t D L Lo S Fu R E).
  - intros N. apply exact_not_lossy in N.
    assert (St : storable items).
    { destruct D as [U F]. split; [exact U|]. unfold exact_items in N. rewrite Forall_forall in *. intros a Ia. destruct (F a Ia) as (X & Y & Z).
      split; [exact X|]. split; [exact Y|]. specialize (N a Ia). rewrite Forall_forall in *. intros d Id. split; [apply Z, Id|]. specialize (N d Id).
      destruct d as [| |t| | | |]; try exact I. destruct t as [|c t]; [reflexivity|]. exfalso. unfold exact_data in N. cbn [units] in N.
      rewrite enc16_cons, blen_app in N. unfold enc16_char in N. destruct (c <? 65536); rewrite ?blen_cons in N; lia. }
    eexists. split; [apply (dump_read m m' items fuel St); [apply items_fit_len; [exact N|exact L]|exact S|exact Fu]|reflexivity].
Qed.
