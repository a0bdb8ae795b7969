(** The test of Accept.v accepts every well-formed file. *)

From Coq Require Import List NArith ZArith Bool Lia Arith String.
From Coq Require Import ZifyBool ZifyNat ZifyN.
From Verif Require Import Base BaseLemmas Utf UtfLemmas Types TagSpec TagLemmas FileSpec ParseLemmas ReadProofs EditSpec WriteMain UpdateMeans AdjustProofs WriteProofs LastSpec LastProofs ExampleFile WriteExample Accept.
Import ListNotations.
Local Open Scope list_scope.

(** * From bytes to atoms *)

Lemma firstn_at : forall {A} n (a b : list A), List.length a = n -> firstn n (a ++ b) = a.
Proof. intros A n a b <-. rewrite firstn_app, Nat.sub_diag, firstn_all, firstn_O. apply app_nil_r. Qed.
Lemma skipn_at : forall {A} n (a b : list A), List.length a = n -> skipn n (a ++ b) = b.
Proof. intros A n a b <-. rewrite skipn_app, Nat.sub_diag, skipn_all. reflexivity. Qed.
Lemma fourcc_at_bytes : forall id r, fourcc_at (fc_bytes id ++ r) = id.
Proof. intros [a b c d] r. reflexivity. Qed.

Lemma boxes_step : forall k b, b <> [] -> boxes (S k) b =
    (let small := unbe (firstn 4 b) in
     let ext := small =? 1 in
     let hl := if ext then 16 else 8 in
     let n := if ext then unbe (firstn 8 (skipn 8 b)) else small in
     if (n <? hl) || (blen b <? n) then None
     else match boxes k (skipn (N.to_nat n) b) with
          | Some r => Some ((ext, fourcc_at (skipn 4 b), slice b hl (n - hl)) :: r)
          | None => None
          end).
Proof. intros k [|x b] H; [contradiction|reflexivity]. Qed.

Lemma fc_length : forall id, List.length (fc_bytes id) = 4%nat.
Proof. intros []. reflexivity. Qed.
Lemma fits_eq : forall a, fits a = (if a_ext a then blen (a_content a) + 16 <? 2 ^ 64 else blen (a_content a) + 8 <? 2 ^ 32) && forallb fits (a_kids a).
Proof. intros [e i p k]. reflexivity. Qed.
Lemma render_eq : forall a, render a = header (a_ext a) (a_id a) (blen (a_content a)) ++ a_content a.
Proof. intros [e i p k]. reflexivity. Qed.

Lemma boxes_atom : forall k a r, fits a = true ->
  boxes (S k) (render a ++ r) = match boxes k r with Some l => Some ((a_ext a, a_id a, a_content a) :: l) | None => None end.
Proof.
  intros k a r F. rewrite fits_eq in F. apply andb_true_iff in F. destruct F as [F _]. rewrite render_eq. set (c := a_content a) in *.
  rewrite <- app_assoc. unfold header. destruct (a_ext a).
  - rewrite <- !app_assoc. rewrite boxes_step by (cbn; discriminate). cbv zeta.
    rewrite (firstn_at 4 (be 4 1)) by reflexivity. change (unbe (be 4 1) =? 1) with true. cbv iota.
    assert (E8 : forall y, skipn 8 (be 4 1 ++ fc_bytes (a_id a) ++ y) = y).
    { intro y. rewrite app_assoc. apply skipn_at. rewrite app_length, fc_length. reflexivity. }
    rewrite E8, (firstn_at 8) by apply be_length. rewrite unbe_be by (change (256 ^ N.of_nat 8) with (2 ^ 64); lia).
    rewrite (skipn_at 4) by reflexivity. rewrite fourcc_at_bytes.
    assert (B : blen (be 4 1 ++ fc_bytes (a_id a) ++ be 8 (blen c + 16) ++ c ++ r) = 16 + blen c + blen r).
    { rewrite !blen_app, blen_fc. unfold blen at 1 2. rewrite !be_length. lia. }
    rewrite B. destruct (N.ltb_spec (blen c + 16) 16); [lia|]. destruct (N.ltb_spec (16 + blen c + blen r) (blen c + 16)); [lia|]. cbn [orb].
    assert (Sk : skipn (N.to_nat (blen c + 16)) (be 4 1 ++ fc_bytes (a_id a) ++ be 8 (blen c + 16) ++ c ++ r) = r).
    { rewrite !app_assoc. apply skipn_at. rewrite !app_length, fc_length, !be_length. unfold blen. lia. }
    rewrite Sk. assert (Sl : slice (be 4 1 ++ fc_bytes (a_id a) ++ be 8 (blen c + 16) ++ c ++ r) 16 (blen c + 16 - 16) = c).
    { rewrite !app_assoc. rewrite <- app_assoc. apply slice_app; [|lia]. rewrite !blen_app, blen_fc. unfold blen. rewrite !be_length. lia. }
    rewrite Sl. reflexivity.
  - rewrite <- !app_assoc. rewrite boxes_step by (cbn; discriminate). cbv zeta.
    rewrite (firstn_at 4) by apply be_length. rewrite unbe_be by (change (256 ^ N.of_nat 4) with (2 ^ 32); lia).
    destruct (N.eqb_spec (blen c + 8) 1); [lia|]. cbv iota.
    rewrite (skipn_at 4) by apply be_length. rewrite fourcc_at_bytes.
    assert (B : blen (be 4 (blen c + 8) ++ fc_bytes (a_id a) ++ c ++ r) = 8 + blen c + blen r).
    { rewrite !blen_app, blen_fc. unfold blen at 1. rewrite !be_length. lia. }
    rewrite B. destruct (N.ltb_spec (blen c + 8) 8); [lia|]. destruct (N.ltb_spec (8 + blen c + blen r) (blen c + 8)); [lia|]. cbn [orb].
    assert (Sk : skipn (N.to_nat (blen c + 8)) (be 4 (blen c + 8) ++ fc_bytes (a_id a) ++ c ++ r) = r).
    { rewrite !app_assoc. apply skipn_at. rewrite !app_length, fc_length, !be_length. unfold blen. lia. }
    rewrite Sk. assert (Sl : slice (be 4 (blen c + 8) ++ fc_bytes (a_id a) ++ c ++ r) 8 (blen c + 8 - 8) = c).
    { rewrite !app_assoc. rewrite <- app_assoc. apply slice_app; [|lia]. rewrite !blen_app, blen_fc. unfold blen. rewrite !be_length. lia. }
    rewrite Sl. reflexivity.
Qed.
Lemma render_long : forall a, (1 <= List.length (render a))%nat.
Proof. intro a. rewrite render_eq. unfold header. destruct (a_ext a); rewrite !app_length, fc_length; lia. Qed.
Lemma boxes_render : forall l fuel, forallb fits l = true -> (List.length (render_all l) <= fuel)%nat ->
  boxes fuel (render_all l) = Some (map (fun a => (a_ext a, a_id a, a_content a)) l).
Proof.
  induction l as [|a l IH]; intros fuel F L; [destruct fuel; reflexivity|].
  cbn [forallb] in F. apply andb_true_iff in F. destruct F as [Fa F]. change (render_all (a :: l)) with (render a ++ render_all l) in *.
  rewrite app_length in L. pose proof (render_long a). destruct fuel as [|fuel]; [lia|]. rewrite boxes_atom by exact Fa. rewrite IH by (exact F || lia). reflexivity.
Qed.

(** What [build] makes of an atom: the parts that are not looked at become plain bytes. *)
Fixpoint norm (s : schema) (a : atom) : atom :=
  match s with
  | Leaf => Atom (a_ext a) (a_id a) (a_content a) []
  | Box _ kids => Atom (a_ext a) (a_id a) (a_pre a) (map (fun k => norm (kids (a_id k)) k) (a_kids a))
  end.
(** The atoms that are taken apart have as many bytes in front of their children as is asked for. *)
Fixpoint shaped (s : schema) (a : atom) : Prop :=
  match s with
  | Leaf => True
  | Box n kids => List.length (a_pre a) = n /\ Forall (fun k => shaped (kids (a_id k)) k) (a_kids a)
  end.

Lemma norm_id : forall s a, a_id (norm s a) = a_id a.
Proof. intros [|n k] a; reflexivity. Qed.
Lemma norm_ext : forall s a, a_ext (norm s a) = a_ext a.
Proof. intros [|n k] a; reflexivity. Qed.
Lemma norm_content : forall s a, a_content (norm s a) = a_content a.
Proof.
  induction s as [|n kids IH]; intro a; cbn [norm]; unfold a_content; cbn [a_pre a_kids]; [apply app_nil_r|]. f_equal.
  induction (a_kids a) as [|k l IHl]; [reflexivity|]. cbn [map]. unfold render_all in *. cbn [flat_map]. rewrite IHl. f_equal.
  rewrite !render_eq, norm_ext, norm_id, IH. reflexivity.
Qed.
Lemma norm_render : forall s a, render (norm s a) = render a.
Proof. intros s a. rewrite !render_eq, norm_ext, norm_id, norm_content. reflexivity. Qed.
Lemma norm_fits : forall s a, fits a = true -> fits (norm s a) = true.
Proof.
  induction s as [|n kids IH]; intros a F; rewrite fits_eq, norm_ext, norm_content; rewrite fits_eq in F; apply andb_true_iff in F; destruct F as [F K]; rewrite F; [reflexivity|].
  cbn [norm a_kids andb]. rewrite forallb_forall in *. intros x I. apply in_map_iff in I. destruct I as (k & <- & I). apply IH, K, I.
Qed.

Lemma build_norm : forall s a, fits a = true -> shaped s a -> build s (a_content a) = Some (a_pre (norm s a), a_kids (norm s a)).
Proof.
  induction s as [|n kids IH]; intros a F Sh; [reflexivity|]. cbn [shaped] in Sh. destruct Sh as [Ln Sh]. rewrite fits_eq in F. apply andb_true_iff in F. destruct F as [_ F].
  cbn [build norm a_pre a_kids]. unfold a_content. rewrite skipn_at, firstn_at by exact Ln. rewrite boxes_render by (exact F || lia).
  assert (X : forall l, forallb fits l = true -> Forall (fun k => shaped (kids (a_id k)) k) l ->
    (fix all (l : list (bool * fourcc * bytes)) : option (list atom) :=
           match l with
           | [] => Some []
           | (ext, id, c) :: r =>
             match build (kids id) c, all r with
             | Some (p, k), Some r' => Some (Atom ext id p k :: r')
             | _, _ => None
             end
           end) (map (fun a => (a_ext a, a_id a, a_content a)) l) = Some (map (fun k => norm (kids (a_id k)) k) l)).
  { induction l as [|k l IHl]; intros Fl Sl; [reflexivity|]. cbn [forallb] in Fl. apply andb_true_iff in Fl. destruct Fl as [Fk Fl]. inversion Sl; subst. cbn [map].
    rewrite IH by assumption. rewrite IHl by assumption. do 2 f_equal. rewrite <- (norm_ext (kids (a_id k)) k) at 1. rewrite <- (norm_id (kids (a_id k)) k) at 2.
    destruct (norm (kids (a_id k)) k). reflexivity. }
  rewrite X by assumption. reflexivity.
Qed.

Lemma named_norm : forall id (kids : fourcc -> schema) l,
  named_kids id (map (fun k => norm (kids (a_id k)) k) l) = map (norm (kids id)) (named_kids id l).
Proof.
  intros id kids l. induction l as [|k l IH]; [reflexivity|]. cbn [map]. unfold named_kids in *. cbn [filter].
  assert (E : is_named id (norm (kids (a_id k)) k) = is_named id k) by (unfold is_named; rewrite norm_id; reflexivity). rewrite E.
  destruct (is_named id k) eqn:Nm; [|exact IH]. cbn [map]. f_equal; [|exact IH]. unfold is_named in Nm. destruct (fourcc_dec (a_id k) id) as [->|]; [reflexivity|discriminate].
Qed.

(** * What the atoms mean *)

(** [g] finds the meaning of the atoms that have one. *)
Definition sees {A} (s : schema) (g : atom -> option A) (P : atom -> A -> Prop) : Prop :=
  forall a x, P a x -> g (norm s a) = Some x /\ shaped s a.

Lemma same_bytes_refl : forall b, same_bytes b b = true.
Proof. intro b. unfold same_bytes. destruct (list_eq_dec byte_dec b b); [reflexivity|contradiction]. Qed.
Lemma version0b_all : forall b, version0 b -> version0b b = true.
Proof. intros b (fl & L & ->). unfold version0b. change (firstn 1 (n2b 0 :: fl)) with [n2b 0]. rewrite same_bytes_refl. cbn [List.length andb]. rewrite L. reflexivity. Qed.
Lemma version0_length : forall b, version0 b -> List.length b = 4%nat.
Proof. intros b (fl & L & ->). cbn [List.length]. rewrite L. reflexivity. Qed.
Lemma no_pre_all : forall a, a_pre a = [] -> no_pre a = true.
Proof. intros a H. unfold no_pre. rewrite H. reflexivity. Qed.

Lemma traverse_all : forall {A B C} (g : A -> option B) (h : C -> A) (P : C -> B -> Prop) l r,
  (forall c x, P c x -> g (h c) = Some x) -> Forall2 P l r -> traverse g (map h l) = Some r.
Proof. intros A B C g h P l r H F. induction F as [|c x l r Pc F IH]; [reflexivity|]. cbn [map traverse]. rewrite (H _ _ Pc), IH. reflexivity. Qed.
Lemma shaped_all : forall {B} s (P : atom -> B -> Prop) l r, (forall a x, P a x -> shaped s a) -> Forall2 P l r -> Forall (shaped s) l.
Proof. intros B s P l r H F. induction F; constructor; eauto. Qed.

Lemma traverse_named : forall {A} n kids id s (g : atom -> option A) P a l, kids id = s -> sees s g P ->
  Forall2 P (named_kids id (a_kids a)) l ->
  traverse g (named_kids id (a_kids (norm (Box n kids) a))) = Some l /\ Forall (shaped s) (named_kids id (a_kids a)).
Proof.
  intros A n kids id s g P a l E H F. cbn [norm a_kids]. rewrite named_norm, E. split.
  - eapply traverse_all; [|exact F]. intros c x Pc. apply (H c x Pc).
  - eapply shaped_all; [|exact F]. intros c x Pc. apply (H c x Pc).
Qed.
Lemma last_of_all : forall {A} n kids id s (g : atom -> option A) P a o, kids id = s -> sees s g P ->
  last_child id P a o -> last_of id g (norm (Box n kids) a) = Some o /\ Forall (shaped s) (named_kids id (a_kids a)).
Proof.
  intros A n kids id s g P a o E H (l & F & ->). destruct (traverse_named n kids id s g P a l E H F) as [T Sh].
  split; [|exact Sh]. unfold last_of. rewrite T. reflexivity.
Qed.
Lemma named_in_kids : forall id k l, In k l -> a_id k = id -> In k (named_kids id l).
Proof. intros id k l I E. apply filter_In. split; [exact I|]. unfold is_named. rewrite E. destruct (fourcc_dec id id); [reflexivity|contradiction]. Qed.
Lemma shaped_pick : forall l ks, (forall p, In p l -> Forall (shaped (snd p)) (named_kids (id4 (fst p)) ks)) ->
  Forall (fun k => shaped (pick l (a_id k)) k) ks.
Proof.
  intros l ks H. apply Forall_forall. intros k I. unfold pick. destruct (find _ l) as [p|] eqn:F; [|exact Logic.I]. apply find_some in F. destruct F as [Ip E].
  specialize (H p Ip). rewrite Forall_forall in H. apply H. apply named_in_kids; [exact I|]. destruct (fourcc_dec (id4 (fst p)) (a_id k)); [symmetry; assumption|discriminate].
Qed.
Lemma pick_first : forall id s l, pick ((id, s) :: l) (id4 id) = s.
Proof. intros id s l. unfold pick. cbn [find fst]. destruct (fourcc_dec (id4 id) (id4 id)); [reflexivity|contradiction]. Qed.

Lemma sees_box : forall {A} id s (g : atom -> option (option A)) P, sees s g P -> sees (one id s) (box_of (id4 id) g) (box (id4 id) P).
Proof.
  intros A id s g P H a o (Hp & oo & L & ->). destruct (last_of_all 0 (pick [(id, s)]) (id4 id) s g P a oo (pick_first _ _ _) H L) as [E Sh].
  split.
  - unfold box_of. rewrite no_pre_all by exact Hp. unfold one. rewrite E. reflexivity.
  - split; [rewrite Hp; reflexivity|]. apply shaped_pick. intros p [<-|[]]. exact Sh.
Qed.
Lemma sees_leaf : forall {A} (g : atom -> option A) (P : atom -> A -> Prop),
  (forall a x, P a x -> a_id (norm Leaf a) = a_id a -> a_content (norm Leaf a) = a_content a -> g (norm Leaf a) = Some x) -> sees Leaf g P.
Proof. intros A g P H a x Px. split; [|exact Logic.I]. apply H; [exact Px|apply norm_id|apply norm_content]. Qed.

(** ** Items *)

Lemma flat_map_units : forall l, flat_map (be 2) l = units_bytes l.
Proof. intro l. induction l as [|x l IH]; [reflexivity|]. cbn [flat_map]. rewrite units_bytes_cons, IH. reflexivity. Qed.
Lemma data_sees : sees Leaf data_of data_means.
Proof.
  apply sees_leaf. intros a d (G & loc & Ll & E) _ Ec. unfold data_of. rewrite Ec, E. clear Ec E. cbv zeta.
  change (skipn 1 (n2b 0 :: ?x)) with x. change (n2b 0 :: be 3 (type_code d) ++ loc ++ payload d) with ((n2b 0 :: be 3 (type_code d)) ++ loc ++ payload d).
  assert (S8 : skipn 8 ((n2b 0 :: be 3 (type_code d)) ++ loc ++ payload d) = payload d).
  { rewrite app_assoc. apply skipn_at. rewrite app_length, Ll. cbn [List.length]. rewrite be_length. reflexivity. }
  assert (S4 : skipn 4 ((n2b 0 :: be 3 (type_code d)) ++ loc ++ payload d) = loc ++ payload d) by (apply skipn_at; reflexivity).
  rewrite S8, S4. change (skipn 1 ((n2b 0 :: be 3 (type_code d)) ++ loc ++ payload d)) with (be 3 (type_code d) ++ loc ++ payload d). rewrite (firstn_at 3) by apply be_length.
  assert (Ct : unbe (be 3 (type_code d)) = type_code d) by (apply unbe_be; destruct d; reflexivity). rewrite Ct.
  match goal with |- obnd ?x _ = _ => assert (X : x = Some d) end.
  { destruct d; cbn [type_code payload]; try reflexivity.
    - change (1 =? 0) with false. change (1 =? 1) with true. cbv iota. rewrite dec8_enc8 by exact G. reflexivity.
    - change (2 =? 0) with false. change (2 =? 1) with false. change (2 =? 2) with true. cbv iota. rewrite flat_map_units, bytes_units_units_bytes by (apply enc16_units, G).
      rewrite dec16_enc16 by exact G. reflexivity. }
  rewrite X. cbn [obnd]. unfold when. rewrite (firstn_at 4) by exact Ll. change ((n2b 0 :: be 3 (type_code d)) ++ loc ++ payload d) with (n2b 0 :: be 3 (type_code d) ++ loc ++ payload d). rewrite same_bytes_refl.
  assert (Gb : (match d with DUtf8 s | DUtf16 s => wf_ustr s | _ => true end) = true) by (destruct d; try reflexivity; exact G). rewrite Gb.
  assert (L8 : (8 <=? List.length (n2b 0 :: be 3 (type_code d) ++ loc ++ payload d))%nat = true).
  { apply Nat.leb_le. cbn [List.length]. rewrite !app_length, be_length, Ll. lia. }
  rewrite L8. reflexivity.
Qed.
Lemma text_sees : sees Leaf text_of text_means.
Proof.
  apply sees_leaf. intros a s (W & v & V & E) _ Ec. unfold text_of. rewrite Ec, E. cbv zeta. pose proof (version0_length v V) as L.
  rewrite (skipn_at 4), (firstn_at 4) by exact L. rewrite dec8_enc8 by exact W. cbn [obnd]. unfold when.
  rewrite W, version0b_all, same_bytes_refl by exact V. reflexivity.
Qed.
Lemma item_sees : sees (Box 0 (fun _ => Leaf)) item_of item_means.
Proof.
  intros a i (Hp & ds & ms & ns & D & M & N & Ne & ->).
  destruct (traverse_named 0 (fun _ => Leaf) (id4 "data") Leaf data_of data_means a ds eq_refl data_sees D) as [Ed _].
  destruct (traverse_named 0 (fun _ => Leaf) (id4 "mean") Leaf text_of text_means a ms eq_refl text_sees M) as [Em _].
  destruct (traverse_named 0 (fun _ => Leaf) (id4 "name") Leaf text_of text_means a ns eq_refl text_sees N) as [En _].
  split.
  - unfold item_of. rewrite no_pre_all by exact Hp. rewrite Ed, Em, En. cbn [obnd]. rewrite norm_id. destruct ds; [contradiction|reflexivity].
  - split; [rewrite Hp; reflexivity|]. apply Forall_forall. intros k _. exact Logic.I.
Qed.
Lemma free_norm : forall l, filter (fun k => negb (is_named (id4 "free") k)) (map (fun k => norm (item_schema (a_id k)) k) l) =
  map (norm (Box 0 (fun _ => Leaf))) (filter (fun k => negb (is_named (id4 "free") k)) l).
Proof.
  induction l as [|k l IH]; [reflexivity|]. cbn [map filter].
  assert (E : is_named (id4 "free") (norm (item_schema (a_id k)) k) = is_named (id4 "free") k) by (unfold is_named; rewrite norm_id; reflexivity). rewrite E.
  destruct (is_named (id4 "free") k) eqn:Nm; cbn [negb]; [exact IH|]. cbn [map]. f_equal; [|exact IH]. unfold item_schema.
  unfold is_named in Nm. destruct (fourcc_dec (a_id k) (id4 "free")); [discriminate|reflexivity].
Qed.
Lemma ilst_sees : sees (Box 0 item_schema) ilst_of ilst_means.
Proof.
  intros a items (Hp & l & F & M). split.
  - unfold ilst_of. rewrite no_pre_all by exact Hp. cbn [norm a_kids]. rewrite free_norm.
    rewrite (traverse_all item_of (norm (Box 0 (fun _ => Leaf))) item_means _ l) by (exact F || (intros c x Pc; apply (item_sees c x Pc))).
    cbn [obnd]. rewrite (merged_det l _ _ M (merge_ok l)). reflexivity.
  - split; [rewrite Hp; reflexivity|]. apply Forall_forall. intros k I. unfold item_schema. destruct (fourcc_dec (a_id k) (id4 "free")) as [|Nf]; [exact Logic.I|].
    assert (J : In k (filter (fun k => negb (is_named (id4 "free") k)) (a_kids a))).
    { apply filter_In. split; [exact I|]. unfold is_named. destruct (fourcc_dec (a_id k) (id4 "free")); [contradiction|reflexivity]. }
    pose proof (shaped_all (Box 0 (fun _ => Leaf)) item_means _ l (fun c x Pc => proj2 (item_sees c x Pc)) F) as Sh. rewrite Forall_forall in Sh. apply Sh, J.
Qed.
Lemma meta_sees : sees (Box 4 (pick [("ilst"%string, Box 0 item_schema)])) meta_of meta_means.
Proof.
  intros a o (V & L). destruct (last_of_all 4 (pick [("ilst"%string, Box 0 item_schema)]) (id4 "ilst") _ ilst_of ilst_means a o (pick_first _ _ _) ilst_sees L) as [E Sh].
  split.
  - unfold meta_of. rewrite version0b_all by exact V. exact E.
  - split; [apply version0_length, V|]. apply shaped_pick. intros p [<-|[]]. exact Sh.
Qed.
Lemma udta_sees : sees udta_schema udta_of udta_means.
Proof. apply (sees_box "meta"), meta_sees. Qed.

(** ** Audio parameters *)

Lemma len7_all : forall w k acc n r, (w <= k)%nat ->
  len7_of (S k) acc (len7 (S w) n ++ r) = Some (S w, acc * 128 ^ N.of_nat (S w) + n mod 128 ^ N.of_nat (S w)).
Proof.
  induction w as [|w IH]; intros k acc n r H.
  - cbn [len7 app len7_of]. rewrite b2n_n2b. rewrite (N.mod_small (n mod 128) 256) by (pose proof (N.mod_lt n 128); lia).
    rewrite (proj2 (N.ltb_lt _ 128)) by (apply N.mod_lt; lia). change (N.of_nat 1) with 1. rewrite N.pow_1_r. reflexivity.
  - rewrite len7_S. destruct k as [|k]; [lia|]. cbn [app]. set (y := len7 (S w) n ++ r).
    change (len7_of (S (S k)) acc (?x :: y)) with
      (if b2n x <? 128 then Some (1%nat, acc * 128 + b2n x)
       else match len7_of (S k) (acc * 128 + (b2n x - 128)) y with Some (w, v) => Some (S w, v) | None => None end).
    rewrite b2n_n2b. set (q := n / 128 ^ N.of_nat (S w)). pose proof (N.mod_lt q 128). rewrite (N.mod_small (128 + q mod 128) 256) by lia.
    rewrite (proj2 (N.ltb_ge _ 128)) by lia. replace (128 + q mod 128 - 128) with (q mod 128) by lia. unfold y. rewrite IH by lia. do 2 f_equal.
    replace (N.of_nat (S (S w))) with (N.of_nat (S w) + 1) by lia. rewrite N.pow_add_r, N.pow_1_r.
    assert (P0 : 128 ^ N.of_nat (S w) <> 0) by (apply N.pow_nonzero; lia).
    rewrite (N.mod_mul_r n (128 ^ N.of_nat (S w)) 128) by (assumption || discriminate).
    fold q. clearbody q. generalize dependent (128 ^ N.of_nat (S w)). intros c _. rewrite N.mul_add_distr_r. lia.
Qed.
Lemma len7_good : forall d r, good_desc d -> len7_of 4 0 (len7 (d_width d) (blen (d_body d)) ++ r) = Some (d_width d, blen (d_body d)).
Proof.
  intros [t w b] r [Hw Hn]. cbn [d_width d_body] in *. destruct w as [|w]; [lia|]. rewrite (len7_all w 3) by lia. rewrite N.mod_small by exact Hn. reflexivity.
Qed.
Lemma descs_all : forall l fuel, Forall good_desc l -> (List.length (flat_map render_desc l) <= fuel)%nat ->
  descs_of fuel (flat_map render_desc l) = Some l.
Proof.
  induction l as [|d l IH]; intros fuel F L; [destruct fuel; reflexivity|]. inversion F as [|? ? Gd Fl]; subst.
  change (flat_map render_desc (d :: l)) with (d_tag d :: ((len7 (d_width d) (blen (d_body d)) ++ d_body d) ++ flat_map render_desc l)) in *. rewrite <- app_assoc in *.
  cbn [List.length] in L. rewrite !app_length in L. destruct fuel as [|fuel]; [lia|]. cbn [descs_of]. rewrite len7_good by exact Gd.
  rewrite skipn_at by apply len7_length. rewrite blen_app. destruct (N.ltb_spec (blen (d_body d) + blen (flat_map render_desc l)) (blen (d_body d))); [lia|].
  assert (Eb : List.length (d_body d) = N.to_nat (blen (d_body d))) by (unfold blen; lia).
  rewrite skipn_at, firstn_at by exact Eb. rewrite IH by (exact Fl || lia). destruct d. reflexivity.
Qed.
Lemma good_descb_all : forall d, good_desc d -> good_descb d = true.
Proof. intros d [W B]. unfold good_descb. rewrite !andb_true_iff. repeat split; lia. Qed.
Lemma behind_all : forall n h l, List.length h = n -> Forall good_desc l -> behind n (h ++ flat_map render_desc l) = Some (h, l).
Proof.
  intros n h l L F. unfold behind. rewrite skipn_at, firstn_at by exact L. rewrite descs_all by (exact F || (rewrite app_length; lia)). cbn [obnd]. unfold when.
  rewrite same_bytes_refl, L, Nat.eqb_refl. cbn [andb].
  assert (G : forallb good_descb l = true) by (apply forallb_forall; rewrite Forall_forall in F; intros d I; apply good_descb_all, F, I). rewrite G. reflexivity.
Qed.
Lemma same_opt_refl : forall o, same_opt o o = true.
Proof. intros [x|]; [apply N.eqb_refl|reflexivity]. Qed.
Lemma ds_all : forall b ch rate, ds_means b ch rate -> ds_of b = Some (ch, rate).
Proof.
  intros b ch rate (L & R & C). unfold ds_of. destruct b as [|x [|y r]]; [cbn in L; lia|cbn in L; lia|]. destruct (bits_ds x y r) as [B1 B2]. rewrite B1, B2 in *. cbv zeta.
  rewrite (sample_rate_spec _ rate) by (exact R || (apply N.mod_lt; discriminate)). rewrite (channels_spec _ ch) by (exact C || (apply N.mod_lt; discriminate)).
  rewrite R, C, !same_opt_refl. reflexivity.
Qed.
Lemma dc_all : forall b a, dc_means b a -> dc_of b = Some a.
Proof.
  intros b a (h & l & L & -> & F & Mx & Av & T). unfold dc_of. rewrite behind_all by assumption. cbn [obnd]. destruct a as [ch rate mx av]. cbn [au_max au_avg au_channels au_rate] in *. subst mx av.
  destruct (tagged_desc 5 l) as [|d [|]]; [destruct T as [-> ->]; reflexivity| |contradiction]. rewrite (ds_all _ _ _ T). reflexivity.
Qed.
Lemma es_all : forall b a, es_means b a -> es_of b = Some a.
Proof.
  intros b a (h & l & L & -> & F & T). unfold es_of. rewrite behind_all by assumption. cbn [obnd snd].
  destruct (tagged_desc 4 l) as [|d [|]]; [subst a; reflexivity| |contradiction]. apply dc_all, T.
Qed.
Lemma esds_sees : sees Leaf esds_of esds_means.
Proof.
  apply sees_leaf. intros a x (Ei & v & d & rest & V & T & G & E & M) En Ec. unfold esds_of. rewrite Ec, E. cbv zeta. pose proof (version0_length v V) as L.
  rewrite (skipn_at 4), (firstn_at 4) by exact L. unfold render_desc at 1. cbn [app]. rewrite <- app_assoc. rewrite len7_good by exact G. cbn [obnd fst snd].
  rewrite skipn_at by apply len7_length. assert (Eb : List.length (d_body d) = N.to_nat (blen (d_body d))) by (unfold blen; lia).
  rewrite skipn_at, firstn_at by exact Eb. assert (Ed : Desc (d_tag d) (d_width d) (d_body d) = d) by (destruct d; reflexivity). rewrite Ed.
  assert (Nm : is_named (id4 "esds") (norm Leaf a) = true) by (unfold is_named; rewrite En, Ei; reflexivity). rewrite Nm.
  rewrite version0b_all, T, good_descb_all, same_bytes_refl by assumption. apply es_all, M.
Qed.
Lemma mp4a_sees : sees (Box 28 (fun _ => Leaf)) mp4a_of mp4a_means.
Proof.
  intros a x (L & e & r & K & M). split.
  - unfold mp4a_of. cbn [norm a_pre a_kids]. rewrite L, K. cbn [map]. apply (esds_sees e x M).
  - split; [exact L|]. apply Forall_forall. intros k _. exact Logic.I.
Qed.
Lemma stsd_sees : sees (Box 8 (pick [("mp4a"%string, Box 28 (fun _ => Leaf))])) stsd_of stsd_means.
Proof.
  intros a o ((v & n & V & Ln & E) & L). pose proof (version0_length v V) as Lv.
  destruct (last_of_all 8 (pick [("mp4a"%string, Box 28 (fun _ => Leaf))]) (id4 "mp4a") _ mp4a_of mp4a_means a o (pick_first _ _ _) mp4a_sees L) as [El Sh].
  assert (Lp : List.length (a_pre a) = 8%nat) by (rewrite E, app_length, Lv, Ln; reflexivity). split.
  - unfold stsd_of. cbn [norm a_pre]. rewrite Lp. rewrite E, (firstn_at 4) by exact Lv. rewrite version0b_all by exact V. exact El.
  - split; [exact Lp|]. apply shaped_pick. intros p [<-|[]]. exact Sh.
Qed.
Lemma trak_sees : sees trak_schema trak_of trak_means.
Proof. apply (sees_box "mdia"), (sees_box "minf"), (sees_box "stbl"), (sees_box "stsd"), stsd_sees. Qed.

(** ** The movie *)

Lemma nanos_all : forall s d n, nanos s d n -> nanos_of s d = Some n.
Proof. intros s d n (A & B & ->). unfold nanos_of, when. rewrite (proj2 (N.ltb_lt _ _) B). destruct (N.eqb_spec s 0); [contradiction|reflexivity]. Qed.
Lemma mvhd_sees : sees Leaf mvhd_of mvhd_means.
Proof.
  apply sees_leaf. intros a d M _ Ec. unfold mvhd_of. rewrite Ec. unfold mvhd_means in M. cbv zeta in *. destruct M as [(A & B & C)|(A & B & C)]; rewrite A.
  - rewrite (proj2 (N.leb_le _ _) B). apply nanos_all, C.
  - change (1 =? 0) with false. change (1 =? 1) with true. cbn [andb]. rewrite (proj2 (N.leb_le _ _) B). apply nanos_all, C.
Qed.
Definition moov_schema : schema := Box 0 (pick [("trak", trak_schema); ("udta", udta_schema)])%string.
Lemma moov_sees : sees moov_schema moov_of (fun a x => moov_means a (fst x) (snd x)).
Proof.
  intros a [i l] (Hp & dur & auds & uo & D & T & U & Ei & El). cbn [fst snd] in *. subst i l.
  destruct (last_of_all 0 (pick [("trak", trak_schema); ("udta", udta_schema)])%string (id4 "mvhd") Leaf mvhd_of mvhd_means a dur eq_refl mvhd_sees D) as [E1 _].
  destruct (traverse_named 0 (pick [("trak", trak_schema); ("udta", udta_schema)])%string (id4 "trak") trak_schema trak_of trak_means a auds eq_refl trak_sees T) as [E2 S2].
  destruct (last_of_all 0 (pick [("trak", trak_schema); ("udta", udta_schema)])%string (id4 "udta") udta_schema udta_of udta_means a uo eq_refl udta_sees U) as [E3 S3].
  split.
  - unfold moov_of, moov_schema. rewrite no_pre_all by exact Hp. rewrite E1, E2, E3. reflexivity.
  - split; [rewrite Hp; reflexivity|]. apply shaped_pick. intros p [<-|[<-|[]]]; assumption.
Qed.

(** * Files *)

Definition norm_file (f : list atom) : list atom := map (fun k => norm (pick [("moov"%string, moov_schema)] (a_id k)) k) f.
Lemma norm_file_render : forall f, render_all (norm_file f) = render_all f.
Proof. induction f as [|k f IH]; [reflexivity|]. cbn [norm_file map]. unfold render_all in *. cbn [flat_map]. rewrite norm_render. f_equal. exact IH. Qed.
Lemma norm_file_fits : forall f, forallb fits f = true -> forallb fits (norm_file f) = true.
Proof. intros f F. rewrite forallb_forall in *. intros x I. apply in_map_iff in I. destruct I as (k & <- & I). apply norm_fits, F, I. Qed.
Lemma named_none : forall id l, named_kids id l = [] -> forall k, In k l -> a_id k <> id.
Proof. intros id l H k I E. pose proof (named_in_kids id k l I E) as J. rewrite H in J. exact J. Qed.

Lemma accept_all : forall f t, good_sizes f -> describes f t -> accept (render_all f) = Some (norm_file f, t).
Proof.
  intros f t [Ft Lt] (ft & pre & mv & post & Ef & Ift & W & Eft & Imv & Nm & M).
  assert (B : build file_schema (render_all f) = Some ([], norm_file f)).
  { apply (build_norm file_schema (Atom true (id4 "    ") [] f)).
    - rewrite fits_eq. cbn [a_ext a_kids a_content]. rewrite Ft. change (a_content (Atom true (id4 "    ") [] f)) with (render_all f). apply andb_true_iff. split; [|reflexivity]. apply N.ltb_lt.
      change (2 ^ 64) with (4 * 2 ^ 62). lia.
    - split; [reflexivity|]. cbn [a_kids]. apply shaped_pick. intros p [<-|[]]. cbn [fst snd]. rewrite Ef. apply Forall_forall. intros k I. apply filter_In in I. destruct I as [I Ik].
      assert (Ek : a_id k = id4 "moov") by (unfold is_named in Ik; destruct (fourcc_dec (a_id k) (id4 "moov")); [assumption|discriminate]).
      destruct I as [<-|I]; [rewrite Ift in Ek; discriminate|]. apply in_app_iff in I. destruct I as [I|[<-|I]].
      + exfalso. apply (named_none _ _ Nm k); [apply in_or_app; left; exact I|exact Ek].
      + apply (moov_sees mv (tg_info t, tg_atoms t)). exact M.
      + exfalso. apply (named_none _ _ Nm k); [apply in_or_app; right; exact I|exact Ek]. }
  unfold accept. rewrite B. cbn [obnd snd].
  assert (Tg : tag_of (norm_file f) = Some t).
  { rewrite Ef. unfold norm_file. cbn [map tag_of]. rewrite map_app. cbn [map]. rewrite Ift, Imv. rewrite pick_first. change (pick [("moov"%string, moov_schema)] (id4 "ftyp")) with Leaf.
    assert (Np : named_kids (id4 "moov") (map (fun k => norm (pick [("moov"%string, moov_schema)] (a_id k)) k) (pre ++ post)) = []) by (rewrite named_norm, Nm; reflexivity).
    rewrite map_app in Np. assert (Na : forall x y, named_kids (id4 "moov") (x ++ y) = named_kids (id4 "moov") x ++ named_kids (id4 "moov") y) by (intros; apply filter_app).
    pose proof Np as Np'. rewrite Na in Np'. apply app_eq_nil in Np'. destruct Np' as [Np1 _].
    rewrite split_on_at by (rewrite ?norm_id; assumption). rewrite norm_content, Eft, dec8_enc8 by exact W. cbn [obnd].
    rewrite (proj1 (moov_sees mv (tg_info t, tg_atoms t) M)). cbn [obnd fst snd]. rewrite Np.
    assert (If : is_named (id4 "ftyp") (norm Leaf ft) = true) by (unfold is_named; rewrite norm_id, Ift; reflexivity). rewrite If, W, same_bytes_refl. destruct t. reflexivity. }
  rewrite Tg. cbn [obnd]. unfold when. rewrite norm_file_render, same_bytes_refl. unfold good_sizesb. rewrite norm_file_fits, norm_file_render by exact Ft.
  rewrite (proj2 (N.ltb_lt _ _) Lt). reflexivity.
Qed.

(** * Can metadata be written? *)

(** [p] holds for the last child called [id]. *)
Definition of_lastb (id : fourcc) (p : atom -> bool) (a : atom) : bool := match split_last id (a_kids a) with Some (_, c, _) => p c | None => true end.
Definition sound_stblb (a : atom) : bool := of_lastb (id4 "stco") (good_tableb 4) a && of_lastb (id4 "co64") (good_tableb 8) a.
Definition sound_trakb : atom -> bool := of_lastb (id4 "mdia") (of_lastb (id4 "minf") (of_lastb (id4 "stbl") sound_stblb)).
Definition sound_moovb (a : atom) : bool := forallb sound_trakb (named_kids (id4 "trak") (a_kids a)).
(** The last chunk offset tables of all tracks can be adjusted. *)
Definition sound_tablesb (f : list atom) : bool := match split_last (id4 "moov") f with Some (_, m, _) => sound_moovb m | None => true end.

Definition decides (p : atom -> bool) (P : atom -> Prop) : Prop := forall a, p a = true <-> P a.
Lemma of_lastb_ok : forall id p P, decides p P -> decides (of_lastb id p) (of_last id P).
Proof. intros id p P H a. unfold of_lastb, of_last. destruct (split_last id (a_kids a)) as [[[x c] y]|]; [apply H|tauto]. Qed.
Lemma good_tableb_all : forall w, (w = 4%nat \/ w = 8%nat) -> decides (good_tableb w) (good_table w).
Proof.
  intros w W a. split; [apply good_tableb_ok|]. intros (K & v & offs & V & E & L & F). unfold good_tableb. rewrite K.
  assert (Te : table_entries w (a_pre a) = offs) by (rewrite E; apply entries_of; [lia|exact V|eapply Forall_impl; [|exact F]; cbv beta; intros o [H _]; exact H]).
  rewrite Te. destruct V as (fl & Lf & ->). cbv zeta.
  assert (E3 : firstn 3 (skipn 1 (a_pre a)) = fl) by (rewrite E; cbn [app skipn]; apply firstn_at, Lf). rewrite E3. 
  destruct (list_eq_dec byte_dec (a_pre a) _) as [_|N]; [|contradiction].
  assert (L4 : (4 <=? List.length (a_pre a))%nat = true) by (apply Nat.leb_le; rewrite E, !app_length; cbn [List.length]; lia). rewrite L4.
  rewrite (proj2 (N.ltb_lt _ _) L). cbn [andb]. apply forallb_forall. rewrite Forall_forall in F. intros o I. specialize (F o I). apply andb_true_iff. split; apply N.ltb_lt; apply F.
Qed.
Lemma sound_stblb_ok : decides sound_stblb sound_stbl.
Proof.
  intro a. unfold sound_stblb, sound_stbl. rewrite andb_true_iff.
  rewrite (of_lastb_ok (id4 "stco") _ _ (good_tableb_all 4 (or_introl eq_refl)) a), (of_lastb_ok (id4 "co64") _ _ (good_tableb_all 8 (or_intror eq_refl)) a). reflexivity.
Qed.
Lemma sound_tablesb_ok : forall f, sound_tablesb f = true <-> sound_tables f.
Proof.
  intro f. unfold sound_tablesb, sound_tables. destruct (split_last (id4 "moov") f) as [[[x m] y]|]; [|tauto].
  unfold sound_moovb, sound_moov. rewrite forallb_forall, Forall_forall. pose proof (of_lastb_ok (id4 "mdia") _ _ (of_lastb_ok (id4 "minf") _ _ (of_lastb_ok (id4 "stbl") _ _ sound_stblb_ok))) as H.
  split; intros F k I; apply H, F, I.
Qed.

Lemma split_last_norm : forall id (kids : fourcc -> schema) l,
  split_last id (map (fun k => norm (kids (a_id k)) k) l) =
  match split_last id l with
  | Some (x, c, y) => Some (map (fun k => norm (kids (a_id k)) k) x, norm (kids id) c, map (fun k => norm (kids (a_id k)) k) y)
  | None => None
  end.
Proof.
  intros id kids l. destruct (last_cases id l) as [N|(x & c & y & -> & I & N)].
  - rewrite (proj2 (split_last_none id l) N). apply split_last_none. rewrite named_norm, N. reflexivity.
  - rewrite split_last_at by assumption. rewrite map_app. cbn [map]. rewrite split_last_at by (rewrite ?norm_id, ?named_norm, ?N; assumption || reflexivity). rewrite I. reflexivity.
Qed.
Lemma of_last_norm : forall n kids id s (P Q : atom -> Prop) a, kids id = s -> (forall k, P k -> Q (norm s k)) -> of_last id P a -> of_last id Q (norm (Box n kids) a).
Proof.
  intros n kids id s P Q a E H L. unfold of_last in *. cbn [norm a_kids]. rewrite split_last_norm, E. destruct (split_last id (a_kids a)) as [[[x c] y]|]; [apply H, L|exact Logic.I].
Qed.
Lemma table_norm : forall w a, good_table w a -> good_table w (norm Leaf a).
Proof.
  intros w a (K & H). split; [reflexivity|]. cbn [norm a_pre]. unfold a_content. rewrite K. cbn [render_all flat_map]. change (render_all []) with (@nil byte). rewrite app_nil_r. exact H.
Qed.
Lemma sound_norm : forall f, sound_tables f -> sound_tables (norm_file f).
Proof.
  intros f H. unfold sound_tables in *. unfold norm_file. rewrite split_last_norm. destruct (split_last (id4 "moov") f) as [[[x m] y]|]; [|exact Logic.I].
  rewrite pick_first. unfold sound_moov in *. unfold moov_schema. cbn [norm a_kids]. rewrite named_norm. change (pick [("trak"%string, trak_schema); ("udta"%string, udta_schema)] (id4 "trak")) with trak_schema.
  apply Forall_map. eapply Forall_impl; [|exact H]. intros k. eapply (of_last_norm 0 _ (id4 "mdia")); [apply pick_first|]. intros k1. eapply (of_last_norm 0 _ (id4 "minf")); [apply pick_first|].
  intros k2. eapply (of_last_norm 0 _ (id4 "stbl")); [apply pick_first|]. intros k3 (A & B). split.
  - revert A. eapply (of_last_norm 0 _ (id4 "stco")); [reflexivity|]. apply table_norm.
  - revert B. eapply (of_last_norm 0 _ (id4 "co64")); [reflexivity|]. apply table_norm.
Qed.

Lemma nodup_length : forall {A} (dec : forall x y : A, {x = y} + {x <> y}) l, NoDup l -> List.length (nodup dec l) = List.length l.
Proof. intros A dec l H. rewrite nodup_fixed_point by exact H. reflexivity. Qed.
Lemma storableb_all : forall items, storable items -> storableb items = true.
Proof.
  intros items [U F]. unfold storableb. apply andb_true_iff. split.
  - apply Nat.eqb_eq. rewrite nodup_length by exact U. unfold idents. apply map_length.
  - apply forallb_forall. rewrite Forall_forall in F. intros i I. destruct (F i I) as (A & B & C). rewrite !andb_true_iff. split; [split|].
    + destruct (ad_ident i); cbn [storable_ident] in A; [destruct (fourcc_dec f (id4 "free")); [contradiction|reflexivity]|apply andb_true_iff, A].
    + destruct (ad_data i); [contradiction|reflexivity].
    + apply forallb_forall. rewrite Forall_forall in C. intros d J. destruct (C d J) as [G Z]. destruct d; try reflexivity; [exact G|rewrite Z; reflexivity].
Qed.
