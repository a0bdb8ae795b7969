(** An executable test for the hypotheses of the theorems about files.

    [accept b] takes the bytes of a file apart and returns the atoms and the tag they mean, or nothing.
    Nothing is claimed about files it does not accept.  It is part of the specification side: it uses
    no function of the model of the library except the decoders of text ([Utf.v]). *)

From Coq Require Import List NArith ZArith Bool Lia Arith String.
From Coq Require Import ZifyBool ZifyNat ZifyN.
From Verif Require Import Base BaseLemmas Utf Types TagSpec TagLemmas FileSpec ReadProofs EditSpec WriteMain UpdateMeans ExampleFile WriteExample.
Import ListNotations.
Local Open Scope list_scope.

(** * From bytes to atoms *)

Definition fourcc_at (b : bytes) : fourcc :=
  match b with x :: y :: z :: w :: _ => FourCC x y z w | _ => id4 "    " end.

(** Split at the size fields. *)
Fixpoint boxes (fuel : nat) (b : bytes) : option (list (bool * fourcc * bytes)) :=
  match fuel, b with
  | _, [] => Some []
  | O, _ => None
  | S k, _ =>
    let small := unbe (firstn 4 b) in
    let ext := small =? 1 in
    let hl := if ext then 16 else 8 in
    let n := if ext then unbe (firstn 8 (skipn 8 b)) else small in
    if (n <? hl) || (blen b <? n) then None
    else match boxes k (skipn (N.to_nat n) b) with
         | Some r => Some ((ext, fourcc_at (skipn 4 b), slice b hl (n - hl)) :: r)
         | None => None
         end
  end.

(** Which atoms are taken apart, and how many bytes are in front of the children. *)
Inductive schema := Leaf | Box (pre : nat) (kids : fourcc -> schema).

Definition pick (l : list (string * schema)) (id : fourcc) : schema :=
  match find (fun p => if fourcc_dec (id4 (fst p)) id then true else false) l with
  | Some p => snd p
  | None => Leaf
  end.
Definition one (id : string) (s : schema) : schema := Box 0 (pick [(id, s)]).
Definition item_schema (id : fourcc) : schema :=
  if fourcc_dec id (id4 "free") then Leaf else Box 0 (fun _ => Leaf).
Definition trak_schema : schema :=
  one "mdia" (one "minf" (one "stbl" (one "stsd" (Box 8 (pick [("mp4a", Box 28 (fun _ => Leaf))])))))%string.
Definition udta_schema : schema := one "meta" (Box 4 (pick [("ilst", Box 0 item_schema)]))%string.
Definition file_schema : schema :=
  Box 0 (pick [("moov", Box 0 (pick [("trak", trak_schema); ("udta", udta_schema)]))])%string.

Fixpoint build (s : schema) (b : bytes) : option (bytes * list atom) :=
  match s with
  | Leaf => Some (b, [])
  | Box n kids =>
    let rest := skipn n b in
    match boxes (List.length rest) rest with
    | None => None
    | Some l =>
      match
        (fix all (l : list (bool * fourcc * bytes)) : option (list atom) :=
           match l with
           | [] => Some []
           | (ext, id, c) :: r =>
             match build (kids id) c, all r with
             | Some (p, k), Some r' => Some (Atom ext id p k :: r')
             | _, _ => None
             end
           end) l
      with
      | Some k => Some (firstn n b, k)
      | None => None
      end
    end
  end.

(** * What the atoms mean *)

Fixpoint traverse {A B} (g : A -> option B) (l : list A) : option (list B) :=
  match l with
  | [] => Some []
  | a :: r => match g a, traverse g r with Some x, Some y => Some (x :: y) | _, _ => None end
  end.
Lemma traverse_ok : forall {A B} (g : A -> option B) (P : A -> B -> Prop) l r,
  (forall a x, g a = Some x -> P a x) -> traverse g l = Some r -> Forall2 P l r.
Proof.
  intros A B g P l. induction l as [|a l IH]; intros r H E; cbn [traverse] in E.
  - injection E as <-. constructor.
  - destruct (g a) eqn:G; [|discriminate]. destruct (traverse g l); [|discriminate]. injection E as <-. constructor; [apply H, G|apply IH; [exact H|reflexivity]].
Qed.

(** [Some x] if the test succeeds. *)
Definition when {A} (c : bool) (x : A) : option A := if c then Some x else None.
Lemma when_ok : forall {A} c (x y : A), when c x = Some y -> c = true /\ x = y.
Proof. intros A c x y. destruct c; [|discriminate]. intro H. injection H as <-. auto. Qed.
Definition obnd {A B} (o : option A) (k : A -> option B) : option B := match o with Some x => k x | None => None end.

Definition same_bytes (a b : bytes) : bool := if list_eq_dec byte_dec a b then true else false.
Lemma same_bytes_ok : forall a b, same_bytes a b = true -> a = b.
Proof. intros a b. unfold same_bytes. destruct (list_eq_dec byte_dec a b); [auto|discriminate]. Qed.

Definition last_of {A} (id : fourcc) (g : atom -> option A) (a : atom) : option (option A) :=
  obnd (traverse g (named_kids id (a_kids a))) (fun l => Some (last_opt l)).
Lemma last_of_ok : forall {A} id g (P : atom -> A -> Prop) a o,
  (forall k x, g k = Some x -> P k x) -> last_of id g a = Some o -> last_child id P a o.
Proof.
  intros A id g P a o H E. unfold last_of, obnd in E. destruct (traverse g (named_kids id (a_kids a))) as [l|] eqn:T; [|discriminate].
  injection E as <-. exists l. split; [eapply traverse_ok; eassumption|reflexivity].
Qed.

Definition no_pre (a : atom) : bool := match a_pre a with [] => true | _ => false end.
Lemma no_pre_ok : forall a, no_pre a = true -> a_pre a = [].
Proof. intros a. unfold no_pre. destruct (a_pre a); [reflexivity|discriminate]. Qed.
Definition box_of {A} (id : fourcc) (g : atom -> option (option A)) (a : atom) : option (option A) :=
  if no_pre a then obnd (last_of id g a) (fun o => Some (join o)) else None.
Lemma box_of_ok : forall {A} id g (P : atom -> option A -> Prop) a o,
  (forall k x, g k = Some x -> P k x) -> box_of id g a = Some o -> box id P a o.
Proof.
  intros A id g P a o H E. unfold box_of in E. destruct (no_pre a) eqn:N; [|discriminate]. unfold obnd in E.
  destruct (last_of id g a) as [oo|] eqn:L; [|discriminate]. injection E as <-. split; [apply no_pre_ok, N|].
  exists oo. split; [eapply last_of_ok; eassumption|reflexivity].
Qed.

Definition version0b (b : bytes) : bool := same_bytes (firstn 1 b) [n2b 0] && (List.length b =? 4)%nat.
Lemma version0b_ok : forall b, version0b b = true -> version0 b.
Proof.
  intros b H. apply andb_true_iff in H. destruct H as [A B]. apply same_bytes_ok in A. apply Nat.eqb_eq in B.
  destruct b as [|x b]; [discriminate|]. injection A as ->. injection B as B. exists b. split; [exact B|reflexivity].
Qed.

(** ** Items *)

Definition data_of (a : atom) : option data :=
  let c := a_content a in
  let p := skipn 8 c in
  let code := unbe (firstn 3 (skipn 1 c)) in
  obnd
    (if code =? 0 then Some (DReserved p)
     else if code =? 1 then option_map DUtf8 (dec8 p)
     else if code =? 2 then option_map DUtf16 (dec16 (bytes_units p))
     else if code =? 13 then Some (DJpeg p)
     else if code =? 14 then Some (DPng p)
     else if code =? 21 then Some (DBeSigned p)
     else if code =? 27 then Some (DBmp p)
     else None)
    (fun d => when ((match d with DUtf8 s | DUtf16 s => wf_ustr s | _ => true end) && (8 <=? List.length c)%nat &&
                    same_bytes c (n2b 0 :: be 3 (type_code d) ++ firstn 4 (skipn 4 c) ++ payload d)) d).
Lemma data_of_ok : forall a d, data_of a = Some d -> data_means a d.
Proof.
  intros a d H. unfold data_of in H. match type of H with obnd ?o _ = _ => destruct o as [x|]; [|discriminate] end.
  cbn [obnd] in H. apply when_ok in H. destruct H as [H ->]. repeat rewrite andb_true_iff in H. destruct H as ((W & L) & E).
  apply same_bytes_ok in E. split; [destruct d; try exact I; exact W|]. exists (firstn 4 (skipn 4 (a_content a))). split; [|exact E].
  rewrite firstn_length, skipn_length. lia.
Qed.

Definition text_of (a : atom) : option ustring :=
  let c := a_content a in
  obnd (dec8 (skipn 4 c)) (fun s => when (wf_ustr s && version0b (firstn 4 c) && same_bytes c (firstn 4 c ++ enc8 s)) s).
Lemma text_of_ok : forall a s, text_of a = Some s -> text_means a s.
Proof.
  intros a s H. unfold text_of in H. destruct (dec8 _) as [x|]; [|discriminate]. cbn [obnd] in H. apply when_ok in H.
  destruct H as [H ->]. repeat rewrite andb_true_iff in H. destruct H as ((W & V) & E). split; [exact W|].
  exists (firstn 4 (a_content a)). split; [apply version0b_ok, V|apply same_bytes_ok, E].
Qed.

Definition item_of (a : atom) : option atom_data :=
  if no_pre a then
    obnd (traverse data_of (named_kids (id4 "data") (a_kids a))) (fun ds =>
    obnd (traverse text_of (named_kids (id4 "mean") (a_kids a))) (fun ms =>
    obnd (traverse text_of (named_kids (id4 "name") (a_kids a))) (fun ns =>
    match ds with [] => None | _ => Some (AtomData (item_name (a_id a) (last_opt ms) (last_opt ns)) ds) end)))
  else None.
Lemma item_of_ok : forall a i, item_of a = Some i -> item_means a i.
Proof.
  intros a i H. unfold item_of in H. destruct (no_pre a) eqn:N; [|discriminate].
  destruct (traverse data_of _) as [ds|] eqn:D; [|discriminate]. cbn [obnd] in H.
  destruct (traverse text_of (named_kids (id4 "mean") _)) as [ms|] eqn:M; [|discriminate]. cbn [obnd] in H.
  destruct (traverse text_of (named_kids (id4 "name") _)) as [ns|] eqn:Na; [|discriminate]. cbn [obnd] in H.
  split; [apply no_pre_ok, N|]. exists ds, ms, ns.
  split; [eapply traverse_ok; [|exact D]; apply data_of_ok|]. split; [eapply traverse_ok; [|exact M]; apply text_of_ok|].
  split; [eapply traverse_ok; [|exact Na]; apply text_of_ok|]. destruct ds; [discriminate|]. injection H as <-. split; [discriminate|reflexivity].
Qed.

(** One item per identifier, holding all values. *)
Definition merge (l : list atom_data) : list atom_data :=
  map (fun j => AtomData j (all_values l j)) (first_occurrences (idents l)).
Lemma merge_idents : forall l, idents (merge l) = first_occurrences (idents l).
Proof. intro l. unfold merge, idents at 1. rewrite map_map. cbn [ad_ident]. apply map_id. Qed.
Lemma first_occurrences_in : forall l j, In j (first_occurrences l) <-> In j l.
Proof.
  intros l j. induction l as [|i l IH]; [reflexivity|]. cbn [first_occurrences In]. rewrite filter_In, IH.
  destruct (ident_dec i j); split; intuition congruence.
Qed.
Lemma values_map : forall g o j, In j o -> values (map (fun j => AtomData j (g j)) o) j = g j.
Proof.
  intros g o j. induction o as [|i o IH]; [intros []|]. cbn [map values ad_ident ad_data].
  destruct (ident_dec i j) as [->|N]; [reflexivity|]. intros [E|H]; [contradiction|apply IH, H].
Qed.
Lemma merge_ok : forall l, merged l (merge l).
Proof.
  intro l. split; [apply merge_idents|]. intro j. destruct (in_dec ident_dec j (idents l)) as [I|N].
  - unfold merge. apply (values_map (all_values l)). apply first_occurrences_in, I.
  - rewrite values_absent by (rewrite merge_idents, first_occurrences_in; exact N). unfold all_values.
    induction l as [|a l IH]; [reflexivity|]. cbn [filter]. cbn [idents map In] in N.
    destruct (ident_dec (ad_ident a) j) as [E|_]; [exfalso; apply N; left; exact E|]. apply IH. intro H. apply N. right. exact H.
Qed.

Definition ilst_of (a : atom) : option (list atom_data) :=
  if no_pre a then obnd (traverse item_of (filter (fun k => negb (is_named (id4 "free") k)) (a_kids a))) (fun l => Some (merge l)) else None.
Lemma ilst_of_ok : forall a l, ilst_of a = Some l -> ilst_means a l.
Proof.
  intros a l H. unfold ilst_of in H. destruct (no_pre a) eqn:N; [|discriminate]. destruct (traverse _ _) as [r|] eqn:T; [|discriminate].
  injection H as <-. split; [apply no_pre_ok, N|]. exists r. split; [|apply merge_ok]. eapply traverse_ok; [|exact T]. apply item_of_ok.
Qed.
Definition meta_of (a : atom) : option (option (list atom_data)) :=
  if version0b (a_pre a) then last_of (id4 "ilst") ilst_of a else None.
Lemma meta_of_ok : forall a o, meta_of a = Some o -> meta_means a o.
Proof.
  intros a o H. unfold meta_of in H. destruct (version0b (a_pre a)) eqn:V; [|discriminate]. split; [apply version0b_ok, V|].
  eapply last_of_ok; [|exact H]. apply ilst_of_ok.
Qed.
Definition udta_of : atom -> option (option (list atom_data)) := box_of (id4 "meta") meta_of.
Lemma udta_of_ok : forall a o, udta_of a = Some o -> udta_means a o.
Proof. intros a o. apply box_of_ok, meta_of_ok. Qed.

(** ** Audio parameters *)

(** The length of a descriptor in at most [k] bytes: the number of bytes it has and its value. *)
Fixpoint len7_of (k : nat) (n : N) (b : bytes) : option (nat * N) :=
  match k, b with
  | S k', x :: r =>
    if b2n x <? 128 then Some (1%nat, n * 128 + b2n x)
    else match len7_of k' (n * 128 + (b2n x - 128)) r with Some (w, v) => Some (S w, v) | None => None end
  | _, _ => None
  end.
Fixpoint descs_of (fuel : nat) (b : bytes) : option (list desc) :=
  match fuel, b with
  | _, [] => Some []
  | O, _ => None
  | S k, t :: r =>
    match len7_of 4 0 r with
    | None => None
    | Some (w, n) =>
      let body := skipn w r in
      if blen body <? n then None
      else match descs_of k (skipn (N.to_nat n) body) with
           | Some l => Some (Desc t w (firstn (N.to_nat n) body) :: l)
           | None => None
           end
    end
  end.
Definition good_descb (d : desc) : bool :=
  (1 <=? d_width d)%nat && (d_width d <=? 4)%nat && (blen (d_body d) <? 128 ^ N.of_nat (d_width d)).
Lemma good_descb_ok : forall d, good_descb d = true -> good_desc d.
Proof. intros d H. unfold good_descb in H. split; lia. Qed.
(** Descriptors behind [n] bytes. *)
Definition behind (n : nat) (b : bytes) : option (bytes * list desc) :=
  let h := firstn n b in
  obnd (descs_of (List.length b) (skipn n b)) (fun l =>
  when ((List.length h =? n)%nat && same_bytes b (h ++ flat_map render_desc l) && forallb good_descb l) (h, l)).
Lemma behind_ok : forall n b h l, behind n b = Some (h, l) -> List.length h = n /\ b = h ++ flat_map render_desc l /\ Forall good_desc l.
Proof.
  intros n b h l H. unfold behind in H. destruct (descs_of _ _) as [x|]; [|discriminate]. cbn [obnd] in H. apply when_ok in H.
  destruct H as [H E]. injection E as <- <-. repeat rewrite andb_true_iff in H. destruct H as ((L & S) & F).
  split; [apply Nat.eqb_eq, L|]. split; [apply same_bytes_ok, S|]. eapply forallb_ok; [|exact F]. apply good_descb_ok.
Qed.

Definition same_opt (a b : option N) : bool :=
  match a, b with Some x, Some y => x =? y | None, None => true | _, _ => false end.
Lemma same_opt_ok : forall a b, same_opt a b = true -> a = b.
Proof. intros [x|] [y|] H; try discriminate; [|reflexivity]. apply N.eqb_eq in H. subst. reflexivity. Qed.
Definition ds_of (b : bytes) : option (option channel_config * option sample_rate) :=
  let i := bits_value (firstn 4 (skipn 5 (bits b))) in
  let c := bits_value (firstn 4 (skipn 9 (bits b))) in
  let rate := sample_rate_of i in
  let ch := channel_config_of c in
  when ((2 <=? List.length b)%nat && same_opt (option_map hz rate) (nth_error mpeg4_frequencies (N.to_nat i)) &&
        same_opt (option_map channel_count ch) (join (nth_error mpeg4_channels (N.to_nat c)))) (ch, rate).
Lemma ds_of_ok : forall b ch rate, ds_of b = Some (ch, rate) -> ds_means b ch rate.
Proof.
  intros b ch rate H. apply when_ok in H. destruct H as [H E]. injection E as <- <-. repeat rewrite andb_true_iff in H.
  destruct H as ((L & R) & C). split; [apply Nat.leb_le, L|]. split; apply same_opt_ok; assumption.
Qed.
Definition dc_of (b : bytes) : option audio :=
  obnd (behind 13 b) (fun p => let (h, l) := p in
  let mx := Some (unbe (firstn 4 (skipn 5 h))) in
  let av := Some (unbe (skipn 9 h)) in
  match tagged_desc 5 l with
  | [] => Some (Audio None None mx av)
  | [d] => obnd (ds_of (d_body d)) (fun q => Some (Audio (fst q) (snd q) mx av))
  | _ => None
  end).
Lemma dc_of_ok : forall b a, dc_of b = Some a -> dc_means b a.
Proof.
  intros b a H. unfold dc_of in H. destruct (behind 13 b) as [[h l]|] eqn:B; [|discriminate]. cbn [obnd] in H.
  apply behind_ok in B. destruct B as (L & E & F). exists h, l. split; [exact L|]. split; [exact E|]. split; [exact F|].
  destruct (tagged_desc 5 l) as [|d [|]]; [| |discriminate].
  - injection H as <-. repeat split.
  - destruct (ds_of (d_body d)) as [[ch rate]|] eqn:D; [|discriminate]. injection H as <-. split; [reflexivity|]. split; [reflexivity|].
    apply ds_of_ok, D.
Qed.
Definition es_of (b : bytes) : option audio :=
  obnd (behind 3 b) (fun p =>
  match tagged_desc 4 (snd p) with
  | [] => Some (Audio None None None None)
  | [d] => dc_of (d_body d)
  | _ => None
  end).
Lemma es_of_ok : forall b a, es_of b = Some a -> es_means b a.
Proof.
  intros b a H. unfold es_of in H. destruct (behind 3 b) as [[h l]|] eqn:B; [|discriminate]. cbn [obnd snd] in H.
  apply behind_ok in B. destruct B as (L & E & F). exists h, l. split; [exact L|]. split; [exact E|]. split; [exact F|].
  destruct (tagged_desc 4 l) as [|d [|]]; [| |discriminate].
  - injection H as <-. reflexivity.
  - apply dc_of_ok, H.
Qed.
(** The first descriptor, then anything. *)
Definition esds_of (a : atom) : option audio :=
  let c := a_content a in
  match skipn 4 c with
  | [] => None
  | t :: r =>
    obnd (len7_of 4 0 r) (fun p =>
    let d := Desc t (fst p) (firstn (N.to_nat (snd p)) (skipn (fst p) r)) in
    let rest := skipn (N.to_nat (snd p)) (skipn (fst p) r) in
    if is_named (id4 "esds") a && version0b (firstn 4 c) && (b2n t =? 3) && good_descb d && same_bytes c (firstn 4 c ++ render_desc d ++ rest)
    then es_of (d_body d) else None)
  end.
Lemma esds_of_ok : forall a x, esds_of a = Some x -> esds_means a x.
Proof.
  intros a x H. unfold esds_of in H. destruct (skipn 4 (a_content a)) as [|t r]; [discriminate|].
  destruct (len7_of 4 0 r) as [[w n]|]; [|discriminate]. cbn [obnd fst snd] in H.
  match type of H with (if ?c then _ else _) = _ => destruct c eqn:C; [|discriminate] end.
  repeat rewrite andb_true_iff in C. destruct C as ((((N & V) & T) & G) & S). split.
  - unfold is_named in N. destruct (fourcc_dec (a_id a) (id4 "esds")); [assumption|discriminate].
  - do 3 eexists. split; [apply version0b_ok, V|]. split; [|split; [apply good_descb_ok, G|split; [apply same_bytes_ok, S|apply es_of_ok, H]]].
    cbn [d_tag]. apply N.eqb_eq, T.
Qed.
Definition mp4a_of (a : atom) : option audio :=
  if (List.length (a_pre a) =? 28)%nat then match a_kids a with e :: _ => esds_of e | [] => None end else None.
Lemma mp4a_of_ok : forall a x, mp4a_of a = Some x -> mp4a_means a x.
Proof.
  intros a x H. unfold mp4a_of in H. destruct (Nat.eqb_spec (List.length (a_pre a)) 28) as [L|]; [|discriminate].
  destruct (a_kids a) as [|e r] eqn:K; [discriminate|]. split; [exact L|]. exists e, r. split; [exact K|apply esds_of_ok, H].
Qed.
Definition stsd_of (a : atom) : option (option audio) :=
  if version0b (firstn 4 (a_pre a)) && (List.length (a_pre a) =? 8)%nat then last_of (id4 "mp4a") mp4a_of a else None.
Lemma stsd_of_ok : forall a x, stsd_of a = Some x -> stsd_means a x.
Proof.
  intros a x H. unfold stsd_of in H. match type of H with (if ?c then _ else _) = _ => destruct c eqn:C; [|discriminate] end.
  apply andb_true_iff in C. destruct C as [V L]. apply Nat.eqb_eq in L. split.
  - exists (firstn 4 (a_pre a)), (skipn 4 (a_pre a)). split; [apply version0b_ok, V|]. split; [rewrite skipn_length, L; reflexivity|].
    symmetry. apply firstn_skipn.
  - eapply last_of_ok; [|exact H]. apply mp4a_of_ok.
Qed.
Definition trak_of : atom -> option (option audio) :=
  box_of (id4 "mdia") (box_of (id4 "minf") (box_of (id4 "stbl") (box_of (id4 "stsd") stsd_of))).
Lemma trak_of_ok : forall a x, trak_of a = Some x -> trak_means a x.
Proof. intros a x. do 4 (apply box_of_ok; intros ? ?). apply stsd_of_ok. Qed.

(** ** The movie *)

Definition nanos_of (scale dur : N) : option N :=
  when (negb (scale =? 0) && (dur * 1000000000 <? 2 ^ 64)) (dur * 1000000000 / scale).
Lemma nanos_of_ok : forall s d n, nanos_of s d = Some n -> nanos s d n.
Proof. intros s d n H. apply when_ok in H. destruct H as [H <-]. repeat split; lia. Qed.
Definition mvhd_of (a : atom) : option N :=
  let b := a_content a in
  if (field b 0 1 =? 0) && (20 <=? blen b) then nanos_of (field b 12 4) (field b 16 4)
  else if (field b 0 1 =? 1) && (32 <=? blen b) then nanos_of (field b 20 4) (field b 24 8)
  else None.
Lemma mvhd_of_ok : forall a d, mvhd_of a = Some d -> mvhd_means a d.
Proof.
  intros a d H. unfold mvhd_of in H. match type of H with (if ?c then _ else _) = _ => destruct c eqn:C end.
  - left. apply nanos_of_ok in H. apply andb_true_iff in C. destruct C. split; [lia|]. split; [lia|exact H].
  - match type of H with (if ?c then _ else _) = _ => destruct c eqn:C'; [|discriminate] end. right. apply nanos_of_ok in H.
    apply andb_true_iff in C'. destruct C'. split; [lia|]. split; [lia|exact H].
Qed.
Definition moov_of (a : atom) : option (audio_info * list atom_data) :=
  if no_pre a then
    obnd (last_of (id4 "mvhd") mvhd_of a) (fun dur =>
    obnd (traverse trak_of (named_kids (id4 "trak") (a_kids a))) (fun auds =>
    obnd (last_of (id4 "udta") udta_of a) (fun uo =>
    Some (info_of dur (first_some auds), match join uo with Some l => l | None => [] end))))
  else None.
Lemma moov_of_ok : forall a i l, moov_of a = Some (i, l) -> moov_means a i l.
Proof.
  intros a i l H. unfold moov_of in H. destruct (no_pre a) eqn:N; [|discriminate].
  destruct (last_of (id4 "mvhd") mvhd_of a) as [dur|] eqn:D; [|discriminate]. cbn [obnd] in H.
  destruct (traverse trak_of _) as [auds|] eqn:T; [|discriminate]. cbn [obnd] in H.
  destruct (last_of (id4 "udta") udta_of a) as [uo|] eqn:U; [|discriminate]. injection H as <- <-.
  split; [apply no_pre_ok, N|]. exists dur, auds, uo. split; [eapply last_of_ok; [|exact D]; apply mvhd_of_ok|].
  split; [eapply traverse_ok; [|exact T]; apply trak_of_ok|]. split; [eapply last_of_ok; [|exact U]; apply udta_of_ok|]. split; reflexivity.
Qed.

Definition tag_of (f : list atom) : option tag :=
  match f with
  | [] => None
  | ft :: r =>
    match split_on (id4 "moov") r with
    | None => None
    | Some (pre, mv, post) =>
      obnd (dec8 (a_content ft)) (fun s =>
      obnd (moov_of mv) (fun p =>
      when (is_named (id4 "ftyp") ft && wf_ustr s && same_bytes (a_content ft) (enc8 s) &&
            (List.length (named_kids (id4 "moov") (pre ++ post)) =? 0)%nat) (Tag s (fst p) (snd p))))
    end
  end.
Lemma split_on_named : forall id l x a y, split_on id l = Some (x, a, y) -> l = x ++ a :: y /\ is_named id a = true.
Proof.
  intros id l. induction l as [|b l IH]; intros x a y H; cbn [split_on] in H; [discriminate|]. destruct (is_named id b) eqn:N.
  - injection H as <- <- <-. auto.
  - destruct (split_on id l) as [[[x' a'] y']|]; [|discriminate]. injection H as <- <- <-. destruct (IH _ _ _ eq_refl) as [-> I]. auto.
Qed.
Lemma is_named_ok : forall id a, is_named id a = true -> a_id a = id.
Proof. intros id a. unfold is_named. destruct (fourcc_dec (a_id a) id); [auto|discriminate]. Qed.
Lemma tag_of_ok : forall f t, tag_of f = Some t -> describes f t.
Proof.
  intros f t H. unfold tag_of in H. destruct f as [|ft r]; [discriminate|]. destruct (split_on (id4 "moov") r) as [[[pre mv] post]|] eqn:S; [|discriminate].
  apply split_on_named in S. destruct S as [-> M]. destruct (dec8 (a_content ft)) as [s|]; [|discriminate]. cbn [obnd] in H.
  destruct (moov_of mv) as [[i l]|] eqn:MV; [|discriminate]. cbn [obnd fst snd] in H. apply when_ok in H. destruct H as [H <-].
  repeat rewrite andb_true_iff in H. destruct H as (((I & W) & E) & N). exists ft, pre, mv, post. split; [reflexivity|].
  split; [apply is_named_ok, I|]. split; [exact W|]. split; [apply same_bytes_ok, E|]. split; [apply is_named_ok, M|].
  split; [destruct (named_kids _ _); [reflexivity|discriminate]|]. apply moov_of_ok, MV.
Qed.

(** * Files *)

Definition good_sizesb (f : list atom) : bool := forallb fits f && (blen (render_all f) <? 2 ^ 62).

(** The atoms of a file and the tag they mean. *)
Definition accept (b : bytes) : option (list atom * tag) :=
  obnd (build file_schema b) (fun p => let f := snd p in
  obnd (tag_of f) (fun t => when (same_bytes (render_all f) b && good_sizesb f) (f, t))).

(** An accepted file meets the hypotheses of the theorems about reading. *)
Lemma accept_ok : forall b f t, accept b = Some (f, t) -> b = render_all f /\ describes f t /\ good_sizes f.
Proof.
  intros b f t H. unfold accept in H. destruct (build file_schema b) as [[x k]|]; [|discriminate]. cbn [obnd snd] in H.
  destruct (tag_of k) as [s|] eqn:T; [|discriminate]. cbn [obnd] in H. apply when_ok in H. destruct H as [H E]. injection E as -> ->.
  apply andb_true_iff in H. destruct H as [S G]. apply andb_true_iff in G. destruct G as [G L].
  split; [symmetry; apply same_bytes_ok, S|]. split; [apply tag_of_ok, T|]. split; [exact G|lia].
Qed.

(** Can [items] be written to the file? *)
Definition updatableb (f : list atom) (items : list atom_data) : bool :=
  editableb f && storableb items && good_sizesb (update_file items f).
Lemma updatableb_ok : forall b f t items, accept b = Some (f, t) -> updatableb f items = true -> updatable f items.
Proof.
  intros b f t items A H. apply accept_ok in A. destruct A as (_ & D & G). unfold updatableb, good_sizesb in H. repeat rewrite andb_true_iff in H. destruct H as ((E & S) & (Z & L)).
  split; [split; [exact G|exists t; exact D]|]. split; [apply editableb_ok, E|]. split; [apply storableb_ok, S|].
  split; [exact Z|lia].
Qed.
