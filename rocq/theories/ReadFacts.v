(** Consequences of the read theorems, used by [Props_Read]. *)

From Coq Require Import List NArith ZArith Bool Lia Arith String Permutation.
From Coq Require Import ZifyBool ZifyNat ZifyN.
From Verif Require Import Base BaseLemmas Utf UtfLemmas Types Stream Parse Find Write TagSpec TagLemmas FileSpec ParseLemmas ReadProofs ReadSpec.
Import ListNotations.
Local Open Scope list_scope.
Ltac Zify.zify_post_hook ::= Z.div_mod_to_equations.

Lemma last_forall2 : forall {A B} (P : A -> B -> Prop) l r, Forall2 P l r ->
  match last_opt l, last_opt r with Some a, Some b => P a b | None, None => True | _, _ => False end.
Proof.
  induction 1 as [|a b l r H F IH]; [exact I|]. rewrite !last_opt_cons.
  destruct (last_opt l), (last_opt r); try contradiction; assumption.
Qed.

Lemma named_moov : forall f t, describes f t -> exists mv, named_kids (id4 "moov") f = [mv] /\ moov_means mv (tg_info t) (tg_atoms t).
Proof.
  intros f t (ft & pre & mv & post & -> & Ift & W & C & Imv & Nm & M). exists mv. split; [|exact M].
  unfold named_kids in *. rewrite filter_app in Nm. apply app_eq_nil in Nm. destruct Nm as [N1 N2].
  cbn [filter]. rewrite (id_neq ft (id4 "ftyp") (id4 "moov") Ift) by discriminate.
  rewrite filter_app. cbn [filter]. rewrite (proj2 (is_named_eq _ _) Imv), N1, N2. reflexivity.
Qed.

Lemma item_list_means : forall f t, describes f t ->
  match item_list f with Some il => ilst_means il (tg_atoms t) | None => tg_atoms t = [] end.
Proof.
  intros f t D. destruct (named_moov f t D) as (mv & N & (_ & dur & auds & uo & _ & _ & (us & Fu & ->) & _ & ->)).
  unfold item_list. cbn [last_at]. rewrite N. change (last_opt [mv]) with (Some mv). cbv iota.
  pose proof (last_forall2 _ _ _ Fu) as L. destruct (last_opt (named_kids (id4 "udta") (a_kids mv))) as [u|], (last_opt us) as [o|];
    try contradiction; [|reflexivity]. cbn [join].
  destruct L as (_ & oo & (ms & Fm & ->) & ->).
  pose proof (last_forall2 _ _ _ Fm) as L. destruct (last_opt (named_kids (id4 "meta") (a_kids u))) as [me|], (last_opt ms) as [o|];
    try contradiction; [|reflexivity]. cbn [join].
  destruct L as (_ & (ls & Fl & ->)).
  pose proof (last_forall2 _ _ _ Fl) as L. destruct (last_opt (named_kids (id4 "ilst") (a_kids me))) as [il|], (last_opt ls) as [o|];
    try contradiction; [exact L|reflexivity].
Qed.

Lemma movie_header_means : forall f t, describes f t ->
  match movie_header f, ai_duration (tg_info t) with
  | Some a, Some d => mvhd_means a d
  | None, None => True
  | _, _ => False
  end.
Proof.
  intros f t D. destruct (named_moov f t D) as (mv & N & (_ & dur & auds & uo & (ds & Fd & ->) & _ & _ & E & _)).
  unfold movie_header. cbn [last_at]. rewrite N. change (last_opt [mv]) with (Some mv). cbv iota. rewrite E.
  assert (X : ai_duration (info_of (last_opt ds) (first_some auds)) = last_opt ds) by (destruct (first_some auds); reflexivity).
  rewrite X. apply (last_forall2 _ _ _ Fd).
Qed.

Lemma tracks_mean : forall f t, describes f t ->
  exists auds, Forall2 trak_means (tracks f) auds /\ tg_info t = info_of (ai_duration (tg_info t)) (first_some auds).
Proof.
  intros f t D. destruct (named_moov f t D) as (mv & N & (_ & dur & auds & uo & _ & Fa & _ & E & _)).
  exists auds. unfold tracks. cbn [last_at]. rewrite N. change (last_opt [mv]) with (Some mv). cbv iota. split; [exact Fa|].
  rewrite E at 1. f_equal. rewrite E. destruct (first_some auds); reflexivity.
Qed.

(** Merging loses nothing. *)
Lemma ev_ilst_add : forall l a, Permutation (every_value (ilst_add l a)) (every_value l ++ every_value [a]).
Proof.
  unfold every_value. induction l as [|o r IH]; intros a; cbn [ilst_add].
  - reflexivity.
  - destruct (ident_eqb (ad_ident a) (ad_ident o)) eqn:E.
    + apply ident_eqb_eq in E. cbn [flat_map ad_ident ad_data]. rewrite map_app, <- E, app_nil_r, <- !app_assoc.
      apply Permutation_app_head. apply Permutation_app_comm.
    + cbn [flat_map]. rewrite <- app_assoc. apply Permutation_app_head. apply IH.
Qed.
Lemma ev_fold : forall l s, Permutation (every_value (fold_left ilst_add l s)) (every_value s ++ every_value l).
Proof.
  induction l as [|a l IH]; intros s; cbn [fold_left].
  - cbn. rewrite app_nil_r. reflexivity.
  - rewrite IH, ev_ilst_add. unfold every_value. cbn [flat_map]. rewrite app_nil_r, app_assoc. reflexivity.
Qed.
Lemma merged_values : forall l r, merged l r -> Permutation (every_value r) (every_value l).
Proof. intros l r M. rewrite (merged_det _ _ _ M (merged_fold l)). apply (ev_fold l []). Qed.

(** Movie headers. *)
Lemma field_lt : forall b p n, p + n <= blen b -> field b p n < 256 ^ n.
Proof. intros b p n H. unfold field. pose proof (unbe_lt (slice b p n)) as X. rewrite blen_slice in X by exact H. exact X. Qed.
Lemma mvhd_v0 : forall a, field (a_content a) 0 1 = 0 -> 20 <= blen (a_content a) -> field (a_content a) 12 4 <> 0 ->
  mvhd_means a (field (a_content a) 16 4 * 1000000000 / field (a_content a) 12 4).
Proof.
  intros a V L T. left. repeat split; auto. pose proof (field_lt (a_content a) 16 4 ltac:(lia)) as X.
  change (256 ^ 4) with 4294967296 in X. change (2 ^ 64) with 18446744073709551616. lia.
Qed.

(** Decoder specific info is decoded for every content. *)
Lemma ds_total : forall b, (2 <= List.length b)%nat -> exists ch rate, ds_means b ch rate.
Proof.
  intros b L. destruct b as [|x [|y r]]; cbn in L; try lia.
  exists (channel_config_of ((unbe [x; y] / 8) mod 16)), (sample_rate_of ((unbe [x; y] / 128) mod 16)).
  split; [cbn; lia|]. destruct (bits_ds x y r) as [-> ->].
  assert (A : forall i, i < 16 -> option_map hz (sample_rate_of i) = nth_error mpeg4_frequencies (N.to_nat i)).
  { intros i Hi. assert (exists n, i = N.of_nat n /\ (n < 16)%nat) as (n & -> & Hn) by (exists (N.to_nat i); lia).
    rewrite Nat2N.id. do 16 (destruct n as [|n]; [reflexivity|]). lia. }
  assert (B : forall i, i < 16 -> option_map channel_count (channel_config_of i) = join (nth_error mpeg4_channels (N.to_nat i))).
  { intros i Hi. assert (exists n, i = N.of_nat n /\ (n < 16)%nat) as (n & -> & Hn) by (exists (N.to_nat i); lia).
    rewrite Nat2N.id. do 16 (destruct n as [|n]; [reflexivity|]). lia. }
  split; [apply A|apply B]; apply N.mod_lt; lia.
Qed.
Lemma ds_det : forall b ch rate ch' rate', ds_means b ch rate -> ds_means b ch' rate' -> ch = ch' /\ rate = rate'.
Proof.
  intros b ch rate ch' rate' (_ & R1 & C1) (_ & R2 & C2). rewrite <- R2 in R1. rewrite <- C2 in C1. split.
  - destruct ch as [[]|], ch' as [[]|]; cbn in C1; congruence.
  - destruct rate as [[]|], rate' as [[]|]; cbn in R1; congruence.
Qed.

Lemma tagged_none : forall t l, Forall (fun d => b2n (d_tag d) <> t) l -> tagged_desc t l = [].
Proof. intros t l F. induction F as [|d l H F IH]; [reflexivity|]. cbn. rewrite (proj2 (N.eqb_neq _ _) H). exact IH. Qed.
Lemma tagged_app : forall t a b, tagged_desc t (a ++ b) = tagged_desc t a ++ tagged_desc t b.
Proof. intros. apply filter_app. Qed.

(** * Streams that are rejected *)

Lemma read_exact_short : forall n f p, n <> 0 -> blen f < p + n -> read_exact n f p = Err EIoEof.
Proof. intros n f p N L. unfold read_exact. rewrite (proj2 (N.eqb_neq _ _) N), (proj2 (N.leb_gt _ _)) by lia. reflexivity. Qed.
Lemma read_exact_in : forall n f p, p + n <= blen f -> read_exact n f p = Ok (slice f p n, p + n).
Proof.
  intros n f p L. unfold read_exact. destruct (N.eqb_spec n 0) as [->|N]; [|rewrite (proj2 (N.leb_le _ _)) by lia; reflexivity].
  unfold slice. change (N.to_nat 0) with 0%nat. rewrite firstn_O, N.add_0_r. reflexivity.
Qed.

Lemma fourcc_of_slice : forall f p x, p + 4 <= blen f -> fourcc_of_bytes (slice f p 4) = x -> slice f p 4 = fc_bytes x.
Proof.
  intros f p x L E. pose proof (blen_slice f p 4 L) as B. unfold blen in B.
  destruct (slice f p 4) as [|a [|b [|c [|d [|e r]]]]]; cbn in B; try lia. subst x. reflexivity.
Qed.

(** The head at the start of a stream. *)
Lemma head_start : forall f, 8 <= blen f ->
  parse_head f 0 =
    if field f 0 4 =? 1 then
      if blen f <? 16 then Err EIoEof
      else Ok (Head (Size true (field f 8 8)) (fourcc_of_bytes (slice f 4 4)), 16)
    else if field f 0 4 <? 8 then Err EParsing
    else Ok (Head (Size false (field f 0 4)) (fourcc_of_bytes (slice f 4 4)), 8).
Proof.
  intros f L. unfold parse_head, read_u32, read_u64, bind. rewrite (read_exact_in 4) by lia. unfold ret.
  change (0 + 4) with 4. rewrite (read_exact_in 4) by lia. change (4 + 4) with 8. fold (field f 0 4).
  destruct (field f 0 4 =? 1).
  - destruct (N.ltb_spec (blen f) 16).
    + rewrite read_exact_short by lia. reflexivity.
    + rewrite (read_exact_in 8) by lia. reflexivity.
  - destruct (field f 0 4 <? 8); reflexivity.
Qed.

Lemma ftyp_rejects : forall f, slice f 4 4 <> fc_bytes (id4 "ftyp") -> exists e,
  (forall m, ftyp_parse m f 0 = Err e) /\
  (8 <= blen f /\ 8 <= field f 0 4 \/ 16 <= blen f /\ field f 0 4 = 1 -> e = ENoTag).
Proof.
  intros f N. destruct (N.lt_ge_cases (blen f) 8) as [L|L].
  - exists EIoEof. split; [|lia]. intros m. unfold ftyp_parse, parse_head, read_u32, bind.
    destruct (N.lt_ge_cases (blen f) 4) as [L4|L4]; [rewrite read_exact_short by lia; reflexivity|].
    rewrite (read_exact_in 4) by lia. unfold ret. rewrite read_exact_short by lia. reflexivity.
  - assert (NF : fourcc_eqb (fourcc_of_bytes (slice f 4 4)) FILETYPE = false).
    { apply fourcc_eqb_neq. intros E. apply fourcc_of_slice in E; [|lia]. exact (N E). }
    assert (U : forall m, ftyp_parse m f 0 = match parse_head f 0 with Ok _ => Err ENoTag | Err e => Err e | Panic c => Panic c | Fuel => Fuel end).
    { intros m. unfold ftyp_parse. unfold bind at 1. rewrite head_start by exact L.
      destruct (field f 0 4 =? 1); [destruct (blen f <? 16)|destruct (field f 0 4 <? 8)]; cbn [hd_fourcc]; rewrite ?NF; reflexivity. }
    rewrite head_start in U by exact L.
    destruct (N.eqb_spec (field f 0 4) 1) as [E1|E1].
    + destruct (N.ltb_spec (blen f) 16); [exists EIoEof; split; [exact U|lia]|exists ENoTag; split; auto].
    + destruct (N.ltb_spec (field f 0 4) 8); [exists EParsing; split; [exact U|lia]|exists ENoTag; split; auto].
Qed.

Lemma read_rejects : forall fuel m f e, ftyp_parse m f 0 = Err e -> read_tag fuel m f = Err e.
Proof. intros fuel m f e H. unfold read_tag, read_tag_from, bind. rewrite H. reflexivity. Qed.
Lemma write_rejects : forall cap fuel m atoms f e, ftyp_parse m f 0 = Err e ->
  write_tag cap fuel m atoms f = WResult (Err e) f [].
Proof. intros. unfold write_tag, write_tag_to, prepare, scan, bind. rewrite H. reflexivity. Qed.

(** No movie atom. *)
Lemma leaf_kid : forall m k f p, small f -> sits f p (render k) ->
  leaf_find m (size_of k) f (p + hlen k) = Ok (bounds_of p k, p + asize k).
Proof.
  intros m k f p Sm S. unfold leaf_find. erewrite bind_ok by apply find_bounds_of.
  erewrite bind_ok by (apply seek_to_end_of; auto; rewrite asize_eq; lia). reflexivity.
Qed.

Lemma find_moov_none : forall m inner ks fuel len parsed f p,
  forallb fits ks = true -> named_kids (id4 "moov") ks = [] -> small f -> sits f p (render_all ks) ->
  parsed + blen (render_all ks) = len -> len < 2 ^ 64 -> (List.length ks < fuel)%nat ->
  find_moov fuel m inner len parsed f p = Err (EAtomNotFound MOVIE).
Proof.
  intros m inner ks. induction ks as [|x r IH]; intros fuel len parsed f p Fp Np Sm S L L64 Fu;
    (destruct fuel as [|fuel]; [cbn in Fu; lia|]); cbn [find_moov].
  - change (render_all []) with (@nil byte) in *. rewrite blen_nil in L. rewrite (proj2 (N.leb_le len parsed)) by lia. reflexivity.
  - cbn [forallb] in Fp. apply andb_true_iff in Fp. destruct Fp as [Fx Fr]. rewrite blen_render_all_cons in L. pose proof (asize_pos x).
    rewrite (proj2 (N.leb_gt len parsed)) by lia. rewrite render_all_cons in S. apply sits_app in S. destruct S as [Sx Sr].
    pose proof Sx as S'. rewrite render_eq in S'. apply sits_app in S'. destruct S' as [Sh _].
    erewrite bind_ok by (apply (parses_head x Fx f p Sm Sh)). rewrite blen_header. fold (hlen x).
    cbn [hd_fourcc hd_size head_of sz_len size_of]. change MOVIE with (id4 "moov") at 1. rewrite fourcc_eqb_named.
    cbn [named_kids filter] in Np. destruct (is_named (id4 "moov") x); [discriminate|].
    erewrite bind_ok by (apply (kid_skip m x f p Sm Sx)).
    erewrite bind_ok by (unfold lift; rewrite add64_ok by (unfold two64; lia); reflexivity).
    apply IH; auto; [lia|cbn in Fu; lia].
Qed.

(** The scan loop over atoms other than the movie atom. *)
Lemma top_none : forall m inner ks fuel len parsed r f p,
  forallb fits ks = true -> named_kids (id4 "moov") ks = [] -> small f -> sits f p (render_all ks) ->
  parsed + blen (render_all ks) = len -> len < 2 ^ 64 -> (List.length ks < fuel)%nat ->
  exists b, atom_loop fuel m (Ok len) (top_fbody inner m) parsed r f p = Ok ((fst r, b), p + blen (render_all ks)).
Proof.
  intros m inner ks. induction ks as [|x l IH]; intros fuel len parsed r f p Fp Np Sm S L L64 Fu;
    (destruct fuel as [|fuel]; [cbn in Fu; lia|]); cbn [atom_loop]; unfold bind at 1, lift at 1.
  - change (render_all []) with (@nil byte) in *. rewrite blen_nil in *. rewrite (proj2 (N.ltb_ge parsed len)) by lia.
    exists (snd r). rewrite N.add_0_r. destruct r; reflexivity.
  - cbn [forallb] in Fp. apply andb_true_iff in Fp. destruct Fp as [Fx Fr]. rewrite blen_render_all_cons in *. pose proof (asize_pos x).
    rewrite (proj2 (N.ltb_lt parsed len)) by lia. rewrite render_all_cons in S. apply sits_app in S. destruct S as [Sx Sr].
    pose proof Sx as S'. rewrite render_eq in S'. apply sits_app in S'. destruct S' as [Sh _].
    erewrite bind_ok by (apply (parses_head x Fx f p Sm Sh)). rewrite blen_header. fold (hlen x).
    unfold top_fbody at 1. cbn [hd_fourcc hd_size head_of]. change MOVIE with (id4 "moov"). rewrite fourcc_eqb_named.
    cbn [named_kids filter] in Np. destruct (is_named (id4 "moov") x); [discriminate|].
    rewrite N.add_assoc.
    assert (K : forall r', fst r' = fst r -> exists b,
      (parsed' <- lift (add64 m parsed (sz_len (size_of x))) ;; atom_loop fuel m (Ok len) (top_fbody inner m) parsed' r') f (p + asize x)
      = Ok ((fst r, b), p + asize x + blen (render_all l))).
    { intros r' E. erewrite bind_ok by (unfold lift; cbn [size_of sz_len]; rewrite add64_ok by (unfold two64; lia); reflexivity).
      rewrite <- E. apply IH; auto; [lia|cbn in Fu; lia]. }
    destruct (fourcc_eqb (a_id x) MEDIA_DATA).
    + erewrite bind_ok by (erewrite bind_ok by (apply leaf_kid; auto); reflexivity). apply K. reflexivity.
    + erewrite bind_ok by (erewrite bind_ok by (apply (kid_skip m x f p Sm Sx)); reflexivity). apply K. reflexivity.
Qed.

Lemma no_moov : forall cap fuel m atoms ft s rest, good_sizes (ft :: rest) -> a_id ft = id4 "ftyp" ->
  wf_ustr s = true -> a_content ft = enc8 s -> named_kids (id4 "moov") rest = [] ->
  blen (render_all (ft :: rest)) < N.of_nat fuel ->
  read_tag fuel m (render_all (ft :: rest)) = Err (EAtomNotFound (id4 "moov")) /\
  write_tag cap fuel m atoms (render_all (ft :: rest)) = WResult (Err (EAtomNotFound (id4 "moov"))) (render_all (ft :: rest)) [].
Proof.
  intros cap fuel m atoms ft s rest (F & Sm) I W C N Fu. set (fb := render_all (ft :: rest)) in *.
  cbn [forallb] in F. apply andb_true_iff in F. destruct F as [Fft F].
  assert (P : ftyp_parse m fb 0 = Ok (s, asize ft)).
  { pose proof (ftyp_parses m ft s Fft I W C fb 0 Sm) as X. rewrite N.add_0_l in X. apply X.
    exists [], (render_all rest). split; reflexivity. }
  assert (S : sits fb (asize ft) (render_all rest)) by (exists (render ft), []; rewrite app_nil_r; split; reflexivity).
  assert (L : blen fb = asize ft + blen (render_all rest)) by apply blen_render_all_cons.
  assert (Q : remaining_stream_len m fb (asize ft) = Ok (blen (render_all rest), asize ft)).
  { rewrite remaining_ok by (exact Sm || lia). do 2 f_equal. lia. }
  assert (LL : (List.length rest < fuel)%nat) by (pose proof (kids_count rest); unfold blen in *; lia).
  unfold small in *. split.
  - unfold read_tag, read_tag_from. erewrite bind_ok by exact P. erewrite bind_ok by exact Q.
    unfold bind. rewrite find_moov_none with (ks := rest); auto; lia.
  - unfold write_tag, write_tag_to, prepare, scan. unfold bind at 1. 
    erewrite bind_ok by exact P. erewrite bind_ok by exact Q.
    destruct (top_none m fuel rest fuel (blen (render_all rest)) 0 (None, None) fb (asize ft) F N Sm S) as (b & Hb); try lia.
    erewrite bind_ok by exact Hb. cbn [fst]. reflexivity.
Qed.

(** * Strings *)

Lemma utf8_read : forall f p bs, small f -> sits f p bs ->
  (forall s, read_utf8 (blen bs) f p = Ok (s, p + blen bs) <-> wf_ustr s = true /\ enc8 s = bs) /\
  ((forall s, wf_ustr s = true -> enc8 s <> bs) -> read_utf8 (blen bs) f p = Err EUtf8).
Proof.
  intros f p bs Sm S. pose proof (sits_len _ _ _ S) as L. unfold small in Sm.
  assert (V : read_u8_vec (blen bs) f p = Ok (bs, p + blen bs)) by (apply parses_vec; auto).
  unfold read_utf8. split.
  - intros s. rewrite <- dec8_correct. unfold bind. rewrite V. destruct (dec8 bs) as [x|]; cbn.
    + split; intros H; injection H as <-; reflexivity.
    + split; discriminate.
  - intros N. unfold bind. rewrite V. destruct (dec8 bs) as [x|] eqn:E; [|reflexivity].
    apply dec8_correct in E. destruct E as [E1 E2]. exfalso. apply (N x E1 E2).
Qed.

Lemma utf16_bytes : forall s, flat_map (be 2) (enc16 s) = units_bytes (enc16 s).
Proof. intros. unfold units_bytes. rewrite flat_map_concat_map. reflexivity. Qed.

Lemma utf16_read : forall f p bs, small f -> sits f p bs -> Nat.even (List.length bs) = true ->
  (forall s, read_utf16 (blen bs) f p = Ok (s, p + blen bs) <-> wf_ustr s = true /\ flat_map (be 2) (enc16 s) = bs) /\
  ((forall s, wf_ustr s = true -> flat_map (be 2) (enc16 s) <> bs) -> read_utf16 (blen bs) f p = Err EUtf16).
Proof.
  intros f p bs Sm S Ev.
  assert (V : read_u8_vec (blen bs) f p = Ok (bs, p + blen bs)) by (apply parses_vec; auto).
  assert (D : forall s, dec16 (bytes_units bs) = Some s <-> wf_ustr s = true /\ flat_map (be 2) (enc16 s) = bs).
  { intros s. rewrite dec16_correct by (apply (bytes_units_wf (List.length bs)); auto). rewrite utf16_bytes. split; intros [A B]; split; auto.
    - rewrite B. apply (units_bytes_bytes_units (List.length bs)); auto.
    - rewrite <- B. symmetry. apply bytes_units_units_bytes. apply enc16_units, A. }
  unfold read_utf16. split.
  - intros s. rewrite <- D. unfold bind. rewrite V. destruct (dec16 (bytes_units bs)) as [x|]; cbn.
    + split; intros H; injection H as <-; reflexivity.
    + split; discriminate.
  - intros N. unfold bind. rewrite V. destruct (dec16 (bytes_units bs)) as [x|] eqn:E; [|reflexivity].
    destruct (proj1 (D x) eq_refl) as [E1 E2]. exfalso. apply (N x E1 E2).
Qed.

(** * Heads *)

Definition out {A} (o : Out A) : bytes := List.concat (fst o).

Lemma write_head_bytes : forall s id, out (write_head s id) =
  if sz_ext s then be 4 1 ++ fc_bytes id ++ be 8 (sz_len s) else be 4 (sz_len s) ++ fc_bytes id.
Proof. intros [[] n] id; unfold out, write_head; cbn [sz_ext sz_len obind emit fst snd List.concat app]; rewrite ?app_nil_r; reflexivity. Qed.

Lemma head_roundtrip : forall s id, (if sz_ext s then sz_len s < 2 ^ 64 else 8 <= sz_len s < 2 ^ 32) ->
  parses parse_head (out (write_head s id)) (Head s id).
Proof.
  intros [e n] id H. rewrite write_head_bytes. cbn [sz_ext sz_len] in *. unfold parse_head. destruct e.
  - eapply parses_bind; [apply parses_read_u32; lia|].
    eapply parses_bind; [apply parses_read_exact; symmetry; apply blen_fc|]. cbv zeta. rewrite fourcc_of_bytes_fc.
    change (1 =? 1) with true. cbv iota. eapply parses_bind_r; [apply parses_read_u64, H|apply parses_ret].
  - eapply parses_bind; [apply parses_read_u32; lia|].
    eapply parses_bind_r; [apply parses_read_exact; symmetry; apply blen_fc|]. cbv zeta. rewrite fourcc_of_bytes_fc.
    rewrite (proj2 (N.eqb_neq n 1)), (proj2 (N.ltb_ge n 8)) by lia. apply parses_ret.
Qed.

(** * Typed values *)

Lemma out_omap_emit : forall {A} (g : A -> bytes) l, fst (omap (fun x => emit (g x)) l) = map g l /\ snd (omap (fun x => emit (g x)) l) = Ok tt.
Proof.
  intros A g l. induction l as [|x r [I1 I2]]; [split; reflexivity|]. cbn [omap obind emit fst snd map]. rewrite I1, I2. split; reflexivity.
Qed.
Lemma write_raw_bytes : forall d, out (write_raw d) = payload d /\ snd (write_raw d) = Ok tt.
Proof.
  intros []; unfold out; cbn; rewrite ?app_nil_r; split; try reflexivity.
  - rewrite (proj1 (out_omap_emit be16 _)), flat_map_concat_map. reflexivity.
  - apply (out_omap_emit be16).
Qed.
Lemma data_code_eq : forall d, data_code d = type_code d.
Proof. destruct d; reflexivity. Qed.
Lemma write_typed_bytes : forall d, out (write_typed d) = n2b 0 :: be 3 (type_code d) ++ zeros 4 ++ payload d /\ snd (write_typed d) = Ok tt.
Proof.
  intros d. destruct (write_raw_bytes d) as [A B]. unfold out, write_typed in *. cbn [obind emit fst snd]. rewrite B. split; [|reflexivity].
  cbn [app List.concat]. rewrite A, data_code_eq. destruct d; reflexivity.
Qed.

Lemma data_unknown : forall t n f p,
  (~ In t known_codes -> data_parse t n f p = Err (EUnknownDataType t)) /\
  (forall c, data_parse t n f p = Err (EUnknownDataType c) -> ~ In t known_codes).
Proof.
  intros t n f p. unfold known_codes. split.
  - intros H. unfold data_parse.
    repeat match goal with |- context [match ?x with _ => _ end] => is_var x; destruct x; try reflexivity end;
    exfalso; apply H; cbn; tauto.
  - intros c H I. cbn in I.
    assert (V : forall c, read_u8_vec n f p <> Err (EUnknownDataType c)).
    { intros c'. unfold read_u8_vec, lift, read_exact. destruct (_ <=? _); [discriminate|]. destruct (_ =? 0); [discriminate|].
      destruct (_ <=? _); discriminate. }
    destruct I as [<-|[<-|[<-|[<-|[<-|[<-|[<-|[]]]]]]]]; cbn in H; unfold read_utf8, read_utf16, bind in H; specialize (V c);
      destruct (read_u8_vec n f p) as [[v q]| | |]; try discriminate; try congruence.
    + destruct (dec8 v); discriminate.
    + destruct (dec16 (bytes_units v)); discriminate.
Qed.
