(** Theorems about power failures while a file is written: C80 (see properties.jsonl). *)

From Coq Require Import List NArith ZArith Bool Lia String.
From Coq Require Import ZifyBool ZifyNat ZifyN.
From Verif Require Import Base BaseLemmas Types Utf Stream Parse Find Write TagSpec FileSpec FailSpec PanicSpec WPanicSpec ErrSpec FirstSpec OutSpec LayoutSpec WOutSpec WOutRun WriteState CallsAny Props_Any PowerSpec PowerProofs.
From Verif Require Props_Write2 FailProofs Props_Layout WOutUnique.
Import ListNotations.
Local Open Scope list_scope.

(** * C80: calls may reach the disk in any order *)

(** The failures of C09, where the calls reach the disk in the order they are made and the last one only in part, are among
    these. *)
Theorem C80_covers : forall cap fuel m items f old made rest g, blen f < 2 ^ 62 -> 8 < cap ->
  wr_ops (write_tag cap fuel m items f) = made ++ rest ->
  (g = run_ops made f \/ exists p n b r, rest = OWrite p (n ++ b) :: r /\ n <> [] /\ g = write_at (run_ops made f) p n) ->
  settles (wr_ops (write_tag cap fuel m items f)) old f g.
Proof.
  intros cap fuel m items f old made rest g L C E H. pose proof (calls_some cap fuel m items f) as Ne. rewrite E in *. set (ops := made ++ rest) in *.
  assert (R : forall l f g, (forall o, In o l -> In o ops) -> settles ops old (run_ops l f) g -> settles ops old f g).
  { clear H E g. induction l as [|o l IH]; intros f0 g I S; [exact S|]. cbn [run_ops fold_left] in S. specialize (IH (apply_op f0 o) g (fun x H => I x (or_intror H)) S).
    assert (Io : In o ops) by (apply I; now left). destruct o as [p d|n]; cbn [apply_op] in IH.
    - eapply (Settle_write ops old f0 p d [] d []); [exact Io|now rewrite app_nil_r|]. rewrite blen_nil, N.add_0_r. rewrite <- patch_is; [exact IH|]. intros ->. exact (Ne p L C Io).
    - exact (Settle_length ops old f0 n g Io IH). }
  apply (R made); [intros o I; apply in_or_app; now left|]. destruct H as [-> |(p & n & b & r & -> & Nn & ->)]; [constructor|].
  apply (Settle_write ops old _ p (n ++ b) [] n b); [apply in_or_app; right; now left|reflexivity|]. rewrite blen_nil, N.add_0_r, patch_is by exact Nn. constructor.
Qed.
Print Assumptions C80_covers.

(** What is in front of the first thing that looks like a movie box is safe, whatever the file: media data there, too. *)
Theorem C80_front : forall cap fuel items f pos lo g,
  blen f < 2 ^ 62 -> FailProofs.announced items < 2 ^ 61 -> no_huge_box f ->
  lo <= blen f -> (forall q, q < lo -> slice f (q + 4) 4 <> fc_bytes (id4 "moov")) ->
  settles (wr_ops (write_tag_to cap fuel Checked items f pos)) (blen f) f g ->
  lo <= blen g /\ firstn (N.to_nat lo) g = firstn (N.to_nat lo) f.
Proof.
  intros cap fuel items f pos lo g Lf La Hh Lo Nm S. pose proof (calls_front cap fuel items f pos lo Lf La Hh Nm) as O.
  assert (K : forall q, q < lo -> q < blen g /\ byte_at g q = byte_at f q).
  { intros q Lq. apply (settle_keep (fun p _ => lo <= p) (fun n => lo <= n) (wr_ops (write_tag_to cap fuel Checked items f pos)) (blen f) f g q); try assumption; try (intros; lia).
    apply Forall_impl with (2 := O). intros [p d|n] H; cbn [op_ge okop] in *; [|exact H]. intros i b _. lia. }
  assert (Lg : lo <= blen g). { destruct (N.eq_dec lo 0) as [-> |Z]; [lia|]. destruct (K (lo - 1) ltac:(lia)). lia. }
  split; [exact Lg|]. apply bytes_same. intros q. destruct (N.lt_ge_cases q lo) as [A|A].
  - rewrite !byte_firstn by exact A. now apply K.
  - rewrite !byte_ge; [reflexivity|unfold blen; rewrite firstn_length; lia|unfold blen; rewrite firstn_length; lia].
Qed.
Print Assumptions C80_front.

(** The plan of a write without numbers that are too large. *)
Lemma edge_sound : forall f mo, sound f mo -> sound f (edge mo).
Proof.
  intros f mo Sm. unfold edge, host. destruct (old_list mo) as [i|] eqn:O; [exact (list_sound f mo Sm i O)|].
  destruct (metadata mo) as [e|] eqn:E; [exact (meta_sound f mo Sm e E)|]. destruct (user_data mo) as [u|] eqn:U; [exact (user_sound f mo Sm u U)|exact Sm].
Qed.
Lemma planned_is : forall m f items mo s e d, blen f < 2 ^ 62 -> sound f mo -> m = Checked \/ n_size (edge mo) < 2 ^ 63 -> pieces_len items mo < 2 ^ 62 -> ready m f items mo s e d ->
  s = place mo /\ s <= e /\ (Z.of_N e + d = Z.of_N (s + pieces_len items mo))%Z /\ e = n_at (edge mo) + n_size (edge mo).
Proof.
  intros m f items mo s e d Lf Sm Hm Hp [(K & Es & d0 & T0 & T1) Le]. destruct (sound_at f (edge mo) (edge_sound f mo Sm)) as (_ & La & _).
  assert (P62 : 2 ^ 62 = 4611686018427387904) by reflexivity. assert (P63 : 2 ^ 63 = 9223372036854775808) by reflexivity. assert (P64 : 2 ^ 64 = 18446744073709551616) by reflexivity. assert (Q63 : (2 ^ 63)%Z = 9223372036854775808%Z) by reflexivity.
  assert (Ee : e = n_at (edge mo) + n_size (edge mo)) by (destruct K as [[_ K]|(K1 & K2 & K3)]; [exact K|destruct Hm as [-> |Hm]; [discriminate|lia]]).
  assert (Sp : signed (pieces_len items mo) = Z.of_N (pieces_len items mo)) by (unfold signed; destruct (_ <? _) eqn:X; [reflexivity|lia]).
  assert (E0 : d0 = less_old mo /\ (- 2 ^ 62 <= less_old mo <= 0)%Z).
  { assert (X : (- 2 ^ 62 <= less_old mo <= 0)%Z). { change (2 ^ 62)%Z with 4611686018427387904%Z. unfold less_old. unfold edge in *. destruct (old_list mo) as [i|]; [|lia]. unfold signed. destruct (n_size i <? 2 ^ 63) eqn:X; lia. }
    split; [|exact X]. change (2 ^ 62)%Z with 4611686018427387904%Z in X. destruct T0 as [[_ T]|(_ & T & _)]; [exact T|]. exfalso. apply T. unfold in_range. lia. }
  destruct E0 as [-> B0]. change (2 ^ 62)%Z with 4611686018427387904%Z in B0. assert (E1 : d = (less_old mo + Z.of_N (pieces_len items mo))%Z).
  { rewrite Sp in T1. destruct T1 as [[_ T]|(_ & T & _)]; [exact T|]. exfalso. apply T. unfold in_range. lia. }
  clear T0 T1 K. unfold place. unfold edge, less_old in *. destruct (old_list mo) as [i|].
  - unfold signed in *. destruct (n_size i <? 2 ^ 63) eqn:X; [|lia]. subst. split; [reflexivity|]. split; [lia|]. split; [lia|reflexivity].
  - subst. split; [reflexivity|]. split; [lia|]. split; [lia|reflexivity].
Qed.
Lemma ops_of : forall ok len_ok l, Forall (okcall ok len_ok) l -> Forall (okop ok len_ok) l.
Proof. intros ok len_ok l H. apply Forall_impl with (2 := H). intros o [X _]. exact X. Qed.
Lemma unsigned_is : forall n, n < 2 ^ 64 -> unsigned (Z.of_N n) = n.
Proof. intros n L. unfold unsigned. rewrite Z.mod_small; [apply N2Z.id|]. change (2 ^ 64)%Z with (Z.of_N (2 ^ 64)). lia. Qed.

(** In front of the place of the new boxes, whatever the file, only the sizes of the boxes around it can be wrong, and the
    chunk offsets if the media data is behind. *)
Theorem C80_reach : forall cap fuel m items f ns mo g q, blen f < 2 ^ 62 -> 8 < cap ->
  finds m f ns -> movie ns = Some mo -> m = Checked \/ n_size (edge mo) < 2 ^ 63 -> pieces_len items mo < 2 ^ 62 ->
  settles (wr_ops (write_tag cap fuel m items f)) (blen f) f g ->
  q < blen f -> q < place mo -> ~ reached ns mo q -> q < blen g /\ same_at f g q.
Proof.
  intros cap fuel m items f ns mo g q Lf C Fi M Hm Hp S Lq Lp Nr. rewrite same_at_is. assert (P64 : 2 ^ 64 = 4 * 2 ^ 62) by reflexivity.
  apply (settle_keep (fun x _ => place mo <= x \/ reached ns mo x) (fun n => place mo <= n) (wr_ops (write_tag cap fuel m items f)) (blen f) f g q); try assumption; [|intros b [X|X]; [lia|contradiction]|intros; lia].
  apply ops_of. apply (calls_good _ _ (fun _ => True)); [exact Lf|exact C|exact I|]. intros ns' mo' s e d Fi' M' R.
  pose proof (WOutUnique.finds_one m f ns' ns Fi' Fi). subst ns'. rewrite M in M'. injection M' as <-.
  pose proof (movie_sound _ _ _ _ Fi M) as Sm. destruct (planned_is m f items mo s e d Lf Sm Hm Hp R) as (Es & Le & Ed & _). destruct R as [_ Lb]. split; [|split; [|split; [|split]]].
  - intros A. apply Forall_forall. intros [wide n] It g' _ _ Hl _. cbn [fst snd] in *. cbv zeta. split; [|exact I]. intros i b Hb. right. right. split; [exact A|]. apply Exists_exists. exists (wide, n). split; [exact It|].
    apply byte_lt in Hb. rewrite entries_len in Hb. cbn [snd]. unfold in_entries, table_start in *.
    pose proof (tables_sound m f ns Fi) as St. rewrite Forall_forall in St. destruct (sound_at f n (St _ It)) as (Hh & _ & _).
    assert (Lc : entry_size wide * N.of_nat (count g' n) < 2 ^ 36).
    { unfold count. rewrite N2Nat.id. pose proof (field_lt g' (n_at n + n_head n + 4) 4) as X. change (256 ^ 4) with (2 ^ 32) in X. destruct wide; cbn [entry_size]; change (2 ^ 36) with (16 * 2 ^ 32); lia. }
    set (X := entry_size wide * N.of_nat (count g' n)) in *. clearbody X. destruct Hl as [[H1 H2]|(_ & H1 & H2)]; [lia|]. assert (W : 2 ^ 64 = 2 ^ 28 * 2 ^ 36) by reflexivity. change (2 ^ 28) with 268435456 in W. lia.
  - apply Forall_forall. intros [p v] Iv. apply in_flat_map in Iv. destruct Iv as (n & In & Iv). unfold field_fine. cbn [fst snd]. intros i b Hb. right. left. apply Exists_exists. exists n. split; [exact In|].
    apply byte_lt in Hb. unfold size_fields in Iv. unfold in_size. destruct (n_head n =? 16) eqn:X.
    + destruct Iv as [Iv|[Iv|[]]]; apply pair_equal_spec in Iv; destruct Iv as [<- <-]; rewrite blen_be in Hb; lia.
    + destruct Iv as [Iv|[]]; apply pair_equal_spec in Iv; destruct Iv as [<- <-]; rewrite blen_be in Hb; lia.
  - replace (Z.of_N (blen f) + d)%Z with (Z.of_N (blen f - e + (s + pieces_len items mo))) by lia. rewrite unsigned_is; lia.
  - intros i b _. left. lia.
  - rewrite Ed, unsigned_is by lia. intros i b _. left. lia.
Qed.
Print Assumptions C80_reach.

(** A list that is replaced by one of the same length: the file keeps its length, and every byte is as it was or, in the
    list, as it is to be. *)
Theorem C80_same_length : forall cap fuel m items f ns mo i g, blen f < 2 ^ 62 -> 8 < cap ->
  finds m f ns -> movie ns = Some mo -> old_list mo = Some i -> n_at i + n_size i <= blen f ->
  pieces_len items mo = n_size i -> blen (poured m (pieces items mo)) <= n_size i ->
  settles (wr_ops (write_tag cap fuel m items f)) (blen f) f g ->
  blen g = blen f /\
  forall q, same_at f g q \/ n_at i <= q < n_at i + n_size i /\ slice g q 1 = slice (poured m (pieces items mo)) (q - n_at i) 1.
Proof.
  intros cap fuel m items f ns mo i g Lf C Fi M O Li Hp Lp S. assert (P64 : 2 ^ 64 = 4 * 2 ^ 62) by reflexivity. assert (P63 : 2 ^ 63 = 2 * 2 ^ 62) by reflexivity. set (new := poured m (pieces items mo)) in *.
  set (ok := fun q b => byte_at f q = Some b \/ n_at i <= q < n_at i + n_size i /\ byte_at new (q - n_at i) = Some b).
  assert (Fc : Forall (okop ok (fun n => n = blen f)) (wr_ops (write_tag cap fuel m items f))).
  { apply ops_of. apply (calls_good _ _ (fun h => h = f)); [exact Lf|exact C|reflexivity|]. intros ns' mo' s e d Fi' M' R.
    pose proof (WOutUnique.finds_one m f ns' ns Fi' Fi). subst ns'. rewrite M in M'. injection M' as <-. pose proof (movie_sound _ _ _ _ Fi M) as Sm.
    assert (Ee : edge mo = i) by (unfold edge; now rewrite O). destruct (planned_is m f items mo s e d Lf Sm ltac:(right; rewrite Ee; lia) ltac:(lia) R) as (Es & Le & Ed & E2). rewrite Ee in E2. destruct R as [_ Lb].
    assert (Es' : s = n_at i) by (rewrite Es; unfold place; now rewrite O). assert (D0 : d = 0%Z) by lia. subst d.
    assert (Ok0 : forall q b, byte_at f q = Some b -> ok q b) by (intros; now left). split; [|split; [|split; [|split]]].
    - intros A. apply Forall_forall. intros [wide n] It g' -> _ Hl Hb. cbn [fst snd] in *. cbv zeta. rewrite entries_same by exact Hb. split; [now apply slice_okat|]. now apply patch_same.
    - apply Forall_forall. intros x Ix. apply in_flat_map in Ix. destruct Ix as (n & In & Ix). pose proof (around_sound f mo Sm) as Sa. rewrite Forall_forall in Sa.
      pose proof (fields_same ok f n Ok0 (Sa n In)) as X. rewrite Forall_forall in X. now apply X.
    - rewrite Z.add_0_r, unsigned_is; lia.
    - rewrite Es'. fold new. intros k b Hb. right. assert (X := byte_lt _ _ _ Hb). split; [split; lia|]. replace (n_at i + k - n_at i) with k by lia. exact Hb.
    - rewrite Z.add_0_r, unsigned_is by lia. intros k b Hb. left. now rewrite byte_skipn in Hb. }
  destruct (settle_same ok (fun n => n = blen f) _ f f g Fc S) as [X1 X2].
  - intros q b [X|[X _]]; [exact (byte_lt _ _ _ X)|lia].
  - auto.
  - reflexivity.
  - split; [exact X1|]. intros q. rewrite same_at_is. destruct (X2 q) as [X|(b & X & [Y|[Y1 Y2]])]; [now left|left; congruence|right]. split; [exact Y1|]. rewrite !slice_one, X, Y2. reflexivity.
Qed.
Print Assumptions C80_same_length.

(** * A file *)

(** The boxes that fill a container, found by evaluation; used for concrete files only. *)
Fixpoint look (k : nat) (f : bytes) (l : level) (n d q : N) : option (list node * N) :=
  match k with
  | O => None
  | S k =>
    if d =? n then Some ([], q) else
    match Props_Layout.box_of f q with
    | None => None
    | Some (id, head, size) =>
      if (head <=? size) && (d + size <=? n) && (q + size <? 2 ^ 63) then
        match scan_opens l id with
        | None => match look k f l n (d + size) (q + size) with Some (ns, q') => Some (Node q head size id [] :: ns, q') | None => None end
        | Some (l', s) =>
          if (match version_said l' with Some _ => (q + head + 4 <=? blen f) && (field f (q + head) 1 =? 0) | None => true end) && (s <=? size - head) then
            match look k f l' (size - head) s (q + head + s) with
            | Some (inside, q1) => match look k f l n (d + size) q1 with Some (ns, q') => Some (Node q head size id inside :: ns, q') | None => None end
            | None => None
            end
          else None
        end
      else None
    end
  end.
Lemma look_comes : forall k m f l n d q ns q', look k f l n d q = Some (ns, q') -> n < 2 ^ 63 -> forall c ns0 w, comes m f c ((l, n, d, ns0) :: w) q -> exists c', comes m f c' ((l, n, n, ns0 ++ ns) :: w) q'.
Proof.
  assert (P64 : 2 ^ 64 = 2 * 2 ^ 63) by reflexivity.
  induction k as [|k IH]; intros m f l n d q ns q' E Ln c ns0 w Hc; [discriminate|]. cbn [look] in E. destruct (d =? n) eqn:D.
  { injection E as <- <-. rewrite app_nil_r. assert (d = n) as -> by lia. eauto. }
  destruct (Props_Layout.box_of f q) as [[[id head] size]|] eqn:B; [|discriminate]. apply Props_Layout.box_of_is in B. destruct (_ && _ && _) eqn:G in E; [|discriminate].
  destruct (scan_opens l id) as [[l' s]|] eqn:O.
  - destruct (_ && _) eqn:V in E; [|discriminate]. destruct (look k f l' _ _ _) as [[inside q1]|] eqn:E1; [|discriminate]. destruct (look k f l n _ q1) as [[ns2 q2]|] eqn:E2; [|discriminate]. injection E as <- <-.
    assert (H1 : comes m f (S c) ((l', size - head, s, []) :: (l, n, d + size, ns0 ++ [Node q head size id []]) :: w) (q + head + s)).
    { eapply Come_into; [exact Hc|lia|exact B|exact O| |left; split; [lia|reflexivity]]. apply Enter_fine; [|intros [_ X]; lia].
      destruct (version_said l'); [right; split; lia|now left]. }
    destruct (IH m f _ _ _ _ _ _ E1 ltac:(lia) _ _ _ H1) as [c1 H2]. cbn [app] in H2. eapply Come_out in H2; [|apply N.le_refl|left; split; [|reflexivity]; lia].
    destruct (IH m f _ _ _ _ _ _ E2 Ln _ _ _ H2) as [c2 H3]. rewrite <- app_assoc in H3. eauto.
  - destruct (look k f l n _ _) as [[ns2 q2]|] eqn:E2; [|discriminate]. injection E as <- <-.
    assert (H1 : comes m f (S c) ((l, n, d + size, ns0 ++ [Node q head size id []]) :: w) (q + size)).
    { destruct B as (B0 & B1 & B2). destruct (noted l id) as [|x y] eqn:Nt.
      - eapply Come_past with (nm := []); [exact Hc|lia|exact (conj B0 (conj B1 B2))|exact O| |left; split; [lia|reflexivity]]. apply Pass_other; [exact Nt|]. apply Skip_on; lia.
      - eapply Come_past with (nm := noted l id); [exact Hc|lia|exact (conj B0 (conj B1 B2))|exact O| |left; split; [lia|reflexivity]]. apply Pass_noted; [rewrite Nt; discriminate|]. apply End_on; [left; split; [lia|reflexivity]| |lia]. intros [_ X]. lia. }
    destruct (IH m f _ _ _ _ _ _ E2 Ln _ _ _ H1) as [c2 H3]. rewrite <- app_assoc in H3. eauto.
Qed.

Definition bx (id : string) (c : bytes) : bytes := be 4 (8 + blen c) ++ fc_bytes (id4 id) ++ c.
(** A movie with a table and a list of one item, between two boxes with media data. *)
Definition one_item : list atom_data := [AtomData (IFourcc TITLE) [DUtf8 (repeat 97 26)]].
Definition two_items : list atom_data := [AtomData (IFourcc TITLE) [DUtf8 [98]]; AtomData (IFourcc ARTIST) [DUtf8 [99]]].
Definition small (items : list atom_data) : bytes :=
  bx "ftyp" (map n2b [77; 52; 65; 32]) ++ bx "mdat" (map n2b [1; 2]) ++
  bx "moov" (bx "trak" (bx "mdia" (bx "minf" (bx "stbl" (bx "stco" (zeros 4 ++ be 4 1 ++ be 4 300))))) ++
             bx "udta" (bx "meta" (zeros 4 ++ render new_hdlr ++ bx "ilst" (render_all (map item_atom items))))) ++
  bx "mdat" (map n2b [3; 4]).
Definition small_nodes : list node := match look 20 (small one_item) Top (blen (small one_item) - 12) 0 12 with Some (ns, _) => ns | None => [] end.
Lemma small_finds : finds Checked (small one_item) small_nodes.
Proof.
  assert (E : look 20 (small one_item) Top (blen (small one_item) - 12) 0 12 = Some (small_nodes, blen (small one_item))) by (vm_compute; reflexivity).
  destruct (look_comes 20 Checked _ _ _ _ _ _ _ E ltac:(vm_compute; reflexivity) 0%nat [] []) as [c H]; [|exists c, (blen (small one_item) - 12), (blen (small one_item) - 12), (blen (small one_item)); split; [exact H|lia]].
  apply Come_first. eapply Type_taken; [apply Props_Layout.box_of_is; vm_compute; reflexivity|left; split; [vm_compute; discriminate|reflexivity]|]. apply (Take_good _ 8 4); [vm_compute; reflexivity|right; vm_compute; discriminate|].
  exists [77; 52; 65; 32]. split; vm_compute; reflexivity.
Qed.
Definition small_movie : node := match movie small_nodes with Some mo => mo | None => Node 0 0 0 (id4 "moov") [] end.
Definition small_list : node := match old_list small_movie with Some i => i | None => small_movie end.
(** The list of one item can be replaced by one of two items of the same length: all calls together do that, *)
Example C80_same_length_example :
  let f := small one_item in let w := write_tag 8192 30 Checked two_items f in
  blen f < 2 ^ 62 /\ finds Checked f small_nodes /\ movie small_nodes = Some small_movie /\ old_list small_movie = Some small_list /\ n_at small_list + n_size small_list <= blen f /\
  pieces_len two_items small_movie = n_size small_list /\ blen (poured Checked (pieces two_items small_movie)) <= n_size small_list /\
  wr_res w = Ok tt /\ wr_file w = small two_items /\ List.length (wr_ops w) = 7%nat /\ settles (wr_ops w) (blen f) f (small two_items).
Proof.
  cbv zeta. split; [vm_compute; reflexivity|]. split; [exact small_finds|]. split; [vm_compute; reflexivity|]. split; [vm_compute; reflexivity|]. split; [vm_compute; discriminate|]. split; [vm_compute; reflexivity|].
  split; [vm_compute; discriminate|]. split; [vm_compute; reflexivity|]. split; [vm_compute; reflexivity|]. split; [vm_compute; reflexivity|].
  eapply C80_covers with (made := wr_ops (write_tag 8192 30 Checked two_items (small one_item))) (rest := []); [vm_compute; reflexivity|vm_compute; reflexivity|now rewrite app_nil_r|]. left. vm_compute. reflexivity.
Qed.
(** but if only some of them reach the disk, the file can be one that is neither the old nor the new one: it may not be
    readable, or have a title that nobody wrote. *)
Theorem C80_mixed_refuted : let f := small one_item in
  let other := [AtomData (IFourcc TITLE) [DUtf8 (repeat 98 26)]] in
  (exists g, settles (wr_ops (write_tag 8192 30 Checked two_items f)) (blen f) f g /\ read_tag 30 Checked g = Err EIoEof) /\
  pieces_len other small_movie = n_size small_list /\
  (exists g t, settles (wr_ops (write_tag 8192 30 Checked other f)) (blen f) f g /\ read_tag 30 Checked g = Ok t /\ tg_atoms t = [AtomData (IFourcc TITLE) [DUtf8 (98 :: repeat 97 25)]]).
Proof.
  cbv zeta. split; [|split; [vm_compute; reflexivity|]].
  - pose (d := poured Checked (pieces two_items small_movie)). exists (patch (135 + blen (firstn 8 d)) (slice d 8 4) (small one_item)). split; [|vm_compute; reflexivity].
    apply (Settle_write _ _ _ 135 d (firstn 8 d) (slice d 8 4) (skipn 12 d)); [|vm_compute; reflexivity|constructor].
    apply (nth_error_In _ 5). vm_compute. reflexivity.
  - pose (d := poured Checked (pieces [AtomData (IFourcc TITLE) [DUtf8 (repeat 98 26)]] small_movie)). exists (patch (135 + blen (firstn 32 d)) (slice d 32 1) (small one_item)). eexists. split; [|split; [vm_compute; reflexivity|reflexivity]].
    apply (Settle_write _ _ _ 135 d (firstn 32 d) (slice d 32 1) (skipn 33 d)); [|vm_compute; reflexivity|constructor].
    apply (nth_error_In _ 5). vm_compute. reflexivity.
Qed.
Print Assumptions C80_mixed_refuted.
(** A longer list: the sizes of the boxes around it and the offset change, the rest in front of it does not, nor the media
    data in front of the movie. *)
Example C80_reach_example : let f := small one_item in let items := one_item ++ two_items in
  pieces_len items small_movie < 2 ^ 62 /\ place small_movie = 135 /\ reached small_nodes small_movie 25 /\ reached small_nodes small_movie 78 /\ reached small_nodes small_movie 85 /\
  ~ reached small_nodes small_movie 26 /\ ~ reached small_nodes small_movie 134 /\ 22 <= blen f /\ (forall q, q < 22 -> slice f (q + 4) 4 <> fc_bytes (id4 "moov")) /\ no_huge_box f.
Proof.
  cbv zeta. split; [vm_compute; reflexivity|]. split; [vm_compute; reflexivity|]. unfold reached, in_size, in_entries.
  replace (adjusts small_nodes) with true by (vm_compute; reflexivity).
  let v := eval vm_compute in (around small_movie) in replace (around small_movie) with v by (vm_compute; reflexivity).
  let v := eval vm_compute in (tables_of small_nodes) in replace (tables_of small_nodes) with v by (vm_compute; reflexivity).
  split; [left; left; cbn [n_at]; lia|]. split; [right; split; [reflexivity|]; left; cbn [n_at n_head n_size snd]; lia|]. split; [left; right; left; cbn [n_at]; lia|].
  split; [intros [H|[_ H]]; repeat (inversion H as [? ? H'|? ? H']; subst; clear H; rename H' into H); cbn [n_at n_head n_size snd] in H; lia|].
  split; [intros [H|[_ H]]; repeat (inversion H as [? ? H'|? ? H']; subst; clear H; rename H' into H); cbn [n_at n_head n_size snd] in H; lia|].
  split; [vm_compute; discriminate|]. split; [apply no_moovb_ok; vm_compute; reflexivity|]. apply no_hugeb_ok. vm_compute. reflexivity.
Qed.
