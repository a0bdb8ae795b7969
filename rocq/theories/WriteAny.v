(** What a successful write does to an arbitrary byte string. *)

From Coq Require Import List NArith ZArith Bool Lia Arith String.
From Coq Require Import ZifyBool ZifyNat ZifyN.
From Verif Require Import Base BaseLemmas Utf Types Stream Parse Find Write TagSpec FileSpec ParseLemmas ReadFacts WriteBytes WriteState FailSpec FailProofs ScanFwd.
Import ListNotations.
Local Open Scope list_scope.


(** * The plan *)

Definition container (f : bytes) (b : bounds) : Prop := exists id, (id = id4 "moov" \/ id = id4 "udta" \/ id = id4 "meta") /\ found f id b.
Definition headed (f : bytes) (start : N) (b : bounds) : Prop := container f b /\ bend b <= start.
Definition plan_any (f : bytes) (items : list atom_data) (p : plan) : Prop :=
  exists bs, replaced f items (pl_start p) (pl_moved_start p) bs /\ pl_start p <= pl_moved_start p <= blen f /\
    pl_moved p = skipn (N.to_nat (pl_moved_start p)) f /\
    pl_diff p = (Z.of_N (blen bs) - Z.of_N (pl_moved_start p - pl_start p))%Z /\
    writes (new_atoms_write Checked (pl_new p)) bs /\ Forall (headed f (pl_start p)) (pl_update p) /\ pl_update p <> [].

Lemma list_writes : forall nh items, exact_items items -> items_fit items -> nh = None \/ nh = Some meta_hdlr ->
  exists h, (h = [] \/ h = [new_hdlr]) /\ writes (new_atoms_write Checked (NIlst nh items)) (render_all (h ++ [new_ilst items])) /\
    new_atoms_len (NIlst nh items) = blen (render_all (h ++ [new_ilst items])).
Proof.
  intros nh items E F [-> | ->].
  - exists []. split; [auto|]. cbn [app new_atoms_write new_atoms_len render_all flat_map]. rewrite app_nil_r. split.
    + apply (writes_bind _ _ [] _ writes_ret). apply ilst_write_bytes; assumption.
    + cbn [hdlr_len_or_zero]. rewrite ilst_size_eq by exact E. reflexivity.
  - exists [new_hdlr]. split; [auto|]. cbn [new_atoms_write new_atoms_len]. rewrite render_all_app, blen_app. unfold render_all. cbn [flat_map]. rewrite !app_nil_r. split.
    + apply writes_bind; [apply hdlr_write_bytes|apply ilst_write_bytes; assumption].
    + cbn [hdlr_len_or_zero]. rewrite ilst_size_eq by exact E. rewrite hdlr_size_eq. reflexivity.
Qed.

Lemma moved_rest : forall (f : bytes) p, p <= blen f -> skipn (N.to_nat (N.min p (blen f))) f = skipn (N.to_nat p) f.
Proof. intros f p L. rewrite N.min_l by exact L. reflexivity. Qed.

Definition plan_shape (f : bytes) (items : list atom_data) (p : plan) : Prop :=
  let start := pl_start p in let stop := pl_moved_start p in
  moov_here f 0 (pl_moov p) /\
  (exists nh, (nh = None \/ nh = Some meta_hdlr) /\
    (pl_new p = NIlst nh items /\
       ((exists hd sz, box_at f start (id4 "ilst") hd sz /\ hd <= sz /\ stop = start + sz) \/
        stop = start /\ exists q hd sz, box_at f q (id4 "meta") hd sz /\ start = q + sz) \/
     pl_new p = NMeta (NewMeta (Some meta_hdlr) items) /\ stop = start /\ (exists q hd sz, box_at f q (id4 "udta") hd sz /\ start = q + sz) \/
     pl_new p = NUdta (NewMeta (Some meta_hdlr) items) /\ stop = start /\ (exists q hd sz, box_at f q (id4 "moov") hd sz /\ start = q + sz))) /\
  start <= stop <= blen f /\ pl_moved p = skipn (N.to_nat stop) f /\
  pl_diff p = (Z.of_N (new_atoms_len (pl_new p)) - Z.of_N (stop - start))%Z /\
  bend (vb_bounds (pl_moov p)) <= start /\ Forall (headed f start) (pl_update p) /\ pl_update p <> [] /\
  Forall (fun b => b_pos (vb_bounds (pl_moov p)) <= b_pos b) (pl_update p).

Lemma prepare_shape : forall fuel items f pos p q, blen f < 2 ^ 62 -> announced items < 2 ^ 61 -> no_huge_box f ->
  prepare fuel Checked items f pos = Ok (p, q) -> plan_shape f items p.
Proof.
  intros fuel items f pos p q Lf La Hh H. unfold prepare in H. inv_bind H. pose proof (scan_here f Hh _ _ _ _ E) as Sh. pose proof Sh as (Im & _ & Iu). clear E.
  cbv zeta in H. set (mb := fst v) in *.
  set (nh := match match match match vb_udta mb with Some u => ub_meta u | None => None end with Some e => eb_hdlr e | None => None end with None => Some meta_hdlr | Some _ => None end with x => x end) in *.
  assert (Hn : nh = None \/ nh = Some meta_hdlr).
  { unfold nh. destruct (match match vb_udta mb with Some u => ub_meta u | None => None end with Some e => eb_hdlr e | None => None end); auto. }
  assert (Hn2 : (match vb_udta mb with Some u => ub_meta u | None => None end) = None -> nh = Some meta_hdlr) by (intro X; unfold nh; rewrite X; reflexivity).
  clearbody nh. change (2 ^ 62) with 4611686018427387904 in *. change (2 ^ 61) with 2305843009213693952 in *.
  assert (T63 : two63 = 9223372036854775808) by reflexivity. assert (T64 : two64 = 18446744073709551616) by reflexivity.
  destruct Im as (Fm & _ & Rm).
  assert (Cm : forall s, bend (vb_bounds mb) <= s -> headed f s (vb_bounds mb)) by (intros s X; split; [exists (id4 "moov"); auto|exact X]).
  destruct (vb_udta mb) as [u|] eqn:Eu; [destruct (Iu u eq_refl) as [(Fu & Lu & Ru) Ium];
    assert (Cu : forall s, bend (ub_bounds u) <= s -> headed f s (ub_bounds u)) by (intros s X; split; [exists (id4 "udta"); auto|exact X]);
    destruct (ub_meta u) as [e|] eqn:Ee;
    [destruct (Ium e eq_refl) as [(Fe & Le & Re) Iil];
     assert (Ce : forall s, bend (eb_bounds e) <= s -> headed f s (eb_bounds e)) by (intros s X; split; [exists (id4 "meta"); auto|exact X]);
     destruct (eb_ilst e) as [b|] eqn:Eb|]|].
  - inv_bind H. inv_bind E. apply lift_inv in E0. destruct E0 as [E0 ->]. inv_bind E. apply lift_inv in E1. destruct E1 as [E1 ->]. injection E as <- <-.
    inv_bind H. injection E as <- <-. inv_bind H. injection E as <- <-. inv_bind H. apply lift_inv in E. destruct E as [E ->]. inv_bind H. injection E2 as <- <-.
    inv_bind H. apply lift_inv in E2. destruct E2 as [E2 ->]. destruct (two63 <=? v3) eqn:Em; [discriminate|].
    apply bind_inv in H. destruct H as (sk & p3 & E3 & H). apply bind_inv in H. destruct H as (mv & p4 & E4 & H). injection H as <- <-.
    destruct (Iil b eq_refl) as (Fb & Lb & Rb). unfold bounds_end in E0. apply add64_inv in E0. apply subi_inv in E1. apply addi_inv in E. cbn [snd fst] in *. apply sub64_inv in E2.
    unfold seek_start in E3. match type of E3 with context [?a <? two63] => destruct (a <? two63) eqn:X3; [|discriminate E3] end. injection E3 as <- <-. injection E4 as <- <-.
    unfold roomy, bend in *.
    pose proof (new_len_bound nh items (NIlst nh items) Hn ltac:(auto)) as NB. rewrite as_i64_small in E1 by lia. rewrite as_i64_small in E by lia.
    unfold plan_shape. cbn [pl_moov pl_start pl_moved_start pl_moved pl_diff pl_new pl_update].
    split; [exact Sh|]. split; [exists nh; split; [exact Hn|]; left; split; [reflexivity|]; left; exists (head_len (b_size b)), (sz_len (b_size b)); split; [exact Fb|]; split; [exact Rb|apply E0]|]. split; [lia|]. split; [apply moved_rest; lia|]. split; [lia|].
    split; [unfold bend; lia|]. split; [|split; [discriminate|]];
      repeat (first [apply Forall_nil | apply Forall_cons; [first [apply Cm|apply Cu|apply Ce|idtac]; unfold bend; lia|]]).
  - inv_bind H. injection E as <- <-. inv_bind H. inv_bind E. apply lift_inv in E0. destruct E0 as [E0 ->]. injection E as <- <-.
    inv_bind H. injection E as <- <-. inv_bind H. apply lift_inv in E. destruct E as [E ->]. inv_bind H. injection E1 as <- <-.
    inv_bind H. apply lift_inv in E1. destruct E1 as [E1 ->]. destruct (two63 <=? v2) eqn:Em; [discriminate|].
    apply bind_inv in H. destruct H as (sk & p3 & E3 & H). apply bind_inv in H. destruct H as (mv & p4 & E4 & H). injection H as <- <-.
    unfold bounds_end in E0. apply add64_inv in E0. apply addi_inv in E. cbn [snd fst] in *. apply sub64_inv in E1.
    unfold seek_start in E3. match type of E3 with context [?a <? two63] => destruct (a <? two63) eqn:X3; [|discriminate E3] end. injection E3 as <- <-. injection E4 as <- <-.
    unfold roomy, bend in *.
    pose proof (new_len_bound nh items (NIlst nh items) Hn ltac:(auto)) as NB. rewrite as_i64_small in E by lia.
    unfold plan_shape. cbn [pl_moov pl_start pl_moved_start pl_moved pl_diff pl_new pl_update].
    split; [exact Sh|]. split; [exists nh; split; [exact Hn|]; left; split; [reflexivity|]; right; split; [reflexivity|]; exists (b_pos (eb_bounds e)), (head_len (b_size (eb_bounds e))), (sz_len (b_size (eb_bounds e))); split; [exact Fe|apply E0]|]. split; [lia|]. split; [apply moved_rest; lia|]. split; [lia|].
    split; [unfold bend; lia|]. split; [|split; [discriminate|]];
      repeat (first [apply Forall_nil | apply Forall_cons; [first [apply Cm|apply Cu|apply Ce|idtac]; unfold bend; lia|]]).
  - inv_bind H. injection E as <- <-. inv_bind H. injection E as <- <-. inv_bind H. inv_bind E. apply lift_inv in E0. destruct E0 as [E0 ->]. injection E as <- <-.
    inv_bind H. apply lift_inv in E. destruct E as [E ->]. inv_bind H. injection E1 as <- <-.
    inv_bind H. apply lift_inv in E1. destruct E1 as [E1 ->]. destruct (two63 <=? v2) eqn:Em; [discriminate|].
    apply bind_inv in H. destruct H as (sk & p3 & E3 & H). apply bind_inv in H. destruct H as (mv & p4 & E4 & H). injection H as <- <-.
    unfold bounds_end in E0. apply add64_inv in E0. apply addi_inv in E. cbn [snd fst] in *. apply sub64_inv in E1.
    unfold seek_start in E3. match type of E3 with context [?a <? two63] => destruct (a <? two63) eqn:X3; [|discriminate E3] end. injection E3 as <- <-. injection E4 as <- <-. unfold roomy, bend in *.
    pose proof (new_len_bound nh items (NMeta (NewMeta nh items)) Hn ltac:(auto)) as NB. rewrite as_i64_small in E by lia. rewrite (Hn2 eq_refl) in *.
    unfold plan_shape. cbn [pl_moov pl_start pl_moved_start pl_moved pl_diff pl_new pl_update].
    split; [exact Sh|]. split; [exists None; split; [auto|]; right; left; split; [reflexivity|]; split; [reflexivity|]; exists (b_pos (ub_bounds u)), (head_len (b_size (ub_bounds u))), (sz_len (b_size (ub_bounds u))); split; [exact Fu|apply E0]|]. split; [lia|]. split; [apply moved_rest; lia|]. split; [lia|].
    split; [unfold bend; lia|]. split; [|split; [discriminate|]];
      repeat (first [apply Forall_nil | apply Forall_cons; [first [apply Cm|apply Cu|apply Ce|idtac]; unfold bend; lia|]]).
  - inv_bind H. injection E as <- <-. inv_bind H. injection E as <- <-. inv_bind H. inv_bind E. apply lift_inv in E0. destruct E0 as [E0 ->]. injection E as <- <-.
    inv_bind H. apply lift_inv in E. destruct E as [E ->]. inv_bind H. injection E1 as <- <-.
    inv_bind H. apply lift_inv in E1. destruct E1 as [E1 ->]. destruct (two63 <=? v2) eqn:Em; [discriminate|].
    apply bind_inv in H. destruct H as (sk & p3 & E3 & H). apply bind_inv in H. destruct H as (mv & p4 & E4 & H). injection H as <- <-.
    unfold bounds_end in E0. apply add64_inv in E0. apply addi_inv in E. cbn [snd fst] in *. apply sub64_inv in E1.
    unfold seek_start in E3. match type of E3 with context [?a <? two63] => destruct (a <? two63) eqn:X3; [|discriminate E3] end. injection E3 as <- <-. injection E4 as <- <-. unfold roomy, bend in *.
    pose proof (new_len_bound nh items (NUdta (NewMeta nh items)) Hn ltac:(auto)) as NB. rewrite as_i64_small in E by lia. rewrite (Hn2 eq_refl) in *.
    unfold plan_shape. cbn [pl_moov pl_start pl_moved_start pl_moved pl_diff pl_new pl_update].
    split; [exact Sh|]. split; [exists None; split; [auto|]; right; right; split; [reflexivity|]; split; [reflexivity|]; exists (b_pos (vb_bounds mb)), (head_len (b_size (vb_bounds mb))), (sz_len (b_size (vb_bounds mb))); split; [exact Fm|apply E0]|]. split; [lia|]. split; [apply moved_rest; lia|]. split; [lia|].
    split; [unfold bend; lia|]. split; [|split; [discriminate|]];
      repeat (first [apply Forall_nil | apply Forall_cons; [first [apply Cm|apply Cu|apply Ce|idtac]; unfold bend; lia|]]).
Qed.

Lemma prepare_any : forall fuel items f pos p q, blen f < 2 ^ 62 -> announced items < 2 ^ 61 -> no_huge_box f -> exact_items items -> items_fit items ->
  prepare fuel Checked items f pos = Ok (p, q) -> plan_any f items p.
Proof.
  intros fuel items f pos p q Lf La Hh Ex Fit H. destruct (prepare_shape fuel items f pos p q Lf La Hh H) as (_ & (nh & Hn & Pl) & Lst & Mv & Df & _ & Up & Un & _).
  destruct Pl as [(En & Pl)|[(En & Es & x & hd & sz & B & E)|(En & Es & x & hd & sz & B & E)]]; rewrite En in Df.
  - destruct (list_writes nh items Ex Fit Hn) as (h & Hh' & W & Ln). exists (render_all (h ++ [new_ilst items])). rewrite <- Ln, En.
    split; [|split; [exact Lst|split; [exact Mv|split; [exact Df|split; [exact W|split; [exact Up|exact Un]]]]]].
    destruct Pl as [(hd & sz & B & R & ->)|(-> & x & hd & sz & B & E)]; [eapply Replaced_list; eassumption|eapply Added_list; eassumption].
  - exists (render (FileSpec.new_meta items)). cbn [new_atoms_len] in Df. rewrite (meta_size_eq items Ex) in Df. rewrite En.
    split; [rewrite Es; eapply Added_meta; eassumption|]. split; [exact Lst|]. split; [exact Mv|]. split; [exact Df|]. split; [apply meta_write_bytes; assumption|]. split; assumption.
  - exists (render (FileSpec.new_udta items)). cbn [new_atoms_len] in Df. rewrite (udta_size_eq items Ex) in Df. rewrite En.
    split; [rewrite Es; eapply Added_udta; eassumption|]. split; [exact Lst|]. split; [exact Mv|]. split; [exact Df|]. split; [apply udta_write_bytes; assumption|]. split; assumption.
Qed.

(** * The sizes *)

Definition same_apart (f g : bytes) : Prop := forall p, ~ in_table f p -> ~ in_size_field f p -> nth_error g (N.to_nat p) = nth_error f (N.to_nat p).
Definition uinv (f : bytes) (start : N) (s : wst) : Prop :=
  exists a b, st f 0 a b s /\ blen a <= start /\ blen (a ++ b) = blen f /\ same_apart f (a ++ b).

Lemma cut_at : forall (l : bytes) n k, n + k <= blen l -> exists x y z, l = x ++ y ++ z /\ blen x = n /\ blen y = k.
Proof.
  intros l n k L. exists (firstn (N.to_nat n) l), (firstn (N.to_nat k) (skipn (N.to_nat n) l)), (skipn (N.to_nat k) (skipn (N.to_nat n) l)).
  split; [rewrite firstn_skipn, firstn_skipn; reflexivity|]. unfold blen in *. rewrite !firstn_length, skipn_length. lia.
Qed.

Lemma update_uinv : forall cap f start k diff b s r s', blen f < 2 ^ 62 -> start <= blen f -> headed f start b -> uinv f k s ->
  update_atom cap Checked diff b s = (r, s') -> aborted r \/ (r = Ok tt /\ uinv f start s').
Proof.
  intros cap f start k diff b s r s' Lf Ls [(id & Hid & B) He] (a & t & S & La & Ll & Sm) H. unfold update_atom in H.
  unfold wbind at 1, wlift at 1 in H. destruct (addi Checked (as_i64 (sz_len (b_size b))) diff) as [n|e| |] eqn:En;
    [|exfalso; eapply addi_calm, En|injection H as <- <-; left; exact I|injection H as <- <-; left; exact I].
  right. unfold found in B. unfold bend in He. assert (T63 : two63 = 9223372036854775808) by reflexivity. change (2 ^ 62) with 4611686018427387904 in Lf.
  assert (Same : forall q y' (g : bytes) x y z, g = x ++ y ++ z -> blen x = q -> blen y' = blen y -> same_apart f g ->
    (b_pos b <= q /\ q + blen y <= b_pos b + 4 \/ head_len (b_size b) = 16 /\ b_pos b + 8 <= q /\ q + blen y <= b_pos b + 16) -> same_apart f (x ++ y' ++ z)).
  { intros q y' g x y z -> Lx Ly Sg Rg p N1 N2. rewrite <- (Sg p N1 N2). apply nth_mid; [exact Ly|]. intro X. apply N2.
    exists (b_pos b), id, (head_len (b_size b)), (sz_len (b_size b)). split; [exact B|]. split; [exact Hid|]. lia. }
  assert (Hd : head_len (b_size b) = if sz_ext (b_size b) then 16 else 8) by reflexivity.
  destruct (sz_ext (b_size b)).
  - destruct (cut_at (a ++ t) (b_pos b) 16 ltac:(lia)) as (x & y & z & Ec & Lx & Ly).
    destruct (cut_at y 4 4 ltac:(lia)) as (y1 & y2 & y3 & -> & L1 & L2). rewrite !blen_app in Ly. rewrite <- !app_assoc in Ec.
    destruct (tri_seek f 0 (b_pos b) a t x (y1 ++ y2 ++ y3 ++ z) Ec (eq_sym Lx) ltac:(lia) s S) as (s1 & E1 & S1).
    unfold wbind at 1 in H. rewrite E1 in H.
    destruct (tri_write f 0 cap x (y2 ++ y3 ++ z) y1 (be32 1) ltac:(unfold be32; rewrite blen_be; lia) ltac:(lia) s1 (proj1 S1)) as (s2 & E2 & S2).
    unfold wbind at 1 in H. rewrite E2 in H. assert (Lb : blen (be32 1) = 4) by reflexivity.
    destruct (tri_seek_cur f 0 4 (x ++ be32 1) y2 (y3 ++ z) ltac:(lia) ltac:(rewrite !blen_app; lia) s2 S2) as (s3 & E3 & S3).
    unfold wbind at 1 in H. rewrite E3 in H.
    destruct (tri_write f 0 cap ((x ++ be32 1) ++ y2) z y3 (be64 (i_as_u64 n)) ltac:(unfold be64; rewrite blen_be; lia) ltac:(lia) s3 (proj1 S3)) as (s4 & E4 & S4).
    rewrite E4 in H. injection H as <- <-. split; [reflexivity|]. exists (((x ++ be32 1) ++ y2) ++ be64 (i_as_u64 n)), z.
    assert (Lb8 : blen (be64 (i_as_u64 n)) = 8) by (unfold be64; apply blen_be).
    split; [exact S4|]. split; [rewrite !blen_app; lia|]. rewrite Ec in Ll. rewrite !blen_app in *. split; [lia|].
    rewrite <- (app_assoc _ (be64 _) z). apply (Same (b_pos b + 8) (be64 (i_as_u64 n)) (((x ++ be32 1) ++ y2) ++ y3 ++ z) ((x ++ be32 1) ++ y2) y3 z eq_refl); [rewrite !blen_app; lia|lia| |lia].
    rewrite <- !app_assoc. apply (Same (b_pos b) (be32 1) (x ++ y1 ++ y2 ++ y3 ++ z) x y1 (y2 ++ y3 ++ z) eq_refl Lx ltac:(lia)); [rewrite <- Ec; exact Sm|lia].
  - destruct (cut_at (a ++ t) (b_pos b) 4 ltac:(lia)) as (x & y & z & Ec & Lx & Ly).
    destruct (tri_seek f 0 (b_pos b) a t x (y ++ z) Ec (eq_sym Lx) ltac:(lia) s S) as (s1 & E1 & S1).
    unfold wbind at 1 in H. rewrite E1 in H. assert (Lb : blen (be32 (i_as_u32 n)) = 4) by (unfold be32; apply blen_be).
    destruct (tri_write f 0 cap x z y (be32 (i_as_u32 n)) ltac:(lia) ltac:(lia) s1 (proj1 S1)) as (s2 & E2 & S2).
    rewrite E2 in H. injection H as <- <-. split; [reflexivity|]. exists (x ++ be32 (i_as_u32 n)), z. split; [exact S2|]. rewrite Ec in Ll. rewrite !blen_app in *.
    split; [lia|]. split; [lia|]. rewrite <- app_assoc. apply (Same (b_pos b) (be32 (i_as_u32 n)) (x ++ y ++ z) x y z eq_refl Lx ltac:(lia)); [rewrite <- Ec; exact Sm|lia].
Qed.
Lemma update_all_uinv : forall cap f start diff l k s r s', blen f < 2 ^ 62 -> start <= blen f -> Forall (headed f start) l -> l <> [] \/ k = start -> uinv f k s ->
  update_all cap Checked diff l s = (r, s') -> aborted r \/ (r = Ok tt /\ uinv f start s').
Proof.
  intros cap f start diff. induction l as [|b l IH]; intros k s r s' Lf Ls F K U H; cbn [update_all] in H.
  - injection H as <- <-. right. split; [reflexivity|]. destruct K as [K| ->]; [contradiction|exact U].
  - inversion F; subst. unfold wbind at 1 in H. destruct (update_atom cap Checked diff b s) as [r1 s1] eqn:E.
    destruct (update_uinv _ _ start _ _ _ _ _ _ Lf Ls ltac:(eassumption) U E) as [X|[-> U1]].
    + left. destruct r1; try contradiction; injection H as <- <-; exact I.
    + eapply (IH start); eauto.
Qed.

(** * The rest *)

Lemma set_length_split : forall (b : bytes) n k, n <= k -> exists y, set_length b k = firstn (N.to_nat n) (set_length b k) ++ y /\ blen y = k - n.
Proof.
  intros b n k L. exists (skipn (N.to_nat n) (set_length b k)). split; [symmetry; apply firstn_skipn|]. pose proof (blen_set_length b k).
  unfold blen in *. rewrite skipn_length. lia.
Qed.

Lemma finish : forall cap f p items bs s, blen f < 2 ^ 62 -> announced items < 2 ^ 61 ->
  plan_ok f p -> pl_start p <= pl_moved_start p <= blen f -> pl_moved p = skipn (N.to_nat (pl_moved_start p)) f ->
  pl_diff p = (Z.of_N (blen bs) - Z.of_N (pl_moved_start p - pl_start p))%Z -> writes (new_atoms_write Checked (pl_new p)) bs ->
  uinv f (pl_start p) s -> exists s' front,
    ((n <== wlift (addi Checked (as_i64 (pl_old_len p)) (pl_diff p)) ;; file_set_len (i_as_u64 n)) =;;
     bw_seek_start (pl_start p) =;; bw_out cap (new_atoms_write Checked (pl_new p)) =;;
     (q <== wlift (addi Checked (as_i64 (pl_moved_start p)) (pl_diff p)) ;; bw_seek_start (i_as_u64 q)) =;;
     bw_write cap (pl_moved p) =;; bw_flush) s = (Ok tt, s') /\ w_buf s' = [] /\
    w_file s' = front ++ bs ++ pl_moved p /\ blen front = pl_start p /\
    (forall i, i < pl_start p -> ~ in_table f i -> ~ in_size_field f i -> nth_error front (N.to_nat i) = nth_error f (N.to_nat i)) /\
    run_ops (w_ops s') f = w_file s'.
Proof.
  intros cap f p items bs s Lf La (_ & _ & _ & _ & O & D1 & D2) Lst Mv Df [W1 W2] (a & b & S & Lc & Ll & Sm).
  assert (T63 : two63 = 9223372036854775808) by reflexivity. assert (T64 : two64 = 18446744073709551616) by reflexivity.
  change (2 ^ 62) with 4611686018427387904 in Lf. change (2 ^ 63)%Z with 9223372036854775808%Z in *.
  set (start := pl_start p) in *. set (stop := pl_moved_start p) in *. set (len := blen f - (stop - start) + blen bs).
  assert (A1 : addi Checked (as_i64 (pl_old_len p)) (pl_diff p) = Ok (Z.of_N len)).
  { rewrite as_i64_small by lia. rewrite BaseLemmas.addi_ok by lia. f_equal. unfold len. lia. }
  assert (A2 : addi Checked (as_i64 stop) (pl_diff p) = Ok (Z.of_N (start + blen bs))).
  { rewrite as_i64_small by lia. rewrite BaseLemmas.addi_ok by lia. f_equal. lia. }
  assert (U : forall n, n < two63 -> i_as_u64 (Z.of_N n) = n). { intros n L. unfold i_as_u64. rewrite Z.mod_small by (unfold two63, two64 in *; lia). lia. }
  assert (Lb : len < two63) by (unfold len; lia).
  (* set_len *)
  set (g := a ++ set_length b (len - blen a)).
  assert (Lg : blen g = len) by (unfold g; rewrite blen_app, blen_set_length; unfold len; lia).
  assert (Gf : forall i, i < start -> nth_error g (N.to_nat i) = nth_error (a ++ b) (N.to_nat i)).
  { intros i Li. unfold g. destruct (N.lt_ge_cases i (blen a)) as [X|X].
    - rewrite !nth_error_app1 by (unfold blen in X; lia). reflexivity.
    - rewrite !nth_error_app2 by (unfold blen in X; lia). unfold set_length.
      assert (Bl : start - blen a <= blen b) by (rewrite blen_app in Ll; lia).
      rewrite nth_error_app1.
      + set (k := (N.to_nat i - List.length a)%nat). assert (Kn : (k < N.to_nat (len - blen a))%nat) by (unfold k, len, blen in *; lia).
        rewrite <- (firstn_skipn (N.to_nat (len - blen a)) b) at 2. rewrite nth_error_app1; [reflexivity|]. rewrite firstn_length. unfold k, blen in *. lia.
      + rewrite firstn_length. unfold len, blen in *. lia. }
  destruct (cut_at g start (blen bs) ltac:(unfold len in Lg; lia)) as (x & y & z & Eg & Lx & Ly).
  assert (Lm : blen (pl_moved p) = blen z).
  { rewrite Mv. apply (f_equal blen) in Eg. rewrite !blen_app in Eg. unfold blen in *. rewrite skipn_length. unfold len in Lg. lia. }
  assert (T : tri (st f 0 a b)
    ((n <== wlift (addi Checked (as_i64 (pl_old_len p)) (pl_diff p)) ;; file_set_len (i_as_u64 n)) =;;
     bw_seek_start start =;; bw_out cap (new_atoms_write Checked (pl_new p)) =;;
     (q <== wlift (addi Checked (as_i64 stop) (pl_diff p)) ;; bw_seek_start (i_as_u64 q)) =;;
     bw_write cap (pl_moved p) =;; bw_flush) tt (stf f 0 ((x ++ bs) ++ pl_moved p) [])).
  { eapply tri_bind. { eapply tri_lift; [exact A1|]. rewrite U by exact Lb. apply tri_set_len; [unfold len; lia|exact Lb|lia]. }
    eapply tri_bind; [apply (tri_seek f 0 start a _ x (y ++ z)); [exact Eg|lia|lia]|].
    eapply tri_bind. { eapply tri_weaken; [apply (tri_out f 0 cap _ tt x z y W2); [|lia]|intros s' X; apply X|intros s' X; exact X]. unfold out in W1. rewrite W1. exact Ly. }
    unfold out in W1. rewrite W1.
    eapply tri_bind. { eapply tri_lift; [exact A2|]. rewrite U by lia. apply (tri_seek f 0 (start + blen bs) (x ++ bs) z (x ++ bs) z eq_refl); [rewrite blen_app; lia|lia]. }
    eapply tri_bind; [|apply tri_flush]. eapply tri_weaken; [apply (tri_write f 0 cap (x ++ bs) [] z (pl_moved p)); [lia|lia]|intros s' X; rewrite app_nil_r; apply X|intros s' X; exact X]. }
  destruct (T s S) as (s' & Es & S'). exists s', x. split; [exact Es|]. split; [apply S'|]. pose proof (stf_file _ _ _ _ _ S') as F'. rewrite app_nil_r, <- app_assoc in F'.
  split; [exact F'|]. split; [exact Lx|]. split; [|apply S'].
  intros i Li N1 N2. rewrite <- (Sm i N1 N2), <- (Gf i Li), Eg. rewrite nth_error_app1 by (unfold blen in Lx; lia). reflexivity.
Qed.

Theorem any_write : forall cap fuel items f pos, blen f < 2 ^ 62 -> announced items < 2 ^ 61 -> no_huge_box f -> exact_items items -> items_fit items ->
  wr_res (write_tag_to cap fuel Checked items f pos) = Ok tt ->
  exists start stop front new, replaced f items start stop new /\ start <= stop <= blen f /\ blen front = start /\
    wr_file (write_tag_to cap fuel Checked items f pos) = front ++ new ++ skipn (N.to_nat stop) f /\
    forall i, i < start -> ~ in_table f i -> ~ in_size_field f i -> nth_error front (N.to_nat i) = nth_error f (N.to_nat i).
Proof.
  intros cap fuel items f pos Lf La Hh Ex Fit H. unfold write_tag_to in *. destruct (prepare fuel Checked items f pos) as [[p q]| | |] eqn:P; try discriminate H.
  pose proof (prepare_inv fuel items f pos p q Lf La P) as Pl. pose proof (prepare_any fuel items f pos p q Lf La Hh Ex Fit P) as (bs & Rp & Lst & Mv & Df & W & Up & Un).
  destruct (execute cap Checked p (Wst f 0 [] [])) as [r s] eqn:E.
  destruct (bw_flush s) as [rf sf] eqn:Ef. cbn [wr_res] in H. subst r.
  unfold execute in E. unfold wbind at 1 in E. destruct ((if b_pos (vb_bounds (pl_moov p)) <? pl_mdat_pos p then adjust_traks cap Checked (pl_diff p) (vb_trak (pl_moov p)) else wret tt) (Wst f 0 [] [])) as [r1 s1] eqn:E1.
  assert (X : aborted r1 \/ winv f s1).
  { destruct (_ <? _) in E1; [|injection E1 as <- <-; right; apply winv_init]. eapply adjust_traks_inv; [exact Lf|apply winv_init|apply Pl|exact E1]. }
  destruct r1 as [u|e1| |]; try discriminate E. destruct X as [[]|((a & b & S) & Lg & Sm)].
  pose proof (stf_file _ _ _ _ _ S) as Fs.
  assert (U : uinv f (blen a) s1).
  { exists a, b. split; [apply S|]. split; [lia|]. rewrite <- Fs. split; [exact Lg|]. intros i N1 _. apply Sm, N1. }
  unfold wbind at 1 in E. destruct (update_all cap Checked (pl_diff p) (pl_update p) s1) as [r2 s2] eqn:E2.
  destruct (update_all_uinv cap f (pl_start p) (pl_diff p) (pl_update p) (blen a) s1 r2 s2 Lf ltac:(lia) Up (or_introl Un) U E2) as [X|[-> U2]];
    [destruct r2; try contradiction; discriminate E|].
  destruct (finish cap f p items bs s2 Lf La Pl Lst Mv Df W U2) as (s3 & front & E3 & B3 & F3 & L3 & S3 & _).
  cbv beta iota in E. rewrite E3 in E. injection E as <-. exists (pl_start p), (pl_moved_start p), front, bs.
  split; [exact Rp|]. split; [exact Lst|]. split; [exact L3|]. split; [|exact S3].
  unfold bw_flush, os_write in Ef. rewrite B3 in Ef. injection Ef as _ <-. cbn [wr_file w_file]. rewrite <- Mv. exact F3.
Qed.
