(** Text and numbers mean what the standards say: C76 (see properties.jsonl and UnicodeSpec). *)

From Coq Require Import List NArith ZArith Bool Lia Arith String.
From Coq Require Import ZifyBool ZifyNat ZifyN.
From Verif Require Import Base BaseLemmas Utf UtfLemmas Types Stream Parse Find Write TagSpec FileSpec ParseLemmas ReadProofs
  ExampleFile ReadMore ReadSpec ReadFacts ReadBad ReadErr ReadTerm UnicodeSpec UnicodeProofs Props_ReadErr.
Import ListNotations.
Local Open Scope list_scope.

(** The strings of the model are the sequences of scalar values, and each of them is spelt in exactly one way in either
    encoding, and no two of them alike. *)
Theorem C76_strings : forall s, (wf_ustr s = true <-> Forall scalar s) /\
  (Forall scalar s -> exists a b, utf8 s a /\ utf16 s b).
Proof.
  intros s. assert (W : wf_ustr s = true <-> Forall scalar s).
  { unfold wf_ustr. rewrite forallb_forall, Forall_forall. split; intros H c Hc; apply scalar_is, H, Hc. }
  split; [exact W|]. intros H. apply W in H. eexists _, _. split; [apply utf8_is|apply utf16_is]; (split; [exact H|reflexivity]).
Qed.
Print Assumptions C76_strings.

Theorem C76_unique : forall s s' l l',
  (utf8 s l -> Forall scalar s) /\ (utf16 s l -> Forall scalar s) /\
  (utf8 s l -> utf8 s l' -> l = l') /\ (utf8 s l -> utf8 s' l -> s = s') /\
  (utf16 s l -> utf16 s l' -> l = l') /\ (utf16 s l -> utf16 s' l -> s = s').
Proof.
  assert (W : forall s, wf_ustr s = true -> Forall scalar s) by (intros s; apply C76_strings).
  intros s s' l l'. rewrite !utf8_is, !utf16_is. split; [intros [A _]; apply W, A|]. split; [intros [A _]; apply W, A|].
  split; [intros [_ <-] [_ <-]; reflexivity|]. split.
  { intros [A <-] [B E]. apply numbers_inj in E. pose proof (dec8_enc8 s A). pose proof (dec8_enc8 s' B). congruence. }
  split; [intros [_ <-] [_ <-]; reflexivity|].
  intros [A <-] [B E]. apply numbers_inj in E. pose proof (dec16_enc16 s A) as D1. pose proof (dec16_enc16 s' B) as D2.
  rewrite <- (bytes_units_units_bytes _ (enc16_units s A)) in D1. rewrite <- (bytes_units_units_bytes _ (enc16_units s' B)), E in D2. congruence.
Qed.
Print Assumptions C76_unique.

(** The sequences of bytes that spell something are those of table 3-7. *)
Theorem C76_table : forall l : bytes, (exists s, utf8 s (numbers l)) <-> well_formed (numbers l).
Proof. intros l. rewrite well_formed_is. split; intros (s & H); exists s; apply dec8_is, H. Qed.
Print Assumptions C76_table.

(** Reading UTF-8. *)
Theorem C76_read_utf8 : forall n f p, n < 2 ^ 63 -> p + n <= blen f ->
  (forall s q, read_utf8 n f p = Ok (s, q) <-> q = p + n /\ utf8 s (numbers (slice f p n))) /\
  (read_utf8 n f p = Err EUtf8 <-> ~ well_formed (numbers (slice f p n))).
Proof.
  intros n f p L H. assert (X : read_u8_vec n f p = Ok (slice f p n, p + n)).
  { unfold read_u8_vec, read_exact. assert (W : two63 = 2 ^ 63) by reflexivity. rewrite W. replace (2 ^ 63 <=? n) with false by lia. destruct (n =? 0) eqn:Z.
    - assert (n = 0) as -> by lia. rewrite N.add_0_r. reflexivity.
    - replace (p + n <=? blen f) with true by lia. reflexivity. }
  unfold read_utf8, bind. rewrite X. destruct (dec8 (slice f p n)) as [t|] eqn:D; unfold ret, fail.
  - split; [|split; [discriminate|]].
    + intros s q. split; [intros E; injection E as <- <-; split; [reflexivity|apply dec8_is, D]|]. intros [-> U]. apply dec8_is in U. congruence.
    + intros Nw. exfalso. apply Nw, well_formed_is. eauto.
  - split; [|split; [|reflexivity]].
    + intros s q. split; [discriminate|]. intros [_ U]. apply dec8_is in U. congruence.
    + intros _ Wf. apply well_formed_is in Wf. destruct Wf as (s & E). congruence.
Qed.
Print Assumptions C76_read_utf8.

Lemma even_nat : forall k, N.even (N.of_nat k) = Nat.even k.
Proof. induction k as [|k IH]; [reflexivity|]. now rewrite Nat2N.inj_succ, N.even_succ, <- N.negb_even, IH, Nat.even_succ, <- Nat.negb_even. Qed.

(** Reading UTF-16: of an odd number of bytes the last one is dropped (finding of C34). *)
Theorem C76_read_utf16 : forall n f p, n < 2 ^ 63 -> p + n <= blen f ->
  let l := numbers (slice f p (if N.even n then n else n - 1)) in
  (forall s q, read_utf16 n f p = Ok (s, q) <-> q = p + n /\ utf16 s l) /\
  (read_utf16 n f p = Err EUtf16 <-> forall s, ~ utf16 s l).
Proof.
  intros n f p L H l. assert (X : read_u8_vec n f p = Ok (slice f p n, p + n)).
  { unfold read_u8_vec, read_exact. assert (W : two63 = 2 ^ 63) by reflexivity. rewrite W. replace (2 ^ 63 <=? n) with false by lia. destruct (n =? 0) eqn:Z.
    - assert (n = 0) as -> by lia. rewrite N.add_0_r. reflexivity.
    - replace (p + n <=? blen f) with true by lia. reflexivity. }
  assert (D : forall s, dec16 (bytes_units (slice f p n)) = Some s <-> utf16 s l).
  { intros s. unfold l. destruct (N.even n) eqn:Ev.
    - apply dec16_is. rewrite <- even_nat. change (N.of_nat (List.length (slice f p n))) with (blen (slice f p n)). rewrite blen_slice by lia. exact Ev.
    - destruct (N.eq_0_gt_0_cases n) as [->|Pos]; [discriminate|]. rewrite (slice_split f p (n - 1) n) by lia. replace (n - (n - 1)) with 1 by lia.
      assert (Ln : blen (slice f (p + (n - 1)) 1) = 1) by (apply blen_slice; lia). destruct (slice f (p + (n - 1)) 1) as [|x [|y r]]; [discriminate| |exfalso; unfold blen in Ln; cbn in Ln; lia].
      assert (E1 : Nat.even (List.length (slice f p (n - 1))) = true).
      { rewrite <- even_nat. change (N.of_nat (List.length (slice f p (n - 1)))) with (blen (slice f p (n - 1))). rewrite blen_slice by lia.
        replace n with (N.succ (n - 1)) in Ev by lia. rewrite N.even_succ in Ev. unfold N.odd in Ev. now apply negb_false_iff in Ev. }
      rewrite (units_drop _ _ x (le_n _) E1). apply dec16_is, E1. }
  unfold read_utf16, bind. rewrite X. destruct (dec16 (bytes_units (slice f p n))) as [t|] eqn:E; unfold ret, fail.
  - split; [|split; [discriminate|]].
    + intros s q. split; [intros F; injection F as <- <-; split; [reflexivity|now apply D]|]. intros [-> U]. apply D in U. congruence.
    + intros Nw. exfalso. apply (Nw t), D. reflexivity.
  - split; [|split; [|reflexivity]].
    + intros s q. split; [discriminate|]. intros [_ U]. apply D in U. congruence.
    + intros _ s U. apply D in U. congruence.
Qed.
Print Assumptions C76_read_utf16.

(** What is written for a text, and its length: the declared length of a UTF-16 value is the number of units (finding of C11). *)
Theorem C76_written : forall s, Forall scalar s ->
  (exists l, write_raw (DUtf8 s) = ([l], Ok tt) /\ utf8 s (numbers l)) /\
  (exists ls, write_raw (DUtf16 s) = (ls, Ok tt) /\ utf16 s (numbers (List.concat ls)) /\ Forall (fun l => blen l = 2) ls).
Proof.
  intros s W. apply (proj1 (C76_strings s)) in W. split.
  - exists (enc8 s). split; [reflexivity|]. apply utf8_is. now split.
  - exists (map be16 (enc16 s)). cbn [write_raw]. destruct (out_omap_emit be16 (enc16 s)) as [A B]. split; [destruct (omap _ _) as [x y]; cbn [fst snd] in *; now subst|].
    split; [apply utf16_is; split; [exact W|reflexivity]|]. apply Forall_forall. intros l H. apply in_map_iff in H. destruct H as (u & <- & _). apply blen_be.
Qed.
Print Assumptions C76_written.

(** Numbers are big-endian: the digits of the bytes, one byte after the other. *)
Definition digits (b : byte) (x : list bool) : Prop := bits 8 x /\ val x = b2n b.
Lemma digits_val : forall l xs, Forall2 digits l xs -> val (List.concat xs) = unbe l.
Proof.
  intros l xs H. assert (G : val (List.concat xs) = unbe l /\ List.length (List.concat xs) = (8 * List.length l)%nat); [|apply G].
  induction H as [|b x l xs [B V] H [IH IL]]; [split; reflexivity|]. cbn [List.concat List.length]. rewrite app_length, val_app, unbe_cons, IH, IL, V, B. split; [|lia].
  f_equal. f_equal. unfold blen. rewrite Nat2N.inj_mul. change (N.of_nat 8) with 8. rewrite N.pow_mul_r. reflexivity.
Qed.
Theorem C76_numbers : forall f p,
  (forall xs, p + 1 <= blen f -> Forall2 digits (slice f p 1) xs -> read_u8 f p = Ok (val (List.concat xs), p + 1)) /\
  (forall xs, p + 2 <= blen f -> Forall2 digits (slice f p 2) xs -> read_u16 f p = Ok (val (List.concat xs), p + 2)) /\
  (forall xs, p + 4 <= blen f -> Forall2 digits (slice f p 4) xs -> read_u32 f p = Ok (val (List.concat xs), p + 4)) /\
  (forall xs, p + 8 <= blen f -> Forall2 digits (slice f p 8) xs -> read_u64 f p = Ok (val (List.concat xs), p + 8)).
Proof.
  intros f p. assert (G : forall n xs, 0 < n -> p + n <= blen f -> Forall2 digits (slice f p n) xs -> (b <- read_exact n ;; ret (unbe b)) f p = Ok (val (List.concat xs), p + n)).
  { intros n xs Pos L D. unfold bind, read_exact, ret. replace (n =? 0) with false by lia. replace (p + n <=? blen f) with true by lia. now rewrite (digits_val _ _ D). }
  repeat split; intros xs L D; apply G; try assumption; lia.
Qed.
Print Assumptions C76_numbers.

(** The same digits are written. *)
Theorem C76_numbers_written : forall n x,
  (bits 16 x -> val x = n -> exists xs, Forall2 digits (be16 n) xs /\ List.concat xs = x) /\
  (bits 32 x -> val x = n -> exists xs, Forall2 digits (be32 n) xs /\ List.concat xs = x) /\
  (bits 64 x -> val x = n -> exists xs, Forall2 digits (be64 n) xs /\ List.concat xs = x).
Proof.
  assert (G : forall k n x, bits (8 * k) x -> n mod 2 ^ N.of_nat (8 * k) = val x -> exists xs, Forall2 digits (be k n) xs /\ List.concat xs = x).
  { induction k as [|k IH]; intros n x B V.
    - destruct x; [exists []; split; constructor|discriminate].
    - assert (B1 : bits 8 (firstn 8 x)) by (unfold bits in *; rewrite firstn_length; lia). assert (B2 : bits (8 * k) (skipn 8 x)) by (unfold bits in *; rewrite skipn_length; lia).
      assert (P : 2 ^ N.of_nat (8 * k) = 256 ^ N.of_nat k) by (rewrite Nat2N.inj_mul; change (N.of_nat 8) with 8; rewrite N.pow_mul_r; reflexivity).
      assert (P1 : 2 ^ N.of_nat (8 * S k) = 256 * 256 ^ N.of_nat k).
      { replace (8 * S k)%nat with (8 + 8 * k)%nat by lia. rewrite Nat2N.inj_add, N.pow_add_r, P. reflexivity. }
      rewrite P1 in V. assert (Q0 : 0 < 256 ^ N.of_nat k) by (apply N.neq_0_lt_0, N.pow_nonzero; lia). remember (256 ^ N.of_nat k) as Q eqn:EQ.
      rewrite <- (firstn_skipn 8 x), (val2 _ _ _ B2), P in V. pose proof (val_bits _ _ B2) as L2. rewrite P in L2. pose proof (val_bits _ _ B1) as L1. change (2 ^ N.of_nat 8) with 256 in L1.
      assert (Q1 : 256 * Q <> 0) by lia. pose proof (N.div_mod n (256 * Q) Q1) as Dv. rewrite V in Dv. set (t := n / (256 * Q)) in *. clearbody t.
      assert (V1 : (n / Q) mod 256 = val (firstn 8 x)).
      { replace (n / Q) with (256 * t + val (firstn 8 x)); [|apply (N.div_unique n Q _ (val (skipn 8 x))); lia].
        rewrite N.add_comm, N.mul_comm, N.mod_add by lia. now apply N.mod_small. }
      assert (V2 : n mod Q = val (skipn 8 x)) by (symmetry; apply (N.mod_unique n Q (256 * t + val (firstn 8 x))); lia).
      destruct (IH n (skipn 8 x) B2) as (xs & F & C); [rewrite P; exact V2|]. exists (firstn 8 x :: xs). split.
      + cbn [be]. constructor; [|exact F]. split; [exact B1|]. rewrite b2n_n2b, <- EQ. symmetry. exact V1.
      + cbn [List.concat]. rewrite C. apply firstn_skipn. }
  assert (K : forall k n x, bits (8 * k) x -> val x = n -> exists xs, Forall2 digits (be k n) xs /\ List.concat xs = x).
  { intros k n x B V. apply G; [exact B|]. rewrite V. apply N.mod_small. rewrite <- V. apply val_bits, B. }
  intros n x. split; [apply (K 2%nat)|]. split; [apply (K 4%nat)|apply (K 8%nat)].
Qed.
Print Assumptions C76_numbers_written.

(** A whole file: wherever a value of type 1 stands among the items, it is read as the text its bytes spell, or the file is
    rejected. *)
Theorem C76_value : forall c it t e e' id loc bs m fuel,
  describes (put c it) t -> effective c -> id <> id4 "free" -> List.length loc = 4%nat ->
  let f := put c (value_item e e' id 1 loc bs) in
  good_sizes f -> blen (render_all f) < N.of_nat fuel ->
  (forall s, utf8 s (numbers bs) -> exists l1 l2 items,
     items_around c l1 l2 /\ merged (l1 ++ AtomData (IFourcc id) [DUtf8 s] :: l2) items /\
     read_tag fuel m (render_all f) = Ok (Tag (tg_ftyp t) (tg_info t) items)) /\
  (~ well_formed (numbers bs) -> read_tag fuel m (render_all f) = Err EUtf8).
Proof.
  intros c it t e e' id loc bs m fuel D Ef Hid Hloc f G L. destruct (C34_utf8_value c it t e e' id loc bs m fuel D Ef Hid Hloc G L) as [A B]. split.
  - intros s U. apply utf8_is in U. destruct U as [W E]. apply numbers_inj in E. now apply A.
  - intros Nw. apply B. intros (s & W & E). apply Nw, well_formed_is. exists s. apply dec8_correct. now split.
Qed.
Print Assumptions C76_value.

(** "aä€😀" in both encodings, an overlong form and a surrogate. *)
Example C76_example :
  utf8 [97; 228; 8364; 128512] [0x61; 0xC3; 0xA4; 0xE2; 0x82; 0xAC; 0xF0; 0x9F; 0x98; 0x80] /\
  utf16 [97; 228; 8364; 128512] [0; 0x61; 0; 0xE4; 0x20; 0xAC; 0xD8; 0x3D; 0xDE; 0x00] /\
  read_utf8 10 (raw [0x61; 0xC3; 0xA4; 0xE2; 0x82; 0xAC; 0xF0; 0x9F; 0x98; 0x80]) 0 = Ok ([97; 228; 8364; 128512], 10) /\
  read_utf8 2 (raw [0xC0; 0x80]) 0 = Err EUtf8 /\ read_utf8 3 (raw [0xED; 0xA0; 0x80]) 0 = Err EUtf8 /\ ~ well_formed (numbers (raw [0xC0; 0x80])) /\
  read_utf16 5 (raw [0xD8; 0x3D; 0xDE; 0x00; 7]) 0 = Ok ([128512], 5) /\ read_utf16 2 (raw [0xD8; 0x3D]) 0 = Err EUtf16.
Proof.
  split; [apply utf8_is; split; reflexivity|]. split; [apply utf16_is; split; reflexivity|]. split; [reflexivity|]. split; [reflexivity|]. split; [reflexivity|].
  split; [intros H; apply well_formed_is in H; destruct H as (s & E); discriminate|]. split; reflexivity.
Qed.
Example C76_example_numbers : read_u32 (raw [0x12; 0x34; 0x56; 0x78]) 0 = Ok (0x12345678, 4) /\
  Forall2 digits (slice (raw [0x12; 0x34; 0x56; 0x78]) 0 2) [[false; false; false; true; false; false; true; false]; [false; false; true; true; false; true; false; false]].
Proof. split; [reflexivity|]. repeat constructor. Qed.

